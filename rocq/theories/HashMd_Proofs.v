(** MD5: the code's loop is the published sequence of operations. *)
From Verif Require Import Common CommonFacts Hash_Model Hash_Spec Hash_Proofs.

Lemma skip_four j l : (j + 4 <= List.length l)%nat ->
  firstn 4 (skipn j l) = [nthz l (Z.of_nat j); nthz l (Z.of_nat j + 1); nthz l (Z.of_nat j + 2); nthz l (Z.of_nat j + 3)].
Proof.
  intros Hj. assert (L : (4 <= List.length (skipn j l))%nat) by (rewrite skipn_length; lia).
  assert (N : forall c, 0 <= c -> nthz l (Z.of_nat j + c) = nthz (skipn j l) c).
  { intros c Hc. rewrite <- nthz_dropz by lia. unfold dropz. now rewrite Nat2Z.id. }
  rewrite <- (Z.add_0_r (Z.of_nat j)) at 1. rewrite !N by lia.
  destruct (skipn j l) as [|a [|b [|c [|d q]]]]; cbn [List.length] in L; try lia. reflexivity.
Qed.

Lemma lor4 a b c d : byteP a -> byteP b -> byteP c -> byteP d ->
  a .| (b << 8) .| (c << 16) .| (d << 24) = a + 256 * b + 65536 * c + 16777216 * d.
Proof.
  unfold byteP. intros Ha Hb Hc Hd.
  rewrite (Z.lor_comm a), (lor_shl_add' b a 8 256) by (lia || reflexivity).
  rewrite (Z.lor_comm (b * 256 + a)), (lor_shl_add' c _ 16 65536) by (lia || reflexivity).
  rewrite (Z.lor_comm (c * 65536 + (b * 256 + a))), (lor_shl_add' d _ 24 16777216) by (lia || reflexivity).
  lia.
Qed.

Lemma md5_words data : bytesP data -> List.length data = 64%nat ->
  map (md5_word data) (upto 16) = map unle (blocks 4 data).
Proof.
  intros Hb Hl. rewrite (blocks_index 4 ltac:(lia) 16) by (rewrite Hl; reflexivity).
  unfold upto. rewrite !map_map. apply map_ext_in. intros i Hi. apply in_seq in Hi.
  rewrite skip_four by lia. unfold md5_word. rewrite shl_mul by lia. change (2 ^ 2) with 4.
  replace (Z.of_nat (i * 4)) with (Z.of_nat i * 4) by lia.
  rewrite lor4 by (now apply bytesP_nthz).
  pose proof (bytesP_nthz data (Z.of_nat i * 4) Hb) as B0. pose proof (bytesP_nthz data (Z.of_nat i * 4 + 1) Hb) as B1.
  pose proof (bytesP_nthz data (Z.of_nat i * 4 + 2) Hb) as B2. pose proof (bytesP_nthz data (Z.of_nat i * 4 + 3) Hb) as B3.
  unfold byteP in *. rewrite u32_id by lia. unfold unle, unbe. cbn [rev app unbe_acc]. lia.
Qed.

Lemma unle_words n l : (n <= 4)%nat -> (0 < n)%nat -> bytesP l -> Forall (word 32) (map unle (blocks n l)).
Proof.
  intros Hn Hn0 Hb. unfold blocks. generalize (List.length l) as f. intros f. revert l Hb.
  induction f as [|f IH]; intros l Hb; [constructor |]. destruct l as [|x l]; [constructor |].
  cbn [cut map]. constructor.
  - assert (B : bytesP (rev (firstn n (x :: l)))).
    { unfold bytesP. apply Forall_rev. apply (bytesP_takez (Z.of_nat n)) in Hb. unfold takez in Hb.
      now rewrite Nat2Z.id in Hb. }
    assert (L : len (rev (firstn n (x :: l))) <= 4) by (rewrite len_rev; unfold len; rewrite firstn_length; lia).
    unfold unle. revert B L. generalize (rev (firstn n (x :: l))). intros q B L.
    unfold word. change (2 ^ 32) with 4294967296.
    destruct q as [|a [|b [|c [|d [|e q]]]]];
      try (rewrite !len_cons in L; pose proof (len_nonneg q); lia);
      unfold bytesP in B; repeat match goal with H : Forall _ (_ :: _) |- _ => inversion H; clear H; subst end;
      unfold unbe; cbn [unbe_acc]; unfold byteP in *; lia.
  - apply IH. apply (bytesP_dropz (Z.of_nat n)) in Hb. unfold dropz in Hb. now rewrite Nat2Z.id in Hb.
Qed.

(** The function, the word and the shift that the code uses at turn [i]. *)
Definition ffun (i : Z) : Z -> Z -> Z -> Z :=
  if i <? 16 then fF else if i <? 32 then fG else if i <? 48 then fH else fI.
Definition kfun (i : Z) : Z :=
  if i <? 16 then i else if i <? 32 then (5 * i + 1) mod 16 else if i <? 48 then (3 * i + 5) mod 16 else (7 * i) mod 16.

Lemma rounds_code : rounds = map (fun i => (ffun i, kfun i, nthz md5_shift i)) (upto 64).
Proof. reflexivity. Qed.
Lemma T_code : T = map (nthz md5_K) (upto 64).
Proof. reflexivity. Qed.

Lemma word_op f X k s t a b c d : word 32 (op f X k s t a b c d).
Proof. unfold op, add32. apply word_mod. lia. Qed.

Lemma turn_op M A B C D i : word 32 B -> word 32 D -> 0 <= nthz md5_shift i <= 32 ->
  md5_turn M (A, B, C, D) i = (D, op (ffun i) M (kfun i) (nthz md5_shift i) (nthz md5_K i) A B C D, B, C).
Proof.
  intros HB HD Hs. unfold md5_turn, ffun, kfun, op.
  assert (E : forall x, u32 (B + (u32 (u32 x << nthz md5_shift i) .| (u32 x >> (32 - nthz md5_shift i))))
              = add32 [B; rotl 32 (nthz md5_shift i) (x mod 2 ^ 32)]).
  { intros x. rewrite rotl_code by (try assumption; rewrite u32_mod; apply word_mod; lia).
    unfold add32. cbn [fold_right]. rewrite u32_mod, Z.add_0_r, u32_mod. reflexivity. }
  assert (P : forall p q r s, p + q + r + s = fold_right Z.add 0 [p; q; s; r]) by (intros; cbn [fold_right]; lia).
  rewrite (u32_mod (Z.lnot B)), (u32_mod (Z.lnot D)), !compl_lnot by (assumption || lia).
  destruct (Z.ltb_spec i 16); [| destruct (Z.ltb_spec i 32); [| destruct (Z.ltb_spec i 48)]];
    cbv beta iota zeta; rewrite E, P; unfold fF, fG, fH, fI; rewrite ?Z.lxor_assoc; try reflexivity.
  - rewrite (Z.land_comm D B), (Z.land_comm (compl 32 D) C). reflexivity.
Qed.

Definition shiftsP (l : list Z) : Prop := Forall (fun i => 0 <= nthz md5_shift i <= 32) l.
Lemma shifts_ok i : 0 <= nthz md5_shift i <= 32.
Proof.
  apply (Forall_nthz (fun x => 0 <= x <= 32)); [lia |].
  unfold md5_shift. repeat (constructor; [lia |]). constructor.
Qed.

Lemma ops_turns X : forall n l A B C D, List.length l = (n * 4)%nat ->
  word 32 A -> word 32 B -> word 32 C -> word 32 D ->
  ops X (map (fun i => (ffun i, kfun i, nthz md5_shift i)) l) (map (nthz md5_K) l) A B C D
  = fold_left (md5_turn X) l (A, B, C, D) /\
  (let '(A', B', C', D') := fold_left (md5_turn X) l (A, B, C, D) in
   word 32 A' /\ word 32 B' /\ word 32 C' /\ word 32 D').
Proof.
  induction n as [|n IH]; intros l A B C D Hl HA HB HC HD.
  - destruct l; [| cbn in Hl; lia]. cbn. auto.
  - destruct l as [|i1 [|i2 [|i3 [|i4 l]]]]; cbn [List.length] in Hl; try lia.
    cbn [map ops fold_left]. cbn zeta.
    rewrite (turn_op X A B C D i1) by (assumption || apply shifts_ok).
    set (A' := op _ _ _ _ _ A B C D). assert (HA' : word 32 A') by apply word_op.
    rewrite (turn_op X D A' B C i2) by (assumption || apply shifts_ok).
    set (D' := op _ _ _ _ _ D A' B C). assert (HD' : word 32 D') by apply word_op.
    rewrite (turn_op X C D' A' B i3) by (assumption || apply shifts_ok).
    set (C' := op _ _ _ _ _ C D' A' B). assert (HC' : word 32 C') by apply word_op.
    rewrite (turn_op X B C' D' A' i4) by (assumption || apply shifts_ok).
    set (B' := op _ _ _ _ _ B C' D' A'). assert (HB' : word 32 B') by apply word_op.
    apply IH; [lia | assumption ..].
Qed.

Definition regs (s : Z * Z * Z * Z) : list Z := let '(A, B, C, D) := s in [A; B; C; D].
Definition wregs (s : Z * Z * Z * Z) : Prop := Forall (word 32) (regs s).

Lemma md5_add64_block s b : wregs s -> bytesP b -> List.length b = 64%nat ->
  md5_add64 (regs s) b = regs (md5_block s b) /\ wregs (md5_block s b).
Proof.
  destruct s as [[[A B] C] D]. unfold wregs. cbn [regs]. intros Hs Hb Hl.
  repeat match goal with H : Forall _ (_ :: _) |- _ => inversion H; clear H; subst end.
  unfold md5_add64, md5_block. rewrite md5_words by assumption.
  change (nthz [A; B; C; D] 0) with A. change (nthz [A; B; C; D] 1) with B.
  change (nthz [A; B; C; D] 2) with C. change (nthz [A; B; C; D] 3) with D.
  rewrite rounds_code, T_code.
  destruct (ops_turns (map unle (blocks 4 b)) 16 (upto 64) A B C D) as [E W]; [reflexivity | assumption .. |].
  rewrite E. destruct (fold_left _ _ _) as [[[A' B'] C'] D']. destruct W as (W1 & W2 & W3 & W4).
  unfold add32. cbn [fold_right]. split.
  - unfold regs. rewrite !u32_mod, !Z.add_0_r. rewrite (Z.add_comm A A'), (Z.add_comm B B'), (Z.add_comm C C'), (Z.add_comm D D').
    reflexivity.
  - repeat (constructor; [apply word_mod; lia |]). constructor.
Qed.

Lemma fold_sim {S} (add : list Z -> list Z -> list Z) (blk : S -> list Z -> S) (r : S -> list Z) (W : S -> Prop)
    (P : list Z -> Prop) :
  (forall s b, W s -> P b -> add (r s) b = r (blk s b) /\ W (blk s b)) ->
  forall bl s, W s -> Forall P bl -> fold_left add bl (r s) = r (fold_left blk bl s) /\ W (fold_left blk bl s).
Proof.
  intros Step. induction bl as [|b bl IH]; intros s Hs Hb; [split; [reflexivity | exact Hs] |].
  inversion Hb as [| ? ? B HB]; subst. cbn [fold_left].
  destruct (Step s b Hs B) as [E W1]. rewrite E. apply IH; assumption.
Qed.

Lemma md5_fold bl s : wregs s -> Forall (fun b => bytesP b /\ List.length b = 64%nat) bl ->
  fold_left md5_add64 bl (regs s) = regs (fold_left md5_block bl s) /\ wregs (fold_left md5_block bl s).
Proof.
  apply (fold_sim md5_add64 md5_block regs wregs). intros s0 b Hs [B1 B2]. now apply md5_add64_block.
Qed.

Lemma Forall_blocks n : (0 < n)%nat -> forall k l, bytesP l -> List.length l = (k * n)%nat ->
  Forall (fun b => bytesP b /\ List.length b = n) (blocks n l).
Proof.
  intros Hn k l Hb Hl. rewrite (blocks_index n Hn k l Hl). apply Forall_map. rewrite Forall_forall.
  intros i Hi. apply in_seq in Hi. split.
  - pose proof (bytesP_takez (Z.of_nat n) _ (bytesP_dropz (Z.of_nat (i * n)) _ Hb)) as B.
    unfold takez, dropz in B. now rewrite !Nat2Z.id in B.
  - rewrite firstn_length, skipn_length. nia.
Qed.

Lemma le4 h : word 32 h ->
  [(h >> 0) .& 0xff; (h >> 8) .& 0xff; (h >> 16) .& 0xff; (h >> 24) .& 0xff] = le 4 h.
Proof.
  intros Hh. rewrite !land_255, !shr_div by lia. unfold le. cbn [be rev app].
  change (2 ^ 0) with 1. rewrite Z.div_1_r. change (256 ^ Z.of_nat 0) with 1. rewrite Z.div_1_r.
  reflexivity.
Qed.

(** The length bytes as the code writes them, one by one. *)
Lemma splice8 p q b0 b1 b2 b3 b4 b5 b6 b7 : len p = 56 -> List.length q = 8%nat ->
  splice (splice (splice (splice (splice (splice (splice (splice (p ++ q)
    56 [b0]) 57 [b1]) 58 [b2]) 59 [b3]) 60 [b4]) 61 [b5]) 62 [b6]) 63 [b7]
  = p ++ [b0; b1; b2; b3; b4; b5; b6; b7].
Proof.
  intros Hp Hq. repeat (rewrite splice_app by lia). rewrite Hp.
  destruct q as [|x0 [|x1 [|x2 [|x3 [|x4 [|x5 [|x6 [|x7 [|x8 q]]]]]]]]]; cbn [List.length] in Hq; try lia.
  reflexivity.
Qed.

Lemma bit_len (m : list Z) : len m < 2 ^ 51 -> u64 (len m << 3) = 8 * len m.
Proof.
  intros Hm. pose proof (len_nonneg m). rewrite shl_mul by lia. change (2 ^ 3) with 8. change (2 ^ 51) with 2251799813685248 in Hm.
  rewrite u64_id by lia. lia.
Qed.
Lemma le8 n : 0 <= n < 2 ^ 54 ->
  [(n >> 0) .& 0xff; (n >> 8) .& 0xff; (n >> 16) .& 0xff; (n >> 24) .& 0xff; (n >> 32) .& 0xff; (n >> 40) .& 0xff;
   (n >> 48) .& 0xff; (n >> 54) .& 0xff] = le 8 n.
Proof.
  intros Hn. rewrite !land_255, !shr_div by lia. unfold le. cbn [be rev app].
  change (2 ^ 0) with 1. rewrite Z.div_1_r. change (256 ^ Z.of_nat 0) with 1. rewrite Z.div_1_r.
  change (256 ^ Z.of_nat 1) with (2 ^ 8). change (256 ^ Z.of_nat 2) with (2 ^ 16).
  change (256 ^ Z.of_nat 3) with (2 ^ 24). change (256 ^ Z.of_nat 4) with (2 ^ 32).
  change (256 ^ Z.of_nat 5) with (2 ^ 40). change (256 ^ Z.of_nat 6) with (2 ^ 48).
  change (256 ^ Z.of_nat 7) with (2 ^ 56).
  rewrite (Z.div_small n (2 ^ 54)) by exact Hn. rewrite (Z.div_small n (2 ^ 56)) by lia. reflexivity.
Qed.

Lemma md5bin_ok junk m : len junk = 64 -> bytesP m -> len m < 2 ^ 51 -> md5bin junk m = md5_spec m.
Proof.
  intros Hj Hm Hlen. pose proof (len_nonneg m) as Hm0.
  set (s0 := (unle [0x01; 0x23; 0x45; 0x67], unle [0x89; 0xab; 0xcd; 0xef],
              unle [0xfe; 0xdc; 0xba; 0x98], unle [0x76; 0x54; 0x32; 0x10])).
  assert (W0 : wregs s0) by (unfold wregs; repeat constructor; vm_compute; congruence).
  set (field := le 8 (8 * len m)).
  assert (L8 : List.length field = 8%nat) by (unfold field, le; rewrite rev_length; apply be_length).
  assert (Bl : bytesP field) by (unfold field, le, bytesP; apply Forall_rev; apply be_bytes).
  set (setlen := fun buffer : list Z =>
    let bit_len := u64 (len m << 3) in
    splice (splice (splice (splice (splice (splice (splice (splice buffer
      56 [(bit_len >> 0) .& 0xff]) 57 [(bit_len >> 8) .& 0xff]) 58 [(bit_len >> 16) .& 0xff])
      59 [(bit_len >> 24) .& 0xff]) 60 [(bit_len >> 32) .& 0xff]) 61 [(bit_len >> 40) .& 0xff])
      62 [(bit_len >> 48) .& 0xff]) 63 [(bit_len >> 54) .& 0xff]).
  assert (SL : forall p q, len p = 64 - 8 -> len q = 8 -> setlen (p ++ q) = p ++ field).
  { intros p q Hp Hq. unfold setlen. cbv zeta. rewrite splice8 by (unfold len in *; lia).
    rewrite bit_len by exact Hlen. rewrite le8 by lia. reflexivity. }
  pose proof (skel_ok md5_add64 64 field setlen junk (regs s0) m ltac:(lia) ltac:(lia) Hj) as SK.
  assert (L8z : len field = 8) by (unfold len; lia). rewrite L8z in SK. specialize (SK SL).
  change (Z.of_nat 64 - 8 - 1) with 55 in SK.
  destruct (pad_length 64 field m ltac:(lia)) as (k & Lk).
  assert (Bp : bytesP (pad (Z.of_nat 64) field m)) by (now apply pad_bytes).
  destruct (md5_fold (blocks 64 (pad (Z.of_nat 64) field m)) s0 W0 (Forall_blocks 64 ltac:(lia) k _ Bp Lk)) as [E1 W1].
  rewrite E1 in SK. clear E1.
  transitivity (flat_map (fun h => [(h >> 0) .& 0xff; (h >> 8) .& 0xff; (h >> 16) .& 0xff; (h >> 24) .& 0xff])
                  (skel md5_add64 (Z.of_nat 64) 55 setlen junk (regs s0) m)).
  { unfold md5bin, skel, setlen. cbv beta zeta.
    change (regs s0) with [0x67452301; 0xefcdab89; 0x98badcfe; 0x10325476].
    change (Z.of_nat 64) with 64.
    destruct (feed _ _ _ _ _ _) as [hash offset]. destruct (_ >? _); reflexivity. }
  rewrite SK. unfold md5_spec. fold s0 field.
  change (Z.of_nat 64) with 64 in W1 |- *.
  destruct (fold_left md5_block (blocks 64 (pad 64 field m)) s0) as [[[A B] C] D]. unfold wregs, regs in W1 |- *.
  repeat match goal with H : Forall _ (_ :: _) |- _ => inversion H; clear H; subst end.
  cbn [flat_map]. rewrite !le4 by assumption. now rewrite app_nil_r.
Qed.
