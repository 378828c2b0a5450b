(** Sending with error correction: which packets are sent. *)
From Verif Require Import Common CommonFacts CommonMore Bitfields_Model Bitfields_Proofs Mem_Model Mem_Proofs Rtp_Model Fec_Model Fec_Spec Fec_Xor_Proofs Fec_Packet_Proofs.
Import List.
Ltac Zify.zify_post_hook ::= Z.div_mod_to_equations.

Lemma peek_mid a x b n : n = len x -> peek (a ++ x ++ b) (len a) n = Some x.
Proof.
  intros ->. pose proof (len_nonneg a). pose proof (len_nonneg x). pose proof (len_nonneg b). rewrite peek_some by (rewrite ?len_app; lia). rewrite dropz_app_exact by reflexivity. f_equal. now apply takez_app_exact.
Qed.
Lemma poke_mid a x b y : len y = len x -> poke (a ++ x ++ b) (len a) y = Some (a ++ y ++ b).
Proof.
  intros E. pose proof (len_nonneg a). pose proof (len_nonneg x). pose proof (len_nonneg b). rewrite poke_some by (rewrite ?len_app; lia). unfold splice. f_equal.
  rewrite takez_app_exact by reflexivity. f_equal. f_equal. rewrite app_assoc. apply dropz_app_exact. rewrite len_app. lia.
Qed.
(** The packet's buffer. *)
Definition buffer (ssrc seq ts : Z) (rest : list Z) : list Z := [0x80; 33] ++ be 2 seq ++ be 4 ts ++ be 4 ssrc ++ rest.
Lemma hsize_ok ssrc seq ts rest : getHsize (buffer ssrc seq ts rest) = Some 12.
Proof. reflexivity. Qed.
Lemma buffer_head ssrc seq ts rest : buffer ssrc seq ts rest = ([0x80; 33] ++ be 2 seq ++ be 4 ts ++ be 4 ssrc) ++ rest.
Proof. unfold buffer. now rewrite <- !app_assoc. Qed.
Lemma head_len (ssrc seq ts : Z) : len ([0x80; 33] ++ be 2 seq ++ be 4 ts ++ be 4 ssrc) = 12.
Proof. rewrite !len_app, !be_len. reflexivity. Qed.
Lemma getSequence_ok ssrc seq ts rest : getSequence (buffer ssrc seq ts rest) = Some (u16 seq).
Proof.
  unfold getSequence, buffer. change 2 with (len [0x80; 33]) at 1. rewrite peek_mid by (rewrite be_len; reflexivity). f_equal. rewrite (rd_btohs (be 2 seq)) by (try apply be_bytes; rewrite be_len; reflexivity). change (firstn 2 (be 2 seq)) with (be 2 seq). rewrite unbe_be. reflexivity.
Qed.
Lemma getTimeStamp_ok ssrc seq ts rest : getTimeStamp (buffer ssrc seq ts rest) = Some (u32 ts).
Proof.
  unfold getTimeStamp, buffer. rewrite app_assoc. replace 4 with (len ([0x80; 33] ++ be 2 seq)) at 1 by (rewrite len_app, be_len; reflexivity). rewrite peek_mid by (rewrite be_len; reflexivity). f_equal. rewrite (rd_btohl (be 4 ts)) by (try apply be_bytes; rewrite be_len; reflexivity). change (firstn 4 (be 4 ts)) with (be 4 ts). rewrite unbe_be. reflexivity.
Qed.
Lemma sendTS_ok ssrc seq ts rest payload ms : len payload <= len rest ->
  exists rest', len rest' = len rest /\ sendTS (buffer ssrc seq ts rest) payload ms = Some (media ssrc seq (u32 (ms * 90)) payload, buffer ssrc (seq + 1) (u32 (ms * 90)) rest').
Proof.
  intros H. pose proof (len_nonneg payload). assert (exists hd tail, rest = hd ++ tail /\ len hd = len payload) as (hd & tail & -> & LT) by (exists (takez (len payload) rest), (dropz (len payload) rest); split; [symmetry; apply takez_dropz|apply len_takez; lia]).
  exists (payload ++ tail). split; [rewrite !len_app; lia|].
  unfold sendTS. rewrite hsize_ok. rewrite buffer_head. rewrite <- (head_len ssrc seq ts) at 1. rewrite poke_mid by lia.
  rewrite <- buffer_head. unfold setTimestamp, buffer at 1. rewrite wr_htobl. rewrite app_assoc. replace 4 with (len ([0x80; 33] ++ be 2 seq)) at 1 by (rewrite len_app, be_len; reflexivity). rewrite poke_mid by (rewrite !be_len; reflexivity).
  rewrite <- app_assoc. fold (buffer ssrc seq (u32 (ms * 90)) (payload ++ tail)).
  assert (EP : peek (buffer ssrc seq (u32 (ms * 90)) (payload ++ tail)) 0 (12 + len payload) = Some (media ssrc seq (u32 (ms * 90)) payload)).
  { rewrite buffer_head, app_assoc. change 0 with (len (@nil Z)) at 1. rewrite <- (app_nil_l ((_ ++ payload) ++ tail)). rewrite peek_mid by (rewrite len_app, head_len; reflexivity). unfold media. now rewrite <- !app_assoc. }
  rewrite EP. unfold increaseSequence. rewrite getSequence_ok. unfold setSequence. rewrite wr_htobs. unfold buffer at 1. change 2 with (len [0x80; 33]) at 1. rewrite poke_mid by (rewrite !be_len; reflexivity).
  cbv beta iota. repeat f_equal. cbn [snd]. unfold buffer. f_equal. f_equal. rewrite <- (be_mod 2), <- (be_mod 2 (seq + 1)). f_equal. unfold u16. change (256 ^ Z.of_nat 2) with 65536. lia.
Qed.

Lemma acc_snoc n l x y : acc n l = Some y -> acc n (l ++ [x]) = Some (mkfd (fd_seq y) (fd_ts y) (applyXOR (fd_bits y) (bits_of n x))).
Proof.
  destruct l as [|z l]; cbn [acc app]; intros H; [discriminate|]. assert (E : y = mkfd (k_seq z) (k_ts z) (xors (bits_of n z) (map (bits_of n) l))) by congruence. subst y. cbn [fd_seq fd_ts fd_bits].
  rewrite map_app. unfold xors. rewrite fold_left_app. reflexivity.
Qed.
Lemma be2 n : be 2 n = [u8 (n >> 8); u8 n].
Proof. unfold be, u8. rewrite Z.shiftr_div_pow2 by lia. change (256 ^ Z.of_nat 1) with 256. change (256 ^ Z.of_nat 0) with 1. change (2 ^ 8) with 256. rewrite Z.div_1_r. reflexivity. Qed.
Lemma bitstring_ok ssrc seq x rest n : len (k_pl x) = n -> generateBitstring (buffer ssrc seq (k_ts x) rest) (k_pl x) n = Some (bits_of n x).
Proof.
  intros L. pose proof (len_nonneg (k_pl x)). unfold generateBitstring. assert (LB : 12 <= len (buffer ssrc seq (k_ts x) rest)) by (rewrite buffer_head, len_app, head_len; pose proof (len_nonneg rest); lia). rewrite !rd_some by lia. change (nthz (buffer ssrc seq (k_ts x) rest) 0) with 0x80. change (nthz (buffer ssrc seq (k_ts x) rest) 1) with 33. cbv iota beta.
  assert (E4 : peek (buffer ssrc seq (k_ts x) rest) 4 4 = Some (be 4 (k_ts x))).
  { unfold buffer. rewrite app_assoc. replace 4 with (len ([0x80; 33] ++ be 2 seq)) at 1 by (rewrite len_app, be_len; reflexivity). apply peek_mid. rewrite be_len. reflexivity. }
  rewrite E4. rewrite peek_some by lia. rewrite takez_all by (rewrite len_dropz; lia). change (dropz 0 (k_pl x)) with (k_pl x). f_equal. unfold bits_of. rewrite be2. reflexivity.
Qed.

Section Run.
Context (R C : nat) (n s0 ssrc : Z) (m : nat -> pk).
Hypothesis HR : (2 <= R)%nat.
Hypothesis HC : (1 <= C)%nat.
Hypothesis Hn : 0 <= n < 65536.
Hypothesis Hm : forall i, k_seq (m i) = u16 (s0 + Z.of_nat i) /\ 0 <= k_ts (m i) < 2 ^ 32 /\ len (k_pl (m i)) = n.
Definition pos (b r c : nat) : nat := (b * (R * C) + r * C + c)%nat.
Definition row_items (k c : nat) : list nat := if (c =? 0)%nat then seq (k - C) C else seq (k - c) c.
Definition col_items (b q c : nat) : list nat := map (fun i => b * (R * C) + i * C + c)%nat (seq 0 q).
Definition rows_sent (b r c : nat) : nat := (b * R + r + (if (c =? 0)%nat then 0 else 1) - 1)%nat.
Definition cols_sent (b r c : nat) : nat := (b * C + (if (r =? R - 1)%nat then c else 0))%nat.
Record state (b r c : nat) (f : fec) : Prop := {
  s_rows : f_rows f = Z.of_nat R; s_cols : f_cols f = Z.of_nat C; s_len : f_len f = Some n; s_first : f_first f = (b =? 0)%nat;
  s_index : f_index f = Z.of_nat (r * C + c); s_rowSN : f_rowSN f = u16 (Z.of_nat (rows_sent b r c)); s_colSN : f_colSN f = u16 (Z.of_nat (cols_sent b r c));
  s_row : (0 < pos b r c)%nat -> f_row f = acc n (map m (row_items (pos b r c) c));
  s_col : forall c', (c' < C)%nat -> let q := if (c' <? c)%nat then S r else r in q <> 0%nat -> q <> R -> f_col f (Z.of_nat c') = acc n (map m (col_items b q c')) }.
Definition row_packet (j : nat) : list Z := fec_of (u16 (Z.of_nat j + 1)) 1 (Z.of_nat C) false n (map m (row_of C j)).
Definition column_packet (i : nat) : list Z := fec_of (u16 (Z.of_nat i + 1)) (Z.of_nat C) (Z.of_nat R) true n (map m (column_of R C i)).
Definition next (b r c : nat) : nat * nat * nat :=
  if (c + 1 <? C)%nat then (b, r, (c + 1)%nat) else if (r + 1 <? R)%nat then (b, (r + 1)%nat, 0%nat) else ((b + 1)%nat, 0%nat, 0%nat).
Lemma all_sized l : sized n (map m l).
Proof. apply Forall_forall. intros x Hx. apply in_map_iff in Hx as (i & <- & _). apply Hm. Qed.
Lemma acc_some l : l <> [] -> exists x, acc n (map m l) = Some x.
Proof. destruct l as [|i l]; [congruence|]. intros _. eexists. reflexivity. Qed.
Lemma seq_not_nil a k : k <> 0%nat -> seq a k <> [].
Proof. destruct k; [congruence|discriminate]. Qed.

Lemma row_pos b r : (0 < pos b r 0)%nat -> (b * R + r <> 0)%nat.
Proof. unfold pos. intros P E. assert (b * R = 0)%nat by lia. assert (r = 0)%nat by lia. apply Nat.eq_mul_0 in H as [->| ->]; subst; lia. Qed.
Lemma pos_0 b r c : (pos b r c <= 0)%nat -> b = 0%nat /\ r = 0%nat.
Proof. unfold pos. intros P. assert (b * (R * C) = 0)%nat by lia. assert (r * C = 0)%nat by lia. apply Nat.eq_mul_0 in H as [|H]; apply Nat.eq_mul_0 in H0 as [|]; try lia. Qed.
Lemma step b r c f rest : (r < R)%nat -> (c < C)%nat -> state b r c f ->
  let k := pos b r c in let '(b', r', c') := next b r c in
  exists f', parseFEC f (buffer ssrc (s0 + Z.of_nat k + 1) (k_ts (m k)) rest) (k_pl (m k)) =
    Some (f', if ((c =? 0) && (0 <? k))%nat then [row_packet (rows_sent b r c)] else [], if (r =? R - 1)%nat then [column_packet (cols_sent b r c)] else []) /\
  state b' r' c' f'.
Proof.
  intros Hr Hc [A1 A2 A3 A4 A5 A6 A7 A8 A9] k. destruct (Hm k) as (K1 & K2 & K3).
  assert (EC : f_index f mod f_cols f = Z.of_nat c) by (rewrite A5, A2; rewrite Nat2Z.inj_add, Nat2Z.inj_mul, Z.add_comm, Z.mod_add by lia; apply Z.mod_small; lia).
  assert (ER : (f_index f / f_cols f) mod f_rows f = Z.of_nat r).
  { rewrite A5, A2, A1. rewrite Nat2Z.inj_add, Nat2Z.inj_mul, Z.div_add_l by lia. rewrite (Z.div_small (Z.of_nat c)) by lia. rewrite Z.add_0_r. apply Z.mod_small. lia. }
  set (fresh := mkfd (k_seq (m k)) (k_ts (m k)) (bits_of n (m k))).
  assert (FR : acc n (map m [k]) = Some fresh) by reflexivity.
  (* the row *)
  assert (ROW : exists rowbuf, (if Z.of_nat c =? 0 then
          let sends := negb (f_first f) || (0 <? f_index f) in
          let sn := if sends then u16 (f_rowSN f + 1) else f_rowSN f in
          out <- (if sends then x <- f_row f;; p <- fecPacket f x sn n false;; Some [p] else Some []);;
          Some (sn, out, fresh)
        else x <- f_row f;; Some (f_rowSN f, [], mkfd (fd_seq x) (fd_ts x) (applyXOR (fd_bits x) (bits_of n (m k))))) =
      Some (u16 (Z.of_nat (if (c =? 0)%nat && (0 <? k)%nat then S (rows_sent b r c) else rows_sent b r c)), if ((c =? 0) && (0 <? k))%nat then [row_packet (rows_sent b r c)] else [], rowbuf) /\
      Some rowbuf = acc n (map m (seq (k - c) (c + 1)))).
  { destruct (Nat.eq_dec c 0) as [->|NC].
    - exists fresh. change (Z.of_nat 0 =? 0) with true. change (0 =? 0)%nat with true. cbv iota. cbn [andb].
      assert (SE : negb (f_first f) || (0 <? f_index f) = (0 <? k)%nat).
      { rewrite A4, A5. unfold k, pos. destruct (Nat.eqb_spec b 0), (Z.ltb_spec 0 (Z.of_nat (r * C + 0))), (Nat.ltb_spec 0 (b * (R * C) + r * C + 0)); try reflexivity; subst; nia. }
      rewrite SE. split.
      + destruct (Nat.ltb_spec 0 k) as [P|P].
        * specialize (A8 P). unfold row_items in A8. change (0 =? 0)%nat with true in A8. cbv iota in A8. fold k in A8.
          assert (NC : C <> 0%nat) by lia. destruct (acc_some (seq (k - C) C) (seq_not_nil _ _ NC)) as (x & EX). rewrite A8, EX.
          rewrite (fecPacket_ok f _ n false _ x (all_sized _) EX). cbv zeta iota beta. rewrite A2, A6.
          assert (RS : rows_sent b r 0 = (b * R + r - 1)%nat) by (unfold rows_sent; cbn [Nat.eqb]; lia).
          assert (RK : (b * R + r)%nat <> 0%nat) by (intros E; unfold k, pos in P; assert (b * R = 0)%nat by lia; assert (b = 0 \/ R = 0)%nat by (apply Nat.eq_mul_0; assumption); assert (r = 0)%nat by lia; subst; nia).
          assert (E1 : u16 (u16 (Z.of_nat (rows_sent b r 0)) + 1) = u16 (Z.of_nat (S (rows_sent b r 0)))) by (unfold u16; rewrite Nat2Z.inj_succ; lia).
          rewrite E1. f_equal. f_equal. f_equal. unfold row_packet. f_equal.
          assert (E2 : row_of C (rows_sent b r 0) = seq (k - C) C).
          { unfold row_of. f_equal. rewrite RS. unfold k, pos. rewrite Nat.mul_sub_distr_r, Nat.mul_add_distr_r. rewrite (Nat.mul_assoc b R C). lia. }
          rewrite E2. f_equal. unfold u16. rewrite Nat2Z.inj_succ. lia.
        * assert (E0 : k = 0%nat) by lia. rewrite A6. reflexivity.
      + rewrite Nat.sub_0_r. reflexivity.
    - assert (P : (0 < k)%nat) by (unfold k, pos; lia). specialize (A8 P). unfold row_items in A8. fold k in A8. rewrite (proj2 (Nat.eqb_neq c 0) NC) in A8. destruct (acc_some (seq (k - c) c) (seq_not_nil _ _ NC)) as (x & EX).
      rewrite (proj2 (Z.eqb_neq (Z.of_nat c) 0)) by lia. rewrite A8, EX. rewrite (proj2 (Nat.eqb_neq c 0) NC). cbn [andb]. eexists. split; [rewrite A6; reflexivity|].
      replace (c + 1)%nat with (S c) by lia. rewrite seq_S, map_app. replace (k - c + c)%nat with k by (unfold k, pos; lia). cbn [map]. symmetry. apply acc_snoc. exact EX. }
  (* the column *)
  assert (COL : exists colbuf, (if Z.of_nat r =? 0 then Some fresh else x <- f_col f (Z.of_nat c);; Some (mkfd (fd_seq x) (fd_ts x) (applyXOR (fd_bits x) (bits_of n (m k))))) = Some colbuf /\ acc n (map m (col_items b (S r) c)) = Some colbuf).
  { destruct (Nat.eq_dec r 0) as [->|NR].
    - exists fresh. split; [reflexivity|]. unfold col_items. cbn [seq map]. replace (b * (R * C) + 0 * C + c)%nat with k by (unfold k, pos; lia). exact FR.
    - specialize (A9 c Hc). rewrite Nat.ltb_irrefl in A9. cbv zeta in A9. specialize (A9 NR ltac:(lia)). unfold col_items in A9. destruct (acc_some (col_items b r c)) as (x & EX); [unfold col_items; destruct r; [congruence|discriminate]|].
      unfold col_items in EX. rewrite A9, EX. rewrite (proj2 (Z.eqb_neq (Z.of_nat r) 0)) by lia. eexists. split; [reflexivity|].
      unfold col_items. rewrite seq_S, !map_app. cbn [map Nat.add]. replace (b * (R * C) + r * C + c)%nat with k by reflexivity. apply acc_snoc. exact EX. }
  destruct ROW as (rowbuf & ROW & RB). cbv zeta in ROW. destruct COL as (colbuf & COL & CB).
  destruct (next b r c) as [[b' r'] c'] eqn:EN.
  unfold parseFEC. rewrite A3. cbv iota beta. rewrite A3. rewrite K3, Z.eqb_refl. cbn [negb]. cbv iota. rewrite (bitstring_ok ssrc _ (m k) rest n K3). rewrite getSequence_ok, getTimeStamp_ok. cbv zeta.
  assert (E1 : u16 (u16 (s0 + Z.of_nat k + 1) - 1) = k_seq (m k)) by (rewrite K1; unfold u16; lia). assert (E2 : u32 (k_ts (m k)) = k_ts (m k)) by (unfold u32; apply Z.mod_small; exact K2).
  rewrite E1, E2. fold fresh. rewrite EC, ER, ROW. rewrite COL. rewrite A1.
  assert (ES : (Z.of_nat r =? Z.of_nat R - 1) = (r =? R - 1)%nat) by (destruct (Nat.eqb_spec r (R - 1)), (Z.eqb_spec (Z.of_nat r) (Z.of_nat R - 1)); try reflexivity; lia). rewrite ES.
  assert (SNC : (if (r =? R - 1)%nat then u16 (f_colSN f + 1) else f_colSN f) = u16 (Z.of_nat (if (r =? R - 1)%nat then S (cols_sent b r c) else cols_sent b r c))).
  { rewrite A7. destruct (r =? R - 1)%nat; [|reflexivity]. unfold u16. rewrite Nat2Z.inj_succ. lia. }
  rewrite SNC. rewrite (fecPacket_ok f _ n true _ colbuf (all_sized _) CB). rewrite A1, A2.
  match goal with |- context[fec_of ?a ?b0 ?c0 true n ?l] => assert (CO : (if (r =? R - 1)%nat then Some [fec_of a b0 c0 true n l] else Some []) = Some (if (r =? R - 1)%nat then [column_packet (cols_sent b r c)] else [])) end.
  { destruct (Nat.eqb_spec r (R - 1)) as [->|NR]; [|reflexivity].
    assert (E3 : column_of R C (cols_sent b (R - 1) c) = col_items b (S (R - 1)) c).
    { unfold col_items, column_of, cols_sent. rewrite Nat.eqb_refl. rewrite Nat.div_add_l by lia. rewrite (Nat.div_small c C) by lia. rewrite Nat.add_0_r. rewrite (Nat.add_comm (b * C) c), Nat.mod_add by lia. rewrite (Nat.mod_small c C) by lia. replace (S (R - 1)) with R by lia. reflexivity. }
    unfold column_packet. rewrite E3. replace (Z.of_nat (S (cols_sent b (R - 1) c))) with (Z.of_nat (cols_sent b (R - 1) c) + 1) by lia. reflexivity. }
  rewrite CO. eexists. split; [reflexivity|].
  - clear ROW COL CO EC ER SNC E1 E2 K1 K2 K3 ES A1 A2 A3 A6 A7 FR A8. assert (EK : k = pos b r c) by reflexivity. clearbody k.
    assert (EW : (Z.of_nat R * Z.of_nat C <=? f_index f + 1) = negb (c + 1 <? C)%nat && negb (r + 1 <? R)%nat).
    { rewrite A5. destruct (Nat.ltb_spec (c + 1) C), (Nat.ltb_spec (r + 1) R), (Z.leb_spec (Z.of_nat R * Z.of_nat C) (Z.of_nat (r * C + c) + 1)); try reflexivity; exfalso; nia. }
    unfold next in EN. rewrite EW.
    destruct (Nat.ltb_spec (c + 1) C) as [L|L]; [|destruct (Nat.ltb_spec (r + 1) R) as [L2|L2]]; injection EN as <- <- <-; cbn [negb andb]; constructor; cbn [f_rows f_cols f_len f_first f_index f_rowSN f_colSN f_row f_col].
    + reflexivity. + reflexivity. + reflexivity. + exact A4. + rewrite A5. lia.
    + f_equal. f_equal. subst k. unfold rows_sent. rewrite (proj2 (Nat.eqb_neq (c + 1) 0)) by lia. destruct (Nat.eqb_spec c 0) as [Ec|Ec]; cbn [andb]; [|lia].
      destruct (Nat.ltb_spec 0 (pos b r c)) as [P|P]; [subst c; pose proof (row_pos b r P); lia|destruct (pos_0 b r c P); subst; lia].
    + f_equal. f_equal. unfold cols_sent. destruct (r =? R - 1)%nat; lia.
    + intros _. rewrite RB. unfold row_items. rewrite (proj2 (Nat.eqb_neq (c + 1) 0)) by lia. do 2 f_equal. f_equal. subst k. unfold pos. lia.
    + intros c' Hc'. destruct (Z.eqb_spec (Z.of_nat c') (Z.of_nat c)) as [E|E].
      * assert (c' = c) by lia. subst c'. rewrite (proj2 (Nat.ltb_lt c (c + 1))) by lia. cbv zeta. intros _ NQ. destruct (Nat.eqb_spec r (R - 1)); [lia|]. symmetry. exact CB.
      * specialize (A9 c' Hc'). assert (EL : (c' <? c + 1)%nat = (c' <? c)%nat) by (destruct (Nat.ltb_spec c' (c + 1)), (Nat.ltb_spec c' c); try reflexivity; lia). rewrite EL. exact A9.
    + reflexivity. + reflexivity. + reflexivity. + exact A4. + rewrite A5. assert (c = C - 1)%nat by lia. subst c. nia.
    + f_equal. f_equal. subst k. unfold rows_sent. rewrite Nat.eqb_refl. destruct (Nat.eqb_spec c 0) as [Ec|Ec]; cbn [andb]; [|lia].
      destruct (Nat.ltb_spec 0 (pos b r c)) as [P|P]; [subst c; pose proof (row_pos b r P); lia|destruct (pos_0 b r c P); subst; lia].
    + f_equal. f_equal. unfold cols_sent. destruct (Nat.eqb_spec r (R - 1)), (Nat.eqb_spec (r + 1) (R - 1)); lia.
    + intros _. rewrite RB. unfold row_items. cbn [Nat.eqb]. do 2 f_equal. subst k. unfold pos. assert (c = C - 1)%nat by lia. subst c. f_equal; nia.
    + intros c' Hc'. cbn [Nat.ltb Nat.leb]. cbv zeta. intros NQ NQ'. destruct (Z.eqb_spec (Z.of_nat c') (Z.of_nat c)) as [E|E].
      * assert (c' = c) by lia. subst c'. destruct (Nat.eqb_spec r (R - 1)); [lia|]. replace (r + 1)%nat with (S r) by lia. symmetry. exact CB.
      * specialize (A9 c' Hc'). rewrite (proj2 (Nat.ltb_lt c' c)) in A9 by lia. cbv zeta in A9. replace (r + 1)%nat with (S r) by lia. apply A9; lia.
    + reflexivity. + reflexivity. + reflexivity. + symmetry. apply Nat.eqb_neq. lia. + reflexivity.
    + f_equal. f_equal. subst k. unfold rows_sent. rewrite Nat.eqb_refl. destruct (Nat.eqb_spec c 0) as [Ec|Ec]; cbn [andb]; [|rewrite Nat.mul_add_distr_r; lia].
      destruct (Nat.ltb_spec 0 (pos b r c)) as [P|P]; [subst c; pose proof (row_pos b r P); rewrite Nat.mul_add_distr_r; lia|destruct (pos_0 b r c P); subst; lia].
    + f_equal. f_equal. unfold cols_sent. destruct (Nat.eqb_spec r (R - 1)), (Nat.eqb_spec 0 (R - 1)); try lia.
    + intros _. rewrite RB. unfold row_items. cbn [Nat.eqb]. do 2 f_equal. subst k. unfold pos. assert (c = C - 1)%nat by lia. assert (r = R - 1)%nat by lia. subst c r. f_equal; nia.
    + intros c' Hc'. cbn [Nat.ltb Nat.leb]. cbv zeta. intros NQ. congruence.
Qed.

(** The same, counting packets. *)
Definition counts (k : nat) (f : fec) : Prop := exists b r c, (r < R)%nat /\ (c < C)%nat /\ pos b r c = k /\ state b r c f.
Lemma rows_sent_done b r c : (r < R)%nat -> (c < C)%nat -> rows_sent b r c = rows_done C (pos b r c).
Proof.
  intros Hr Hc. unfold rows_sent, rows_done, pos. rewrite Nat.mul_assoc, <- Nat.mul_add_distr_r. set (q := (b * R + r)%nat). destruct (Nat.eqb_spec c 0) as [->|].
  - destruct q as [|q]; [cbn [Nat.mul Nat.add Nat.sub]; rewrite Nat.div_0_l by lia; reflexivity|]. replace (S q * C + 0 - 1)%nat with (C - 1 + q * C)%nat by nia. rewrite Nat.div_add by lia. rewrite Nat.div_small by lia. lia.
  - replace (q * C + c - 1)%nat with (c - 1 + q * C)%nat by lia. rewrite Nat.div_add by lia. rewrite Nat.div_small by lia. lia.
Qed.
Lemma cols_sent_done b r c : (r < R)%nat -> (c < C)%nat -> cols_sent b r c = columns_done R C (pos b r c).
Proof.
  intros Hr Hc. unfold cols_sent, columns_done, pos. assert (L : (r * C + c < R * C)%nat) by nia.
  replace (b * (R * C) + r * C + c)%nat with (r * C + c + b * (R * C))%nat by lia. rewrite Nat.div_add, Nat.mod_add by nia. rewrite Nat.div_small, Nat.mod_small by exact L. f_equal. destruct (Nat.eqb_spec r (R - 1)) as [->|]; nia.
Qed.
Lemma next_pos b r c : (r < R)%nat -> (c < C)%nat -> let '(b', r', c') := next b r c in pos b' r' c' = S (pos b r c) /\ (r' < R)%nat /\ (c' < C)%nat.
Proof. intros Hr Hc. unfold next, pos. destruct (Nat.ltb_spec (c + 1) C); [lia|]. destruct (Nat.ltb_spec (r + 1) R); [nia|]. assert (r = R - 1)%nat by lia. assert (c = C - 1)%nat by lia. subst. nia. Qed.
Lemma rows_step b r c : (r < R)%nat -> (c < C)%nat -> rows_done C (S (pos b r c)) = ((if ((c =? 0) && (0 <? pos b r c))%nat then 1 else 0) + rows_done C (pos b r c))%nat.
Proof.
  intros Hr Hc. rewrite <- rows_sent_done by assumption. unfold rows_done, rows_sent. replace (S (pos b r c) - 1)%nat with (pos b r c) by lia.
  assert (E : (pos b r c / C = b * R + r)%nat) by (unfold pos; rewrite Nat.mul_assoc, <- Nat.mul_add_distr_r, (Nat.add_comm _ c), Nat.div_add, Nat.div_small by lia; lia). rewrite E.
  destruct (Nat.eqb_spec c 0) as [->|]; cbn [andb]; [|lia]. destruct (Nat.ltb_spec 0 (pos b r 0)) as [P|P]; [pose proof (row_pos b r P); lia|destruct (pos_0 b r 0 P); subst; lia].
Qed.
Lemma cols_step b r c : (r < R)%nat -> (c < C)%nat -> columns_done R C (S (pos b r c)) = ((if (r =? R - 1)%nat then 1 else 0) + columns_done R C (pos b r c))%nat.
Proof.
  intros Hr Hc. pose proof (next_pos b r c Hr Hc) as NP. destruct (next b r c) as [[b' r'] c'] eqn:EN. destruct NP as (<- & Hr' & Hc'). rewrite <- !cols_sent_done by assumption. unfold cols_sent, next in *.
  destruct (Nat.ltb_spec (c + 1) C); [|destruct (Nat.ltb_spec (r + 1) R)]; injection EN as <- <- <-.
  - destruct (r =? R - 1)%nat; lia.
  - rewrite (proj2 (Nat.eqb_neq r (R - 1))) by lia. destruct (r + 1 =? R - 1)%nat; lia.
  - assert (r = R - 1)%nat by lia. subst r. rewrite Nat.eqb_refl. rewrite (proj2 (Nat.eqb_neq 0 (R - 1))) by lia. nia.
Qed.
Definition between (g : nat -> list Z) (a b : nat) : list (list Z) := map g (seq a (b - a)).
Lemma counts_step k f rest : counts k f ->
  exists f', parseFEC f (buffer ssrc (s0 + Z.of_nat k + 1) (k_ts (m k)) rest) (k_pl (m k)) =
    Some (f', between row_packet (rows_done C k) (rows_done C (S k)), between column_packet (columns_done R C k) (columns_done R C (S k))) /\ counts (S k) f'.
Proof.
  intros (b & r & c & Hr & Hc & <- & ST). pose proof (step b r c f rest Hr Hc ST) as SP. cbv zeta in SP. pose proof (next_pos b r c Hr Hc) as NP. destruct (next b r c) as [[b' r'] c']. destruct SP as (f' & E & ST'). destruct NP as (EP & Hr' & Hc').
  exists f'. split; [|exists b', r', c'; auto]. rewrite E. unfold between. rewrite rows_step, cols_step by assumption. rewrite rows_sent_done, cols_sent_done by assumption. f_equal. f_equal; [f_equal|].
  - destruct ((c =? 0) && (0 <? pos b r c))%nat; rewrite Nat.add_sub; reflexivity.
  - destruct (r =? R - 1)%nat; rewrite Nat.add_sub; reflexivity.
Qed.
Lemma rows_mono k : (rows_done C k <= rows_done C (S k))%nat.
Proof. unfold rows_done. apply Nat.div_le_mono; lia. Qed.
Lemma decompose k : exists b r c, (r < R)%nat /\ (c < C)%nat /\ pos b r c = k.
Proof.
  exists (k / (R * C))%nat, ((k mod (R * C)) / C)%nat, ((k mod (R * C)) mod C)%nat. assert (RC : (R * C <> 0)%nat) by nia. pose proof (Nat.mod_upper_bound k (R * C) RC). repeat split.
  - apply Nat.div_lt_upper_bound; lia.
  - apply Nat.mod_upper_bound. lia.
  - unfold pos. pose proof (Nat.div_mod (k mod (R * C)) C ltac:(lia)). pose proof (Nat.div_mod k (R * C) RC). nia.
Qed.
Lemma cols_mono k : (columns_done R C k <= columns_done R C (S k))%nat.
Proof. destruct (decompose k) as (b & r & c & Hr & Hc & <-). rewrite (cols_step b r c Hr Hc). lia. Qed.
Lemma mono_le (g : nat -> nat) : (forall k, g k <= g (S k))%nat -> forall j k, (g k <= g (k + j))%nat.
Proof. intros G j. induction j as [|j IH]; intros k; [rewrite Nat.add_0_r; lia|]. specialize (IH k). specialize (G (k + j)%nat). replace (k + S j)%nat with (S (k + j)) by lia. lia. Qed.
Lemma between_app g a b c : (a <= b)%nat -> (b <= c)%nat -> between g a b ++ between g b c = between g a c.
Proof. intros A B. unfold between. rewrite <- map_app. f_equal. replace (c - a)%nat with (b - a + (c - b))%nat by lia. rewrite seq_app. do 2 f_equal. lia. Qed.
Lemma run l : forall k f ts rest, counts k f -> n <= len rest ->
  (forall i x, nth_error l i = Some x -> k_ts (m (k + i)) = u32 (fst x * 90) /\ k_pl (m (k + i)) = snd x) ->
  sendAll f (buffer ssrc (s0 + Z.of_nat k) ts rest) l =
  Some (map (fun i => bytes_of ssrc (m i)) (seq k (length l)), between row_packet (rows_done C k) (rows_done C (k + length l)), between column_packet (columns_done R C k) (columns_done R C (k + length l))).
Proof.
  induction l as [|[ms payload] l IH]; intros k f ts rest CT LR HL.
  - cbn [sendAll length seq map]. unfold between. rewrite Nat.add_0_r, !Nat.sub_diag. reflexivity.
  - destruct (HL 0%nat _ eq_refl) as (T & P). rewrite Nat.add_0_r in T, P. cbn [fst snd] in T, P. destruct (Hm k) as (K1 & K2 & K3).
    destruct (sendTS_ok ssrc (s0 + Z.of_nat k) ts rest payload ms) as (rest' & LR' & ES); [rewrite <- P, K3; exact LR|].
    cbn [sendAll]. rewrite ES. cbn [fst snd]. destruct (counts_step k f rest' CT) as (f' & EP & CT'). rewrite T, P in EP. rewrite EP.
    replace (s0 + Z.of_nat k + 1) with (s0 + Z.of_nat (S k)) by lia. rewrite (IH (S k) f' _ rest' CT'); [|lia|].
    + cbn [length seq map]. f_equal. f_equal; [f_equal|].
      * f_equal. unfold bytes_of. rewrite K1, T, P. unfold media. f_equal. f_equal. rewrite <- (be_mod 2), <- (be_mod 2 (u16 _)). f_equal. unfold u16. change (256 ^ Z.of_nat 2) with 65536. rewrite Z.mod_mod by lia. reflexivity.
      * replace (k + S (length l))%nat with (S k + length l)%nat by lia. apply between_app; [apply rows_mono|apply (mono_le (rows_done C) rows_mono)].
      * replace (k + S (length l))%nat with (S k + length l)%nat by lia. apply between_app; [apply cols_mono|apply (mono_le (columns_done R C) cols_mono)].
    + intros i x Hi. replace (S k + i)%nat with (k + S i)%nat by lia. apply HL. exact Hi.
Qed.
Lemma row_corrects j : (Z.of_nat C < 65536) -> corrects ssrc (row_packet j) (map (fun i => bytes_of ssrc (m i)) (row_of C j)).
Proof.
  intros CC. unfold row_packet. rewrite <- (map_map m (bytes_of ssrc)). assert (LL : length (map m (row_of C j)) = C) by (rewrite map_length; unfold row_of; apply seq_length).
  apply fec_corrects; try lia; [apply all_sized|intros E; rewrite E in LL; cbn in LL; lia|].
  intros i Hi. rewrite LL in Hi. unfold row_of. rewrite !(nth_indep _ (mkpk 0 0 []) (m 0)) by (rewrite map_length, seq_length; lia). rewrite !map_nth, !seq_nth by lia. rewrite !(proj1 (Hm _)). unfold u16. lia.
Qed.
Lemma column_corrects i : corrects ssrc (column_packet i) (map (fun i => bytes_of ssrc (m i)) (column_of R C i)).
Proof.
  unfold column_packet. rewrite <- (map_map m (bytes_of ssrc)). assert (LL : length (map m (column_of R C i)) = R) by (rewrite map_length; unfold column_of; rewrite map_length; apply seq_length).
  apply fec_corrects; try lia; [apply all_sized|intros E; rewrite E in LL; cbn in LL; lia|].
  intros j Hj. rewrite LL in Hj. unfold column_of. rewrite map_map. set (g := fun x => m (i / C * (R * C) + x * C + i mod C)%nat). rewrite !(nth_indep (map g _) (mkpk 0 0 []) (g 0%nat)) by (rewrite map_length, seq_length; lia).
  rewrite !map_nth, !seq_nth by lia. unfold g. rewrite !(proj1 (Hm _)). unfold u16. cbn [Nat.add Nat.mul]. rewrite Zplus_mod_idemp_l. f_equal. lia.
Qed.
End Run.
