(** SHA-256, SHA-384 and SHA-512: the code's loops are the published ones. *)
From Verif Require Import Common CommonFacts Hash_Model Hash_Spec Hash_Proofs HashMd_Proofs.

Definition oct : Type := Z * Z * Z * Z * Z * Z * Z * Z.
Definition eight (r : oct) : list Z := let '(a, b, c, d, e, f, g, h) := r in [a; b; c; d; e; f; g; h].

Section Variants.
  Variable v : variant.
  Hypothesis w_pos : 0 <= wbits v.

  Lemma word_add l : word (wbits v) (add v l).
  Proof. unfold add. now apply word_mod. Qed.

  Lemma schedule_fold (ext : list Z -> Z -> list Z) M :
    (forall W t, Forall (word (wbits v)) W -> ext W t = W ++
       [add v [small v (s1 v) (nthz W (t - 2)); nthz W (t - 7); small v (s0 v) (nthz W (t - 15)); nthz W (t - 16)]]) ->
    Forall (word (wbits v)) M -> forall k,
    fold_left ext (map (Z.add 16) (upto k)) M = schedule v k M /\ Forall (word (wbits v)) (schedule v k M)
    /\ List.length (schedule v k M) = (List.length M + k)%nat.
  Proof.
    intros Hext HM. induction k as [|k (IH & IW & IL)]; [cbn; repeat split; auto |].
    unfold upto. rewrite seq_S, map_app, map_app, fold_left_app. fold (upto k). rewrite IH.
    cbn [map fold_left Nat.add]. rewrite Hext by exact IW. cbn [schedule]. repeat split.
    - apply Forall_app. split; [exact IW |]. constructor; [apply word_add | constructor].
    - rewrite app_length, IL. cbn [List.length]. lia.
  Qed.

  Lemma compress_fold (tn : oct -> Z -> oct) (kf xf : Z -> Z) :
    (forall a b c d e f g h i, Forall (word (wbits v)) [a; b; c; d; e; f; g; h] ->
       tn (a, b, c, d, e, f, g, h) i =
       let T1 := add v [h; big v (S1 v) e; Ch v e f g; kf i; xf i] in
       let T2 := add v [big v (S0 v) a; Maj a b c] in
       (add v [T1; T2], a, b, c, add v [d; T1], e, f, g)) ->
    forall l a b c d e f g h, Forall (word (wbits v)) [a; b; c; d; e; f; g; h] ->
    eight (fold_left tn l (a, b, c, d, e, f, g, h))
    = compress v (map (fun i => (kf i, xf i)) l) a b c d e f g h.
  Proof.
    intros Htn. induction l as [|i l IH]; intros a b c d e f g h HW; [reflexivity |].
    cbn [fold_left map compress]. rewrite Htn by exact HW. cbv zeta. apply IH.
    repeat match goal with H : Forall _ (_ :: _) |- _ => inversion H; clear H; subst end.
    repeat first [assumption | apply word_add | constructor].
  Qed.
End Variants.

Lemma combine_index (K W : list Z) n : List.length K = n -> List.length W = n ->
  combine K W = map (fun i => (nthz K i, nthz W i)) (upto n).
Proof.
  revert W n. induction K as [|k K IH]; intros W n HK HW; cbn [List.length] in HK; subst n.
  - reflexivity.
  - destruct W as [|x W]; [discriminate HW |]. cbn [List.length] in HW. injection HW as HW.
    unfold upto. cbn [combine seq map]. f_equal. rewrite (IH W _ eq_refl HW). unfold upto.
    rewrite <- seq_shift, !map_map. apply map_ext. intros i. unfold nthz. now rewrite !Nat2Z.id.
Qed.

Lemma sha_words_index data n sz : (0 < sz)%nat -> List.length data = (n * sz)%nat ->
  map unbe (blocks sz data) = map (fun i => unbe (firstn sz (skipn (Z.to_nat i * sz) data))) (upto n).
Proof.
  intros Hs Hl. rewrite (blocks_index sz Hs n data Hl). unfold upto. rewrite !map_map. apply map_ext.
  intros i. now rewrite Nat2Z.id.
Qed.

(** ** 32 bit words *)
Lemma sha256_word_ok data i : bytesP data -> List.length data = 64%nat -> 0 <= i < 16 ->
  sha256_word data i = unbe (firstn 4 (skipn (Z.to_nat i * 4) data)).
Proof.
  intros Hb Hl Hi. rewrite skip_four by lia. unfold sha256_word. rewrite (shl_mul i) by lia. change (2 ^ 2) with 4.
  replace (Z.of_nat (Z.to_nat i * 4)) with (i * 4) by lia. rewrite Z.add_0_r.
  pose proof (bytesP_nthz data (i * 4) Hb) as B0. pose proof (bytesP_nthz data (i * 4 + 1) Hb) as B1.
  pose proof (bytesP_nthz data (i * 4 + 2) Hb) as B2. pose proof (bytesP_nthz data (i * 4 + 3) Hb) as B3.
  rewrite !u32_id by (rewrite shl_mul by lia; unfold byteP in *; lia).
  rewrite lor4 by assumption. unfold unbe. cbn [unbe_acc]. lia.
Qed.

Lemma sha256_block_words data : bytesP data -> List.length data = 64%nat ->
  map (sha256_word data) (upto 16) = map unbe (blocks 4 data).
Proof.
  intros Hb Hl. rewrite (sha_words_index data 16 4) by (lia || (rewrite Hl; reflexivity)).
  apply map_ext_in. intros i Hi. unfold upto in Hi. apply in_map_iff in Hi. destruct Hi as (j & <- & Hj).
  apply in_seq in Hj. apply sha256_word_ok; [assumption .. | lia].
Qed.

Lemma unbe_word n l : (n <= List.length l)%nat -> bytesP l -> word (8 * Z.of_nat n) (unbe (firstn n l)).
Proof.
  intros Hn Hb.
  assert (B : bytesP (firstn n l)).
  { apply (bytesP_takez (Z.of_nat n)) in Hb. unfold takez in Hb. now rewrite Nat2Z.id in Hb. }
  assert (L : List.length (firstn n l) = n) by (rewrite firstn_length; lia).
  revert B L. generalize (firstn n l). clear. intros q. revert n.
  induction q as [|x q IH]; intros n B L; cbn [List.length] in L; subst n.
  - unfold word. cbn. lia.
  - apply bytesP_cons in B. destruct B as [Bx Bq]. specialize (IH _ Bq eq_refl).
    rewrite unbe_cons. unfold word, byteP in *. unfold len.
    assert (E : 2 ^ (8 * Z.of_nat (S (List.length q))) = 256 * 2 ^ (8 * Z.of_nat (List.length q))).
    { replace (8 * Z.of_nat (S (List.length q))) with (8 + 8 * Z.of_nat (List.length q)) by lia.
      rewrite Z.pow_add_r by lia. reflexivity. }
    assert (E2 : 256 ^ Z.of_nat (List.length q) = 2 ^ (8 * Z.of_nat (List.length q))).
    { change 256 with (2 ^ 8). rewrite <- Z.pow_mul_r by lia. reflexivity. }
    rewrite E, E2. nia.
Qed.
Lemma unbe_words sz n data : (0 < sz)%nat -> bytesP data -> List.length data = (n * sz)%nat ->
  Forall (word (8 * Z.of_nat sz)) (map unbe (blocks sz data)) /\ List.length (map unbe (blocks sz data)) = n.
Proof.
  intros Hs Hb Hl. rewrite (blocks_index sz Hs n data Hl). split.
  - rewrite map_map. apply Forall_map. rewrite Forall_forall. intros i Hi. apply in_seq in Hi.
    apply unbe_word; [rewrite skipn_length; nia |].
    apply (bytesP_dropz (Z.of_nat (i * sz))) in Hb. unfold dropz in Hb. now rewrite Nat2Z.id in Hb.
  - now rewrite !map_length, seq_length.
Qed.

Lemma word_0 w : 0 <= w -> word w 0.
Proof. intros Hw. unfold word. pose proof (Z.pow_pos_nonneg 2 w). lia. Qed.

Lemma sha256_extend_ok W t : Forall (word 32) W -> sha256_extend W t = W ++
  [add V32 [small V32 (s1 V32) (nthz W (t - 2)); nthz W (t - 7); small V32 (s0 V32) (nthz W (t - 15)); nthz W (t - 16)]].
Proof.
  intros HW. unfold sha256_extend. cbv zeta.
  rewrite !rr256_small by first [lia | apply Forall_nthz; [apply word_0; lia | assumption]].
  unfold add, small, V32. cbn [wbits s0 s1 fold_right]. rewrite u32_mod. do 2 f_equal. f_equal. lia.
Qed.

Lemma u32_sum1 h X ch k x : u32 (u64 (h + X + ch + k + x)) = (h + (X mod 2 ^ 32 + (ch + (k + (x + 0))))) mod 2 ^ 32.
Proof. unfold u32, u64. change (2 ^ 32) with 4294967296. lia. Qed.
Lemma u32_sum2 X m : u32 (u64 (X + m)) = (X mod 2 ^ 32 + (m + 0)) mod 2 ^ 32.
Proof. unfold u32, u64. change (2 ^ 32) with 4294967296. lia. Qed.

Lemma sha256_turn_ok W a b c d e f g h i : Forall (word 32) [a; b; c; d; e; f; g; h] ->
  sha256_turn W (a, b, c, d, e, f, g, h) i =
  let T1 := add V32 [h; big V32 (S1 V32) e; Ch V32 e f g; nthz sha256_k i; nthz W i] in
  let T2 := add V32 [big V32 (S0 V32) a; Maj a b c] in
  (add V32 [T1; T2], a, b, c, add V32 [d; T1], e, f, g).
Proof.
  intros HW. repeat match goal with H : Forall _ (_ :: _) |- _ => inversion H; clear H; subst end.
  unfold sha256_turn. rewrite u32_sum1, u32_sum2, !rr256_xor by (assumption || lia).
  rewrite ch256, maj256 by assumption. cbv zeta. unfold add. cbn [fold_right wbits V32 big S0 S1].
  rewrite !u32_mod, !Z.add_0_r. reflexivity.
Qed.

Lemma K256 : sha256_k = K V32.
Proof. vm_compute. reflexivity. Qed.
Lemma K512 : sha512_k = K V64.
Proof. vm_compute. reflexivity. Qed.

(** ** 64 bit words *)
Lemma sha512_extend_ok W t : Forall (word 64) W -> sha512_extend W t = W ++
  [add V64 [small V64 (s1 V64) (nthz W (t - 2)); nthz W (t - 7); small V64 (s0 V64) (nthz W (t - 15)); nthz W (t - 16)]].
Proof.
  intros HW. unfold sha512_extend. cbv zeta. rewrite !rr512_rotr by lia. rewrite !shr_div by lia.
  unfold add, small, xor3, V64. cbn [wbits s0 s1 fold_right]. rewrite u64_mod, !Z.lxor_assoc. do 2 f_equal. f_equal. lia.
Qed.

Lemma sha512_turn_ok W a b c d e f g h i : Forall (word 64) [a; b; c; d; e; f; g; h] ->
  sha512_turn W (a, b, c, d, e, f, g, h) i =
  let T1 := add V64 [h; big V64 (S1 V64) e; Ch V64 e f g; nthz sha512_k i; nthz W i] in
  let T2 := add V64 [big V64 (S0 V64) a; Maj a b c] in
  (add V64 [T1; T2], a, b, c, add V64 [d; T1], e, f, g).
Proof.
  intros HW. repeat match goal with H : Forall _ (_ :: _) |- _ => inversion H; clear H; subst end.
  unfold sha512_turn. rewrite !rr512_rotr by lia. rewrite (u64_mod (Z.lnot e)), compl_lnot by (assumption || lia).
  cbv zeta. unfold add, Ch, Maj, big, xor3. cbn [fold_right wbits V64 S0 S1].
  rewrite !u64_mod, !Z.add_0_r, !Z.lxor_assoc, !Z.add_assoc. reflexivity.
Qed.

Lemma lor_step q b s : 0 <= s -> byteP b -> (q * 2 ^ (s + 8)) .| u64 (b << s) = (q * 256 + b) * 2 ^ s \/ 64 < s + 8.
Proof.
  intros Hs Hb. destruct (Z.lt_ge_cases 64 (s + 8)); [now right | left]. unfold byteP in Hb.
  pose proof (Z.pow_pos_nonneg 2 s ltac:(lia) ltac:(lia)).
  assert (E : 2 ^ (s + 8) = 256 * 2 ^ s) by (rewrite Z.add_comm, Z.pow_add_r by lia; reflexivity).
  assert (2 ^ (s + 8) <= 2 ^ 64) by (apply Z.pow_le_mono_r; lia).
  rewrite shl_mul by lia. rewrite u64_id.
  - rewrite lor_add by (rewrite ?E; nia || lia). rewrite E. lia.
  - change 18446744073709551616 with (2 ^ 64). nia.
Qed.

Lemma skip_eight j l : (j + 8 <= List.length l)%nat ->
  firstn 8 (skipn j l) = map (fun c => nthz l (Z.of_nat j + c)) [0; 1; 2; 3; 4; 5; 6; 7].
Proof.
  intros Hj. assert (L : (8 <= List.length (skipn j l))%nat) by (rewrite skipn_length; lia).
  assert (N : forall c, 0 <= c -> nthz l (Z.of_nat j + c) = nthz (skipn j l) c).
  { intros c Hc. rewrite <- nthz_dropz by lia. unfold dropz. now rewrite Nat2Z.id. }
  cbn [map]. rewrite !N by lia.
  destruct (skipn j l) as [|a [|b [|c [|d [|e [|f [|g [|h q]]]]]]]]; cbn [List.length] in L; try lia. reflexivity.
Qed.

Lemma sha512_word_ok data i : bytesP data -> List.length data = 128%nat -> 0 <= i < 16 ->
  sha512_word data i = unbe (firstn 8 (skipn (Z.to_nat i * 8) data)).
Proof.
  intros Hb Hl Hi. rewrite skip_eight by lia. unfold sha512_word.
  replace (Z.of_nat (Z.to_nat i * 8)) with (i * 8) by lia.
  change (upto 8) with [0; 1; 2; 3; 4; 5; 6; 7]. cbn [fold_left map].
  assert (St : forall q j, 0 <= j <= 7 ->
    (q * 2 ^ ((7 - j) * 8 + 8)) .| u64 (nthz data (i * 8 + j) << ((7 - j) * 8))
    = (q * 256 + nthz data (i * 8 + j)) * 2 ^ ((7 - (j + 1)) * 8 + 8)).
  { intros q j Hj. destruct (lor_step q (nthz data (i * 8 + j)) ((7 - j) * 8)) as [E|E]; [lia | now apply bytesP_nthz | | lia].
    rewrite E. do 2 f_equal. lia. }
  change 0 with (0 * 2 ^ ((7 - 0) * 8 + 8)) at 1.
  rewrite St by lia. change (0 + 1) with 1. rewrite St by lia. change (1 + 1) with 2. rewrite St by lia.
  change (2 + 1) with 3. rewrite St by lia. change (3 + 1) with 4. rewrite St by lia. change (4 + 1) with 5.
  rewrite St by lia. change (5 + 1) with 6. rewrite St by lia. change (6 + 1) with 7. rewrite St by lia.
  change (2 ^ ((7 - (7 + 1)) * 8 + 8)) with 1. rewrite Z.mul_1_r. unfold unbe. cbn [unbe_acc]. reflexivity.
Qed.
Lemma sha512_block_words data : bytesP data -> List.length data = 128%nat ->
  map (sha512_word data) (upto 16) = map unbe (blocks 8 data).
Proof.
  intros Hb Hl. rewrite (sha_words_index data 16 8) by (lia || (rewrite Hl; reflexivity)).
  apply map_ext_in. intros i Hi. unfold upto in Hi. apply in_map_iff in Hi. destruct Hi as (j & <- & Hj).
  apply in_seq in Hj. apply sha512_word_ok; [assumption .. | lia].
Qed.

(** ** One block *)
Definition woct (w : Z) (s : list Z) : Prop := List.length s = 8%nat /\ Forall (word w) s.

Lemma woct_inv w s : woct w s -> exists a b c d e f g h, s = [a; b; c; d; e; f; g; h].
Proof.
  intros [L _]. destruct s as [|a [|b [|c [|d [|e [|f [|g [|h [|x s]]]]]]]]]; try discriminate L.
  now exists a, b, c, d, e, f, g, h.
Qed.

Lemma add2 v x y : add v [x; y] = (y + x) mod 2 ^ wbits v.
Proof. unfold add. cbn [fold_right]. f_equal. lia. Qed.

Lemma sha256_add_block s b : woct 32 s -> bytesP b /\ List.length b = 64%nat ->
  sha256_add64 s b = sha_block V32 s b /\ woct 32 (sha_block V32 s b).
Proof.
  intros Hs [Hb Hl]. destruct (woct_inv _ _ Hs) as (a & b' & c & d & e & f & g & h & ->). destruct Hs as [_ Ws].
  unfold sha256_add64, sha_block. rewrite sha256_block_words by assumption.
  change (Z.to_nat (wbits V32 / 8)) with 4%nat. change (turns V32 - 16)%nat with 48%nat.
  destruct (unbe_words 4 16 b ltac:(lia) Hb Hl) as [MW ML]. change (8 * Z.of_nat 4) with 32 in MW.
  destruct (schedule_fold V32 ltac:(cbn; lia) sha256_extend _ sha256_extend_ok MW 48) as (E & WW & WL).
  rewrite E. rewrite ML in WL. change (16 + 48)%nat with 64%nat in WL.
  rewrite <- K256. rewrite (combine_index sha256_k _ 64 eq_refl WL).
  pose proof (compress_fold V32 ltac:(cbn; lia) (sha256_turn (schedule V32 48 (map unbe (blocks 4 b)))) (nthz sha256_k)
    (nthz (schedule V32 48 (map unbe (blocks 4 b)))) (sha256_turn_ok _) (upto 64) a b' c d e f g h Ws) as C.
  change (nthz [a; b'; c; d; e; f; g; h] 0) with a. change (nthz [a; b'; c; d; e; f; g; h] 1) with b'.
  change (nthz [a; b'; c; d; e; f; g; h] 2) with c. change (nthz [a; b'; c; d; e; f; g; h] 3) with d.
  change (nthz [a; b'; c; d; e; f; g; h] 4) with e. change (nthz [a; b'; c; d; e; f; g; h] 5) with f.
  change (nthz [a; b'; c; d; e; f; g; h] 6) with g. change (nthz [a; b'; c; d; e; f; g; h] 7) with h.
  unfold oct in C. rewrite <- C. destruct (fold_left (sha256_turn _) _ _) as [[[[[[[a1 b1] c1] d1] e1] f1] g1] h1].
  cbn [eight combine map fst snd]. rewrite !add2. rewrite !u32_mod. split; [reflexivity |].
  split; [reflexivity |]. change (wbits V32) with 32. repeat (constructor; [apply word_mod; lia |]). constructor.
Qed.

Lemma sha512_add_block s b : woct 64 s -> bytesP b /\ List.length b = 128%nat ->
  sha512_add128 s b = sha_block V64 s b /\ woct 64 (sha_block V64 s b).
Proof.
  intros Hs [Hb Hl]. destruct (woct_inv _ _ Hs) as (a & b' & c & d & e & f & g & h & ->). destruct Hs as [_ Ws].
  unfold sha512_add128, sha_block. rewrite sha512_block_words by assumption.
  change (Z.to_nat (wbits V64 / 8)) with 8%nat. change (turns V64 - 16)%nat with 64%nat.
  destruct (unbe_words 8 16 b ltac:(lia) Hb Hl) as [MW ML]. change (8 * Z.of_nat 8) with 64 in MW.
  destruct (schedule_fold V64 ltac:(cbn; lia) sha512_extend _ sha512_extend_ok MW 64) as (E & WW & WL).
  rewrite E. rewrite ML in WL. change (16 + 64)%nat with 80%nat in WL.
  rewrite <- K512. rewrite (combine_index sha512_k _ 80 eq_refl WL).
  pose proof (compress_fold V64 ltac:(cbn; lia) (sha512_turn (schedule V64 64 (map unbe (blocks 8 b)))) (nthz sha512_k)
    (nthz (schedule V64 64 (map unbe (blocks 8 b)))) (sha512_turn_ok _) (upto 80) a b' c d e f g h Ws) as C.
  change (nthz [a; b'; c; d; e; f; g; h] 0) with a. change (nthz [a; b'; c; d; e; f; g; h] 1) with b'.
  change (nthz [a; b'; c; d; e; f; g; h] 2) with c. change (nthz [a; b'; c; d; e; f; g; h] 3) with d.
  change (nthz [a; b'; c; d; e; f; g; h] 4) with e. change (nthz [a; b'; c; d; e; f; g; h] 5) with f.
  change (nthz [a; b'; c; d; e; f; g; h] 6) with g. change (nthz [a; b'; c; d; e; f; g; h] 7) with h.
  unfold oct in C. rewrite <- C. destruct (fold_left (sha512_turn _) _ _) as [[[[[[[a1 b1] c1] d1] e1] f1] g1] h1].
  cbn [eight combine map fst snd]. rewrite !add2. rewrite !u64_mod. split; [reflexivity |].
  split; [reflexivity |]. change (wbits V64) with 64. repeat (constructor; [apply word_mod; lia |]). constructor.
Qed.

(** ** Whole messages *)
Lemma be4 h : [(h >> 24) .& 0xff; (h >> 16) .& 0xff; (h >> 8) .& 0xff; h .& 0xff] = be 4 h.
Proof.
  rewrite !land_255, !shr_div by lia. cbn [be]. change (256 ^ Z.of_nat 0) with 1. rewrite Z.div_1_r.
  reflexivity.
Qed.
Lemma be8' n : 0 <= n < 2 ^ 54 ->
  [(n >> 54) .& 0xff; (n >> 48) .& 0xff; (n >> 40) .& 0xff; (n >> 32) .& 0xff; (n >> 24) .& 0xff; (n >> 16) .& 0xff;
   (n >> 8) .& 0xff; (n >> 0) .& 0xff] = be 8 n.
Proof.
  intros Hn. pose proof (le8 n Hn) as E. apply (f_equal (@rev Z)) in E. unfold le in E. rewrite rev_involutive in E.
  rewrite <- E. reflexivity.
Qed.
Lemma be8 h : map (fun j => (h >> (56 - j * 8)) .& 0xff) (upto 8) = be 8 h.
Proof.
  change (upto 8) with [0; 1; 2; 3; 4; 5; 6; 7]. cbn [map be]. rewrite !land_255, !shr_div by lia.
  change (2 ^ (56 - 7 * 8)) with 1. change (256 ^ Z.of_nat 0) with 1. reflexivity.
Qed.

Lemma flat_map_be n (l : list Z) f : (forall h, f h = be n h) -> flat_map f l = flat_map (be n) l.
Proof. intros E. induction l as [|x l IH]; [reflexivity |]. cbn [flat_map]. now rewrite E, IH. Qed.

Definition I256 : list Z := map (sqrt_frac 32) (firstn 8 primes).
Definition I512 : list Z := map (sqrt_frac 64) (firstn 8 primes).
Definition I384 : list Z := map (sqrt_frac 64) (firstn 8 (skipn 8 primes)).
Lemma I256_ok : I256 = [0x6a09e667; 0xbb67ae85; 0x3c6ef372; 0xa54ff53a; 0x510e527f; 0x9b05688c; 0x1f83d9ab; 0x5be0cd19].
Proof. vm_compute. reflexivity. Qed.
Lemma I512_ok : I512 =
  [0x6a09e667f3bcc908; 0xbb67ae8584caa73b; 0x3c6ef372fe94f82b; 0xa54ff53a5f1d36f1;
   0x510e527fade682d1; 0x9b05688c2b3e6c1f; 0x1f83d9abfb41bd6b; 0x5be0cd19137e2179].
Proof. vm_compute. reflexivity. Qed.
Lemma I384_ok : I384 =
  [0xcbbb9d5dc1059ed8; 0x629a292a367cd507; 0x9159015a3070dd17; 0x152fecd8f70e5939;
   0x67332667ffc00b31; 0x8eb44a8768581511; 0xdb0c2e0d64f98fa7; 0x47b5481dbefa4fa4].
Proof. vm_compute. reflexivity. Qed.

Lemma sha_words32 init m :
  sha_words V32 init m = fold_left (sha_block V32) (blocks 64 (pad (Z.of_nat 64) (be 8 (8 * len m)) m)) init.
Proof. unfold sha_words. generalize (sha_block V32). intros f. reflexivity. Qed.
Lemma sha_words64 init m :
  sha_words V64 init m = fold_left (sha_block V64) (blocks 128 (pad (Z.of_nat 128) (be 16 (8 * len m)) m)) init.
Proof. unfold sha_words. generalize (sha_block V64). intros f. reflexivity. Qed.

Lemma spec256 m : sha256_spec m = flat_map (be 4) (sha_words V32 I256 m).
Proof. unfold sha256_spec, I256. reflexivity. Qed.
Lemma spec512 m : sha512_spec m = flat_map (be 8) (sha_words V64 I512 m).
Proof. unfold sha512_spec, I512. reflexivity. Qed.
Lemma spec384 m : sha384_spec m = firstn 48 (flat_map (be 8) (sha_words V64 I384 m)).
Proof. unfold sha384_spec, I384. reflexivity. Qed.

Lemma sha256bin_ok junk m : len junk = 64 -> bytesP m -> len m < 2 ^ 51 -> sha256bin junk m = sha256_spec m.
Proof.
  intros Hj Hm Hlen. pose proof (len_nonneg m) as Hm0.
  set (field := be 8 (8 * len m)).
  assert (L8 : len field = 8) by (unfold field; apply be_len).
  assert (Bl : bytesP field) by (unfold field; apply be_bytes).
  set (setlen := fun buffer : list Z =>
    let bit_len := u64 (len m << 3) in
    splice (splice (splice (splice (splice (splice (splice (splice buffer
      56 [(bit_len >> 54) .& 0xff]) 57 [(bit_len >> 48) .& 0xff]) 58 [(bit_len >> 40) .& 0xff])
      59 [(bit_len >> 32) .& 0xff]) 60 [(bit_len >> 24) .& 0xff]) 61 [(bit_len >> 16) .& 0xff])
      62 [(bit_len >> 8) .& 0xff]) 63 [(bit_len >> 0) .& 0xff]).
  assert (SL : forall p q, len p = 64 - 8 -> len q = 8 -> setlen (p ++ q) = p ++ field).
  { intros p q Hp Hq. unfold setlen. cbv zeta. rewrite splice8 by (unfold len in *; lia).
    rewrite bit_len by exact Hlen. rewrite be8' by lia. reflexivity. }
  pose proof (skel_ok sha256_add64 64 field setlen junk I256 m ltac:(lia) ltac:(unfold len in L8; lia) Hj) as SK.
  rewrite L8 in SK. specialize (SK SL). change (Z.of_nat 64 - 8 - 1) with 55 in SK.
  destruct (pad_length 64 field m ltac:(lia)) as (k & Lk).
  assert (Bp : bytesP (pad (Z.of_nat 64) field m)) by (now apply pad_bytes).
  assert (W0 : woct 32 I256).
  { rewrite I256_ok. split; [reflexivity |]. unfold word. change (2 ^ 32) with 4294967296.
    repeat (constructor; [lia |]). constructor. }
  destruct (fold_sim sha256_add64 (sha_block V32) (fun s => s) (woct 32) _ sha256_add_block
              (blocks 64 (pad (Z.of_nat 64) field m)) I256 W0 (Forall_blocks 64 ltac:(lia) k _ Bp Lk)) as [E1 W1].
  rewrite E1 in SK. clear E1.
  transitivity (flat_map (fun h => [(h >> 24) .& 0xff; (h >> 16) .& 0xff; (h >> 8) .& 0xff; h .& 0xff])
                  (skel sha256_add64 (Z.of_nat 64) 55 setlen junk I256 m)).
  { unfold sha256bin, skel, setlen. cbv beta zeta. rewrite I256_ok. change (Z.of_nat 64) with 64.
    destruct (feed _ _ _ _ _ _) as [hash offset]. destruct (_ >? _); reflexivity. }
  rewrite SK. rewrite (flat_map_be 4 _ _ be4). rewrite spec256, sha_words32. reflexivity.
Qed.

Lemma upto8 {A} (f : A -> Z -> A) a : fold_left f (upto 8) a = f (f (f (f (f (f (f (f a 0) 1) 2) 3) 4) 5) 6) 7.
Proof. reflexivity. Qed.

Lemma be16 n : 0 <= n < 2 ^ 64 -> be 16 n = [0; 0; 0; 0; 0; 0; 0; 0] ++ be 8 n.
Proof.
  intros Hn. cbn [be app].
  rewrite !(Z.div_small n (256 ^ _)) by (split; [lia |]; eapply Z.lt_le_trans; [apply Hn |]; vm_compute; discriminate).
  reflexivity.
Qed.

(** Both of the code's loops over the length bytes. *)
Lemma splice16 p q f g : len p = 112 -> List.length q = 16%nat ->
  fold_left (fun b i => splice b (120 + i) [g i]) (upto 8) (fold_left (fun b i => splice b (112 + i) [f i]) (upto 8) (p ++ q))
  = p ++ map f (upto 8) ++ map g (upto 8).
Proof.
  intros Hp Hq. rewrite !upto8. repeat (rewrite splice_app by lia). rewrite Hp.
  destruct q as [|x0 [|x1 [|x2 [|x3 [|x4 [|x5 [|x6 [|x7 [|x8 [|x9 [|x10 [|x11 [|x12 [|x13 [|x14 [|x15 [|x16 q]]]]]]]]]]]]]]]]];
    cbn [List.length] in Hq; try lia.
  reflexivity.
Qed.

Lemma sha512_chain init m : bytesP m -> len m < 2 ^ 61 -> woct 64 init ->
  skel sha512_add128 128 111 (fun buffer =>
    fold_left (fun b i => splice b (120 + i) [(u64 (len m * 8) >> (56 - i * 8)) .& 0xff]) (upto 8)
      (fold_left (fun b i => splice b (112 + i) [(0 >> (56 - i * 8)) .& 0xff]) (upto 8) buffer)) (repeat 0 128) init m
  = sha_words V64 init m /\ woct 64 (sha_words V64 init m).
Proof.
  intros Hm Hlen W0. pose proof (len_nonneg m) as Hm0.
  set (field := be 16 (8 * len m)).
  assert (L8 : len field = 16) by (unfold field; apply be_len).
  assert (Bl : bytesP field) by (unfold field; apply be_bytes).
  set (setlen := fun buffer => _).
  assert (SL : forall p q, len p = 128 - 16 -> len q = 16 -> setlen (p ++ q) = p ++ field).
  { intros p q Hp Hq. unfold setlen. rewrite splice16 by (unfold len in *; lia). rewrite !be8.
    assert (E : u64 (len m * 8) = 8 * len m).
    { change (2 ^ 61) with 2305843009213693952 in Hlen. rewrite u64_id by lia. lia. }
    unfold field. rewrite E, be16 by lia. reflexivity. }
  pose proof (skel_ok sha512_add128 128 field setlen (repeat 0 128) init m ltac:(lia) ltac:(unfold len in L8; lia)
                (len_repeat 0 128)) as SK.
  rewrite L8 in SK. specialize (SK SL). change (Z.of_nat 128 - 16 - 1) with 111 in SK.
  destruct (pad_length 128 field m ltac:(lia)) as (k & Lk).
  assert (Bp : bytesP (pad (Z.of_nat 128) field m)) by (now apply pad_bytes).
  destruct (fold_sim sha512_add128 (sha_block V64) (fun s => s) (woct 64) _ sha512_add_block
              (blocks 128 (pad (Z.of_nat 128) field m)) init W0 (Forall_blocks 128 ltac:(lia) k _ Bp Lk)) as [E1 W1].
  rewrite E1 in SK. clear E1. rewrite sha_words64. split; [exact SK | exact W1].
Qed.

Lemma sha512bin'_skel m is384 : sha512bin' m is384 =
  let hash := skel sha512_add128 128 111 (fun buffer =>
    fold_left (fun b i => splice b (120 + i) [(u64 (len m * 8) >> (56 - i * 8)) .& 0xff]) (upto 8)
      (fold_left (fun b i => splice b (112 + i) [(0 >> (56 - i * 8)) .& 0xff]) (upto 8) buffer)) (repeat 0 128)
      (if is384 then I384 else I512) m in
  flat_map (fun i => map (fun j => (nthz hash i >> (56 - j * 8)) .& 0xff) (upto 8)) (upto (if is384 then 6%nat else 8%nat)).
Proof.
  unfold sha512bin', skel. rewrite I384_ok, I512_ok. cbv beta zeta.
  destruct (feed _ _ _ _ _ _) as [hash offset]. destruct (_ >? _); reflexivity.
Qed.

Lemma W512 : woct 64 I512.
Proof.
  rewrite I512_ok. split; [reflexivity |]. unfold word. change (2 ^ 64) with 18446744073709551616.
  repeat (constructor; [lia |]). constructor.
Qed.
Lemma W384 : woct 64 I384.
Proof.
  rewrite I384_ok. split; [reflexivity |]. unfold word. change (2 ^ 64) with 18446744073709551616.
  repeat (constructor; [lia |]). constructor.
Qed.

Lemma sha512bin_ok m : bytesP m -> len m < 2 ^ 61 -> sha512bin m = sha512_spec m.
Proof.
  intros Hm Hl. unfold sha512bin. rewrite sha512bin'_skel. cbv beta iota zeta.
  destruct (sha512_chain I512 m Hm Hl W512) as [E W]. rewrite E, spec512.
  revert W. generalize (sha_words V64 I512 m). intros s W.
  destruct (woct_inv _ _ W) as (a & b & c & d & e & f & g & h & ->). clear.
  rewrite (flat_map_ext _ (fun i => be 8 (nthz [a; b; c; d; e; f; g; h] i))) by (intros i; apply be8). reflexivity.
Qed.

Lemma sha384bin_ok m : bytesP m -> len m < 2 ^ 61 -> sha384bin m = sha384_spec m.
Proof.
  intros Hm Hl. unfold sha384bin. rewrite sha512bin'_skel. cbv beta iota zeta.
  destruct (sha512_chain I384 m Hm Hl W384) as [E W]. rewrite E, spec384.
  revert W. generalize (sha_words V64 I384 m). intros s W.
  destruct (woct_inv _ _ W) as (a & b & c & d & e & f & g & h & ->). clear.
  rewrite (flat_map_ext _ (fun i => be 8 (nthz [a; b; c; d; e; f; g; h] i))) by (intros i; apply be8). reflexivity.
Qed.
