(** Lemmas about the shared vocabulary. *)
From Verif Require Import Common.

(** ** Finite sweeps over bytes *)
Lemma all_bytes_in b : byteP b -> In b all_bytes.
Proof.
  intros [H1 H2]. unfold all_bytes. apply in_map_iff. exists (Z.to_nat b). split; [lia|].
  apply in_seq. lia.
Qed.

Lemma byte_sweep (P : Z -> bool) : forallb P all_bytes = true -> forall b, byteP b -> P b = true.
Proof.
  intros H b Hb. rewrite forallb_forall in H. apply H, all_bytes_in, Hb.
Qed.

Lemma byte_sweep2 (P : Z -> Z -> bool) :
  forallb (fun a => forallb (P a) all_bytes) all_bytes = true ->
  forall a b, byteP a -> byteP b -> P a b = true.
Proof.
  intros H a b Ha Hb.
  apply (byte_sweep (P a)); [|exact Hb].
  apply (byte_sweep (fun a => forallb (P a) all_bytes)); assumption.
Qed.

Definition range (n : nat) : list Z := map Z.of_nat (seq 0 n).
Lemma range_in n b : 0 <= b < Z.of_nat n -> In b (range n).
Proof.
  intros [H1 H2]. unfold range. apply in_map_iff. exists (Z.to_nat b). split; [lia|].
  apply in_seq. lia.
Qed.
Lemma range_sweep (n : nat) (P : Z -> bool) :
  forallb P (range n) = true -> forall b, 0 <= b < Z.of_nat n -> P b = true.
Proof. intros H b Hb. rewrite forallb_forall in H. apply H, range_in, Hb. Qed.

(** ** Lengths *)
Lemma len_nil {A} : len (@nil A) = 0. Proof. reflexivity. Qed.
Lemma len_cons {A} (x : A) l : len (x :: l) = 1 + len l.
Proof. unfold len; cbn [List.length]; lia. Qed.
Lemma len_app {A} (a b : list A) : len (a ++ b) = len a + len b.
Proof. unfold len; rewrite app_length; lia. Qed.
Lemma len_nonneg {A} (l : list A) : 0 <= len l. Proof. unfold len; lia. Qed.
Lemma len_zero {A} (l : list A) : len l = 0 -> l = [].
Proof. destruct l; [reflexivity|rewrite len_cons; pose proof (len_nonneg l); lia]. Qed.
Lemma len_map {A B} (f : A -> B) l : len (map f l) = len l.
Proof. unfold len; now rewrite map_length. Qed.
Lemma len_rev {A} (l : list A) : len (rev l) = len l.
Proof. unfold len; now rewrite rev_length. Qed.
Lemma len_repeat {A} (x : A) n : len (repeat x n) = Z.of_nat n.
Proof. unfold len; now rewrite repeat_length. Qed.

Lemma len_takez {A} n (l : list A) : 0 <= n <= len l -> len (takez n l) = n.
Proof. intros H; unfold takez, len in *; rewrite firstn_length; lia. Qed.
Lemma len_takez_min {A} n (l : list A) : 0 <= n -> len (takez n l) = Z.min n (len l).
Proof. intros H; unfold takez, len in *; rewrite firstn_length; lia. Qed.
Lemma len_dropz {A} n (l : list A) : 0 <= n <= len l -> len (dropz n l) = len l - n.
Proof. intros H; unfold dropz, len in *; rewrite skipn_length; lia. Qed.
Lemma takez_dropz {A} n (l : list A) : takez n l ++ dropz n l = l.
Proof. apply firstn_skipn. Qed.
Lemma takez_0 {A} (l : list A) : takez 0 l = [].
Proof. reflexivity. Qed.
Lemma dropz_0 {A} (l : list A) : dropz 0 l = l.
Proof. reflexivity. Qed.
Lemma takez_nonpos {A} n (l : list A) : n <= 0 -> takez n l = [].
Proof. intros H; unfold takez; replace (Z.to_nat n) with O by lia; reflexivity. Qed.
Lemma dropz_nonpos {A} n (l : list A) : n <= 0 -> dropz n l = l.
Proof. intros H; unfold dropz; replace (Z.to_nat n) with O by lia; reflexivity. Qed.
Lemma takez_all {A} n (l : list A) : len l <= n -> takez n l = l.
Proof. intros H; unfold takez, len in *; apply firstn_all2; lia. Qed.
Lemma dropz_all {A} n (l : list A) : len l <= n -> dropz n l = [].
Proof. intros H; unfold dropz, len in *; apply skipn_all2; lia. Qed.
Lemma takez_app {A} n (a b : list A) : 0 <= n <= len a -> takez n (a ++ b) = takez n a.
Proof.
  intros H; unfold takez, len in *; rewrite firstn_app.
  replace (Z.to_nat n - List.length a)%nat with O by lia. cbn. apply app_nil_r.
Qed.
Lemma takez_app_ge {A} n (a b : list A) : len a <= n -> takez n (a ++ b) = a ++ takez (n - len a) b.
Proof.
  intros H; unfold takez, len in *; rewrite firstn_app. rewrite firstn_all2 by lia.
  do 2 f_equal. lia.
Qed.
Lemma dropz_app {A} n (a b : list A) : 0 <= n <= len a -> dropz n (a ++ b) = dropz n a ++ b.
Proof.
  intros H; unfold dropz, len in *; rewrite skipn_app.
  replace (Z.to_nat n - List.length a)%nat with O by lia. reflexivity.
Qed.
Lemma dropz_app_ge {A} n (a b : list A) : len a <= n -> dropz n (a ++ b) = dropz (n - len a) b.
Proof.
  intros H; unfold dropz, len in *; rewrite skipn_app. rewrite skipn_all2 by lia.
  cbn. f_equal. lia.
Qed.
Lemma takez_app_exact {A} (a b : list A) n : n = len a -> takez n (a ++ b) = a.
Proof. intros ->. rewrite takez_app by (pose proof (len_nonneg a); lia). apply takez_all; lia. Qed.
Lemma dropz_app_exact {A} (a b : list A) n : n = len a -> dropz n (a ++ b) = b.
Proof. intros ->. rewrite dropz_app by (pose proof (len_nonneg a); lia). now rewrite dropz_all. Qed.
Lemma dropz_dropz {A} n m (l : list A) : 0 <= n -> 0 <= m -> dropz n (dropz m l) = dropz (n + m) l.
Proof.
  intros Hn Hm; unfold dropz. rewrite Z2Nat.inj_add by lia.
  generalize (Z.to_nat n) as a; generalize (Z.to_nat m) as b; intros b a. clear.
  revert l; induction b as [|b IH]; intros l.
  - now rewrite Nat.add_0_r.
  - rewrite Nat.add_succ_r. destruct l; cbn; [now rewrite skipn_nil|apply IH].
Qed.
Lemma takez_takez {A} n m (l : list A) : takez n (takez m l) = takez (Z.min n m) l.
Proof. unfold takez. rewrite firstn_firstn. f_equal. lia. Qed.
Lemma dropz_S {A} n (x : A) l : 0 < n -> dropz n (x :: l) = dropz (n - 1) l.
Proof. intros H; unfold dropz. replace (Z.to_nat n) with (S (Z.to_nat (n - 1))) by lia. reflexivity. Qed.
Lemma takez_S {A} n (x : A) l : 0 < n -> takez n (x :: l) = x :: takez (n - 1) l.
Proof. intros H; unfold takez. replace (Z.to_nat n) with (S (Z.to_nat (n - 1))) by lia. reflexivity. Qed.

(** ** Reads *)
Lemma nthz_0 x l : nthz (x :: l) 0 = x. Proof. reflexivity. Qed.
Lemma nthz_S x l i : 0 < i -> nthz (x :: l) i = nthz l (i - 1).
Proof. intros H; unfold nthz. replace (Z.to_nat i) with (S (Z.to_nat (i - 1))) by lia. reflexivity. Qed.
Lemma nthz_app1 a b i : 0 <= i < len a -> nthz (a ++ b) i = nthz a i.
Proof. intros H; unfold nthz, len in *. apply app_nth1. lia. Qed.
Lemma nthz_app2 a b i : len a <= i -> nthz (a ++ b) i = nthz b (i - len a).
Proof. intros H; unfold nthz, len in *. rewrite app_nth2 by lia. f_equal. lia. Qed.
Lemma rd_some l i : 0 <= i < len l -> rd l i = Some (nthz l i).
Proof.
  intros H; unfold rd, nthz, len in *.
  replace ((0 <=? i) && (i <? Z.of_nat (List.length l))) with true by lia.
  apply nth_error_nth'. lia.
Qed.
Lemma rd_none l i : i < 0 \/ len l <= i -> rd l i = None.
Proof.
  intros H; unfold rd. replace ((0 <=? i) && (i <? len l)) with false by lia. reflexivity.
Qed.
Lemma rd_inv l i b : rd l i = Some b -> 0 <= i < len l /\ b = nthz l i.
Proof.
  intros H. destruct (Z_lt_ge_dec i 0) as [H1|H1]; [rewrite rd_none in H by lia; discriminate|].
  destruct (Z_lt_ge_dec i (len l)) as [H2|H2]; [|rewrite rd_none in H by lia; discriminate].
  rewrite rd_some in H by lia. injection H as <-. lia.
Qed.
Lemma bytesP_nthz l i : bytesP l -> byteP (nthz l i).
Proof.
  intros H; unfold nthz. destruct (nth_in_or_default (Z.to_nat i) l 0) as [Hin| ->].
  - unfold bytesP in H. rewrite Forall_forall in H. now apply H.
  - unfold byteP; lia.
Qed.
Lemma nthz_dropz l i k : 0 <= i -> 0 <= k -> nthz (dropz k l) i = nthz l (k + i).
Proof.
  intros Hi Hk; unfold nthz, dropz. rewrite Z2Nat.inj_add by lia.
  generalize (Z.to_nat i) as n; generalize (Z.to_nat k) as m; intros m n. clear.
  revert l; induction m as [|m IH]; intros l; [reflexivity|].
  destruct l; cbn; [now destruct n|apply IH].
Qed.
Lemma nthz_takez l i k : 0 <= i < k -> nthz (takez k l) i = nthz l i.
Proof.
  intros H; unfold nthz, takez.
  assert (Hn : (Z.to_nat i < Z.to_nat k)%nat) by lia.
  revert Hn; generalize (Z.to_nat i) as n; generalize (Z.to_nat k) as m. clear. intros m.
  revert l; induction m as [|m IH]; intros l n Hn; [lia|].
  destruct l; cbn; [reflexivity|]. destruct n; [reflexivity|]. apply IH; lia.
Qed.
Lemma list_ext (a b : list Z) : len a = len b -> (forall i, 0 <= i < len a -> nthz a i = nthz b i) -> a = b.
Proof.
  intros Hl H. apply (nth_ext a b 0 0); [unfold len in Hl; lia|].
  intros n Hn. specialize (H (Z.of_nat n)). unfold nthz, len in H. rewrite Nat2Z.id in H. apply H. lia.
Qed.

(** ** Byte predicates *)
Lemma bytesP_nil : bytesP []. Proof. constructor. Qed.
Lemma bytesP_cons b l : bytesP (b :: l) <-> byteP b /\ bytesP l.
Proof. split; [intros H; inversion H; now split|intros [H1 H2]; now constructor]. Qed.
Lemma bytesP_app a b : bytesP (a ++ b) <-> bytesP a /\ bytesP b.
Proof. apply Forall_app. Qed.
Lemma bytesP_takez n l : bytesP l -> bytesP (takez n l).
Proof.
  intros H. unfold bytesP, takez in *. rewrite Forall_forall in *. intros x Hx. apply H.
  rewrite <- (firstn_skipn (Z.to_nat n) l). apply in_or_app. now left.
Qed.
Lemma bytesP_dropz n l : bytesP l -> bytesP (dropz n l).
Proof.
  intros H. unfold bytesP, dropz in *. rewrite Forall_forall in *. intros x Hx. apply H.
  rewrite <- (firstn_skipn (Z.to_nat n) l). apply in_or_app. now right.
Qed.
Lemma byteP_mod x : byteP (x mod 256). Proof. unfold byteP. lia. Qed.
Lemma u8_byte x : byteP (u8 x). Proof. unfold u8, byteP. lia. Qed.
Lemma u8_id x : byteP x -> u8 x = x. Proof. unfold u8, byteP. intros H. apply Z.mod_small. lia. Qed.
Lemma u16_range x : 0 <= u16 x < 65536. Proof. unfold u16. lia. Qed.
Lemma u32_range x : 0 <= u32 x < 4294967296. Proof. unfold u32. lia. Qed.
Lemma u64_range x : 0 <= u64 x < 18446744073709551616. Proof. unfold u64. lia. Qed.
Lemma u16_id x : 0 <= x < 65536 -> u16 x = x. Proof. apply Z.mod_small. Qed.
Lemma u32_id x : 0 <= x < 4294967296 -> u32 x = x. Proof. apply Z.mod_small. Qed.
Lemma u64_id x : 0 <= x < 18446744073709551616 -> u64 x = x. Proof. apply Z.mod_small. Qed.

(** ** Bit operations as arithmetic *)
Lemma shr_div x n : 0 <= n -> Z.shiftr x n = x / 2 ^ n.
Proof. apply Z.shiftr_div_pow2. Qed.
Lemma shl_mul x n : 0 <= n -> Z.shiftl x n = x * 2 ^ n.
Proof. apply Z.shiftl_mul_pow2. Qed.
Lemma land_mask x n : 0 <= n -> Z.land x (Z.ones n) = x mod 2 ^ n.
Proof. apply Z.land_ones. Qed.
Lemma land_low x m n : 0 <= n -> m = Z.ones n -> Z.land x m = x mod 2 ^ n.
Proof. intros Hn ->. now apply Z.land_ones. Qed.
Lemma land_1 x : Z.land x 1 = x mod 2. Proof. now apply (land_low x 1 1). Qed.
Lemma land_3 x : Z.land x 3 = x mod 4. Proof. now apply (land_low x 3 2). Qed.
Lemma land_7 x : Z.land x 7 = x mod 8. Proof. now apply (land_low x 7 3). Qed.
Lemma land_15 x : Z.land x 15 = x mod 16. Proof. now apply (land_low x 15 4). Qed.
Lemma land_31 x : Z.land x 31 = x mod 32. Proof. now apply (land_low x 31 5). Qed.
Lemma land_63 x : Z.land x 63 = x mod 64. Proof. now apply (land_low x 63 6). Qed.
Lemma land_127 x : Z.land x 127 = x mod 128. Proof. now apply (land_low x 127 7). Qed.
Lemma land_255 x : Z.land x 255 = x mod 256.
Proof. change 255 with (Z.ones 8). now rewrite Z.land_ones. Qed.

(** [lor] of a multiple of 2^n with something below 2^n is addition. *)
Lemma lor_add a b n : 0 <= n -> 0 <= b < 2 ^ n -> Z.lor (a * 2 ^ n) b = a * 2 ^ n + b.
Proof.
  intros Hn Hb. symmetry. rewrite <- Z.lxor_lor; [apply Z.add_nocarry_lxor|].
  all: apply Z.bits_inj'; intros i Hi; rewrite Z.land_spec, Z.bits_0.
  all: destruct (Z_lt_ge_dec i n) as [Hl|Hl].
  1,3: rewrite <- Z.shiftl_mul_pow2, Z.shiftl_spec_low by lia; reflexivity.
  all: assert (Hb0 : Z.testbit b i = false).
  1,3: destruct (Z.eq_dec b 0) as [->|Hnz]; [apply Z.bits_0|];
    apply Z.bits_above_log2; [lia|];
    apply Z.log2_lt_pow2; [lia|];
    eapply Z.lt_le_trans; [apply Hb|]; apply Z.pow_le_mono_r; lia.
  all: rewrite Hb0; apply andb_false_r.
Qed.
Lemma lor_shl_add a b n : 0 <= n -> 0 <= b < 2 ^ n -> Z.lor (Z.shiftl a n) b = a * 2 ^ n + b.
Proof. intros Hn Hb. rewrite Z.shiftl_mul_pow2 by lia. now apply lor_add. Qed.
Lemma lor_shl_add' a b n m : 0 <= n -> m = 2 ^ n -> 0 <= b < m -> Z.lor (Z.shiftl a n) b = a * m + b.
Proof. intros Hn -> Hb. now apply lor_shl_add. Qed.

(** ** Big endian *)
Lemma be_len n v : len (be n v) = Z.of_nat n.
Proof. induction n as [|n IH]; [reflexivity|]. cbn [be]. rewrite len_cons, IH. lia. Qed.
Lemma be_length n v : List.length (be n v) = n.
Proof. induction n as [|n IH]; [reflexivity|]. cbn [be List.length]. now rewrite IH. Qed.
Lemma be_bytes n v : bytesP (be n v).
Proof. induction n as [|n IH]; cbn [be]; constructor; [apply byteP_mod|exact IH]. Qed.
Lemma unbe_acc_app acc a b : unbe_acc acc (a ++ b) = unbe_acc (unbe_acc acc a) b.
Proof. revert acc; induction a as [|x a IH]; intros acc; [reflexivity|]. cbn. apply IH. Qed.
Lemma unbe_acc_lin acc l : unbe_acc acc l = acc * 256 ^ len l + unbe_acc 0 l.
Proof.
  revert acc; induction l as [|x l IH]; intros acc.
  - cbn. unfold len. cbn. lia.
  - cbn [unbe_acc]. rewrite IH, (IH (0 * 256 + x)). rewrite len_cons.
    rewrite Z.pow_add_r by (pose proof (len_nonneg l); lia). lia.
Qed.
Lemma unbe_cons x l : unbe (x :: l) = x * 256 ^ len l + unbe l.
Proof. unfold unbe. cbn [unbe_acc]. rewrite unbe_acc_lin. lia. Qed.
Lemma unbe_app a b : unbe (a ++ b) = unbe a * 256 ^ len b + unbe b.
Proof. unfold unbe. rewrite unbe_acc_app. apply unbe_acc_lin. Qed.
Lemma unbe_bound l : bytesP l -> 0 <= unbe l < 256 ^ len l.
Proof.
  induction l as [|x l IH]; intros H; [unfold unbe, len; cbn; lia|].
  apply bytesP_cons in H as [Hx Hl]. specialize (IH Hl). rewrite unbe_cons, len_cons.
  rewrite Z.pow_add_r by (pose proof (len_nonneg l); lia). unfold byteP in Hx.
  change (256 ^ 1) with 256. nia.
Qed.
Lemma pow256_pos n : 0 <= n -> 0 < 256 ^ n. Proof. intros; apply Z.pow_pos_nonneg; lia. Qed.
Lemma unbe_be n v : unbe (be n v) = v mod 256 ^ Z.of_nat n.
Proof.
  induction n as [|n IH].
  - cbn. now rewrite Z.mod_1_r.
  - cbn [be]. rewrite unbe_cons, be_len, IH.
    rewrite Nat2Z.inj_succ, Z.pow_succ_r by lia.
    pose proof (pow256_pos (Z.of_nat n) ltac:(lia)) as Hp.
    rewrite (Z.mul_comm 256). rewrite Z.rem_mul_r by lia. lia.
Qed.
Lemma be_unbe l : bytesP l -> be (List.length l) (unbe l) = l.
Proof.
  induction l as [|x l IH]; intros H; [reflexivity|].
  apply bytesP_cons in H as [Hx Hl]. specialize (IH Hl).
  pose proof (unbe_bound l Hl) as Hb.
  assert (Hp : 0 < 256 ^ len l) by (apply pow256_pos, len_nonneg).
  cbn [List.length be]. fold (len l). f_equal.
  - rewrite unbe_cons. rewrite Z.div_add_l by lia. rewrite (Z.div_small (unbe l)) by lia.
    rewrite Z.add_0_r. apply Z.mod_small, Hx.
  - assert (G : forall m v, Z.of_nat m <= len l -> be m (v * 256 ^ len l + unbe l) = be m (unbe l)).
    { intros m v. induction m as [|m IHm]; intros Hm; [reflexivity|].
      cbn [be]. f_equal; [|apply IHm; lia].
      replace (256 ^ len l) with (256 ^ (len l - Z.of_nat m - 1) * 256 * 256 ^ Z.of_nat m).
      2:{ change 256 with (256 ^ 1) at 2. rewrite <- !Z.pow_add_r by lia. f_equal. lia. }
      pose proof (pow256_pos (Z.of_nat m) ltac:(lia)).
      rewrite Z.mul_assoc, Z.div_add_l by lia.
      rewrite Z.mul_assoc, Z.add_comm, Z.mod_add by lia. reflexivity. }
    rewrite unbe_cons, G by (unfold len; lia). exact IH.
Qed.
Lemma be_mod n v : be n (v mod 256 ^ Z.of_nat n) = be n v.
Proof.
  rewrite <- unbe_be. rewrite <- (be_length n v) at 1. apply be_unbe, be_bytes.
Qed.
Lemma be_inj n v w : be n v = be n w -> v mod 256 ^ Z.of_nat n = w mod 256 ^ Z.of_nat n.
Proof. intros H. now rewrite <- !unbe_be, H. Qed.

(** ** Equality test *)
Lemma beqb_eq a b : beqb a b = true <-> a = b.
Proof.
  revert b; induction a as [|x a IH]; intros [|y b]; cbn; split; intros H; try discriminate; try reflexivity.
  - apply andb_true_iff in H as [H1 H2]. apply Z.eqb_eq in H1. apply IH in H2. now subst.
  - injection H as -> ->. rewrite Z.eqb_refl. cbn. now apply IH.
Qed.
Lemma beqb_refl a : beqb a a = true. Proof. now apply beqb_eq. Qed.
Lemma beqb_neq a b : beqb a b = false <-> a <> b.
Proof.
  split; intros H.
  - intros ->. rewrite beqb_refl in H. discriminate.
  - destruct (beqb a b) eqn:E; [|reflexivity]. apply beqb_eq in E. contradiction.
Qed.

(** ** Splice *)
Lemma len_splice l i xs : 0 <= i -> i + len xs <= len l -> len (splice l i xs) = len l.
Proof.
  intros Hi Hl. pose proof (len_nonneg xs). unfold splice. rewrite !len_app, len_takez, len_dropz by lia. lia.
Qed.
Lemma splice_in l i xs j : 0 <= i -> i + len xs <= len l -> i <= j < i + len xs ->
  nthz (splice l i xs) j = nthz xs (j - i).
Proof.
  intros Hi Hl Hj. pose proof (len_nonneg xs). unfold splice.
  rewrite nthz_app2; rewrite len_takez by lia; [|lia].
  now rewrite nthz_app1 by lia.
Qed.
Lemma splice_out l i xs j : 0 <= i -> i + len xs <= len l -> 0 <= j < i \/ i + len xs <= j ->
  nthz (splice l i xs) j = nthz l j.
Proof.
  intros Hi Hl Hj. pose proof (len_nonneg xs). unfold splice.
  destruct (Z_lt_ge_dec j i) as [Hc|Hc].
  - rewrite nthz_app1 by (rewrite len_takez by lia; lia). apply nthz_takez. lia.
  - rewrite nthz_app2; rewrite len_takez by lia; [|lia].
    rewrite nthz_app2 by lia. rewrite nthz_dropz by lia. f_equal. lia.
Qed.
Lemma splice_read l i xs : 0 <= i -> i + len xs <= len l -> takez (len xs) (dropz i (splice l i xs)) = xs.
Proof.
  intros Hi Hl. pose proof (len_nonneg xs). unfold splice.
  rewrite dropz_app_exact by (rewrite len_takez by lia; lia). now apply takez_app_exact.
Qed.
Lemma bytesP_splice l i xs : bytesP l -> bytesP xs -> bytesP (splice l i xs).
Proof.
  intros H1 H2. unfold splice. rewrite !bytesP_app. auto using bytesP_takez, bytesP_dropz.
Qed.

(** Normalises lengths everywhere. *)
Ltac lnil := repeat match goal with
  | |- context [@len ?A (@nil ?A)] => change (@len A (@nil A)) with 0
  | H : context [@len ?A (@nil ?A)] |- _ => change (@len A (@nil A)) with 0 in H
  end.
Ltac lens := repeat match goal with
  | |- context [@len ?A (_ :: _)] => rewrite (@len_cons A)
  | H : context [@len ?A (_ :: _)] |- _ => rewrite (@len_cons A) in H
  | |- context [@len ?A (_ ++ _)] => rewrite (@len_app A)
  | H : context [@len ?A (_ ++ _)] |- _ => rewrite (@len_app A) in H
  | |- context [len (be _ _)] => rewrite be_len
  | H : context [len (be _ _)] |- _ => rewrite be_len in H
  | |- context [len (map _ _)] => rewrite len_map
  | |- context [@len ?A (rev _)] => rewrite (@len_rev A)
  | |- context [@len ?A (repeat _ _)] => rewrite (@len_repeat A)
  end; lnil.
