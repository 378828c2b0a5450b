(** Lemmas about bit strings. *)
From Verif Require Import Common CommonFacts Bits.

Definition b2z (b : bool) : Z := if b then 1 else 0.

Lemma bits_of_length n x : List.length (bits_of n x) = n.
Proof. induction n as [|n IH]; [reflexivity|]. cbn [bits_of List.length]. now rewrite IH. Qed.
Lemma bits_of_len n x : len (bits_of n x) = Z.of_nat n.
Proof. unfold len. now rewrite bits_of_length. Qed.
Lemma bits_length l : List.length (bits l) = (8 * List.length l)%nat.
Proof. induction l as [|b l IH]; [reflexivity|]. unfold bits in *. cbn [flat_map]. rewrite app_length, IH, bits_of_length. cbn [List.length]. lia. Qed.
Lemma bits_len l : len (bits l) = 8 * len l.
Proof. unfold len. rewrite bits_length. lia. Qed.
Lemma bits_app a b : bits (a ++ b) = bits a ++ bits b.
Proof. apply flat_map_app. Qed.

Lemma nth_bits_of n x i : (i < n)%nat -> nth i (bits_of n x) false = Z.testbit x (Z.of_nat (n - 1 - i)).
Proof.
  revert i; induction n as [|n IH]; intros i Hi; [lia|]. cbn [bits_of].
  destruct i as [|i]; cbn [nth].
  - f_equal. lia.
  - rewrite IH by lia. f_equal. lia.
Qed.

Definition bitat (l : list Z) (i : Z) : bool := Z.testbit (nthz l (i / 8)) (7 - i mod 8).

Lemma nth_bits l (i : nat) : (i < 8 * List.length l)%nat -> nth i (bits l) false = bitat l (Z.of_nat i).
Proof.
  revert i; induction l as [|b l IH]; intros i Hi; [cbn in Hi; lia|].
  unfold bits. cbn [flat_map]. fold (bits l). cbn [List.length] in Hi.
  destruct (Nat.lt_ge_cases i 8) as [H|H].
  - rewrite app_nth1 by (rewrite bits_of_length; lia). rewrite nth_bits_of by lia.
    unfold bitat. replace (Z.of_nat i / 8) with 0 by lia. rewrite nthz_0. f_equal. lia.
  - rewrite app_nth2 by (rewrite bits_of_length; lia). rewrite bits_of_length.
    rewrite IH by lia. unfold bitat.
    rewrite (nthz_S b l (Z.of_nat i / 8)) by lia. f_equal; [f_equal|]; lia.
Qed.

Lemma bits_ext (a b : list bool) : List.length a = List.length b ->
  (forall i, (i < List.length a)%nat -> nth i a false = nth i b false) -> a = b.
Proof. intros Hl H. apply (nth_ext a b false false); assumption. Qed.

Lemma bits_val_acc l acc : fold_left (fun acc (b : bool) => 2 * acc + (if b then 1 else 0)) l acc
  = acc * 2 ^ len l + bits_val l.
Proof.
  unfold bits_val. revert acc; induction l as [|b l IH]; intros acc.
  - cbn. unfold len. cbn. lia.
  - cbn [fold_left]. rewrite IH, (IH (2 * 0 + _)). rewrite len_cons, Z.pow_add_r by (pose proof (len_nonneg l); lia).
    change (2 ^ 1) with 2. lia.
Qed.
Lemma bits_val_app a b : bits_val (a ++ b) = bits_val a * 2 ^ len b + bits_val b.
Proof. unfold bits_val at 1. rewrite fold_left_app. apply bits_val_acc. Qed.
Lemma bits_val_cons x l : bits_val (x :: l) = b2z x * 2 ^ len l + bits_val l.
Proof. change (x :: l) with ([x] ++ l). rewrite bits_val_app. destruct x; reflexivity. Qed.
Lemma bits_val_bound l : 0 <= bits_val l < 2 ^ len l.
Proof.
  induction l as [|b l IH]; [unfold bits_val, len; cbn; lia|].
  rewrite bits_val_cons, len_cons, Z.pow_add_r by (pose proof (len_nonneg l); lia).
  change (2 ^ 1) with 2. destruct b; cbn [b2z]; lia.
Qed.
Lemma mod_pow2_split x n : 0 <= n -> x mod 2 ^ (n + 1) = b2z (Z.testbit x n) * 2 ^ n + x mod 2 ^ n.
Proof.
  intros Hn. rewrite Z.pow_add_r by lia. change (2 ^ 1) with 2.
  assert (Hp : 0 < 2 ^ n) by (apply Z.pow_pos_nonneg; lia).
  rewrite Z.rem_mul_r by lia. rewrite <- Z.testbit_spec' by lia.
  destruct (Z.testbit x n); cbn [b2z Z.b2z]; lia.
Qed.
Lemma bits_val_of n x : bits_val (bits_of n x) = x mod 2 ^ Z.of_nat n.
Proof.
  induction n as [|n IH]; [cbn; now rewrite Z.mod_1_r|].
  cbn [bits_of]. rewrite bits_val_cons, IH, bits_of_len.
  rewrite Nat2Z.inj_succ. rewrite <- Z.add_1_r. symmetry. apply mod_pow2_split. lia.
Qed.
Lemma bits_of_val l : bits_of (List.length l) (bits_val l) = l.
Proof.
  induction l as [|b l IH]; [reflexivity|].
  cbn [List.length bits_of]. rewrite bits_val_cons. fold (len l).
  pose proof (bits_val_bound l) as Hb. assert (Hp : 0 < 2 ^ len l) by (apply Z.pow_pos_nonneg; [lia|apply len_nonneg]).
  assert (Ht : forall i, 0 <= i < len l -> Z.testbit (b2z b * 2 ^ len l + bits_val l) i = Z.testbit (bits_val l) i).
  { intros i Hi. rewrite <- (Z.mod_pow2_bits_low (b2z b * 2 ^ len l + bits_val l) (len l)) by lia.
    f_equal. rewrite Z.add_comm, Z.mod_add by lia. apply Z.mod_small. lia. }
  f_equal.
  - rewrite Z.testbit_odd, Z.shiftr_div_pow2 by apply len_nonneg.
    rewrite Z.div_add_l by lia. rewrite (Z.div_small (bits_val l)) by lia. destruct b; reflexivity.
  - transitivity (bits_of (List.length l) (bits_val l)); [|exact IH].
    assert (G : forall n, Z.of_nat n <= len l -> bits_of n (b2z b * 2 ^ len l + bits_val l) = bits_of n (bits_val l)).
    { induction n as [|n IHn]; intros Hn; [reflexivity|]. cbn [bits_of]. f_equal; [apply Ht; lia|apply IHn; lia]. }
    apply G. unfold len. lia.
Qed.
Lemma bits_of_mod n x : bits_of n (x mod 2 ^ Z.of_nat n) = bits_of n x.
Proof. rewrite <- bits_val_of. rewrite <- (bits_of_length n x) at 1. apply bits_of_val. Qed.
Lemma bits_val_zeros n : bits_val (repeat false n) = 0.
Proof. induction n as [|n IH]; [reflexivity|]. cbn [repeat]. rewrite bits_val_cons, IH. reflexivity. Qed.
Lemma bits_inj a b : List.length a = List.length b -> bits_val a = bits_val b -> a = b.
Proof. intros Hl H. rewrite <- (bits_of_val a), <- (bits_of_val b). now rewrite Hl, H. Qed.
Lemma bits_of_app n m x : bits_of (n + m) x = bits_of n (x / 2 ^ Z.of_nat m) ++ bits_of m x.
Proof.
  induction n as [|n IH]; [reflexivity|]. cbn [Nat.add bits_of app]. f_equal; [|exact IH].
  rewrite <- Z.shiftr_div_pow2, Z.shiftr_spec by lia. f_equal. lia.
Qed.

(** A bit string and the big endian number of the bytes. *)
Lemma bits_val_bytes l : bytesP l -> bits_val (bits l) = unbe l.
Proof.
  induction l as [|b l IH]; intros H; [reflexivity|]. apply bytesP_cons in H as [Hb Hl].
  unfold bits. cbn [flat_map]. fold (bits l). rewrite bits_val_app, unbe_cons, IH, bits_len by assumption.
  rewrite bits_val_of. change (2 ^ Z.of_nat 8) with 256. rewrite Z.mod_small by exact Hb.
  rewrite Z.pow_mul_r by (pose proof (len_nonneg l); lia). reflexivity.
Qed.
Lemma bitat_be n v k : 0 <= k < 8 * Z.of_nat n -> bitat (be n v) k = Z.testbit v (8 * Z.of_nat n - 1 - k).
Proof.
  revert k; induction n as [|n IH]; intros k Hk; [lia|].
  cbn [be]. unfold bitat. destruct (Z_lt_ge_dec k 8) as [H|H].
  - replace (k / 8) with 0 by lia. rewrite nthz_0. change 256 with (2 ^ 8) at 2.
    rewrite Z.mod_pow2_bits_low by lia.
    replace (256 ^ Z.of_nat n) with (2 ^ (8 * Z.of_nat n)) by (rewrite Z.pow_mul_r by lia; reflexivity).
    rewrite <- Z.shiftr_div_pow2, Z.shiftr_spec by lia. f_equal. lia.
  - rewrite nthz_S by lia. specialize (IH (k - 8) ltac:(lia)). unfold bitat in IH.
    replace ((k - 8) / 8) with (k / 8 - 1) in IH by lia. replace ((k - 8) mod 8) with (k mod 8) in IH by lia.
    rewrite IH. f_equal. lia.
Qed.
