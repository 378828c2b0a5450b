(** Facts about Mem_Model.v. *)
From Verif Require Import Common CommonFacts CommonMore Mem_Model.

Lemma le_len n v : len (le n v) = Z.of_nat n.
Proof. unfold le. rewrite len_rev. apply be_len. Qed.
Lemma le_length n v : List.length (le n v) = n.
Proof. unfold le. rewrite rev_length. apply be_length. Qed.
Lemma le_bytes n v : bytesP (le n v).
Proof. unfold le, bytesP. apply Forall_rev, be_bytes. Qed.
Lemma unle_le n v : unle (le n v) = v mod 256 ^ Z.of_nat n.
Proof. unfold unle, le. rewrite rev_involutive. apply unbe_be. Qed.
Lemma le_unle l : bytesP l -> le (List.length l) (unle l) = l.
Proof.
  intros H. unfold unle, le. rewrite <- (rev_length l), be_unbe, rev_involutive; [reflexivity|].
  unfold bytesP. apply Forall_rev. exact H.
Qed.
Lemma unle_bound l : bytesP l -> 0 <= unle l < 256 ^ len l.
Proof. intros H. unfold unle. rewrite <- (len_rev l). apply unbe_bound. apply Forall_rev. exact H. Qed.
Lemma le_mod n v : le n (v mod 256 ^ Z.of_nat n) = le n v.
Proof. unfold le. now rewrite be_mod. Qed.

Lemma peek_some m o n : 0 <= o -> 0 <= n -> o + n <= len m -> peek m o n = Some (takez n (dropz o m)).
Proof. intros. unfold peek. replace ((0 <=? o) && (0 <=? n) && (o + n <=? len m)) with true by lia. reflexivity. Qed.
Lemma peek_inv m o n x : peek m o n = Some x -> 0 <= o /\ 0 <= n /\ o + n <= len m /\ x = takez n (dropz o m).
Proof. unfold peek. destruct (_ && _) eqn:E; [|discriminate]. intros [= <-]. repeat (split; [lia|]). reflexivity. Qed.
Lemma peek_len m o n x : peek m o n = Some x -> len x = n.
Proof.
  intros H. destruct (peek_inv _ _ _ _ H) as (H1 & H2 & H3 & ->). rewrite len_takez; [reflexivity|].
  rewrite len_dropz; lia.
Qed.
Lemma peek_bytes m o n x : bytesP m -> peek m o n = Some x -> bytesP x.
Proof. intros Hm H. destruct (peek_inv _ _ _ _ H) as (_ & _ & _ & ->). apply bytesP_takez, bytesP_dropz, Hm. Qed.
Lemma poke_some m o xs : 0 <= o -> o + len xs <= len m -> poke m o xs = Some (splice m o xs).
Proof. intros. unfold poke. replace ((0 <=? o) && (o + len xs <=? len m)) with true by lia. reflexivity. Qed.
Lemma poke_inv m o xs m' : poke m o xs = Some m' -> 0 <= o /\ o + len xs <= len m /\ m' = splice m o xs.
Proof. unfold poke. destruct (_ && _) eqn:E; [|discriminate]. intros [= <-]. repeat (split; [lia|]). reflexivity. Qed.
Lemma poke_len m o xs m' : poke m o xs = Some m' -> len m' = len m.
Proof. intros H. destruct (poke_inv _ _ _ _ H) as (H1 & H2 & ->). apply len_splice; assumption. Qed.
Lemma poke_bytes m o xs m' : bytesP m -> bytesP xs -> poke m o xs = Some m' -> bytesP m'.
Proof. intros Hm Hx H. destruct (poke_inv _ _ _ _ H) as (H1 & H2 & ->). apply bytesP_splice; assumption. Qed.
Lemma peek_poke_same m o xs m' : poke m o xs = Some m' -> peek m' o (len xs) = Some xs.
Proof.
  intros H. pose proof (poke_len _ _ _ _ H) as L. destruct (poke_inv _ _ _ _ H) as (H1 & H2 & ->).
  rewrite peek_some; [|lia|apply len_nonneg|lia]. f_equal. apply splice_read; assumption.
Qed.
Lemma peek_poke_other m o xs m' o' n : poke m o xs = Some m' -> o' + n <= o \/ o + len xs <= o' -> peek m' o' n = peek m o' n.
Proof.
  intros H D. pose proof (poke_len _ _ _ _ H) as L. destruct (poke_inv _ _ _ _ H) as (H1 & H2 & ->).
  unfold peek. rewrite L. destruct (_ && _) eqn:E; [|reflexivity]. f_equal. apply nthz_ext.
  - rewrite !len_takez; try reflexivity; rewrite len_dropz; lia.
  - intros i Hi. rewrite len_takez in Hi by (rewrite len_dropz; lia). rewrite !nthz_takez, !nthz_dropz by lia.
    apply splice_out; [lia|lia|]. pose proof (len_nonneg xs). lia.
Qed.
(** A part of a block that was read. *)
Lemma peek_sub m o n x o' n' : peek m o n = Some x -> o <= o' -> 0 <= n' -> o' + n' <= o + n ->
  peek m o' n' = Some (takez n' (dropz (o' - o) x)).
Proof.
  intros H H1 H2 H3. destruct (peek_inv _ _ _ _ H) as (A & B & C & ->). rewrite peek_some by lia. f_equal.
  apply nthz_ext.
  - rewrite !len_takez; try reflexivity; try (rewrite len_dropz; lia).
    rewrite len_dropz by (rewrite len_takez; [|rewrite len_dropz]; lia). rewrite len_takez; [lia|rewrite len_dropz; lia].
  - intros i Hi. rewrite len_takez in Hi by (rewrite len_dropz; lia).
    rewrite !nthz_takez by lia. rewrite !nthz_dropz by lia. rewrite nthz_takez by lia. rewrite nthz_dropz by lia. f_equal. lia.
Qed.
Lemma st_some n m o v : 0 <= o -> o + Z.of_nat n <= len m -> exists m', st n m o v = Some m'.
Proof. intros. unfold st. rewrite poke_some; [eauto|lia|rewrite le_len; lia]. Qed.
Lemma ld_some n m o : 0 <= o -> o + Z.of_nat n <= len m -> exists v, ld n m o = Some v.
Proof. intros. unfold ld. rewrite peek_some by lia. eauto. Qed.
Lemma st_len n m o v m' : st n m o v = Some m' -> len m' = len m.
Proof. apply poke_len. Qed.
Lemma st_bytes n m o v m' : bytesP m -> st n m o v = Some m' -> bytesP m'.
Proof. intros H. apply poke_bytes; [exact H|apply le_bytes]. Qed.
Lemma ld_st_same n m o v m' : st n m o v = Some m' -> ld n m' o = Some (v mod 256 ^ Z.of_nat n).
Proof.
  intros H. unfold ld. pose proof (peek_poke_same _ _ _ _ H) as P. rewrite le_len in P. rewrite P. f_equal. apply unle_le.
Qed.
Lemma ld_poke_other n m o xs m' o' : poke m o xs = Some m' -> o' + Z.of_nat n <= o \/ o + len xs <= o' -> ld n m' o' = ld n m o'.
Proof. intros H D. unfold ld. rewrite (peek_poke_other _ _ _ _ _ _ H D). reflexivity. Qed.
Lemma ld_st_other n k m o v m' o' : st k m o v = Some m' -> o' + Z.of_nat n <= o \/ o + Z.of_nat k <= o' -> ld n m' o' = ld n m o'.
Proof. intros H D. apply (ld_poke_other n _ _ _ _ _ H). rewrite le_len. exact D. Qed.
Lemma ld_bound n m o v : bytesP m -> ld n m o = Some v -> 0 <= v < 256 ^ Z.of_nat n.
Proof.
  unfold ld. intros Hm. destruct (peek m o (Z.of_nat n)) as [x|] eqn:E; [|discriminate]. intros [= <-].
  rewrite <- (peek_len _ _ _ _ E). apply unle_bound. eapply peek_bytes; eassumption.
Qed.
