(** Error correction packets bring back what is lost. *)
From Verif Require Import Common CommonFacts CommonMore Fec_Spec.
Import List.
Ltac Zify.zify_post_hook ::= Z.div_mod_to_equations.

Lemma xor_len a b : len a = len b -> len (xor a b) = len a.
Proof. unfold xor, len. rewrite map_length, combine_length. lia. Qed.
Lemma xor_cons x y a b : xor (x :: a) (y :: b) = Z.lxor x y :: xor a b.
Proof. reflexivity. Qed.
Lemma xor_nil_r a : xor a [] = [].
Proof. unfold xor. now rewrite combine_nil. Qed.
Lemma xor_app a b a' b' : len a = len b -> xor (a ++ a') (b ++ b') = xor a b ++ xor a' b'.
Proof.
  unfold len. revert b. induction a as [|x a IH]; intros [|y b] H; try (cbn [length] in H; lia); [reflexivity|]. cbn [app]. rewrite !xor_cons, IH by (cbn [length] in H; lia). reflexivity.
Qed.
Lemma xor_swap : forall a b c, xor (xor a b) c = xor (xor a c) b.
Proof.
  induction a as [|x a IH]; intros [|y b] [|z c]; rewrite ?xor_nil_r; try reflexivity. rewrite !xor_cons. f_equal; [|apply IH]. rewrite !Z.lxor_assoc. f_equal. apply Z.lxor_comm.
Qed.
Lemma xor_back : forall a b, len a = len b -> xor (xor a b) b = a.
Proof.
  unfold len. induction a as [|x a IH]; intros [|y b] H; try (cbn [length] in H; lia); [reflexivity|]. rewrite !xor_cons, IH by (cbn [length] in H; lia). f_equal. now rewrite Z.lxor_assoc, Z.lxor_nilpotent, Z.lxor_0_r.
Qed.
Lemma xor_comm : forall a b, xor a b = xor b a.
Proof. induction a as [|x a IH]; intros [|y b]; rewrite ?xor_nil_r; try reflexivity. rewrite !xor_cons, IH. f_equal. apply Z.lxor_comm. Qed.
Definition alike (n : Z) (l : list (list Z)) : Prop := Forall (fun x => len x = n) l.
Lemma xors_len n l : alike n l -> forall a, len a = n -> len (xors a l) = n.
Proof. induction 1 as [|x l H _ IH]; intros a HA; [exact HA|]. cbn [xors fold_left]. apply IH. rewrite xor_len; lia. Qed.
Lemma xors_xor l : forall a b, xors (xor a b) l = xor (xors a l) b.
Proof. induction l as [|x l IH]; intros a b; [reflexivity|]. cbn [xors fold_left]. fold (xors (xor (xor a b) x) l). rewrite xor_swap, IH. reflexivity. Qed.
Lemma xors_twice n l : alike n l -> forall a, len a = n -> xors (xors a l) l = a.
Proof.
  induction 1 as [|x l H HL IH]; intros a HA; [reflexivity|]. cbn [xors fold_left]. fold (xors (xor a x) l). fold (xors (xor (xors (xor a x) l) x) l).
  rewrite <- xors_xor, xor_back by lia. now apply IH.
Qed.
Lemma xors_out a l1 x l2 : xors a (l1 ++ x :: l2) = xor (xors a (l1 ++ l2)) x.
Proof. unfold xors. rewrite !fold_left_app. cbn [fold_left]. fold (xors (xor (fold_left xor l1 a) x) l2). now rewrite xors_xor. Qed.
(** All of [l] together, and then all but the [j]th: the [j]th. *)
Definition all_xor (l : list (list Z)) : list Z := match l with [] => [] | x :: r => xors x r end.
Definition zeros (n : Z) : list Z := repeat 0 (Z.to_nat n).
Lemma zeros_len n : 0 <= n -> len (zeros n) = n.
Proof. intros H. unfold zeros, len. rewrite repeat_length. lia. Qed.
Lemma xor_zeros x : xor (zeros (len x)) x = x.
Proof.
  unfold zeros, len. rewrite Nat2Z.id. induction x as [|y x IH]; [reflexivity|]. cbn [length repeat]. rewrite xor_cons, IH, Z.lxor_0_l. reflexivity.
Qed.
Lemma all_xor_zeros n l : alike n l -> l <> [] -> all_xor l = xors (zeros n) l.
Proof. intros A N. destruct l as [|x l]; [congruence|]. inversion A as [|? ? H _]; subst. cbn [all_xor xors fold_left]. now rewrite xor_zeros. Qed.
Lemma Forall_firstn {A} (P : A -> Prop) j : forall l, Forall P l -> Forall P (firstn j l).
Proof. induction j as [|j IH]; intros l F; [constructor|]. destruct F; [constructor|]. constructor; [assumption|]. now apply IH. Qed.
Lemma Forall_skipn {A} (P : A -> Prop) j : forall l, Forall P l -> Forall P (skipn j l).
Proof. induction j as [|j IH]; intros l F; [exact F|]. destruct F; [constructor|]. now apply IH. Qed.
Lemma split_at (j : nat) : forall (l : list (list Z)), (j < length l)%nat -> l = firstn j l ++ nth j l [] :: skipn (S j) l.
Proof. induction j as [|j IH]; intros [|x l] H; cbn [length] in H; try lia; [reflexivity|]. cbn [firstn nth skipn app]. f_equal. apply IH. lia. Qed.
Lemma without_alike n j l : alike n l -> alike n (without j l).
Proof.
  intros A. unfold without. apply Forall_app. split; [now apply Forall_firstn|now apply Forall_skipn].
Qed.
Lemma brings_back n l j : alike n l -> (j < length l)%nat -> xors (all_xor l) (without j l) = nth j l [].
Proof.
  intros A H. assert (N : l <> []) by (intros ->; cbn [length] in H; lia). rewrite (all_xor_zeros n) by assumption. pose proof (without_alike n j l A) as W.
  assert (HN : len (nth j l []) = n) by (unfold alike in A; rewrite Forall_forall in A; apply A; now apply nth_In).
  assert (0 <= n) by (rewrite <- HN; apply len_nonneg).
  rewrite (split_at j l H) at 1. rewrite xors_out, xors_xor. fold (without j l). rewrite (xors_twice n) by (try assumption; now apply zeros_len).
  rewrite <- HN. apply xor_zeros.
Qed.
(** Parts of what is put together. *)
Lemma xors_app m l : forall a b, len a = m -> Forall (fun x => len (fst x) = m) l ->
  xors (a ++ b) (map (fun x => fst x ++ snd x) l) = xors a (map fst l) ++ xors b (map snd l).
Proof.
  induction l as [|[x y] l IH]; intros a b HA F; [reflexivity|]. inversion F as [|? ? H F']; subst. cbn [map xors fold_left fst snd] in *.
  fold (xors (xor (a ++ b) (x ++ y)) (map (fun x => fst x ++ snd x) l)). rewrite xor_app by lia. rewrite IH by (try assumption; rewrite xor_len; lia). reflexivity.
Qed.
Lemma all_xor_app {A} m (f g : A -> list Z) l : Forall (fun x => len (f x) = m) l ->
  all_xor (map (fun x => f x ++ g x) l) = all_xor (map f l) ++ all_xor (map g l).
Proof.
  destruct l as [|x l]; intros F; [reflexivity|]. inversion F as [|? ? H F']; subst. cbn [map all_xor].
  pose proof (xors_app (len (f x)) (map (fun y => (f y, g y)) l) (f x) (g x) eq_refl) as E. rewrite !map_map in E. cbn [fst snd] in E. apply E.
  apply Forall_forall. intros z Hz. apply in_map_iff in Hz as (y & <- & Hy). rewrite Forall_forall in F'. now apply F'.
Qed.
(** A byte that is the same everywhere. *)
Definition times (n : nat) (c : Z) : Z := if Nat.even n then 0 else c.
Lemma xors_same c {A} (l : list A) : forall a, xors [a] (map (fun _ => [c]) l) = [Z.lxor a (times (length l) c)].
Proof.
  induction l as [|x l IH]; intros a; [unfold times; cbn; now rewrite Z.lxor_0_r|]. cbn [map xors fold_left length]. fold (xors (xor [a] [c]) (map (fun _ => [c]) l)).
  change (xor [a] [c]) with [Z.lxor a c]. rewrite IH. f_equal. rewrite Z.lxor_assoc. f_equal. unfold times. rewrite Nat.even_succ, <- Nat.negb_even. destruct (Nat.even (length l)); cbn [negb].
  - apply Z.lxor_0_r. - apply Z.lxor_nilpotent.
Qed.
Lemma all_same c {A} (l : list A) : l <> [] -> all_xor (map (fun _ => [c]) l) = [times (length l) c].
Proof.
  destruct l as [|x l]; [congruence|]. intros _. cbn [map all_xor length]. rewrite xors_same. f_equal. unfold times. rewrite Nat.even_succ, <- Nat.negb_even. destruct (Nat.even (length l)); cbn [negb].
  - apply Z.lxor_0_r. - apply Z.lxor_nilpotent.
Qed.
Lemma map_const {A} (f : A -> list Z) c (l : list A) : Forall (fun x => f x = c) l -> map f l = map (fun _ => c) l.
Proof. induction 1 as [|x l H _ IH]; [reflexivity|]. cbn [map]. now rewrite H, IH. Qed.
Lemma without_length {A} j (l : list A) : (j < length l)%nat -> length (without j l) = (length l - 1)%nat.
Proof. intros H. unfold without. rewrite app_length, firstn_length, skipn_length. lia. Qed.
Lemma without_map {A B} (f : A -> B) j l : without j (map f l) = map f (without j l).
Proof. unfold without. now rewrite map_app, firstn_map, skipn_map. Qed.
Lemma without_Forall {A} (P : A -> Prop) j l : Forall P l -> Forall P (without j l).
Proof. intros F. unfold without. apply Forall_app. split; [now apply Forall_firstn|now apply Forall_skipn]. Qed.
