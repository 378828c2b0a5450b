(** Proofs about the packet sorter. *)
From Coq Require Import Permutation.
From Verif Require Import Common CommonFacts Psort_Model Psort_Spec.

Lemma ent_lt_before a b : ent_lt a b = true <-> before a b.
Proof. unfold ent_lt, before. dif; lia. Qed.
Lemma before_trans a b c : before a b -> before b c -> before a c.
Proof. unfold before. lia. Qed.
Lemma before_irr a : ~ before a a.
Proof. unfold before. lia. Qed.

Inductive sorted : list ent -> Prop :=
| so_nil : sorted []
| so_cons e l : (forall x, In x l -> before e x) -> sorted l -> sorted (e :: l).

Lemma insert_in e l x : In x (set_insert e l) -> x = e \/ In x l.
Proof.
  induction l as [|y l IH]; cbn; [intuition auto|]. destruct (ent_lt e y); cbn; [intuition auto|].
  destruct (ent_lt y e); cbn; [|tauto]. intros [H|H]; auto. apply IH in H. tauto.
Qed.
Lemma insert_sorted e l : sorted l -> sorted (set_insert e l).
Proof.
  induction 1 as [|y l H Hl IH]; cbn; [constructor; [cbn; tauto|constructor]|].
  destruct (ent_lt e y) eqn:E1.
  - apply ent_lt_before in E1. constructor; [|now constructor].
    intros x [<-|Hx]; auto. eapply before_trans; eauto.
  - destruct (ent_lt y e) eqn:E2; [|now constructor].
    apply ent_lt_before in E2. constructor; auto.
    intros x Hx. apply insert_in in Hx as [-> |Hx]; auto.
Qed.
Lemma insert_perm e l : ~ In (e_tid e) (tids l) -> Permutation (set_insert e l) (e :: l).
Proof.
  induction l as [|y l IH]; cbn; intros H; [reflexivity|].
  destruct (ent_lt e y) eqn:E1; [reflexivity|].
  destruct (ent_lt y e) eqn:E2.
  - rewrite IH by tauto. apply perm_swap.
  - exfalso. apply H. left. unfold ent_lt in *. revert E1 E2. dif; lia.
Qed.
Lemma sorted_hd e l : sorted (e :: l) -> earliest e (e :: l).
Proof. intros H. inversion H; subst. split; [now left|]. intros x [<-|Hx]; auto. Qed.
Lemma earliest_unique a b l : earliest a l -> earliest b l -> a = b.
Proof.
  intros [A1 A2] [B1 B2]. destruct (A2 b B1) as [->|Hab]; auto. destruct (B2 a A1) as [->|Hba]; auto.
  exfalso. eapply before_irr, before_trans; eauto.
Qed.
Lemma earliest_perm a l m : Permutation l m -> earliest a l -> earliest a m.
Proof.
  intros P [H1 H2]. split; [eapply Permutation_in; eauto|]. intros e He. apply H2. eapply Permutation_in; [symmetry; exact P|exact He].
Qed.

Lemma drop_one_filter t l : NoDup (tids l) -> drop_one t l = without t l.
Proof.
  induction l as [|e l IH]; cbn; intros H; [reflexivity|]. inversion H as [|? ? H1 H2]; subst.
  destruct (e_tid e =? t) eqn:E; cbn [negb].
  - apply Z.eqb_eq in E. subst. clear -H1. symmetry. induction l as [|x l IH]; cbn; auto.
    cbn in H1. replace (e_tid x =? e_tid e) with false by lia. cbn. f_equal. apply IH. tauto.
  - now rewrite IH.
Qed.
Lemma sorted_filter f l : sorted l -> sorted (filter f l).
Proof.
  induction 1 as [|e l H Hl IH]; cbn; [constructor|]. destruct (f e); auto. constructor; auto.
  intros x Hx. apply filter_In in Hx. apply H. tauto.
Qed.
Lemma Permutation_filter (f : ent -> bool) l m : Permutation l m -> Permutation (filter f l) (filter f m).
Proof.
  induction 1; cbn; auto.
  - destruct (f x); auto.
  - destruct (f x), (f y); auto. apply perm_swap.
  - etransitivity; eauto.
Qed.
Lemma tids_perm l m : Permutation l m -> Permutation (tids l) (tids m).
Proof. apply Permutation_map. Qed.
Lemma tids_without t l : In t (tids (without t l)) -> False.
Proof.
  intros H. apply in_map_iff in H as (e & E & H). apply filter_In in H as [_ H]. lia.
Qed.
Lemma nodup_without t l : NoDup (tids l) -> NoDup (tids (without t l)).
Proof.
  induction l as [|e l IH]; cbn; intros H; [constructor|]. inversion H as [|? ? H1 H2]; subst.
  destruct (negb (e_tid e =? t)); auto. cbn. constructor; auto. intros Hi. apply H1.
  apply in_map_iff in Hi as (x & E & Hi). apply filter_In in Hi as [Hi _]. apply in_map_iff. eauto.
Qed.
Lemma without_notin t l : ~ In t (tids l) -> without t l = l.
Proof.
  induction l as [|e l IH]; cbn; intros H; auto. replace (e_tid e =? t) with false by (symmetry; apply Z.eqb_neq; tauto).
  cbn. f_equal. apply IH. tauto.
Qed.
Lemma tids_without_sub x t l : In x (tids (without t l)) -> In x (tids l).
Proof. intros H. apply in_map_iff in H as (e & E & H). apply filter_In in H as [H _]. apply in_map_iff. eauto. Qed.

(** The implementation state represents the abstract one. *)
Definition repr (s : sorter) (x : bool * list ent) : Prop :=
  dequeMode s = negb (fst x) /\ NoDup (tids (snd x)) /\
  if fst x then Permutation (setBuffer s) (snd x) /\ sorted (setBuffer s) /\ dequeBuffer s = []
  else dequeBuffer s = snd x /\ setBuffer s = [].

Lemma fold_to_set l : forall s, dequeMode s = false -> sorted (setBuffer s) -> NoDup (tids (setBuffer s ++ l)) ->
  let s1 := fold_left ps_insert l s in
  Permutation (setBuffer s1) (setBuffer s ++ l) /\ sorted (setBuffer s1).
Proof.
  induction l as [|e l IH]; intros s Hd Hs Hn; cbn [fold_left].
  - cbv zeta. rewrite app_nil_r. auto.
  - unfold ps_insert at 2 4. rewrite Hd.
    assert (Hni : ~ In (e_tid e) (tids (setBuffer s))).
    { intros Hi. unfold tids in *. rewrite map_app in Hn. cbn in Hn. apply NoDup_remove_2 in Hn. apply Hn, in_or_app. now left. }
    pose proof (insert_perm e (setBuffer s) Hni) as P.
    specialize (IH {| dequeMode := false; dequeBuffer := dequeBuffer s; setBuffer := set_insert e (setBuffer s) |} eq_refl).
    cbn in IH. specialize (IH (insert_sorted _ _ Hs)).
    destruct IH as [I1 I2].
    + eapply Permutation_NoDup; [|exact Hn]. apply tids_perm.
      rewrite P. cbn. symmetry. apply Permutation_middle.
    + split; auto. rewrite I1, P. cbn. apply Permutation_middle.
Qed.
Lemma fold_to_deque l : forall s, dequeMode s = true -> dequeBuffer (fold_left ps_insert l s) = dequeBuffer s ++ l.
Proof.
  induction l as [|e l IH]; intros s Hd; cbn [fold_left]; [now rewrite app_nil_r|].
  rewrite IH.
  - unfold ps_insert. rewrite Hd. cbn. now rewrite <- app_assoc.
  - unfold ps_insert. now rewrite Hd.
Qed.

Lemma sorted_unique l m : sorted l -> sorted m -> Permutation l m -> l = m.
Proof.
  intros Hl. revert m. induction Hl as [|e l H Hl IH]; intros m Hm P.
  - apply Permutation_nil in P. now subst.
  - destruct m as [|f m]; [symmetry in P; apply Permutation_nil_cons in P; contradiction|].
    assert (e = f).
    { apply (earliest_unique e f (f :: m)); [|now apply sorted_hd].
      apply (earliest_perm e (e :: l)); auto. apply sorted_hd. now constructor. }
    subst f. f_equal. apply IH; [now inversion Hm|]. eapply Permutation_cons_inv; eauto.
Qed.
Lemma ordered_sorted q : (forall i j a b, nth_error q i = Some a -> nth_error q j = Some b -> (i < j)%nat -> before a b) -> sorted q.
Proof.
  induction q as [|e q IH]; intros H; constructor.
  - intros x Hx. apply In_nth_error in Hx as (n & Hn). apply (H O (S n)); auto. lia.
  - apply IH. intros i j a b Hi Hj Hij. apply (H (S i) (S j)); auto. lia.
Qed.
Lemma sorted_ordered q : sorted q -> forall i j a b, nth_error q i = Some a -> nth_error q j = Some b -> (i < j)%nat -> before a b.
Proof.
  induction 1 as [|e q H Hq IH]; intros i j a b Hi Hj Hij; [destruct i; discriminate|].
  destruct j as [|j]; [lia|]. destruct i as [|i]; cbn in *.
  - injection Hi as <-. apply H. eapply nth_error_In; eauto.
  - eapply IH; eauto. lia.
Qed.

Lemma nodup_app_new e l : NoDup (tids l) -> ~ In (e_tid e) (tids l) -> NoDup (tids (l ++ [e])).
Proof.
  intros H Hi. eapply Permutation_NoDup; [apply tids_perm, Permutation_cons_append|]. cbn. now constructor.
Qed.

Lemma step_repr s x o y : repr s x -> sstep x o y -> exists s', ps_step s o = Some s' /\ repr s' y.
Proof.
  intros (Rd & Rn & R) St. inversion St; subst; cbn [fst snd] in *; cbn [ps_step].
  - (* insert *) eexists; split; [reflexivity|]. unfold ps_insert. destruct sync; rewrite Rd; cbn [negb]; unfold repr; cbn.
    + destruct R as (P & S & D). split; auto. split; [now apply nodup_app_new|]. split; [|split; auto].
      * rewrite insert_perm by (intros Hi; apply H; eapply Permutation_in; [apply tids_perm; exact P|exact Hi]).
        rewrite P. apply Permutation_cons_append.
      * now apply insert_sorted.
    + destruct R as (D & S). split; auto. split; [now apply nodup_app_new|]. split; auto. now rewrite D.
  - (* drop *) eexists; split; [reflexivity|]. unfold ps_drop. destruct sync; rewrite Rd; cbn [negb]; unfold repr; cbn.
    + destruct R as (P & S & D). split; auto. split; [now apply nodup_without|].
      rewrite drop_one_filter by (eapply Permutation_NoDup; [apply tids_perm; symmetry; exact P|exact Rn]).
      split; [|split; auto].
      * now apply Permutation_filter.
      * now apply sorted_filter.
    + destruct R as (D & S). split; auto. split; [now apply nodup_without|]. split; auto. rewrite D. now apply drop_one_filter.
  - (* replace *) unfold ps_replaceFirst.
    assert (Hnew : ~ In (e_tid e) (tids (without (e_tid f) bag))).
    { intros Hi. destruct H0 as [E|N]; [rewrite E in Hi; now apply tids_without in Hi|]. apply N. eapply tids_without_sub; eauto. }
    destruct sync; rewrite Rd; cbn [negb first_of] in *.
    + destruct R as (P & S & D). destruct (setBuffer s) as [|h r] eqn:Es.
      { exfalso. destruct H as [Hi _]. apply Permutation_nil in P. subst. exact Hi. }
      assert (h = f). { apply (earliest_unique h f bag); auto. apply (earliest_perm h (h :: r)); auto. now apply sorted_hd. }
      subst h. eexists; split; [reflexivity|]. unfold repr; cbn.
      assert (Pr : Permutation r (without (e_tid f) bag)).
      { assert (Pw : Permutation (without (e_tid f) (f :: r)) (without (e_tid f) bag)) by now apply Permutation_filter.
        cbn in Pw. rewrite Z.eqb_refl in Pw. cbn in Pw. rewrite <- Pw.
        assert (Nf : NoDup (tids (f :: r))) by (eapply Permutation_NoDup; [apply tids_perm; symmetry; exact P|exact Rn]).
        cbn in Nf. inversion Nf; subst. fold (without (e_tid f) r). rewrite without_notin by auto. reflexivity. }
      split; auto. split; [apply nodup_app_new; auto; now apply nodup_without|]. split; [|split; auto].
      * rewrite insert_perm by (intros Hi; apply Hnew; eapply Permutation_in; [apply tids_perm; exact Pr|exact Hi]).
        rewrite Pr. apply Permutation_cons_append.
      * apply insert_sorted. now inversion S.
    + destruct H as (r & ->). destruct R as (D & S). rewrite D. eexists; split; [reflexivity|]. unfold repr; cbn.
      assert (Nr : ~ In (e_tid f) (tids r)) by (cbn in Rn; now inversion Rn).
      cbn in Hnew |- *. rewrite Z.eqb_refl in *. cbn in *. fold (without (e_tid f) r) in *.
      change (map e_tid (without (e_tid f) r)) with (tids (without (e_tid f) r)) in *.
      split; auto. split; [apply nodup_app_new; auto; apply nodup_without; now inversion Rn|]. split; auto.
      now rewrite without_notin.
  - (* move sync *) unfold ps_moveFirst. rewrite Rd. cbn. eexists; split; [reflexivity|]. unfold repr; cbn. auto.
  - (* move async *) unfold ps_moveFirst. rewrite Rd. cbn [negb]. destruct R as (D & S). rewrite D. eexists; split; [reflexivity|].
    unfold repr; cbn. split; auto. split; [|split; auto].
    cbn in Rn. inversion Rn as [|? ? N1 N2]; subst. eapply Permutation_NoDup; [apply tids_perm, Permutation_cons_append|]. cbn. now constructor.
  - (* sync same *) eexists; split; [reflexivity|]. unfold ps_setSync. rewrite Rd.
    replace (Bool.eqb (negb sync) (negb sync)) with true by (destruct sync; reflexivity). unfold repr; auto.
  - (* sync on *) eexists; split; [reflexivity|]. unfold ps_setSync. rewrite Rd. cbn [negb Bool.eqb].
    destruct R as (D & S). rewrite D, S.
    destruct (fold_to_set bag {| dequeMode := false; dequeBuffer := bag; setBuffer := [] |} eq_refl (so_nil)) as [P So]; [cbn; exact Rn|].
    unfold repr; cbn. auto.
  - (* sync off *) eexists; split; [reflexivity|]. unfold ps_setSync. rewrite Rd. cbn [negb Bool.eqb].
    destruct R as (P & So & D). rewrite D. rewrite fold_to_deque by reflexivity. cbn. unfold repr; cbn.
    split; auto. split; [eapply Permutation_NoDup; [apply tids_perm; exact H|exact Rn]|]. split; auto.
    apply sorted_unique; auto; [now apply ordered_sorted|]. now rewrite P.
  - (* clear *) eexists; split; [reflexivity|]. unfold ps_clear, repr. rewrite Rd. cbn. split; auto. split; [constructor|].
    destruct sync; auto. repeat split; auto. constructor.
Qed.

Lemma run_repr os : forall s x y, repr s x -> sruns x os y -> exists s', ps_run s os = Some s' /\ repr s' y.
Proof.
  induction os as [|o os IH]; intros s x y R H; inversion H; subst; cbn [ps_run].
  - eauto.
  - destruct (step_repr s x o y0 R) as (s1 & -> & R1); auto. eapply IH; eauto.
Qed.

Lemma may_insert sync bag e : ~ In (e_tid e) (tids bag) -> may (sync, bag) (PInsert e).
Proof. intros H. eexists. now constructor. Qed.
