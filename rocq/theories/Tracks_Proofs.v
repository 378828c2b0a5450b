From Verif Require Import Common Tracks_Model Tracks_Spec.

Section Inv.
Variable pid : nat -> Z.
Hypothesis pids_ok : pids pid.
Notation pg s := (pages s (cur s)).
Notation pcof s h := (at_pc (procs s h)).

Definition crit (c : pc) : bool :=
  match c with Idle | AWait | CWait _ | BRead _ | BWrite _ | RLook _ => false | _ => true end.
Definition copied (s : sys) (h : nat) (snap : page) : Prop :=
  view (procs s h) = cur s /\ present snap = present (pg s) /\ (cap (pg s) <= present (pg s))%nat /\
  forall k i, In i (mine (procs s k)) -> recs snap i = pid k.
Definition pc_ok (s : sys) (h : nat) (c : pc) : Prop :=
  match c with
  | Idle | AWait | AReload | CFail => True
  | ACheck => view (procs s h) = cur s
  | ACopy => view (procs s h) = cur s /\ (cap (pg s) <= present (pg s))%nat
  | AMark snap => copied s h snap
  | ANew snap => copied s h snap /\ reload (pg s) = true
  | AStore n => view (procs s h) = cur s /\ n = present (pg s) /\ (n < cap (pg s))%nat
  | APublish n => view (procs s h) = cur s /\ n = present (pg s) /\ (n < cap (pg s))%nat /\ recs (pg s) n = pid h
  | APost n => (n < present (pg s))%nat /\ recs (pg s) n = pid h /\ ~ In n (added s)
  | CWait i => (i < present (pg s))%nat
  | CRead i => (i < present (pg s))%nat
  | CWrite i => view (procs s h) = cur s /\ (i < present (pg s))%nat /\ recs (pg s) i = 0
  | CPost i => (i < present (pg s))%nat /\ recs (pg s) i = pid h
  | BRead i => ~ In i (mine (procs s h))
  | BWrite i => ~ In i (mine (procs s h)) /\ (view (procs s h) = cur s -> recs (pg s) i = pid h)
  | RLook _ => False
  end.
Record inv (s : sys) : Prop := {
  i_lock : forall h, crit (pcof s h) = true -> lock s = Some h;
  i_old : forall g, (g < cur s)%nat -> reload (pages s g) = true;
  i_view : forall h, (view (procs s h) <= cur s)%nat;
  i_pres : forall g, (g <= cur s)%nat -> (present (pages s g) <= present (pg s))%nat;
  i_cap : (present (pg s) <= cap (pg s))%nat /\ (1 <= cap (pg s))%nat;
  i_own : forall h i, In i (mine (procs s h)) -> (i < present (pg s))%nat /\ recs (pg s) i = pid h;
  i_zero : forall i, (present (pg s) <= i)%nat -> recs (pg s) i = 0 \/ exists h, pcof s h = APublish i;
  i_pc : forall h, pc_ok s h (pcof s h);
  i_added : NoDup (added s) /\ forall n, In n (added s) -> (n < present (pg s))%nat }.

Lemma fset_same {A} (f : nat -> A) i v : fset f i v i = v.
Proof. unfold fset. now rewrite Nat.eqb_refl. Qed.
Lemma fset_other {A} (f : nat -> A) i v k : k <> i -> fset f i v k = f k.
Proof. unfold fset. intros N. destruct (Nat.eqb_spec k i); [contradiction|reflexivity]. Qed.

(** Steps that change one process and the semaphore. *)
Lemma frame s t h v c mi d l : inv s -> t = mkSys (pages s) (cur s) l (fset (procs s) h (mkProc v c mi d)) (added s) ->
  (forall i, In i mi -> In i (mine (procs s h))) -> (v <= cur s)%nat ->
  (forall k, k <> h -> crit (pcof s k) = true -> l = Some k) -> (crit c = true -> l = Some h) ->
  (forall i, pcof s h = APublish i -> c = APublish i) -> pc_ok t h c -> inv t.
Proof.
  intros I -> Hm Hv Ll Lc Ha Hp.
  assert (Mk : forall k i, In i (mine (fset (procs s) h (mkProc v c mi d) k)) -> In i (mine (procs s k))).
  { intros k i. destruct (Nat.eq_dec k h) as [->|N]; [rewrite fset_same; apply Hm|now rewrite fset_other]. }
  constructor; cbn [pages cur lock procs added].
  - intros k. destruct (Nat.eq_dec k h) as [->|N]; [rewrite fset_same; exact Lc|rewrite fset_other by assumption; now apply Ll].
  - apply (i_old s I).
  - intros k. destruct (Nat.eq_dec k h) as [->|N]; [rewrite fset_same; exact Hv|rewrite fset_other by assumption; apply (i_view s I)].
  - apply (i_pres s I).
  - apply (i_cap s I).
  - intros k i Hi. apply (i_own s I k i). now apply Mk.
  - intros i Hi. destruct (i_zero s I i Hi) as [Z0|(k & Hk)]; [now left|right]. exists k.
    destruct (Nat.eq_dec k h) as [->|N]; [rewrite fset_same; cbn; now apply Ha|now rewrite fset_other].
  - intros k. destruct (Nat.eq_dec k h) as [->|N]; [rewrite fset_same; exact Hp|rewrite fset_other by assumption].
    pose proof (i_pc s I k) as P. unfold pc_ok, copied in *. cbn [pages cur lock procs added]. rewrite fset_other by assumption.
    destruct (pcof s k); try exact P.
    + destruct P as (P1 & P2 & P3 & P4). repeat split; try assumption. intros k' i Hi. apply P4. now apply Mk.
    + destruct P as ((P1 & P2 & P3 & P4) & P5). repeat split; try assumption. intros k' i Hi. apply P4. now apply Mk.
  - apply (i_added s I).
Qed.
Lemma other_free s h k : inv s -> lock s = Some h -> k <> h -> crit (pcof s k) = false.
Proof. intros I L N. destruct (crit (pcof s k)) eqn:E; [|reflexivity]. apply (i_lock s I) in E. congruence. Qed.
(** What a process outside of the critical parts knows stays true when the current page keeps the owners. *)
Lemma outside s t k : inv s -> crit (pcof s k) = false -> procs t k = procs s k -> (present (pg s) <= present (pg t))%nat ->
  (forall i, view (procs s k) = cur t -> recs (pg s) i = pid k -> view (procs s k) = cur s /\ recs (pg t) i = pid k) ->
  (cur t = cur s \/ (view (procs s k) < cur t)%nat) ->
  pc_ok t k (pcof t k).
Proof.
  intros I C E P R V. pose proof (i_pc s I k) as H. unfold pc_ok in *. rewrite E. destruct (pcof s k); try discriminate C; try exact H.
  - lia.
  - destruct H as [H1 H2]. split; [exact H1|]. intros Hv. destruct V as [V|V]; [|lia]. apply R; [exact Hv|]. apply H2. congruence.
Qed.

Lemma step_inv s t h : inv s -> up_to_date s -> dead (procs s h) = false -> step_of pid s h = Some t -> inv t.
Proof.
  intros I U D. destruct pids_ok as [Pn Pi]. unfold step_of. pose proof (i_pc s I h) as P. pose proof (i_lock s I h) as L.
  destruct (pcof s h) eqn:E; cbn [pc_ok crit] in P, L.
  - discriminate.
  - (* AWait *) destruct (lock s) eqn:El; [discriminate|]. intros [= <-]. eapply (frame s _ h _ AReload _ _ (Some h) I); [reflexivity|auto|apply (i_view s I)| |auto|congruence|exact Logic.I].
    intros k N C. apply (i_lock s I) in C. congruence.
  - (* AReload *) intros [= <-]. assert (V : (if reload (pages s (view (procs s h))) then cur s else view (procs s h)) = cur s).
    { destruct (reload _) eqn:Er; [reflexivity|]. pose proof (i_view s I h). destruct (Nat.eq_dec (view (procs s h)) (cur s)); [assumption|].
      rewrite (i_old s I) in Er by lia. discriminate. }
    rewrite V. eapply (frame s _ h (cur s) ACheck _ _ (lock s) I); [reflexivity|auto|lia| |auto|congruence|cbn; now rewrite fset_same].
    intros k N C. now apply (i_lock s I).
  - (* ACheck *) intros [= <-]. eapply (frame s _ h _ _ _ _ (lock s) I); [reflexivity|auto|apply (i_view s I)| |intros _; now apply L|congruence|].
    { intros k N C. now apply (i_lock s I). }
    rewrite P. destruct (Nat.leb_spec (cap (pg s)) (present (pg s))) as [Lc|Lc]; cbn; rewrite fset_same; cbn; repeat split; try assumption; lia.
  - (* ACopy *) intros [= <-]. destruct P as [P1 P2]. eapply (frame s _ h _ _ _ _ (lock s) I); [reflexivity|auto|apply (i_view s I)| |intros _; now apply L|congruence|].
    { intros k N C. now apply (i_lock s I). }
    cbn. unfold copied. cbn. rewrite fset_same. cbn. rewrite P1. repeat split; try assumption.
    intros k i Hi. destruct (Nat.eq_dec k h) as [->|N]; [rewrite fset_same in Hi|rewrite fset_other in Hi by assumption]; now apply (i_own s I).
  - (* AMark *) intros [= <-]. destruct P as (P1 & P2 & P3 & P4). rewrite P1.
    set (s' := with_page s (cur s) (mark (pg s))).
    assert (I' : inv s').
    { assert (Pg : pages s' (cur s) = mark (pg s)) by apply fset_same.
      constructor; unfold s' in *; cbn [with_page pages cur lock procs added] in *; rewrite ?Pg; cbn [mark present cap recs].
      - apply (i_lock s I).
      - intros g Hg. rewrite fset_other by lia. now apply (i_old s I).
      - apply (i_view s I).
      - intros g Hg. destruct (Nat.eq_dec g (cur s)) as [->|N]; [rewrite Pg; cbn; lia|rewrite fset_other by assumption; now apply (i_pres s I)].
      - apply (i_cap s I).
      - apply (i_own s I).
      - apply (i_zero s I).
      - intros k. pose proof (i_pc s I k) as Q. unfold pc_ok, copied in *. cbn [with_page pages cur lock procs added]. rewrite Pg. cbn [mark present cap recs reload].
        destruct (pcof s k); try exact Q. destruct Q as [Q1 Q2]. split; [exact Q1|reflexivity].
      - apply (i_added s I). }
    eapply (frame s' _ h _ _ _ _ (lock s) I'); [reflexivity|auto|apply (i_view s' I')| |intros _; now apply L|unfold s'; cbn; congruence|].
    { intros k N C. now apply (i_lock s I). }
    cbn. unfold copied. cbn. rewrite !fset_same. cbn. repeat split; try assumption.
    intros k i Hi. destruct (Nat.eq_dec k h) as [->|N]; [rewrite fset_same in Hi|rewrite fset_other in Hi by assumption]; now apply P4.
  - (* ANew *) intros [= <-]. destruct P as ((P1 & P2 & P3 & P4) & P5). specialize (L eq_refl).
    pose proof (i_cap s I) as [C1 C2].
    assert (Hown : forall k i, In i (mine (procs s k)) -> (i < present snap)%nat /\ recs (resized snap (present snap * 2)) i = pid k).
    { intros k i Hi. destruct (i_own s I k i Hi) as [O1 O2]. split; [lia|]. cbn [resized recs]. replace (i <? present snap)%nat with true by (symmetry; apply Nat.ltb_lt; lia). now apply P4. }
    assert (Mk : forall k x i, In i (mine (fset (procs s) h (mkProc x (AStore (present snap)) (mine (procs s h)) (dead (procs s h))) k)) -> In i (mine (procs s k))).
    { intros k x i. destruct (Nat.eq_dec k h) as [->|N]; [now rewrite fset_same|now rewrite fset_other]. }
    constructor; cbn [see with_proc pages cur lock procs added]; rewrite ?fset_same; cbn [resized present cap recs].
    + intros k. destruct (Nat.eq_dec k h) as [->|N]; [now rewrite fset_same|rewrite fset_other by assumption]. apply (i_lock s I).
    + intros g Hg. rewrite fset_other by lia. destruct (Nat.eq_dec g (cur s)) as [->|N]; [exact P5|]. apply (i_old s I). lia.
    + intros k. destruct (Nat.eq_dec k h) as [->|N]; [rewrite fset_same; cbn; lia|rewrite fset_other by assumption]. pose proof (i_view s I k). lia.
    + intros g Hg. destruct (Nat.eq_dec g (S (cur s))) as [->|N]; [rewrite fset_same; cbn; lia|rewrite fset_other by assumption].
      pose proof (i_pres s I g). lia.
    + lia.
    + intros k i Hi. apply Mk in Hi. apply (Hown k i Hi).
    + intros i Hi. left. now replace (i <? present snap)%nat with false by (symmetry; apply Nat.ltb_ge; lia).
    + intros k. destruct (Nat.eq_dec k h) as [->|N].
      * rewrite fset_same. cbn. rewrite !fset_same. cbn. lia.
      * match goal with |- pc_ok ?t k ?c => replace c with (pcof t k) by (cbn; rewrite !fset_other by assumption; reflexivity); apply (outside s t k I) end.
        -- now apply (other_free s h).
        -- cbn. now rewrite fset_other.
        -- cbn. rewrite fset_same. cbn. lia.
        -- intros i Hv. cbn in Hv. pose proof (i_view s I k). lia.
        -- right. cbn. pose proof (i_view s I k). lia.
    + destruct (i_added s I) as [A1 A2]. split; [exact A1|]. intros n Hn. apply A2 in Hn. lia.
  - (* AStore *) intros [= <-]. destruct P as (P1 & P2 & P3). specialize (L eq_refl). rewrite P1. subst n.
    set (n := present (pg s)) in *.
    assert (Mk : forall k x c i, In i (mine (fset (procs s) h (mkProc x c (mine (procs s h)) (dead (procs s h))) k)) -> In i (mine (procs s k))).
    { intros k x c i. destruct (Nat.eq_dec k h) as [->|N]; [now rewrite fset_same|now rewrite fset_other]. }
    constructor; cbn [go with_page with_proc pages cur lock procs added]; rewrite ?fset_same; cbn [set_pid present cap recs].
    + intros k. destruct (Nat.eq_dec k h) as [->|N]; [now rewrite fset_same|rewrite fset_other by assumption]. apply (i_lock s I).
    + intros g Hg. rewrite fset_other by lia. now apply (i_old s I).
    + intros k. destruct (Nat.eq_dec k h) as [->|N]; [rewrite fset_same; cbn; lia|rewrite fset_other by assumption]. apply (i_view s I).
    + intros g Hg. destruct (Nat.eq_dec g (cur s)) as [->|N]; [rewrite fset_same; cbn; lia|rewrite fset_other by assumption]. now apply (i_pres s I).
    + apply (i_cap s I).
    + intros k i Hi. apply Mk in Hi. destruct (i_own s I k i Hi) as [O1 O2]. split; [exact O1|]. rewrite fset_other by (unfold n; lia). exact O2.
    + intros i Hi. destruct (Nat.eq_dec i n) as [->|N].
      * right. exists h. now rewrite fset_same.
      * rewrite fset_other by assumption. destruct (i_zero s I i Hi) as [Z0|(k & Hk)]; [now left|right]. exists k.
        destruct (Nat.eq_dec k h) as [->|Nk]; [congruence|now rewrite fset_other].
    + intros k. destruct (Nat.eq_dec k h) as [->|N].
      * rewrite fset_same. cbn. rewrite !fset_same. cbn. rewrite fset_same. repeat split; try assumption; reflexivity.
      * match goal with |- pc_ok ?t k ?c => replace c with (pcof t k) by (cbn; rewrite !fset_other by assumption; reflexivity); apply (outside s t k I) end.
        -- now apply (other_free s h).
        -- cbn. now rewrite fset_other.
        -- cbn. rewrite fset_same. cbn. lia.
        -- cbn. rewrite fset_same. cbn. intros i Hv Hr. split; [exact Hv|]. rewrite fset_other; [exact Hr|]. intros ->.
           destruct (i_zero s I n ltac:(unfold n; lia)) as [Z0|(q & Hq)]; [rewrite Z0 in Hr; now apply (Pn k)|].
           assert (q = h) by (assert (lock s = Some q) by (apply (i_lock s I); now rewrite Hq); congruence). subst q. congruence.
        -- now left.
    + apply (i_added s I).
  - (* APublish *) intros [= <-]. destruct P as (P1 & P2 & P3 & P4). specialize (L eq_refl). rewrite P1. subst n.
    set (n := present (pg s)) in *.
    assert (Mk : forall k x c i, In i (mine (fset (procs s) h (mkProc x c (mine (procs s h)) (dead (procs s h))) k)) -> In i (mine (procs s k))).
    { intros k x c i. destruct (Nat.eq_dec k h) as [->|N]; [now rewrite fset_same|now rewrite fset_other]. }
    destruct (i_added s I) as [A1 A2].
    constructor; cbn [go with_page with_proc pages cur lock procs added]; rewrite ?fset_same; cbn [publish present cap recs].
    + intros k. destruct (Nat.eq_dec k h) as [->|N]; [now rewrite fset_same|rewrite fset_other by assumption]. apply (i_lock s I).
    + intros g Hg. rewrite fset_other by lia. now apply (i_old s I).
    + intros k. destruct (Nat.eq_dec k h) as [->|N]; [rewrite fset_same; cbn; lia|rewrite fset_other by assumption]. apply (i_view s I).
    + intros g Hg. destruct (Nat.eq_dec g (cur s)) as [->|N]; [rewrite fset_same; cbn; lia|rewrite fset_other by assumption].
      pose proof (i_pres s I g Hg). lia.
    + pose proof (i_cap s I). lia.
    + intros k i Hi. apply Mk in Hi. destruct (i_own s I k i Hi) as [O1 O2]. split; [lia|exact O2].
    + intros i Hi. destruct (i_zero s I i ltac:(unfold n in *; lia)) as [Z0|(k & Hk)]; [now left|right].
      assert (k = h) by (assert (lock s = Some k) by (apply (i_lock s I); now rewrite Hk); congruence). subst k. rewrite E in Hk. injection Hk as <-. lia.
    + intros k. destruct (Nat.eq_dec k h) as [->|N].
      * rewrite fset_same. cbn. rewrite !fset_same. cbn. repeat split; [unfold n; lia|exact P4|]. intros Hn. apply A2 in Hn. unfold n in Hn. lia.
      * match goal with |- pc_ok ?t k ?c => replace c with (pcof t k) by (cbn; rewrite !fset_other by assumption; reflexivity); apply (outside s t k I) end.
        -- now apply (other_free s h).
        -- cbn. now rewrite fset_other.
        -- cbn. rewrite fset_same. cbn. lia.
        -- cbn. rewrite fset_same. cbn. intros i Hv Hr. now split.
        -- now left.
    + split; [exact A1|]. intros m Hm. apply A2 in Hm. lia.
  - (* APost *) intros [= <-]. destruct P as (P1 & P2 & P3). specialize (L eq_refl). destruct (i_added s I) as [A1 A2].
    constructor; cbn [returned give go with_lock with_proc pages cur lock procs added]; rewrite ?fset_same; cbn [view at_pc mine dead].
    + intros k. destruct (Nat.eq_dec k h) as [->|N]; [rewrite fset_same; cbn; discriminate|rewrite !fset_other by assumption].
      intros C. apply (i_lock s I) in C. congruence.
    + apply (i_old s I).
    + intros k. destruct (Nat.eq_dec k h) as [->|N]; [rewrite fset_same; cbn; apply (i_view s I)|rewrite !fset_other by assumption; apply (i_view s I)].
    + apply (i_pres s I).
    + apply (i_cap s I).
    + intros k i. destruct (Nat.eq_dec k h) as [->|N]; [rewrite fset_same|rewrite !fset_other by assumption; apply (i_own s I)].
      cbn. intros [<-|Hi]; [now split|now apply (i_own s I)].
    + intros i Hi. destruct (i_zero s I i Hi) as [Z0|(k & Hk)]; [now left|right].
      assert (k = h) by (assert (lock s = Some k) by (apply (i_lock s I); now rewrite Hk); congruence). subst k. congruence.
    + intros k. destruct (Nat.eq_dec k h) as [->|N]; [rewrite fset_same; exact Logic.I|].
      match goal with |- pc_ok ?t k ?c => replace c with (pcof t k) by (cbn; rewrite !fset_other by assumption; reflexivity); apply (outside s t k I) end; [now apply (other_free s h)|cbn; now rewrite !fset_other|cbn; lia| |now left].
      cbn. intros i Hv Hr. now split.
    + split; [now constructor|]. intros m [<-|Hm]; [exact P1|now apply A2].
  - (* CWait *) destruct (lock s) eqn:El; [discriminate|]. intros [= <-]. eapply (frame s _ h _ (CRead i) _ _ (Some h) I); [reflexivity|auto|apply (i_view s I)| |auto|congruence|exact P].
    intros k N C. apply (i_lock s I) in C. congruence.
  - (* CRead *) intros [= <-]. specialize (U h i E). rewrite U. specialize (L eq_refl).
    eapply (frame s _ h _ _ _ _ (lock s) I); [reflexivity|auto|apply (i_view s I)| |intros _; exact L|congruence|].
    { intros k N C. now apply (i_lock s I). }
    destruct (Z.eqb_spec (recs (pg s) i) 0) as [Z0|Z0]; [|exact Logic.I]. cbn. rewrite fset_same. cbn. repeat split; assumption.
  - (* CWrite *) intros [= <-]. destruct P as (P1 & P2 & P3). specialize (L eq_refl). rewrite P1.
    assert (Mk : forall k x c j, In j (mine (fset (procs s) h (mkProc x c (mine (procs s h)) (dead (procs s h))) k)) -> In j (mine (procs s k))).
    { intros k x c j. destruct (Nat.eq_dec k h) as [->|N]; [now rewrite fset_same|now rewrite fset_other]. }
    constructor; cbn [go with_page with_proc pages cur lock procs added]; rewrite ?fset_same; cbn [set_pid present cap recs].
    + intros k. destruct (Nat.eq_dec k h) as [->|N]; [now rewrite fset_same|rewrite fset_other by assumption]. apply (i_lock s I).
    + intros g Hg. rewrite fset_other by lia. now apply (i_old s I).
    + intros k. destruct (Nat.eq_dec k h) as [->|N]; [rewrite fset_same; cbn; lia|rewrite fset_other by assumption]. apply (i_view s I).
    + intros g Hg. destruct (Nat.eq_dec g (cur s)) as [->|N]; [rewrite fset_same; cbn; lia|rewrite fset_other by assumption]. now apply (i_pres s I).
    + apply (i_cap s I).
    + intros k j Hj. apply Mk in Hj. destruct (i_own s I k j Hj) as [O1 O2]. split; [exact O1|]. rewrite fset_other; [exact O2|].
      intros ->. rewrite P3 in O2. now apply (Pn k).
    + intros j Hj. rewrite fset_other by lia. destruct (i_zero s I j Hj) as [Z0|(k & Hk)]; [now left|right]. exists k.
      destruct (Nat.eq_dec k h) as [->|Nk]; [congruence|now rewrite fset_other].
    + intros k. destruct (Nat.eq_dec k h) as [->|N].
      * rewrite fset_same. cbn. rewrite !fset_same. cbn. now rewrite fset_same.
      * match goal with |- pc_ok ?t k ?c => replace c with (pcof t k) by (cbn; rewrite !fset_other by assumption; reflexivity); apply (outside s t k I) end.
        -- now apply (other_free s h).
        -- cbn. now rewrite fset_other.
        -- cbn. rewrite fset_same. cbn. lia.
        -- cbn. rewrite fset_same. cbn. intros j Hv Hr. split; [exact Hv|]. rewrite fset_other; [exact Hr|]. intros ->. rewrite P3 in Hr. now apply (Pn k).
        -- now left.
    + apply (i_added s I).
  - (* CPost *) intros [= <-]. destruct P as (P1 & P2). specialize (L eq_refl).
    constructor; cbn [give go with_lock with_proc pages cur lock procs added]; rewrite ?fset_same; cbn [view at_pc mine dead].
    + intros k. destruct (Nat.eq_dec k h) as [->|N]; [rewrite fset_same; cbn; discriminate|rewrite !fset_other by assumption].
      intros C. apply (i_lock s I) in C. congruence.
    + apply (i_old s I).
    + intros k. destruct (Nat.eq_dec k h) as [->|N]; [rewrite fset_same; cbn; apply (i_view s I)|rewrite !fset_other by assumption; apply (i_view s I)].
    + apply (i_pres s I).
    + apply (i_cap s I).
    + intros k j. destruct (Nat.eq_dec k h) as [->|N]; [rewrite fset_same|rewrite !fset_other by assumption; apply (i_own s I)].
      cbn. intros [<-|Hi]; [now split|now apply (i_own s I)].
    + intros j Hj. destruct (i_zero s I j Hj) as [Z0|(k & Hk)]; [now left|right]. exists k.
      destruct (Nat.eq_dec k h) as [->|N]; [congruence|now rewrite !fset_other].
    + intros k. destruct (Nat.eq_dec k h) as [->|N]; [rewrite fset_same; exact Logic.I|].
      match goal with |- pc_ok ?t k ?c => replace c with (pcof t k) by (cbn; rewrite !fset_other by assumption; reflexivity); apply (outside s t k I) end; [now apply (other_free s h)|cbn; now rewrite !fset_other|cbn; lia| |now left].
      cbn. intros j Hv Hr. now split.
    + apply (i_added s I).
  - (* CFail *) intros [= <-]. specialize (L eq_refl). eapply (frame s _ h _ Idle _ _ None I); [reflexivity|auto|apply (i_view s I)| |discriminate|congruence|exact Logic.I].
    intros k N C. apply (i_lock s I) in C. congruence.
  - (* BRead *) intros [= <-]. eapply (frame s _ h _ _ _ _ (lock s) I); [reflexivity|auto|apply (i_view s I)| | |congruence|].
    { intros k N C. now apply (i_lock s I). }
    { destruct (_ =? _); discriminate. }
    destruct (Z.eqb_spec (recs (pages s (view (procs s h))) i) (pid h)) as [Z0|Z0]; [|exact Logic.I]. cbn. rewrite fset_same. cbn. split; [exact P|].
    intros Hv. rewrite Hv in Z0. exact Z0.
  - (* BWrite *) intros [= <-]. destruct P as (P1 & P2).
    assert (Mk : forall k x c j, In j (mine (fset (procs s) h (mkProc x c (mine (procs s h)) (dead (procs s h))) k)) -> In j (mine (procs s k))).
    { intros k x c j. destruct (Nat.eq_dec k h) as [->|N]; [now rewrite fset_same|now rewrite fset_other]. }
    destruct (Nat.eq_dec (view (procs s h)) (cur s)) as [V|V].
    + rewrite V. specialize (P2 V).
      assert (Lt : (i < present (pg s))%nat).
      { destruct (Nat.lt_ge_cases i (present (pg s))) as [K|K]; [exact K|]. destruct (i_zero s I i K) as [Z0|(q & Hq)]; [rewrite Z0 in P2; exfalso; now apply (Pn h)|].
        pose proof (i_pc s I q) as Q. rewrite Hq in Q. cbn in Q. destruct Q as (_ & _ & _ & Q). rewrite Q in P2. apply Pi in P2. subst q. congruence. }
      assert (Ow : forall k j, recs (pg s) j = pid k -> k <> h -> j <> i).
      { intros k j Hr N ->. rewrite P2 in Hr. apply Pi in Hr. congruence. }
      constructor; cbn [go with_page with_proc pages cur lock procs added]; rewrite ?fset_same; cbn [set_pid present cap recs].
      * intros k. destruct (Nat.eq_dec k h) as [->|N]; [rewrite fset_same; discriminate|rewrite fset_other by assumption]. apply (i_lock s I).
      * intros g Hg. rewrite fset_other by lia. now apply (i_old s I).
      * intros k. destruct (Nat.eq_dec k h) as [->|N]; [rewrite fset_same; cbn; lia|rewrite fset_other by assumption]. apply (i_view s I).
      * intros g Hg. destruct (Nat.eq_dec g (cur s)) as [->|N]; [rewrite fset_same; cbn; lia|rewrite fset_other by assumption]. now apply (i_pres s I).
      * apply (i_cap s I).
      * intros k j Hj. apply Mk in Hj. destruct (i_own s I k j Hj) as [O1 O2]. split; [exact O1|]. rewrite fset_other; [exact O2|].
        destruct (Nat.eq_dec k h) as [->|N]; [intros ->; contradiction|now apply (Ow k)].
      * intros j Hj. rewrite fset_other by lia. destruct (i_zero s I j Hj) as [Z0|(k & Hk)]; [now left|right]. exists k.
        destruct (Nat.eq_dec k h) as [->|Nk]; [congruence|now rewrite fset_other].
      * intros k. destruct (Nat.eq_dec k h) as [->|N]; [rewrite fset_same; exact Logic.I|]. rewrite fset_other by assumption.
        pose proof (i_pc s I k) as Q. unfold pc_ok, copied in *. cbn [pages cur lock procs added go with_page with_proc]. rewrite !fset_same, fset_other by assumption.
        cbn [set_pid present cap recs reload]. destruct (pcof s k); try exact Q.
        -- destruct Q as (Q1 & Q2 & Q3 & Q4). repeat split; try assumption. intros k' j Hj. apply Q4. now apply Mk in Hj.
        -- destruct Q as ((Q1 & Q2 & Q3 & Q4) & Q5). repeat split; try assumption. intros k' j Hj. apply Q4. now apply Mk in Hj.
        -- destruct Q as (Q1 & Q2 & Q3 & Q4). repeat split; try assumption. rewrite fset_other; [exact Q4|]. now apply (Ow k).
        -- destruct Q as (Q1 & Q2 & Q3). repeat split; try assumption. rewrite fset_other; [exact Q2|]. now apply (Ow k).
        -- destruct Q as (Q1 & Q2 & Q3). repeat split; try assumption. rewrite fset_other; [exact Q3|]. intros ->. rewrite Q3 in P2. symmetry in P2. now apply (Pn h).
        -- destruct Q as (Q1 & Q2). repeat split; try assumption. rewrite fset_other; [exact Q2|]. now apply (Ow k).
        -- destruct Q as (Q1 & Q2). split; [assumption|]. intros Hv. rewrite fset_other; [now apply Q2|]. apply (Ow k); [now apply Q2|assumption].
      * apply (i_added s I).
    + (* an old page *) set (s' := with_page s (view (procs s h)) (set_pid (pages s (view (procs s h))) i 0)).
      assert (I' : inv s').
      { assert (Pg : pages s' (cur s) = pg s) by (unfold s'; cbn; rewrite fset_other by (intros K; now apply V); reflexivity).
        constructor; unfold s' in *; cbn [with_page pages cur lock procs added] in *; rewrite ?Pg.
        - apply (i_lock s I).
        - intros g Hg. destruct (Nat.eq_dec g (view (procs s h))) as [->|N]; [rewrite fset_same; cbn; now apply (i_old s I)|rewrite fset_other by assumption; now apply (i_old s I)].
        - apply (i_view s I).
        - intros g Hg. destruct (Nat.eq_dec g (view (procs s h))) as [->|N]; [rewrite fset_same; cbn; now apply (i_pres s I)|rewrite fset_other by assumption; now apply (i_pres s I)].
        - apply (i_cap s I).
        - apply (i_own s I).
        - apply (i_zero s I).
        - intros k. pose proof (i_pc s I k) as Q. unfold pc_ok, copied in *. cbn [with_page pages cur lock procs added]. rewrite Pg. exact Q.
        - apply (i_added s I). }
      eapply (frame s' _ h _ Idle _ _ (lock s) I'); [reflexivity|auto|apply (i_view s' I')| |discriminate|unfold s'; cbn; congruence|exact Logic.I].
      intros k N C. now apply (i_lock s I).
  - (* RLook *) contradiction.
Qed.

Lemma happen_inv s t e : inv s -> up_to_date s -> asks e -> happen pid s e = Some t -> inv t.
Proof.
  intros I U A. unfold happen. destruct e as [h c|h|h|h].
  - destruct (pcof s h) eqn:E; try discriminate. destruct (dead (procs s h)) eqn:D; [discriminate|]. destruct c as [|i|i|i].
    + intros [= <-]. eapply (frame s _ h _ AWait _ _ (lock s) I); [reflexivity|auto|apply (i_view s I)| |discriminate|congruence|exact Logic.I].
      intros k N C. now apply (i_lock s I).
    + destruct (Nat.ltb_spec i (present (pages s (view (procs s h))))) as [Lt|Lt]; [|discriminate]. intros [= <-].
      eapply (frame s _ h _ (CWait i) _ _ (lock s) I); [reflexivity|auto|apply (i_view s I)| |discriminate|congruence|].
      { intros k N C. now apply (i_lock s I). }
      cbn. pose proof (i_pres s I _ (i_view s I h)). lia.
    + intros [= <-]. set (mi := filter (fun k => negb (k =? i)%nat) (mine (procs s h))).
      assert (Sub : forall j, In j mi -> In j (mine (procs s h))) by (intros j Hj; now apply filter_In in Hj).
      assert (Et : go (drop s h i) h (BRead i) = mkSys (pages s) (cur s) (lock s) (fset (fset (procs s) h (mkProc (view (procs s h)) Idle mi false)) h (mkProc (view (procs s h)) (BRead i) mi false)) (added s)).
      { unfold go, drop, with_proc. cbn [procs pages cur lock added]. rewrite fset_same. cbn. now rewrite E, D. }
      rewrite Et. set (s1 := mkSys (pages s) (cur s) (lock s) (fset (procs s) h (mkProc (view (procs s h)) Idle mi false)) (added s)).
      assert (I1 : inv s1).
      { eapply (frame s _ h _ Idle mi false (lock s) I); [reflexivity|exact Sub|apply (i_view s I)| |discriminate|congruence|exact Logic.I]. intros k N C. now apply (i_lock s I). }
      eapply (frame s1 _ h _ (BRead i) mi false (lock s) I1); [reflexivity| |apply (i_view s I)| |discriminate| |].
      * intros j Hj. unfold s1. cbn. now rewrite fset_same.
      * intros k N C. now apply (i_lock s1 I1).
      * unfold s1. cbn. rewrite fset_same. discriminate.
      * cbn. rewrite fset_same. cbn. intros K. apply filter_In in K. rewrite Nat.eqb_refl in K. now destruct K.
    + destruct A.
  - destruct (dead (procs s h)) eqn:D; [discriminate|]. now apply step_inv.
  - destruct (dead (procs s h)) eqn:D; [discriminate|]. destruct (pcof s h) eqn:E; try discriminate.
    destruct (reload _); [|discriminate]. intros [= <-]. eapply (frame s _ h _ Idle _ _ (lock s) I); [reflexivity|auto|lia| |discriminate|congruence|exact Logic.I].
    intros k N C. now apply (i_lock s I).
  - intros [= <-]. eapply (frame s _ h _ (pcof s h) _ _ (lock s) I); [reflexivity|auto|apply (i_view s I)| |apply (i_lock s I)|auto|].
    { intros k N C. now apply (i_lock s I). }
    pose proof (i_pc s I h) as P. unfold pc_ok, copied in *. cbn [with_proc pages cur procs added]. rewrite fset_same. cbn.
    destruct (pcof s h); try exact P.
    + destruct P as (P1 & P2 & P3 & P4). repeat split; try assumption. intros k i Hi. apply P4.
      destruct (Nat.eq_dec k h) as [->|N]; [now rewrite fset_same in Hi|now rewrite fset_other in Hi].
    + destruct P as ((P1 & P2 & P3 & P4) & P5). repeat split; try assumption. intros k i Hi. apply P4.
      destruct (Nat.eq_dec k h) as [->|N]; [now rewrite fset_same in Hi|now rewrite fset_other in Hi].
Qed.
Lemma fresh_inv n : (1 <= n)%nat -> inv (fresh n).
Proof.
  intros N. constructor; cbn; try (intros; lia); try (intros; discriminate).
  - split; [constructor|intros m []].
Qed.
Lemma run_inv l : forall s t, inv s -> Forall asks l -> always up_to_date pid s l -> run pid s l = Some t -> inv t.
Proof.
  induction l as [|e l IH]; intros s t I A U R.
  - injection R as <-. exact I.
  - cbn in R, U. destruct U as [U1 U2]. destruct (happen pid s e) as [s1|] eqn:E; [|discriminate R]. inversion A; subst.
    apply (IH s1 t); try assumption. now apply (happen_inv s s1 e).
Qed.
End Inv.

(** What holds whoever claims what: the numbers that addTrack hands out. *)
Section Weak.
Variable pid : nat -> Z.
Notation pg s := (pages s (cur s)).
Notation pcof s h := (at_pc (procs s h)).
Definition copied2 (s : sys) (h : nat) (snap : page) : Prop :=
  view (procs s h) = cur s /\ present snap = present (pg s) /\ (cap (pg s) <= present (pg s))%nat.
Definition pc_ok2 (s : sys) (h : nat) (c : pc) : Prop :=
  match c with
  | ACheck => view (procs s h) = cur s
  | ACopy => view (procs s h) = cur s /\ (cap (pg s) <= present (pg s))%nat
  | AMark snap => copied2 s h snap
  | ANew snap => copied2 s h snap /\ reload (pg s) = true
  | AStore n | APublish n => view (procs s h) = cur s /\ n = present (pg s) /\ (n < cap (pg s))%nat
  | APost n => (n < present (pg s))%nat /\ ~ In n (added s)
  | _ => True
  end.
Record weak (s : sys) : Prop := {
  w_lock : forall h, crit (pcof s h) = true -> lock s = Some h;
  w_old : forall g, (g < cur s)%nat -> reload (pages s g) = true;
  w_view : forall h, (view (procs s h) <= cur s)%nat;
  w_cap : (present (pg s) <= cap (pg s))%nat /\ (1 <= cap (pg s))%nat;
  w_pc : forall h, pc_ok2 s h (pcof s h);
  w_added : NoDup (added s) /\ forall n, In n (added s) -> (n < present (pg s))%nat }.

(** Steps after which every page has the same size and the same marks. *)
Lemma wframe s t h : weak s -> cur t = cur s -> added t = added s ->
  (forall g, cap (pages t g) = cap (pages s g) /\ present (pages t g) = present (pages s g) /\ (reload (pages s g) = true -> reload (pages t g) = true)) ->
  (forall k, k <> h -> procs t k = procs s k) -> (view (procs t h) <= cur s)%nat ->
  (forall k, k <> h -> crit (pcof s k) = true -> lock t = Some k) -> (crit (pcof t h) = true -> lock t = Some h) ->
  pc_ok2 t h (pcof t h) -> weak t.
Proof.
  intros W Ec Ea Ep Eo Hv Ll Lc Hp. destruct (Ep (cur s)) as (Q1 & Q2 & Q3). constructor; rewrite ?Ec, ?Ea, ?Q1, ?Q2.
  - intros k. destruct (Nat.eq_dec k h) as [->|N]; [exact Lc|]. rewrite (Eo k N). now apply Ll.
  - intros g Hg. destruct (Ep g) as (_ & _ & R). apply R. now apply (w_old s W).
  - intros k. destruct (Nat.eq_dec k h) as [->|N]; [exact Hv|]. rewrite (Eo k N). apply (w_view s W).
  - apply (w_cap s W).
  - intros k. destruct (Nat.eq_dec k h) as [->|N]; [exact Hp|]. pose proof (w_pc s W k) as P. unfold pc_ok2, copied2 in *. rewrite (Eo k N), Ec, Q1, Q2, Ea.
    destruct (pcof s k); try exact P. destruct P as [P1 P2]. split; [exact P1|now apply Q3].
  - apply (w_added s W).
Qed.
Lemma wother s h k : weak s -> lock s = Some h -> k <> h -> crit (pcof s k) = false.
Proof. intros I L N. destruct (crit (pcof s k)) eqn:E; [|reflexivity]. apply (w_lock s I) in E. congruence. Qed.
Lemma woutside s t k : crit (pcof s k) = false -> procs t k = procs s k -> pc_ok2 t k (pcof t k).
Proof. intros C E. rewrite E. destruct (pcof s k); try discriminate C; exact Logic.I. Qed.

Ltac wf s h W := eapply (wframe s _ h W); cbn [go see give drop with_page with_lock with_proc pages cur lock procs added];
  [reflexivity|reflexivity| |intros; rewrite ?fset_other by assumption; reflexivity|rewrite ?fset_same; try apply (w_view s W)| | |].
Lemma step_weak s t h : weak s -> step_of pid s h = Some t -> weak t.
Proof.
  intros W. unfold step_of. pose proof (w_pc s W h) as P. pose proof (w_lock s W h) as L.
  assert (Keep : forall k, k <> h -> crit (pcof s k) = true -> lock s = Some k) by (intros k _; apply (w_lock s W)).
  assert (Free : lock s = Some h -> forall k, k <> h -> crit (pcof s k) = true -> None = Some k).
  { intros Lh k N C. pose proof (wother s h k W Lh N). congruence. }
  destruct (pcof s h) eqn:E; cbn [pc_ok2 crit] in P, L; try specialize (L eq_refl).
  - discriminate.
  - destruct (lock s) eqn:El; [discriminate|]. intros [= <-]. wf s h W; [auto| |reflexivity|rewrite fset_same; cbn; rewrite ?fset_same; exact Logic.I].
    intros k N C. apply (w_lock s W) in C. congruence.
  - intros [= <-]. assert (V : (if reload (pages s (view (procs s h))) then cur s else view (procs s h)) = cur s).
    { destruct (reload _) eqn:Er; [reflexivity|]. pose proof (w_view s W h). destruct (Nat.eq_dec (view (procs s h)) (cur s)); [assumption|].
      rewrite (w_old s W) in Er by lia. discriminate. }
    rewrite V. wf s h W; [auto|cbn; lia|exact Keep|auto|rewrite fset_same; cbn; now rewrite fset_same].
  - intros [= <-]. wf s h W; [auto|exact Keep|auto|rewrite fset_same]. rewrite P.
    destruct (Nat.leb_spec (cap (pg s)) (present (pg s))) as [Lc|Lc]; cbn; rewrite fset_same; cbn; repeat split; try assumption; lia.
  - intros [= <-]. destruct P as [P1 P2]. wf s h W; [auto|exact Keep|auto|]. rewrite fset_same. cbn. unfold copied2. cbn. rewrite fset_same. cbn. rewrite P1. now repeat split.
  - intros [= <-]. destruct P as (P1 & P2 & P3). rewrite P1. wf s h W; [|exact Keep|auto|].
    + intros g. destruct (Nat.eq_dec g (cur s)) as [->|N]; [rewrite fset_same; now cbn|now rewrite fset_other].
    + rewrite fset_same. cbn. unfold copied2. cbn. rewrite !fset_same. cbn. now repeat split.
  - intros [= <-]. destruct P as ((P1 & P2 & P3) & P5). pose proof (w_cap s W) as [C1 C2].
    constructor; cbn [see with_proc pages cur lock procs added]; rewrite ?fset_same; cbn [resized present cap recs].
    + intros k. destruct (Nat.eq_dec k h) as [->|N]; [now rewrite fset_same|rewrite fset_other by assumption]. apply (w_lock s W).
    + intros g Hg. rewrite fset_other by lia. destruct (Nat.eq_dec g (cur s)) as [->|N]; [exact P5|]. apply (w_old s W). lia.
    + intros k. destruct (Nat.eq_dec k h) as [->|N]; [rewrite fset_same; cbn; lia|rewrite fset_other by assumption]. pose proof (w_view s W k). lia.
    + lia.
    + intros k. destruct (Nat.eq_dec k h) as [->|N].
      * rewrite fset_same. cbn. rewrite !fset_same. cbn. lia.
      * match goal with |- pc_ok2 ?t k ?c => replace c with (pcof t k) by (cbn; rewrite !fset_other by assumption; reflexivity); apply (woutside s t k) end;
        [now apply (wother s h)|cbn; now rewrite fset_other].
    + destruct (w_added s W) as [A1 A2]. split; [exact A1|]. intros n Hn. apply A2 in Hn. lia.
  - intros [= <-]. destruct P as (P1 & P2 & P3). rewrite P1. wf s h W; [|exact Keep|auto|].
    + intros g. destruct (Nat.eq_dec g (cur s)) as [->|N]; [rewrite fset_same; now cbn|now rewrite fset_other].
    + rewrite fset_same. cbn. rewrite !fset_same. cbn. now repeat split.
  - intros [= <-]. destruct P as (P1 & P2 & P3). rewrite P1. destruct (w_added s W) as [A1 A2].
    constructor; cbn [go with_page with_proc pages cur lock procs added]; rewrite ?fset_same; cbn [publish present cap recs].
    + intros k. destruct (Nat.eq_dec k h) as [->|N]; [now rewrite fset_same|rewrite fset_other by assumption]. apply (w_lock s W).
    + intros g Hg. rewrite fset_other by lia. now apply (w_old s W).
    + intros k. destruct (Nat.eq_dec k h) as [->|N]; [rewrite fset_same; cbn; lia|rewrite fset_other by assumption]. apply (w_view s W).
    + pose proof (w_cap s W). lia.
    + intros k. destruct (Nat.eq_dec k h) as [->|N].
      * rewrite fset_same. cbn. rewrite !fset_same. cbn. split; [lia|]. intros Hn. apply A2 in Hn. lia.
      * match goal with |- pc_ok2 ?t k ?c => replace c with (pcof t k) by (cbn; rewrite !fset_other by assumption; reflexivity); apply (woutside s t k) end;
        [now apply (wother s h)|cbn; now rewrite fset_other].
    + split; [exact A1|]. intros m Hm. apply A2 in Hm. lia.
  - intros [= <-]. destruct P as (P1 & P3). destruct (w_added s W) as [A1 A2].
    constructor; cbn [returned give go with_lock with_proc pages cur lock procs added]; rewrite ?fset_same; cbn [view at_pc mine dead].
    + intros k. destruct (Nat.eq_dec k h) as [->|N]; [rewrite fset_same; cbn; discriminate|rewrite !fset_other by assumption]. now apply Free.
    + apply (w_old s W).
    + intros k. destruct (Nat.eq_dec k h) as [->|N]; [rewrite fset_same; cbn; apply (w_view s W)|rewrite !fset_other by assumption; apply (w_view s W)].
    + apply (w_cap s W).
    + intros k. destruct (Nat.eq_dec k h) as [->|N]; [rewrite fset_same; cbn; rewrite ?fset_same; exact Logic.I|].
      match goal with |- pc_ok2 ?t k ?c => replace c with (pcof t k) by (cbn; rewrite !fset_other by assumption; reflexivity); apply (woutside s t k) end;
      [now apply (wother s h)|cbn; now rewrite !fset_other].
    + split; [now constructor|]. intros m [<-|Hm]; [exact P1|now apply A2].
  - destruct (lock s) eqn:El; [discriminate|]. intros [= <-]. wf s h W; [auto| |reflexivity|rewrite fset_same; cbn; rewrite ?fset_same; exact Logic.I].
    intros k N C. apply (w_lock s W) in C. congruence.
  - intros [= <-]. wf s h W; [auto|exact Keep|auto|rewrite fset_same]. destruct (_ =? _); exact Logic.I.
  - intros [= <-]. wf s h W; [|exact Keep|auto|rewrite fset_same; cbn; rewrite ?fset_same; exact Logic.I].
    intros g. destruct (Nat.eq_dec g (view (procs s h))) as [->|N]; [rewrite fset_same; now cbn|now rewrite fset_other].
  - intros [= <-]. wf s h W; [auto|now apply Free|rewrite fset_same; cbn; rewrite ?fset_same; discriminate|rewrite fset_same; cbn; rewrite ?fset_same; exact Logic.I].
  - intros [= <-]. wf s h W; [auto|now apply Free|rewrite fset_same; cbn; rewrite ?fset_same; discriminate|rewrite fset_same; cbn; rewrite ?fset_same; exact Logic.I].
  - intros [= <-]. wf s h W; [auto|exact Keep|rewrite fset_same; destruct (_ =? _); discriminate|rewrite fset_same; destruct (_ =? _); exact Logic.I].
  - intros [= <-]. wf s h W; [|exact Keep|rewrite fset_same; cbn; rewrite ?fset_same; discriminate|rewrite fset_same; cbn; rewrite ?fset_same; exact Logic.I].
    intros g. destruct (Nat.eq_dec g (view (procs s h))) as [->|N]; [rewrite fset_same; now cbn|now rewrite fset_other].
  - destruct (_ =? 0); intros [= <-]; (wf s h W; [auto|exact Keep|rewrite fset_same; cbn; rewrite ?fset_same; discriminate|rewrite fset_same; cbn; rewrite ?fset_same; exact Logic.I]).
Qed.
Lemma happen_weak s t e : weak s -> happen pid s e = Some t -> weak t.
Proof.
  intros W. assert (Keep : forall h k, k <> h -> crit (pcof s k) = true -> lock s = Some k) by (intros h k _; apply (w_lock s W)).
  unfold happen. destruct e as [h c|h|h|h].
  - destruct (pcof s h) eqn:E; try discriminate. destruct (dead (procs s h)) eqn:D; [discriminate|]. destruct c as [|i|i|i].
    + intros [= <-]. wf s h W; [auto|apply Keep|rewrite fset_same; cbn; rewrite ?fset_same; discriminate|rewrite fset_same; cbn; rewrite ?fset_same; exact Logic.I].
    + destruct (_ <? _)%nat; [|discriminate]. intros [= <-]. wf s h W; [auto|apply Keep|rewrite fset_same; cbn; rewrite ?fset_same; discriminate|rewrite fset_same; cbn; rewrite ?fset_same; exact Logic.I].
    + intros [= <-]. wf s h W; [auto|apply Keep|rewrite fset_same; cbn; rewrite ?fset_same; discriminate|rewrite fset_same; cbn; rewrite ?fset_same; exact Logic.I].
    + destruct (_ <? _)%nat; [|discriminate]. intros [= <-]. wf s h W; [auto|apply Keep|rewrite fset_same; cbn; rewrite ?fset_same; discriminate|rewrite fset_same; cbn; rewrite ?fset_same; exact Logic.I].
  - destruct (dead (procs s h)) eqn:D; [discriminate|]. now apply step_weak.
  - destruct (dead (procs s h)) eqn:D; [discriminate|]. destruct (pcof s h) eqn:E; try discriminate.
    destruct (reload _); [|discriminate]. intros [= <-]. wf s h W; [auto|cbn; lia|apply Keep|rewrite fset_same; cbn; rewrite ?fset_same; discriminate|rewrite fset_same; cbn; rewrite ?fset_same; exact Logic.I].
  - intros [= <-]. wf s h W; [auto|apply Keep|rewrite fset_same; apply (w_lock s W)|rewrite fset_same]. cbn [at_pc].
    pose proof (w_pc s W h) as P. unfold pc_ok2, copied2 in *. cbn [with_proc pages cur procs added]. rewrite fset_same. exact P.
Qed.
Lemma run_weak l : forall s t, weak s -> run pid s l = Some t -> weak t.
Proof.
  induction l as [|e l IH]; intros s t I R; cbn in R; [injection R as <-; exact I|].
  destruct (happen pid s e) as [s1|] eqn:E; [|discriminate R]. apply (IH s1 t); [now apply (happen_weak s s1 e)|exact R].
Qed.
Lemma fresh_weak n : (1 <= n)%nat -> weak (fresh n).
Proof.
  intros N. constructor; cbn; try (intros; lia); try (intros; discriminate); try exact (fun _ => Logic.I).
  split; [constructor|intros m []].
Qed.
(** The list is only ever replaced by a later one. *)
Lemma happen_cur s t e : happen pid s e = Some t -> (cur s <= cur t)%nat.
Proof.
  unfold happen, step_of. intros H.
  repeat match type of H with
    | match ?x with _ => _ end = Some _ => destruct x
    | Some (match ?x with _ => _ end) = Some _ => destruct x
    | None = Some _ => discriminate H
    end; injection H as <-; cbn; lia.
Qed.
Lemma run_cur l : forall s t, run pid s l = Some t -> (cur s <= cur t)%nat.
Proof.
  induction l as [|e l IH]; intros s t R; cbn in R; [injection R as <-; lia|].
  destruct (happen pid s e) as [s1|] eqn:E; [|discriminate R]. apply happen_cur in E. apply IH in R. lia.
Qed.
Lemma never_grew l : forall s t, weak s -> run pid s l = Some t -> cur t = 0%nat -> always up_to_date pid s l.
Proof.
  induction l as [|e l IH]; intros s t W R C; cbn in R |- *.
  - injection R as <-. split; [|exact Logic.I]. intros h i _. pose proof (w_view s W h). lia.
  - destruct (happen pid s e) as [s1|] eqn:E; [|discriminate R]. split.
    + intros h i _. pose proof (w_view s W h). apply happen_cur in E. apply run_cur in R. lia.
    + apply (IH s1 t); [now apply (happen_weak s s1 e)|exact R|exact C].
Qed.
End Weak.

(** A process that died with the semaphore. *)
Definition stuck (s : sys) (h : nat) : Prop := dead (procs s h) = true /\ crit (at_pc (procs s h)) = true.
Lemma happen_stuck pid s t e h : weak s -> stuck s h -> happen pid s e = Some t -> stuck t h /\ lock t = lock s /\ added t = added s.
Proof.
  intros W [D C] H. pose proof (w_lock s W h C) as L. unfold stuck.
  destruct e as [k c|k|k|k].
  - unfold happen in H. destruct (at_pc (procs s k)) eqn:E; try discriminate H. destruct (dead (procs s k)) eqn:Dk; [discriminate H|].
    assert (N : h <> k) by congruence. destruct c as [|i|i|i]; try (destruct (_ <? _)%nat; [|discriminate H]); injection H as <-; cbn; rewrite ?fset_other by assumption; now repeat split.
  - unfold happen in H. destruct (dead (procs s k)) eqn:Dk; [discriminate H|]. assert (N : h <> k) by congruence.
    assert (Ck : crit (at_pc (procs s k)) = false) by (apply (wother s h k W L); congruence).
    unfold step_of in H. destruct (at_pc (procs s k)) eqn:E; try discriminate Ck; try discriminate H; rewrite ?L in H; try discriminate H.
    + injection H as <-. cbn. rewrite ?fset_other by assumption. now repeat split.
    + injection H as <-. cbn. rewrite ?fset_other by assumption. now repeat split.
    + destruct (_ =? 0); injection H as <-; cbn; rewrite ?fset_other by assumption; now repeat split.
  - unfold happen in H. destruct (dead (procs s k)) eqn:Dk; [discriminate H|]. assert (N : h <> k) by congruence.
    destruct (at_pc (procs s k)) eqn:E; try discriminate H. destruct (reload _); [|discriminate H]. injection H as <-. cbn. rewrite fset_other by assumption. now repeat split.
  - injection H as <-. cbn. destruct (Nat.eq_dec h k) as [->|N]; [rewrite fset_same; now repeat split|rewrite fset_other by assumption; now repeat split].
Qed.
Lemma run_stuck pid l h : forall s t, weak s -> stuck s h -> run pid s l = Some t -> lock t = lock s /\ added t = added s.
Proof.
  induction l as [|e l IH]; intros s t W S R; cbn in R; [injection R as <-; now split|].
  destruct (happen pid s e) as [s1|] eqn:E; [|discriminate R]. destruct (happen_stuck pid s s1 e h W S E) as (S1 & L1 & A1).
  destruct (IH s1 t (happen_weak pid s s1 e W E) S1 R) as [L2 A2]. split; congruence.
Qed.
Lemma happen_held pid s t e : (forall h, lock s = Some h -> crit (at_pc (procs s h)) = true) -> happen pid s e = Some t ->
  forall h, lock t = Some h -> crit (at_pc (procs t h)) = true.
Proof.
  intros W H h L. destruct e as [k c|k|k|k].
  - unfold happen in H. destruct (at_pc (procs s k)) eqn:E; try discriminate H. destruct (dead (procs s k)) eqn:Dk; [discriminate H|].
    destruct c as [|i|i|i]; try (destruct (_ <? _)%nat; [|discriminate H]); injection H as <-; cbn in L |- *; apply W in L;
      assert (N : h <> k) by (intros ->; rewrite E in L; discriminate L); rewrite ?fset_other by assumption; exact L.
  - unfold happen in H. destruct (dead (procs s k)) eqn:Dk; [discriminate H|]. unfold step_of in H.
    destruct (at_pc (procs s k)) eqn:E; try discriminate H; try (destruct (lock s) eqn:El; [discriminate H|]);
      try (match type of H with Some (if ?x then _ else _) = _ => destruct x end); injection H as <-; cbn in L |- *; try discriminate L;
      (destruct (Nat.eq_dec h k) as [->|N];
       [rewrite ?fset_same; cbn; rewrite ?fset_same; try reflexivity; try (destruct (_ <=? _)%nat; reflexivity); try (destruct (_ =? 0); reflexivity);
        try (apply W in L; rewrite E in L; discriminate L); try congruence
       |rewrite ?fset_other by assumption; try (apply W; exact L); try congruence]).
  - unfold happen in H. destruct (dead (procs s k)) eqn:Dk; [discriminate H|].
    destruct (at_pc (procs s k)) eqn:E; try discriminate H. destruct (reload _); [|discriminate H]. injection H as <-. cbn in L |- *. apply W in L.
    assert (N : h <> k) by (intros ->; rewrite E in L; discriminate L). rewrite ?fset_other by assumption. exact L.
  - injection H as <-. cbn in L |- *. apply W in L. destruct (Nat.eq_dec h k) as [->|N]; [now rewrite fset_same|now rewrite fset_other].
Qed.
Lemma run_held pid l : forall s t, (forall h, lock s = Some h -> crit (at_pc (procs s h)) = true) -> run pid s l = Some t ->
  forall h, lock t = Some h -> crit (at_pc (procs t h)) = true.
Proof.
  induction l as [|e l IH]; intros s t W R; cbn in R; [injection R as <-; exact W|].
  destruct (happen pid s e) as [s1|] eqn:E; [|discriminate R]. apply (IH s1 t); [|exact R]. now apply (happen_held pid s s1 e).
Qed.
