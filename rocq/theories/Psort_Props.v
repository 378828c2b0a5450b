(** C46: playback packet order. *)
From Coq Require Import Permutation.
From Verif Require Import Common CommonFacts Psort_Model Psort_Spec Psort_Proofs.

Lemma repr_new : repr sorter_new (true, []).
Proof. unfold repr; cbn. repeat split; try constructor. Qed.

Lemma first_real_sorted l : sorted l ->
  (exists e, In e l /\ e_ghost e = false /\ e_unavail e = false /\ first_real l = e_time e /\
     forall x, In x l -> e_ghost x = false -> e_unavail x = false -> e_time e <= e_time x) \/
  (first_real l = 0 /\ forall x, In x l -> e_ghost x = true \/ e_unavail x = true).
Proof.
  induction 1 as [|e l H Hl IH]; cbn.
  - right. split; auto.
  - destruct (negb (e_ghost e) && negb (e_unavail e)) eqn:E.
    + left. exists e. destruct (e_ghost e), (e_unavail e); try discriminate. repeat split; auto.
      intros x [<-|Hx] _ _; [lia|]. apply H in Hx. unfold before in Hx. lia.
    + assert (He : e_ghost e = true \/ e_unavail e = true) by (destruct (e_ghost e), (e_unavail e); auto; discriminate).
      destruct IH as [(f & F1 & F2 & F3 & F4 & F5)|(F1 & F2)].
      * left. exists f. repeat split; auto. intros x [<-|Hx] Hg Hu; [|auto]. destruct He; congruence.
      * right. split; auto. intros x [<-|Hx]; auto.
Qed.

(** Every history that keeps one entry per track: the sorter holds exactly the entries of the
    abstract collection, and yields the earliest one when synchronised (ties broken by track), or
    the oldest one when not.  No entry is lost or duplicated, also when the mode changes. *)
Theorem sorter_history : forall os sync bag, sruns (true, []) os (sync, bag) ->
  exists s, ps_run sorter_new os = Some s /\
    ps_getSync s = sync /\
    Permutation (ps_all s) bag /\ NoDup (tids bag) /\
    ps_size s = len bag /\
    (sync = false -> ps_all s = bag) /\
    (bag <> [] -> exists f, ps_begin s = Some f /\ first_of sync bag f) /\
    (forall t, ps_hasEntry s t = true <-> In t (tids bag)) /\
    (sync = true ->
      (exists e, In e bag /\ e_ghost e = false /\ e_unavail e = false /\ ps_nonGhost s = e_time e /\
        forall x, In x bag -> e_ghost x = false -> e_unavail x = false -> e_time e <= e_time x) \/
      (ps_nonGhost s = 0 /\ forall x, In x bag -> e_ghost x = true \/ e_unavail x = true)).
Proof.
  intros os sync bag H. destruct (run_repr os sorter_new (true, []) (sync, bag) repr_new H) as (s & E & Rd & Rn & R).
  cbn [fst snd] in *. exists s. split; auto.
  assert (P : Permutation (ps_all s) bag /\ (sync = true -> sorted (ps_all s)) /\ (sync = false -> ps_all s = bag)).
  { unfold ps_all. rewrite Rd. destruct sync; cbn [negb].
    - destruct R as (P & S & _). split; auto. split; auto. discriminate.
    - destruct R as (-> & _). split; auto. split; [discriminate|auto]. }
  destruct P as (P & So & Q).
  split; [unfold ps_getSync; rewrite Rd; apply negb_involutive|]. split; auto. split; auto.
  split; [unfold ps_size, len; now rewrite (Permutation_length P)|]. split; auto. split; [|split].
  - intros Hb. unfold ps_begin. destruct (ps_all s) as [|f r] eqn:Ea.
    { exfalso. apply Hb. now apply Permutation_nil in P. }
    exists f. split; auto. destruct sync; cbn [first_of].
    + apply (earliest_perm f (f :: r)); auto. apply sorted_hd. auto.
    + exists r. now rewrite <- Q.
  - intros t. unfold ps_hasEntry. rewrite existsb_exists. split.
    + intros (e & Hi & He). apply Z.eqb_eq in He. apply in_map_iff. exists e. split; auto. eapply Permutation_in; eauto.
    + intros Hi. apply in_map_iff in Hi as (e & He & Hi). exists e. split; [|now apply Z.eqb_eq].
      eapply Permutation_in; [symmetry; exact P|exact Hi].
  - intros Es. unfold ps_nonGhost. destruct (first_real_sorted (ps_all s) (So Es)) as [(e & A & B & C & D & F)|(A & B)].
    + left. exists e. repeat split; auto; [eapply Permutation_in; eauto|]. intros x Hx. apply F. eapply Permutation_in; [symmetry; exact P|exact Hx].
    + right. split; auto. intros x Hx. apply B. eapply Permutation_in; [symmetry; exact P|exact Hx].
Qed.

(** The histories above are not restricted otherwise: dropping, clearing and changing the mode is
    always possible, inserting a new track too, and replacing the first entry by another of its
    track is possible whenever there is one. *)
Theorem sorter_possible : forall os sync bag, sruns (true, []) os (sync, bag) ->
  (forall t, may (sync, bag) (PDrop t)) /\ (forall b, may (sync, bag) (PSync b)) /\ may (sync, bag) PClear /\
  (forall e, ~ In (e_tid e) (tids bag) -> may (sync, bag) (PInsert e)) /\
  (bag <> [] -> exists f, first_of sync bag f /\
    (forall e, e_tid e = e_tid f -> may (sync, bag) (PReplace e)) /\ may (sync, bag) PMove).
Proof.
  intros os sync bag H. destruct (run_repr os sorter_new (true, []) (sync, bag) repr_new H) as (s & E & Rd & Rn & R).
  cbn [fst snd] in *. repeat split.
  - intros t. eexists. constructor.
  - intros b. destruct sync, b; try (eexists; constructor; fail).
    destruct R as (P & So & _). exists (false, setBuffer s). apply s_sync_off; [now symmetry|]. now apply sorted_ordered.
  - eexists. constructor.
  - intros e He. now apply may_insert.
  - intros Hb. destruct sync.
    + destruct R as (P & So & _). destruct (setBuffer s) as [|f r] eqn:Es; [exfalso; apply Hb; now apply Permutation_nil in P|].
      assert (Ef : earliest f bag) by (apply (earliest_perm f (f :: r)); auto; now apply sorted_hd).
      exists f. split; [exact Ef|]. split; [|eexists; constructor].
      intros e He. eexists. eapply s_replace; eauto.
    + destruct bag as [|f r]; [contradiction|]. exists f. split; [cbn; eauto|]. split; [|eexists; constructor].
      intros e He. eexists. eapply s_replace; [cbn; eauto|auto].
Qed.

Definition pk (t time : Z) : ent := {| e_tid := t; e_time := time; e_offset := 0; e_part := 0; e_ghost := false; e_unavail := false |}.
Example sorter_case : exists s, ps_run sorter_new [PInsert (pk 2 40); PInsert (pk 1 40); PInsert (pk 3 10); PReplace (pk 3 60); PSync false; PMove; PSync true] = Some s
  /\ map e_tid (ps_all s) = [1; 2; 3] /\ ps_size s = 3.
Proof. eexists. split; [vm_compute; reflexivity|]. split; reflexivity. Qed.
Example sorter_case_run : exists y, sruns (true, []) [PInsert (pk 2 40); PInsert (pk 1 40); PReplace (pk 1 60)] y /\ snd y = [pk 2 40; pk 1 60].
Proof.
  eexists. split.
  - eapply r_cons; [apply s_insert; cbn; tauto|]. eapply r_cons; [apply s_insert; cbn; intuition discriminate|].
    eapply r_cons; [|apply r_nil]. apply (s_replace true [pk 2 40; pk 1 40] (pk 1 40)); [|now left].
    split; [cbn; auto|]. intros e [<-|[<-|[]]]; [right; right; cbn; lia|now left].
  - reflexivity.
Qed.

(** F45: without that discipline entries are lost: in synchronised mode, or when switching to it,
    only one of two entries with the same time and track survives, although the queue kept both. *)
Theorem sorter_duplicate_refuted : forall a b, e_tid a = e_tid b -> e_time a = e_time b ->
  (exists s, ps_run sorter_new [PInsert a; PInsert b] = Some s /\ ps_all s = [a]) /\
  (exists s, ps_run sorter_new [PSync false; PInsert a; PInsert b] = Some s /\ ps_all s = [a; b]) /\
  (exists s, ps_run sorter_new [PSync false; PInsert a; PInsert b; PSync true] = Some s /\ ps_all s = [a]).
Proof.
  intros a b Ht Hi. assert (L1 : ent_lt b a = false) by (unfold ent_lt; dif; lia). assert (L2 : ent_lt a b = false) by (unfold ent_lt; dif; lia).
  split; [|split]; (eexists; split; [cbn; reflexivity|]); cbn; rewrite ?L1, ?L2; reflexivity.
Qed.

Print Assumptions sorter_history.
Print Assumptions sorter_possible.
Print Assumptions sorter_duplicate_refuted.
