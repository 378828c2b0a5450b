(** The list of tracks of a stream: properties. *)
From Verif Require Import Common Tracks_Model Tracks_Spec Tracks_Proofs.

(** No two processes own one track, in any interleaving and with crashes anywhere, as long as those who claim have mapped the current
    list; the list may grow. *)
Theorem tracks_one_owner pid n l s h1 h2 i : pids pid -> (1 <= n)%nat -> Forall asks l -> always up_to_date pid (fresh n) l ->
  run pid (fresh n) l = Some s -> owns s h1 i -> owns s h2 i -> h1 = h2.
Proof.
  intros P N A U R O1 O2. pose proof (run_inv pid P l _ _ (fresh_inv pid n N) A U R) as I.
  destruct (i_own pid s I h1 i O1) as [_ E1]. destruct (i_own pid s I h2 i O2) as [_ E2]. apply P. congruence.
Qed.
(** And the list that everybody can read says who it is. *)
Theorem tracks_owner_visible pid n l s h i : pids pid -> (1 <= n)%nat -> Forall asks l -> always up_to_date pid (fresh n) l ->
  run pid (fresh n) l = Some s -> owns s h i -> (i < present (pages s (cur s)))%nat /\ recs (pages s (cur s)) i = pid h.
Proof. intros P N A U R O. exact (i_own pid s (run_inv pid P l _ _ (fresh_inv pid n N) A U R) h i O). Qed.
(** A list that never had to grow needs no such assumption. *)
Theorem tracks_one_owner_small pid n l s h1 h2 i : pids pid -> (1 <= n)%nat -> Forall asks l ->
  run pid (fresh n) l = Some s -> cur s = 0%nat -> owns s h1 i -> owns s h2 i -> h1 = h2.
Proof.
  intros P N A R C. apply (tracks_one_owner pid n l s); try assumption. apply (never_grew pid l (fresh n) s); try assumption. now apply (fresh_weak pid).
Qed.
(** addTrack never returns a number twice, whatever else goes on. *)
Theorem tracks_numbers pid n l s : (1 <= n)%nat -> run pid (fresh n) l = Some s ->
  NoDup (added s) /\ forall i, In i (added s) -> (i < present (pages s (cur s)))%nat.
Proof. intros N R. exact (w_added s (run_weak pid l _ _ (fresh_weak pid n N) R)). Qed.

Definition pid1 (h : nat) : Z := Z.of_nat h + 1.
Lemma pid1_ok : pids pid1.
Proof. split; unfold pid1; intros; lia. Qed.
Definition steps (h k : nat) : list event := repeat (Step h) k.
(** Two processes add three tracks to a list for one, and one of the tracks changes hands. *)
Definition story : list event :=
  Call 0 Add :: steps 0 6 ++ Call 1 Add :: steps 1 9 ++ Refresh 0 :: Call 0 (Abandon 0) :: steps 0 2
  ++ Call 0 Add :: steps 0 9 ++ Refresh 1 :: Call 1 (Claim 0) :: Call 2 Add :: steps 1 4 ++ [Crash 1].

Example story_fine : Forall asks story /\ always up_to_date pid1 (fresh 1) story /\
  exists s, run pid1 (fresh 1) story = Some s /\ owns s 1 0 /\ owns s 1 1 /\ owns s 0 2 /\ cur s = 2%nat /\ added s = [2; 1; 0]%nat /\ lock s = None.
Proof.
  split; [repeat constructor|]. split.
  - vm_compute. repeat (split; [intros [|[|[|h]]] i E; first [discriminate E|reflexivity]|]). exact I.
  - eexists. split; [vm_compute; reflexivity|]. vm_compute. tauto.
Qed.
(** Without the assumption it fails: claimTrack does not look whether the list has been replaced. *)
Definition stale_story : list event :=
  Call 0 Add :: steps 0 6 ++ Call 0 (Abandon 0) :: steps 0 2 ++ Call 2 Add :: steps 2 9
  ++ Call 1 (Claim 0) :: steps 1 4 ++ Call 2 (Claim 0) :: steps 2 4.
Theorem tracks_stale_claim_refuted : ~ (forall n l s h1 h2 i, (1 <= n)%nat -> Forall asks l -> run pid1 (fresh n) l = Some s ->
  owns s h1 i -> owns s h2 i -> h1 = h2).
Proof.
  intros H. assert (K : exists s, run pid1 (fresh 1) stale_story = Some s /\ owns s 1 0 /\ owns s 2 0).
  { eexists. split; [vm_compute; reflexivity|]. vm_compute. tauto. }
  destruct K as (s & R & O1 & O2). specialize (H 1%nat stale_story s 1%nat 2%nat 0%nat (le_n _) ltac:(repeat constructor) R O1 O2). discriminate H.
Qed.
(** A real time input writes to a track although its claim fails. *)
Definition real_time_story : list event :=
  Call 0 Add :: steps 0 6 ++ Call 0 (Abandon 0) :: steps 0 2 ++ Call 1 (RealTime 0) :: Step 1 :: Call 2 (Claim 0) :: steps 2 4 ++ steps 1 3.
Theorem tracks_real_time_refuted : ~ (forall n l s h1 h2 i, (1 <= n)%nat -> run pid1 (fresh n) l = Some s -> cur s = 0%nat ->
  owns s h1 i -> owns s h2 i -> h1 = h2).
Proof.
  intros H. assert (K : exists s, run pid1 (fresh 4) real_time_story = Some s /\ cur s = 0%nat /\ owns s 1 0 /\ owns s 2 0).
  { eexists. split; [vm_compute; reflexivity|]. vm_compute. tauto. }
  destruct K as (s & R & C & O1 & O2). specialize (H 4%nat real_time_story s 1%nat 2%nat 0%nat ltac:(lia) R C O1 O2). discriminate H.
Qed.
(** A process that dies with the semaphore: no track can be added or claimed ever again. *)
Theorem tracks_crash_blocks_refuted pid n l s h : (1 <= n)%nat -> run pid (fresh n) l = Some s -> lock s = Some h -> dead (procs s h) = true ->
  forall l2 t, run pid s l2 = Some t -> added t = added s /\ lock t = Some h.
Proof.
  intros N R L D l2 t R2. pose proof (run_weak pid l _ _ (fresh_weak pid n N) R) as W.
  assert (C : crit (at_pc (procs s h)) = true) by (apply (run_held pid l (fresh n) s); [discriminate|exact R|exact L]).
  destruct (run_stuck pid l2 h s t W (conj D C) R2) as [E1 E2]. split; congruence.
Qed.
Example crash_meets : exists s, run pid1 (fresh 4) (Call 0 Add :: Step 0 :: [Crash 0]) = Some s /\ lock s = Some 0%nat /\ dead (procs s 0%nat) = true.
Proof. eexists. split; [vm_compute; reflexivity|]. now split. Qed.
(** abandonTrack does not take the semaphore: a track that is abandoned while the list grows stays claimed. *)
Definition lost_story : list event := Call 0 Add :: steps 0 6 ++ Call 1 Add :: steps 1 4 ++ Call 0 (Abandon 0) :: steps 0 2 ++ steps 1 5.
Theorem tracks_abandon_lost_refuted : ~ (forall n l s i, (1 <= n)%nat -> Forall asks l -> always up_to_date pid1 (fresh n) l -> run pid1 (fresh n) l = Some s ->
  (forall h, at_pc (procs s h) = Idle) -> (i < present (pages s (cur s)))%nat -> (forall h, ~ owns s h i) -> recs (pages s (cur s)) i = 0).
Proof.
  intros H. assert (K : exists s, run pid1 (fresh 1) lost_story = Some s /\ (forall h, at_pc (procs s h) = Idle) /\ (forall h, ~ owns s h 0) /\
    recs (pages s (cur s)) 0 = 1 /\ (0 < present (pages s (cur s)))%nat).
  { eexists. split; [vm_compute; reflexivity|]. split; [|split; [|split]].
    - intros [|[|h]]; vm_compute; reflexivity.
    - intros [|[|h]]; vm_compute; tauto || (intros [E|[]]; discriminate E).
    - vm_compute. reflexivity.
    - vm_compute. lia. }
  destruct K as (s & R & Id & O & V & P). rewrite (H 1%nat lost_story s 0%nat (le_n _)) in V; try assumption; [discriminate V|repeat constructor|].
  vm_compute. repeat (split; [intros [|[|[|h]]] i E; first [discriminate E|reflexivity]|]). exact I.
Qed.

Print Assumptions tracks_one_owner.
Print Assumptions tracks_owner_visible.
Print Assumptions tracks_one_owner_small.
Print Assumptions tracks_numbers.
Print Assumptions tracks_stale_claim_refuted.
Print Assumptions tracks_real_time_refuted.
Print Assumptions tracks_crash_blocks_refuted.
Print Assumptions tracks_abandon_lost_refuted.
