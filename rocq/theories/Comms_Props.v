(** * Communication pages and session totals (C28, C30) *)
From Verif Require Import Common CommonFacts Comms_Model Comms_Spec Comms_Proofs Session_Proofs.

(** For every number of clients, every schedule and every crash, no two running clients own the same record. *)
Theorem comms_one_owner input n cs l s h1 h2 i :
  flags_ok cs -> Forall plain l -> run input (fresh n cs) l = Some s ->
  owns s h1 i -> owns s h2 i -> h1 = h2.
Proof.
  intros F P R (c1 & A1 & D1 & P1) (c2 & A2 & D2 & P2). pose proof (run_inv _ _ _ _ (fresh_inv n cs F) P R) as I.
  apply (i_one _ I h1 c1 h2 c2 i); repeat split; try assumption; [rewrite P1 | rewrite P2]; reflexivity.
Qed.
Print Assumptions comms_one_owner.

(** The record of a running client exists, is in use, is not marked as left, and carries its process id. *)
Theorem comms_record input n cs l s h c i :
  flags_ok cs -> Forall plain l -> run input (fresh n cs) l = Some s ->
  nth_error (clients s) h = Some c -> dead c = false -> at_pc c = COwn i ->
  exists x, (i < n)%nat /\ nth_error (slots s) i = Some x /\ st x <> INVALID /\ has (st x) DISCONNECT = false /\ spid x = cpid c.
Proof.
  intros F P R A D Pc. pose proof (run_inv _ _ _ _ (fresh_inv n cs F) P R) as I.
  destruct (i_own _ I h c i) as (L & Nz & Nd & Pd); [repeat split; [exact A | exact D | rewrite Pc; reflexivity] |].
  pose proof (run_length _ _ _ _ P R) as Ln. cbn [fresh slots] in Ln. rewrite repeat_length in Ln.
  unfold status, pidof in *. destruct (nth_error (slots s) i) as [x |] eqn:E; [| congruence]. exists x. split; [lia |]. split; [reflexivity |]. split; [exact Nz |]. split; assumption.
Qed.
Print Assumptions comms_record.

(** If the semaphore is free, a client that starts and is not interrupted gets the first free record. *)
Theorem comms_register input n cs l s h c i :
  flags_ok cs -> Forall plain l -> run input (fresh n cs) l = Some s ->
  nth_error (clients s) h = Some c -> dead c = false -> at_pc c = CIdle ->
  sems s (gen s) = None -> (i < n)%nat -> status s i = INVALID -> (forall j, (j < i)%nat -> status s j <> INVALID) ->
  exists k t, run input s (repeat (Client h) k) = Some t /\ owns t h i /\ (i < endp t)%nat.
Proof.
  intros F P R A D Pc Sm L Z0 B. pose proof (run_inv _ _ _ _ (fresh_inv n cs F) P R) as I. pose proof (run_length _ _ _ _ P R) as Ln. cbn [fresh slots] in Ln. rewrite repeat_length in Ln.
  rewrite (i_gen _ I) in Sm. apply (register input h s c i I A D Pc Sm); [lia | exact Z0 | exact B].
Qed.
Print Assumptions comms_register.

(** A process that is killed while it registers keeps the semaphore: from then on nobody can register. *)
Theorem comms_killed_refuted :
  exists l s, Forall plain l /\ run false (fresh 2 [(100, 0); (101, 0)]) l = Some s /\ status s 0 = INVALID /\ status s 1 = INVALID /\
    (exists c, nth_error (clients s) 1 = Some c /\ dead c = false /\ at_pc c = CIdle) /\
    forall r t i, Forall plain r -> run false s r = Some t -> ~ owns t 1 i.
Proof.
  destruct (got (run false (fresh 2 [(100, 0); (101, 0)]) (repeat (Client 0) 5 ++ [Crash 0])) (fun s => (status s 0, status s 1, sems s 0, map (fun c => (dead c, at_pc c)) (clients s))) (0, 0, Some (Some 0%nat), [(true, CNull 0 0 null_fields); (false, CIdle)])) as (s & R & E); [vm_compute; reflexivity |].
  exists (repeat (Client 0) 5 ++ [Crash 0]), s. assert (Pl : Forall plain (repeat (Client 0) 5 ++ [Crash 0])) by (repeat constructor).
  injection E as E0 E1 Es Ec. repeat split; try assumption.
  - destruct (clients s) as [| c0 [| c1 r]]; try discriminate Ec. injection Ec as _ _ D1 P1 _. exists c1. auto.
  - intros r t i Pr Rt. eapply stuck_run; [| exact Pr | exact Rt]. constructor.
    + exact (run_inv _ _ _ _ (fresh_inv 2 [(100, 0); (101, 0)] ltac:(repeat constructor)) Pl R).
    + exact Es.
    + intros c A. unfold cl in A. destruct (clients s) as [| c0 [| c1 q]]; try discriminate Ec. injection Ec as D0 _ _ _ _. injection A as <-. exact D0.
    + intros c A. unfold cl in A. destruct (clients s) as [| c0 [| c1 q]]; try discriminate Ec. injection Ec as _ _ _ P1 _. injection A as <-. rewrite P1. reflexivity.
Qed.
Print Assumptions comms_killed_refuted.

(** Histories of one client: it registers at record 0; the process polls, with every process found running. *)
Definition joins (h n : nat) : list label := repeat (Client h) n.
Definition polls (now : Z) (n : nat) : list label := Poll now :: repeat (Master true) n.
Definition where_ (s : sys) := map (fun c => (dead c, at_pc c)) (clients s).

(** src/input/input_ts.cpp:162 marks its record as left and keeps it: its destructor then marks it again,
    when somebody else may own it already, and a third client gets it too. *)
Theorem comms_marked_refuted :
  exists l s, run false (fresh 1 [(100, 0); (101, 0); (102, 0)]) l = Some s /\ Forall (fun x => x <> Anew) l /\ owns s 1 0 /\ owns s 2 0.
Proof.
  set (l := joins 0 16 ++ [Mark 0] ++ joins 0 2 ++ polls 100 4 ++ joins 1 16 ++ joins 0 3 ++ polls 100 4 ++ joins 2 16).
  destruct (got (run false (fresh 1 [(100, 0); (101, 0); (102, 0)]) l) where_ [(false, CGone); (false, COwn 0); (false, COwn 0)]) as (s & R & E); [vm_compute; reflexivity |].
  unfold where_ in E. exists l, s. split; [exact R |]. split; [repeat (apply Forall_cons; [discriminate |]); constructor |].
  destruct (clients s) as [| c0 [| c1 [| c2 q]]] eqn:C; try discriminate E. injection E as _ _ D1 P1 D2 P2 _. split; [exists c1 | exists c2]; rewrite C; auto.
Qed.
Print Assumptions comms_marked_refuted.

(** A client opens the semaphore before the page. If the polling process is replaced in between, it claims its
    record under the old semaphore, and another client claims the same record under the new one. *)
Theorem comms_restart_refuted :
  exists l s, run false (fresh 1 [(100, 0); (101, 0)]) l = Some s /\ Forall (fun x => forall h, x <> Mark h) l /\ owns s 0 0 /\ owns s 1 0.
Proof.
  set (l := joins 0 1 ++ [Anew] ++ joins 0 4 ++ joins 1 16 ++ joins 0 11).
  destruct (got (run false (fresh 1 [(100, 0); (101, 0)]) l) where_ [(false, COwn 0); (false, COwn 0)]) as (s & R & E); [vm_compute; reflexivity |].
  unfold where_ in E. exists l, s. split; [exact R |]. split; [repeat (apply Forall_cons; [discriminate |]); constructor |].
  destruct (clients s) as [| c0 [| c1 q]] eqn:C; try discriminate E. injection E as D0 P0 D1 P1 _. split; [exists c0 | exists c1]; rewrite C; auto.
Qed.
Print Assumptions comms_restart_refuted.

(** A client that registers at the end of the page while the polling process is about to lower the number of
    records is not polled any more (lib/comms.h:26, lib/comms.cpp:79-82), although it runs and owns its record. *)
Theorem comms_hidden_refuted :
  exists l s, run false (fresh 2 [(100, 0); (101, 0); (102, 0)]) l = Some s /\ Forall kept l /\ owns s 2 1 /\ (endp s <= 1)%nat.
Proof.
  set (l := joins 0 16 ++ joins 1 18 ++ [Leave 1] ++ joins 1 2 ++ polls 100 8 ++ polls 100 5 ++ joins 2 17 ++ repeat (Master true) 4).
  destruct (got (run false (fresh 2 [(100, 0); (101, 0); (102, 0)]) l) (fun s => (where_ s, endp s)) ([(false, COwn 0); (false, CGone); (false, COwn 1)], 1%nat)) as (s & R & E); [vm_compute; reflexivity |].
  unfold where_ in E. exists l, s. split; [exact R |]. split; [repeat (apply Forall_cons; [exact I |]); constructor |].
  destruct (clients s) as [| c0 [| c1 [| c2 q]]] eqn:C; try discriminate E. injection E as _ _ _ _ D2 P2 _ En. split; [exists c2; rewrite C; auto | rewrite En; constructor].
Qed.
Print Assumptions comms_hidden_refuted.

(** ** Session totals *)
(** Whatever the schedule, totals never exceed what the connections have counted. *)
Theorem session_never_over input n cs l s f :
  flags_ok cs -> Forall kept l -> run input (fresh n cs) l = Some s -> (forall g, counted s g < 2 ^ 64) ->
  0 <= glob s f <= counted s f.
Proof.
  intros F K R Lt. destruct (run_acc _ _ _ _ _ _ (fresh_inv n cs F) (fresh_acc n cs) K R Lt) as (ten & lost & A & _). split; [apply (a_glob _ _ _ A) | exact (pend_le _ _ _ f A)].
Qed.
Print Assumptions session_never_over.

(** If no connection counts while its counters are being read, and the records of connections that have left
    are read in time, then after every round in which all records in use are read, the totals are exactly what
    all connections, present and past, have counted. *)
Theorem session_totals input n cs l1 now l2 s t f :
  flags_ok cs -> Forall kept l1 -> run input (fresh n cs) l1 = Some s -> at_m s = MIdle ->
  (forall i, status s i <> INVALID -> (i < endp s)%nat /\ recent input s now i) ->
  Forall master l2 -> run input s (Poll now :: l2) = Some t -> at_m t = MIdle ->
  calm input (fresh n cs) l1 -> (forall g, counted t g < 2 ^ 64) ->
  glob t f = counted t f.
Proof.
  intros F K1 R1 M1 Hin K2 R2 M2 C Lt.
  assert (Kp : Forall kept (Poll now :: l2)) by (constructor; [exact I |]; eapply Forall_impl; [| exact K2]; intros a; destruct a; cbn; tauto).
  assert (Lt1 : forall g, total (clients s) g < 2 ^ 64) by (intros g; pose proof (run_total _ _ _ _ g Kp R2); specialize (Lt g); unfold counted in Lt; fold (total (clients t) g) in Lt; lia).
  pose proof (fresh_inv n cs F) as I0. destruct (run_acc _ _ _ _ _ _ I0 (fresh_acc n cs) K1 R1 Lt1) as (ten & lost & A & _ & Lo).
  assert (Is : inv s) by (eapply run_inv; [exact I0 | | exact R1]; eapply Forall_impl; [| exact K1]; exact kept_plain).
  cbn [run] in R2. destruct (step input s (Poll now)) as [u |] eqn:S; [| discriminate R2]. cbn [step] in S. rewrite M1 in S. injection S as Eu.
  assert (Su : step input s (Poll now) = Some u) by (cbn [step]; rewrite M1, Eu; reflexivity).
  assert (Iu : inv u) by (exact (step_inv input s (Poll now) u Is I Su)).
  destruct (step_acc input ten lost s (Poll now) u Is A I Lt1 Su) as (ten1 & lost1 & A1 & _ & Lo1).
  assert (Ro : round s now u).
  { rewrite <- Eu. constructor; cbn [with_m with_mnow mnow slots at_m]; try reflexivity; [intros i X; exact X |]. cbn [at_round]. split; [reflexivity |]. intros i g X. lia. }
  assert (K2' : Forall kept l2) by (inversion Kp; assumption).
  pose proof (run_round input s now Hin _ _ _ _ _ Iu A1 Ro K2 R2 Lt) as Rt.
  destruct (run_acc _ _ _ _ _ _ Iu A1 K2' R2 Lt) as (ten2 & lost2 & A2 & _ & Lo2).
  assert (C2 : calm input u l2) by (exact (round_calm input s now Hin l2 _ _ _ _ Iu A1 Ro K2 R2 Lt)).
  pose proof (a_sum _ _ _ A2 f) as E. rewrite (Lo2 C2), (Lo1 I), (Lo C) in E. rewrite sumn_0 in E; [change (counted t f) with (total (clients t) f); lia |].
  intros i _. unfold pend. rewrite M2. cbn [window]. destruct (Z.eqb_spec (status t i) 0) as [| Nz]; [reflexivity |].
  pose proof (r_at _ _ _ Rt) as Ra. rewrite M2 in Ra. cbn [at_round] in Ra. rewrite (Ra i f Nz). lia.
Qed.
Print Assumptions session_totals.

(** The hypotheses are met: two connections count, one leaves and its record is used again, a second round
    frees the record of one that was killed. *)
Example session_example :
  let l1 := joins 0 16 ++ joins 1 18 ++ [Now 0 100; Now 1 100; Count 0 Down 500; Count 1 Up 70; Count 1 Down 3; Leave 1] ++ joins 1 2 ++ polls 100 44
            ++ joins 2 17 ++ [Now 2 105; Count 2 Down 1000; Count 0 Down 600; Crash 0] in
  let l2 := repeat (Master true) 2 ++ [Master false] ++ repeat (Master true) 43 in
  exists s t, flags_ok [(100, 0); (101, 64); (102, 0)] /\ Forall kept l1 /\ run false (fresh 2 [(100, 0); (101, 64); (102, 0)]) l1 = Some s /\ at_m s = MIdle /\
    (forall i, status s i <> INVALID -> (i < endp s)%nat /\ recent false s 106 i) /\ Forall master l2 /\ run false s (Poll 106 :: l2) = Some t /\ at_m t = MIdle /\
    calm false (fresh 2 [(100, 0); (101, 64); (102, 0)]) l1 /\ glob t Down = 1603 /\ glob t Up = 70 /\ has (status t 0) DISCONNECT = true /\ owns t 2 1.
Proof.
  intros l1 l2.
  destruct (got (run false (fresh 2 [(100, 0); (101, 64); (102, 0)]) l1) (fun s => (at_m s, map (fun x => (st x, snow x)) (slots s), endp s)) (MIdle, [(1, 100); (1, 105)], 2%nat)) as (s & R & E); [vm_compute; reflexivity |].
  destruct (got (run false (fresh 2 [(100, 0); (101, 64); (102, 0)]) (l1 ++ Poll 106 :: l2)) (fun s => (at_m s, map st (slots s), glob s Down, glob s Up, where_ s)) (MIdle, [33; 1], 1603, 70, [(true, COwn 0); (false, CGone); (false, COwn 1)])) as (t & Rt & Et); [vm_compute; reflexivity |].
  injection E as E1 E2 E3. injection Et as F1 F2 F3 F4 F5.
  exists s, t. split; [repeat constructor |]. split; [repeat (apply Forall_cons; [exact I |]); constructor |]. split; [exact R |]. split; [exact E1 |]. split.
  { intros i N. rewrite E3. unfold status in N. unfold recent.
    destruct (slots s) as [| x0 [| x1 [| x2 r]]]; try discriminate E2. injection E2 as S0 N0 S1 N1.
    destruct i as [| [| i]]; [split; [lia |]; right; intros x X; injection X as <-; rewrite N0; vm_compute; discriminate | split; [lia |]; right; intros x X; injection X as <-; rewrite N1; vm_compute; discriminate | destruct i; destruct (N eq_refl)]. }
  split; [repeat (apply Forall_cons; [exact I |]); constructor |]. split; [rewrite (run_split _ _ _ _ _ R) in Rt; exact Rt |]. split; [exact F1 |]. split; [apply calmb_ok; vm_compute; reflexivity |].
  split; [exact F3 |]. split; [exact F4 |]. split.
  - unfold status. destruct (slots t) as [| x0 r]; try discriminate F2. injection F2 as F2 _. cbn [nth_error]. rewrite F2. reflexivity.
  - unfold where_ in F5. destruct (clients t) as [| c0 [| c1 [| c2 q]]] eqn:C; try discriminate F5. injection F5 as _ _ _ _ D2 P2 _. exists c2. rewrite C. auto.
Qed.

(** A count that is made while the session reads the record is lost: it is remembered as seen, but was not
    added. The session adds, checks and remembers with three reads (src/session.cpp:55-108). *)
Theorem session_window_refuted :
  exists l s, run false (fresh 2 [(100, 0)]) l = Some s /\ Forall kept l /\ at_m s = MIdle /\
    counted s Down = 9 /\ glob s Down = 5 /\ counter s 0 Down = conn s 0%nat Down.
Proof.
  set (l := joins 0 16 ++ [Now 0 100; Count 0 Down 5] ++ polls 100 12 ++ [Count 0 Down 9] ++ repeat (Master true) 11 ++ polls 101 23).
  destruct (got (run false (fresh 2 [(100, 0)]) l) (fun s => (at_m s, counted s Down, glob s Down, counter s 0 Down, conn s 0%nat Down)) (MIdle, 9, 5, 9, 9)) as (s & R & E); [vm_compute; reflexivity |].
  injection E as E1 E2 E3 E4 E5. exists l, s. split; [exact R |]. split; [repeat (apply Forall_cons; [exact I |]); constructor |]. repeat split; congruence.
Qed.
Print Assumptions session_window_refuted.

(** A connection that was not updated for more than ten seconds and then leaves is forgotten without being
    read (src/session.cpp:55, lib/comms.h:19-25). *)
Theorem session_stale_refuted :
  exists l s, run false (fresh 2 [(100, 0)]) l = Some s /\ Forall kept l /\ at_m s = MIdle /\
    counted s Down = 7 /\ glob s Down = 0 /\ status s 0 = INVALID.
Proof.
  set (l := joins 0 16 ++ [Now 0 100; Count 0 Down 7; Leave 0] ++ joins 0 2 ++ polls 111 4).
  destruct (got (run false (fresh 2 [(100, 0)]) l) (fun s => (at_m s, counted s Down, glob s Down, status s 0)) (MIdle, 7, 0, 0)) as (s & R & E); [vm_compute; reflexivity |].
  injection E as E1 E2 E3 E4. exists l, s. split; [exact R |]. split; [repeat (apply Forall_cons; [exact I |]); constructor |]. repeat split; assumption.
Qed.
Print Assumptions session_stale_refuted.

(** In the first ten seconds after boot every connection counts as old: ten is subtracted without a check. *)
Theorem session_boot_refuted :
  exists l s, run false (fresh 2 [(100, 0)]) l = Some s /\ Forall kept l /\ at_m s = MIdle /\
    counted s Down = 7 /\ glob s Down = 0 /\ status s 0 = INVALID.
Proof.
  set (l := joins 0 16 ++ [Now 0 9; Count 0 Down 7; Leave 0] ++ joins 0 2 ++ polls 9 4).
  destruct (got (run false (fresh 2 [(100, 0)]) l) (fun s => (at_m s, counted s Down, glob s Down, status s 0)) (MIdle, 7, 0, 0)) as (s & R & E); [vm_compute; reflexivity |].
  injection E as E1 E2 E3 E4. exists l, s. split; [exact R |]. split; [repeat (apply Forall_cons; [exact I |]); constructor |]. repeat split; assumption.
Qed.
Print Assumptions session_boot_refuted.
