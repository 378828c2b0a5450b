(** C59: a live stream keeps the window it was asked to keep, and no more than it must. *)
From Verif Require Import Common CommonFacts CommonMore Dtsc_Model Dtsc_Spec Page_Model Page_Spec Meta_Model Meta_Spec Meta_Proofs MetaRun_Proofs MetaFind_Model MetaFind_Spec MetaMore_Proofs Live_Model Live_Spec Live_Proofs LiveHist_Proofs Live_Props Window_Model Window_Spec Window_Proofs.

(** ** Tracks *)
(** A round of the live buffer always completes. It first leaves out the idle tracks, one by one. Each of the
    others then has a number of its oldest keys evicted: none of a track that waits for video or is not in
    use; never a packet of the last [bt] ms, unless its key begins before [cut]; always leaving eight whole
    fragments. What is left is no more than that asks for. *)
Theorem win_stream SIZE FLIP DURATION clock bt i cut l : SIZE < 2 ^ 32 -> 0 <= FLIP -> 0 <= bt < 2 ^ 64 -> 0 <= i < 2 ^ 63 ->
  (forall k, 0 <= clock k < 2 ^ 63) ->
  Forall (fun x => times_ok x /\ exists v ops, lreached SIZE FLIP DURATION v ops (x_live x)) l ->
  exists kept r, dropped clock i 0 l kept /\ removeUnused clock true bt i cut l = Done r /\ Forall2 (managed SIZE FLIP DURATION bt cut kept) kept r.
Proof.
  intros HS HF Hb Hi Hc F. assert (F1 : Forall times_ok l) by (eapply Forall_impl; [| exact F]; tauto).
  pose proof (removeIdle_ok clock i Hc Hi (S (List.length l)) 0 l F1 ltac:(lia)) as D. unfold removeUnused. set (kept := removeIdle _ _ _ _ _) in *.
  assert (F2 : Forall (fun x => times_ok x /\ exists v ops, lreached SIZE FLIP DURATION v ops (x_live x)) kept).
  { rewrite Forall_forall in *. intros x Hx. apply F. eapply dropped_in; [exact D | exact Hx]. }
  destruct (manageAll_ok SIZE FLIP DURATION HS HF bt cut kept Hb ltac:(eapply Forall_impl; [| exact F2]; tauto) kept ltac:(eapply Forall_impl; [| exact F2]; tauto)) as (r & E & M).
  exists kept, r. split; [exact D |]. split; [exact E | exact M].
Qed.
Print Assumptions win_stream.
(** The same for one track, in full. *)
Theorem win_track SIZE FLIP DURATION v ops s bt cut : SIZE < 2 ^ 32 -> 0 <= FLIP -> 0 <= bt < 2 ^ 64 -> lreached SIZE FLIP DURATION v ops s ->
  let ps := map pk (all_stored v ops) in
  exists s' n, manageTrack true bt cut s = Done s' /\ lreached SIZE FLIP DURATION v (ops ++ repeat LEvict n) s' /\
    let d := (levictions ops + n)%nat in
    window_kept v ps (levictions ops) d bt cut /\ cut_done v ps d bt cut /\ size_done v ps d bt /\ ((0 < n)%nat -> enough v ps d).
Proof.
  intros HS HF Hb R. destruct (manage_track_ok SIZE FLIP DURATION HS HF v ops s bt cut Hb R) as (s' & n & E & _ & R' & W & C & S & En). exists s', n. auto 10.
Qed.
Print Assumptions win_track.
(** Without a cut, whoever seeks back [bt] ms or less finds every packet that was there. *)
Theorem win_seek SIZE FLIP DURATION v ops s bt : SIZE < 2 ^ 32 -> 0 <= FLIP -> 0 <= bt < 2 ^ 64 -> lreached SIZE FLIP DURATION v ops s ->
  let ps := map pk (all_stored v ops) in let gs := groups v ps in
  exists s' n, manageTrack true bt 0 s = Done s' /\ lreached SIZE FLIP DURATION v (ops ++ repeat LEvict n) s' /\
    forall j, kept_packet gs (levictions ops) ps j -> lasttime ps - time_at ps j <= bt -> kept_packet gs (levictions ops + n) ps j.
Proof.
  intros HS HF Hb R. destruct (manage_track_ok SIZE FLIP DURATION HS HF v ops s bt 0 Hb R) as (s' & n & E & _ & R' & W & _). exists s', n. split; [exact E |]. split; [exact R' |].
  intros j K T. destruct (W j K T) as [Q | (i & _ & Q)]; [exact Q |]. exfalso. revert Q. apply Z.le_ngt. unfold key_time. destruct (nth_error _ _) as [g |] eqn:Eg; [| lia].
  destruct R as (? & ? & ? & ? & _ & _ & _ & _ & (Fi & _) & _). destruct (Fi (map pk (all_stored v ops)) [] ltac:(rewrite app_nil_r; reflexivity)) as (_ & P & _).
  unfold gtime. destruct g as [| p g]; [cbn; lia |]. cbn [start]. rewrite Forall_forall in P. apply (P p). rewrite <- (groups_concat v). apply in_concat. exists (p :: g). split; [eapply nth_error_In; exact Eg | left; reflexivity].
Qed.
Print Assumptions win_seek.

(** ** Idle tracks *)
(** A track that was updated in the last five seconds, and not longer ago than the idle time, stays; so does one
    with metadata. *)
Theorem win_active_kept clock i k l r x : dropped clock i k l r -> In x l ->
  x_type x = bs "meta" \/ (forall j, clock j - x_updated x <= 5 /\ clock j - x_updated x <= i / 1000) -> In x r.
Proof.
  intros D Hx H. eapply dropped_keeps; [exact D | | exact Hx]. intros j m _ (N & I). destruct H as [H | H]; [congruence |].
  destruct (H j) as (H1 & H2). destruct I as [(_ & Q) | (_ & Q & _)]; lia.
Qed.
Print Assumptions win_active_kept.
(** No track stays that was not updated for longer than the idle time. *)
Theorem win_idle_gone clock i k l r : dropped clock i k l r -> exists j, forall x, In x r -> x_type x <> bs "meta" -> clock j - x_updated x <= Z.max 0 (i / 1000).
Proof.
  intros D. destruct (dropped_end _ _ _ _ _ D) as (j & _ & E). exists j. intros x Hx N. destruct (Z.le_gt_cases (clock j - x_updated x) (Z.max 0 (i / 1000))) as [G | G]; [exact G |].
  exfalso. apply (E x Hx). split; [exact N |]. left. split; lia.
Qed.
Print Assumptions win_idle_gone.
(** What is left is what was there, in the same order: only idle tracks are missing. *)
Theorem win_idle_only clock i k l r x : dropped clock i k l r -> In x l -> In x r \/ exists j m, idle (clock j) i m x /\ forall y, In y m -> In y l.
Proof.
  induction 1 as [k l N | k a y b r N I D IH]; intros Hx; [left; exact Hx |].
  apply in_app_or in Hx as [Hx | [-> | Hx]].
  - destruct IH as [Q | (j & m & Q1 & Q2)]; [apply in_or_app; left; exact Hx | left; exact Q |]. right. exists j, m. split; [exact Q1 |]. intros z Hz. specialize (Q2 z Hz).
    apply in_app_or in Q2 as [Q2 | Q2]; apply in_or_app; [left | right; right]; exact Q2.
  - right. exists k, (a ++ x :: b). split; [exact I | auto].
  - destruct IH as [Q | (j & m & Q1 & Q2)]; [apply in_or_app; right; exact Hx | left; exact Q |]. right. exists j, m. split; [exact Q1 |]. intros z Hz. specialize (Q2 z Hz).
    apply in_app_or in Q2 as [Q2 | Q2]; apply in_or_app; [left | right; right]; exact Q2.
Qed.
Print Assumptions win_idle_only.

(** Times are in whole seconds. With an idle time of whole seconds, a track counts as idle only when it has been
    so for longer than that. *)
Theorem win_idle_time_partial x now updated n : x_updated x = updated / 1000 -> 0 <= n -> too_old (now / 1000) (1000 * n) x -> 1000 * n < now - updated.
Proof.
  intros E Hn (_ & H). rewrite E in H. rewrite Z.mul_comm, Z.div_mul in H by lia. pose proof (Z.div_mod now 1000 ltac:(lia)). pose proof (Z.mod_pos_bound now 1000 ltac:(lia)).
  pose proof (Z.div_mod updated 1000 ltac:(lia)). pose proof (Z.mod_pos_bound updated 1000 ltac:(lia)). lia.
Qed.
Print Assumptions win_idle_time_partial.
Definition blank (v : bool) (ty : list Z) (up : Z) : strack := mkstrack 0 ty up true false (newLive v 4 4 4 4).
(** Otherwise it may be removed after half the idle time: 1001 ms of 1999. *)
Theorem win_idle_time_refuted : ~ (forall x now updated i, x_updated x = updated / 1000 -> 0 <= i -> too_old (now / 1000) i x -> i < now - updated).
Proof. intros H. specialize (H (blank true (bs "video") 4) 6000 4999 1999 eq_refl ltac:(lia)). assert (Q : 1999 < 6000 - 4999) by (apply H; split; vm_compute; reflexivity). lia. Qed.
Print Assumptions win_idle_time_refuted.

Lemma reached16 SIZE FLIP DURATION v ops s : reachedb SIZE v ops -> lrun SIZE FLIP DURATION (newLive v 16 16 16 16) ops = Done s -> lreached SIZE FLIP DURATION v ops s.
Proof.
  intros (A & B & C) E. exists 16, 16, 16, 16. repeat (split; [lia |]). split; [| split; [apply legalb_ok; exact C | exact E]].
  split; [apply fits_easy; [apply Forall_map | rewrite map_length; exact B] |]; (eapply Forall_impl; [| exact A]); cbv beta; tauto.
Qed.
(** A track that is updated after the clock was read is not counted among those updated in the last five
    seconds: another that fits it well is removed as too far away from the rest. *)
Definition shot (t : Z) : list lop := [kp t true 2].
Lemma shot_ok t : 0 <= t < 60000 -> reachedb 600 true (shot t).
Proof.
  intros H. assert (E : all_stored true (shot t) = [(mkF t 0 1 (repeat 7 2) 0 true, 1)]).
  { unfold all_stored, shot, kp. cbn [stored]. cbn [f_time]. destruct (Z.ltb_spec t 0); [lia |]. reflexivity. }
  unfold reachedb. rewrite E. split; [| split; [cbn; lia |]].
  - repeat (constructor; [repeat split; cbn; try lia; repeat constructor; lia |]). constructor.
  - unfold legalb. reflexivity.
Qed.
Definition shots (l : list (Z * Z)) : list strack :=
  flat_map (fun p => match lrun 600 100000 1000000 (newLive true 16 16 16 16) (shot (fst p)) with Done s => [mkstrack 0 (bs "video") (snd p) true false s] | _ => [] end) l.
Lemma shots_reached l : (forall p, In p l -> 0 <= fst p < 60000) -> forall x, In x (shots l) -> exists v ops, lreached 600 100000 1000000 v ops (x_live x).
Proof.
  intros Hl x Hx. unfold shots in Hx. apply in_flat_map in Hx as (p & Hp & Hx). destruct (lrun 600 100000 1000000 (newLive true 16 16 16 16) (shot (fst p))) as [| | s] eqn:E; [destruct Hx .. |].
  destruct Hx as [<- | []]. exists true, (shot (fst p)). cbn [x_live]. apply reached16; [| exact E]. apply shot_ok. apply Hl, Hp.
Qed.
Lemma a_shots : exists l, map (fun x => (firstmsOf x, lastmsOf x, x_updated x, x_type x)) l = [(5000, 5000, 102, bs "video"); (59000, 59000, 101, bs "video"); (6000, 6000, 90, bs "video")] /\
  map x_updated (removeIdle 4 (fun _ => 101) 0 20000 l) = [102; 101] /\ Forall (fun x => times_ok x /\ exists v ops, lreached 600 100000 1000000 v ops (x_live x)) l.
Proof.
  assert (Z : map (fun x => (firstmsOf x, lastmsOf x, x_updated x, x_type x)) (shots [(5000, 102); (59000, 101); (6000, 90)]) = [(5000, 5000, 102, bs "video"); (59000, 59000, 101, bs "video"); (6000, 6000, 90, bs "video")]) by (vm_compute; reflexivity).
  assert (R : map x_updated (removeIdle 4 (fun _ => 101) 0 20000 (shots [(5000, 102); (59000, 101); (6000, 90)])) = [102; 101]) by (vm_compute; reflexivity).
  assert (G := shots_reached [(5000, 102); (59000, 101); (6000, 90)] ltac:(intros p [<- | [<- | [<- | []]]]; cbn [fst]; lia)).
  revert Z R G. generalize (shots [(5000, 102); (59000, 101); (6000, 90)]). intros l Z R G. exists l. split; [exact Z |]. split; [exact R |].
  rewrite Forall_forall. intros x Hx. split; [| exact (G x Hx)]. clear - Z Hx. destruct l as [| a [| b [| c [| e l]]]]; try discriminate Z. cbn [map] in Z. injection Z as ? ? ? ? ? ? ? ? ? ? ? ?.
  unfold times_ok. destruct Hx as [<- | [<- | [<- | []]]]; lia.
Qed.
Theorem win_just_updated_refuted : ~ (forall l i time x y, Forall (fun x => times_ok x /\ exists v ops, lreached 600 100000 1000000 v ops (x_live x)) l -> 0 <= i < 2 ^ 63 ->
  In x l -> In y l -> x_type x = x_type y -> time - x_updated x <= i / 1000 -> time - x_updated y <= 5 ->
  firstmsOf y <= lastmsOf x -> firstmsOf x <= lastmsOf y + i -> exists z, In z (removeIdle 4 (fun _ => time) 0 i l) /\ x_updated z = x_updated x).
Proof.
  intros H. destruct a_shots as (l & Z & R & F).
  destruct l as [| a [| b [| c [| e l]]]]; try discriminate Z. cbn [map] in Z. injection Z as A1 A2 A3 A4 B1 B2 B3 B4 C1 C2 C3 C4.
  destruct (H [a; b; c] 20000 101 c a F ltac:(lia)) as (z & Hz & Ez); [right; right; left; reflexivity | left; reflexivity | congruence | rewrite C3; vm_compute; discriminate | lia | lia | lia |].
  apply (in_map x_updated) in Hz. rewrite R, Ez, C3 in Hz. destruct Hz as [Q | [Q | []]]; discriminate Q.
Qed.
Print Assumptions win_just_updated_refuted.

(** ** Audio and video *)
(** Keys of a track of another type are evicted only if its second key begins no later than every video
    track: the first eviction leaves something to play from the start of the video on. *)
Theorem win_audio_partial SIZE FLIP DURATION bt cut l x y v ops z : managed SIZE FLIP DURATION bt cut l x y -> lreached SIZE FLIP DURATION v ops (x_live x) ->
  x_type x <> bs "video" -> In z l -> x_loaded z = true -> x_type z = bs "video" ->
  exists n, lreached SIZE FLIP DURATION v (ops ++ repeat LEvict n) (x_live y) /\
    ((0 < n)%nat -> key_time (groups v (map pk (all_stored v ops))) (Z.of_nat (levictions ops) + 1) <= firstmsOf z).
Proof.
  intros (_ & _ & _ & _ & _ & M) R N Hz Lz Tz. destruct (M v ops R) as (n & Rn & _ & W & _). exists n. split; [exact Rn |]. intros Hn.
  destruct (Z.le_gt_cases (key_time (groups v (map pk (all_stored v ops))) (Z.of_nat (levictions ops) + 1)) (firstmsOf z)) as [G | G]; [exact G |]. exfalso.
  assert (n = O); [| lia]. apply W. right. right. split; [exact N |]. exists z. auto.
Qed.
Print Assumptions win_audio_partial.
(** The eviction after that is not held against the video: of 30 seconds of sound 6 are dropped at once, and
    the first 2.5 seconds of the picture are left without. *)
Definition sound : list lop := map (fun n => kp (2999 * Z.of_nat n) false 2) (seq 0 11).
Definition picture : list lop := [kp 3500 true 2].
Lemma sound_ok : reachedb 600 false sound.
Proof.
  split; [| split; [vm_compute; lia | vm_compute; reflexivity]]. set (l := all_stored false sound). vm_compute in l. unfold l.
  repeat (constructor; [repeat split; cbn; try lia; repeat constructor; lia |]). constructor.
Qed.
Lemma picture_ok : reachedb 600 true picture.
Proof.
  split; [| split; [vm_compute; lia | vm_compute; reflexivity]]. set (l := all_stored true picture). vm_compute in l. unfold l.
  repeat (constructor; [repeat split; cbn; try lia; repeat constructor; lia |]). constructor.
Qed.
Definition two (p q : out live) : out (list strack) :=
  p <! p;; q <! q;; Done [mkstrack 0 (bs "video") 100 true false p; mkstrack 1 (bs "audio") 100 true false q].
Definition round (o : out (list strack)) : out (list strack) := l <! o;; removeUnused (fun _ => 101) true 1000 50000 0 l.
Definition spans (o : out (list strack)) : list (list Z * Z * Z) := match o with Done l => map (fun x => (x_type x, firstmsOf x, lastmsOf x)) l | _ => [] end.
Lemma round_two p q : round (two (Done p) (Done q)) = removeUnused (fun _ => 101) true 1000 50000 0 [mkstrack 0 (bs "video") 100 true false p; mkstrack 1 (bs "audio") 100 true false q].
Proof. reflexivity. Qed.
Lemma a_stream_ok : exists l, Forall (fun x => times_ok x /\ exists v ops, lreached 600 100000 1000000 v ops (x_live x)) l /\
  spans (Done l) = [(bs "video", 3500, 3500); (bs "audio", 0, 29990)] /\
  spans (removeUnused (fun _ => 101) true 1000 50000 0 l) = [(bs "video", 3500, 3500); (bs "audio", 5998, 29990)].
Proof.
  destruct (lgot (lrun 600 100000 1000000 (newLive true 16 16 16 16) picture) (fun s => (firstms (tk s), lastms (tk s))) (1, 1) (3500, 3500)) as (p & Ep & Xp); [vm_compute; reflexivity | discriminate |].
  destruct (lgot (lrun 600 100000 1000000 (newLive false 16 16 16 16) sound) (fun s => (firstms (tk s), lastms (tk s))) (1, 1) (0, 29990)) as (q & Eq & Xq); [vm_compute; reflexivity | discriminate |].
  assert (X : spans (round (two (lrun 600 100000 1000000 (newLive true 16 16 16 16) picture) (lrun 600 100000 1000000 (newLive false 16 16 16 16) sound))) = [(bs "video", 3500, 3500); (bs "audio", 5998, 29990)]) by (vm_compute; reflexivity).
  rewrite Ep, Eq, round_two in X. injection Xp as P1 P2. injection Xq as Q1 Q2. eexists. split; [| split; [| exact X]].
  - constructor; [| constructor; [| constructor]]; (split; [unfold times_ok, firstmsOf, lastmsOf; cbn [x_live x_updated]; lia |]); cbn [x_live].
    + exists true, picture. apply reached16; [exact picture_ok | exact Ep].
    + exists false, sound. apply reached16; [exact sound_ok | exact Eq].
  - unfold spans, firstmsOf, lastmsOf. cbn [map x_live x_type]. rewrite P1, P2, Q1, Q2. reflexivity.
Qed.
Theorem win_audio_refuted : ~ (forall l r bt i cut, 0 <= bt < 2 ^ 64 -> 0 <= i < 2 ^ 63 ->
  Forall (fun x => times_ok x /\ exists v ops, lreached 600 100000 1000000 v ops (x_live x)) l -> removeUnused (fun _ => 101) true bt i cut l = Done r ->
  (forall x z, In x l -> In z l -> x_type z = bs "video" -> firstmsOf x <= firstmsOf z) -> forall x z, In x r -> In z r -> x_type z = bs "video" -> firstmsOf x <= firstmsOf z).
Proof.
  intros H. destruct a_stream_ok as (l & F & S1 & S2). destruct (removeUnused (fun _ => 101) true 1000 50000 0 l) as [| | r] eqn:E; [discriminate S2 .. |].
  specialize (H l r 1000 50000 0 ltac:(lia) ltac:(lia) F E).
  destruct l as [| a [| b [| c l]]]; try discriminate S1. destruct r as [| a' [| b' [| c' r]]]; try discriminate S2. cbn [spans map] in S1, S2. injection S1 as A1 A2 A3 B1 B2 B3. injection S2 as A1' A2' A3' B1' B2' B3'.
  assert (Q : firstmsOf b' <= firstmsOf a'); [| lia]. apply H; [| right; left; reflexivity | left; reflexivity | exact A1'].
  intros x z [<- | [<- | []]] [<- | [<- | []]] Tz; try lia; rewrite B1 in Tz; discriminate Tz.
Qed.
Print Assumptions win_audio_refuted.

(** ** Cases *)
(** The stream above meets what the theorems ask for, and its round is not empty. *)
Example win_stream_case : exists l kept r, spans (Done l) = [(bs "video", 3500, 3500); (bs "audio", 0, 29990)] /\
  dropped (fun _ => 101) 50000 0 l kept /\ removeUnused (fun _ => 101) true 1000 50000 0 l = Done r /\
  Forall2 (managed 600 100000 1000000 1000 0 kept) kept r /\ spans (Done r) = [(bs "video", 3500, 3500); (bs "audio", 5998, 29990)].
Proof.
  destruct a_stream_ok as (l & F & S1 & S2). destruct (win_stream 600 100000 1000000 (fun _ => 101) 1000 50000 0 l ltac:(lia) ltac:(lia) ltac:(lia) ltac:(lia) ltac:(intros; lia) F) as (kept & r & D & E & M).
  exists l, kept, r. rewrite E in S2. auto.
Qed.
(** A track not updated for 61 seconds goes, one with metadata stays. *)
Example win_idle_case : let x := blank true (bs "video") 100 in let y := blank true (bs "video") 40 in let z := blank false (bs "meta") 0 in
  dropped (fun _ => 101) 50000 0 [x; y; z] [x; z] /\ removeIdle 4 (fun _ => 101) 0 50000 [x; y; z] = [x; z].
Proof.
  cbv zeta. assert (E : removeIdle 4 (fun _ => 101) 0 50000 [blank true (bs "video") 100; blank true (bs "video") 40; blank false (bs "meta") 0] = [blank true (bs "video") 100; blank false (bs "meta") 0]) by reflexivity.
  split; [| exact E]. rewrite <- E. apply removeIdle_ok; [intros; lia | lia | | cbn; lia]. repeat constructor; cbn; lia.
Qed.
