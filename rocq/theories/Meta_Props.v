(** Properties of the tables of stream metadata (C23, C24, C25). *)
From Verif Require Import Common CommonFacts Meta_Model Meta_Spec Meta_Proofs MetaUpd_Proofs MetaRun_Proofs MetaFind_Model MetaFind_Spec MetaView_Proofs MetaFind_Proofs MetaLim_Proofs MetaMore_Proofs.

(** ** C23: parts, keys and fragments describe exactly the packets accepted *)
(** After any history of packets, evictions and changes to the table of pages, the tables hold exactly one
    part for each accepted packet, the keys and fragments those packets form, and nothing that was evicted. *)
Theorem meta_tables_partial v ops t : reached v ops t -> tables t (accepted 0 (packets ops)) (evictions ops).
Proof. intros H. apply (reached_inv v ops t H). Qed.
Print Assumptions meta_tables_partial.

(** A packet is always taken or ignored: the process does not end. *)
Theorem meta_packet_total v ops t p : reached v ops t -> fits v (accepted 0 (packets (ops ++ [Packet p]))) ->
  exists t', update t p = Done t' /\ (p_time p < lastms t -> t' = t).
Proof.
  intros (a & b & c & e & Ha & Hb & Hc & F & L & E) F'.
  destruct (history_packet v a b c e ops t p Ha Hb Hc F' L E) as (t' & E'). exists t'. split; [exact E' |].
  intros H. unfold update in E'. destruct (Z.ltb_spec (p_time p) (lastms t)); [congruence | lia].
Qed.
Print Assumptions meta_packet_total.

(** The keys kept follow one another without holes, in time and in parts, and the parts of a key last as
    long as the key. *)
Theorem meta_keys_contiguous v ops t i : reached v ops t -> t_del (keys t) <= i -> i + 1 < t_end (keys t) ->
  let k := at_ (keys t) i in let n := at_ (keys t) (i + 1) in
  k_firstpart k + k_parts k = k_firstpart n /\ k_time k + k_dur k = k_time n /\ k_time k <= k_time n /\ 1 <= k_parts k /\
  sum_dur (Z.to_nat (k_parts k)) (parts t) (k_firstpart k) = k_dur k /\ k_num k = i.
Proof.
  intros R L1 L2. cbv zeta.
  destruct (accepted 0 (packets ops)) as [| p0 ps0] eqn:E0.
  { destruct (reached_inv v ops t R) as ((Rg & (_ & (_ & TK & _) & _) & _) & _). rewrite E0 in TK. cbn in TK.
    destruct Rg as (_ & (_ & Rk & _) & _). lia. }
  destruct (reached_view v ops t R) as (W & _); [congruence |]. rewrite E0 in W. set (ps := p0 :: ps0) in *.
  assert (KN : k_num (at_ (keys t) i) = i).
  { destruct (reached_inv v ops t R) as ((_ & (_ & (T1 & T2 & _ & T4) & _) & _) & _).
    destruct (nth_some (groups (video t) (accepted 0 (packets ops))) (Z.to_nat i)) as (g & Eg); [lia |].
    specialize (T4 _ _ Eg ltac:(lia)). rewrite Z2Nat.id in T4 by lia. rewrite T4. cbn [key_of k_num]. lia. }
  viewd W W'. rewrite v_del, v_end in *.
  rewrite !(v_ktime W'), !(v_kfirst W'), !(v_kparts W'), (v_kdur W') by qlia. destruct (Z.eqb_spec (i + 1) K); [qlia |].
  pose proof (v_fmono W' i (i + 1) ltac:(qlia) ltac:(qlia)) as B1. pose proof (v_fmono W' (i + 1) K ltac:(qlia) ltac:(qlia)) as B2.
  assert (B3 : F D <= F i) by (destruct (Z.eq_dec D i) as [-> | Q]; [qlia | pose proof (v_fmono W' D i ltac:(qlia) ltac:(qlia)); qlia]).
  pose proof (v_sorted W' (F i) (F (i + 1)) ltac:(qlia) ltac:(qlia)).
  split; [qlia |]. split; [qlia |]. split; [qlia |]. split; [qlia |]. split; [| exact KN].
  rewrite (sum_dur_ok t ps (evictions ops) _ _ _ _ _ _ _ _ _ W') by qlia. f_equal. f_equal. qlia.
Qed.
Print Assumptions meta_keys_contiguous.

(** *** What is missing *)
Definition pk (time : Z) (k : bool) : packet := mkpacket time 0 100 0 k 0 1900.
Lemma got {A} (o : out track) (f : track -> A) d x : match o with Done u => f u | _ => d end = x -> d <> x -> exists t, o = Done t /\ f t = x.
Proof. destruct o; intros H N; try congruence. eauto. Qed.
Local Notation after := (run (newTrack true 4 4 4 4)).

(** A pause of 65536 ms between two packets is recorded as no time at all: the duration of a part has 16 bits. *)
Theorem meta_part_duration_refuted : ~ (forall ps t, run (newTrack true 4 4 4 4) (map Packet ps) = Done t ->
  forall i p q, nth_error (accepted 0 ps) i = Some p -> nth_error (accepted 0 ps) (S i) = Some q -> pt_dur (at_ (parts t) (Z.of_nat i)) = p_time q - p_time p).
Proof.
  intros H. destruct (got (run (newTrack true 4 4 4 4) (map Packet [pk 0 true; pk 65536 true])) (fun u => pt_dur (at_ (parts u) (Z.of_nat 0))) 1 0) as (t & E & X); [vm_compute; reflexivity | discriminate |].
  specialize (H [pk 0 true; pk 65536 true] t E 0%nat (pk 0 true) (pk 65536 true) eq_refl eq_refl).
  rewrite X in H. discriminate H.
Qed.
Print Assumptions meta_part_duration_refuted.

(** A jump in time of exactly 2^32 ms between two fragments divides by zero. *)
Theorem meta_jump_traps_refuted : ~ (forall ps, Forall packet_ok ps -> run (newTrack true 4 4 4 4) (map Packet ps) <> Trap).
Proof.
  intros H. apply (H [pk 0 true; pk (2 ^ 32) true]).
  - repeat constructor; cbn; lia.
  - vm_compute. reflexivity.
Qed.
Print Assumptions meta_jump_traps_refuted.

(** Two keyframes with one time make two keys with one time: key times are not strictly increasing. *)
Theorem meta_key_times_strict_refuted : ~ (forall ops t, reached true ops t -> forall i, t_del (keys t) <= i -> i + 1 < t_end (keys t) ->
  k_time (at_ (keys t) i) < k_time (at_ (keys t) (i + 1))).
Proof.
  intros H. destruct (got (after (map Packet [pk 40 true; pk 40 true])) (fun u => (t_del (keys u), t_end (keys u), k_time (at_ (keys u) 0), k_time (at_ (keys u) 1))) (0, 0, 0, 0) (0, 2, 40, 40)) as (t & E & Y); [vm_compute; reflexivity | discriminate |].
  assert (R : reached true (map Packet [pk 40 true; pk 40 true]) t).
  { exists 4, 4, 4, 4. do 3 (split; [lia |]). split; [| split; [| exact E]].
    - apply fits_easy; [| cbn; lia]. vm_compute accepted. repeat constructor; cbn; lia.
    - intros pre post Q. destruct pre as [| ? [| ? [| ? ?]]]; discriminate Q. }
  specialize (H _ t R 0).
  injection Y as Y1 Y2 Y3 Y4. rewrite Y1, Y2, Y3 in H. change (0 + 1) with 1 in H. rewrite Y4 in H. specialize (H ltac:(lia) ltac:(lia)). lia.
Qed.
Print Assumptions meta_key_times_strict_refuted.

(** ** C24: evicting keys *)
(** Evicting the first key while the newest fragment keeps its first key never ends the process, as long as
    the track has a data page. *)
Theorem meta_evict_total v ops t : reached v ops t -> newest_kept v (accepted 0 (packets ops)) (evictions ops) ->
  1 <= t_pres (pages t) -> exists r, removeFirstKey t = Done r.
Proof. intros (a & b & c & e & Ha & Hb & Hc & F & L & E). apply (history_evict v a b c e ops t Ha Hb Hc F L E). Qed.
Print Assumptions meta_evict_total.

(** The check the live buffer makes before it evicts is enough: any history in which every eviction passes
    that check keeps the tables exact. *)
Theorem meta_live_buffer_partial v a b c e bt ops t : 1 <= a < 2 ^ 32 -> 1 <= b < 2 ^ 32 -> 1 <= c < 2 ^ 32 ->
  fits v (accepted 0 (packets ops)) -> guarded bt (newTrack v a b c e) ops -> run (newTrack v a b c e) ops = Done t ->
  reached v ops t /\ tables t (accepted 0 (packets ops)) (evictions ops).
Proof.
  intros Ha Hb Hc F G E. pose proof (guarded_legal v a b c e bt ops t Ha Hb Hc F G E) as L.
  assert (R : reached v ops t) by (exists a, b, c, e; auto 10). split; [exact R | exact (meta_tables_partial v ops t R)].
Qed.
Print Assumptions meta_live_buffer_partial.

Definition somepage (p : tbl page) : tbl page := mktbl (t_rc p) 0 0 1 1 (fun _ => mkpage 0 1000 0 0 1 0 0).
(** Without that check (as for HLS input, src/input/input_hls.cpp:986, or when the stream shuts down) four
    keyframes 100 ms apart and two evictions end the process. *)
Theorem meta_evict_quits_refuted : ~ (forall ops, (evictions ops < List.length (groups true (accepted 0 (packets ops))))%nat ->
  fits true (accepted 0 (packets ops)) -> after ops <> Quit).
Proof.
  intros H. apply (H (Other (somepage (emptyTbl page0 4)) None :: map Packet [pk 0 true; pk 100 true; pk 200 true; pk 300 true] ++ [Evict; Evict])).
  - vm_compute. lia.
  - apply fits_easy; [| cbn; lia]. vm_compute accepted. repeat constructor; cbn; lia.
  - vm_compute. reflexivity.
Qed.
Print Assumptions meta_evict_quits_refuted.
(** A track that has no data page yet ends the process when a key is evicted. *)
Theorem meta_evict_no_page_refuted : ~ (forall ops t, reached true ops t -> newest_kept true (accepted 0 (packets ops)) (evictions ops) -> removeFirstKey t <> Quit).
Proof.
  intros H. set (ops := map Packet [pk 0 true; pk 2000 true; pk 4000 true]).
  destruct (got (after ops) (fun u => match removeFirstKey u with Quit => 0 | _ => 1 end) 1 0) as (t & E & Y); [vm_compute; reflexivity | discriminate |].
  apply (H ops t).
  - exists 4, 4, 4, 4. do 3 (split; [lia |]). split; [| split; [| exact E]].
    + apply fits_easy; [| cbn; lia]. vm_compute accepted. repeat constructor; cbn; lia.
    + intros pre post Q. unfold ops in Q. destruct pre as [| ? [| ? [| ? [| ? ?]]]]; discriminate Q.
  - exists 1%nat, [[pk 2000 true]]. split; vm_compute; reflexivity.
  - destruct (removeFirstKey t); [reflexivity | discriminate Y | discriminate Y].
Qed.
Print Assumptions meta_evict_no_page_refuted.

(** ** C25: lookups by time *)
(** Seeking: the key found is in the window and holds a packet of the earliest time not before the one asked
    for; past the end it is the newest key. *)
Theorem meta_seek_key v ops t T : reached v ops t -> accepted 0 (packets ops) <> [] ->
  let ps := accepted 0 (packets ops) in let gs := groups v ps in let d := evictions ops in
  let r := getKeyNumForTime t T in
  t_del (keys t) <= r < t_end (keys t) /\
  ((exists j, in_key gs r j /\ next_at gs d ps T j) \/
   (forall k, kept_packet gs d ps k -> time_at ps k < T) /\ r = t_end (keys t) - 1).
Proof.
  intros R NE. cbv zeta. destruct (reached_view v ops t R NE) as (W & V). rewrite <- V.
  pose proof (keyNum_ok t _ _ T W) as H. cbv zeta in H. viewd W W'. rewrite <- EG, EK, ED in *. rewrite v_del, v_end. exact H.
Qed.
Print Assumptions meta_seek_key.
Theorem meta_seek_no_keys v ops t T : reached v ops t -> accepted 0 (packets ops) = [] -> getKeyNumForTime t T = INVALID_KEY_NUM.
Proof.
  intros R E. destruct (reached_inv v ops t R) as ((_ & (_ & (_ & K & _) & _) & _) & _). rewrite E in K. cbn in K.
  unfold getKeyNumForTime. rewrite K. reflexivity.
Qed.
Print Assumptions meta_seek_no_keys.

(** The key that covers a time before the newest packet. *)
Theorem meta_key_index_partial v ops t T : reached v ops t -> accepted 0 (packets ops) <> [] -> T < lasttime (accepted 0 (packets ops)) ->
  let ps := accepted 0 (packets ops) in let gs := groups v ps in
  let r := getKeyIndexForTime t T in
  t_del (keys t) <= r < t_end (keys t) /\ (T < key_end gs (lasttime ps) r \/ T = key_time gs r) /\
  (key_time gs r <= T \/ r = t_del (keys t)).
Proof.
  intros R NE L. cbv zeta. destruct (reached_view v ops t R NE) as (W & V). rewrite <- V.
  destruct (keyIndex_ok t _ _ T W) as (H & _). specialize (H L). viewd W W'. rewrite <- EG, EK, ED in *. rewrite v_del, v_end. exact H.
Qed.
Print Assumptions meta_key_index_partial.
(** For the time of the newest packet itself the answer is one past the newest key when that key has more
    than one packet, although the comment promises the last key. *)
Definition three : list op := map Packet [pk 1000 true; pk 1040 false; pk 1080 false].
Lemma three_reached t : after three = Done t -> reached true three t.
Proof.
  intros E. exists 4, 4, 4, 4. do 3 (split; [lia |]). split; [| split; [| exact E]].
  - apply fits_easy; [| cbn; lia]. vm_compute accepted. repeat constructor; cbn; lia.
  - intros pre post Q. unfold three in Q. destruct pre as [| ? [| ? [| ? [| ? ?]]]]; discriminate Q.
Qed.
Theorem meta_key_index_refuted : ~ (forall ops t T, reached true ops t -> accepted 0 (packets ops) <> [] -> T <= lasttime (accepted 0 (packets ops)) ->
  t_del (keys t) <= getKeyIndexForTime t T < t_end (keys t)).
Proof.
  intros H. destruct (got (after three) (fun u => (getKeyIndexForTime u 1080, t_end (keys u))) (0, 0) (1, 1)) as (t & E & Y); [vm_compute; reflexivity | discriminate |].
  specialize (H three t 1080 (three_reached t E) ltac:(vm_compute; discriminate) ltac:(vm_compute; discriminate)).
  injection Y as Y1 Y2. rewrite Y1, Y2 in H. lia.
Qed.
Print Assumptions meta_key_index_refuted.

(** The part at or after a time, before the newest packet (or at it, if that starts a key). *)
Theorem meta_part_index_partial v ops t T : reached v ops t -> accepted 0 (packets ops) <> [] ->
  let ps := accepted 0 (packets ops) in let gs := groups v ps in
  T < lasttime ps \/ T = lasttime ps /\ key_time gs (t_end (keys t) - 1) = T ->
  next_at gs (evictions ops) ps T (getPartIndex t T).
Proof.
  intros R NE. cbv zeta. destruct (reached_view v ops t R NE) as (W & V). rewrite <- V. intros H.
  apply partIndex_ok; [exact W |]. viewd W W'. rewrite <- EG, EK in *. rewrite v_end in H. exact H.
Qed.
Print Assumptions meta_part_index_partial.
(** At the time of the newest packet the answer is one past it. *)
Theorem meta_part_index_refuted : ~ (forall ops t T, reached true ops t -> accepted 0 (packets ops) <> [] -> T <= lasttime (accepted 0 (packets ops)) ->
  next_at (groups true (accepted 0 (packets ops))) (evictions ops) (accepted 0 (packets ops)) T (getPartIndex t T)).
Proof.
  intros H. destruct (got (after three) (fun u => getPartIndex u 1080) 0 3) as (t & E & Y); [vm_compute; reflexivity | discriminate |].
  specialize (H three t 1080 (three_reached t E) ltac:(vm_compute; discriminate) ltac:(vm_compute; discriminate)).
  rewrite Y in H. destruct H as ((_ & H) & _). vm_compute in H. discriminate H.
Qed.
Print Assumptions meta_part_index_refuted.

(** The time of a part, while nothing has been evicted. *)
Theorem meta_part_time_partial v ops t j : reached v ops t -> evictions ops = 0%nat -> 0 <= j < Z.of_nat (List.length (accepted 0 (packets ops))) ->
  getPartTime t j = time_at (accepted 0 (packets ops)) j.
Proof.
  intros R Ev L. destruct (reached_view v ops t R) as (W & _). { intros E. rewrite E in L. cbn in L. lia. }
  rewrite Ev in W. apply partTime_ok; assumption.
Qed.
Print Assumptions meta_part_time_partial.

(** The key to use for a time: always one in the window. *)
Theorem meta_index_for_time v ops t T : reached v ops t -> accepted 0 (packets ops) <> [] ->
  let ps := accepted 0 (packets ops) in let gs := groups v ps in let r := getIndexForTime t T in
  t_del (keys t) <= r < t_end (keys t) /\
  (T < key_end gs (lasttime ps) r \/ T <= key_time gs r \/ r = t_end (keys t) - 1) /\
  (key_time gs r <= T \/ r = t_del (keys t)).
Proof.
  intros R NE. cbv zeta. destruct (reached_view v ops t R NE) as (W & V). rewrite <- V.
  pose proof (indexForTime_ok t _ _ T W) as H. cbv zeta in H. viewd W W'. rewrite <- EG, EK, ED in *. rewrite v_del, v_end. exact H.
Qed.
Print Assumptions meta_index_for_time.

(** The fragment that covers a time before the newest packet; at or after it the answer is one past the newest. *)
Theorem meta_fragment_index v ops t T : reached v ops t -> accepted 0 (packets ops) <> [] ->
  let ps := accepted 0 (packets ops) in let fs := fragments (groups v ps) in let r := getFragmentIndexForTime t T in
  (T < lasttime ps -> t_del (frags t) <= r < t_end (frags t) /\ T < frag_end fs (lasttime ps) r /\
     (frag_time fs r <= T \/ r = t_del (frags t))) /\
  (lasttime ps <= T -> r = t_end (frags t)).
Proof.
  intros R NE. cbv zeta. destruct (reached_view v ops t R NE) as (W & V). rewrite <- V.
  pose proof (fragIndex_ok t _ _ T W) as H. cbv zeta in H. viewd W W'. rewrite <- EG, <- EF, EM, EA in *. rewrite v_fdel, v_fend. exact H.
Qed.
Print Assumptions meta_fragment_index.

(** A view limited to the times from [lo] up to [hi] shows exactly the kept packets in that range, when no two
    packets have the same time. *)
Theorem meta_limited_view_partial v ops t lo hi : reached v ops t -> accepted 0 (packets ops) <> [] ->
  let ps := accepted 0 (packets ops) in let gs := groups v ps in
  (forall i j, 0 <= i < j -> j < Z.of_nat (List.length ps) -> time_at ps i < time_at ps j) ->
  let l := applyLimiter t lo hi in
  let a := lv_firstPart t l (l_min l) in let b := lv_firstPart t l (l_max l - 1) + lv_parts t l (l_max l - 1) in
  t_del (keys t) <= l_min l < l_max l /\ l_max l <= t_end (keys t) /\ a <= b /\ lv_totalParts t l = b - a /\
  (forall k, kept_packet gs (evictions ops) ps k -> (a <= k < b <-> lo <= time_at ps k < hi)) /\
  (a < b -> lv_time t l (l_min l) = time_at ps a).
Proof.
  intros R NE. cbv zeta. destruct (reached_view v ops t R NE) as (W & V). rewrite <- V. intros S.
  viewd W W'. rewrite EN in S. destruct (limiter_ok W' lo hi S) as (H1 & H2 & H3 & H4 & H5 & H6 & H7).
  rewrite v_del, v_end. split; [exact H1 |]. split; [exact H2 |]. split; [lia |]. split; [exact H5 |]. split; [| exact H7].
  intros k. unfold kept_packet. rewrite <- EG, HFD, EN. apply H6.
Qed.
Print Assumptions meta_limited_view_partial.

(** ** The hypotheses are met *)
(** A live stream: a keyframe every two seconds, four packets per key, evictions when the buffer allows. *)
Definition stream (n : nat) : list op :=
  flat_map (fun i => map Packet [pk (2000 * Z.of_nat i) true; pk (2000 * Z.of_nat i + 500) false; pk (2000 * Z.of_nat i + 1000) false; pk (2000 * Z.of_nat i + 1500) false]) (seq 0 n).
Definition live : list op := Other (somepage (emptyTbl page0 4)) None :: stream 15 ++ [Evict; Evict].
Lemma live_guarded : guarded 20000 (newTrack true 4 4 4 4) live.
Proof. vm_compute. repeat split. Qed.
Example meta_live_example : exists t, after live = Done t /\ reached true live t /\ evictions live = 2%nat /\
  (t_del (keys t), t_end (keys t), t_del (parts t), t_end (parts t), t_del (frags t), t_end (frags t), firstms t, missed t) = (2, 15, 8, 60, 2, 15, 4000, 2) /\
  (getKeyNumForTime t 5000, getKeyNumForTime t 5600, getPartIndex t 5600, getFragmentIndexForTime t 5600) = (2, 3, 12, 2).
Proof.
  destruct (got (after live) (fun t => ((t_del (keys t), t_end (keys t), t_del (parts t), t_end (parts t), t_del (frags t), t_end (frags t), firstms t, missed t),
     (getKeyNumForTime t 5000, getKeyNumForTime t 5600, getPartIndex t 5600, getFragmentIndexForTime t 5600))) ((0, 0, 0, 0, 0, 0, 0, 0), (0, 0, 0, 0)) ((2, 15, 8, 60, 2, 15, 4000, 2), (2, 3, 12, 2))) as (t & E & Y);
    [vm_compute; reflexivity | discriminate |]. exists t. split; [exact E |].
  assert (F : fits true (accepted 0 (packets live))).
  { apply fits_easy; [| vm_compute; lia]. set (l := accepted 0 (packets live)). vm_compute in l. unfold l. repeat constructor; cbn; lia. }
  destruct (meta_live_buffer_partial true 4 4 4 4 20000 live t ltac:(lia) ltac:(lia) ltac:(lia) F live_guarded E) as (R & _).
  split; [exact R |]. split; [reflexivity |].
  split; congruence.
Qed.
Example meta_limited_example : match after live with
  | Done t => let l := applyLimiter t 6200 9000 in (l_min l, l_max l, lv_firstPart t l (l_min l), lv_totalParts t l, lv_time t l (l_min l)) = (3, 5, 13, 5, 6500)
  | _ => False end.
Proof. vm_compute. reflexivity. Qed.

(** After evictions the time reported for a part can be wrong: the search starts at key 0, whose slot by then
    holds a later key. Here part 40, of time 20000, is reported at 32000. *)
Definition more (a n : nat) : list op :=
  flat_map (fun i => map Packet [pk (2000 * Z.of_nat i) true; pk (2000 * Z.of_nat i + 500) false; pk (2000 * Z.of_nat i + 1000) false; pk (2000 * Z.of_nat i + 1500) false]) (seq a n).
Definition longer : list op := live ++ more 15 1 ++ [Evict] ++ more 16 1 ++ [Evict] ++ more 17 1 ++ [Evict] ++ more 18 1.
Lemma longer_guarded : guarded 20000 (newTrack true 4 4 4 4) longer.
Proof. vm_compute. repeat split. Qed.
Theorem meta_part_time_refuted : ~ (forall ops t j, reached true ops t -> t_del (parts t) <= j < t_end (parts t) -> getPartTime t j = time_at (accepted 0 (packets ops)) j).
Proof.
  intros H.
  destruct (got (after longer) (fun u => (t_del (parts u), t_end (parts u), getPartTime u 40)) (0, 0, 0) (20, 76, 32000)) as (t & E & Y); [vm_compute; reflexivity | discriminate |].
  injection Y as Y1 Y2 Y3.
  assert (F : fits true (accepted 0 (packets longer))).
  { apply fits_easy; [| vm_compute; lia]. clear. set (l := accepted 0 (packets longer)). vm_compute in l. unfold l. repeat constructor; cbn; lia. }
  destruct (meta_live_buffer_partial true 4 4 4 4 20000 longer t ltac:(lia) ltac:(lia) ltac:(lia) F longer_guarded E) as (R & _).
  specialize (H longer t 40 R). rewrite Y1, Y2, Y3 in H. specialize (H ltac:(lia)). vm_compute in H. discriminate H.
Qed.
Print Assumptions meta_part_time_refuted.
