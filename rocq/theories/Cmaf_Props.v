(** C61: CMAF segments. *)
From Verif Require Import Common CommonFacts Outcome_Model Mp4_Model Mp4_Spec Meta_Model Meta_Spec Meta_Proofs MetaRun_Proofs MetaMore_Proofs MetaFind_Model MetaFind_Spec MetaView_Proofs MetaFind_Proofs Meta_Props Cmaf_Model Cmaf_Spec Cmaf_Proofs.

Lemma before_nonneg {A} j (gs : list (list A)) : 0 <= before j gs.
Proof. unfold before. lia. Qed.
Lemma time_nonneg ps i : Forall packet_ok ps -> 0 <= time_at ps i.
Proof. intros H. unfold time_at. destruct (nth_error ps (Z.to_nat i)) eqn:E; [| lia]. rewrite Forall_forall in H. apply H. apply (nth_error_In _ _ E). Qed.
Lemma all_ok v ops t : reached v ops t -> small v (accepted 0 (packets ops)).
Proof. intros (a & b & c & e & _ & _ & _ & F & _). apply (F _ []). rewrite app_nil_r. reflexivity. Qed.
Lemma short_ok ps : (forall i p q, nth_error ps i = Some p -> nth_error ps (S i) = Some q -> p_time q - p_time p < 65536) ->
  forall (l : list (packet * list Z)) pre q post until, ps = pre ++ map fst l ++ q :: post -> until <= p_time q -> short l until.
Proof.
  intros H l. induction l as [| (p, x) l IH]; intros pre q post until E Q; [exact I |]. cbn [map fst app] in E. split.
  - assert (N : nth_error ps (List.length pre) = Some p) by (subst ps; rewrite nth_error_app2 by lia; rewrite Nat.sub_diag; reflexivity).
    destruct l as [| (p2, x2) l]; cbn [next_time map fst app] in *; [specialize (H _ p q N) | specialize (H _ p p2 N)];
      (match type of H with ?A -> _ => assert (N2 : A) by (subst ps; rewrite nth_error_app2 by lia; replace (S (List.length pre) - List.length pre)%nat with 1%nat by lia; reflexivity) end);
      specialize (H N2); lia.
  - apply (IH (pre ++ [p]) q post until); [rewrite <- app_assoc; exact E | exact Q].
Qed.

Local Notation after := (run (newTrack true 4 4 4 4)).

(** The packets [l] with their data, of all packets [pre ++ l ++ q :: post] a track received: what is sent before them for the
    segment from the time of the first of them up to [until], followed by their data, plays as these packets, each with its
    time, duration, offset and bytes.  [q] is the first packet not in the segment.  Missing: packets of equal times, a segment
    that starts between packets, negative offsets, and the time of the newest packet as the end. *)
Theorem cmaf_segment_partial : forall v ops t track vod utc seq from until pre l q post,
  reached v ops t ->
  let ps := accepted 0 (packets ops) in let gs := groups v ps in
  ps = pre ++ map fst l ++ q :: post -> distinct ps -> before (evictions ops) gs <= len pre ->
  (exists p d r, l = (p, d) :: r /\ p_time p = from) -> (exists r p d, l = r ++ [(p, d)] /\ p_time p < until) -> until <= p_time q ->
  (until < lasttime ps \/ until = lasttime ps /\ key_time gs (t_end (keys t) - 1) = until) ->
  Forall (fun x => len (snd x) = p_size (fst x) /\ 0 <= p_off (fst x)) l -> 12 * len l + len (List.concat (map snd l)) + 1000 < 2 ^ 31 ->
  0 <= track < 2 ^ 32 - 1 -> (match utc with Some z => 0 <= from + z < 2 ^ 64 | None => True end) ->
  exists h, segmentStart t track vod utc from until seq = Ok h /\
    play (h ++ List.concat (map snd l)) =
      Some (track + 1, shown v true (if vod then from - firstms t else match utc with Some z => from + z | None => from end) from until l).
Proof.
  intros v ops t track vod utc seq from until pre l q post R ps gs E D K (p0 & d0 & r0 & El & Ef) (rl & pl & dl & Er & Hl) Hq HT Fo B Tr Hu.
  pose proof (all_ok v ops t R) as S. destruct S as (_ & Ok & Gap & _). fold ps in Ok, Gap.
  assert (NE : ps <> []) by (intros E0; change (accepted 0 (packets ops)) with ps in E; rewrite E0 in E; destruct pre; subst l; discriminate E).
  destruct (reached_view v ops t R NE) as (W & V). pose proof (meta_tables_partial v ops t R) as TB. destruct TB as (HP & _ & _ & Hfirst & _). rewrite V in HP, Hfirst. fold ps gs in HP, Hfirst.
  pose proof (fun x => meta_part_index_partial v ops t x R NE) as PI. cbv zeta in PI. fold ps in PI. fold gs in PI.
  assert (Hft : firstms t = 0 \/ firstms t = time_at ps (before (evictions ops) gs)).
  { rewrite Hfirst. destruct (nth_error gs (evictions ops)) eqn:En; [right; apply (gtime_at v ps _ _ En) | left; reflexivity]. }
  clear W. clearbody gs. clearbody ps.
  pose proof (len_nonneg pre) as Lp. pose proof (len_nonneg l) as Ll. fold (data_of l) in *. pose proof (len_nonneg (data_of l)) as Ld. pose proof (before_nonneg (evictions ops) gs) as Z0.
  assert (Sz : Forall (fun x : packet * list Z => len (snd x) = p_size (fst x)) l) by (eapply Forall_impl; [| exact Fo]; cbn; tauto).
  assert (P : parts_are t (len pre) l (p_time q)) by (apply (parts_ok t ps _ HP Ok l pre q post E); [clear - K; unfold len in K; lia | exact Sz]).
  assert (Ri : rising l until) by (apply (rising_ok ps D Ok l pre q post until E Hq); rewrite Er, rev_app_distr; cbn; exact Hl).
  assert (Sh : short l until) by (apply (short_ok ps Gap l pre q post until E Hq)).
  assert (Qb : packet_ok q) by (rewrite Forall_forall in Ok; apply Ok; rewrite E; apply in_or_app; right; apply in_or_app; right; left; reflexivity).
  assert (Po : Forall (fun x : packet * list Z => 0 <= p_off (fst x) < 2 ^ 32) l).
  { apply Forall_forall. intros x Hx. rewrite Forall_forall in Fo, Ok. specialize (Fo x Hx). assert (In (fst x) ps) as I2 by (rewrite E; apply in_or_app; right; apply in_or_app; left; apply in_map; exact Hx). specialize (Ok _ I2). unfold packet_ok in Ok. lia. }
  assert (P0 : packet_ok p0) by (rewrite Forall_forall in Ok; apply Ok; rewrite E; apply in_or_app; right; apply in_or_app; left; subst l; left; reflexivity).
  assert (LN : from = next_time l (p_time q)) by (subst l; cbn; congruence).
  assert (LN2 : from = next_time l until) by (subst l; cbn; congruence).
  assert (Fu : from < until). { subst from. clear - Ri El. revert p0 d0 r0 El. induction l as [| (p, d) l IH]; intros p0 d0 r0 El; [discriminate |]. injection El as <- <- <-. destruct Ri as (R1 & Ri). destruct l as [| (p2, d2) l]; cbn [next_time] in *; [lia |]. specialize (IH Ri p2 d2 l eq_refl). lia. }
  assert (LenP : Z.of_nat (List.length ps) = len pre + len l + 1 + len post) by (fold (len ps); rewrite E, !len_app, len_cons; unfold len; rewrite map_length; lia).
  pose proof (len_nonneg post) as Lpost.
  assert (Ta : time_at ps (len pre) = from). { unfold len. rewrite (time_at_nth ps (List.length pre) p0); [exact Ef |]. rewrite E, nth_error_app2, Nat.sub_diag by lia. subst l. reflexivity. }
  assert (Tq : time_at ps (len pre + len l) = p_time q).
  { replace (len pre + len l) with (Z.of_nat (List.length pre + List.length l)) by (unfold len; lia). apply time_at_nth. rewrite E, nth_error_app2 by lia. replace (List.length pre + List.length l - List.length pre)%nat with (List.length (map fst l)) by (rewrite map_length; lia). rewrite nth_error_app2, Nat.sub_diag by lia. reflexivity. }
  assert (Tl : time_at ps (len pre + len l - 1) < until).
  { replace (len pre + len l - 1) with (Z.of_nat (List.length pre + List.length rl)) by (unfold len; rewrite Er, app_length; cbn [List.length]; lia). rewrite (time_at_nth ps _ pl); [exact Hl |]. rewrite E, nth_error_app2 by lia.
    replace (List.length pre + List.length rl - List.length pre)%nat with (List.length (map fst rl)) by (rewrite map_length; lia). rewrite Er, map_app, <- app_assoc. rewrite nth_error_app2, Nat.sub_diag by lia. reflexivity. }
  assert (LL : 1 <= len l) by (rewrite El, len_cons; pose proof (len_nonneg r0); lia).
  assert (Ia : getPartIndex t from = len pre).
  { apply (next_unique gs (evictions ops) ps from); [exact D | apply PI; left; destruct HT as [HT | (HT & _)]; lia | | exact Z0].
    apply next_first; [exact D | split; [exact K | lia] | exact Z0 | lia |]. intros k (K1 & K2) K3. rewrite <- Ta. apply D; [lia | unfold len in *; lia]. }
  assert (Ie : getPartIndex t until = len pre + len l).
  { apply (next_unique gs (evictions ops) ps until); [exact D | apply PI; exact HT | | exact Z0].
    apply next_first; [exact D | split; lia | exact Z0 | lia |]. intros k (K1 & K2) K3. destruct (Z.eq_dec k (len pre + len l - 1)) as [-> | N]; [exact Tl |]. specialize (D k (len pre + len l - 1) ltac:(lia) ltac:(unfold len in *; lia)). lia. }
  assert (NEl : l <> []) by (subst l; discriminate). unfold packet_ok in Qb, P0.
  unfold segmentStart. rewrite (header_ok t track vod utc from until seq (p_time q) l (len pre) NEl Ia Ie P LN Ri Sh ltac:(lia) ltac:(lia) B).
  assert (SS : segmentSize t from until = len (data_of l)). { unfold segmentSize. rewrite Ia, Ie. replace (len pre + len l - len pre) with (len l) by lia. replace (Z.to_nat (len l)) with (List.length l) by (unfold len; lia). rewrite (sum_ok t (p_time q) l _ 0 P); lia. }
  rewrite SS, V. eexists. split; [reflexivity |]. rewrite u32_id by lia.
  assert (Hf : 0 <= firstms t <= from).
  { destruct Hft as [-> | ->]; [lia |]. rewrite <- Ta. split; [apply time_nonneg; exact Ok |].
    destruct (Z.eq_dec (before (evictions ops) gs) (len pre)) as [-> | Ne]; [lia |]. specialize (D (before (evictions ops) gs) (len pre) ltac:(lia) ltac:(unfold len in *; lia)). lia. }
  replace (baseTime t vod utc from) with (if vod then from - firstms t else match utc with Some z => from + z | None => from end).
  2:{ unfold baseTime. destruct vod; [symmetry; apply u64_id; lia |]. destruct utc as [z |]; [symmetry; apply u64_id; exact Hu | reflexivity]. }
  apply play_ok; [lia | | exact Ri | exact Sh | exact B | exact Po | exact LN2]. destruct vod; [lia |]. destruct utc as [z |]; lia.
Qed.
Print Assumptions cmaf_segment_partial.

(** ** Where it fails *)
(** A run of packets of a video track that nothing was evicted from. *)
Definition plain (l : list packet) : list op := map Packet l.
Definition clip (t : Z) (k : bool) (off : Z) : packet := mkpacket t off 3 0 k 0 1.
Definition plays (t : track) (from until : Z) (l : list (packet * list Z)) : Prop :=
  exists h, segmentStart t 0 false None from until 0 = Ok h /\ play (h ++ List.concat (map snd l)) = Some (1, shown true true from from until l).
Definition played (t : out track) (from until : Z) (l : list (packet * list Z)) : option (option (Z * list sample)) :=
  match t with Done t => match segmentStart t 0 false None from until 0 with Ok h => Some (play (h ++ List.concat (map snd l))) | _ => None end | _ => None end.
Lemma plain_reached l t : accepted 0 l = l -> fits true l -> after (plain l) = Done t -> reached true (plain l) t.
Proof.
  intros A F E. exists 4, 4, 4, 4. do 3 (split; [lia |]). assert (P : packets (plain l) = l) by (clear; unfold packets, plain; induction l as [| p l IH]; cbn; [reflexivity | f_equal; exact IH]).
  split; [rewrite P, A; exact F |]. split; [| exact E].
  intros pre post Q. exfalso. assert (I : In Evict (plain l)) by (rewrite Q; apply in_or_app; right; left; reflexivity). unfold plain in I. apply in_map_iff in I as (? & ? & _). discriminate.
Qed.
Lemma plain_result ps from until l x : accepted 0 ps = ps -> Forall easy ps -> (List.length ps < 400)%nat ->
  played (after (plain ps)) from until l = x -> x <> Some (Some (1, shown true true from from until l)) -> after (plain ps) <> Quit -> after (plain ps) <> Trap ->
  exists t, reached true (plain ps) t /\ accepted 0 (packets (plain ps)) = ps /\ ~ plays t from until l.
Proof.
  intros A E L X N Q1 Q2. destruct (after (plain ps)) as [| | t] eqn:T; [congruence | congruence |]. exists t.
  assert (P : packets (plain ps) = ps) by (clear; unfold packets, plain; induction ps as [| p l IH]; cbn; [reflexivity | f_equal; exact IH]).
  split; [apply plain_reached; [exact A | apply fits_easy; assumption | exact T] |]. split; [rewrite P; exact A |].
  intros (h & H1 & H2). apply N. rewrite <- X. cbn. rewrite H1, H2. reflexivity.
Qed.
Definition with_data (ps : list packet) : list (packet * list Z) := map (fun p => (p, repeat (p_time p / 10 mod 256) 3)) ps.

Ltac easy_clip := repeat constructor; cbn; lia.

(** Two packets of the same time: only the first of them is in the table of the segment, although both are in its data and
    counted in the place of the data. *)
Theorem cmaf_same_time_refuted : ~ (forall ops t from until pre l q post, reached true ops t -> accepted 0 (packets ops) = pre ++ map fst l ++ q :: post ->
  (exists p d r, l = (p, d) :: r /\ p_time p = from) -> (exists r p d, l = r ++ [(p, d)] /\ p_time p < until) -> until <= p_time q -> until < lasttime (accepted 0 (packets ops)) ->
  Forall (fun x => len (snd x) = p_size (fst x) /\ 0 <= p_off (fst x)) l -> plays t from until l).
Proof.
  intros H. set (ps := [clip 1000 true 0; clip 1000 false 0; clip 1040 false 0; clip 1080 true 0; clip 1120 false 0]).
  destruct (plain_result ps 1000 1080 (with_data (firstn 3 ps)) (Some None)) as (t & R & A & N); [reflexivity | easy_clip | cbn; lia | vm_compute; reflexivity | discriminate | vm_compute; discriminate | vm_compute; discriminate |].
  apply N. apply (H (plain ps) t 1000 1080 [] (with_data (firstn 3 ps)) (clip 1080 true 0) [clip 1120 false 0] R); [rewrite A; reflexivity | eexists _, _, _; split; reflexivity | | cbn; lia | rewrite A; cbn; lia | easy_clip].
  exists (with_data (firstn 2 ps)), (clip 1040 false 0), (repeat 104 3). split; reflexivity.
Qed.
Print Assumptions cmaf_same_time_refuted.

(** A segment that starts between two packets: its packets are played too early, by the time from the start to the first packet. *)
Theorem cmaf_late_start_refuted : ~ (forall ops t from until pre p0 l q post, reached true ops t -> accepted 0 (packets ops) = pre ++ p0 :: map fst l ++ q :: post -> distinct (accepted 0 (packets ops)) ->
  p_time p0 < from -> (exists p d r, l = (p, d) :: r /\ from <= p_time p) -> (exists r p d, l = r ++ [(p, d)] /\ p_time p < until) -> until <= p_time q -> until < lasttime (accepted 0 (packets ops)) ->
  Forall (fun x => len (snd x) = p_size (fst x) /\ 0 <= p_off (fst x)) l -> plays t from until l).
Proof.
  intros H. set (ps := [clip 1000 true 0; clip 1040 false 0; clip 1080 false 0; clip 1120 true 0; clip 1160 false 0]).
  destruct (plain_result ps 1020 1120 (with_data (firstn 2 (skipn 1 ps))) (Some (Some (1, [mksample 1020 40 0 true [104; 104; 104]; mksample 1060 60 0 false [108; 108; 108]])))) as (t & R & A & N);
    [reflexivity | easy_clip | cbn; lia | vm_compute; reflexivity | discriminate | vm_compute; discriminate | vm_compute; discriminate |].
  apply N. apply (H (plain ps) t 1020 1120 [] (clip 1000 true 0) (with_data (firstn 2 (skipn 1 ps))) (clip 1120 true 0) [clip 1160 false 0] R); [rewrite A; reflexivity | | cbn; lia | | | cbn; lia | rewrite A; cbn; lia | easy_clip].
  - rewrite A. intros i j L1 L2. change (len ps) with 5 in L2. assert (J : j = 1 \/ j = 2 \/ j = 3 \/ j = 4) by lia. assert (I : i = 0 \/ i = 1 \/ i = 2 \/ i = 3) by lia.
    destruct J as [-> | [-> | [-> | ->]]]; destruct I as [-> | [-> | [-> | ->]]]; try lia; vm_compute; reflexivity.
  - eexists _, _, _. split; [reflexivity | cbn; lia].
  - exists (with_data (firstn 1 (skipn 1 ps))), (clip 1080 false 0), (repeat 108 3). split; reflexivity.
Qed.
Print Assumptions cmaf_late_start_refuted.

(** A negative offset is written into a table whose offsets are not signed: the packet is shown 49 days later. *)
Theorem cmaf_negative_offset_refuted : ~ (forall ops t from until pre l q post, reached true ops t -> accepted 0 (packets ops) = pre ++ map fst l ++ q :: post ->
  (exists p d r, l = (p, d) :: r /\ p_time p = from) -> (exists r p d, l = r ++ [(p, d)] /\ p_time p < until) -> until <= p_time q -> until < lasttime (accepted 0 (packets ops)) ->
  Forall (fun x => len (snd x) = p_size (fst x)) l -> plays t from until l).
Proof.
  intros H. set (ps := [clip 1000 true (-1); clip 1040 false 0; clip 1080 false 0; clip 1120 true 0; clip 1160 false 0]).
  destruct (plain_result ps 1000 1080 (with_data (firstn 2 ps)) (Some (Some (1, [mksample 1000 40 4294967295 true [100; 100; 100]; mksample 1040 40 0 false [104; 104; 104]])))) as (t & R & A & N);
    [reflexivity | easy_clip | cbn; lia | vm_compute; reflexivity | discriminate | vm_compute; discriminate | vm_compute; discriminate |].
  apply N. apply (H (plain ps) t 1000 1080 [] (with_data (firstn 2 ps)) (clip 1080 false 0) [clip 1120 true 0; clip 1160 false 0] R); [rewrite A; reflexivity | eexists _, _, _; split; reflexivity | | cbn; lia | rewrite A; cbn; lia | easy_clip].
  exists (with_data (firstn 1 ps)), (clip 1040 false 0), (repeat 104 3). split; reflexivity.
Qed.
Print Assumptions cmaf_negative_offset_refuted.

(** A segment that ends at the time of the newest packet: the header announces that packet too, which is not sent. *)
Theorem cmaf_newest_refuted : ~ (forall ops t from until pre l q post, reached true ops t -> accepted 0 (packets ops) = pre ++ map fst l ++ q :: post ->
  (exists p d r, l = (p, d) :: r /\ p_time p = from) -> (exists r p d, l = r ++ [(p, d)] /\ p_time p < until) -> until <= p_time q -> until <= lasttime (accepted 0 (packets ops)) ->
  Forall (fun x => len (snd x) = p_size (fst x) /\ 0 <= p_off (fst x)) l -> plays t from until l).
Proof.
  intros H. set (ps := [clip 1000 true 0; clip 1040 false 0; clip 1080 false 0; clip 1120 true 0; clip 1160 false 0]).
  destruct (plain_result ps 1120 1160 (with_data (skipn 3 (firstn 4 ps))) (Some None)) as (t & R & A & N); [reflexivity | easy_clip | cbn; lia | vm_compute; reflexivity | discriminate | vm_compute; discriminate | vm_compute; discriminate |].
  apply N. apply (H (plain ps) t 1120 1160 (firstn 3 ps) (with_data (skipn 3 (firstn 4 ps))) (clip 1160 false 0) [] R); [rewrite A; reflexivity | eexists _, _, _; split; reflexivity | | cbn; lia | rewrite A; cbn; lia | easy_clip].
  exists [], (clip 1120 true 0), (repeat 112 3). split; reflexivity.
Qed.
Print Assumptions cmaf_newest_refuted.

(** A segment without packets: the first of an empty set is read, whose effect is undefined.  The warning about this case
    comes after that. *)
Theorem cmaf_empty_refuted : ~ (forall ops t from until, reached true ops t -> firstms t <= from -> from < until -> until <= lastms t ->
  exists h, segmentStart t 0 false None from until 0 = Ok h).
Proof.
  intros H. set (ps := [clip 1000 true 0; clip 1040 false 0; clip 1080 false 0]).
  destruct (got (after (plain ps)) (fun t => (segmentStart t 0 false None 1050 1060 0, firstms t, lastms t)) (Stuck, 0, 0) (Ub, 1000, 1080)) as (t & E & Y); [vm_compute; reflexivity | discriminate |].
  pose proof (f_equal (fun z => fst (fst z)) Y) as Y1. pose proof (f_equal (fun z => snd (fst z)) Y) as Y2. pose proof (f_equal snd Y) as Y3. cbv beta iota delta [fst snd] in Y1, Y2, Y3. clear Y.
  assert (R : reached true (plain ps) t) by (apply plain_reached; [reflexivity | apply fits_easy; [easy_clip | cbn; lia] | exact E]).
  destruct (H (plain ps) t 1050 1060 R) as (h & Hh); [rewrite Y2; lia | lia | rewrite Y3; lia |]. rewrite Y1 in Hh. discriminate Hh.
Qed.
Print Assumptions cmaf_empty_refuted.

(** ** The hypotheses are met *)
(** The live stream of Meta_Props.v after two evictions: the key of four packets at 4000. *)
Definition chunk : list (packet * list Z) := map (fun p => (p, repeat (p_time p / 500) 100)) [pk 4000 true; pk 4500 false; pk 5000 false; pk 5500 false].
Example cmaf_segment_example : exists t h, reached true live t /\ segmentStart t 1 false None 4000 6000 7 = Ok h /\ len h = 156 /\
  play (h ++ List.concat (map snd chunk)) = Some (2, [mksample 4000 500 0 true (repeat 8 100); mksample 4500 500 0 false (repeat 9 100); mksample 5000 500 0 false (repeat 10 100); mksample 5500 500 0 false (repeat 11 100)]).
Proof.
  destruct meta_live_example as (t & E & R & Ev & _).
  destruct (got (after live) (fun t => match segmentStart t 1 false None 4000 6000 7 with Ok h => len h | _ => 0 end) 0 156) as (t' & E' & L); [vm_compute; reflexivity | discriminate |].
  assert (t' = t) by congruence. subst t'. exists t.
  destruct (cmaf_segment_partial true live t 1 false None 7 4000 6000 (firstn 8 (accepted 0 (packets live))) chunk (pk 6000 true) (skipn 13 (accepted 0 (packets live))) R) as (h & H1 & H2).
  - vm_compute. reflexivity.
  - intros i j L1 L2. set (ps := accepted 0 (packets live)) in *. vm_compute in ps. change (len ps) with 60 in L2.
    assert (Q : forall k : nat, (k < 60)%nat -> time_at ps (Z.of_nat k) = 500 * Z.of_nat k) by (intros k Hk; do 60 (destruct k as [| k]; [reflexivity |]); lia).
    rewrite <- (Z2Nat.id i), <- (Z2Nat.id j) by lia. rewrite !Q by lia. lia.
  - vm_compute. discriminate.
  - eexists _, _, _. split; reflexivity.
  - exists (firstn 3 chunk), (pk 5500 false), (repeat 11 100). split; reflexivity.
  - cbn. lia.
  - left. vm_compute. reflexivity.
  - easy_clip.
  - vm_compute. reflexivity.
  - lia.
  - exact I.
  - exists h. split; [exact R |]. split; [exact H1 |]. split; [rewrite H1 in L; exact L |]. rewrite H2. vm_compute. reflexivity.
Qed.
