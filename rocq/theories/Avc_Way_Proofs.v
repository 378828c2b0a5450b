(** Proofs about H264 and HEVC frames all the way through a transport stream. *)
From Verif Require Import Common CommonFacts CommonMore Mem_Model Mem_Proofs Nal_Model Nal_Spec Nal_Proofs Ts_Model Ts_Spec Ts_Proofs Ts_Mux_Proofs Ts_Pes_Proofs Ts_Demux_Proofs Outcome_Model Scan_Model Dtmi_Spec Dtmi_Proofs Dtsc_Model Dtsc_Spec Dtsc_Proofs DtscOps_Proofs Avcc_Model Avcc_Spec Avcc_Proofs Avc_Model Avc_Spec Avc_Send_Proofs Avc_Recv_Proofs Avc_Frames_Proofs.
Import List.
Ltac Zify.zify_post_hook ::= Z.div_mod_to_equations.

(** ** Any PES packets through the multiplexer and the demultiplexer *)
Definition goes (x : meta * list (list Z)) (off : Z) (data : list Z) : Prop :=
  frame_in x /\ concat (snd x) <> [] /\ forall k, parses (S (S k)) (concat (snd x)) (ms_of (90 * time (fst x))) off data.
Lemma sent_goes p k : forall l c pks offs, Forall2 (fun x o => goes x (fst o) (snd o)) l offs -> Forall (fun x => pid (fst x) = p) l -> sent c l pks ->
  exists frs, filter (fun b => getPID b =? p) (concat pks) = concat (map fpack frs) /\ Forall (fr_ok (S (S k))) frs /\
  map fraw frs = map (fun t => ms_of (90 * t)) (map (fun x => time (fst x)) l) /\ map (fun x => (foff x, fdata x)) frs = offs.
Proof.
  induction l as [|x l IH]; intros c pks offs HF HP HS; inversion HS as [|? f ch pk r pks' P1 P2 P3]; subst; inversion HF as [|? [o dd] ? offs' HX HR]; subst.
  - exists []. repeat split; constructor.
  - inversion HP as [|? ? HP1 HP2]; subst. cbn [fst snd] in *. destruct (IH _ _ _ HR HP2 P3) as (frs & F1 & F2 & F3 & F4). cbn [concat filter]. rewrite filter_app, (filter_pack _ _ _ _ (pid f) P1), F1, Z.eqb_refl.
    destruct HX as (X1 & X2 & X3). cbn [fst snd] in *.
    exists (mkfr pk (concat ch) (ms_of (90 * time f)) o dd :: frs). cbn [map concat fpack fraw foff fdata fst]. split; [reflexivity|].
    split; [|split; [now rewrite F3|now rewrite F4]]. constructor; [|exact F2]. split; [|split; [exact X2|exact (X3 k)]].
    exists f, (c (pid f)). exact P1.
Qed.
Definition heard (l : list (meta * list (list Z))) (offs : list (Z * list Z)) : list (Z * Z * list Z) :=
  map (fun '(x, o) => (unwrapped (time (fst x)), fst o, snd o)) (combine l offs).
Lemma goes_through p k l offs c : Forall2 (fun x o => goes x (fst o) (snd o)) l offs -> Forall (fun x => pid (fst x) = p) l -> (forall q, c q = u16 (c q)) -> steady_times (map (fun x => time (fst x)) l) ->
  exists m d d', send_all l c mux0 = Some m /\ parse_all (S (S k)) (filter (fun b => getPID b =? p) (msent m)) demux0 = Ts_Model.Ok d /\ finish (S (S k)) d = Ts_Model.Ok d' /\
  outp d' = heard l offs.
Proof.
  intros HF HP HC HS. assert (FI : Forall frame_in l) by (clear - HF; induction HF as [|x o l offs (H & _) _ IH]; constructor; assumption).
  destruct (send_all_ok l c mux0 FI HC eq_refl) as (m & pks & E1 & E2 & E3).
  cbn [msent mux0 app] in E2. destruct (sent_goes p k l c pks offs HF HP E3) as (frs & F1 & F2 & F3 & F4). rewrite <- E2 in F1.
  assert (HU : Forall (fun t => 90 * t < 2 ^ 64) (map (fun x => time (fst x)) l)).
  { apply Forall_forall. intros t Ht. apply in_map_iff in Ht. destruct Ht as (x & <- & Hx). rewrite Forall_forall in FI. destruct (FI x Hx) as [(_ & M1 & M2) _]. lia. }
  pose proof (produced_times0 frs _ HS HU F3) as PT.
  assert (OUT : outp (produced frs demux0) = heard l offs).
  { rewrite PT. apply (f_equal (@length _)) in F3. rewrite !map_length in F3. subst offs. clear - F3. unfold heard. revert l F3. induction frs as [|y frs IH]; intros [|x l] F3; try discriminate; [reflexivity|].
    cbn [map combine fst snd]. f_equal. apply IH. cbn [length] in F3. lia. }
  destruct frs as [|y frs].
  - exists m, demux0, demux0. rewrite F1. split; [exact E1|]. split; [reflexivity|]. split; [reflexivity|exact OUT].
  - destruct (demux_all (S (S k)) (y :: frs) F2 ltac:(discriminate)) as (d & D1 & D2). exists m, d, (produced (y :: frs) demux0). rewrite F1. repeat split; assumption.
Qed.
Lemma unwrapped_rises a b : 0 <= a < b -> unwrapped a < unwrapped b.
Proof.
  intros H. unfold unwrapped. set (k := 90 * a / 2 ^ 33). set (j := 90 * b / 2 ^ 33).
  assert (Ea : 90 * a mod 2 ^ 33 = 90 * a - 2 ^ 33 * k) by (unfold k; rewrite Z.mod_eq by lia; reflexivity).
  assert (Eb : 90 * b mod 2 ^ 33 = 90 * b - 2 ^ 33 * j) by (unfold j; rewrite Z.mod_eq by lia; reflexivity).
  assert (k <= j) by (apply Z.div_le_mono; lia). rewrite Ea, Eb. change (2 ^ 33) with 8589934592. clearbody k j. clear - H H0. lia.
Qed.

(** ** Video *)
Definition frame_of (p : Z) (x : travel) (init : list Z) (bps : Z) : frame := mkframe (mkmeta true (t_key x) p (t_time x)) init (t_off x) bps (length_prefixed (t_units x)).
Lemma sent_good hevc x : travel_ok hevc x -> Forall unit_in (t_units x).
Proof.
  intros (_ & _ & _ & _ & _ & _ & _ & F & _). unfold t_sent, sent_units in F.
  assert (G : Forall nal_ok (sent_units hevc (t_key x) (t_sets x) (t_units x))) by (clear - F; unfold sent_units in *; induction F as [|u k us ks [U _] _ IH]; constructor; assumption).
  unfold sent_units in G. apply Forall_app in G as [_ G]. apply Forall_app in G as [_ G]. eapply Forall_impl; [|exact G]. intros u (U1 & U2 & _). now split.
Qed.
Lemma travel_goes hevc p x init bps : 0 <= p < 8192 -> travel_ok hevc x -> init_for hevc init (t_sets x) ->
  exists c, sendVideo hevc (frame_of p x init bps) = Ok (mkmeta true (t_key x) p (t_time x), c) /\ goes (mkmeta true (t_key x) p (t_time x), c) (t_off x) (started (t_sent hevc x)).
Proof.
  intros HP T I. pose proof (sent_good _ _ T) as G. destruct T as (T1 & T2 & T3 & T4 & T5 & T6 & T7 & T8 & T9).
  assert (T64 : 90 * (t_time x + t_off x) < 2 ^ 64).
  { assert (0 <= 90 * t_time x mod 2 ^ 33) by (apply Z.mod_pos_bound; lia). lia. }
  destruct (video_chunks_ok hevc (t_key x) init (t_sets x) (t_units x) (t_time x) (t_off x) bps I G T7) as (cs & E & C & CC); try assumption; [rewrite lp_len; lia|].
  exists cs. unfold sendVideo. cbn [frame_of fmeta finit foffset fbps fdat keyframe time].
  assert (EU : u64 (t_time x * 90) = 90 * t_time x) by (unfold u64; rewrite Z.mod_small by lia; lia). rewrite EU, E. split; [reflexivity|].
  split; [split; [repeat split; cbn [fst pid time]; lia|exact C]|]. cbn [snd fst time]. rewrite CC. split; [unfold pes; discriminate|].
  change (payload_of hevc (t_key x) (t_sets x) (t_units x)) with (started (t_sent hevc x)).
  intros k d. destruct (rate_ok bps) as [R1 R2].
  assert (OF : (90 * t_time x + 90 * t_off x) mod 2 ^ 33 = 90 * t_time x mod 2 ^ 33 + 90 * t_off x).
  { rewrite Z.add_mod by lia. assert (0 <= 90 * t_time x mod 2 ^ 33) by (apply Z.mod_pos_bound; lia). rewrite (Z.mod_small (90 * t_off x)) by lia. apply Z.mod_small. lia. }
  assert (MS : ms_of (90 * t_time x + 90 * t_off x) = ms_of (90 * t_time x) + t_off x).
  { unfold ms_of. rewrite OF. replace (90 * t_time x mod 2 ^ 33 + 90 * t_off x) with (90 * t_time x mod 2 ^ 33 + t_off x * 90) by lia. apply Z.div_add. lia. }
  assert (D : dts_of (90 * t_time x + 90 * t_off x) (if t_off x =? 0 then None else Some (90 * t_time x)) = 90 * t_time x) by (destruct (Z.eqb_spec (t_off x) 0); cbn [dts_of]; lia).
  set (P := started (t_sent hevc x)). 
  assert (LP : len P <= len (started (t_units x)) + len (started (t_sets x)) + 6).
  { unfold P, t_sent, sent_units. rewrite !started_app, !len_app. pose proof (len_nonneg (started (t_sets x))). destruct (hevc || existsb is_delimiter _), (t_key x && _); change (len (started [])) with 0; change (len (started [delimiter])) with 6; lia. }
  assert (BP : bytesP P).
  { unfold P. clear - T8. induction T8 as [|u k us ks [(U & _) _] _ IH]; [constructor|]. unfold started. cbn [flat_map]. apply Forall_app. split; [|exact IH]. apply Forall_app. split; [now apply all_bytes_ok|exact U]. }
  pose proof (pes_one 0xE0 (bounded_pes P) true (90 * t_time x + 90 * t_off x) (if t_off x =? 0 then None else Some (90 * t_time x)) (rate_bytes bps) P d k R2) as Q.
  rewrite D, MS in Q. replace (ms_of (90 * t_time x) + t_off x - ms_of (90 * t_time x)) with (t_off x) in Q by lia.
  destruct (unroll (ms_of (90 * t_time x)) (lastms d) (rollover d)) as [ts roll]. apply Q; try assumption; [unfold bounded_pes; lia|lia|].
  intros y Hy. destruct (t_off x =? 0); [discriminate|]. assert (y = 90 * t_time x) by congruence. subst y. lia.
Qed.
Lemma travels_go hevc p : forall l inits bpss, 0 <= p < 8192 -> Forall (travel_ok hevc) l -> Forall2 (fun x i => init_for hevc i (t_sets x)) l inits -> length bpss = length l ->
  exists cs, sendVideos hevc (map (fun '(x, (i, b)) => frame_of p x i b) (combine l (combine inits bpss))) = Ok cs /\
  Forall2 (fun x o => goes x (fst o) (snd o)) cs (map (fun x => (t_off x, started (t_sent hevc x))) l) /\ Forall (fun x => pid (fst x) = p) cs /\ map (fun x => time (fst x)) cs = map t_time l.
Proof.
  induction l as [|x l IH]; intros inits bpss HP F I L; inversion I as [|? i ? inits' I1 I2]; subst; destruct bpss as [|b bpss]; try discriminate; cbn [combine map sendVideos].
  - exists []. repeat split; constructor.
  - inversion F as [|? ? F1 F2]; subst. destruct (travel_goes hevc p x i b HP F1 I1) as (c & E & G). destruct (IH inits' bpss HP F2 I2 ltac:(cbn [length] in L; lia)) as (cs & E' & G' & P' & T').
    rewrite E, E'. eexists. split; [reflexivity|]. split; [constructor; assumption|]. split; [constructor; [reflexivity|assumption]|]. cbn [map fst time]. now rewrite T'.
Qed.
Lemma started_annexb us : started us = annexb (map (pair true) us).
Proof. unfold started, annexb. induction us as [|u us IH]; [reflexivity|]. cbn [flat_map map fst snd start_code]. now rewrite IH. Qed.
Lemma map_snd_pair (us : list (list Z)) : map snd (map (pair true) us) = us.
Proof. induction us as [|u us IH]; [reflexivity|]. cbn [map snd]. now rewrite IH. Qed.
Definition on_arrival (hevc : bool) (x : travel) : arrival := at_time hevc x (unwrapped (t_time x)).
Lemma heard_placed hevc : forall l (cs : list (meta * list (list Z))), map (fun x => time (fst x)) cs = map t_time l ->
  placed (heard cs (map (fun x => (t_off x, started (t_sent hevc x))) l)) (map t_pos l) = map of_arrival (map (on_arrival hevc) l).
Proof.
  induction l as [|x l IH]; intros [|c cs] E; try discriminate; [reflexivity|]. cbn [map] in E. assert (E1 : time (fst c) = t_time x) by congruence. assert (E2 : map (fun x => time (fst x)) cs = map t_time l) by congruence.
  unfold heard. cbn [map combine placed fst snd]. f_equal; [|apply (IH cs E2)]. unfold of_arrival, on_arrival, at_time. cbn [a_time a_off a_pos a_units]. now rewrite E1, started_annexb.
Qed.
Lemma arrival_fine hevc tid x : 0 <= tid < 2 ^ 32 -> travel_ok hevc x -> arrival_ok hevc tid (on_arrival hevc x).
Proof.
  intros HT T. pose proof T as (T1 & T2 & T3 & T4 & T5 & T6 & T7 & T8 & T9). unfold on_arrival, at_time, arrival_ok. cbn [a_time a_off a_pos a_units a_keys].
  pose proof (unwrapped_close (t_time x) T1). assert (90 * t_time x / 2 ^ 33 <= t_time x) by (apply Z.div_le_upper_bound; lia). assert (0 <= 90 * t_time x mod 2 ^ 33) by (apply Z.mod_pos_bound; lia).
  split; [lia|]. split; [lia|]. split; [exact HT|]. split; [exact T5|]. split.
  - unfold t_sent, sent_units. rewrite !map_app. intros Q. apply app_eq_nil in Q as [_ Q]. apply app_eq_nil in Q as [_ Q]. destruct (t_units x); [congruence|discriminate].
  - split; [clear - T8; induction T8 as [|u k us ks H _ IH]; constructor; assumption|]. rewrite <- started_annexb.
    unfold t_sent, sent_units. rewrite !started_app, !len_app. pose proof (len_nonneg (started (t_sets x))). destruct (hevc || existsb is_delimiter _), (t_key x && _); change (len (started [])) with 0; change (len (started [delimiter])) with 6; lia.
Qed.
Lemma rising_apart hevc : forall l, rising (map t_time l) -> Forall (travel_ok hevc) l -> apart (map (on_arrival hevc) l).
Proof.
  induction l as [|x l IH]; intros R F; [exact I|]. inversion F as [|? ? F1 F2]; subst. cbn [map rising] in R. destruct R as [R1 R2]. cbn [map apart]. split; [|now apply IH].
  destruct l as [|y l]; [exact I|]. cbn [map] in *. pose proof (unwrapped_rises (t_time x) (t_time y)) as U. destruct F1 as (T1 & _). unfold on_arrival, at_time. cbn [a_time]. lia.
Qed.
Lemma newest_last ty us : newest false ty us None = last_of ty us.
Proof. reflexivity. Qed.
Lemma all_frames junk tid hevc l : byteP junk -> Forall (arrival_ok hevc tid) l -> apart l ->
  exists s, returns (fun fuel => s <~ parseVideos junk fuel tid hevc true (map of_arrival l) rcv0;; flush fuel s) s /\ r_bp s = None /\
  Forall2 reports (r_out s) (flagged tid (match l with x :: _ => first_key x | [] => false end) l) /\
  r_sps s = newest hevc 7 (units_of l) None /\ r_pps s = newest hevc 8 (units_of l) None.
Proof.
  intros J F A. destruct l as [|x l].
  - exists rcv0. split; [apply returns_ok|]. split; [reflexivity|]. split; [constructor|split; reflexivity].
  - inversion F as [|? ? X F']; subst. destruct (proj1 (frame_steps junk J tid hevc x rcv0 X) eq_refl) as (s1 & R1 & C1 & O1 & S1 & S2).
    destruct (frames_steps junk J tid hevc l x (first_key x) s1 X F' A C1) as (s2 & ps & p & R2 & O2 & B2 & (y & C2 & N2 & L2) & RS & S3 & S4).
    pose proof (flush_ok s2 p y B2 C2 N2 L2) as R3.
    exists (mkrcv None (r_out s2 ++ [p]) (r_sps s2) (r_pps s2)). split.
    { apply (returns_ext _ (fun fuel => s <~ (s' <~ parseVideo junk fuel tid hevc (a_time x) (a_off x) (a_pos x) true (annexb (a_units x)) rcv0;; parseVideos junk fuel tid hevc true (map of_arrival l) s');; flush fuel s)); [reflexivity|].
      eapply (returns_bind _ (fun s fuel => flush fuel s)); [|exact R3]. exact (returns_bind _ (fun s fuel => parseVideos junk fuel tid hevc true (map of_arrival l) s) _ _ R1 R2). }
    split; [reflexivity|]. cbn [r_out r_sps r_pps]. split; [rewrite O2, O1; cbn [r_out rcv0 app]; exact RS|].
    unfold units_of in *. cbn [flat_map]. rewrite !newest_app, S3, S4, S1, S2. split; reflexivity.
Qed.
Lemma units_on hevc l : units_of (map (on_arrival hevc) l) = flat_map (t_sent hevc) l.
Proof. unfold units_of. induction l as [|x l IH]; [reflexivity|]. cbn [map flat_map]. rewrite IH. f_equal. apply map_snd_pair. Qed.
