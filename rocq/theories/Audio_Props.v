(** C63: audio frames in transport streams and AAC files. *)
From Verif Require Import Common CommonFacts Bits Outcome_Model Audio_Model Audio_Spec Audio_Proofs.

(** The fields of a header are read as they were written, whatever follows. *)
Theorem adts_fields : forall f rest, good f ->
  let d := frame_bytes f ++ rest in
  valid d = Ok true /\ getAACProfile d = Ok (f_profile f + 1) /\ getFrequency d = Ok (hertz f) /\ getChannelCount d = Ok (channels f) /\
  getHeaderSize d = Ok (header_length f) /\ getCompleteSize d = Ok (len (frame_bytes f)) /\ getSampleCount d = Ok (samples f) /\
  getPayload d = Ok (f_data f) /\ getInit d = Ok (specific_config (f_profile f + 1) (f_rate f) (f_channels f) 0).
Proof.
  intros f rest G d. pose proof (good_len f G) as (LB & _). rewrite LB. split; [unfold d; rewrite frame_app; apply hdr_valid; auto using head_fits_app |].
  assert (P : getPayload d = Ok (f_data f)) by (apply frame_payload; exact G). unfold d in *. rewrite frame_app in *.
  rewrite hdr_profile, hdr_freq, hdr_channels, hdr_head, hdr_size, hdr_samples, init_ok, P by exact G.
  split; [reflexivity |]. split; [reflexivity |]. split; [reflexivity |]. split; [reflexivity |]. split; [reflexivity |]. split; [reflexivity |]. split; reflexivity.
Qed.
(** Frames sent in PES packets, cut anywhere but within a header: each is put out once, in order, with the data and the time it
    has; what the track is said to be is what the last frame says. *)
Theorem aac_stream_partial : forall l out o, sent None l out o ->
  exists t, parse_all_aac track0 l = Ok (map (fun '(time, bpos, f) => Frame (u64 time) bpos (f_data f)) out, t) /\
    forall rest f time bpos, out = rest ++ [(time, bpos, f)] ->
      exists d, t_info t = Some d /\ getInit d = Ok (specific_config (f_profile f + 1) (f_rate f) (f_channels f) 0) /\ getFrequency d = Ok (hertz f) /\ getChannelCount d = Ok (channels f).
Proof.
  intros l out o S. destruct (sent_ok _ _ _ _ S track0 eq_refl I) as (t & E & _ & _ & _ & L). exists t. split.
  - exact E.
  - intros rest f time bpos ->. assert (TL : tells (t_info t) f). { apply L. rewrite map_app. cbn [map]. rewrite last_app. reflexivity. }
    destruct TL as (d & ID & g & r & G & -> & HL & A). exists (hdr g ++ r). split; [exact ID |]. rewrite init_ok, hdr_freq, hdr_channels by exact G.
    unfold alike in A. apply andb_prop in A as [A A3]. apply andb_prop in A as [A1 A2]. apply Z.eqb_eq in A1, A2, A3. unfold hertz, channels. rewrite A1, A2, A3. split; [reflexivity |]. split; reflexivity.
Qed.
(** What [sent] says: the bytes of the packets are those of the frames, then the part sent of the open one. *)
Theorem aac_sent_bytes : forall l out o, sent None l out o ->
  List.concat (map snd l) = List.concat (map (fun p => frame_bytes (snd p)) out) ++ (match o with None => [] | Some (_, _, x, _) => x end).
Proof. intros l out o S. destruct (sent_bytes _ _ _ _ S) as [E | (f & b & x & y & Q & _)]; [exact E | discriminate]. Qed.
(** What is sent to players: the header from init data makes the data an ADTS frame with the fields of the init data. *)
Theorem aac_header_partial : forall objtype rate chan flags more data, 1 <= objtype <= 4 -> 0 <= rate < 13 -> 0 < chan < 8 -> 0 <= flags < 8 -> len data + 7 < 8192 ->
  getAudioHeader (len data) (specific_config objtype rate chan flags ++ more) ++ data = frame_bytes (mkframe 0 0 None (objtype - 1) rate 0 chan 0 2047 0 data).
Proof. exact header_ok. Qed.
(** Init data says what it says. *)
Theorem aac_config : forall conf objtype rate chan flag rest, bytesP conf -> conf_good objtype rate chan flag -> bits conf = conf_bits objtype rate chan flag ++ rest ->
  asc_objtype conf = objtype /\ asc_rate conf = (match rate with inl i => nthz rates i | inr hz => hz end) /\
  asc_channels conf = (if (chan =? 0) || (6 <? chan) then 8 else chan) /\ asc_samples conf = (if flag =? 1 then 960 else 1024).
Proof. exact conf_ok. Qed.
Theorem aac_config_of_header : forall f rest, good f -> exists conf, getInit (frame_bytes f ++ rest) = Ok conf /\
  asc_objtype conf = f_profile f + 1 /\ asc_rate conf = hertz f /\ asc_channels conf = channels f /\ asc_samples conf = 1024.
Proof.
  intros f rest G. rewrite frame_app, init_ok by exact G. eexists. split; [reflexivity |]. destruct G as (?&?&?&P&R&?&C&?&?&?&?&?).
  destruct (config_bits (f_profile f + 1) (f_rate f) (f_channels f) 0) as [B E]; try lia.
  assert (CG : conf_good (f_profile f + 1) (inl (f_rate f)) (f_channels f) (0 / 4)) by (change (0 / 4) with 0; unfold conf_good; lia).
  destruct (conf_ok _ _ _ _ _ _ B CG E) as (A1 & A2 & A3 & A4). rewrite A1, A2, A3, A4. split; [reflexivity |]. split; [reflexivity |]. split; [| reflexivity].
  unfold channels. destruct (Z.eqb_spec (f_channels f) 0); [lia |]. cbn [orb]. destruct (Z.ltb_spec 6 (f_channels f)), (Z.eqb_spec (f_channels f) 7); lia || reflexivity.
Qed.
(** Sent and received: the data of a packet, put in a transport stream, comes back with its time; so does the init data, but for
    its last flags and what follows them. *)
Theorem aac_through_ts : forall objtype rate chan flags more data ts bpos, 1 <= objtype <= 4 -> 0 <= rate < 13 -> 0 < chan < 8 -> 0 <= flags < 8 -> data <> [] -> len data + 7 < 8192 -> 0 <= ts < 2 ^ 64 ->
  exists t d, parse_all_aac track0 [(ts, bpos, getAudioHeader (len data) (specific_config objtype rate chan flags ++ more) ++ data)] = Ok ([Frame ts bpos data], t) /\
    t_info t = Some d /\ getInit d = Ok (specific_config objtype rate chan 0).
Proof.
  intros ot rate chan fl more data ts bpos O R C F N L T. rewrite header_ok by assumption. set (f := mkframe 0 0 None (ot - 1) rate 0 chan 0 2047 0 data).
  assert (G : good f) by (unfold good, frame_length, header_length; cbn [f f_id f_layer f_crc f_profile f_rate f_private f_channels f_flags f_fullness f_blocks f_data]; repeat split; try lia; exact N).
  assert (S : sent None [(ts, bpos, List.concat (map frame_bytes [f]) ++ [])] (timed ts bpos [f] ++ []) None) by (apply (sent_frames [f] [] None ts bpos [] [] None); [constructor; [exact G | constructor] | constructor | constructor]).
  destruct (aac_stream_partial _ _ _ S) as (t & E & I). destruct (I [] f ts bpos eq_refl) as (d & D & IN & _). exists t, d.
  cbn [map List.concat] in E. rewrite !app_nil_r in E. rewrite E. cbn [timed map]. rewrite u64_id by lia. split; [reflexivity |]. split; [exact D |].
  rewrite IN. cbn [f_profile f_rate f_channels f]. replace (ot - 1 + 1) with ot by lia. reflexivity.
Qed.
(** The clock: the n-th frame of 1024 samples, whose time is known in milliseconds only, is sent with its exact time; any other
    time is moved by less than a frame, and times stay in order. *)
Theorem aac_clock : forall n freq, 0 <= n < 2 ^ 36 -> 1000 <= freq <= 255000 -> align (90 * (n * 1024 * 1000 / freq)) freq = n * 1024 * 90000 / freq.
Proof. intros n freq N F. replace (n * 1024 * 1000) with (n * 1024000) by lia. apply align_frame; assumption. Qed.
Theorem aac_clock_near : forall t freq, 0 <= t -> 0 < freq -> t * freq + 2 ^ 40 < 2 ^ 64 ->
  align t freq * freq <= t * freq + 256 * 90000 /\ t * freq < align t freq * freq + 768 * 90000 + freq.
Proof. exact align_near. Qed.
Theorem aac_clock_order : forall t t' freq, 0 <= t <= t' -> 0 < freq -> t' * freq + 2 ^ 40 < 2 ^ 64 -> align t freq <= align t' freq.
Proof. exact align_mono. Qed.
(** A file of frames: each is a packet, its time that of the frames before it, its position one behind its offset. *)
Fixpoint file_packets (ts pos : Z) (l : list frame) : list (Z * Z * list Z) :=
  match l with [] => [] | f :: l => (ts, pos + 1, f_data f) :: file_packets (ts + lasts f) (pos + len (frame_bytes f)) l end.
Theorem aac_file_read_partial : forall l, Forall good l -> aac_file (List.concat (map frame_bytes l)) = Ok (file_packets 0 0 l).
Proof.
  intros l G. rewrite file_ok by exact G. f_equal. generalize 0 at 1 3. generalize 0. induction G as [| f l G GL IH]; intros p ts; [reflexivity |].
  cbn [in_file file_packets]. pose proof (good_len f G) as (LB & _). rewrite LB, IH. reflexivity.
Qed.
(** Opus: the access units of a PES packet come out in order, each at the time of the packet and as many whole milliseconds as
    those before it last. *)
Theorem opus_stream_partial : forall l ts bpos, Forall unit_good l -> Forall (fun '(t, _, _) => 0 <= t < 2 ^ 64) (opus_timed ts bpos l) ->
  parse_opus ts bpos (List.concat (map unit_bytes l)) = Ok (opus_timed ts bpos l).
Proof. intros l ts bpos. apply opus_ok. Qed.
Theorem opus_through_ts : forall d ts bpos, bytesP d -> d <> [] -> (nthz d 0 mod 4 = 3 -> 2 <= len d) -> 0 <= ts < 2 ^ 64 -> parse_opus ts bpos (opus_lead (len d) ++ d) = Ok [(ts, bpos, d)].
Proof.
  intros d ts bpos B N C T. rewrite opus_lead_ok. set (u := mkunit None None None d). assert (G : unit_good u).
  { unfold u, unit_good. cbn [u_start u_end u_ext u_data]. repeat split; auto. destruct d as [| b r]; [congruence |]. intros M E. subst r. specialize (C M). cbn in C. lia. }
  pose proof (opus_ok [u] ts bpos) as Q. cbn [map List.concat opus_timed] in Q. rewrite app_nil_r in Q. apply Q; [constructor; [exact G | constructor] |]. constructor; [exact T | constructor].
Qed.
(** Whatever the bytes, a header of more than one byte is looked at without reading outside of it. *)
Theorem adts_any : forall d, len d <> 1 -> exists b, valid d = Ok b.
Proof. exact valid_total. Qed.

(** ** What does not hold. *)
(** A packet that ends within a header, or with any byte that is not part of a frame: the byte behind its end is read (and the
    frame is lost). *)
Theorem aac_header_cut_refuted : forall t ts bpos p, r_len (t_rem t) = 0 -> 0 < len p < 7 -> parse_aac t ts bpos p = Ub.
Proof. intros t ts bpos p R L. unfold parse_aac. rewrite R. cbn [negb Z.eqb]. apply tail_ub; [lia | lia |]. unfold len. lia. Qed.
Definition sample : frame := mkframe 0 0 None 1 4 0 2 0 2047 0 [1; 2; 3; 4].
Definition empty : frame := mkframe 0 0 None 1 4 0 2 0 2047 0 [].
(** A frame without data makes a packet without content. *)
Theorem aac_empty_refuted : exists t, parse_aac track0 1000 0 (frame_bytes empty ++ frame_bytes sample) = Ok ([Nothing; Frame 1000 0 [1; 2; 3; 4]], t).
Proof. eexists. vm_compute. reflexivity. Qed.
(** A frame that ends in a packet of time zero is put out at the end of time. *)
Theorem aac_wrap_refuted : exists t, parse_all_aac track0 [(0, 0, takez 8 (frame_bytes sample)); (0, 188, dropz 8 (frame_bytes sample))] = Ok ([Frame (2 ^ 64 - 23) 0 [1; 2; 3; 4]], t).
Proof. eexists. vm_compute. reflexivity. Qed.
(** Object types beyond four become others: five (HE-AAC) is sent as one (AAC Main). *)
Theorem aac_objtype_refuted : forall rate chan n, 0 <= rate < 13 -> 0 < chan < 8 -> getAACProfile (getAudioHeader n (specific_config 5 rate chan 0)) = Ok 1.
Proof.
  intros rate chan n R C.
  assert (A : rate = 0 \/ rate = 1 \/ rate = 2 \/ rate = 3 \/ rate = 4 \/ rate = 5 \/ rate = 6 \/ rate = 7 \/ rate = 8 \/ rate = 9 \/ rate = 10 \/ rate = 11 \/ rate = 12) by lia.
  assert (B : chan = 1 \/ chan = 2 \/ chan = 3 \/ chan = 4 \/ chan = 5 \/ chan = 6 \/ chan = 7) by lia.
  repeat (destruct A as [-> | A]; [repeat (destruct B as [-> | B]; [reflexivity |]); subst; reflexivity |]). subst. repeat (destruct B as [-> | B]; [reflexivity |]); subst; reflexivity.
Qed.
(** A packet too long for the field: the length in the header is not its length. *)
Theorem aac_long_refuted : getCompleteSize (getAudioHeader 8192 (specific_config 2 4 2 0)) = Ok 7.
Proof. vm_compute. reflexivity. Qed.
(** A file that ends within a frame, or has a frame said to be shorter than six bytes: memory is read, or written, outside. *)
Theorem aac_file_cut_refuted : forall l f x y, Forall good l -> good f -> frame_bytes f = x ++ y -> y <> [] -> 6 <= len x ->
  aac_file (List.concat (map frame_bytes l) ++ x) = Ub.
Proof.
  intros l f x y GL G E N L.
  assert (ST : forall pre ts, file_step (pre ++ x) (len pre) ts = Ub).
  { intros pre ts. unfold file_step, getNext. pose proof (good_len f G) as (LB & HB & _ & LL). pose proof (len_pos y N). rewrite len_app. destruct (Z.leb_spec (len pre + len x) (len pre)); [lia |].
    rewrite dropz_app_exact by reflexivity.
    assert (TH : takez 6 x = takez 6 (hdr f)). { rewrite <- (takez_app 6 x y) by lia. rewrite <- E, frame_hdr. apply takez_app. rewrite len_hdr. lia. }
    rewrite TH. change (len (takez 6 (hdr f))) with 6. change (6 <? 6) with false. cbv iota.
    change (nthz (takez 6 (hdr f)) 0) with 255. change (nthz (takez 6 (hdr f)) 1) with (nthz (hdr f) 1). change (nthz (takez 6 (hdr f)) 3) with (nthz (hdr f) 3).
    change (nthz (takez 6 (hdr f)) 4) with (nthz (hdr f) 4). change (nthz (takez 6 (hdr f)) 5) with (nthz (hdr f) 5).
    assert (S1 : Z.land (nthz (hdr f) 1) 240 = 240).
    { change (nthz (hdr f) 1) with (240 + f_id f * 8 + f_layer f * 2 + (match f_crc f with None => 1 | Some _ => 0 end)). destruct G as (I&La&?).
      assert (f_id f = 0 \/ f_id f = 1) as [-> | ->] by lia; (assert (f_layer f = 0 \/ f_layer f = 1 \/ f_layer f = 2 \/ f_layer f = 3) as [-> | [-> | [-> | ->]]] by lia); destruct (f_crc f); reflexivity. }
    rewrite S1. change (255 =? 255) with true. change (240 =? 240) with true. cbn [negb orb].
    assert (SZ : (((nthz (hdr f) 3 .& 3) << 11) .| (nthz (hdr f) 4 << 3) .| ((nthz (hdr f) 5 >> 5) .& 7)) = frame_length f).
    { pose proof (hdr_size f [] G) as Q. unfold getCompleteSize in Q. rewrite len_hdr_app in Q. change (7 + len (@nil Z) <? 6) with false in Q. cbv iota in Q.
      rewrite (hdr_at f [] 3), (hdr_at f [] 4), (hdr_at f [] 5) in Q by lia. injection Q as Q. exact Q. }
    rewrite SZ. destruct (Z.ltb_spec (frame_length f) 6); [lia |]. rewrite E, len_app in LB.
    rewrite dropz_app_ge by lia. replace (len pre + 6 - len pre) with 6 by lia. rewrite takez_all by (rewrite len_dropz; lia). rewrite len_dropz by lia. destruct (Z.ltb_spec (len x - 6) (frame_length f - 6)); [reflexivity | lia]. }
  assert (LO : forall l fuel pre ts, Forall good l -> (List.length l < fuel)%nat -> file_loop fuel (pre ++ List.concat (map frame_bytes l) ++ x) (len pre) ts = Ub).
  { clear GL l. induction l as [| g l IH]; intros fuel pre ts GL F; (destruct fuel as [| fuel]; [cbn in F; lia |]); cbn [map List.concat file_loop app].
    - rewrite ST. reflexivity.
    - inversion GL; subst. rewrite <- app_assoc, file_frame by assumption. pose proof (good_len g H1) as (LB & _). specialize (IH fuel (pre ++ frame_bytes g) (ts + lasts g) H2 ltac:(cbn in F; lia)).
      rewrite <- app_assoc, len_app, LB in IH. rewrite IH. reflexivity. }
  unfold aac_file. apply (LO l _ [] 0 GL). rewrite app_length.
  assert (List.length l <= List.length (List.concat (map frame_bytes l)))%nat; [| lia].
  clear - GL. induction GL as [| g l G _ IH]; [cbn; lia |]. cbn [map List.concat List.length]. rewrite app_length. pose proof (good_len g G) as (LB & _ & _ & LL). unfold len in LB. lia.
Qed.
Theorem aac_file_short_refuted : forall rest, aac_file ([255; 241; 80; 128; 0; 31] ++ rest) = Ub.
Proof.
  intros rest. unfold aac_file. cbn [file_loop]. unfold file_step, getNext. rewrite len_app. change (len [255; 241; 80; 128; 0; 31]) with 6. pose proof (len_nonneg rest).
  destruct (Z.leb_spec (6 + len rest) 0); [lia |]. reflexivity.
Qed.
(** Two bytes of Opus: the third is read. *)
Theorem opus_short_refuted : forall a b ts bpos, parse_opus ts bpos [a; b] = Ub.
Proof. reflexivity. Qed.
(** Packets of two and a half milliseconds: time is lost with each but the first. *)
Theorem opus_drift_refuted : exists u, unit_good u /\ opus_lasts (u_data u) = 25 /\
  parse_opus 0 0 (List.concat (map unit_bytes [u; u; u; u; u])) = Ok [(0, 0, u_data u); (2, 0, u_data u); (4, 0, u_data u); (6, 0, u_data u); (8, 0, u_data u)].
Proof.
  exists (mkunit None None None [128; 9]). split; [| split; vm_compute; reflexivity]. unfold unit_good. cbn [u_start u_end u_ext u_data]. split; [exact I |]. split; [exact I |]. split; [exact I |].
  split; [repeat constructor; unfold byteP; lia |]. intros M. vm_compute in M. discriminate.
Qed.

(** Concrete cases that meet the hypotheses. *)
Example good_example : good sample /\ good (mkframe 1 0 (Some [7; 8]) 1 3 1 7 5 100 3 [9; 9]).
Proof. unfold good, frame_length, header_length; cbn. repeat split; try lia; discriminate. Qed.
Example sent_example : exists l, sent None l [(100, 0, sample); (123, 0, sample); (500 - 23, 0, sample)] None /\ List.length l = 3%nat.
Proof.
  pose proof (proj1 good_example) as G. set (b := frame_bytes sample).
  exists [(100, 0, List.concat (map frame_bytes [sample; sample]) ++ takez 7 b); (300, 188, [1; 2]); (500, 376, [3; 4] ++ List.concat (map frame_bytes []) ++ [])]. split; [| reflexivity].
  change [(100, 0, sample); (123, 0, sample); (500 - 23, 0, sample)] with (timed 100 0 [sample; sample] ++ [(500 - lasts sample, 0, sample)]).
  apply (sent_frames [sample; sample] (takez 7 b) (Some (sample, 0, takez 7 b, [1; 2] ++ [3; 4])) 100 0); [constructor; [exact G | constructor; [exact G | constructor]] | |].
  - constructor; [exact G | reflexivity | discriminate | vm_compute; discriminate].
  - apply sent_middle; [discriminate |]. apply (sent_end sample 0 _ [3; 4] [] [] None 500 376 [] [] None); [discriminate | constructor | constructor | constructor].
Qed.
Example config_example : conf_good 2 (inl 4) 2 0 /\ conf_good 42 (inr 12345) 1 1 /\ bits (specific_config 2 4 2 0) = conf_bits 2 (inl 4) 2 0 ++ [false; false].
Proof. split; [unfold conf_good; repeat split; lia |]. split; [unfold conf_good; repeat split; lia | vm_compute; reflexivity]. Qed.
Example clock_example : align (90 * (1001 * 1024 * 1000 / 44100)) 44100 = 1001 * 1024 * 90000 / 44100. Proof. vm_compute. reflexivity. Qed.
Example unit_example : unit_good (mkunit (Some [0; 1]) None (Some [5; 6; 7]) ([3; 2] ++ repeat 1 300)).
Proof. unfold unit_good. cbn [u_start u_end u_ext u_data]. split; [reflexivity |]. split; [exact I |]. split; [reflexivity |]. split; [repeat constructor; unfold byteP; lia |]. intros _. discriminate. Qed.

Print Assumptions adts_fields.
Print Assumptions aac_stream_partial.
Print Assumptions aac_sent_bytes.
Print Assumptions aac_header_partial.
Print Assumptions aac_config.
Print Assumptions aac_config_of_header.
Print Assumptions aac_through_ts.
Print Assumptions aac_clock.
Print Assumptions aac_clock_near.
Print Assumptions aac_clock_order.
Print Assumptions aac_file_read_partial.
Print Assumptions opus_stream_partial.
Print Assumptions opus_through_ts.
Print Assumptions adts_any.
Print Assumptions aac_header_cut_refuted.
Print Assumptions aac_empty_refuted.
Print Assumptions aac_wrap_refuted.
Print Assumptions aac_objtype_refuted.
Print Assumptions aac_long_refuted.
Print Assumptions aac_file_cut_refuted.
Print Assumptions aac_file_short_refuted.
Print Assumptions opus_short_refuted.
Print Assumptions opus_drift_refuted.
