(** C65: H264 and HEVC video through transport streams. *)
From Verif Require Import Common CommonFacts CommonMore Bits Mem_Model Nal_Model Nal_Spec Bitstream_Model Bitstream_Spec Ts_Model Ts_Spec Ts_Mux_Proofs Ts_Pes_Proofs Ts_Demux_Proofs Outcome_Model Scan_Model Dtmi_Spec Dtmi_Proofs Dtsc_Model Dtsc_Spec Avcc_Model Avcc_Spec Avcc_Proofs Avc_Model Avc_Spec Avc_Send_Proofs Avc_Recv_Proofs Avc_Frames_Proofs Avc_Way_Proofs.
Import List.
Ltac Zify.zify_post_hook ::= Z.div_mod_to_equations.

(** ** Init data *)
(** The parameter sets in well-formed init data, each behind a start code, in their order.  Missing: sets and arrays of
    2^15 and more, whose counts the code takes for negative numbers. *)
Theorem avc_init_sent_partial hevc init sets : init_for hevc init sets -> (if hevc then hvccInit init else avccInit init) = Ok (started sets).
Proof. intros H. apply (init_gives hevc init sets H). Qed.
Print Assumptions avc_init_sent_partial.
Definition sps1 : list Z := [0x67; 66; 0; 30; 0xAB].
Definition pps1 : list Z := [0x68; 0xCE; 0x3C].
Definition init1 : list Z := avc_record 66 0 30 4 [sps1] [pps1] [].
Lemma init1_for : init_for false init1 [sps1; pps1].
Proof. exists 66, 0, 30, [sps1], [pps1], []. repeat split; try reflexivity; try (repeat constructor; reflexivity); vm_compute; discriminate. Qed.
Definition init2 : list Z := hevc_record (repeat 1 22) [(32, [[64; 1; 12]]); (33, [[66; 1; 1]; [66; 1; 2]]); (34, [[68; 1]])].
Lemma init2_for : init_for true init2 [[64; 1; 12]; [66; 1; 1]; [66; 1; 2]; [68; 1]].
Proof.
  exists (repeat 1 22), [(32, [[64; 1; 12]]); (33, [[66; 1; 1]; [66; 1; 2]]); (34, [[68; 1]])]. split; [reflexivity|]. split; [|split; [reflexivity|split; [reflexivity|split; reflexivity]]].
  repeat constructor; try (cbn; lia); reflexivity.
Qed.
Example avc_init_sent_case : avccInit init1 = Ok ([0; 0; 0; 1] ++ sps1 ++ [0; 0; 0; 1] ++ pps1) /\ hvccInit init2 = Ok (started [[64; 1; 12]; [66; 1; 1]; [66; 1; 2]; [68; 1]]).
Proof. split; [exact (avc_init_sent_partial false _ _ init1_for)|exact (avc_init_sent_partial true _ _ init2_for)]. Qed.

(** The receiver's init data for a sequence and a picture parameter set: the record with them, profile, compatibility and
    level from the former; what it sends again are these two. *)
Theorem avc_init_rebuilt_partial p0 p1 p2 p3 r pps : bytesP (p0 :: p1 :: p2 :: p3 :: r) -> bytesP pps -> len (p0 :: p1 :: p2 :: p3 :: r) < 2 ^ 15 -> len pps < 2 ^ 15 ->
  makeInit (p0 :: p1 :: p2 :: p3 :: r) pps = Ok (avc_record p1 p2 p3 4 [p0 :: p1 :: p2 :: p3 :: r] [pps] []) /\
  init_for false (avc_record p1 p2 p3 4 [p0 :: p1 :: p2 :: p3 :: r] [pps] []) [p0 :: p1 :: p2 :: p3 :: r; pps].
Proof.
  intros B1 B2 L1 L2. split; [now apply make_ok|]. exists p1, p2, p3, [p0 :: p1 :: p2 :: p3 :: r], [pps], [].
  split; [constructor; [exact L1|constructor]|]. split; [constructor; [exact L2|constructor]|]. split; [cbn; lia|]. split; [cbn; lia|]. split; [|split; reflexivity].
  unfold avc_record, sized. cbn [flat_map]. rewrite !len_app, !be_len. change (len (@nil Z)) with 0. change (len [len [pps]]) with 1. rewrite !len_cons in *. change (len (@nil Z)) with 0. lia.
Qed.
Print Assumptions avc_init_rebuilt_partial.
Example avc_init_rebuilt_case : makeInit sps1 pps1 = Ok init1.
Proof. reflexivity. Qed.

(** ** Sending *)
(** A frame of units behind lengths of four bytes goes out as one PES packet with its time stamps and the units behind start
    codes, H264 units behind a delimiter and key frames with the parameter sets of the track unless they have these; the
    PES packet has a length when that is at most 65477 bytes of units.  Missing: frames with empty or truncated units and
    with other lengths of lengths. *)
Theorem avc_frame_sent_partial hevc key init sets us t off bps : init_for hevc init sets -> Forall (fun u => bytesP u /\ u <> []) us -> Forall bytesP sets ->
  len (length_prefixed us) + len (started sets) + 6 < 2 ^ 31 -> 0 <= t -> 0 <= off -> 90 * (t + off) < 2 ^ 64 ->
  exists chunks, video_chunks hevc key init (90 * t) off bps (length_prefixed us) = Ok chunks /\
  let payload := started (sent_units hevc key sets us) in
  List.concat chunks = pes 0xE0 ((0 <? len payload) && (len payload <=? 65477)) true (90 * (t + off)) (if off =? 0 then None else Some (90 * t)) (rate_bytes bps) payload.
Proof.
  intros H1 H2 H3 H4 H5 H6 H7. destruct (video_chunks_ok hevc key init sets us t off bps H1 H2 H3 H4 H5 H6 H7) as (cs & E & _ & C). exists cs. split; [exact E|].
  cbv zeta. rewrite Z.mul_add_distr_l. exact C.
Qed.
Print Assumptions avc_frame_sent_partial.
Example avc_frame_sent_case :
  exists chunks, video_chunks false true init1 90000 40 0 (length_prefixed [[6; 5]; [0x65; 1; 2]]) = Ok chunks /\
  List.concat chunks = pes 0xE0 true true 93600 (Some 90000) [] ([0; 0; 0; 1; 9; 0xF0; 0; 0; 0; 1] ++ sps1 ++ [0; 0; 0; 1] ++ pps1 ++ [0; 0; 0; 1; 6; 5; 0; 0; 0; 1; 0x65; 1; 2]).
Proof. eexists. split; [vm_compute; reflexivity|vm_compute; reflexivity]. Qed.
Example avc_frame_own_sets : sent_units false true [sps1; pps1] [[9; 16]; sps1; pps1; [0x65; 1]] = [[9; 16]; sps1; pps1; [0x65; 1]].
Proof. reflexivity. Qed.

(** What the own receiver's demultiplexer makes of frames on a PID. *)
Definition through (hevc : bool) (fs : list frame) : res (list (Z * Z * list Z)) :=
  cs <~ sendVideos hevc fs;;
  match send_all cs (fun _ => 0) mux0 with
  | None => Ub
  | Some m => match parse_all 5 (msent m) demux0 with Ts_Model.Ok d => match finish 5 d with Ts_Model.Ok d => Ok (outp d) | _ => Ub end | _ => Ub end
  end.
Definition at_ms (t : Z) : meta := mkmeta true false 256 t.
Example avc_through_case : through false [mkframe (at_ms 1000) init1 0 0 (length_prefixed [[0x41; 9]]); mkframe (at_ms 1040) init1 0 0 (length_prefixed [[0x41; 8]])] =
  Ok [(1000, 0, started [delimiter; [0x41; 9]]); (1040, 0, started [delimiter; [0x41; 8]])].
Proof. vm_compute. reflexivity. Qed.
(** Lengths of two bytes: the PES packets are longer than they say and are thrown away. *)
Theorem avc_short_lengths_refuted : exists init, init = avc_record 66 0 30 2 [sps1] [pps1] [] /\
  through false [mkframe (at_ms 1000) init 0 0 [0; 2; 0x41; 9]; mkframe (at_ms 1040) init 0 0 [0; 2; 0x41; 8]] = Ok [].
Proof. eexists. split; [reflexivity|]. vm_compute. reflexivity. Qed.
Print Assumptions avc_short_lengths_refuted.
(** Lengths of three bytes: the first one is taken for the whole length; of the unit nothing is sent. *)
Theorem avc_three_byte_lengths_refuted : exists chunks,
  video_chunks false false (avc_record 66 0 30 3 [sps1] [pps1] []) 90000 0 0 [0; 0; 2; 0x41; 5] = Ok chunks /\ skipn 2 chunks = [[0; 0; 0; 1]; []].
Proof. eexists. split; [vm_compute; reflexivity|]. reflexivity. Qed.
Print Assumptions avc_three_byte_lengths_refuted.
(** A frame whose second unit says it has 2^32 - 5 bytes: the check wraps around and memory behind the frame is sent. *)
Theorem avc_size_wrap_refuted : video_chunks false false init1 90000 0 0 ([0; 0; 0; 1; 9] ++ be 4 (2 ^ 32 - 5) ++ [1; 2; 3]) = Ub.
Proof. vm_compute. reflexivity. Qed.
Print Assumptions avc_size_wrap_refuted.
(** A frame whose last unit is cut short: the PES packet says it has more bytes than are sent; the whole frame is lost. *)
Theorem avc_truncated_refuted :
  through false [mkframe (at_ms 1000) init1 0 0 (length_prefixed [[0x41; 9]] ++ [0; 0; 0; 9; 0x41; 2]); mkframe (at_ms 1040) init1 0 0 (length_prefixed [[0x41; 8]])] =
  Ok [(1040, 0, started [delimiter; [0x41; 8]])].
Proof. vm_compute. reflexivity. Qed.
Print Assumptions avc_truncated_refuted.

(** ** Receiving *)
(** Whether a slice is an I or SI slice: the number behind the first one in its payload, which has emulation prevention
    bytes in it.  Missing: numbers that end behind 48 bits. *)
Theorem avc_slice_key_partial h payload mb t rest : bytesP payload -> bits payload = ue_code mb ++ ue_code t ++ rest ->
  0 <= mb < 2 ^ 31 -> 0 <= t <= 9 -> len (ue_code mb ++ ue_code t) <= 48 ->
  key_slice (h :: insert_ep 0 payload) = true <-> In (t mod 5) [2; 4].
Proof.
  intros B E M T L. rewrite (slice_key _ h payload mb t rest) by (try assumption; reflexivity). cbn [In]. lia.
Qed.
Print Assumptions avc_slice_key_partial.
Example avc_slice_key_case : bits [0x88; 0x81] = ue_code 0 ++ ue_code 7 ++ [true; false; false; false; false; false; false; true].
Proof. vm_compute. reflexivity. Qed.
Example avc_slice_key_yes : key_slice (0x41 :: insert_ep 0 [0x88; 0x80]) = true /\ key_slice (0x41 :: insert_ep 0 [0x9A; 0x80]) = false.
Proof. vm_compute. auto. Qed.

(** One packet for each frame, with its units behind lengths, its time and offset; the last one at the end of the input.
    Key flags are as [flagged] says.  The receiver keeps the last parameter sets.  Missing: payloads that do not begin with
    a start code, and consecutive frames with the same time. *)
Theorem avc_received_partial junk tid hevc l : byteP junk -> Forall (arrival_ok hevc tid) l -> apart l ->
  exists s, returns (fun fuel => s <~ parseVideos junk fuel tid hevc true (map (fun x => (a_time x, a_off x, a_pos x, annexb (a_units x))) l) rcv0;; flush fuel s) s /\
  Forall2 reports (r_out s) (flagged tid (match l with x :: _ => first_key x | [] => false end) l) /\
  (hevc = false -> r_sps s = last_of 7 (flat_map (fun x => map snd (a_units x)) l) /\ r_pps s = last_of 8 (flat_map (fun x => map snd (a_units x)) l)).
Proof.
  intros J F A. destruct (all_frames junk tid hevc l J F A) as (s & R & _ & P & S1 & S2). exists s. split; [exact R|]. split; [exact P|]. intros ->. split; [exact S1|exact S2].
Qed.
Print Assumptions avc_received_partial.

(** When no frame but the first begins with a unit that makes a key frame, the key flags are those of the frames. *)
Lemma own_flags tid l : forall mine, Forall (fun x => first_key x = false) (tl l) ->
  flagged tid mine l = match l with [] => [] | x :: r => arrived tid (mine || other_key x) x :: map (fun y => arrived tid (has_key y) y) r end.
Proof.
  induction l as [|x l IH]; intros mine F; [reflexivity|]. cbn [tl] in F. cbn [flagged]. f_equal.
  - destruct l as [|y l]; [now rewrite orb_false_r|]. inversion F as [|? ? F1 F2]; subst. now rewrite F1, orb_false_r.
  - destruct l as [|y l]; [reflexivity|]. inversion F as [|? ? F1 F2]; subst. rewrite (IH false F2). cbn [map]. f_equal. unfold has_key, first_key, other_key in *. destruct (a_keys y) as [|k ks]; [reflexivity|]. cbn [hd tl existsb] in *. now rewrite F1.
Qed.
Theorem avc_received_flags_partial junk tid hevc l : byteP junk -> Forall (arrival_ok hevc tid) l -> apart l -> Forall (fun x => first_key x = false) (tl l) ->
  exists s, returns (fun fuel => s <~ parseVideos junk fuel tid hevc true (map (fun x => (a_time x, a_off x, a_pos x, annexb (a_units x))) l) rcv0;; flush fuel s) s /\
  Forall2 (fun p x => reports p (arrived tid (has_key x) x)) (r_out s) l.
Proof.
  intros J F A K. destruct (avc_received_partial junk tid hevc l J F A) as (s & R & P & _). exists s. split; [exact R|]. rewrite own_flags in P by exact K.
  destruct l as [|x l]; [inversion P; constructor|]. inversion P as [|p ? ps ? P1 P2]; subst. constructor.
  - unfold has_key, first_key, other_key in *. destruct (a_keys x) as [|k ks]; exact P1.
  - clear - P2. remember (map (fun y => arrived tid (has_key y) y) l) as fs eqn:E. revert l E. induction P2 as [|p f ps fs H _ IH]; intros [|y l] E; try discriminate; constructor.
    + cbn [map] in E. assert (f = arrived tid (has_key y) y) by congruence. now subst.
    + apply IH. cbn [map] in E. congruence.
Qed.
Print Assumptions avc_received_flags_partial.

(** A case: a key frame with its delimiter and sets, a frame of two slices. *)
Definition frames1 : list arrival :=
  [mkA 1000 40 0 [(true, delimiter); (true, sps1); (false, pps1); (false, [0x65; 0x88; 0x80])] [false; false; false; true];
   mkA 1040 0 188 [(true, delimiter); (false, [0x41; 0x9A; 0x80]); (true, [0x41; 0x9A; 0x81])] [false; false; false]].
Lemma nal_by u : forallb is_byte u = true -> u <> [] -> scanAnnexB u = None -> last u 0 <> 0 -> nal_ok u.
Proof.
  intros B N S L. pose proof (all_bytes_ok u B) as BB. repeat split; try assumption. intros (a & b & E). pose proof (Nal_Props.scan_finds_first_start u BB) as H. rewrite S in H. apply (H (len a)).
  split; [apply len_nonneg|]. exists b. rewrite E. apply CommonFacts.dropz_app_exact. reflexivity.
Qed.
Ltac nal1 := apply nal_by; [reflexivity|discriminate|reflexivity|discriminate].
Ltac plain_unit := left; split; [vm_compute; discriminate|reflexivity].
Lemma slice9a b : byteP b -> key_unit false [0x41; 0x9A; b] false.
Proof.
  intros B. right. split; [reflexivity|]. exists 0x41, [0x9A; b], 0, 5, (skipn 6 (bits [0x9A; b])). split; [reflexivity|]. split; [constructor; [unfold byteP; lia|constructor; [exact B|constructor]]|].
  split; [|repeat split; try lia; vm_compute; discriminate]. cbn [bits flat_map]. reflexivity.
Qed.
Lemma frames1_ok : Forall (arrival_ok false 1) frames1.
Proof.
  constructor; [|constructor; [|constructor]].
  - unfold arrival_ok. cbn [a_time a_off a_pos a_units a_keys]. repeat (split; [lia|]). split; [discriminate|]. split; [|reflexivity].
    repeat (constructor; [cbn [snd]; split; [nal1|plain_unit]|]). constructor.
  - unfold arrival_ok. cbn [a_time a_off a_pos a_units a_keys]. repeat (split; [lia|]). split; [discriminate|]. split; [|reflexivity].
    constructor; [cbn [snd]; split; [nal1|plain_unit]|]. repeat (constructor; [cbn [snd]; split; [nal1|apply slice9a; unfold byteP; lia]|]). constructor.
Qed.
Example avc_received_case : Forall (arrival_ok false 1) frames1 /\ apart frames1 /\ Forall (fun x => first_key x = false) (tl frames1) /\ map has_key frames1 = [true; false].
Proof. split; [exact frames1_ok|]. split; [cbn; lia|]. split; [repeat constructor|reflexivity]. Qed.

(** What a reader sees of the packets made of payloads. *)
Definition seen (hevc aligned : bool) (l : list (Z * Z * Z * list Z)) : res (list (res Z * res (list Z) * res bool)) :=
  s <~ parseVideos 238 20 1 hevc aligned l rcv0;; s <~ flush 20 s;;
  Ok (map (fun p => (Dtsc_Model.getTime (fun _ => 0) (fun _ => 0) 20 p, getStr 20 (bs "data") p, getFlag (fun _ => 0) (fun _ => 0) 20 (bs "keyframe") p)) (r_out s)).
(** A key frame that begins with its slice (no delimiter): the packet before it gets the key flag. *)
Theorem avc_key_misplaced_refuted : seen false true [(40, 0, 0, annexb [(true, [0x41; 0x9A; 0x81])]); (80, 0, 0, annexb [(true, [0x65; 0x88; 0x81])])] =
  Ok [(Ok 40, Ok (length_prefixed [[0x41; 0x9A; 0x81]]), Ok true); (Ok 80, Ok (length_prefixed [[0x65; 0x88; 0x81]]), Ok false)].
Proof. vm_compute. reflexivity. Qed.
Print Assumptions avc_key_misplaced_refuted.
(** Two frames within a millisecond become one packet. *)
Theorem avc_merged_refuted : seen false true [(40, 0, 0, annexb [(true, [0x41; 0x9A; 0x81])]); (40, 0, 0, annexb [(true, [0x41; 0x9A; 0x82])])] =
  Ok [(Ok 40, Ok (length_prefixed [[0x41; 0x9A; 0x81]; [0x41; 0x9A; 0x82]]), Ok false)].
Proof. vm_compute. reflexivity. Qed.
Print Assumptions avc_merged_refuted.
(** A unit that goes on in the next PES packet: with a start code behind it, its rest becomes a unit of its own; without one
    it is put together again. *)
Theorem avc_split_unit_refuted :
  seen false false [(40, 0, 0, annexb [(true, [0x41; 0x9A])]); (40, 0, 0, [7; 7] ++ annexb [(true, [0x41; 3])])] = Ok [(Ok 40, Ok (length_prefixed [[0x41; 0x9A]; [7; 7]; [0x41; 3]]), Ok false)] /\
  seen false false [(40, 0, 0, annexb [(true, [0x41; 0x9A])]); (40, 0, 0, [7; 7])] = Ok [(Ok 40, Ok (length_prefixed [[0x41; 0x9A; 7; 7]]), Ok false)].
Proof. split; vm_compute; reflexivity. Qed.
Print Assumptions avc_split_unit_refuted.
(** A stream that begins in the middle of a unit: at any time, unaligned, memory that is not there is read, whatever the
    bytes; aligned at time 0 too, and at other times a packet without data is handed out first. *)
Theorem avc_no_start_refuted : (forall hevc ts off pos d fuel, d <> [] -> scanAnnexB d = None -> parseVideo 238 fuel 1 hevc ts off pos false d rcv0 = Ub) /\
  seen false true [(0, 0, 0, [0x41; 7])] = Ub /\
  seen false true [(40, 0, 0, [0x41; 7])] = Ok [(Ok 0, Ok [], Ok false); (Ok 40, Ok (length_prefixed [[0x41; 7]]), Ok false)].
Proof.
  split; [|split; vm_compute; reflexivity]. intros hevc ts off pos d fuel N E. unfold parseVideo. rewrite E. cbn [r_bp rcv0 negb andb]. rewrite andb_false_r. cbv iota.
  destruct d as [|x d]; [congruence|]. reflexivity.
Qed.
Print Assumptions avc_no_start_refuted.
Example avc_no_start_case : scanAnnexB [0x41; 7; 0; 0] = None.
Proof. reflexivity. Qed.

(** ** All the way *)
(** Frames sent on a PID, put into transport stream packets, taken out of these and received: one packet for each frame, in
    order, with the units sent, its composition offset, and its time, exact before the first wrap of the clock (26.5 hours)
    and ahead by less than a millisecond for every wrap afterwards.  Missing: see [avc_frame_sent_partial] and
    [avc_received_partial]. *)
Theorem avc_whole_way_partial junk tid hevc p l inits bpss c k : byteP junk -> 0 <= tid < 2 ^ 32 -> 0 <= p < 8192 -> (forall q, 0 <= c q < 65536) ->
  Forall (travel_ok hevc) l -> Forall2 (fun x i => init_for hevc i (t_sets x)) l inits -> List.length bpss = List.length l ->
  steady_times (map t_time l) -> rising (map t_time l) ->
  exists cs m d d' s ts,
    sendVideos hevc (map (fun '(x, (i, b)) => mkframe (mkmeta true (t_key x) p (t_time x)) i (t_off x) b (length_prefixed (t_units x))) (combine l (combine inits bpss))) = Ok cs /\
    send_all cs c mux0 = Some m /\
    parse_all (S (S k)) (filter (fun b => getPID b =? p) (msent m)) demux0 = Ts_Model.Ok d /\ finish (S (S k)) d = Ts_Model.Ok d' /\
    returns (fun fuel => s <~ parseVideos junk fuel tid hevc true (placed (outp d') (map t_pos l)) rcv0;; flush fuel s) s /\
    Forall2 about (map t_time l) ts /\
    let arrivals := map (fun '(x, t) => at_time hevc x t) (combine l ts) in
    Forall2 reports (r_out s) (flagged tid (match arrivals with x :: _ => first_key x | [] => false end) arrivals) /\
    (hevc = false -> r_sps s = last_of 7 (flat_map (t_sent hevc) l) /\ r_pps s = last_of 8 (flat_map (t_sent hevc) l)).
Proof.
  intros J HT HP HC F I L S R.
  destruct (travels_go hevc p l inits bpss HP F I L) as (cs & E1 & G & P & TM).
  assert (HC' : forall q, c q = u16 (c q)) by (intros q; unfold u16; rewrite Z.mod_small by apply HC; reflexivity).
  rewrite <- TM in S. destruct (goes_through p k cs _ c G P HC' S) as (m & d & d' & E2 & E3 & E4 & E5).
  assert (FA : Forall (arrival_ok hevc tid) (map (on_arrival hevc) l)) by (apply Forall_forall; intros y Hy; apply in_map_iff in Hy as (x & <- & Hx); rewrite Forall_forall in F; apply arrival_fine; [exact HT|now apply F]).
  destruct (all_frames junk tid hevc (map (on_arrival hevc) l) J FA (rising_apart hevc l R F)) as (s & R1 & _ & RP & S1 & S2).
  exists cs, m, d, d', s, (map (fun x => unwrapped (t_time x)) l). split; [exact E1|]. split; [exact E2|]. split; [exact E3|]. split; [exact E4|].
  split; [rewrite E5, heard_placed by exact TM; exact R1|]. split.
  { clear - F. induction F as [|x l H _ IH]; constructor; [|exact IH]. apply unwrapped_close. apply H. }
  assert (EA : map (fun '(x, t) => at_time hevc x t) (combine l (map (fun x => unwrapped (t_time x)) l)) = map (on_arrival hevc) l).
  { clear. induction l as [|x l IH]; [reflexivity|]. cbn [map combine]. now rewrite IH. }
  cbv zeta. rewrite EA. split; [exact RP|]. rewrite units_on in S1, S2. intros ->. split; [exact S1|exact S2].
Qed.
Print Assumptions avc_whole_way_partial.
(** A case: a key frame and another one. *)
Definition travels1 : list travel :=
  [mkT 1000 40 true [sps1; pps1] [[0x65; 0x88; 0x81]] [false; false; false; true] 0; mkT 1040 0 false [sps1; pps1] [[0x41; 0x9A; 0x81]] [false; false] 564].
Example avc_whole_way_case : Forall (travel_ok false) travels1 /\ Forall2 (fun x i => init_for false i (t_sets x)) travels1 [init1; init1] /\ steady_times (map t_time travels1) /\ rising (map t_time travels1) /\
  flagged 1 false (map (fun x => at_time false x (t_time x)) travels1) =
  [mkF 1000 40 1 (length_prefixed [delimiter; sps1; pps1; [0x65; 0x88; 0x81]]) 0 true; mkF 1040 0 1 (length_prefixed [delimiter; [0x41; 0x9A; 0x81]]) 564 false].
Proof.
  split.
  { constructor; [|constructor; [|constructor]]; unfold travel_ok, travels1; cbn [t_time t_off t_key t_sets t_units t_keys t_pos].
    - repeat (split; [reflexivity || (vm_compute; auto; fail) || lia|]). split; [discriminate|]. split; [repeat constructor; try (unfold byteP; lia)|]. split; [|reflexivity].
      unfold t_sent, sent_units. cbn. repeat (constructor; [split; [nal1|plain_unit]|]). constructor.
    - repeat (split; [reflexivity || (vm_compute; auto; fail) || lia|]). split; [discriminate|]. split; [repeat constructor; try (unfold byteP; lia)|]. split; [|reflexivity].
      unfold t_sent, sent_units. cbn. constructor; [split; [nal1|plain_unit]|]. constructor; [|constructor]. split; [nal1|apply slice9a; unfold byteP; lia]. }
  split; [repeat constructor; exact init1_for|]. split; [cbn; lia|]. split; [cbn; lia|]. reflexivity.
Qed.
