(** C32 and C33: RTP packets and H.264/H.265 over RTP. *)
From Verif Require Import RelAccX_Proofs Common CommonFacts CommonMore Bitfields_Model Bitfields_Spec Bitfields_Proofs Mem_Model Mem_Proofs Rtp_Model Rtp_Spec Rtp_Proofs RtpNal_Proofs RtpFrame_Proofs.

(** ** C33: header fields *)

(** Every getter reads exactly its field of the RFC 3550 header, of any packet of at least 12
    bytes.  Missing: the contributing source count, see the next two theorems. *)
Theorem rtp_header_fields_partial : forall d, bytesP d -> 12 <= len d ->
  getVersion d = Some (rfc_version d) /\ getPadding d = Some (rfc_padding d) /\ getExtension d = Some (rfc_extension d) /\
  getMarker d = Some (rfc_marker d) /\ getPayloadType d = Some (rfc_payload_type d) /\
  getSequence d = Some (rfc_sequence d) /\ getTimeStamp d = Some (rfc_timestamp d) /\ getSSRC d = Some (rfc_ssrc d).
Proof.
  intros d Hb Hl. destruct (get_b0 d Hb Hl) as (A & B & C & _ & D & E). destruct (get_bytes d Hb Hl) as (F & G & H). conjs; assumption.
Qed.
(** The source count is right exactly when it is even; an odd one is reported one too low. *)
Theorem rtp_contrib_count_partial : forall d, bytesP d -> 12 <= len d ->
  getContribCount d = Some (2 * (rfc_csrc_count d / 2)).
Proof. intros d Hb Hl. destruct (get_b0 d Hb Hl) as (_ & _ & _ & -> & _). f_equal. lia. Qed.
Definition one_source : list Z := [0x81; 96; 0; 1; 0; 0; 0; 2; 0; 0; 0; 3; 0; 0; 0; 4; 0x41; 0x42].
Theorem rtp_contrib_count_refuted :
  bytesP one_source /\ rfc_csrc_count one_source = 1 /\ getContribCount one_source = Some 0 /\
  rfc_payload one_source = [0x41; 0x42] /\ payload one_source = Some [0; 0; 0; 4; 0x41; 0x42].
Proof. split; [apply all_bytes_ok; reflexivity|]. repeat split. Qed.

(** The setters change their field, to the value modulo the width, and no other byte. *)
Theorem rtp_setters : forall d v, bytesP d -> 12 <= len d ->
  (exists d', setSequence d v = Some d' /\ bytesP d' /\ same_outside d d' 2 2 /\ rfc_sequence d' = v mod 2 ^ 16) /\
  (exists d', setTimestamp d v = Some d' /\ bytesP d' /\ same_outside d d' 4 4 /\ rfc_timestamp d' = v mod 2 ^ 32) /\
  (exists d', setSSRC d v = Some d' /\ bytesP d' /\ same_outside d d' 8 4 /\ rfc_ssrc d' = v mod 2 ^ 32) /\
  (exists d', increaseSequence d = Some d' /\ bytesP d' /\ same_outside d d' 2 2 /\ rfc_sequence d' = (rfc_sequence d + 1) mod 2 ^ 16).
Proof.
  intros d v Hb Hl.
  destruct (setSequence_ok d v Hb Hl) as (d1 & E1 & (A1 & B1 & C1) & F1).
  destruct (setTimestamp_ok d v Hb Hl) as (d2 & E2 & (A2 & B2 & C2) & F2).
  destruct (setSSRC_ok d v Hb Hl) as (d3 & E3 & (A3 & B3 & C3) & F3).
  destruct (increase_ok d Hb Hl) as (d4 & E4 & (A4 & B4 & C4) & F4).
  split; [exists d1|split; [exists d2|split; [exists d3|exists d4]]]; repeat (split; [assumption|]); try assumption; (split; [split|]; assumption).
Qed.
Example rtp_setters_example : setSequence one_source 0x10203 = Some [0x81; 96; 2; 3; 0; 0; 0; 2; 0; 0; 0; 3; 0; 0; 0; 4; 0x41; 0x42].
Proof. reflexivity. Qed.

(** A new packet carries what it was created with, and sequence number one below the given one:
    increasing before the first packet, as the outputs do, gives the given number. *)
Theorem rtp_new_packet : forall junk pt seq ts ssrc csrc, bytesP junk -> 0 <= csrc < 16 -> 0 <= pt < 128 ->
  len junk = 12 + 4 * csrc + 2 + MAX_SEND ->
  exists d, newPacket junk pt seq ts ssrc csrc = Some d /\ len d = len junk /\
    rfc_version d = 2 /\ rfc_padding d = 0 /\ rfc_extension d = 0 /\ rfc_csrc_count d = csrc /\
    rfc_marker d = 0 /\ rfc_payload_type d = pt /\ rfc_sequence d = (seq - 1) mod 2 ^ 16 /\
    rfc_timestamp d = ts mod 2 ^ 32 /\ rfc_ssrc d = ssrc mod 2 ^ 32 /\
    (~ 72 <= pt <= 76 -> Z.even csrc = true -> sendable d (12 + 4 * csrc)).
Proof.
  intros junk pt seq ts ssrc csrc Hb Hc Hp Hl.
  destruct (new_ok junk pt seq ts ssrc csrc Hb Hl Hc Hp) as (d & E & A & B & R). exists d.
  destruct R as (R1 & R2 & R3 & R4 & R5 & R6 & R7 & R8 & R9). conjs; try assumption.
  intros Q1 Q2. unfold MAX_SEND in Hl. constructor; rewrite ?R4, ?R6; try assumption; try lia.
Qed.
Definition fresh : list Z :=
  match newPacket (repeat 7 (Z.to_nat (14 + MAX_SEND))) 97 65001 90000 0x12345678 0 with Some d => d | None => [] end.
Example rtp_new_packet_example : takez 12 fresh = [0x80; 97; 0xFD; 0xE8; 0; 1; 0x5F; 0x90; 0x12; 0x34; 0x56; 0x78] /\ len fresh = 1486.
Proof. vm_compute. split; reflexivity. Qed.

(** The payload is what RFC 3550 says it is, nothing of header, sources, extension or padding,
    for an even number of sources and a packet long enough for its extension header.  Missing:
    odd source counts (above) and packets cut short (below). *)
Theorem rtp_payload_partial : forall d, bytesP d -> 12 <= len d -> Z.even (rfc_csrc_count d) = true ->
  (rfc_extension d = 0 \/ rfc_csrc_end d + 4 <= len d) ->
  payload d = Some (if rfc_header_size d + rfc_padding_size d <? len d then rfc_payload d else []).
Proof. intros d Hb Hl He Hx. now apply payload_ok. Qed.
Example rtp_payload_example :
  payload [0xB0; 96; 0; 1; 0; 0; 0; 2; 0; 0; 0; 3;  0xBE; 0xDE; 0; 1; 9; 9; 9; 9;  0x41; 0x42; 0x43;  0; 2] = Some [0x41; 0x42; 0x43].
Proof. reflexivity. Qed.
(** A 12 byte packet that announces an extension is read behind its end. *)
Theorem rtp_payload_short_refuted : exists d, bytesP d /\ 12 <= len d /\ getHsize d = None.
Proof. exists [0x90; 96; 0; 1; 0; 0; 0; 2; 0; 0; 0; 3]. split; [apply all_bytes_ok; reflexivity|]. split; [discriminate|reflexivity]. Qed.

(** ** C32: H.264 *)

(** A NAL unit that fits in one packet is sent as one packet, of at most the buffer's size, that
    carries the sender's sequence number (the next one gets the next number) and the marker if
    this is the last unit of the picture and a coded slice; a receiver in any state gets exactly
    the unit, with its four byte length. *)
Theorem rtp_h264_small : forall s hs pre nal post last,
  sendable (sdata s) hs -> bytesP (pre ++ nal ++ post) -> 0 < len nal -> 1 <= nthz nal 0 mod 32 <= 23 ->
  len nal + hs + 2 <= len (sdata s) ->
  exists pkt s', sendH264 s (pre ++ nal ++ post) (len pre) (len nal) last = Some ([pkt], s') /\
    sendable (sdata s') hs /\ len (sdata s') = len (sdata s) /\ len pkt <= len (sdata s) /\
    rfc_sequence pkt = rfc_sequence (sdata s) /\ rfc_sequence (sdata s') = (rfc_sequence (sdata s) + 1) mod 65536 /\
    rfc_marker pkt = (if last && (nthz nal 0 mod 32 <=? 5) then 1 else 0) /\
    (forall r, exists r', addRTPs false r [pkt] = Some ([prefixed nal], r') /\ fuaBuffer r' = fuaBuffer r).
Proof.
  intros s hs pre nal post last H1 H2 H3 H4 H5.
  destruct (h264_whole s hs pre nal post last H1 H2 H3 H4 H5) as (p & s' & A & B & C & D & E & F & G & H). exists p, s'.
  conjs; try assumption. intros r. rewrite H. eexists. split; reflexivity.
Qed.

(** A larger NAL unit is sent in at least two packets of at most the buffer's size, numbered
    consecutively, the marker on the last only.  A receiver between units gets one unit: the
    sent one followed by one byte too many, the one that follows the unit in the sender's
    memory.  Missing: the extra byte, the wrap of the sequence number within the unit, and
    parameter sets (types 7 and 8) larger than a packet; the first two are refuted below. *)
Theorem rtp_h264_fragmented_partial : forall s hs pre nal x post last,
  sendable (sdata s) hs -> bytesP (pre ++ nal ++ x :: post) -> 1 <= nthz nal 0 mod 32 <= 23 -> nthz nal 0 mod 32 <> 7 -> nthz nal 0 mod 32 <> 8 ->
  len nal < 2 ^ 31 -> len (sdata s) < len nal + hs + 2 ->
  exists pkts s', sendH264 s (pre ++ nal ++ x :: post) (len pre) (len nal) last = Some (pkts, s') /\
    sendable (sdata s') hs /\ len (sdata s') = len (sdata s) /\ 1 < len pkts /\ Forall (fun p => len p <= len (sdata s)) pkts /\
    numbered (rfc_sequence (sdata s)) pkts /\ rfc_sequence (sdata s') = (rfc_sequence (sdata s) + len pkts) mod 65536 /\
    marked_last (if last then 1 else 0) pkts /\
    (forall r, fuaBuffer r = [] -> rfc_sequence (sdata s) + len pkts <= 65536 ->
       exists r', addRTPs false r pkts = Some ([prefixed (nal ++ [x])], r') /\ fuaBuffer r' = []).
Proof.
  intros s hs pre nal x post last H1 H2 H3 H4 H5 H6 H7.
  destruct (h264_frags s hs pre nal x post last H1 H2 H3 H4 H5 H6 H7) as (p & s' & A & B & C & D & E & F & G & H & K). exists p, s'.
  conjs; try assumption. intros r R1 R2. destruct (K r R1 R2) as (r' & -> & R'). exists r'. split; [|assumption].
  unfold prefixed. rewrite len_app. reflexivity.
Qed.

(** A whole frame of units that each fit in a packet and of which the last has at least four
    bytes: the packets are numbered consecutively, only the last may carry the marker, and the
    receiver gets the units of the frame in order, without the filler data. *)
Theorem rtp_h264_frame_partial : forall s hs units,
  sendable (sdata s) hs -> bytesP (frame_of units) -> len (frame_of units) < 2 ^ 31 ->
  Forall (fun u => 0 < len u /\ 1 <= nthz u 0 mod 32 <= 23 /\ len u + hs + 2 <= len (sdata s)) units ->
  (units = [] \/ 4 <= len (last units [])) -> not_filler units <> [] ->
  exists pkts s', sendData_H264 s (frame_of units) = Some (pkts, s') /\
    sendable (sdata s') hs /\ len (sdata s') = len (sdata s) /\ rfc_sequence (sdata s') = (rfc_sequence (sdata s) + len pkts) mod 65536 /\
    Forall (fun p => len p <= len (sdata s)) pkts /\ numbered (rfc_sequence (sdata s)) pkts /\
    marked_last (frame_marker (last (not_filler units) [])) pkts /\
    (forall r, exists r', addRTPs false r pkts = Some (map prefixed (not_filler units), r') /\ fuaBuffer r' = fuaBuffer r).
Proof.
  intros s hs units Hs Hb H31 Hf Hl Hn.
  destruct (frame_ok (frame_of units) hs (len (sdata s)) Hb units (S (List.length (frame_of units))) [] s (rfc_sequence (sdata s)) None [])
    as (pkts & s' & A & (B1 & B2 & B3) & C & D & E & F); try assumption; try reflexivity.
  - clear - Hf. assert (Q : (List.length units <= List.length (frame_of units))%nat).
    { induction Hf as [|u us Hu _ IH]; [apply le_n|]. cbn [frame_of flat_map List.length]. rewrite app_length. fold (frame_of us). unfold prefixed. rewrite app_length, be_length. lia. }
    lia.
  - split; [assumption|]. split; [reflexivity|]. symmetry. apply Z.mod_small. apply seq_range; [apply (sd_bytes _ _ Hs)|].
    pose proof (sd_size _ _ Hs). pose proof (sendable_plain _ _ Hs) as (_ & ? & _). lia.
  - exists pkts, s'. conjs; try assumption.
    unfold marked_last. rewrite E. cbn [app]. unfold marks.
    assert (LP : List.length pkts = List.length (not_filler units)).
    { rewrite <- (map_length rfc_marker), E. cbn [app]. unfold marks. destruct (not_filler units) as [|u us]; [reflexivity|].
      rewrite app_length, repeat_length. cbn [List.length]. lia. }
    rewrite LP. destruct (not_filler units); [now destruct Hn|reflexivity].
Qed.

Definition sndr : sender := mksnd fresh 0 0.
Lemma fresh_sendable : sendable fresh 12.
Proof.
  destruct (rtp_new_packet (repeat 7 (Z.to_nat (14 + MAX_SEND))) 97 65001 90000 0x12345678 0) as (d & E & R); try lia.
  - apply all_bytes_ok. vm_compute. reflexivity.
  - vm_compute. reflexivity.
  - unfold fresh. rewrite E. apply R; [lia|reflexivity].
Qed.
Definition sps : list Z := [0x67; 1; 2; 3; 4].
Definition filler : list Z := [0x0C; 255; 255].
Definition slice : list Z := [0x65; 9; 8; 7].
Example rtp_h264_frame_example :
  let r := sendData_H264 sndr (frame_of [sps; filler; slice]) in
  option_map (fun x => map (takez 20) (fst x)) r =
    Some [[0x80; 97; 0xFD; 0xE8; 0; 1; 0x5F; 0x90; 0x12; 0x34; 0x56; 0x78; 0x67; 1; 2; 3; 4];
          [0x80; 97 + 128; 0xFD; 0xE9; 0; 1; 0x5F; 0x90; 0x12; 0x34; 0x56; 0x78; 0x65; 9; 8; 7]] /\
  option_map fst (x <- r;; addRTPs false (mkrecv [] 0) (fst x)) = Some [prefixed sps; prefixed slice].
Proof. vm_compute. split; reflexivity. Qed.
(** A unit of 2000 bytes takes two packets. *)
Definition big_nal : list Z := 0x65 :: repeat 5 (Z.to_nat 1999).
Example rtp_h264_fragmented_example :
  option_map (fun x => map len (fst x)) (sendH264 sndr (big_nal ++ [0x99]) 0 2000 true) = Some [1486; 542].
Proof. vm_compute. reflexivity. Qed.
(** The received unit is not the one that was sent ... *)
Theorem rtp_h264_extra_byte_refuted :
  sendable (sdata sndr) 12 /\
  exists pkts s', sendH264 sndr (big_nal ++ [0x99]) 0 (len big_nal) true = Some (pkts, s') /\
    option_map fst (addRTPs false (mkrecv [] 64999) pkts) = Some [prefixed (big_nal ++ [0x99])].
Proof.
  split; [exact fresh_sendable|].
  destruct (sendH264 sndr (big_nal ++ [0x99]) 0 (len big_nal) true) as [[p s']|] eqn:E; [|vm_compute in E; discriminate].
  exists p, s'. split; [reflexivity|].
  assert (H : option_map fst (x <- sendH264 sndr (big_nal ++ [0x99]) 0 (len big_nal) true;; addRTPs false (mkrecv [] 64999) (fst x)) = Some [prefixed (big_nal ++ [0x99])]) by (vm_compute; reflexivity).
  rewrite E in H. exact H.
Qed.
(** ... and at the end of the frame's memory the sender reads behind it. *)
Theorem rtp_h264_overread_refuted : sendData_H264 sndr (frame_of [sps; big_nal]) = None.
Proof. vm_compute. reflexivity. Qed.
(** A frame whose last unit has less than four bytes is also read behind its end. *)
Theorem rtp_h264_short_unit_refuted : sendData_H264 sndr (frame_of [slice; [9; 16]]) = None.
Proof. vm_compute. reflexivity. Qed.
(** When the sequence number wraps within a unit, the unit is lost, though every packet arrives. *)
Theorem rtp_h264_wrap_refuted :
  exists d pkts s', setSequence fresh 65535 = Some d /\ sendable d 12 /\
    sendH264 (mksnd d 0 0) (big_nal ++ [0x99]) 0 (len big_nal) true = Some (pkts, s') /\
    option_map fst (addRTPs false (mkrecv [] 65534) pkts) = Some [].
Proof.
  destruct (setSequence fresh 65535) as [d|] eqn:E; [|vm_compute in E; discriminate].
  assert (H : option_map fst (d <- setSequence fresh 65535;; x <- sendH264 (mksnd d 0 0) (big_nal ++ [0x99]) 0 (len big_nal) true;; addRTPs false (mkrecv [] 65534) (fst x)) = Some []) by (vm_compute; reflexivity).
  rewrite E in H. destruct (sendH264 (mksnd d 0 0) (big_nal ++ [0x99]) 0 (len big_nal) true) as [[p s']|] eqn:E2; [|discriminate H].
  exists d, p, s'. split; [reflexivity|]. split; [|split; [exact E2|exact H]].
  pose proof fresh_sendable as Hs. destruct (sendable_plain _ _ Hs) as (Hp & _). pose proof (sd_size _ _ Hs).
  destruct (setSequence_ok fresh 65535 (sd_bytes _ _ Hs) ltac:(lia)) as (d' & E' & (S1 & S2 & S3) & _).
  rewrite E in E'. injection E' as <-. apply plain_sendable; [assumption|lia|]. rewrite !S3 by lia. exact Hp.
Qed.
(** The receiver trusts the sizes inside an aggregation packet, and that a fragment has its
    second header byte. *)
Theorem rtp_h264_receive_overread_refuted :
  handleH264 [] [24; 0; 200; 0x65; 1] false = None /\ handleH264 [] [28] false = None /\
  handleHEVC [] [48 * 2; 1; 0; 200; 0x65; 1] false = None /\ handleHEVC [] [49 * 2; 1] false = None.
Proof. repeat split. Qed.

(** ** C32: H.265 *)
Theorem rtp_h265_small : forall s hs pre nal post,
  sendable (sdata s) hs -> bytesP (pre ++ nal ++ post) -> 2 <= len nal -> ~ 48 <= (nthz nal 0 / 2) mod 64 <= 50 ->
  len nal + hs + 3 <= len (sdata s) ->
  exists pkt s', sendH265 s (pre ++ nal ++ post) (len pre) (len nal) = Some ([pkt], s') /\
    sendable (sdata s') hs /\ len (sdata s') = len (sdata s) /\ len pkt <= len (sdata s) /\
    rfc_sequence pkt = rfc_sequence (sdata s) /\ rfc_sequence (sdata s') = (rfc_sequence (sdata s) + 1) mod 65536 /\
    rfc_marker pkt = 1 /\
    (forall r, exists r', addRTPs true r [pkt] = Some ([prefixed nal], r') /\ fuaBuffer r' = fuaBuffer r).
Proof.
  intros s hs pre nal post H1 H2 H3 H4 H5.
  destruct (hevc_whole s hs pre nal post H1 H2 H3 H4 H5) as (p & s' & A & B & C & D & E & F & G & H). exists p, s'.
  conjs; try assumption. intros r. rewrite H. eexists. split; reflexivity.
Qed.
(** As for H.264, with two bytes too many. *)
Theorem rtp_h265_fragmented_partial : forall s hs pre nal x y post,
  sendable (sdata s) hs -> bytesP (pre ++ nal ++ x :: y :: post) -> len nal < 2 ^ 31 -> len (sdata s) < len nal + hs + 3 ->
  exists pkts s', sendH265 s (pre ++ nal ++ x :: y :: post) (len pre) (len nal) = Some (pkts, s') /\
    sendable (sdata s') hs /\ len (sdata s') = len (sdata s) /\ 1 < len pkts /\ Forall (fun p => len p <= len (sdata s)) pkts /\
    numbered (rfc_sequence (sdata s)) pkts /\ rfc_sequence (sdata s') = (rfc_sequence (sdata s) + len pkts) mod 65536 /\
    marked_last 1 pkts /\
    (forall r, fuaBuffer r = [] -> rfc_sequence (sdata s) + len pkts <= 65536 ->
       exists r', addRTPs true r pkts = Some ([prefixed (nal ++ [x; y])], r') /\ fuaBuffer r' = []).
Proof.
  intros s hs pre nal x y post H1 H2 H3 H4.
  destruct (hevc_frags s hs pre nal x y post H1 H2 H3 H4) as (p & s' & A & B & C & D & E & F & G & H & K). exists p, s'.
  conjs; try assumption. intros r R1 R2. destruct (K r R1 R2) as (r' & -> & R'). exists r'. split; [|assumption].
  unfold prefixed. rewrite len_app. reflexivity.
Qed.
Definition big_hevc : list Z := 0x26 :: 1 :: repeat 5 (Z.to_nat 1998).
Theorem rtp_h265_extra_bytes_refuted :
  sendable (sdata sndr) 12 /\
  exists pkts s', sendH265 sndr (big_hevc ++ [0x98; 0x99]) 0 (len big_hevc) = Some (pkts, s') /\
    option_map fst (addRTPs true (mkrecv [] 64999) pkts) = Some [prefixed (big_hevc ++ [0x98; 0x99])].
Proof.
  split; [exact fresh_sendable|].
  destruct (sendH265 sndr (big_hevc ++ [0x98; 0x99]) 0 (len big_hevc)) as [[p s']|] eqn:E; [|vm_compute in E; discriminate].
  exists p, s'. split; [reflexivity|].
  assert (H : option_map fst (x <- sendH265 sndr (big_hevc ++ [0x98; 0x99]) 0 (len big_hevc);; addRTPs true (mkrecv [] 64999) (fst x)) = Some [prefixed (big_hevc ++ [0x98; 0x99])]) by (vm_compute; reflexivity).
  rewrite E in H. exact H.
Qed.
Theorem rtp_h265_overread_refuted : sendH265 sndr big_hevc 0 (len big_hevc) = None.
Proof. vm_compute. reflexivity. Qed.

Print Assumptions rtp_header_fields_partial.
Print Assumptions rtp_contrib_count_partial.
Print Assumptions rtp_contrib_count_refuted.
Print Assumptions rtp_setters.
Print Assumptions rtp_new_packet.
Print Assumptions rtp_payload_partial.
Print Assumptions rtp_payload_short_refuted.
Print Assumptions rtp_h264_small.
Print Assumptions rtp_h264_fragmented_partial.
Print Assumptions rtp_h264_frame_partial.
Print Assumptions rtp_h264_extra_byte_refuted.
Print Assumptions rtp_h264_overread_refuted.
Print Assumptions rtp_h264_short_unit_refuted.
Print Assumptions rtp_h264_wrap_refuted.
Print Assumptions rtp_h264_receive_overread_refuted.
Print Assumptions rtp_h265_small.
Print Assumptions rtp_h265_fragmented_partial.
Print Assumptions rtp_h265_extra_bytes_refuted.
Print Assumptions rtp_h265_overread_refuted.

(** ** Aggregation packets (RFC 6184 5.7.1, RFC 7798 4.4.2) *)
Lemma peek_mid a b c n m : n = len a -> m = len b -> peek (a ++ b ++ c) n m = Some b.
Proof.
  intros -> ->.
  pose proof (len_nonneg a). pose proof (len_nonneg b). pose proof (len_nonneg c).
  rewrite peek_some by (rewrite ?len_app; lia). rewrite dropz_app_exact, takez_app_exact by reflexivity. reflexivity.
Qed.
Lemma btohs_be n : 0 <= n < 65536 -> btohs (be 2 n) = n.
Proof.
  intros H. rewrite (rd_btohs (be 2 n)); [| apply be_bytes | rewrite be_len; lia].
  rewrite firstn_all2 by (rewrite be_length; lia). rewrite unbe_be, Z.mod_small by lia. reflexivity.
Qed.
Lemma aggregated_cons u us : aggregated (u :: us) = be 2 (len u) ++ u ++ aggregated us.
Proof. cbn [aggregated flat_map]. rewrite app_assoc. reflexivity. Qed.
Lemma stap_ok units : forall fuel pre, (List.length units < fuel)%nat -> Forall (fun u => len u < 65536) units ->
  stap_loop fuel (pre ++ aggregated units) (len pre) = Some (map prefixed units).
Proof.
  induction units as [| u us IH]; intros [| k] pre L F; try (cbn in L; lia); cbn [stap_loop map].
  - cbn [aggregated flat_map]. rewrite app_nil_r. destruct (Z.ltb_spec (len pre + 1) (len pre)); [lia | reflexivity].
  - apply Forall_cons_iff in F as (Hu & F). cbn [List.length] in L. rewrite aggregated_cons.
    pose proof (len_nonneg u) as Q. pose proof (len_nonneg (aggregated us)) as Q'.
    replace (len pre + 1 <? _) with true by (rewrite !len_app, be_len; lia).
    rewrite (peek_mid pre (be 2 (len u))) by (reflexivity || (rewrite be_len; reflexivity)). cbv beta iota. rewrite btohs_be by lia.
    replace (pre ++ be 2 (len u) ++ u ++ aggregated us) with ((pre ++ be 2 (len u)) ++ u ++ aggregated us) by (rewrite <- app_assoc; reflexivity).
    replace (len pre + 2) with (len (pre ++ be 2 (len u))) by (rewrite len_app, be_len; lia).
    rewrite peek_mid by reflexivity. cbv beta iota.
    replace ((pre ++ be 2 (len u)) ++ u ++ aggregated us) with (((pre ++ be 2 (len u)) ++ u) ++ aggregated us) by (rewrite <- !app_assoc; reflexivity).
    rewrite <- len_app. rewrite IH by (assumption || lia). cbv beta iota. rewrite wr_htobl. reflexivity.
Qed.
Lemma ap_ok units : forall fuel pre, (List.length units < fuel)%nat -> Forall (fun u => 0 < len u < 65536) units ->
  ap_loop fuel (pre ++ aggregated units) (len pre) = Some (map prefixed units).
Proof.
  induction units as [| u us IH]; intros [| k] pre L F; try (cbn in L; lia); cbn [ap_loop map].
  - cbn [aggregated flat_map]. rewrite app_nil_r. destruct (Z.ltb_spec (len pre + 2) (len pre)); [lia | reflexivity].
  - apply Forall_cons_iff in F as (Hu & F). cbn [List.length] in L. rewrite aggregated_cons.
    pose proof (len_nonneg u) as Q. pose proof (len_nonneg (aggregated us)) as Q'.
    replace (len pre + 2 <? _) with true by (rewrite !len_app, be_len; lia).
    rewrite (peek_mid pre (be 2 (len u))) by (reflexivity || (rewrite be_len; reflexivity)). cbv beta iota. rewrite btohs_be by lia.
    replace (pre ++ be 2 (len u) ++ u ++ aggregated us) with ((pre ++ be 2 (len u)) ++ u ++ aggregated us) by (rewrite <- app_assoc; reflexivity).
    replace (len pre + 2) with (len (pre ++ be 2 (len u))) by (rewrite len_app, be_len; lia).
    rewrite peek_mid by reflexivity. cbv beta iota.
    replace ((pre ++ be 2 (len u)) ++ u ++ aggregated us) with (((pre ++ be 2 (len u)) ++ u) ++ aggregated us) by (rewrite <- !app_assoc; reflexivity).
    rewrite <- len_app. rewrite IH by (assumption || lia). cbv beta iota. rewrite wr_htobl. reflexivity.
Qed.

Lemma aggregated_len us : Z.of_nat (List.length us) <= len (aggregated us).
Proof.
  induction us as [| u us IH]; [cbn; lia |]. rewrite aggregated_cons. cbn [List.length]. rewrite !len_app, be_len. pose proof (len_nonneg u). lia.
Qed.
(** An H.264 aggregation packet delivers exactly its units, in order, whatever fragment is being assembled. *)
Theorem rtp_h264_aggregated : forall fua missed h units, 0 <= h < 256 -> h mod 32 = 24 -> Forall (fun u => len u < 65536) units ->
  handleH264 fua (h :: aggregated units) missed = Some (map prefixed units, fua).
Proof.
  intros fua missed h units Hh Ht F. unfold handleH264. rewrite len_cons. pose proof (len_nonneg (aggregated units)) as Q.
  destruct (Z.eqb_spec (1 + len (aggregated units)) 0); [lia |].
  change (rd (h :: aggregated units) 0) with (Some h). cbv beta iota zeta.
  replace (h .& 31) with 24 by (change 31 with (Z.ones 5); rewrite Z.land_ones by lia; exact (eq_sym Ht)). cbn [Z.eqb Z.ltb Pos.eqb Z.compare Pos.compare Pos.compare_cont].
  change (h :: aggregated units) with ([h] ++ aggregated units). pose proof (aggregated_len units) as L.
  pose proof (stap_ok units (S (List.length ([h] ++ aggregated units))) [h]) as X. change (len [h]) with 1 in X. rewrite X; [reflexivity | | exact F].
  rewrite app_length. unfold len in L. lia.
Qed.
(** The same for H.265, for units that are not empty. *)
Theorem rtp_h265_aggregated : forall fua missed h0 h1 units, 0 <= h0 < 256 -> (h0 / 2) mod 64 = 48 -> Forall (fun u => 0 < len u < 65536) units ->
  handleHEVC fua (h0 :: h1 :: aggregated units) missed = Some (map prefixed units, fua).
Proof.
  intros fua missed h0 h1 units Hh Ht F. unfold handleHEVC. rewrite !len_cons. pose proof (len_nonneg (aggregated units)) as Q.
  destruct (Z.ltb_spec (1 + (1 + len (aggregated units))) 2); [lia |].
  change (rd (h0 :: h1 :: aggregated units) 0) with (Some h0). replace (rd (h0 :: h1 :: aggregated units) 1) with (Some h1) by (unfold rd; rewrite !len_cons; replace ((0 <=? 1) && _) with true by lia; reflexivity). cbv beta iota zeta.
  replace ((h0 .& 126) >> 1) with 48.
  2:{ rewrite Z.shiftr_land. change (126 >> 1) with (Z.ones 6). rewrite Z.land_ones by lia. rewrite Z.shiftr_div_pow2 by lia. exact (eq_sym Ht). }
  cbn [Z.eqb Pos.eqb].
  change (h0 :: h1 :: aggregated units) with ([h0; h1] ++ aggregated units). pose proof (aggregated_len units) as L.
  pose proof (ap_ok units (S (List.length ([h0; h1] ++ aggregated units))) [h0; h1]) as X. change (len [h0; h1]) with 2 in X. rewrite X; [reflexivity | | exact F].
  rewrite app_length. unfold len in L. lia.
Qed.
Example rtp_aggregated_example : handleH264 [] (24 :: aggregated [[0x67; 1; 2]; [0x68; 3]]) false = Some ([[0; 0; 0; 3; 0x67; 1; 2]; [0; 0; 0; 2; 0x68; 3]], []).
Proof. reflexivity. Qed.
Print Assumptions rtp_h264_aggregated.
Print Assumptions rtp_h265_aggregated.
