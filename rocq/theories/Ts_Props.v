(** Transport stream: properties C34 to C37, C52 and C53. *)
From Verif Require Import Common CommonFacts CommonMore Bitfields_Model Bitfields_Proofs Ts_Model Ts_Spec Ts_Proofs Ts_Mux_Proofs Ts_Pes_Proofs Ts_Demux_Proofs.
Import List.

(** * C34: fields of a packet are independent *)
(** 188 bytes. *)
Definition packet_bytes (b : list Z) : Prop := bytesP b /\ len b = 188.

Theorem ts_getters : forall b, packet_bytes b ->
  getPID b = pid_ (view b) /\ getContinuityCounter b = counter (view b) /\ getAdaptationField b = afc (view b) /\
  (getUnitStart b = true <-> unit_start (view b) = 1) /\ (hasTransportError b = true <-> error (view b) = 1) /\
  (hasPriority b = true <-> priority (view b) = 1) /\ getTransportScramblingControl b = scrambling (view b).
Proof.
  intros b H. pose proof (buf_nth b 1 H) as B1. pose proof (buf_nth b 3 H) as B3. split; [now apply view_pid|]. split; [now apply view_cc|]. split; [now apply view_af|].
  split; [rewrite view_us by exact H; apply Z.eqb_eq|]. unfold hasTransportError, hasPriority, getTransportScramblingControl, view. cbn [error priority scrambling].
  change 0x80 with (2 ^ 7). change 0x20 with (2 ^ 5). rewrite !b_test by (assumption || lia). change 3 with (Z.ones 2) at 2. rewrite Z.land_ones, shr_div by lia. unfold byteP in *.
  split; [rewrite Z.eqb_eq; change (2 ^ 7) with 128; split; intros; lia|]. split; [rewrite Z.eqb_eq; change (2 ^ 5) with 32; split; intros; lia|]. lia.
Qed.
Theorem ts_setPID : forall p v, packet_bytes (pbuf p) ->
  packet_bytes (pbuf (setPID p v)) /\ view (pbuf (setPID p v)) = with_pid (v mod 8192) (view (pbuf p)).
Proof. intros p v H. destruct (setPID_ok p H v) as (A & B & _). now split. Qed.
Theorem ts_setContinuityCounter : forall p v, packet_bytes (pbuf p) ->
  packet_bytes (pbuf (setContinuityCounter p v)) /\ view (pbuf (setContinuityCounter p v)) = with_counter (v mod 16) (view (pbuf p)).
Proof. intros p v H. destruct (setCC_ok p H v) as (A & B & _). now split. Qed.
Theorem ts_setUnitStart : forall p v, packet_bytes (pbuf p) ->
  packet_bytes (pbuf (setUnitStart p v)) /\ view (pbuf (setUnitStart p v)) = with_unit_start (if v then 1 else 0) (view (pbuf p)).
Proof. intros p v H. destruct (setUS_ok p H v) as (A & B & _). now split. Qed.
(** Selecting an adaptation field empties it; otherwise the body is untouched. *)
Theorem ts_setAdaptationField : forall p v, packet_bytes (pbuf p) -> 0 <= v < 4 ->
  packet_bytes (pbuf (setAdaptationField p v)) /\
  view (pbuf (setAdaptationField p v)) =
    with_afc v (with_body (if 2 <=? v then 0 :: dropz 1 (body (view (pbuf p))) else body (view (pbuf p))) (view (pbuf p))).
Proof.
  intros p v H Hv. destruct (setAF_ok p H v) as (A & B & _). split; [exact A|]. rewrite B. rewrite Z.mod_small by lia.
  replace (v / 2 mod 2 =? 1) with (2 <=? v) by (destruct (Z.leb_spec 2 v), (Z.eqb_spec (v / 2 mod 2) 1); lia).
  reflexivity.
Qed.
(** The three flags of the adaptation field: the one set has the value, the other seven keep theirs when
    there was an adaptation field and are cleared when there was none, a field of length 0 grows
    to 1, nothing behind the flags changes. *)
Theorem ts_flags : forall k set p v, packet_bytes (pbuf p) ->
  In (k, set) [(DISCONTINUITY, setDiscontinuity); (RANDOM_ACCESS, setRandomAccess); (ES_PRIORITY, setESPriority)] ->
  let b := pbuf p in let b' := pbuf (set p v) in
  packet_bytes b' /\ same_header b' b /\ afc (view b') = 3 /\
  af_bit b' k = (if v then 1 else 0) /\
  (forall j, 0 <= j < 8 -> j <> k -> af_bit b' j = if afc (view b) =? 3 then af_bit b j else 0) /\
  nthz (body (view b')) 0 = (if (afc (view b) =? 3) && negb (nthz (body (view b)) 0 =? 0) then nthz (body (view b)) 0 else 1) /\
  dropz 2 (body (view b')) = dropz 2 (body (view b)).
Proof.
  intros k set p v H Hin b b'.
  assert (K : 0 <= k < 8 /\ set = set_flag (2 ^ k) (255 - 2 ^ k)).
  { destruct Hin as [E|[E|[E|[]]]]; injection E as <- <-; (split; [unfold DISCONTINUITY, RANDOM_ACCESS, ES_PRIORITY; lia|reflexivity]). }
  destruct K as [Hk ->]. destruct (set_flag_ok k p v Hk H) as (F1 & F2 & F3 & _ & F5 & F6 & F7). fold b' in F1, F2, F3, F5, F6, F7. fold b in F2, F5, F6, F7.
  assert (N5 : forall x, packet_bytes x -> nthz (body (view x)) 1 = nthz x 5) by (intros x [_ Lx]; rewrite body_view, nthz_dropz by lia; reflexivity).
  pose proof (buf_nth b 5 H) as B5. assert (Z0 : byteP 0) by (unfold byteP; lia).
  split; [exact F1|]. split; [exact F2|]. split; [exact F3|]. unfold af_bit. rewrite !N5 by (exact F1 || exact H). rewrite F6.
  split; [|split; [|split]].
  - apply setbit_same; [destruct (afc (view b) =? 3); assumption|exact Hk|destruct v; auto].
  - intros j Hj Hn. rewrite setbit_other; [|destruct (afc (view b) =? 3); assumption|exact Hk|exact Hj|exact Hn|destruct v; auto].
    destruct (afc (view b) =? 3); [reflexivity|]. rewrite Z.div_0_l by (pose proof (Z.pow_pos_nonneg 2 j); lia). reflexivity.
  - rewrite !af_len_view by (exact F1 || exact H). exact F5.
  - destruct F1 as [_ L1]. pose proof (proj2 H) as L0. fold b in L0. rewrite !body_view. rewrite !dropz_dropz by lia. apply nthz_ext; [rewrite !len_dropz by lia; lia|].
    intros i Hi. rewrite !nthz_dropz by lia. apply F7. lia.
Qed.
Theorem ts_flag_getters : forall b, packet_bytes b -> 2 <= afc (view b) ->
  (hasDiscontinuity b = true <-> af_bit b DISCONTINUITY = 1) /\ (getRandomAccess b = true <-> af_bit b RANDOM_ACCESS = 1) /\
  (getESPriority b = true <-> af_bit b ES_PRIORITY = 1) /\ (hasPCR b = true <-> af_bit b PCR_FLAG = 1).
Proof.
  intros b H Ha. pose proof (buf_nth b 5 H) as B5. unfold hasDiscontinuity, getRandomAccess, getESPriority, hasPCR, af_bit. rewrite view_af by exact H.
  assert (N5 : nthz (body (view b)) 1 = nthz b 5) by (destruct H; rewrite body_view, nthz_dropz by lia; reflexivity). rewrite N5.
  destruct (Z.ltb_spec (afc (view b)) 2); [lia|]. change 0x80 with (2 ^ DISCONTINUITY). change 0x40 with (2 ^ RANDOM_ACCESS). change 0x20 with (2 ^ ES_PRIORITY). change 0x10 with (2 ^ PCR_FLAG).
  rewrite !b_test by (assumption || (unfold DISCONTINUITY, RANDOM_ACCESS, ES_PRIORITY, PCR_FLAG; lia)). rewrite !Z.eqb_eq. repeat split; auto.
Qed.
Example ts_fields_case :
  let p := setRandomAccess (setUnitStart (setContinuityCounter (setPID (mkpkt (repeat 0xFF 188) 0) 0x1234) 0x15) false) true in
  packet_bytes (repeat 0xFF 188) /\ getPID (pbuf p) = 0x1234 /\ getContinuityCounter (pbuf p) = 5 /\ getUnitStart (pbuf p) = false /\ hasPriority (pbuf p) = true /\ getRandomAccess (pbuf p) = true.
Proof. split; [split; [apply all_bytes_ok; vm_compute; reflexivity|reflexivity]|vm_compute; repeat split; reflexivity]. Qed.

(** * C35: exactly filled packets *)
(** One packet: header set up, payload [data] put in with fillFree (1 to 184 bytes), stuffed. *)
Theorem ts_one_packet : forall data pid c, bytesP data -> 0 < len data <= 184 -> 0 <= pid < 8192 ->
  exists n p1 p2, fillFree (setContinuityCounter (setPID clear pid) c) data = Some (n, p1) /\ n = len data /\ addStuffing p1 = Some p2 /\
  valid (pbuf p2) /\ payload (pbuf p2) = Some data /\ pid_ (view (pbuf p2)) = pid /\ counter (view (pbuf p2)) = c mod 16 /\ ppos p2 = 188.
Proof.
  intros data pd c Hd Hl Hp.
  destruct (setPID_ok clear clear_ok pd) as (B1 & V1 & P1). set (p1 := setPID clear pd) in *.
  destruct (setCC_ok p1 B1 c) as (B2 & V2 & P2). set (p2 := setContinuityCounter p1 c) in *. rewrite V1, clear_view in V2. rewrite P1 in P2. change (ppos clear) with 4 in P2.
  assert (PP : ppos p2 = 4) by lia.
  destruct (building_nil_af1 p2 B2 ltac:(rewrite V2; reflexivity) PP) as [G1 G2].
  destruct (fillFree_ok p2 [] data G1 Hd ltac:(lia)) as (p3 & E3 & B3 & P3 & T3). rewrite G2 in T3. rewrite PP in *. change (188 - 4) with 184 in *. cbn [app] in B3. rewrite takez_all in B3 by lia.
  destruct (addStuffing_ok p3 data B3) as (p4 & E4 & [R1 R2 R3 R4 R5 R6]); [intros ->; change (len (@nil Z)) with 0 in Hl; lia|].
  destruct (same_header_4 (pbuf p3) (pbuf p2) T3 (proj2 (bd_buf _ _ B3)) (proj2 B2)) as [S3 _].
  pose proof (same_header_trans _ _ _ R3 S3) as (S1 & S2 & S4 & S5 & S6 & S7 & S8). rewrite V2 in S1, S6, S8. cbn [with_pid with_counter sync pid_ counter] in S1, S6, S8. rewrite Z.mod_small in S6 by lia.
  exists (Z.min 184 (len data)), p3, p4. split; [exact E3|]. split; [lia|]. split; [exact E4|]. split; [|repeat split; assumption].
  destruct R1. split; [assumption|]. split; [assumption|]. split; [exact S1|]. now exists data.
Qed.
Example ts_one_packet_case : bytesP [1; 2; 3] /\ 0 < len [1; 2; 3] <= 184 /\ len (repeat 7 184) = 184 /\ len (repeat 7 183) = 183.
Proof. split; [apply all_bytes_ok; reflexivity|]. repeat split; vm_compute; congruence. Qed.

(** A frame given in any number of pieces to the packetizer, from any state between frames. *)
Definition times_fit (f : meta) : Prop := 0 <= pid f < 8192 /\ 0 <= time f /\ time f * 27000 < 2 ^ 63.
Definition piece (c : list Z) : Prop := bytesP c /\ len c < 2 ^ 31.
Definition between_frames (m : mux) : Prop := ppos (mpk m) = 4 /\ 0 <= mcont m < 65536.
Theorem ts_frame_carried : forall f chunks m, times_fit f -> Forall piece chunks -> between_frames m ->
  exists m' packets, send_frame f chunks m = Some m' /\ between_frames m' /\ msent m' = msent m ++ packets /\
  carries (pid f) (mcont m) (concat chunks) packets /\ mcont m' = (mcont m + len packets) mod 65536.
Proof.
  intros f chunks m Hf HF [Hp Hc]. assert (U : mcont m = u16 (mcont m)) by (unfold u16; now rewrite Z.mod_small by lia).
  destruct (send_frame_ok f chunks m Hf HF Hp U) as (m' & pk & E1 & E2 & E3 & E4 & E5). exists m', pk.
  split; [exact E1|]. split; [split; [exact E3|rewrite E4; unfold u16; apply Z.mod_pos_bound; lia]|]. split; [exact E2|]. split; [now apply pack_carries|exact E4].
Qed.
Example ts_frame_carried_case : exists m', send_frame (mkmeta true true 256 40) [repeat 1 200; repeat 2 30] mux0 = Some m' /\ len (msent m') = 2 /\
  payloads (msent m') = Some (repeat 1 200 ++ repeat 2 30) /\ times_fit (mkmeta true true 256 40) /\ between_frames mux0.
Proof. eexists. split; [vm_compute; reflexivity|]. split; [reflexivity|]. split; [vm_compute; reflexivity|]. unfold times_fit, between_frames; cbn; repeat split; lia. Qed.
(** The first packet of a video frame carries the program clock and, for a keyframe, the random access and
    priority flags. *)
Theorem ts_video_clock : forall f chunks m, times_fit f -> Forall piece chunks -> between_frames m -> video f = true -> concat chunks <> [] ->
  exists m' b rest, send_frame f chunks m = Some m' /\ msent m' = msent m ++ b :: rest /\
  pcr b = Some ((time f * 27000) mod (2 ^ 33 * 300)) /\ af_bit b RANDOM_ACCESS = (if keyframe f then 1 else 0) /\
  af_bit b ES_PRIORITY = (if keyframe f then 1 else 0) /\ af_bit b DISCONTINUITY = 0.
Proof.
  intros f chunks m Hf HF [Hp Hc] Hv Hne. assert (U : mcont m = u16 (mcont m)) by (unfold u16; now rewrite Z.mod_small by lia).
  destruct (send_frame_ok f chunks m Hf HF Hp U) as (m' & pk & E1 & E2 & E3 & E4 & [P1 P2]). destruct pk as [|b r]; [cbn in P1; congruence|].
  exists m', b, r. split; [exact E1|]. split; [exact E2|]. pose proof (len_nonneg r).
  pose proof (P2 0 ltac:(rewrite len_cons; lia)) as Q. change (nthb (b :: r) 0) with b in Q. pose proof (h_buf _ _ _ _ Q) as Hb. pose proof (proj2 Hb) as L.
  destruct (h_pcr _ _ _ _ Q) as (A3 & N4 & T7); [now rewrite Hv|].
  assert (N5 : nthz b 5 = first_flags f) by (change (nthz b 5) with (nthz b (5 + 0)); rewrite <- (nthz_dropz b) by lia; rewrite <- (nthz_takez _ 0 7) by lia; rewrite T7; reflexivity).
  assert (NB : nthz (body (view b)) 1 = nthz b 5) by (rewrite body_view, nthz_dropz by lia; reflexivity).
  assert (T6 : takez 6 (dropz 6 b) = pcr_bytes (time f * 27000)).
  { apply nthz_ext; [rewrite len_takez by (rewrite len_dropz; lia); reflexivity|]. intros j Hj. rewrite len_takez in Hj by (rewrite len_dropz; lia).
    rewrite nthz_takez, nthz_dropz by lia. replace (6 + j) with (5 + (j + 1)) by lia. rewrite <- (nthz_dropz b (j + 1) 5) by lia. rewrite <- (nthz_takez (dropz 5 b) (j + 1) 7) by lia. rewrite T7. rewrite nthz_S by lia. f_equal. lia. }
  destruct Hf as (_ & Ht & _).
  split; [apply pcr_value; try assumption; try lia; rewrite N5; unfold first_flags; destruct (keyframe f); reflexivity|].
  unfold af_bit. rewrite NB, N5. unfold first_flags. destruct (keyframe f); repeat split; reflexivity.
Qed.
(** Frames of any number of tracks: on every PID the counters are consecutive. *)
Theorem ts_counters_consecutive : forall l conts p, Forall (fun '(f, chunks) => times_fit f /\ Forall piece chunks) l -> (forall q, 0 <= conts q < 65536) ->
  exists m, send_all l conts mux0 = Some m /\
  let mine := filter (fun b => getPID b =? p) (msent m) in
  map (fun b => counter (view b)) mine = counters (conts p) (List.length mine).
Proof.
  intros l conts p HF HC. destruct (send_all_ok l conts mux0) as (m & pks & E1 & E2 & E3).
  - revert HF. apply Forall_impl. intros [f ch] H. exact H.
  - intros q. unfold u16. now rewrite Z.mod_small by apply HC.
  - reflexivity.
  - exists m. split; [exact E1|]. cbn [msent mux0 app] in E2. cbv zeta. rewrite E2. now apply (sent_counters p conts l).
Qed.

(** * C36: PES headers and time stamps *)
Theorem pes_timestamp_written : forall prefix t, prefix = 1 \/ prefix = 2 \/ prefix = 3 -> encodePESTimestamp (prefix * 16) t = stamp prefix t.
Proof. intros. now apply stamp_ok. Qed.
(** Every 33 bit value comes back, in whole milliseconds as the API reports it. *)
Theorem pes_timestamp_read : forall prefix t rest, prefix = 1 \/ prefix = 2 \/ prefix = 3 -> 0 <= t < 2 ^ 33 -> decodePTS (encodePESTimestamp (prefix * 16) t ++ rest) = t / 90.
Proof. intros prefix t rest Hp Ht. rewrite stamp_ok by exact Hp. rewrite decode_stamp. now rewrite Z.mod_small by lia. Qed.
Theorem pes_timestamp_ms : forall prefix ms rest, prefix = 1 \/ prefix = 2 \/ prefix = 3 -> 0 <= ms -> 90 * ms < 2 ^ 33 -> decodePTS (encodePESTimestamp (prefix * 16) (90 * ms) ++ rest) = ms.
Proof. intros. rewrite pes_timestamp_read by (assumption || lia). rewrite Z.mul_comm. apply Z.div_mul. lia. Qed.
Example pes_timestamp_case : encodePESTimestamp (2 * 16) 8589934591 = [47; 255; 255; 255; 255] /\ decodePTS (encodePESTimestamp (2 * 16) (90 * 95443717)) = 95443717.
Proof. split; vm_compute; reflexivity. Qed.
(** The lead-ins are well formed PES headers for the data that follows. *)
Theorem pes_lead_in : forall sid pts bps data, len data < 65520 -> 0 <= bps < 2 ^ 64 ->
  exists rate, getPESLeadIn sid (len data) pts bps ++ data = pes sid true true pts None rate data /\ (rate = [] <-> bps < 50) /\ (50 <= bps -> len rate = 3).
Proof.
  intros sid pts bps data H Hb. exists (rate_bytes bps). split; [apply leadin_pes; lia|]. unfold rate_bytes. destruct (Z.leb_spec 50 bps); split; try (split; intros; (discriminate || lia || reflexivity)); intros; try lia; reflexivity.
Qed.
Theorem pes_video_lead_in : forall bounded aligned pts off bps data, (bounded = true -> 0 < len data < 65520) -> len data < 2 ^ 31 -> 0 <= pts -> 0 <= off -> pts + off < 2 ^ 64 -> 0 <= bps < 2 ^ 64 ->
  exists rate, getPESVideoLeadIn (if bounded then len data else 0) pts off aligned bps ++ data =
    pes 0xE0 bounded aligned (pts + off) (if off =? 0 then None else Some pts) rate data /\ (rate = [] <-> bps < 50) /\ (50 <= bps -> len rate = 3).
Proof.
  intros bounded aligned pts off bps data H H2 H3 H4 H5 Hb. exists (rate_bytes bps). split; [apply video_pes; try lia; intros X; specialize (H X); lia|].
  unfold rate_bytes. destruct (Z.leb_spec 50 bps); split; try (split; intros; (discriminate || lia || reflexivity)); intros; try lia; reflexivity.
Qed.
Example pes_video_lead_in_case : getPESVideoLeadIn 3 900 90 true 0 ++ [7; 8; 9] = pes 0xE0 true true 990 (Some 900) [] [7; 8; 9].
Proof. vm_compute. reflexivity. Qed.
(** The ES_rate field of these headers is meant to hold bps / 50; it holds half of that, because the
    value is not shifted past the marker bit (F19). *)
Theorem pes_es_rate_refuted : ~ (forall sid pts bps, 50 <= bps < 50 * 2 ^ 22 -> es_rate (dropz 14 (getPESLeadIn sid 0 pts bps)) = bps / 50).
Proof. intros H. specialize (H 0xC0 0 5000 ltac:(lia)). vm_compute in H. discriminate. Qed.
(** A frame that is too large for the 16 bit length gets a wrong length instead of none (F20). *)
Theorem pes_length_overflow_refuted : ~ (forall sid n pts bps, 0 <= n < 2 ^ 31 -> bps < 50 -> let l := unbe (takez 2 (dropz 4 (getPESLeadIn sid n pts bps))) in l = 0 \/ l = n + 8).
Proof. intros H. specialize (H 0xC0 65536 0 0 ltac:(lia) ltac:(lia)). vm_compute in H. destruct H; discriminate. Qed.

(** * C37: program clock reference *)
(** What is written is the value, as the standard encodes it, for every non-negative clock (modulo
    the 42 bits there are); nothing else changes but the adaptation field. *)
Theorem pcr_written : forall p v, packet_bytes (pbuf p) -> 0 <= v ->
  let b := pbuf (setPCR p v) in
  packet_bytes b /\ pcr b = Some (v mod (2 ^ 33 * 300)) /\ same_header b (pbuf p) /\ afc (view b) = 3 /\ dropz 12 b = dropz 12 (pbuf p).
Proof.
  intros p v H Hv b. destruct (setPCR_ok p v H Hv) as (B & S & A & _ & N4 & N5 & T & R). fold b in B, S, A, N4, N5, T, R.
  split; [exact B|]. split; [apply pcr_value; try assumption; try lia; rewrite N5; apply (setbit_same _ 4); [apply buf_nth, H|lia|auto]|].
  split; [exact S|]. split; [exact A|]. destruct B as [_ L]. pose proof (proj2 H) as L0. apply nthz_ext; [rewrite !len_dropz by lia; lia|]. intros i Hi. rewrite !nthz_dropz by lia. apply R. lia.
Qed.
(** getPCR returns it when the clock is a multiple of 300 (all clocks this server writes are multiples of 27000)
    and below 2^31 * 300 (six and a half hours of a 27 MHz clock). Missing: the other values, for which it is false. *)
Theorem pcr_read_back_partial : forall p v, packet_bytes (pbuf p) -> 0 <= v < 2 ^ 31 * 300 -> v mod 300 = 0 -> getPCR (pbuf (setPCR p v)) = v.
Proof.
  intros p v H Hv Hm. destruct (setPCR_ok p v H ltac:(lia)) as (B & S & A & _ & N4 & N5 & T & R). set (b := pbuf (setPCR p v)) in *. pose proof (proj2 B) as L.
  unfold getPCR. rewrite view_af by exact B. rewrite A. change (3 =? 0) with false. cbn match.
  assert (F : (nthz b 5 .& 0x10 =? 0) = false).
  { change 0x10 with (2 ^ 4). apply negb_true_iff. rewrite b_test by (lia || now apply buf_nth). rewrite N5. rewrite setbit_same by (lia || auto || (apply buf_nth, H)). reflexivity. }
  rewrite F.
  assert (NB : forall i, 0 <= i < 6 -> nthz b (6 + i) = nthz (pcr_bytes v) i).
  { intros i Hi. rewrite <- T, nthz_takez, nthz_dropz by lia. reflexivity. }
  pose proof (NB 0 ltac:(lia)) as E6. pose proof (NB 1 ltac:(lia)) as E7. pose proof (NB 2 ltac:(lia)) as E8. pose proof (NB 3 ltac:(lia)) as E9. pose proof (NB 4 ltac:(lia)) as E10. pose proof (NB 5 ltac:(lia)) as E11.
  change (6 + 0) with 6 in E6. change (6 + 1) with 7 in E7. change (6 + 2) with 8 in E8. change (6 + 3) with 9 in E9. change (6 + 4) with 10 in E10. change (6 + 5) with 11 in E11.
  set (w := v / 600) in *. assert (EV : v = 300 * (v / 300)) by (rewrite (Z.div_mod v 300) at 1 by lia; lia). set (q := v / 300) in *.
  assert (W : w = q / 2) by (unfold w, q; rewrite Z.div_div by lia; reflexivity). assert (Q : 0 <= q < 2 ^ 31) by lia.
  assert (P6 : nthz (pcr_bytes v) 0 = w / 16777216 mod 256) by reflexivity. assert (P7 : nthz (pcr_bytes v) 1 = w / 65536 mod 256) by reflexivity.
  assert (P8 : nthz (pcr_bytes v) 2 = w / 256 mod 256) by reflexivity. assert (P9 : nthz (pcr_bytes v) 3 = w mod 256) by (unfold pcr_bytes; change (nthz (be 4 (v / 600) ++ [v / 300 mod 2 * 128 + 126 + v mod 300 / 256; v mod 300 mod 256]) 3) with (w / 1 mod 256); now rewrite Z.div_1_r).
  assert (P10 : nthz (pcr_bytes v) 4 = q mod 2 * 128 + 126) by (unfold pcr_bytes; change (nthz (be 4 (v / 600) ++ [v / 300 mod 2 * 128 + 126 + v mod 300 / 256; v mod 300 mod 256]) 4) with (q mod 2 * 128 + 126 + v mod 300 / 256); rewrite Hm; change (0 / 256) with 0; lia).
  assert (P11 : nthz (pcr_bytes v) 5 = 0) by (unfold pcr_bytes; change (nthz (be 4 (v / 600) ++ [v / 300 mod 2 * 128 + 126 + v mod 300 / 256; v mod 300 mod 256]) 5) with (v mod 300 mod 256); now rewrite Hm).
  rewrite E6, E7, E8, E9, E10, E11, P6, P7, P8, P9, P10, P11. clear E6 E7 E8 E9 E10 E11 P6 P7 P8 P9 P10 P11 NB T R.
  clearbody w q. clear - W Q EV Hv.
  change (2 ^ 31) with 2147483648 in *.
  assert (S1 : s32 ((w / 16777216 mod 256) << 24) = (w / 16777216) << 24).
  { assert (WB : 0 <= w < 1073741824) by lia. clear W Q EV Hv. assert (W2 : 0 <= w / 16777216 < 64) by lia. rewrite (Z.mod_small (w / 16777216) 256) by lia. rewrite shl_mul by lia. change (2 ^ 24) with 16777216. unfold s32; cbv zeta; unfold u32; rewrite Z.mod_small by lia. destruct (Z.ltb_spec (w / 16777216 * 16777216) 2147483648); lia. }
  rewrite S1.
  assert (HI : ((w / 16777216) << 24) .| ((w / 65536 mod 256) << 16) .| ((w / 256 mod 256) << 8) .| (w mod 256) = w).
  { rewrite <- !Z.lor_assoc. rewrite (lor_shl_add _ (w mod 256) 8) by (change (2 ^ 8) with 256; lia). change (2 ^ 8) with 256.
    rewrite (lor_shl_add _ _ 16) by (change (2 ^ 16) with 65536; lia). change (2 ^ 16) with 65536.
    rewrite (lor_shl_add _ _ 24) by (change (2 ^ 24) with 16777216; lia). change (2 ^ 24) with 16777216. lia. }
  rewrite HI.
  assert (S2 : s32 (w << 1) = w << 1) by (rewrite shl_mul by lia; change (2 ^ 1) with 2; unfold s32; cbv zeta; unfold u32; rewrite Z.mod_small by lia; destruct (Z.ltb_spec (w * 2) 2147483648); lia).
  rewrite S2. rewrite shr_div by lia. change (2 ^ 7) with 128. replace ((q mod 2 * 128 + 126) / 128) with (q mod 2) by lia. rewrite lor_shl_add by (change (2 ^ 1) with 2; lia). change (2 ^ 1) with 2.
  assert (S3 : (q mod 2 * 128 + 126) .& 1 = 0) by (change 1 with (Z.ones 1); rewrite Z.land_ones by lia; change (2 ^ 1) with 2; lia). rewrite S3. change ((0 << 8) + 0) with 0. rewrite Z.lor_0_r. lia.
Qed.
Example pcr_case : packet_bytes (pbuf clear) /\ getPCR (pbuf (setPCR clear (27000 * 3600000))) = 27000 * 3600000.
Proof. split; [apply clear_ok|vm_compute; reflexivity]. Qed.
(** A clock with a non-zero extension is combined by OR instead of addition; a large clock overflows
    int (F18). *)
Theorem pcr_read_back_refuted : (exists v, 0 <= v < 2 ^ 33 * 300 /\ getPCR (pbuf (setPCR clear v)) = 300 /\ v = 304) /\
  (exists v, 0 <= v < 2 ^ 33 * 300 /\ v mod 300 = 0 /\ getPCR (pbuf (setPCR clear v)) < 0).
Proof. split; [exists 304|exists (2 ^ 31 * 300)]; vm_compute; repeat split; congruence. Qed.

(** * C52: what the packetizer sends, the demuxer delivers *)
(** A frame the server may be asked to send: 13 bit PID, times that fit 63 bits of 27 MHz clock, data
    below 65520 bytes unless video, and a composition offset that does not straddle the wrap of the 33 bit clock. *)
Definition offset_of (x : media) : Z := match mkind x with Video off => off | Other _ => 0 end.
Definition sendable (x : media) : Prop :=
  times_fit (mmeta x) /\ bytesP (mdata x) /\ len (mdata x) < 2 ^ 31 /\ 0 <= mbps x < 2 ^ 64 /\
  match mkind x with
  | Video off => 0 <= off /\ 90 * time (mmeta x) mod 2 ^ 33 + 90 * off < 2 ^ 33 /\ 90 * (time (mmeta x) + off) < 2 ^ 64
  | Other sid => byteP sid /\ len (mdata x) < 65520
  end.
Definition of_track (p : Z) (l : list media) : list media := filter (fun x => pid (mmeta x) =? p) l.
(** Frames of any number of tracks are sent interleaved in any order; the demuxer of any one track delivers
    that track's frames, all of them, in order, with their data and offsets, and with their times
    up to the drift of the wrapping clock (none in the first 26.5 hours). *)
Theorem ts_mux_demux : forall l conts p, Forall sendable l -> (forall q, 0 <= conts q < 65536) -> steady_times (map (fun x => time (mmeta x)) (of_track p l)) ->
  exists m fuel d d', sendNext_all l conts mux0 = Some m /\
  parse_all fuel (filter (fun b => getPID b =? p) (msent m)) demux0 = Ok d /\ finish fuel d = Ok d' /\
  Forall2 (fun x '(t, off, data) => about (time (mmeta x)) t /\ off = offset_of x /\ data = mdata x) (of_track p l) (outp d').
Proof.
  intros l conts p HF HC HS. destruct (round_trip p 0 l conts HF) as (m & d & d' & E1 & E2 & E3 & E4).
  - intros q. unfold u16. now rewrite Z.mod_small by apply HC.
  - exact HS.
  - exists m, 2%nat, d, d'. split; [exact E1|]. split; [exact E2|]. split; [exact E3|]. rewrite E4.
    assert (G : Forall sendable (of_track p l)) by (apply Forall_forall; intros x Hx; apply filter_In in Hx; rewrite Forall_forall in HF; now apply HF).
    change (filter (on_pid p) l) with (of_track p l). revert G. generalize (of_track p l). clear. intros l G. induction G as [|x l Hx _ IH]; constructor; [|exact IH].
    split; [apply unwrapped_close; destruct Hx as ((_ & H1 & _) & _); exact H1|]. now split.
Qed.
Example ts_mux_demux_case :
  let l := [mkmedia (mkmeta true true 256 40) (Video 80) 100000 (repeat 5 300); mkmedia (mkmeta false false 257 45) (Other 0xC0) 0 [1; 2; 3];
            mkmedia (mkmeta true false 256 80) (Video 0) 100000 (repeat 6 170)] in
  Forall sendable l /\ steady_times (map (fun x => time (mmeta x)) (of_track 256 l)) /\
  exists m d d', sendNext_all l (fun _ => 15) mux0 = Some m /\ parse_all 5 (filter (fun b => getPID b =? 256) (msent m)) demux0 = Ok d /\ finish 5 d = Ok d' /\
  outp d' = [(40, 80, repeat 5 300); (80, 0, repeat 6 170)].
Proof.
  split; [|split].
  - repeat constructor; unfold byteP; cbn; try lia; apply all_bytes_ok; vm_compute; reflexivity.
  - cbn. lia.
  - eexists. eexists. eexists. split; [vm_compute; reflexivity|]. split; [vm_compute; reflexivity|]. split; vm_compute; reflexivity.
Qed.
(** No drift before the first wrap. *)
Theorem about_exact : forall t t', 0 <= t -> 90 * t < 2 ^ 33 -> about t t' -> t' = t.
Proof. intros t t' H H1 H2. unfold about in H2. rewrite Z.div_small in H2 by lia. lia. Qed.
(** Without the condition on offsets the time of later frames can jump by 26.5 hours: one frame whose
    presentation time is past the wrap while its decoding time is before it (F21). *)
Theorem ts_offset_across_wrap_refuted :
  let l := [mkmedia (mkmeta true true 256 95443600) (Video 200) 0 [1]; mkmedia (mkmeta true false 256 95443640) (Video 0) 0 [2]] in
  let l0 := mkmedia (mkmeta true true 256 95443500) (Video 0) 0 [0] :: l in
  steady_times (map (fun x => time (mmeta x)) l0) /\
  exists m d d', sendNext_all l0 (fun _ => 0) mux0 = Some m /\ parse_all 5 (msent m) demux0 = Ok d /\ finish 5 d = Ok d' /\
  outp d' = [(95443500, 0, [0]); (95443800, 82, [1]); (190887358, 0, [2])].
Proof.
  cbv zeta. split; [cbn; lia|]. eexists. eexists. eexists. split; [vm_compute; reflexivity|]. split; [vm_compute; reflexivity|]. split; vm_compute; reflexivity.
Qed.
(** An audio frame of 65530 bytes or more is lost: its length field is wrong, so the demuxer takes it for damaged (F20). *)
Theorem ts_large_audio_frame_refuted :
  let data := repeat 0 (Z.to_nat 65600) in
  exists d, pes_loop 5 (concat (sendNext_chunks (mkmedia (mkmeta false false 257 40) (Other 0xC0) 0 data))) 0 demux0 = Ok d /\ outp d = [].
Proof. cbv zeta. eexists. split; [vm_compute; reflexivity|reflexivity]. Qed.

(** * C53: the demuxer against arbitrary packets *)
(** An adaptation field length of 255 makes the payload length negative, which is passed to memcpy (F22). *)
Theorem ts_demux_negative_length_refuted : exists a b, packet_bytes a /\ packet_bytes b /\ forall fuel, parse_all fuel [a; b] demux0 = Oob.
Proof.
  exists ([0x47; 0x41; 0x00; 0x30; 255] ++ repeat 0 183), ([0x47; 0x41; 0x00; 0x11] ++ repeat 0 184).
  split; [split; [apply all_bytes_ok; vm_compute; reflexivity|reflexivity]|]. split; [split; [apply all_bytes_ok; vm_compute; reflexivity|reflexivity]|].
  intros fuel. vm_compute. reflexivity.
Qed.
(** A PES header that announces time stamps but has none makes the demuxer read past its buffer (F23). *)
Theorem ts_demux_overread_refuted : exists a b, packet_bytes a /\ packet_bytes b /\ valid a /\ valid b /\ forall fuel, (0 < fuel)%nat -> parse_all fuel [a; b] demux0 = Oob.
Proof.
  exists ([0x47; 0x41; 0x00; 0x30; 174] ++ repeat 0 174 ++ [0; 0; 1; 0xE0; 0; 0; 0x80; 0xC0; 0]), ([0x47; 0x41; 0x00; 0x11] ++ repeat 0 184).
  split; [split; [apply all_bytes_ok; vm_compute; reflexivity|reflexivity]|]. split; [split; [apply all_bytes_ok; vm_compute; reflexivity|reflexivity]|].
  split; [repeat split; [apply all_bytes_ok; vm_compute; reflexivity|eexists; vm_compute; reflexivity]|]. split; [repeat split; [apply all_bytes_ok; vm_compute; reflexivity|eexists; vm_compute; reflexivity]|].
  intros [|fuel] Hf; [lia|]. vm_compute. reflexivity.
Qed.
(** A header with more optional fields announced than there are bytes keeps the demuxer in its loop for ever (F24). *)
Definition loop_pes : list Z := [0; 0; 1; 0xE0; 0; 0; 0x80; 0xFE; 0; 0; 0; 0; 0; 0; 0; 0; 0; 0; 0; 0; 0; 0; 0].
Lemma loop_step k d : lastms d = 0 -> rollover d = 0 -> pes_loop (S k) loop_pes 0 d = pes_loop k loop_pes 0 d.
Proof. destruct d as [c s l r o]. cbn [lastms rollover]. intros -> ->. cbn [pes_loop]. vm_compute (len loop_pes). reflexivity. Qed.
Lemma loop_forever : forall fuel d, lastms d = 0 -> rollover d = 0 -> pes_loop fuel loop_pes 0 d = Hang.
Proof. induction fuel as [|k IH]; intros d H1 H2; [reflexivity|]. rewrite loop_step by assumption. now apply IH. Qed.
Theorem ts_demux_hangs_refuted : exists a b, packet_bytes a /\ packet_bytes b /\ valid a /\ valid b /\ forall fuel, parse_all fuel [a; b] demux0 = Hang.
Proof.
  exists ([0x47; 0x41; 0x00; 0x30; 160] ++ repeat 0 160 ++ loop_pes), ([0x47; 0x41; 0x00; 0x11] ++ repeat 0 184).
  split; [split; [apply all_bytes_ok; vm_compute; reflexivity|reflexivity]|]. split; [split; [apply all_bytes_ok; vm_compute; reflexivity|reflexivity]|].
  split; [repeat split; [apply all_bytes_ok; vm_compute; reflexivity|eexists; vm_compute; reflexivity]|]. split; [repeat split; [apply all_bytes_ok; vm_compute; reflexivity|eexists; vm_compute; reflexivity]|].
  intros fuel. cbv -[pes_loop].
  match goal with |- context [pes_loop fuel ?p 0 ?d] => change p with loop_pes; rewrite (loop_forever fuel d eq_refl eq_refl) end. reflexivity.
Qed.

Print Assumptions ts_getters.
Print Assumptions ts_setPID.
Print Assumptions ts_setContinuityCounter.
Print Assumptions ts_setUnitStart.
Print Assumptions ts_setAdaptationField.
Print Assumptions ts_flags.
Print Assumptions ts_flag_getters.
Print Assumptions ts_one_packet.
Print Assumptions ts_frame_carried.
Print Assumptions ts_video_clock.
Print Assumptions ts_counters_consecutive.
Print Assumptions pes_timestamp_written.
Print Assumptions pes_timestamp_read.
Print Assumptions pes_timestamp_ms.
Print Assumptions pes_lead_in.
Print Assumptions pes_video_lead_in.
Print Assumptions pes_es_rate_refuted.
Print Assumptions pes_length_overflow_refuted.
Print Assumptions pcr_written.
Print Assumptions pcr_read_back_partial.
Print Assumptions pcr_read_back_refuted.
Print Assumptions ts_mux_demux.
Print Assumptions about_exact.
Print Assumptions ts_offset_across_wrap_refuted.
Print Assumptions ts_large_audio_frame_refuted.
Print Assumptions ts_demux_negative_length_refuted.
Print Assumptions ts_demux_overread_refuted.
Print Assumptions ts_demux_hangs_refuted.
