(** C13: RTMP chunk streams. *)
From Verif Require Import Common CommonFacts CommonMore Rtmp_Model Rtmp_Spec Rtmp_Proofs Rtmp_Stream_Proofs Rtmp_Pack_Proofs.
Import List.

(** Where the network cuts the byte stream makes no difference to the messages delivered, nor to
    the state the receiver is left in, whatever the bytes are. *)
Theorem rtmp_segmentation : forall size segs, 0 <= size -> Forall bytesP segs ->
  arrivals (receiver0 size) segs = arrive (receiver0 size) (concat segs).
Proof. exact segmentation. Qed.

(** Any peer that follows the chunk stream specification: chunks of any number of chunk streams
    interleaved in any way, message headers of all four formats, chunk size changes on the way. All
    its messages are delivered, in the order in which they were completed, provided at least two
    more bytes follow; and if only two follow, nothing else is delivered. *)
Theorem rtmp_receives : forall size w more segs,
  0 <= size -> well_sent w -> sizes_agree size w -> 2 <= len more -> Forall bytesP segs ->
  concat segs = wire_bytes w ++ more ->
  exists got later r, arrivals (receiver0 size) segs = (got ++ later, r) /\ map to_msg got = messages w /\
    (len more = 2 -> later = [] /\ rbuf r = more).
Proof. exact receive_ok. Qed.

(** Two chunk streams interleaved, an extended timestamp, three header formats. *)
Definition demo_a := mkmsg 3 0x1000000 20 1 (bs "abcdef").
Definition demo_b := mkmsg 70 40 9 2 (bs "xy").
Definition demo_c := mkmsg 70 55 9 2 (bs "zt").
Definition demo_d := mkmsg 70 70 9 2 (bs "uv").
Definition demo_wire : list (Z * wire) :=
  [(3, mkw 4 ([0x03; 255; 255; 255; 0; 0; 6; 20; 1; 0; 0; 0; 1; 0; 0; 0] ++ bs "abcd") None);
   (70, mkw 4 ([0x00; 6; 0; 0; 40; 0; 0; 2; 9; 2; 0; 0; 0] ++ bs "xy") (Some demo_b));
   (70, mkw 4 ([0x80; 6; 0; 0; 15] ++ bs "zt") (Some demo_c));
   (3, mkw 4 ([0xC3; 1; 0; 0; 0] ++ bs "ef") (Some demo_a));
   (70, mkw 4 ([0xC0; 6] ++ bs "uv") (Some demo_d))].
Ltac valid := unfold valid_msg; cbn; conjs; try lia; try (unfold byteP; lia); try apply all_bytes_ok; try reflexivity; try discriminate; try (intros X; discriminate X).
Example receives_case : well_sent demo_wire /\ sizes_agree 4 demo_wire /\
  messages demo_wire = [demo_b; demo_c; demo_a; demo_d] /\
  map to_msg (fst (arrivals (receiver0 4) [takez 9 (wire_bytes demo_wire); dropz 9 (wire_bytes demo_wire); [0; 0]])) =
  [demo_b; demo_c; demo_a; demo_d].
Proof.
  conjs; [|vm_compute; conjs; reflexivity|reflexivity|vm_compute; reflexivity].
  intros id. exists []. rewrite app_nil_r. destruct (Z.eqb_spec id 3) as [-> |H3]; [|destruct (Z.eqb_spec id 70) as [-> |H7]].
  - change (on_channel 3 demo_wire) with
      (mkw 4 ([3] ++ (be 3 (Z.min (m_ts demo_a) 0xffffff) ++ be 3 (len (m_data demo_a)) ++ [m_type demo_a] ++ le 4 (m_sid demo_a) ++ ext_bytes demo_a) ++ takez 4 (m_data demo_a)) (completes 4 (m_data demo_a) demo_a) ::
       [mkw 4 ([0xC3] ++ ext_bytes demo_a ++ takez 4 (dropz 4 (m_data demo_a))) (completes 4 (dropz 4 (m_data demo_a)) demo_a)] ++ []).
    eapply c_message with (fmt := 0) (x := extended demo_a); [reflexivity|valid|apply h_full|apply (b_one 0 3); lia|lia| |constructor].
    change (if extended demo_a then ext_bytes demo_a else []) with (ext_bytes demo_a). apply r_more; [discriminate|lia|apply (b_one 3 3); lia|].
    change (dropz 4 (dropz 4 (m_data demo_a))) with (@nil Z). constructor.
  - change (on_channel 70 demo_wire) with
      (mkw 4 ([0; 6] ++ (be 3 (Z.min (m_ts demo_b) 0xffffff) ++ be 3 (len (m_data demo_b)) ++ [m_type demo_b] ++ le 4 (m_sid demo_b) ++ ext_bytes demo_b) ++ takez 4 (m_data demo_b)) (completes 4 (m_data demo_b) demo_b) :: [] ++
       mkw 4 ([0x80; 6] ++ (be 3 (m_ts demo_c - m_ts demo_b)) ++ takez 4 (m_data demo_c)) (completes 4 (m_data demo_c) demo_c) :: [] ++
       mkw 4 ([0xC0; 6] ++ [] ++ takez 4 (m_data demo_d)) (completes 4 (m_data demo_d) demo_d) :: [] ++ []).
    eapply c_message; [reflexivity|valid|apply h_full|apply (b_two 0 70); lia|lia|constructor|].
    eapply c_message; [reflexivity|valid|apply h_same_shape; cbn; lia|apply (b_two 2 70); lia|lia|constructor|].
    eapply c_message; [reflexivity|valid|apply h_repeat; reflexivity|apply (b_two 3 70); lia|lia|constructor|]. constructor.
  - replace (on_channel id demo_wire) with (@nil wire); [constructor|]. unfold on_channel, demo_wire. cbn [filter fst].
    replace (3 =? id) with false by lia. replace (70 =? id) with false by lia. reflexivity.
Qed.

(** Whatever is sent through Pack is received: messages of every length and type on any chunk
    streams, with and without a restart of header compression, under the chunk size rules,
    arriving in any pieces. Missing from C13: jumps of 0xffffff ms and more, times from 2^31 ms on,
    and the delivery of the last message when fewer than two bytes follow it (each refuted below). *)
Theorem rtmp_round_trip_partial : forall (l : list (Z * bool * msg)) size,
  Forall (fun x => valid_msg (snd x)) l -> 0 <= size ->
  no_jump (fun _ => None) (map (fun x => (snd (fst x), snd x)) l) ->
  sizes_match size (map (fun x => (fst (fst x), snd x)) l) ->
  exists bytes prev,
    pack_all (fun _ => None) (map (fun x => to_out (fst (fst x)) (snd (fst x)) (snd x)) l) = Some (bytes, prev) /\
    forall more segs, 2 <= len more -> Forall bytesP segs -> concat segs = bytes ++ more ->
    exists got later r, arrivals (receiver0 size) segs = (got ++ later, r) /\ map to_msg got = map snd l /\
      (len more = 2 -> later = [] /\ rbuf r = more).
Proof.
  intros l size Hv Hs Hj Hz.
  destruct (pack_all (fun _ => None) (map (fun x => to_out (fst (fst x)) (snd (fst x)) (snd x)) l)) as [[bytes prev]|] eqn:E.
  - exists bytes, prev. split; [reflexivity|]. intros more segs Hm Hb Hc. eapply round_trip; eassumption.
  - exfalso. exact (pack_total l size Hv Hj Hz E).
Qed.

Definition demo_size : msg := mkmsg 2 0 1 0 [0; 0; 0; 3].
Definition demo_run : list (Z * bool * msg) :=
  [(128, false, demo_a); (128, true, demo_size); (3, false, demo_b); (3, false, demo_c); (3, false, demo_d);
   (3, false, mkmsg 65599 7 8 0 (bs "0123456789"))].
Example round_trip_case : Forall (fun x => valid_msg (snd x)) demo_run /\
  no_jump (fun _ => None) (map (fun x => (snd (fst x), snd x)) demo_run) /\
  sizes_match 128 (map (fun x => (fst (fst x), snd x)) demo_run) /\
  match pack_all (fun _ => None) (map (fun x => to_out (fst (fst x)) (snd (fst x)) (snd x)) demo_run) with
  | Some (b, _) => len b = 97 /\
      map to_msg (fst (arrivals (receiver0 128) [takez 5 b; dropz 5 b; [0; 0]])) = map snd demo_run
  | None => False
  end.
Proof.
  conjs.
  - unfold demo_run. repeat constructor; cbn [snd]; valid.
  - cbn. conjs; try lia; intros; try exact I; try lia.
  - cbn. conjs; try lia; try exact I; try (left; reflexivity); vm_compute; reflexivity.
  - vm_compute. conjs; reflexivity.
Qed.

(** Media sent after that by the output itself, on chunk stream 4. Missing, besides the cases
    above: consecutive messages of the same time, type and length (refuted below). *)
Theorem rtmp_media_partial : forall (l : list (Z * bool * msg)) (l2 : list (Z * Z * msg)) size more segs bytes bytes2 prev,
  Forall (fun x => valid_msg (snd x)) l -> 0 <= size ->
  no_jump (fun _ => None) (map (fun x => (snd (fst x), snd x)) l) ->
  sizes_match size (map (fun x => (fst (fst x), snd x)) l) ->
  pack_all (fun _ => None) (map (fun x => to_out (fst (fst x)) (snd (fst x)) (snd x)) l) = Some (bytes, prev) ->
  Forall (fun x => media_msg (snd x) /\ 0 < fst (fst x) /\ snd (fst x) <= Z.min (len (m_data (snd x))) (fst (fst x))) l2 ->
  distinct (fold_left then_sent (map snd l) (fun _ => None) 4) (map snd l2) ->
  Forall (fun x => m_type (snd x) <> 1 /\ fst (fst x) = fold_left new_size (map snd l) size) l2 ->
  send_media_all (prev 4) (map (fun x => to_media (fst (fst x)) (snd (fst x)) (snd x)) l2) = Some bytes2 ->
  2 <= len more -> Forall bytesP segs -> concat segs = bytes ++ bytes2 ++ more ->
  exists got later r, arrivals (receiver0 size) segs = (got ++ later, r) /\ map to_msg got = map snd l ++ map snd l2 /\
    (len more = 2 -> later = [] /\ rbuf r = more).
Proof. exact round_trip_media. Qed.

Definition demo_media : list (Z * Z * msg) :=
  [(3, 2, mkmsg 4 0 9 1 (bs "abcdefgh")); (3, 0, mkmsg 4 33 9 1 (bs "ijklmnop")); (3, 3, mkmsg 4 33 8 1 (bs "0123")); (3, 0, mkmsg 4 66 9 1 [])].
Example media_case : Forall (fun x => media_msg (snd x) /\ 0 < fst (fst x) /\ snd (fst x) <= Z.min (len (m_data (snd x))) (fst (fst x))) demo_media /\
  distinct (fold_left then_sent (map snd demo_run) (fun _ => None) 4) (map snd demo_media) /\
  Forall (fun x => m_type (snd x) <> 1 /\ fst (fst x) = fold_left new_size (map snd demo_run) 128) demo_media /\
  match send_media_all None (map (fun x => to_media (fst (fst x)) (snd (fst x)) (snd x)) demo_media) with
  | Some b => len b = 57 /\ map to_msg (fst (arrive (receiver0 3) (b ++ [0; 0]))) = map snd demo_media
  | None => False
  end.
Proof.
  conjs.
  - unfold demo_media, media_msg. repeat constructor; cbn [fst snd]; try valid; cbn; lia.
  - cbn. conjs; try lia; try exact I; try (intros (X & Y & Z); discriminate).
  - unfold demo_media. repeat constructor; cbn; discriminate.
  - vm_compute. conjs; reflexivity.
Qed.

(** The messages two or more of these senders' bytes give, at chunk size 128. *)
Definition through (l : list msg) : option (list msg) :=
  x <- pack_all (fun _ => None) (map (to_out 128 false) l);;
  Some (map to_msg (fst (arrive (receiver0 128) (fst x ++ [0; 0])))).

(** F25: a jump ahead of 0xffffff ms on a chunk stream is sent as an extended delta and taken for
    an absolute time. *)
Theorem rtmp_jump_refuted : exists a b, valid_msg a /\ valid_msg b /\ m_ts a < m_ts b /\ through [a; b] = Some [a; mkmsg (m_cs b) (m_ts b - m_ts a) (m_type b) (m_sid b) (m_data b)] /\ m_ts a <> 0.
Proof.
  exists (mkmsg 4 1000 9 1 (bs "a")), (mkmsg 4 16778215 9 1 (bs "bc")). conjs; [valid|valid|cbn; lia|vm_compute; reflexivity|discriminate].
Qed.

(** F26: times from 2^31 ms on do not survive. *)
Theorem rtmp_late_time_refuted : exists a got, m_ts a = 2 ^ 31 /\ valid_msg (mkmsg (m_cs a) 0 (m_type a) (m_sid a) (m_data a)) /\
  through [a] = Some [got] /\ m_ts got <> m_ts a.
Proof.
  eexists (mkmsg 4 (2 ^ 31) 9 1 (bs "a")), _. conjs; [reflexivity|valid|vm_compute; reflexivity|discriminate].
Qed.

(** F27: a message is complete but held back until more bytes arrive, when its last chunk takes
    two bytes. *)
Theorem rtmp_held_back_refuted : exists m bytes prev, valid_msg m /\
  pack_all (fun _ => None) [to_out 128 false m] = Some (bytes, prev) /\ fst (arrive (receiver0 128) bytes) = [] /\
  map to_msg (fst (arrive (receiver0 128) (bytes ++ [0]))) = [m].
Proof.
  eexists (mkmsg 3 0 20 0 (repeat 65 129)), _, _. conjs; [|vm_compute; reflexivity|vm_compute; reflexivity|vm_compute; reflexivity].
  unfold valid_msg. cbn [m_cs m_ts m_type m_sid m_data]. conjs; try lia; try (unfold byteP; lia); try (vm_compute; reflexivity).
  apply all_bytes_ok. reflexivity.
Qed.

(** F28: a sender that gives up a message and starts a new one with a full header on the same chunk
    stream: the bytes of the abandoned message come out at the front of the new one. *)
Theorem rtmp_abandoned_refuted : exists first second a b, valid_msg a /\ valid_msg b /\
  arrive (receiver0 4) (first ++ [0; 0; 0]) = ([], snd (arrive (receiver0 4) (first ++ [0; 0; 0]))) /\
  map to_msg (fst (arrive (receiver0 4) (second ++ [0; 0]))) = [b] /\
  map to_msg (fst (arrive (receiver0 4) (first ++ second ++ [0; 0]))) = [mkmsg (m_cs b) (m_ts b) (m_type b) (m_sid b) (takez 4 (m_data a) ++ m_data b)].
Proof.
  exists ([3; 0; 0; 1; 0; 0; 6; 20; 0; 0; 0; 0] ++ bs "abcd"), ([3; 0; 0; 2; 0; 0; 3; 20; 0; 0; 0; 0] ++ bs "xyz"),
    (mkmsg 3 1 20 0 (bs "abcdef")), (mkmsg 3 2 20 0 (bs "xyz")).
  conjs; [valid|valid|vm_compute; reflexivity|vm_compute; reflexivity|vm_compute; reflexivity].
Qed.

(** F29: two media messages of the same time, type and length: the second arrives with another time. *)
Theorem rtmp_media_same_time_refuted : exists l bytes, Forall (fun m => valid_msg m /\ media_msg m) l /\
  send_media_all None (map (to_media 128 1) l) = Some bytes /\
  map m_ts l = [0; 40; 40; 80] /\ map (fun c => ts c) (fst (arrive (receiver0 128) (bytes ++ [0; 0]))) = [0; 40; 80; 120].
Proof.
  eexists [mkmsg 4 0 8 1 (bs "ab"); mkmsg 4 40 8 1 (bs "cd"); mkmsg 4 40 8 1 (bs "ef"); mkmsg 4 80 8 1 (bs "gh")], _.
  conjs; [|vm_compute; reflexivity|reflexivity|vm_compute; reflexivity].
  unfold media_msg. repeat constructor; valid.
Qed.

(** F30: a control message of one byte is delivered, and the handler reads four bytes from it
    (output_rtmp.cpp:2361; likewise 2370, 2385-2399, 2404, 2411). *)
Theorem rtmp_short_control_refuted : exists bytes c r, arrive (receiver0 128) bytes = ([c], r) /\ mtype c = 1 /\ len (cdata c) < 4.
Proof. eexists [2; 0; 0; 0; 0; 0; 1; 1; 0; 0; 0; 0; 9], _, _. conjs; [vm_compute; reflexivity|reflexivity|reflexivity]. Qed.

Print Assumptions rtmp_segmentation.
Print Assumptions rtmp_receives.
Print Assumptions rtmp_round_trip_partial.
Print Assumptions rtmp_media_partial.
Print Assumptions rtmp_jump_refuted.
Print Assumptions rtmp_late_time_refuted.
Print Assumptions rtmp_held_back_refuted.
Print Assumptions rtmp_abandoned_refuted.
Print Assumptions rtmp_media_same_time_refuted.
Print Assumptions rtmp_short_control_refuted.
