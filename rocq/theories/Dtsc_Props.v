(** C19, C20: DTSC packets. *)
From Verif Require Import Common CommonFacts CommonMore Mem_Model Mem_Proofs Outcome_Model Scan_Model Dtmi_Spec Dtsc_Model Dtsc_Spec Dtsc_Proofs DtscOps_Proofs ScanAny_Proofs Dtmi_Proofs.

(** *** C19 *)
(** A packet built from these fields reports them. [junk] is what fresh memory holds. *)
Theorem dtsc_fields : forall junk f p, byteP junk -> fields_ok f -> f_data f <> [] ->
  exists p', genericFill junk (f_time f) (f_offset f) (f_track f) (Some (f_data f)) (len (f_data f)) (f_bpos f) (f_key f) p = Ok p' /\
    pdata p' = Some (wire_packet f) /\ dlen p' = len (wire_packet f) /\ reports p' f.
Proof.
  intros junk f p J F N. eexists. split; [now apply genericFill_ok|]. split; [reflexivity|]. split; [reflexivity|].
  destruct (built_inv junk f p F N) as (p' & E & V). rewrite genericFill_ok in E by assumption. injection E as <-.
  now apply (Inv_reports (built f)).
Qed.
Definition sample : fields := mkF (2 ^ 63 + 5) (-40) 7 [1; 2; 0; 255] 18446744073709551615 true.
Lemma sample_ok : fields_ok sample.
Proof.
  unfold fields_ok, sample. cbn [f_time f_offset f_track f_data f_bpos].
  split; [vm_compute; split; [discriminate|reflexivity]|]. split; [vm_compute; split; [discriminate|reflexivity]|]. split; [vm_compute; split; [discriminate|reflexivity]|].
  split; [vm_compute; split; [discriminate|reflexivity]|]. split; [now apply all_bytes_ok|reflexivity].
Qed.
Example fields_case : fields_ok sample /\ f_data sample <> [].
Proof. split; [exact sample_ok|discriminate]. Qed.

(** The same packet received elsewhere, copied or referred to in place, whatever lies behind it. *)
Theorem dtsc_received : forall f behind noCopy junk p n, fields_ok f -> bytesP behind -> n = 0 \/ n = len (wire_packet f) ->
  own p = true \/ pdata p = None \/ noCopy = true -> bytesP (match pdata p with Some b => b | None => [] end) -> byteP junk ->
  exists p', reInit junk (wire_packet f ++ behind) n noCopy p = Ok p' /\ reports p' f.
Proof. intros. now apply reInit_wire. Qed.
Example received_case : exists p', reInit 0 (wire_packet sample ++ [68; 84]) 0 false pnew = Ok p' /\ reports p' sample.
Proof. apply dtsc_received; [exact sample_ok|now apply all_bytes_ok|auto|auto|constructor|split; lia]. Qed.

(** Any history of appending data, appending and extending NAL units, changing the key frame flag and
    the time of a built packet, as long as the payload stays below 4 GiB. *)
Theorem dtsc_history : forall junk f p os s, byteP junk -> fields_ok f -> f_data f <> [] ->
  effects os (built f) = Some s -> fields_ok (s_f s) ->
  exists p0 p', genericFill junk (f_time f) (f_offset f) (f_track f) (Some (f_data f)) (len (f_data f)) (f_bpos f) (f_key f) p = Ok p0 /\
    returns (fun n => do_ops junk n os p0) p' /\ reports p' (s_f s).
Proof.
  intros junk f p os s J F N E Fs. destruct (built_inv junk f p F N) as (p0 & E0 & V).
  destruct (ops_ok junk J os (built f) s p0 V E) as (p' & P1 & P2); [apply Fs|].
  exists p0, p'. split; [exact E0|]. split; [exact P1|]. now apply Inv_reports.
Qed.
Example history_case : exists s, effects [AppendNal [9; 9]; UpgradeNal [8]; SetKeyFrame false; SetTime 77; AppendData [5]] (built sample) = Some s /\
  s_f s = mkF 77 (-40) 7 [1; 2; 0; 255; 0; 0; 0; 3; 9; 9; 8; 5] 18446744073709551615 false /\ fields_ok (s_f s).
Proof.
  eexists. split; [reflexivity|]. split; [reflexivity|]. unfold fields_ok. cbn.
  split; [lia|]. split; [lia|]. split; [lia|]. split; [lia|]. split; [now apply all_bytes_ok|reflexivity].
Qed.

(** An empty payload makes an invalid packet, so that its time and track are lost; a payload that is to
    be filled in later (null pointer, as documented) is read from address zero. *)
Theorem dtsc_empty_payload_refuted : exists p', genericFill 0 5 0 1 (Some []) 0 0 true pnew = Ok p' /\ valid p' = Ok false.
Proof. eexists. split; reflexivity. Qed.
Theorem dtsc_null_payload_refuted : genericFill 0 5 0 1 None 10 0 true pnew = Ub.
Proof. reflexivity. Qed.
(** A packet built without the flag cannot be made a key frame; nothing is reported. *)
Theorem dtsc_set_key_refuted : exists p p', genericFill 0 5 0 1 (Some [7]) 1 0 false pnew = Ok p /\
  returns (fun n => setKeyFrame n true p) p' /\ forall d t, returns (fun n => getFlag d t n (bs "keyframe") p') false.
Proof.
  assert (F : fields_ok (mkF 5 0 1 [7] 0 false)).
  { unfold fields_ok. cbn [f_time f_offset f_track f_data f_bpos]. repeat split; try (vm_compute; reflexivity || discriminate). now apply all_bytes_ok. }
  destruct (dtsc_history 0 (mkF 5 0 1 [7] 0 false) pnew [SetKeyFrame true] (mkS (mkF 5 0 1 [7] 0 false) false None)) as (p & p' & E1 & E2 & R);
    [split; lia|exact F|discriminate|reflexivity|exact F|].
  exists p, p'. split; [exact E1|]. split.
  - apply (returns_ext _ (fun n => do_ops 0 n [SetKeyFrame true] p)); [|exact E2]. intros f. cbn [do_ops do_op]. now destruct (setKeyFrame f true p).
  - apply R.
Qed.

(** *** C20 *)
(** Every lookup in every content ends, with a result or with a read outside the block. *)
Theorem dtsc_lookups_end : forall m p l name i, bytesP m -> 0 <= p ->
  settles (fun f => getMember m f name (Some (mkScan p l))) /\ settles (fun f => getSize m f (Some (mkScan p l))) /\
  settles (fun f => getIndice m f i (Some (mkScan p l))) /\ settles (fun f => getIndiceName m f i (Some (mkScan p l))).
Proof.
  intros m p l name i B P. split; [now apply getMember_settles|]. split; [now apply getSize_settles|].
  split; [now apply getIndice_settles|now apply getIndiceName_settles].
Qed.
Example lookups_case : bytesP [224; 255; 255; 255; 255] /\ 0 <= 0. Proof. split; [now apply all_bytes_ok|lia]. Qed.
(** Stepping over one value of any content reads at most one byte behind the end. Missing from the full
    property: it is false for the lookups, see below. *)
Theorem dtsc_skip_partial : forall m max p, bytesP m -> 0 <= p -> max < len m ->
  exists r, returns (fun f => skip m max f p) r /\ forall q, r = Some q -> p < q.
Proof. intros. now apply skip_settles. Qed.
Example skip_case : returns (fun f => skip [10; 2; 255; 255; 255; 255; 1; 0] 7 f 0) (Some 4294967304).
Proof. exists 10%nat. intros k K. replace k with (10 + (k - 10))%nat by lia. reflexivity. Qed.

(** A valid packet of 21 bytes: asking for a member reads behind it. *)
Definition short_packet : list Z := bs "DTP2" ++ be 4 13 ++ be 4 1 ++ be 8 0 ++ [224].
Theorem dtsc_member_overread_refuted : exists p, reInit 0 short_packet 0 false pnew = Ok p /\ valid p = Ok true /\
  undefined (fun f => member f (bs "data") p).
Proof. eexists. split; [reflexivity|]. split; [reflexivity|]. exists 3%nat. intros k K. replace k with (3 + (k - 3))%nat by lia. reflexivity. Qed.
(** A string that claims four gigabytes sends the lookup four gigabytes further. *)
Definition far_packet : list Z := bs "DTP2" ++ be 4 26 ++ be 4 1 ++ be 8 0 ++ [224; 0; 1; 97; 2; 255; 255; 255; 255] ++ [0; 0; 238; 0; 0].
Theorem dtsc_member_far_refuted : forall behind, len behind < 2 ^ 31 -> bytesP behind ->
  exists p, reInit 0 (far_packet ++ behind) 34 true pnew = Ok p /\ valid p = Ok true /\ undefined (fun f => member f (bs "b") p).
Proof.
  intros b L B. change (2 ^ 31) with 2147483648 in L.
  assert (G : forall i, 0 <= i < 34 -> getb (far_packet ++ b) i = Ok (nthz far_packet i)).
  { intros i I. unfold getb. rewrite rd_some by (rewrite len_app; change (len far_packet) with 34; pose proof (len_nonneg b); lia). now rewrite nthz_app1. }
  assert (N : forall i n, 0 <= i -> 0 <= n -> i + n <= 34 -> getn (far_packet ++ b) i n = Ok (takez n (dropz i far_packet))).
  { intros i n I1 I2 I3. unfold getn. rewrite peek_some by (rewrite ?len_app; change (len far_packet) with 34; pose proof (len_nonneg b); lia).
    rewrite dropz_app by (change (len far_packet) with 34; lia). rewrite takez_app; [reflexivity|]. rewrite len_dropz by (change (len far_packet) with 34; lia). change (len far_packet) with 34. lia. }
  assert (N2 : forall i n, 0 <= i -> 0 <= n -> i + n <= 34 -> getbe (far_packet ++ b) i n = Ok (unbe (takez n (dropz i far_packet)))).
  { intros i n I1 I2 I3. unfold getbe. now rewrite N. }
  assert (V : valid (mkP (Some (far_packet ++ b)) false 34 V_2 0) = Ok true).
  { unfold valid. cbn [pdata dlen ver]. rewrite N2 by lia. reflexivity. }
  exists (mkP (Some (far_packet ++ b)) false 34 V_2 0). split; [|split; [exact V|]].
  { unfold reInit. rewrite !G by lia. cbv zeta. change (own pnew && true) with false. cbv iota. rewrite N by lia. reflexivity. }
  exists 3%nat. intros k K. replace k with (S (S (S (k - 3)))) by lia. generalize (k - 3)%nat. intros j.
  unfold member, getScan. rewrite V. cbn [pdata dlen]. change (getPayloadLen _) with 14. cbn [negb orb]. change (34 =? 0) with false. change (14 =? 0) with false. change (34 <=? 14) with false. cbn [orb]. change (34 - 14) with 20.
  unfold getMember, getType. cbn [sp]. rewrite G by lia. change (is_obj (nthz far_packet 20)) with true. cbv iota.
  remember (S (S j)) as j2. cbn [member_loop]. change (20 + 1) with 21. change (21 + 1) with 22. rewrite !G by lia.
  change (negb (nthz far_packet 21 + nthz far_packet 22 =? 0) && (21 <? 20 + 14)) with true. cbv iota.
  change (20 + 14 <=? 21 + 2) with false. cbv iota. rewrite N2 by lia. change (unbe (takez 2 (dropz 21 far_packet))) with 1.
  change (len (bs "b") =? 1) with true. cbv iota. change (bs "b") with [98]. cbn [name_at]. rewrite G by lia. change (negb (98 =? nthz far_packet (21 + 2))) with true. cbv iota.
  subst j2. rewrite skip_S. change (20 + 14 <=? 21 + 2 + 1 + 1) with false. cbv iota. rewrite G by lia. change (nthz far_packet (21 + 2 + 1)) with 2.
  change (2 =? 0) with false. change ((2 =? 1) || (2 =? 4)) with false. change (2 =? 3) with false. change (2 =? 2) with true. cbv iota.
  change (20 + 14 <=? 21 + 2 + 1 + 4) with false. rewrite N2 by lia. change (unbe (takez 4 (dropz (21 + 2 + 1 + 1) far_packet))) with 4294967295. cbv iota.
  cbn [member_loop]. unfold getb at 1. unfold rd.
  replace ((0 <=? _) && (_ <? len (far_packet ++ b))) with false; [reflexivity|].
  rewrite len_app. change (len far_packet) with 34. lia.
Qed.
(** The time and track of a packet of the second version are read without looking at its length. *)
Theorem dtsc_header_overread_refuted : exists p, reInit 0 (bs "DTP2" ++ be 4 0) 0 false pnew = Ok p /\ valid p = Ok true /\
  undefined (fun f => getTime (fun _ => 0) (fun _ => 0) f p) /\ undefined (fun f => getTrackId (fun _ => 0) (fun _ => 0) f p).
Proof. eexists. split; [reflexivity|]. split; [reflexivity|]. split; exists O; reflexivity. Qed.

Print Assumptions dtsc_fields.
Print Assumptions dtsc_received.
Print Assumptions dtsc_history.
Print Assumptions dtsc_empty_payload_refuted.
Print Assumptions dtsc_null_payload_refuted.
Print Assumptions dtsc_set_key_refuted.
Print Assumptions dtsc_lookups_end.
Print Assumptions dtsc_skip_partial.
Print Assumptions dtsc_member_overread_refuted.
Print Assumptions dtsc_member_far_refuted.
Print Assumptions dtsc_header_overread_refuted.
