(** C38, C39, C51: EBML (lib/ebml.cpp, lib/ebml_socketglue.cpp). *)
From Verif Require Import Common CommonFacts Bitfields_Model Bitfields_Proofs Ebml_Model Ebml_Spec Ebml_Proofs.
Import List.

(** C38. Every value is written in the shortest VINT that can hold it and read back exactly,
    whatever follows. *)
Theorem vint_roundtrip : forall v tl, 0 <= v <= 2 ^ 56 - 2 -> bytesP tl ->
  exists n : nat, sendUniInt v = vint n v /\ (1 <= n <= 8)%nat /\ v < 2 ^ (7 * Z.of_nat n) - 1 /\
    (forall m : nat, (1 <= m)%nat -> v < 2 ^ (7 * Z.of_nat m) - 1 -> (n <= m)%nat) /\
    readSize (sendUniInt v ++ tl) = Some (Z.of_nat n) /\ readInt (sendUniInt v ++ tl) = Some v.
Proof.
  intros v tl Hv Ht. exists (width v). pose proof (width_ok v Hv) as [H1 [H2 _]]. rewrite sendUniInt_ok by exact Hv.
  split; [reflexivity|]. split; [exact H1|]. split; [exact H2|]. split.
  - intros m Hm Hlt. destruct (Nat.le_gt_cases (width v) m) as [|C]; [assumption|]. exfalso. revert C Hm Hlt. clear - Hv.
    unfold width. cbn [width_from]. intros.
    assert (M : (m = 1 \/ m = 2 \/ m = 3 \/ m = 4 \/ m = 5 \/ m = 6 \/ m = 7 \/ m >= 8)%nat) by lia.
    destruct M as [->|[->|[->|[->|[->|[->|[->|M]]]]]]];
    repeat match type of C with context [if ?b then _ else _] => destruct b eqn:?; try lia end.
  - split; [rewrite svint_size by exact Hv; now rewrite svint_len|now apply svint_read].
Qed.
Print Assumptions vint_roundtrip.

(** C38. VINTs of any width are read, and the number of octets depends on the first one only. *)
Theorem vint_any_width : forall n v tl, (1 <= n <= 8)%nat -> 0 <= v < 2 ^ (7 * Z.of_nat n) -> (n = 1%nat -> v <> 127) ->
  bytesP tl -> readSize (vint n v ++ tl) = Some (Z.of_nat n) /\ readInt (vint n v ++ tl) = Some v.
Proof. intros. split; [now apply vint_first|now apply vint_read]. Qed.
Print Assumptions vint_any_width.
Theorem vint_first_byte : forall b l l', readSize (b :: l) = readSize (b :: l').
Proof. intros. now rewrite !readSize_cons. Qed.
Print Assumptions vint_first_byte.
(** C38. Values that no VINT can hold are sent as the one octet "unknown size". *)
Theorem vint_unknown : forall v tl, v > 2 ^ 56 - 2 -> sendUniInt v = [255] /\ readInt (sendUniInt v ++ tl) = Some (2 ^ 64 - 1).
Proof.
  intros v tl Hv. assert (E : sendUniInt v = [255]).
  { unfold sendUniInt, writeSize. change (2 ^ 56) with 72057594037927936 in Hv.
    repeat match goal with |- context [v <=? ?c] => replace (v <=? c) with false by lia end. reflexivity. }
  split; [exact E|]. rewrite E. unfold readInt. cbn [app]. rewrite readSize_cons. change (readSizeB 255) with 1. cbv iota beta.
  replace (len (255 :: tl) <? 1) with false by (lens; pose proof (len_nonneg tl); lia). reflexivity.
Qed.
Print Assumptions vint_unknown.

Example vint_nonvacuous : sendUniInt 500 = [0x41; 0xF4] /\ readInt ([0x41; 0xF4] ++ [9]) = Some 500 /\
  readInt ([0x10; 0; 0; 0x81] ++ [9]) = Some 129.
Proof. repeat split; reflexivity. Qed.

(** C51. How many bytes an element needs: with the whole element available the answer is its
    length; with any proper prefix it asks for more than there is but never more than the element. *)
Theorem element_need_bytes : forall w id p k, elem_ok w id p -> 0 <= k <= len (elemw w id p) ->
  exists n, needBytes (takez k (elemw w id p)) k false = Some n /\
    (k < len (elemw w id p) -> k < n <= len (elemw w id p)) /\ (k = len (elemw w id p) -> n = k).
Proof.
  intros w id p k OK Hk. destruct (Z.eq_dec k (len (elemw w id p))) as [->|Hn].
  - exists (len (elemw w id p)). rewrite takez_all by lia. pose proof (el_needBytes w id p [] OK ltac:(constructor) (len (elemw w id p)) ltac:(lia)) as E.
    rewrite app_nil_r in E. split; [exact E|]. split; [lia|reflexivity].
  - destruct (needBytes_short w id p k OK ltac:(lia)) as [n [E H]]. exists n. split; [exact E|]. split; [lia|lia].
Qed.
Print Assumptions element_need_bytes.

(** C51. Looking for an element in a well formed tree finds the first one in document order, or
    none, without reading beyond the tree. *)
Theorem find_child_exact : forall t tl id, tree_ok is_master t -> bytesP tl ->
  exists n0, forall fuel, (n0 <= fuel)%nat ->
  match tree_find id t with
  | Some x => exists pre tl', enc t ++ tl = pre ++ enc x ++ tl' /\ findChild fuel false (enc t ++ tl) id = Found (enc x ++ tl')
  | None => findChild fuel false (enc t ++ tl) id = NotFound
  end.
Proof. intros t tl id H1 H2. exists (fuel_of t). intros fuel Hf. now apply find_ok. Qed.
Print Assumptions find_child_exact.

Example find_child_nonvacuous :
  let t := Node 1 0x2E [Leaf 1 0x57 [1; 2]; Node 2 0x60 [Leaf 1 0x30 [7; 8]]; Leaf 1 0x30 [9]] in
  tree_ok is_master t /\ tree_find 0x30 t = Some (Leaf 1 0x30 [7; 8]) /\
  findChild 20 false (enc t) 0x30 = Found (enc (Leaf 1 0x30 [7; 8]) ++ enc (Leaf 1 0x30 [9])) /\
  findChild 20 false (enc t) 0x31 = NotFound.
Proof.
  cbv zeta. split; [|repeat split; reflexivity].
  repeat match goal with |- _ /\ _ => split | |- tree_ok _ _ => cbn [tree_ok] | |- elem_ok _ _ _ => unfold elem_ok | |- fold_right _ _ _ => cbn [fold_right] end;
  try reflexivity; try exact I; try lia; try (vm_compute; reflexivity); repeat constructor; unfold byteP; lia.
Qed.

(** False for trees with an element of unknown size: findChild reads outside of the element
    given. Finding F08. *)
Theorem find_child_unknown_size_refuted : exists d id,
  getOuterLen false d = Some (len d) /\ bytesP d /\ findChild 10 false d id = Oob.
Proof. exists ([0xAE; 0x82] ++ [0xE0; 0xFF]), 0x30. split; [reflexivity|]. split; [repeat constructor; unfold byteP; lia|reflexivity]. Qed.
Print Assumptions find_child_unknown_size_refuted.

(** C51. Unsigned integers, strings and blocks that are sent are read back; their size is as
    announced. *)
Theorem sent_uint_reads_back : forall id v tl, 0 <= id < 2 ^ 28 - 1 -> 0 <= v < 2 ^ 64 -> bytesP tl ->
  let d := sendElemUInt id v ++ tl in
  getID d = Some id /\ getValUInt d = Some v /\ getOuterLen false d = Some (len (sendElemUInt id v)) /\
  sizeElemUInt id v = len (sendElemUInt id v).
Proof.
  intros id v tl Hi Hv Ht. cbv zeta. pose proof (id_max id Hi). rewrite sendElemUInt_ok by assumption.
  assert (OK : elem_ok (width (len (uintp v))) id (uintp v)).
  { apply elem_ok_shortest; [exact Hi|apply uintp_bytes|]. rewrite uintp_len by assumption. pose proof (sizeUInt_ok v Hv). unfold vint_max. lia. }
  split; [now apply el_getID|]. split; [now apply getValUInt_uintp|]. split; [now apply el_getOuterLen|now apply sizeElemUInt_ok].
Qed.
Print Assumptions sent_uint_reads_back.
Theorem sent_string_reads_back : forall id s tl, 0 <= id < 2 ^ 28 - 1 -> len s < 2 ^ 32 - 16 -> bytesP s -> bytesP tl ->
  let d := sendElemStr id s ++ tl in
  getID d = Some id /\ getValStringUntrimmed d = Some s /\ (last s 1 <> 0 -> getValString d = Some s) /\
  getOuterLen false d = Some (len (sendElemStr id s)) /\ sizeElemStr id s = len (sendElemStr id s).
Proof.
  intros id s tl Hi Hl Hs Ht. cbv zeta. pose proof (id_max id Hi). assert (len s <= vint_max) by (unfold vint_max; lia).
  rewrite sendElemStr_ok by assumption.
  assert (OK : elem_ok (width (len s)) id s) by (now apply elem_ok_shortest).
  split; [now apply el_getID|]. split; [now apply getValStringUntrimmed_ok|]. split; [now apply getValString_ok|].
  split; [now apply el_getOuterLen|now apply sizeElemStr_ok].
Qed.
Print Assumptions sent_string_reads_back.

(** Signed integers, partial: the writer chooses the number of bytes without the sign bit, so the
    value must fit with its sign. Missing: the others, for which it is false (next theorem). *)
Theorem sent_int_reads_back_partial : forall id v tl, 0 <= id < 2 ^ 28 - 1 -> bytesP tl ->
  - 2 ^ (8 * sizeInt v - 1) <= v < 2 ^ (8 * sizeInt v - 1) ->
  let d := sendElemInt id v ++ tl in
  getID d = Some id /\ getValInt d = Some v /\ sizeElemInt id v = len (sendElemInt id v).
Proof.
  intros id v tl Hi Ht Hv. cbv zeta. pose proof (id_max id Hi). rewrite sendElemInt_ok by assumption. pose proof (sizeInt_bounds v).
  assert (OK : elem_ok (width (len (be (Z.to_nat (sizeInt v)) v))) id (be (Z.to_nat (sizeInt v)) v)).
  { apply elem_ok_shortest; [exact Hi|apply be_bytes|]. rewrite be_len. unfold vint_max. lia. }
  split; [now apply el_getID|]. split; [|now apply sizeElemInt_ok].
  apply getValInt_be; [exact OK|exact Ht|lia|]. rewrite Z2Nat.id by lia. exact Hv.
Qed.
Print Assumptions sent_int_reads_back_partial.
Example sent_int_nonvacuous : - 2 ^ (8 * sizeInt (-300) - 1) <= -300 < 2 ^ (8 * sizeInt (-300) - 1) /\
  getValInt (sendElemInt 0x461 (-300)) = Some (-300).
Proof. split; [vm_compute; split; congruence|reflexivity]. Qed.
(** Finding F09: 200 is read back as -56. *)
Theorem sent_int_reads_back_refuted : exists id v, 0 <= id < 2 ^ 28 - 1 /\ - 2 ^ 63 <= v < 2 ^ 63 /\
  getValInt (sendElemInt id v) = Some (-56) /\ v = 200.
Proof. exists 0x461, 200. repeat split; try lia; reflexivity. Qed.
Print Assumptions sent_int_reads_back_refuted.

Theorem sent_block_reads_back : forall dat track time (key : bool) ctime tl,
  bytesP dat -> bytesP tl -> 1 <= track <= 2 ^ 56 - 2 -> len dat < 2 ^ 32 - 32 -> -32768 <= time - ctime < 32768 ->
  let d := sendSimpleBlock dat track time key ctime ++ tl in
  getID d = Some 0x23 /\ getTrackNum d = Some track /\ getTimecode d = Some (time - ctime) /\ isKeyframe d = Some key /\
  getFrameCount d = Some 1 /\ getFrameSize d 0 = Some (len dat) /\
  (exists o p, getFrameData d 0 = Some o /\ getPayload d = Some p /\ takez (len dat) (dropz o p) = dat) /\
  getOuterLen false d = Some (len (sendSimpleBlock dat track time key ctime)) /\
  sizeSimpleBlock track (len dat) = len (sendSimpleBlock dat track time key ctime).
Proof.
  intros dat track time key ctime tl Hb Htl Ht Hl Htc. cbv zeta.
  assert (Ht' : 0 <= track <= vint_max) by (unfold vint_max; lia).
  destruct (simple_block_ok dat track time key ctime Hb Ht' ltac:(lia)) as [E [S OK]]. rewrite E. rewrite (S Hl).
  destruct (unlaced (width (len (block track (s16 (time - ctime)) (if key then 128 else 0) [] [dat]))) 0x23 track (s16 (time - ctime)) (if key then 128 else 0) dat tl OK Htl Ht' ltac:(lia)) as [C D].
  { now destruct key. }
  destruct (D 0 ltac:(lens; lia)) as [D1 D2]. change (frame [dat] 0) with dat in *.
  assert (S16 : s16 (s16 (time - ctime)) = time - ctime).
  { unfold s16, u16. cbv zeta. destruct ((time - ctime) mod 65536 <? 32768) eqn:?; dif; lia. }
  split; [now apply el_getID|]. split; [now apply bk_track|]. split; [unfold elem; rewrite bk_time by assumption; now rewrite S16|].
  split; [unfold elem; rewrite bk_key by assumption; now destruct key|]. split; [exact C|]. split; [exact D1|]. split; [exact D2|].
  split; [now apply el_getOuterLen|reflexivity].
Qed.
Print Assumptions sent_block_reads_back.
Example sent_block_nonvacuous : let d := sendSimpleBlock [1; 2; 3] 2 1000 true 990 in
  d = [0xA3; 0x87; 0x82; 0; 10; 0x80; 1; 2; 3] /\ getTimecode d = Some 10 /\ getFrameSize d 0 = Some 3.
Proof. repeat split; reflexivity. Qed.

(** C51. Compound elements: what is sent is a well formed tree (so searching it is exact, see
    above), as long as announced, and each value is found in it. *)
Theorem sent_cue_point : forall time track cpos rpos tl, u64v time -> u64v track -> u64v cpos -> u64v rpos -> bytesP tl ->
  let d := sendElemCuePoint time track cpos rpos in
  sizeElemCuePoint time track cpos rpos = len d /\ getOuterLen false (d ++ tl) = Some (len d) /\
  finds (d ++ tl) 0x33 (fun e => getValUInt e = Some time) /\ finds (d ++ tl) 0x77 (fun e => getValUInt e = Some track) /\
  finds (d ++ tl) 0x71 (fun e => getValUInt e = Some cpos) /\ finds (d ++ tl) 0x70 (fun e => getValUInt e = Some rpos).
Proof.
  intros time track cpos rpos tl H1 H2 H3 H4 Ht. cbv zeta. destruct (cue_ok time track cpos rpos H1 H2 H3 H4) as [E [S T]]. rewrite E.
  split; [exact S|]. split; [apply el_getOuterLen; [apply T|exact Ht]|].
  repeat match goal with |- _ /\ _ => split end;
  (eapply finds_tree; [exact T|exact Ht|reflexivity|]; intros tl' Htl'; cbn [enc]; apply getValUInt_uintp; [lia|assumption|assumption]).
Qed.
Print Assumptions sent_cue_point.
Theorem sent_ebml_header_partial : forall doctype tl, bytesP doctype -> len doctype <= 126 -> last doctype 1 <> 0 -> bytesP tl ->
  let d := sendElemEBML doctype in
  sizeElemEBML doctype = len d /\ getOuterLen false (d ++ tl) = Some (len d) /\
  finds (d ++ tl) 0x282 (fun e => getValString e = Some doctype).
Proof.
  intros doctype tl Hb Hl Hz Ht. cbv zeta. destruct (ebml_header_ok doctype Hb Hl) as [E [S T]]. rewrite E.
  split; [exact S|]. split; [apply el_getOuterLen; [apply T|exact Ht]|].
  eapply finds_tree; [exact T|exact Ht|reflexivity|]. intros tl' Htl'. cbn [enc]. apply getValString_ok; [|exact Htl'|exact Hz].
  apply elem_ok_shortest; [lia|exact Hb|unfold vint_max; lia].
Qed.
Print Assumptions sent_ebml_header_partial.
(** Partial: false for longer document types, where the announced size is wrong. Finding F10. *)
Theorem sent_ebml_header_refuted : exists doctype, bytesP doctype /\ len doctype = 127 /\
  sizeElemEBML doctype <> len (sendElemEBML doctype) /\ getOuterLen false (sendElemEBML doctype) <> Some (len (sendElemEBML doctype)).
Proof.
  exists (repeat 65 127). split; [repeat constructor; unfold byteP; lia|]. split; [reflexivity|]. split; vm_compute; congruence.
Qed.
Print Assumptions sent_ebml_header_refuted.
Theorem sent_seek_partial : forall id pos tl, 0 <= id < 2 ^ 28 - 1 -> u64v pos -> sizeUInt id = writeSize id -> bytesP tl ->
  let d := sendElemSeek id pos in
  sizeElemSeek id pos = len d /\ getOuterLen false (d ++ tl) = Some (len d) /\
  finds (d ++ tl) 0x13AC (fun e => getValUInt e = Some pos) /\
  finds (d ++ tl) 0x13AB (fun e => exists p, getPayload e = Some p /\ readInt p = Some id).
Proof.
  intros id pos tl Hi Hp Hs Ht. cbv zeta. destruct (seek_ok id pos Hi Hp Hs) as [E [S T]]. rewrite E.
  split; [exact S|]. split; [apply el_getOuterLen; [apply T|exact Ht]|]. split.
  - eapply finds_tree; [exact T|exact Ht|reflexivity|]; intros tl' Htl'; cbn [enc]; apply getValUInt_uintp; [lia|assumption|assumption].
  - eapply finds_tree; [exact T|exact Ht|reflexivity|]; intros tl' Htl'; cbn [enc]. eexists. split.
    + apply el_getPayload. apply elem_ok_shortest; [lia|apply svint_bytes|]. pose proof (svint_len_bounds id (id_max id Hi)). unfold vint_max. lia.
    + apply svint_read; [now apply id_max|exact Htl'].
Qed.
Print Assumptions sent_seek_partial.
Example sent_seek_nonvacuous : 0 <= 0x0549A966 < 2 ^ 28 - 1 /\ sizeUInt 0x0549A966 = writeSize 0x0549A966 /\
  sizeElemSeek 0x0549A966 100 = len (sendElemSeek 0x0549A966 100).
Proof. repeat split; try lia; reflexivity. Qed.
(** Partial: false for identifiers whose value and VINT sizes differ. Finding F11 (the identifiers
    the server sends are not among them). *)
Theorem sent_seek_refuted : exists id pos, 0 <= id < 2 ^ 28 - 1 /\ u64v pos /\
  getOuterLen false (sendElemSeek id pos) <> Some (len (sendElemSeek id pos)).
Proof. exists 200, 0. unfold u64v. split; [lia|]. split; [lia|]. vm_compute. congruence. Qed.
Print Assumptions sent_seek_refuted.

(** C39. The frames of a laced block are found exactly, for each kind of lacing and up to 255
    frames. [laced] says: the frame count is right, each frame has its size, and at its offset
    in the payload are its bytes. *)
Theorem xiph_lacing_exact : forall w id track tc fl F tl,
  let lace := xiph_lace F in
  elem_ok w id (block track tc fl lace F) -> bytesP tl -> 0 <= track <= 2 ^ 56 - 2 ->
  len (block track tc fl lace F) < 2 ^ 32 -> 1 <= len F <= 255 -> (fl .& 6) >> 1 = 1 -> laced w id track tc fl lace F tl.
Proof. intros. now apply lc_xiph. Qed.
Print Assumptions xiph_lacing_exact.
Theorem ebml_lacing_exact : forall w id track tc fl F lace tl, ebml_lace F lace ->
  elem_ok w id (block track tc fl lace F) -> bytesP tl -> 0 <= track <= 2 ^ 56 - 2 ->
  len (block track tc fl lace F) < 2 ^ 32 -> 1 <= len F <= 255 -> (fl .& 6) >> 1 = 3 -> laced w id track tc fl lace F tl.
Proof. intros. now apply lc_ebml. Qed.
Print Assumptions ebml_lacing_exact.
Theorem fixed_lacing_exact : forall w id track tc fl F s tl,
  let lace := fixed_lace F in Forall (fun f => len f = s) F ->
  elem_ok w id (block track tc fl lace F) -> bytesP tl -> 0 <= track <= 2 ^ 56 - 2 ->
  len (block track tc fl lace F) < 2 ^ 32 -> 2 <= len F <= 255 -> (fl .& 6) >> 1 = 2 -> laced w id track tc fl lace F tl.
Proof. intros. apply (lc_fixed w id track tc fl lace F tl) with (s := s); try assumption; try reflexivity; lia. Qed.
Print Assumptions fixed_lacing_exact.
Theorem no_lacing_exact : forall w id track tc fl f tl,
  elem_ok w id (block track tc fl [] [f]) -> bytesP tl -> 0 <= track <= 2 ^ 56 - 2 ->
  len f < 2 ^ 32 -> (fl .& 6) >> 1 = 0 -> laced w id track tc fl [] [f] tl.
Proof. intros. now apply unlaced. Qed.
Print Assumptions no_lacing_exact.

Example lacing_nonvacuous :
  let F := [repeat 7 300; [1; 2]; [3]] in
  elem_ok 2 0x23 (block 5 10 2 (xiph_lace F) F) /\ len (block 5 10 2 (xiph_lace F) F) < 2 ^ 32 /\ (2 .& 6) >> 1 = 1 /\
  ebml_lace F ([2] ++ [0x41; 0x2C] ++ [0x5E; 0xD5]) /\
  getFrameSize (elemw 2 0x23 (block 5 10 6 ([2] ++ [0x41; 0x2C] ++ [0x5E; 0xD5]) F)) 1 = Some 2.
Proof.
  cbv zeta. split.
  { unfold elem_ok. split; [lia|]. split; [lia|]. split; [vm_compute; reflexivity|]. unfold bytesP. apply Forall_forall. intros x Hx.
    unfold byteP. assert (forallb (fun x => (0 <=? x) && (x <? 256)) (block 5 10 2 (xiph_lace [repeat 7 300; [1; 2]; [3]]) [repeat 7 300; [1; 2]; [3]]) = true) as A by (vm_compute; reflexivity).
    rewrite forallb_forall in A. specialize (A x Hx). lia. }
  split; [vm_compute; reflexivity|]. split; [reflexivity|]. split; [|vm_compute; reflexivity].
  change ([2] ++ [65; 44] ++ [94; 213]) with ((1 + len [[3]]) :: svint (len (repeat 7 300)) ++ (vint 2 (2 - 300 + (2 ^ (7 * Z.of_nat 2 - 1) - 1)) ++ [])).
  apply el_more. apply (ed_cons (len (repeat 7 300)) 2 [] 2 []); [lia|vm_compute; split; congruence|constructor].
Qed.

(** False beyond: with 256 frames (count octet 255), which the format allows, the frame count is
    0 and the fixed size division is by zero; one frame with fixed lacing gets a size that is one
    too large. Finding F12. *)
Theorem fixed_lacing_refuted :
  (exists d, getFrameCount d = Some 0 /\ getFrameSize d 0 = None /\ len d = 8 + 256) /\
  (exists d f, d = elemw 1 0x23 (block 1 0 4 (fixed_lace [f]) [f]) /\ len f = 3 /\ getFrameSize d 0 = Some 4).
Proof.
  split.
  - exists (elemw 2 0x23 (block 1 0 4 (fixed_lace (repeat [9] 256)) (repeat [9] 256))). repeat split; vm_compute; reflexivity.
  - exists (elemw 1 0x23 (block 1 0 4 (fixed_lace [[1;2;3]]) [[1;2;3]])), [1;2;3]. repeat split; vm_compute; reflexivity.
Qed.
Print Assumptions fixed_lacing_refuted.

(** C51. The segment information: as long as announced, if the name is shorter than 127 bytes and
    the date is not the epoch of Matroska. *)
Theorem sent_info_size_partial : forall appName duration date, bytesP appName -> len appName <= 126 -> date <> 978307200000 ->
  let d := sendElemInfo appName duration date in
  sizeElemInfo appName duration date = len d /\
  getOuterLen false d = Some (len d).
Proof.
  intros a dur date Hab Ha Hd. cbv zeta. pose proof (len_nonneg a) as H0.
  assert (EB : forall id p, bytesP p -> bytesP (elem id p)).
  { intros id p Hp. unfold elem, elemw. rewrite !bytesP_app. split; [apply svint_bytes|]. split; [apply vint_bytes|exact Hp]. }
  assert (DB : forall v, sizeElemDbl 0x489 v = len (sendElemDbl 0x489 v) /\ 0 <= sizeElemDbl 0x489 v <= 11).
  { intros [f|f]; (split; [reflexivity|vm_compute; split; congruence]). }
  assert (IB : forall v, sizeElemInt 0x461 v = len (sendElemInt 0x461 v) /\ 0 <= sizeElemInt 0x461 v <= 24).
  { intros v. rewrite sendElemInt_ok, sizeElemInt_ok by (unfold vint_max; lia). split; [reflexivity|].
    rewrite elem_len, be_len. pose proof (sizeInt_bounds v). rewrite Z2Nat.id by lia.
    assert (0 <= sizeInt v <= vint_max) by (unfold vint_max; lia). pose proof (svint_len_bounds _ H1). change (len (svint 0x461)) with 2. lia. }
  assert (ST : forall id, id = 0xD80 \/ id = 0x1741 -> len (sendElemStr id a) = 3 + len a).
  { intros id [->| ->]; rewrite sendElemStr_ok by (unfold vint_max; lia); rewrite elem_len, (svint_small (len a)) by lia; lens;
    [change (len (svint 0xD80)) with 2|change (len (svint 0x1741)) with 2]; lia. }
  assert (CB : 0 <= info_len a dur date <= 400).
  { unfold info_len. cbv zeta. destruct dur as [v|]; [pose proof (DB v)|]; (destruct (date =? 0); [lia|]);
    pose proof (IB ((date - 978307200000) * 1000000)); lia. }
  set (body := sendElemUInt 0xAD7B1 1000000 ++
    match dur with None => [] | Some v => sendElemDbl 0x489 v end ++
    (if (if date =? 0 then 0 else (date - 978307200000) * 1000000) =? 0 then [] else sendElemInt 0x461 (if date =? 0 then 0 else (date - 978307200000) * 1000000)) ++
    sendElemStr 0xD80 a ++ sendElemStr 0x1741 a).
  assert (BL : len body = info_len a dur date).
  { unfold body. lens. rewrite !ST by tauto. change (len (sendElemUInt 0xAD7B1 1000000)) with 7. unfold info_len. cbv zeta.
    destruct (date =? 0) eqn:E; [cbn [Z.eqb]|replace ((date - 978307200000) * 1000000 =? 0) with false by lia];
    (destruct dur as [v|]; [pose proof (DB v)|]); try pose proof (IB ((date - 978307200000) * 1000000)); lnil; lia. }
  assert (V : 0 <= len body <= vint_max) by (unfold vint_max; lia). pose proof (svint_len_bounds _ V).
  assert (E : sendElemInfo a dur date = elem 0x0549A966 body).
  { unfold sendElemInfo. cbv zeta. fold body. rewrite <- BL. rewrite sendElemHead_ok by (assumption || (unfold vint_max; lia)).
    unfold elem, elemw. now rewrite <- app_assoc. }
  rewrite E. split.
  - unfold sizeElemInfo. cbv zeta. rewrite <- BL, sizeElemHead_ok by (assumption || (unfold vint_max; lia)). rewrite elem_len.
    change (len (svint 0x0549A966)) with 4. unfold u32. rewrite Z.mod_small; lia.
  - pose proof (el_getOuterLen (width (len body)) 0x0549A966 body [] ) as O. rewrite app_nil_r in O. apply O; [|constructor].
    apply elem_ok_shortest; [lia| |apply V]. unfold body. rewrite !bytesP_app.
    split; [rewrite sendElemUInt_ok by (unfold vint_max; lia); apply EB, be_bytes|].
    split; [destruct dur as [[f|f]|]; [| |constructor]; unfold sendElemDbl; rewrite sendElemHead_ok by (unfold vint_max; lia);
      rewrite !bytesP_app; (split; [split; apply svint_bytes|unfold htobf, htobd; rewrite ?wr_htobl, ?wr_htobll; apply be_bytes])|].
    split; [destruct ((if date =? 0 then _ else _) =? 0); [constructor|rewrite sendElemInt_ok by (unfold vint_max; lia); apply EB, be_bytes]|].
    split; rewrite sendElemStr_ok by (unfold vint_max; lia); now apply EB.
Qed.
Print Assumptions sent_info_size_partial.
Example sent_info_nonvacuous : sizeElemInfo (bs "MistServer") (Some (inl 5)) 0 = len (sendElemInfo (bs "MistServer") (Some (inl 5)) 0).
Proof. reflexivity. Qed.
(** False otherwise. Finding F10. *)
Theorem sent_info_size_refuted : exists appName date,
  getOuterLen false (sendElemInfo appName None date) <> Some (len (sendElemInfo appName None date)).
Proof. exists (repeat 65 127), 0. vm_compute. congruence. Qed.
Print Assumptions sent_info_size_refuted.
