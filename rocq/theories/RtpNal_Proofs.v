From Verif Require Import RelAccX_Proofs Common CommonFacts CommonMore Bitfields_Model Bitfields_Spec Bitfields_Proofs Mem_Model Mem_Proofs Rtp_Model Rtp_Spec Rtp_Proofs.

Lemma byte_fact (P : Z -> bool) : forallb P all_bytes = true -> forall b, byteP b -> P b = true.
Proof. apply byte_sweep. Qed.
Ltac sweep := let x := fresh in let H := fresh in intros x H; apply Z.eqb_eq; revert x H; apply byte_sweep; vm_compute; reflexivity.

Lemma fu_type b : byteP b -> (((b .& 0xE0) .| 0x1C) .& 0x1F) = 28. Proof. revert b. sweep. Qed.
Lemma fu_head b : byteP b -> ((((b .& 0x1F) .| 0x80) .& 0x1F) .| (((b .& 0xE0) .| 0x1C) .& 0xE0)) = b. Proof. revert b. sweep. Qed.
Lemma fu_s1 b : byteP b -> (((b .& 0x1F) .| 0x80) .& 0x80) = 128. Proof. revert b. sweep. Qed.
Lemma fu_s2 b : byteP b -> (((b .& 0x1F) .| 0x80) .& 0x40) = 0. Proof. revert b. sweep. Qed.
Lemma fu_m1 b : byteP b -> ((b .& 0x1F) .& 0x80) = 0. Proof. revert b. sweep. Qed.
Lemma fu_m2 b : byteP b -> ((b .& 0x1F) .& 0x40) = 0. Proof. revert b. sweep. Qed.
Lemma fu_e1 b : byteP b -> (((b .& 0x1F) .| 0x40) .& 0x80) = 0. Proof. revert b. sweep. Qed.
Lemma fu_e2 b : byteP b -> (((b .& 0x1F) .| 0x40) .& 0x40) = 64. Proof. revert b. sweep. Qed.
Lemma fu_byte b : byteP b -> u8 ((b .& 0xE0) .| 0x1C) = (b .& 0xE0) .| 0x1C. Proof. revert b. sweep. Qed.
Lemma hv_type b : byteP b -> ((((b .& 0x81) .| 0x62) .& 0x7E) >> 1) = 49. Proof. revert b. sweep. Qed.
Lemma hv_head b : byteP b -> ((((((b .& 0x7E) >> 1) .| 0x80) .& 0x3F) << 1) .| (((b .& 0x81) .| 0x62) .& 0x81)) = b. Proof. revert b. sweep. Qed.
Lemma hv_s1 b : byteP b -> ((((b .& 0x7E) >> 1) .| 0x80) .& 0x80) = 128. Proof. revert b. sweep. Qed.
Lemma hv_s2 b : byteP b -> ((((b .& 0x7E) >> 1) .| 0x80) .& 0x40) = 0. Proof. revert b. sweep. Qed.
Lemma hv_m1 b : byteP b -> (((b .& 0x7E) >> 1) .& 0x80) = 0. Proof. revert b. sweep. Qed.
Lemma hv_m2 b : byteP b -> (((b .& 0x7E) >> 1) .& 0x40) = 0. Proof. revert b. sweep. Qed.
Lemma hv_e1 b : byteP b -> ((((b .& 0x7E) >> 1) .| 0x40) .& 0x80) = 0. Proof. revert b. sweep. Qed.
Lemma hv_e2 b : byteP b -> ((((b .& 0x7E) >> 1) .| 0x40) .& 0x40) = 64. Proof. revert b. sweep. Qed.
Lemma hv_byte b : byteP b -> u8 ((b .& 0x81) .| 0x62) = (b .& 0x81) .| 0x62. Proof. revert b. sweep. Qed.
Lemma hv_ty b : byteP b -> ((b .& 0x7E) >> 1) = (b / 2) mod 64. Proof. revert b. sweep. Qed.

Lemma len_pos_neq (f : list Z) : f <> [] -> (len f =? 0) = false.
Proof. intros H. destruct f as [|x f]; [now destruct H|]. rewrite len_cons. pose proof (len_nonneg f). lia. Qed.
Lemma app_ne (f g : list Z) : f <> [] -> f ++ g <> [].
Proof. destruct f; [now intros []|discriminate]. Qed.
Lemma poke_head f n : 4 <= len f -> poke f 0 (htobl n) = Some (be 4 n ++ dropz 4 f).
Proof. intros H. rewrite wr_htobl, poke_some by (try rewrite be_len; lia). unfold splice. now rewrite takez_0, be_len. Qed.

Section H264.
Variable b : Z.
Hypothesis Hb : byteP b.
Let fh := [(b .& 0xE0) .| 0x1C].
Let ty := b .& 0x1F.
Let pre := [0; 0; 0; 0; b].
Lemma h264_1 c m : handleH264 [] (fh ++ [ty .| 128] ++ c) m = Some ([], pre ++ c).
Proof.
  unfold handleH264, fh. cbn [app]. pose proof (len_nonneg c).
  rewrite !len_cons. destruct (1 + (1 + len c) =? 0) eqn:E; [lia|].
  rewrite rd_some by (rewrite !len_cons; lia). rewrite nthz_0, (fu_type b Hb).
  change (28 =? 0) with false. change (28 <? 24) with false. change (28 =? 24) with false. change (28 =? 28) with true. cbv iota zeta.
  rewrite rd_some by (rewrite !len_cons; lia). rewrite nthz_S, nthz_0 by lia. unfold ty.
  rewrite (fu_s1 b Hb), (fu_s2 b Hb), (fu_head b Hb). reflexivity.
Qed.
Lemma h264_2 f c : f <> [] -> handleH264 f (fh ++ [ty] ++ c) false = Some ([], f ++ c).
Proof.
  intros Hf. unfold handleH264, fh. cbn [app]. pose proof (len_nonneg c).
  rewrite !len_cons. destruct (1 + (1 + len c) =? 0) eqn:E; [lia|].
  rewrite rd_some by (rewrite !len_cons; lia). rewrite nthz_0, (fu_type b Hb).
  change (28 =? 0) with false. change (28 <? 24) with false. change (28 =? 24) with false. change (28 =? 28) with true. cbv iota zeta.
  rewrite rd_some by (rewrite !len_cons; lia). rewrite nthz_S, nthz_0 by lia. unfold ty.
  rewrite (fu_m1 b Hb), (fu_m2 b Hb), (len_pos_neq f Hf). reflexivity.
Qed.
Hypothesis H78 : b .& 0x1F <> 7 /\ b .& 0x1F <> 8.
Lemma h264_3 c : len (pre ++ c) < 2 ^ 32 -> forall f g, f <> [] -> f ++ g = pre ++ c ->
  handleH264 f (fh ++ [ty .| 64] ++ g) false = Some ([be 4 (len (pre ++ c) - 4) ++ dropz 4 (pre ++ c)], []).
Proof.
  intros Hl f g Hf Hfg. unfold handleH264, fh. cbn [app]. pose proof (len_nonneg g). pose proof (len_nonneg c).
  rewrite !len_cons. destruct (1 + (1 + len g) =? 0) eqn:E; [lia|].
  rewrite rd_some by (rewrite !len_cons; lia). rewrite nthz_0, (fu_type b Hb).
  change (28 =? 0) with false. change (28 <? 24) with false. change (28 =? 24) with false. change (28 =? 28) with true. cbv iota zeta.
  rewrite rd_some by (rewrite !len_cons; lia). rewrite nthz_S, nthz_0 by lia. unfold ty.
  rewrite (fu_e1 b Hb), (fu_e2 b Hb), (len_pos_neq f Hf). change (64 =? 0) with false. change (0 =? 0) with true. cbn [negb andb orb]. cbv iota.
  change (dropz 2 (((b .& 224) .| 28) :: ((b .& 31) .| 64) :: g)) with g. rewrite Hfg.
  rewrite rd_some by (rewrite len_app; change (len pre) with 5; lia).
  change (nthz (pre ++ c) 4) with b.
  destruct ((b .& 31 =? 7) || (b .& 31 =? 8)) eqn:E7; [lia|].
  rewrite poke_head by (rewrite len_app; change (len pre) with 5; lia). reflexivity.
Qed.
End H264.

Section H265.
Variables b b1 : Z.
Hypothesis Hb : byteP b.
Let fh := [(b .& 0x81) .| 0x62; b1].
Let ty := (b .& 0x7E) >> 1.
Let pre := [0; 0; 0; 0; b; b1].
Lemma hevc_1 c m : handleHEVC [] (fh ++ [ty .| 128] ++ c) m = Some ([], pre ++ c).
Proof.
  unfold handleHEVC, fh. cbn [app]. pose proof (len_nonneg c).
  rewrite !len_cons. destruct (1 + (1 + (1 + len c)) <? 2) eqn:E; [lia|].
  rewrite !rd_some by (rewrite !len_cons; lia).
  rewrite nthz_0, (nthz_S _ _ 1), nthz_0, (hv_type b Hb) by lia.
  change (49 =? 48) with false. change (49 =? 49) with true. cbv iota zeta.
  rewrite (nthz_S _ _ 2), (nthz_S _ _ (2 - 1)) by lia. change (2 - 1 - 1) with 0. rewrite nthz_0. unfold ty.
  rewrite (hv_s1 b Hb), (hv_s2 b Hb), (hv_head b Hb). reflexivity.
Qed.
Lemma hevc_2 f c : f <> [] -> handleHEVC f (fh ++ [ty] ++ c) false = Some ([], f ++ c).
Proof.
  intros Hf. unfold handleHEVC, fh. cbn [app]. pose proof (len_nonneg c).
  rewrite !len_cons. destruct (1 + (1 + (1 + len c)) <? 2) eqn:E; [lia|].
  rewrite !rd_some by (rewrite !len_cons; lia).
  rewrite nthz_0, (nthz_S _ _ 1), nthz_0, (hv_type b Hb) by lia.
  change (49 =? 48) with false. change (49 =? 49) with true. cbv iota zeta.
  rewrite (nthz_S _ _ 2), (nthz_S _ _ (2 - 1)) by lia. change (2 - 1 - 1) with 0. rewrite nthz_0. unfold ty.
  rewrite (hv_m1 b Hb), (hv_m2 b Hb), (len_pos_neq f Hf). reflexivity.
Qed.
Lemma hevc_3 c : len (pre ++ c) < 2 ^ 32 -> forall f g, f <> [] -> f ++ g = pre ++ c ->
  handleHEVC f (fh ++ [ty .| 64] ++ g) false = Some ([be 4 (len (pre ++ c) - 4) ++ dropz 4 (pre ++ c)], []).
Proof.
  intros Hl f g Hf Hfg. unfold handleHEVC, fh. cbn [app]. pose proof (len_nonneg g). pose proof (len_nonneg c).
  rewrite !len_cons. destruct (1 + (1 + (1 + len g)) <? 2) eqn:E; [lia|].
  rewrite !rd_some by (rewrite !len_cons; lia).
  rewrite nthz_0, (nthz_S _ _ 1), nthz_0, (hv_type b Hb) by lia.
  change (49 =? 48) with false. change (49 =? 49) with true. cbv iota zeta.
  rewrite (nthz_S _ _ 2), (nthz_S _ _ (2 - 1)) by lia. change (2 - 1 - 1) with 0. rewrite nthz_0. unfold ty.
  rewrite (hv_e1 b Hb), (hv_e2 b Hb), (len_pos_neq f Hf). change (64 =? 0) with false. change (0 =? 0) with true. cbn [negb andb orb]. cbv iota.
  change (dropz 3 (((b .& 129) .| 98) :: b1 :: (((b .& 126) >> 1) .| 64) :: g)) with g. rewrite Hfg.
  rewrite poke_head by (rewrite len_app; change (len pre) with 6; lia). reflexivity.
Qed.
End H265.

(** ** The state of a sender *)
Lemma sendable_plain d hs : sendable d hs -> plain (nthz d 0) (nthz d 1 mod 128) hs /\ 12 <= hs /\ getHsize d = Some hs.
Proof.
  intros [Hb Hs Hh He Hp Hx Ht].
  assert (RC : 0 <= rfc_csrc_count d) by (unfold rfc_csrc_count, field; apply Z.mod_pos_bound; reflexivity).
  destruct (field_b0 d Hb ltac:(lia)) as (_ & F2 & F3 & F4). destruct (field_b1 d Hb ltac:(lia)) as (_ & F5).
  split; [|split; [lia|]].
  - unfold plain. rewrite <- F2, <- F3, <- F4, <- F5. repeat split; try assumption. pose proof (even_mod _ He). lia.
  - destruct (payload_ok d Hb ltac:(lia) He (or_introl Hx)) as [-> _]. f_equal. unfold rfc_header_size, rfc_csrc_end. rewrite Hx. change (0 =? 0) with true. cbv iota. now symmetry.
Qed.
Lemma plain_sendable d hs : bytesP d -> hs + 4 <= len d < 2 ^ 31 -> plain (nthz d 0) (nthz d 1 mod 128) hs -> sendable d hs.
Proof.
  intros Hb Hl (E1 & E2 & E3 & E4 & E5).
  destruct (field_b0 d Hb ltac:(lia)) as (_ & F2 & F3 & F4). destruct (field_b1 d Hb ltac:(lia)) as (_ & F5).
  constructor; try assumption; try lia.
  rewrite F4. apply Z.even_spec. exists (nthz d 0 mod 16 / 2). lia.
Qed.
Lemma seq_range d : bytesP d -> 12 <= len d -> 0 <= rfc_sequence d < 65536.
Proof.
  intros Hb Hl. rewrite field_seq by assumption.
  pose proof (unbe_bound (takez 2 (dropz 2 d)) (bytesP_takez _ _ (bytesP_dropz _ _ Hb))) as B.
  rewrite len_takez in B by (rewrite len_dropz by lia; lia). exact B.
Qed.
(** Changing byte 1, keeping the payload type. *)
Lemma setb_ok d f : bytesP d -> 12 <= len d -> (forall x, byteP x -> byteP (f x) /\ f x mod 128 = x mod 128) ->
  exists d', setb d 1 f = Some d' /\ bytesP d' /\ len d' = len d /\ nthz d' 1 = f (nthz d 1) /\
    (forall i, 0 <= i < 1 \/ 2 <= i -> nthz d' i = nthz d i) /\ rfc_sequence d' = rfc_sequence d.
Proof.
  intros Hb Hl Hf. unfold setb. rewrite rd_some by lia.
  destruct (Hf _ (bytesP_nthz d 1 Hb)) as [F1 F2].
  destruct (poke d 1 [f (nthz d 1)]) as [d'|] eqn:P.
  2:{ rewrite poke_some in P; [discriminate|lia|]. change (len [f (nthz d 1)]) with 1. lia. }
  destruct (sets_poke d 1 [f (nthz d 1)] d' 1 Hb ltac:(repeat constructor; apply F1) P eq_refl) as (S1 & S2 & S3).
  pose proof (poke_seg _ _ _ _ P) as PS. change (len [f (nthz d 1)]) with 1 in PS.
  rewrite takez_1 in PS by lia. injection PS as PS.
  exists d'. split; [reflexivity|]. split; [assumption|]. split; [assumption|]. split; [assumption|]. split; [intros i Hi; apply S3; lia|].
  rewrite !field_seq by (assumption || lia). f_equal. apply seg_same; try lia; intros i Hi; apply S3; lia.
Qed.
Lemma clear_mark x : byteP x -> byteP (x .& 0x7F) /\ (x .& 0x7F) mod 128 = x mod 128.
Proof. intros H. rewrite land_127. unfold byteP in *. lia. Qed.
Lemma set_mark_v x : byteP x -> x .| 0x80 = x mod 128 + 128.
Proof. revert x. sweep. Qed.
Lemma set_mark x : byteP x -> byteP (x .| 0x80) /\ (x .| 0x80) mod 128 = x mod 128.
Proof. intros H. rewrite (set_mark_v x H). unfold byteP in *. lia. Qed.
Lemma inv_sendable d b0 t hs N fh sq : inv d b0 t hs N fh sq -> plain b0 t hs -> hs + 4 <= N < 2 ^ 31 -> sendable d hs.
Proof. intros [I1 I2 I3 I4 _ _] Hp HN. apply plain_sendable; [assumption|lia|]. rewrite I3, I4. exact Hp. Qed.

(** One packet of the single unit kind. *)
Lemma whole_ok (hevc : bool) s d hs body m : bytesP d -> hs + 4 <= len d < 2 ^ 31 -> 12 <= hs ->
  plain (nthz d 0) (nthz d 1 mod 128) hs -> nthz d 1 / 128 = m -> bytesP body -> hs + len body <= len d ->
  (forall fua ms, (if hevc then handleHEVC else handleH264) fua body ms = Some ([htobl (len body) ++ body], fua)) ->
  exists p s', emit s d hs body = Some (p, s') /\ sendable (sdata s') hs /\ len (sdata s') = len d /\ len p <= len d /\
    rfc_sequence p = rfc_sequence d /\ rfc_marker p = m /\ rfc_sequence (sdata s') = (rfc_sequence d + 1) mod 65536 /\
    (forall r, addRTPs hevc r [p] = Some ([be 4 (len body) ++ body], mkrecv (fuaBuffer r) (rfc_sequence d))).
Proof.
  intros Hb Hl Hh Hp Hm Hbb Hbl Hhand. pose proof (len_nonneg body).
  destruct (emit_ok s d hs body Hb Hbb Hh Hbl) as (d' & E & T1 & T2 & T3 & T4). rewrite E.
  set (p := takez hs d ++ body). exists p. eexists. split; [reflexivity|]. cbn [sdata].
  assert (LT : len (takez hs d) = hs) by (apply len_takez; lia).
  assert (LP : len p = hs + len body) by (unfold p; rewrite len_app; lia).
  assert (BP : bytesP p) by (unfold p; apply bytesP_app; split; [now apply bytesP_takez|assumption]).
  assert (NP : forall i, 0 <= i < hs -> nthz p i = nthz d i) by (intros i Hi; unfold p; rewrite nthz_app1, nthz_takez by lia; reflexivity).
  assert (SQ : rfc_sequence p = rfc_sequence d).
  { rewrite !field_seq by (assumption || lia). f_equal. apply list_ext.
    - rewrite !len_takez; [reflexivity| |]; rewrite len_dropz by lia; lia.
    - rewrite len_takez by (rewrite len_dropz by lia; lia). intros i Hi. rewrite !nthz_takez, !nthz_dropz by lia. apply NP. lia. }
  split. { apply plain_sendable; [assumption|lia|]. rewrite !T3 by lia. exact Hp. }
  split; [assumption|]. split; [lia|]. split; [exact SQ|].
  split. { destruct (field_b1 p BP ltac:(lia)) as [-> _]. rewrite NP by lia. exact Hm. }
  split; [exact T4|].
  intros r. cbn [addRTPs]. rewrite (addRTP_ok hevc r p hs BP ltac:(lia) ltac:(lia)) by (rewrite !NP by lia; exact Hp).
  replace (dropz hs p) with body by (symmetry; unfold p; now apply dropz_app_exact).
  rewrite Hhand, SQ. cbn [fst snd app]. now rewrite wr_htobl.
Qed.

Lemma low5 x : byteP x -> x .& 0x1F = x mod 32.
Proof. intros _. apply land_31. Qed.

Lemma h264_single body fua ms : bytesP body -> 0 < len body -> 1 <= nthz body 0 mod 32 <= 23 -> handleH264 fua body ms = Some ([htobl (len body) ++ body], fua).
Proof.
  intros Hb Hl Ht. unfold handleH264. destruct (len body =? 0) eqn:E; [lia|]. rewrite rd_some by lia. rewrite land_31.
  destruct (nthz body 0 mod 32 =? 0) eqn:E1; [lia|]. destruct (nthz body 0 mod 32 <? 24) eqn:E2; [|lia]. reflexivity.
Qed.
Lemma hevc_single body fua ms : bytesP body -> 2 <= len body -> ~ 48 <= (nthz body 0 / 2) mod 64 <= 50 -> handleHEVC fua body ms = Some ([htobl (len body) ++ body], fua).
Proof.
  intros Hb Hl Ht. unfold handleHEVC. destruct (len body <? 2) eqn:E; [lia|]. rewrite !rd_some by lia. rewrite hv_ty by now apply bytesP_nthz.
  destruct ((nthz body 0 / 2) mod 64 =? 48) eqn:E1; [lia|]. destruct ((nthz body 0 / 2) mod 64 =? 49) eqn:E2; [lia|].
  destruct ((nthz body 0 / 2) mod 64 =? 50) eqn:E3; [lia|]. reflexivity.
Qed.

Lemma h264_whole s hs pre nal post last :
  sendable (sdata s) hs -> bytesP (pre ++ nal ++ post) -> 0 < len nal -> 1 <= nthz nal 0 mod 32 <= 23 ->
  len nal + hs + 2 <= len (sdata s) ->
  exists pkt s', sendH264 s (pre ++ nal ++ post) (len pre) (len nal) last = Some ([pkt], s') /\
    sendable (sdata s') hs /\ len (sdata s') = len (sdata s) /\ len pkt <= len (sdata s) /\
    rfc_sequence pkt = rfc_sequence (sdata s) /\ rfc_sequence (sdata s') = (rfc_sequence (sdata s) + 1) mod 65536 /\
    rfc_marker pkt = (if last && (nthz nal 0 mod 32 <=? 5) then 1 else 0) /\
    (forall r, addRTPs false r [pkt] = Some ([be 4 (len nal) ++ nal], mkrecv (fuaBuffer r) (rfc_sequence pkt))).
Proof.
  intros Hs Hb Hn Ht Hl. destruct (sendable_plain _ _ Hs) as (Hp & Hh & HH). pose proof (sd_size _ _ Hs) as Hsz. pose proof (sd_bytes _ _ Hs) as Hsb.
  apply bytesP_app in Hb. destruct Hb as [Hb1 Hb2]. pose proof Hb2 as Hb3. apply bytesP_app in Hb3. destruct Hb3 as [Hb3 Hb4].
  pose proof (len_nonneg pre). pose proof (len_nonneg post).
  assert (R0 : rd (pre ++ nal ++ post) (len pre) = Some (nthz nal 0)).
  { rewrite rd_some by (rewrite !len_app; lia). rewrite nthz_app2, Z.sub_diag, nthz_app1 by lia. reflexivity. }
  assert (RP : peek (pre ++ nal ++ post) (len pre) (len nal) = Some nal).
  { rewrite peek_some by (rewrite ?len_app; lia). rewrite dropz_app_exact, takez_app_exact by reflexivity. reflexivity. }
  unfold sendH264. rewrite HH, R0. rewrite u32_id by lia.
  destruct (len nal + hs + 2 <=? len (sdata s)) eqn:E; [|lia].
  destruct (setb_ok (sdata s) (fun b => b .& 0x7F) Hsb ltac:(lia) clear_mark) as (d1 & -> & A1 & A2 & A3 & A4 & A5).
  pose proof (bytesP_nthz (sdata s) 1 Hsb) as B1. unfold byteP in B1. rewrite land_127 in A3.
  assert (Hd2 : exists d2, (if last then setb d1 1 (fun b => b .| 0x80) else Some d1) = Some d2 /\ bytesP d2 /\ len d2 = len d1 /\
     nthz d2 1 = nthz (sdata s) 1 mod 128 + (if last then 128 else 0) /\ (forall i, 0 <= i < 1 \/ 2 <= i -> nthz d2 i = nthz d1 i) /\ rfc_sequence d2 = rfc_sequence d1).
  { destruct last.
    - destruct (setb_ok d1 (fun b => b .| 0x80) A1 ltac:(lia) set_mark) as (d2 & E2 & C1 & C2 & C3 & C4 & C5). exists d2.
      rewrite set_mark_v in C3 by now apply bytesP_nthz. repeat (split; [assumption || lia|]). assumption.
    - exists d1. conjs; try reflexivity; try assumption; lia. }
  destruct Hd2 as (d2 & -> & C1 & C2 & C3 & C4 & C5). cbv zeta. rewrite land_31.
  assert (Hd3 : exists d3, (if (nthz nal 0 mod 32 <? 1) || (5 <? nthz nal 0 mod 32) then setb d2 1 (fun b => b .& 0x7F) else Some d2) = Some d3 /\ bytesP d3 /\ len d3 = len d2 /\
     nthz d3 1 = nthz (sdata s) 1 mod 128 + (if last && (nthz nal 0 mod 32 <=? 5) then 128 else 0) /\ (forall i, 0 <= i < 1 \/ 2 <= i -> nthz d3 i = nthz d2 i) /\ rfc_sequence d3 = rfc_sequence d2).
  { destruct ((nthz nal 0 mod 32 <? 1) || (5 <? nthz nal 0 mod 32)) eqn:E5.
    - destruct (setb_ok d2 (fun b => b .& 0x7F) C1 ltac:(lia) clear_mark) as (d3 & E3 & D1 & D2 & D3 & D4 & D5). exists d3.
      rewrite land_127 in D3. repeat (split; [assumption || lia|]).
      split; [|split; assumption]. destruct (nthz nal 0 mod 32 <=? 5) eqn:E6; [lia|]. rewrite andb_false_r. destruct last; lia.
    - exists d2. split; [reflexivity|]. split; [assumption|]. split; [reflexivity|]. split; [|split; reflexivity].
      destruct (nthz nal 0 mod 32 <=? 5) eqn:E6; [|lia]. rewrite andb_true_r. exact C3. }
  destruct Hd3 as (d3 & -> & D1 & D2 & D3 & D4 & D5). rewrite RP.
  destruct (whole_ok false s d3 hs nal (if last && (nthz nal 0 mod 32 <=? 5) then 1 else 0) D1 ltac:(lia) Hh) as (p & s' & -> & W1 & W2 & W3 & W4 & W5 & W6 & W7).
  { rewrite D4, C4, A4 by lia. replace (nthz d3 1 mod 128) with (nthz (sdata s) 1 mod 128); [exact Hp|].
    rewrite D3. destruct (last && (nthz nal 0 mod 32 <=? 5)); lia. }
  { rewrite D3. destruct (last && (nthz nal 0 mod 32 <=? 5)); lia. }
  { assumption. }
  { lia. }
  { intros. now apply h264_single. }
  exists p, s'. cbn [fst snd]. split; [reflexivity|]. split; [assumption|]. split; [lia|]. split; [lia|]. split; [lia|]. split; [rewrite W6; f_equal; lia|].
  split; [assumption|]. intros r. rewrite W7, W4. reflexivity.
Qed.

Lemma h264_frags s hs pre nal x post last :
  sendable (sdata s) hs -> bytesP (pre ++ nal ++ x :: post) -> 1 <= nthz nal 0 mod 32 <= 23 -> nthz nal 0 mod 32 <> 7 -> nthz nal 0 mod 32 <> 8 ->
  len nal < 2 ^ 31 -> len (sdata s) < len nal + hs + 2 ->
  exists pkts s', sendH264 s (pre ++ nal ++ x :: post) (len pre) (len nal) last = Some (pkts, s') /\
    sendable (sdata s') hs /\ len (sdata s') = len (sdata s) /\ 1 < len pkts /\ Forall (fun p => len p <= len (sdata s)) pkts /\
    numbered (rfc_sequence (sdata s)) pkts /\ rfc_sequence (sdata s') = (rfc_sequence (sdata s) + len pkts) mod 65536 /\
    marked_last (if last then 1 else 0) pkts /\
    (forall r, fuaBuffer r = [] -> rfc_sequence (sdata s) + len pkts <= 65536 ->
       exists r', addRTPs false r pkts = Some ([be 4 (len nal + 1) ++ nal ++ [x]], r') /\ fuaBuffer r' = []).
Proof.
  intros Hs Hb Ht H7 H8 Hn31 Hl. destruct (sendable_plain _ _ Hs) as (Hp & Hh & HH). pose proof (sd_size _ _ Hs) as Hsz. pose proof (sd_bytes _ _ Hs) as Hsb.
  pose proof Hb as Hbm. apply bytesP_app in Hb. destruct Hb as [Hb1 Hb2]. pose proof Hb2 as Hb3. apply bytesP_app in Hb3. destruct Hb3 as [Hb3 Hb4].
  pose proof (len_nonneg pre). pose proof (len_nonneg post). assert (Hn : 2 < len nal) by lia.
  set (b := nthz nal 0) in *. assert (Bb : byteP b) by now apply bytesP_nthz.
  assert (R0 : rd (pre ++ nal ++ x :: post) (len pre) = Some b).
  { rewrite rd_some by (rewrite !len_app, len_cons; lia). rewrite nthz_app2, Z.sub_diag, nthz_app1 by lia. reflexivity. }
  unfold sendH264. rewrite HH, R0. rewrite u32_id by lia.
  destruct (len nal + hs + 2 <=? len (sdata s)) eqn:E; [lia|].
  destruct (setb_ok (sdata s) (fun b => b .& 0x7F) Hsb ltac:(lia) clear_mark) as (d1 & -> & A1 & A2 & A3 & A4 & A5).
  pose proof (bytesP_nthz (sdata s) 1 Hsb) as B1. unfold byteP in B1. rewrite land_127 in A3.
  set (fhb := (b .& 0xE0) .| 0x1C). assert (Bf : byteP fhb) by (unfold fhb; rewrite <- (fu_byte b Bb); apply u8_byte).
  destruct (poke d1 hs [fhb]) as [d2|] eqn:P2. 2:{ rewrite poke_some in P2; [discriminate|lia|]. change (len [fhb]) with 1. lia. }
  destruct (sets_poke d1 hs [fhb] d2 1 A1 ltac:(repeat constructor; apply Bf) P2 eq_refl) as (S1 & S2 & S3).
  rewrite (u32_id (len (sdata s) - hs - 2)) by lia.
  assert (SQ2 : rfc_sequence d2 = rfc_sequence (sdata s)).
  { rewrite <- A5. rewrite !field_seq by (assumption || lia). f_equal. apply seg_same; try lia; intros i Hi; apply S3; lia. }
  assert (INV : inv d2 (nthz (sdata s) 0) (nthz (sdata s) 1 mod 128) hs (len (sdata s)) [fhb] (rfc_sequence d2)).
  { constructor; try assumption; try lia.
    - rewrite S3, A4 by lia. reflexivity.
    - rewrite S3, A3 by lia. lia.
    - exact (poke_seg _ _ _ _ P2). }
  assert (LM : len (pre ++ nal ++ x :: post) = len pre + len nal + 1 + len post) by (rewrite !len_app, len_cons; lia).
  pose proof (frag_all false (nthz (sdata s) 0) (nthz (sdata s) 1 mod 128) hs (len (sdata s)) [fhb] (b .& 0x1F) [0; 0; 0; 0; b]
    (pre ++ nal ++ x :: post) (len pre) (len nal) (len (sdata s) - hs - 2) Hp) as F.
  change (len [fhb]) with 1 in F. change (len [0; 0; 0; 0; b]) with 5 in F.
  specialize (F ltac:(lia) Hh ltac:(rewrite land_31; lia) Hbm ltac:(lia) ltac:(lia) ltac:(lia) ltac:(lia) ltac:(lia)
    (h264_1 b Bb) (h264_2 b Bb) (h264_3 b Bb ltac:(rewrite land_31; lia)) ltac:(lia) ltac:(lia)
    (mksnd d2 (sentPackets s) (sentBytes s)) last).
  cbn [sdata] in F.
  destruct (F INV) as (pkts & s' & -> & J1 & J2 & J3 & J4 & J5 & J6 & J7). { rewrite S3, A3 by lia. lia. }
  exists pkts, s'. split; [reflexivity|]. split; [now apply (inv_sendable _ _ _ _ _ _ _ J1)|]. split; [exact (i_len _ _ _ _ _ _ _ J1)|].
  split; [assumption|]. split; [assumption|]. split; [rewrite <- SQ2; assumption|]. split; [rewrite <- SQ2; assumption|]. split; [assumption|].
  intros r R1 R2. rewrite <- SQ2 in R2. destruct (J7 r R1 R2) as (r' & -> & R'). exists r'. split; [|assumption].
  assert (EX : [0; 0; 0; 0; b] ++ X [fhb] (pre ++ nal ++ x :: post) (len pre) (len nal) = [0; 0; 0; 0] ++ nal ++ [x]).
  { unfold X. change (len [fhb]) with 1.
    assert (N1 : nal = b :: dropz 1 nal). { destruct nal as [|y nal']; [change (len (@nil Z)) with 0 in Hn; lia|]. reflexivity. }
    replace (dropz (len pre + 1) (pre ++ nal ++ x :: post)) with (dropz 1 nal ++ x :: post).
    2:{ rewrite dropz_app_ge by lia. replace (len pre + 1 - len pre) with 1 by lia. rewrite dropz_app by lia. reflexivity. }
    rewrite takez_app_ge by (rewrite len_dropz by lia; lia). rewrite len_dropz by lia. replace (len nal - (len nal - 1)) with 1 by lia.
    change (takez 1 (x :: post)) with [x]. rewrite N1 at 2. reflexivity. }
  rewrite EX. do 3 f_equal. 
  - f_equal. f_equal. rewrite !len_app. change (len [0;0;0;0]) with 4. change (len [x]) with 1. lia.
Qed.

Lemma hevc_whole s hs pre nal post :
  sendable (sdata s) hs -> bytesP (pre ++ nal ++ post) -> 2 <= len nal -> ~ 48 <= (nthz nal 0 / 2) mod 64 <= 50 ->
  len nal + hs + 3 <= len (sdata s) ->
  exists pkt s', sendH265 s (pre ++ nal ++ post) (len pre) (len nal) = Some ([pkt], s') /\
    sendable (sdata s') hs /\ len (sdata s') = len (sdata s) /\ len pkt <= len (sdata s) /\
    rfc_sequence pkt = rfc_sequence (sdata s) /\ rfc_sequence (sdata s') = (rfc_sequence (sdata s) + 1) mod 65536 /\
    rfc_marker pkt = 1 /\
    (forall r, addRTPs true r [pkt] = Some ([be 4 (len nal) ++ nal], mkrecv (fuaBuffer r) (rfc_sequence pkt))).
Proof.
  intros Hs Hb Hn Ht Hl. destruct (sendable_plain _ _ Hs) as (Hp & Hh & HH). pose proof (sd_size _ _ Hs) as Hsz. pose proof (sd_bytes _ _ Hs) as Hsb.
  apply bytesP_app in Hb. destruct Hb as [Hb1 Hb2]. pose proof Hb2 as Hb3. apply bytesP_app in Hb3. destruct Hb3 as [Hb3 Hb4].
  pose proof (len_nonneg pre). pose proof (len_nonneg post).
  assert (RP : peek (pre ++ nal ++ post) (len pre) (len nal) = Some nal).
  { rewrite peek_some by (rewrite ?len_app; lia). rewrite dropz_app_exact, takez_app_exact by reflexivity. reflexivity. }
  unfold sendH265. rewrite HH. rewrite u32_id by lia.
  destruct (len nal + hs + 3 <=? len (sdata s)) eqn:E; [|lia].
  destruct (setb_ok (sdata s) (fun b => b .| 0x80) Hsb ltac:(lia) set_mark) as (d1 & -> & A1 & A2 & A3 & A4 & A5).
  pose proof (bytesP_nthz (sdata s) 1 Hsb) as B1. rewrite (set_mark_v _ B1) in A3. unfold byteP in B1. rewrite RP.
  destruct (whole_ok true s d1 hs nal 1 A1 ltac:(lia) Hh) as (p & s' & -> & W1 & W2 & W3 & W4 & W5 & W6 & W7).
  { rewrite A4 by lia. replace (nthz d1 1 mod 128) with (nthz (sdata s) 1 mod 128) by lia. exact Hp. }
  { lia. }
  { assumption. }
  { lia. }
  { intros. now apply hevc_single. }
  exists p, s'. cbn [fst snd]. split; [reflexivity|]. split; [assumption|]. split; [lia|]. split; [lia|]. split; [lia|]. split; [rewrite W6; f_equal; lia|].
  split; [assumption|]. intros r. rewrite W7, W4. reflexivity.
Qed.

Lemma hevc_frags s hs pre nal x y post :
  sendable (sdata s) hs -> bytesP (pre ++ nal ++ x :: y :: post) -> len nal < 2 ^ 31 -> len (sdata s) < len nal + hs + 3 ->
  exists pkts s', sendH265 s (pre ++ nal ++ x :: y :: post) (len pre) (len nal) = Some (pkts, s') /\
    sendable (sdata s') hs /\ len (sdata s') = len (sdata s) /\ 1 < len pkts /\ Forall (fun p => len p <= len (sdata s)) pkts /\
    numbered (rfc_sequence (sdata s)) pkts /\ rfc_sequence (sdata s') = (rfc_sequence (sdata s) + len pkts) mod 65536 /\
    marked_last 1 pkts /\
    (forall r, fuaBuffer r = [] -> rfc_sequence (sdata s) + len pkts <= 65536 ->
       exists r', addRTPs true r pkts = Some ([be 4 (len nal + 2) ++ nal ++ [x; y]], r') /\ fuaBuffer r' = []).
Proof.
  intros Hs Hb Hn31 Hl. destruct (sendable_plain _ _ Hs) as (Hp & Hh & HH). pose proof (sd_size _ _ Hs) as Hsz. pose proof (sd_bytes _ _ Hs) as Hsb.
  pose proof Hb as Hbm. apply bytesP_app in Hb. destruct Hb as [Hb1 Hb2]. pose proof Hb2 as Hb3. apply bytesP_app in Hb3. destruct Hb3 as [Hb3 Hb4].
  pose proof (len_nonneg pre). pose proof (len_nonneg post). assert (Hn : 1 < len nal) by lia.
  set (b := nthz nal 0) in *. set (b1 := nthz nal 1). assert (Bb : byteP b) by now apply bytesP_nthz. assert (Bb1 : byteP b1) by now apply bytesP_nthz.
  assert (R0 : rd (pre ++ nal ++ x :: y :: post) (len pre) = Some b).
  { rewrite rd_some by (rewrite !len_app, !len_cons; lia). rewrite nthz_app2, Z.sub_diag, nthz_app1 by lia. reflexivity. }
  assert (R1 : rd (pre ++ nal ++ x :: y :: post) (len pre + 1) = Some b1).
  { rewrite rd_some by (rewrite !len_app, !len_cons; lia). rewrite nthz_app2 by lia. replace (len pre + 1 - len pre) with 1 by lia. rewrite nthz_app1 by lia. reflexivity. }
  unfold sendH265. rewrite HH, R0, R1. rewrite u32_id by lia.
  destruct (len nal + hs + 3 <=? len (sdata s)) eqn:E; [lia|].
  destruct (setb_ok (sdata s) (fun b => b .& 0x7F) Hsb ltac:(lia) clear_mark) as (d1 & -> & A1 & A2 & A3 & A4 & A5).
  pose proof (bytesP_nthz (sdata s) 1 Hsb) as B1. unfold byteP in B1. rewrite land_127 in A3.
  set (fhb := (b .& 0x81) .| 0x62). assert (Bf : byteP fhb) by (unfold fhb; rewrite <- (hv_byte b Bb); apply u8_byte).
  destruct (poke d1 hs [fhb; b1]) as [d2|] eqn:P2. 2:{ rewrite poke_some in P2; [discriminate|lia|]. change (len [fhb; b1]) with 2. lia. }
  destruct (sets_poke d1 hs [fhb; b1] d2 2 A1 (Forall_cons _ Bf (Forall_cons _ Bb1 (Forall_nil _))) P2 eq_refl) as (S1 & S2 & S3).
  rewrite (u32_id (len (sdata s) - hs - 3)) by lia.
  assert (SQ2 : rfc_sequence d2 = rfc_sequence (sdata s)).
  { rewrite <- A5. rewrite !field_seq by (assumption || lia). f_equal. apply seg_same; try lia; intros i Hi; apply S3; lia. }
  assert (INV : inv d2 (nthz (sdata s) 0) (nthz (sdata s) 1 mod 128) hs (len (sdata s)) [fhb; b1] (rfc_sequence d2)).
  { constructor; try assumption; try lia.
    - rewrite S3, A4 by lia. reflexivity.
    - rewrite S3, A3 by lia. lia.
    - exact (poke_seg _ _ _ _ P2). }
  assert (LM : len (pre ++ nal ++ x :: y :: post) = len pre + len nal + 2 + len post) by (rewrite !len_app, !len_cons; lia).
  pose proof (frag_all true (nthz (sdata s) 0) (nthz (sdata s) 1 mod 128) hs (len (sdata s)) [fhb; b1] ((b .& 0x7E) >> 1) [0; 0; 0; 0; b; b1]
    (pre ++ nal ++ x :: y :: post) (len pre) (len nal) (len (sdata s) - hs - 3) Hp) as F.
  change (len [fhb; b1]) with 2 in F. change (len [0; 0; 0; 0; b; b1]) with 6 in F.
  specialize (F ltac:(lia) Hh ltac:(rewrite (hv_ty b Bb); lia) Hbm ltac:(lia) ltac:(lia) ltac:(lia) ltac:(lia) ltac:(lia)
    (hevc_1 b b1 Bb) (hevc_2 b b1 Bb) (hevc_3 b b1 Bb) ltac:(lia) ltac:(lia)
    (mksnd d2 (sentPackets s) (sentBytes s)) true).
  cbn [sdata] in F.
  destruct (F INV) as (pkts & s' & -> & J1 & J2 & J3 & J4 & J5 & J6 & J7). { rewrite S3, A3 by lia. lia. }
  exists pkts, s'. split; [reflexivity|]. split; [now apply (inv_sendable _ _ _ _ _ _ _ J1)|]. split; [exact (i_len _ _ _ _ _ _ _ J1)|].
  split; [assumption|]. split; [assumption|]. split; [rewrite <- SQ2; assumption|]. split; [rewrite <- SQ2; assumption|]. split; [assumption|].
  intros r Q1 Q2. rewrite <- SQ2 in Q2. destruct (J7 r Q1 Q2) as (r' & -> & R'). exists r'. split; [|assumption].
  assert (EX : [0; 0; 0; 0; b; b1] ++ X [fhb; b1] (pre ++ nal ++ x :: y :: post) (len pre) (len nal) = [0; 0; 0; 0] ++ nal ++ [x; y]).
  { unfold X. change (len [fhb; b1]) with 2.
    assert (N1 : nal = b :: b1 :: dropz 2 nal). { destruct nal as [|u [|v nal']]; [change (len (@nil Z)) with 0 in Hn; lia|change (len [u]) with 1 in Hn; lia|]. reflexivity. }
    replace (dropz (len pre + 2) (pre ++ nal ++ x :: y :: post)) with (dropz 2 nal ++ x :: y :: post).
    2:{ rewrite dropz_app_ge by lia. replace (len pre + 2 - len pre) with 2 by lia. rewrite dropz_app by lia. reflexivity. }
    rewrite takez_app_ge by (rewrite len_dropz by lia; lia). rewrite len_dropz by lia. replace (len nal - (len nal - 2)) with 2 by lia.
    change (takez 2 (x :: y :: post)) with [x; y]. rewrite N1 at 2. reflexivity. }
  rewrite EX. do 3 f_equal.
  - f_equal. f_equal. rewrite !len_app. change (len [0;0;0;0]) with 4. change (len [x; y]) with 2. lia.
Qed.
