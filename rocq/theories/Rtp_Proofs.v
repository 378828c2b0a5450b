From Verif Require Import Common CommonFacts CommonMore Bitfields_Model Bitfields_Spec Bitfields_Proofs Mem_Model Mem_Proofs Rtp_Model Rtp_Spec.

(** ** Header fields *)
Lemma pow256_2 k : 0 <= k -> 256 ^ k = 2 ^ (8 * k).
Proof. intros. change 256 with (2 ^ 8). now rewrite <- Z.pow_mul_r by lia. Qed.
Lemma takez_split {A} n m (l : list A) : 0 <= n -> 0 <= m -> takez (n + m) l = takez n l ++ takez m (dropz n l).
Proof. apply takez_add. Qed.
Lemma takez_1 (l : list Z) q : 0 <= q < len l -> takez 1 (dropz q l) = [nthz l q].
Proof.
  intros H. apply list_ext.
  - rewrite len_takez; [reflexivity|]. rewrite len_dropz by lia. lia.
  - rewrite len_takez by (rewrite len_dropz by lia; lia). intros i Hi. replace i with 0 by lia.
    rewrite nthz_takez, nthz_dropz by lia. now replace (q + 0) with q by lia.
Qed.
Lemma field_bits d q o n : bytesP d -> 12 <= len d -> 0 <= q < 12 -> 0 <= o -> 0 <= n -> o + n <= 8 ->
  field d (8 * q + o) n = (nthz d q / 2 ^ (8 - o - n)) mod 2 ^ n.
Proof.
  intros Hb Hl Hq Ho Hn Hon. unfold field.
  assert (E : takez 12 d = takez q d ++ [nthz d q] ++ takez (11 - q) (dropz (q + 1) d)).
  { replace 12 with (q + (1 + (11 - q))) by lia. rewrite takez_split by lia. f_equal.
    rewrite takez_split by lia. rewrite takez_1 by lia. f_equal. rewrite dropz_dropz by lia. f_equal. f_equal. lia. }
  rewrite E, !unbe_app. change (unbe [nthz d q]) with (0 * 256 + nthz d q).
  set (A := unbe (takez q d)). set (T := takez (11 - q) (dropz (q + 1) d)).
  assert (LT : len T = 11 - q) by (unfold T; rewrite len_takez; [lia|rewrite len_dropz by lia; lia]).
  assert (BT : 0 <= unbe T < 256 ^ (11 - q)) by (rewrite <- LT; apply unbe_bound, bytesP_takez, bytesP_dropz, Hb).
  rewrite len_app, LT. change (len [nthz d q]) with 1. rewrite Z.pow_add_r by lia. change (256 ^ 1) with 256.
  set (P := 256 ^ (11 - q)) in *. set (B := unbe T) in *. set (x := nthz d q).
  assert (HP : 0 < P) by (unfold P; apply pow256_pos; lia).
  replace (2 ^ (96 - (8 * q + o) - n)) with (P * 2 ^ (8 - o - n)).
  2:{ unfold P. rewrite pow256_2 by lia. rewrite <- Z.pow_add_r by lia. f_equal. lia. }
  assert (Hs : 0 < 2 ^ (8 - o - n)) by (apply Z.pow_pos_nonneg; lia).
  rewrite <- Z.div_div by lia.
  replace ((A * (256 * P) + ((0 * 256 + x) * P + B)) / P) with (A * 256 + x).
  2:{ symmetry. replace (A * (256 * P) + ((0 * 256 + x) * P + B)) with (B + (A * 256 + x) * P) by lia. rewrite Z.div_add by lia. rewrite Z.div_small by lia. lia. }
  replace 256 with (2 ^ (o + n) * 2 ^ (8 - o - n)) at 1 by (rewrite <- Z.pow_add_r by lia; now replace (o + n + (8 - o - n)) with 8 by lia).
  rewrite Z.mul_assoc, Z.add_comm, Z.div_add by lia.
  rewrite Z.pow_add_r by lia. rewrite Z.mul_assoc, Z.mod_add; [reflexivity|].
  apply Z.pow_nonzero; lia.
Qed.
Lemma field_bytes d q n : bytesP d -> 12 <= len d -> 0 <= q -> 0 <= n -> q + n <= 12 ->
  field d (8 * q) (8 * n) = unbe (takez n (dropz q d)).
Proof.
  intros Hb Hl Hq Hn Hqn. unfold field.
  assert (E : takez 12 d = takez q d ++ takez n (dropz q d) ++ takez (12 - q - n) (dropz (q + n) d)).
  { replace 12 with (q + (n + (12 - q - n))) at 1 by lia. rewrite !takez_split by lia. f_equal. f_equal.
    rewrite dropz_dropz by lia. f_equal. f_equal. lia. }
  rewrite E, !unbe_app. rewrite len_app.
  assert (L1 : len (takez n (dropz q d)) = n) by (rewrite len_takez; [lia|rewrite len_dropz by lia; lia]).
  assert (L2 : len (takez (12 - q - n) (dropz (q + n) d)) = 12 - q - n) by (rewrite len_takez; [lia|rewrite len_dropz by lia; lia]).
  pose proof (unbe_bound (takez n (dropz q d)) (bytesP_takez _ _ (bytesP_dropz _ _ Hb))) as B1. rewrite L1 in B1.
  pose proof (unbe_bound (takez (12 - q - n) (dropz (q + n) d)) (bytesP_takez _ _ (bytesP_dropz _ _ Hb))) as B2. rewrite L2 in B2.
  rewrite L1, L2.
  set (B := unbe (takez (12 - q - n) _)) in *. set (X := unbe (takez n _)) in *. set (A := unbe (takez q d)).
  rewrite Z.pow_add_r by lia.
  replace (2 ^ (96 - 8 * q - 8 * n)) with (256 ^ (12 - q - n)) by (rewrite pow256_2 by lia; f_equal; lia).
  replace (2 ^ (8 * n)) with (256 ^ n) by (rewrite pow256_2 by lia; reflexivity).
  set (P := 256 ^ (12 - q - n)) in *. set (N := 256 ^ n) in *.
  assert (0 < P) by (unfold P; apply pow256_pos; lia).
  replace (A * (N * P) + (X * P + B)) with (B + (A * N + X) * P) by lia.
  rewrite Z.div_add, Z.div_small by lia. rewrite Z.add_0_l, Z.add_comm, Z.mod_add by lia. apply Z.mod_small. lia.
Qed.
Lemma field_at d p q o n : bytesP d -> 12 <= len d -> p = 8 * q + o -> 0 <= q < 12 -> 0 <= o -> 0 <= n -> o + n <= 8 ->
  field d p n = (nthz d q / 2 ^ (8 - o - n)) mod 2 ^ n.
Proof. intros ? ? ->. now apply field_bits. Qed.
Lemma field_b0 d : bytesP d -> 12 <= len d ->
  rfc_version d = nthz d 0 / 64 /\ rfc_padding d = (nthz d 0 / 32) mod 2 /\ rfc_extension d = (nthz d 0 / 16) mod 2 /\ rfc_csrc_count d = nthz d 0 mod 16.
Proof.
  intros Hb Hl. pose proof (bytesP_nthz d 0 Hb) as Hx. unfold byteP in Hx.
  unfold rfc_version, rfc_padding, rfc_extension, rfc_csrc_count.
  rewrite (field_at d 0 0 0 2), (field_at d 2 0 2 1), (field_at d 3 0 3 1), (field_at d 4 0 4 4) by (assumption || lia).
  change (2 ^ (8 - 0 - 2)) with 64. change (2 ^ (8 - 2 - 1)) with 32. change (2 ^ (8 - 3 - 1)) with 16. change (2 ^ (8 - 4 - 4)) with 1.
  change (2 ^ 2) with 4. change (2 ^ 1) with 2. change (2 ^ 4) with 16. lia.
Qed.
Lemma field_b1 d : bytesP d -> 12 <= len d -> rfc_marker d = nthz d 1 / 128 /\ rfc_payload_type d = nthz d 1 mod 128.
Proof.
  intros Hb Hl. pose proof (bytesP_nthz d 1 Hb) as Hx. unfold byteP in Hx.
  unfold rfc_marker, rfc_payload_type.
  rewrite (field_at d 8 1 0 1), (field_at d 9 1 1 7) by (assumption || lia).
  change (2 ^ (8 - 0 - 1)) with 128. change (2 ^ (8 - 1 - 7)) with 1. change (2 ^ 1) with 2. change (2 ^ 7) with 128. lia.
Qed.
Lemma field_seq d : bytesP d -> 12 <= len d -> rfc_sequence d = unbe (takez 2 (dropz 2 d)).
Proof. intros. apply (field_bytes d 2 2); (assumption || lia). Qed.
Lemma field_ts d : bytesP d -> 12 <= len d -> rfc_timestamp d = unbe (takez 4 (dropz 4 d)).
Proof. intros. apply (field_bytes d 4 4); (assumption || lia). Qed.
Lemma field_ssrc d : bytesP d -> 12 <= len d -> rfc_ssrc d = unbe (takez 4 (dropz 8 d)).
Proof. intros. apply (field_bytes d 8 4); (assumption || lia). Qed.

Lemma land_14 x : byteP x -> x .& 14 = x mod 16 - x mod 2.
Proof.
  intros H. apply Z.eqb_eq. revert x H. apply (byte_sweep (fun x => x .& 14 =? x mod 16 - x mod 2)). vm_compute. reflexivity.
Qed.
Lemma get_b0 d : bytesP d -> 12 <= len d ->
  getVersion d = Some (rfc_version d) /\ getPadding d = Some (rfc_padding d) /\ getExtension d = Some (rfc_extension d) /\
  getContribCount d = Some (rfc_csrc_count d - rfc_csrc_count d mod 2) /\
  getMarker d = Some (rfc_marker d) /\ getPayloadType d = Some (rfc_payload_type d).
Proof.
  intros Hb Hl. destruct (field_b0 d Hb Hl) as (-> & -> & -> & ->). destruct (field_b1 d Hb Hl) as (-> & ->).
  pose proof (bytesP_nthz d 0 Hb) as Hx. pose proof (bytesP_nthz d 1 Hb) as Hy.
  unfold getVersion, getPadding, getExtension, getContribCount, getMarker, getPayloadType.
  rewrite !rd_some by lia. cbn beta iota.
  rewrite (land_14 _ Hx). rewrite land_3, !land_1, land_127, !shr_div by lia. unfold byteP in *.
  change (2 ^ 6) with 64. change (2 ^ 5) with 32. change (2 ^ 4) with 16. change (2 ^ 7) with 128.
  repeat split; f_equal; lia.
Qed.
Lemma get_bytes d : bytesP d -> 12 <= len d ->
  getSequence d = Some (rfc_sequence d) /\ getTimeStamp d = Some (rfc_timestamp d) /\ getSSRC d = Some (rfc_ssrc d).
Proof.
  intros Hb Hl. rewrite field_seq, field_ts, field_ssrc by assumption.
  unfold getSequence, getTimeStamp, getSSRC. rewrite !peek_some by lia. cbn beta iota.
  assert (T : forall n q, 0 <= n -> 0 <= q -> q + n <= 12 -> bytesP (takez n (dropz q d)) /\ len (takez n (dropz q d)) = n).
  { intros n q ? ? ?. split; [now apply bytesP_takez, bytesP_dropz|rewrite len_takez; [lia|rewrite len_dropz by lia; lia]]. }
  destruct (T 2 2) as [T1 T2], (T 4 4) as [T3 T4], (T 4 8) as [T5 T6]; try lia.
  repeat split; f_equal.
  - rewrite rd_btohs by (assumption || lia). f_equal. apply (takez_all 2). lia.
  - rewrite rd_btohl by (assumption || lia). f_equal. apply (takez_all 4). lia.
  - rewrite rd_btohl by (assumption || lia). f_equal. apply (takez_all 4). lia.
Qed.

(** ** Setters *)
Lemma poke_nthz m o xs m' i : poke m o xs = Some m' -> 0 <= i < o \/ o + len xs <= i -> nthz m' i = nthz m i.
Proof. intros H Hi. apply poke_inv in H. destruct H as (H1 & H2 & ->). apply splice_out; assumption. Qed.
Lemma poke_seg m o xs m' : poke m o xs = Some m' -> takez (len xs) (dropz o m') = xs.
Proof. intros H. apply poke_inv in H. destruct H as (H1 & H2 & ->). now apply splice_read. Qed.
Definition sets (d d' : list Z) (o n : Z) : Prop :=
  bytesP d' /\ len d' = len d /\ forall i, 0 <= i < o \/ o + n <= i -> nthz d' i = nthz d i.
Lemma sets_poke d o xs d' n : bytesP d -> bytesP xs -> poke d o xs = Some d' -> n = len xs -> sets d d' o n.
Proof.
  intros Hb Hx H ->. split; [|split].
  - exact (poke_bytes _ _ _ _ Hb Hx H).
  - exact (poke_len _ _ _ _ H).
  - intros i Hi. eapply poke_nthz; eassumption.
Qed.
Lemma setSequence_ok d v : bytesP d -> 12 <= len d ->
  exists d', setSequence d v = Some d' /\ sets d d' 2 2 /\ rfc_sequence d' = v mod 65536.
Proof.
  intros Hb Hl. unfold setSequence. rewrite wr_htobs.
  destruct (poke d 2 (be 2 v)) as [d'|] eqn:E.
  2:{ rewrite poke_some in E; [discriminate|lia|]. rewrite be_len. lia. }
  exists d'. assert (S : sets d d' 2 2) by (eapply sets_poke; [exact Hb|apply (be_bytes 2 v)|exact E|reflexivity]).
  split; [reflexivity|]. split; [exact S|]. destruct S as (S1 & S2 & _).
  rewrite field_seq by (assumption || lia). pose proof (poke_seg _ _ _ _ E) as P. rewrite be_len in P. change (Z.of_nat 2) with 2 in P.
  rewrite P, unbe_be. reflexivity.
Qed.
Lemma setTimestamp_ok d v : bytesP d -> 12 <= len d ->
  exists d', setTimestamp d v = Some d' /\ sets d d' 4 4 /\ rfc_timestamp d' = v mod 2 ^ 32.
Proof.
  intros Hb Hl. unfold setTimestamp. rewrite wr_htobl.
  destruct (poke d 4 (be 4 v)) as [d'|] eqn:E.
  2:{ rewrite poke_some in E; [discriminate|lia|]. rewrite be_len. lia. }
  exists d'. assert (S : sets d d' 4 4) by (eapply sets_poke; [exact Hb|apply (be_bytes 4 v)|exact E|reflexivity]).
  split; [reflexivity|]. split; [exact S|]. destruct S as (S1 & S2 & _).
  rewrite field_ts by (assumption || lia). pose proof (poke_seg _ _ _ _ E) as P. rewrite be_len in P. change (Z.of_nat 4) with 4 in P.
  rewrite P, unbe_be. reflexivity.
Qed.
Lemma setSSRC_ok d v : bytesP d -> 12 <= len d ->
  exists d', setSSRC d v = Some d' /\ sets d d' 8 4 /\ rfc_ssrc d' = v mod 2 ^ 32.
Proof.
  intros Hb Hl. unfold setSSRC. rewrite wr_htobl.
  destruct (poke d 8 (be 4 v)) as [d'|] eqn:E.
  2:{ rewrite poke_some in E; [discriminate|lia|]. rewrite be_len. lia. }
  exists d'. assert (S : sets d d' 8 4) by (eapply sets_poke; [exact Hb|apply (be_bytes 4 v)|exact E|reflexivity]).
  split; [reflexivity|]. split; [exact S|]. destruct S as (S1 & S2 & _).
  rewrite field_ssrc by (assumption || lia). pose proof (poke_seg _ _ _ _ E) as P. rewrite be_len in P. change (Z.of_nat 4) with 4 in P.
  rewrite P, unbe_be. reflexivity.
Qed.
Lemma increase_ok d : bytesP d -> 12 <= len d ->
  exists d', increaseSequence d = Some d' /\ sets d d' 2 2 /\ rfc_sequence d' = (rfc_sequence d + 1) mod 65536.
Proof.
  intros Hb Hl. unfold increaseSequence. destruct (get_bytes d Hb Hl) as (-> & _). now apply setSequence_ok.
Qed.
Lemma seg_same d d' o n : len d' = len d -> 0 <= o -> 0 <= n -> o + n <= len d ->
  (forall i, o <= i < o + n -> nthz d' i = nthz d i) -> takez n (dropz o d') = takez n (dropz o d).
Proof.
  intros Hl Ho Hn Hon H. apply list_ext.
  - rewrite !len_takez; [reflexivity| |]; rewrite len_dropz by lia; lia.
  - rewrite len_takez by (rewrite len_dropz by lia; lia). intros i Hi. rewrite !nthz_takez, !nthz_dropz by lia. apply H. lia.
Qed.
Lemma new_ok junk pt seq ts ssrc csrc : bytesP junk -> len junk = 12 + 4 * csrc + 2 + MAX_SEND -> 0 <= csrc < 16 -> 0 <= pt < 128 ->
  exists d, newPacket junk pt seq ts ssrc csrc = Some d /\ bytesP d /\ len d = len junk /\
    rfc_version d = 2 /\ rfc_padding d = 0 /\ rfc_extension d = 0 /\ rfc_csrc_count d = csrc /\
    rfc_marker d = 0 /\ rfc_payload_type d = pt /\ rfc_sequence d = (seq - 1) mod 65536 /\
    rfc_timestamp d = ts mod 2 ^ 32 /\ rfc_ssrc d = ssrc mod 2 ^ 32.
Proof.
  intros Hb Hl Hc Hp. unfold MAX_SEND in Hl. unfold newPacket.
  set (b0 := u8 _). set (b1 := u8 _).
  assert (Eb0 : b0 = 128 + csrc).
  { unfold b0. rewrite land_15. rewrite (Z.mod_small csrc) by lia. rewrite (lor_shl_add' 2 csrc 6 64) by (reflexivity || lia). unfold u8. rewrite Z.mod_small by lia. lia. }
  assert (Eb1 : b1 = pt). { unfold b1. rewrite land_127, (Z.mod_small pt) by lia. unfold u8. apply Z.mod_small. lia. }
  destruct (poke junk 0 [b0; b1]) as [d0|] eqn:E0.
  2:{ rewrite poke_some in E0; [discriminate|lia|]. change (len [b0; b1]) with 2. lia. }
  assert (S0 : sets junk d0 0 2).
  { eapply sets_poke; [exact Hb| |exact E0|reflexivity]. repeat constructor; unfold byteP; lia. }
  pose proof (poke_seg _ _ _ _ E0) as P0. change (len [b0; b1]) with 2 in P0. rewrite dropz_0 in P0.
  destruct S0 as (Sb0 & Sl0 & _).
  assert (N0 : nthz d0 0 = b0) by (rewrite <- (nthz_takez d0 0 2), P0 by lia; reflexivity).
  assert (N1 : nthz d0 1 = b1) by (rewrite <- (nthz_takez d0 1 2), P0 by lia; reflexivity).
  destruct (setSequence_ok d0 (seq - 1) Sb0 ltac:(lia)) as (d1 & E1 & (Sb1 & Sl1 & S1) & F1). rewrite E1.
  destruct (setTimestamp_ok d1 ts Sb1 ltac:(lia)) as (d2 & E2 & (Sb2 & Sl2 & S2) & F2). rewrite E2.
  destruct (setSSRC_ok d2 ssrc Sb2 ltac:(lia)) as (d3 & E3 & (Sb3 & Sl3 & S3) & F3). exists d3.
  assert (M0 : nthz d3 0 = b0) by (rewrite S3, S2, S1 by lia; exact N0).
  assert (M1 : nthz d3 1 = b1) by (rewrite S3, S2, S1 by lia; exact N1).
  destruct (field_b0 d3 Sb3 ltac:(lia)) as (-> & -> & -> & ->). destruct (field_b1 d3 Sb3 ltac:(lia)) as (-> & ->). rewrite M0, M1, Eb0, Eb1.
  repeat split; try assumption; try lia.
  - rewrite <- F1. rewrite !field_seq by (assumption || lia). apply f_equal. apply seg_same; try lia; intros i Hi; rewrite S3, S2 by lia; reflexivity.
  - rewrite <- F2. rewrite !field_ts by (assumption || lia). apply f_equal. apply seg_same; try lia; intros i Hi; rewrite S3 by lia; reflexivity.
Qed.

(** ** Payload *)
Lemma even_mod n : Z.even n = true -> n mod 2 = 0.
Proof. intros H. rewrite Zmod_even, H. reflexivity. Qed.
Lemma payload_ok d : bytesP d -> 12 <= len d -> Z.even (rfc_csrc_count d) = true ->
  (rfc_extension d = 0 \/ rfc_csrc_end d + 4 <= len d) ->
  getHsize d = Some (rfc_header_size d) /\
  payload d = Some (if rfc_header_size d + rfc_padding_size d <? len d then rfc_payload d else []).
Proof.
  intros Hb Hl He Hx. destruct (get_b0 d Hb Hl) as (_ & GP & GX & GC & _).
  rewrite (even_mod _ He), Z.sub_0_r in GC.
  assert (RC : 0 <= rfc_csrc_count d < 16) by (destruct (field_b0 d Hb Hl) as (_ & _ & _ & ->); lia).
  assert (H : getHsize d = Some (rfc_header_size d)).
  { unfold getHsize. rewrite GC, GX. unfold rfc_header_size. fold (rfc_csrc_end d).
    destruct (rfc_extension d =? 0) eqn:E; [reflexivity|].
    destruct Hx as [Hx|Hx]; [rewrite Hx in E; discriminate|].
    unfold rfc_csrc_end in *.
    rewrite peek_some by lia. rewrite rd_btohs.
    2:{ now apply bytesP_takez, bytesP_dropz. }
    2:{ rewrite len_takez by (rewrite len_dropz by lia; lia). lia. }
    f_equal. change (firstn 2 (takez 2 (dropz (12 + 4 * rfc_csrc_count d + 2) d))) with (takez 2 (takez 2 (dropz (12 + 4 * rfc_csrc_count d + 2) d))).
    rewrite takez_takez. change (Z.min 2 2) with 2. lia. }
  split; [exact H|]. unfold payload, getPayloadSize. rewrite H, GP.
  replace (if rfc_padding d =? 0 then Some 0 else rd d (len d - 1)) with (Some (rfc_padding_size d)).
  2:{ unfold rfc_padding_size. destruct (rfc_padding d =? 0); [reflexivity|]. now rewrite rd_some by lia. }
  assert (HS : 12 <= rfc_header_size d).
  { unfold rfc_header_size, rfc_csrc_end in *. destruct (rfc_extension d =? 0) eqn:E; [lia|].
    pose proof (unbe_bound (takez 2 (dropz (12 + 4 * rfc_csrc_count d + 2) d)) (bytesP_takez _ _ (bytesP_dropz _ _ Hb))). lia. }
  assert (HP : 0 <= rfc_padding_size d).
  { unfold rfc_padding_size. destruct (rfc_padding d =? 0); [lia|]. pose proof (bytesP_nthz d (len d - 1) Hb). unfold byteP in *. lia. }
  destruct (rfc_header_size d + rfc_padding_size d <? len d) eqn:E1.
  - destruct (len d <=? rfc_header_size d + rfc_padding_size d) eqn:E2; [lia|].
    destruct (len d - rfc_header_size d - rfc_padding_size d =? 0) eqn:E3; [lia|].
    rewrite peek_some by lia. reflexivity.
  - destruct (len d <=? rfc_header_size d + rfc_padding_size d) eqn:E2; [reflexivity|lia].
Qed.

(** ** Receiving a packet without padding and extension *)
Definition plain (b0 t hs : Z) : Prop :=
  hs = 12 + 4 * (b0 mod 16) /\ b0 mod 2 = 0 /\ (b0 / 32) mod 2 = 0 /\ (b0 / 16) mod 2 = 0 /\ ~ 72 <= t <= 76.
Lemma addRTP_ok hevc r pkt hs : bytesP pkt -> 12 <= len pkt -> hs <= len pkt -> plain (nthz pkt 0) (nthz pkt 1 mod 128) hs ->
  addRTP hevc r pkt =
  (x <- (if hevc then handleHEVC else handleH264) (fuaBuffer r) (dropz hs pkt) (negb (lastSeq r =? u32 (rfc_sequence pkt - 1)));;
   Some (fst x, mkrecv (snd x) (rfc_sequence pkt))).
Proof.
  intros Hb Hl Hh (E1 & E2 & E3 & E4 & E5). unfold addRTP.
  destruct (get_b0 pkt Hb Hl) as (_ & _ & _ & _ & _ & ->).
  destruct (field_b1 pkt Hb Hl) as (_ & ->).
  destruct ((72 <=? nthz pkt 1 mod 128) && (nthz pkt 1 mod 128 <=? 76)) eqn:E; [lia|].
  destruct (get_bytes pkt Hb Hl) as (-> & _).
  destruct (field_b0 pkt Hb Hl) as (_ & F2 & F3 & F4).
  destruct (payload_ok pkt Hb Hl) as (_ & ->).
  { rewrite F4. apply Z.even_spec. exists (nthz pkt 0 mod 16 / 2). lia. }
  { left. now rewrite F3. }
  assert (HS : rfc_header_size pkt = hs) by (unfold rfc_header_size, rfc_csrc_end; rewrite F3, E4, F4; change (0 =? 0) with true; cbv iota; lia).
  assert (HP : rfc_padding_size pkt = 0) by (unfold rfc_padding_size; rewrite F2, E3; reflexivity).
  unfold rfc_payload. rewrite HS, HP.
  replace (if hs + 0 <? len pkt then takez (len pkt - hs - 0) (dropz hs pkt) else []) with (dropz hs pkt); [reflexivity|].
  destruct (hs + 0 <? len pkt) eqn:E6.
  - symmetry. apply takez_all. rewrite len_dropz by lia. lia.
  - apply dropz_all. lia.
Qed.

(** ** One packet sent *)
Lemma emit_ok s d at_ body : bytesP d -> bytesP body -> 12 <= at_ -> at_ + len body <= len d ->
  exists d', emit s d at_ body = Some (takez at_ d ++ body, mksnd d' (u32 (sentPackets s + 1)) (u32 (sentBytes s + len (takez at_ d ++ body)))) /\
    bytesP d' /\ len d' = len d /\ (forall i, 0 <= i < 2 \/ 4 <= i < at_ -> nthz d' i = nthz d i) /\
    rfc_sequence d' = (rfc_sequence d + 1) mod 65536.
Proof.
  intros Hb Hbb Ha Hl. pose proof (len_nonneg body). unfold emit.
  destruct (poke d at_ body) as [d1|] eqn:E1. 2:{ rewrite poke_some in E1 by lia. discriminate. }
  destruct (sets_poke d at_ body d1 (len body) Hb Hbb E1 eq_refl) as (S1 & S2 & S3).
  assert (P : takez (at_ + len body) d1 = takez at_ d ++ body).
  { rewrite takez_split by lia. rewrite (poke_seg _ _ _ _ E1). f_equal.
    pose proof (seg_same d d1 0 at_) as T. rewrite !dropz_0 in T. apply T; try lia. }
  rewrite peek_some by lia. rewrite dropz_0, P.
  destruct (increase_ok d1 S1 ltac:(lia)) as (d' & E2 & (T1 & T2 & T3) & T4). rewrite E2.
  exists d'. split; [reflexivity|]. split; [exact T1|]. split; [lia|]. split.
  - intros i Hi. rewrite T3 by lia. apply S3. lia.
  - rewrite T4. f_equal. f_equal. rewrite !field_seq by (assumption || lia). f_equal.
    apply seg_same; try lia; intros i Hi; apply S3; lia.
Qed.

(** ** The fragment loop *)
Record inv (d : list Z) (b0 t hs N : Z) (fh : list Z) (sq : Z) : Prop := mkinv {
  i_bytes : bytesP d; i_len : len d = N; i_b0 : nthz d 0 = b0; i_b1 : nthz d 1 mod 128 = t;
  i_fh : takez (len fh) (dropz hs d) = fh; i_sq : rfc_sequence d = sq }.

Lemma numbered_mod : forall l a b, a mod 65536 = b mod 65536 -> numbered a l -> numbered b l.
Proof.
  induction l as [|q l IHl]; intros a b E; cbn [numbered]; [trivial|]. intros [A B]. split; [now rewrite <- E|].
  apply (IHl (a + 1)); [|assumption]. rewrite <- (Z.add_mod_idemp_l a), <- (Z.add_mod_idemp_l b) by lia. now rewrite E.
Qed.
Section Frag.
Variables (hevc : bool) (b0 t hs N : Z) (fh : list Z) (ty : Z) (pre : list Z) (mem : list Z) (off plen sending : Z).
Let handle := if hevc then handleHEVC else handleH264.
Hypothesis Hpl : plain b0 t hs.
Hypothesis Hfh : 1 <= len fh <= 2.
Hypothesis Hhs : 12 <= hs.
Hypothesis Hty : 0 <= ty < 64.
Hypothesis Hmem : bytesP mem.
Hypothesis Hoff : 0 <= off.
Hypothesis Hplen : off + len fh + plen <= len mem.
Hypothesis Hsend : 0 < sending < plen.
Hypothesis Hsum : plen + sending < 2 ^ 32.
Hypothesis HN : hs + len fh + 1 + sending = N.
Hypothesis H1 : forall c m, handle [] (fh ++ [ty .| 128] ++ c) m = Some ([], pre ++ c).
Hypothesis H2 : forall f c, f <> [] -> handle f (fh ++ [ty] ++ c) false = Some ([], f ++ c).
Hypothesis H3 : forall c, len (pre ++ c) < 2 ^ 32 -> 
  forall f g, f <> [] -> f ++ g = pre ++ c -> handle f (fh ++ [ty .| 64] ++ g) false = Some ([be 4 (len (pre ++ c) - 4) ++ dropz 4 (pre ++ c)], []).
Hypothesis Hpre : 4 < len pre.
Hypothesis Hsize : len pre + plen < 2 ^ 32.
Hypothesis Hfhb : bytesP fh.

(** All the bytes that follow the fragment headers. *)
Definition X := takez plen (dropz (off + len fh) mem).
Lemma X_len : len X = plen.
Proof. unfold X. apply len_takez. rewrite len_dropz by lia. lia. Qed.
Lemma X_part sent n : 0 <= sent -> 0 <= n -> sent + n <= plen ->
  peek mem (off + len fh + sent) n = Some (takez n (dropz sent X)).
Proof.
  intros. rewrite peek_some by lia. f_equal. unfold X.
  apply list_ext.
  - rewrite !len_takez; [reflexivity| |].
    + fold X. rewrite len_dropz; rewrite X_len; lia.
    + rewrite len_dropz by lia. lia.
  - rewrite len_takez by (rewrite len_dropz by lia; lia). intros i Hi.
    rewrite !nthz_takez, !nthz_dropz by lia. rewrite nthz_takez, nthz_dropz by lia. f_equal. lia.
Qed.
Lemma ser_first s : s = ty -> (s .| 128) .& 127 = ty.
Proof.
  intros ->. rewrite Z.land_lor_distr_l. change (128 .& 127) with 0. rewrite Z.lor_0_r, land_127. apply Z.mod_small. lia.
Qed.

Lemma pkt_ok d d1 ser body : inv d b0 t hs N fh (rfc_sequence d) -> 0 <= ser < 256 -> bytesP body -> len body <= sending ->
  poke d (hs + len fh) [ser] = Some d1 ->
  forall s, exists d', emit s d1 (hs + len fh + 1) body = Some (takez (hs + len fh + 1) d1 ++ body, mksnd d' (u32 (sentPackets s + 1)) (u32 (sentBytes s + len (takez (hs + len fh + 1) d1 ++ body)))) /\
   nthz d' 1 = nthz d 1 /\
   inv d' b0 t hs N fh ((rfc_sequence d + 1) mod 65536) /\
   let p := takez (hs + len fh + 1) d1 ++ body in
   bytesP p /\ len p <= N /\ 12 <= len p /\ hs <= len p /\ plain (nthz p 0) (nthz p 1 mod 128) hs /\ nthz p 1 = nthz d 1 /\ rfc_sequence p = rfc_sequence d /\
   dropz hs p = fh ++ [ser] ++ body.
Proof.
  intros [I1 I2 I3 I4 I5 _] Hser Hbb Hbl Hp s. pose proof (len_nonneg body).
  destruct (sets_poke d (hs + len fh) [ser] d1 1 I1 ltac:(repeat constructor; unfold byteP; lia) Hp eq_refl) as (S1 & S2 & S3).
  destruct (emit_ok s d1 (hs + len fh + 1) body S1 Hbb ltac:(lia) ltac:(lia)) as (d' & E & T1 & T2 & T3 & T4).
  exists d'. split; [exact E|].
  assert (F1 : takez (len fh) (dropz hs d1) = fh).
  { rewrite <- I5 at 2. apply seg_same; try lia; intros i Hi; apply S3; lia. }
  assert (F2 : takez 1 (dropz (hs + len fh) d1) = [ser]) by (exact (poke_seg _ _ _ _ Hp)).
  assert (SQ : forall x, bytesP x -> 12 <= len x -> (forall i, 2 <= i < 4 -> nthz x i = nthz d1 i) -> rfc_sequence x = rfc_sequence d).
  { intros x X1 X2 X3. rewrite !field_seq by (assumption || lia). apply f_equal. apply list_ext.
    - rewrite !len_takez; [reflexivity| |]; rewrite len_dropz by lia; lia.
    - rewrite len_takez by (rewrite len_dropz by lia; lia). intros i Hi. rewrite !nthz_takez, !nthz_dropz by lia. rewrite X3 by lia. apply S3. lia. }
  split; [rewrite T3, S3 by lia; reflexivity|].
  split.
  { constructor; try assumption; try lia.
    - rewrite T3, S3 by lia. exact I3.
    - rewrite T3, S3 by lia. exact I4.
    - rewrite <- I5 at 2. apply seg_same; try lia; intros i Hi; rewrite T3, S3 by lia; reflexivity.
    - rewrite T4. f_equal. f_equal. apply SQ; [assumption|lia|reflexivity]. }
  cbv zeta. assert (LT : len (takez (hs + len fh + 1) d1) = hs + len fh + 1) by (apply len_takez; lia).
  assert (NP : forall i, 0 <= i < hs + len fh + 1 -> nthz (takez (hs + len fh + 1) d1 ++ body) i = nthz d1 i).
  { intros i Hi. rewrite nthz_app1 by lia. apply nthz_takez. lia. }
  assert (BP : bytesP (takez (hs + len fh + 1) d1 ++ body)) by (apply bytesP_app; split; [now apply bytesP_takez|assumption]).
  assert (LP : len (takez (hs + len fh + 1) d1 ++ body) = hs + len fh + 1 + len body) by (rewrite len_app; lia).
  split; [exact BP|]. split; [lia|]. split; [lia|]. split; [lia|].
  split. { rewrite !NP, !S3 by lia. rewrite I3, I4. exact Hpl. }
  split. { rewrite NP, S3 by lia. reflexivity. }
  split. { apply SQ; [assumption|lia|]. intros i Hi. apply NP. lia. }
  rewrite dropz_app by lia. rewrite app_assoc. f_equal.
  apply list_ext.
  { rewrite len_dropz, LT by lia. rewrite len_app. change (len [ser]) with 1. lia. }
  rewrite len_dropz, LT by lia. intros i Hi. rewrite nthz_dropz, nthz_takez by lia.
  destruct (Z.lt_ge_cases i (len fh)) as [L|L].
  - rewrite nthz_app1 by lia. replace (nthz fh i) with (nthz (takez (len fh) (dropz hs d1)) i) by now rewrite F1. rewrite nthz_takez, nthz_dropz by lia. reflexivity.
  - rewrite nthz_app2 by lia. rewrite <- F2. rewrite nthz_takez, nthz_dropz by lia. f_equal. lia.
Qed.

Lemma frag_rest fuel : forall s sent ser mark,
  inv (sdata s) b0 t hs N fh (rfc_sequence (sdata s)) -> nthz (sdata s) 1 < 128 ->
  0 < sent < plen -> (Z.to_nat (plen - sent) < fuel)%nat ->
  ser .& 127 = ty ->
  exists pkts s', frag_loop fuel s mem off hs (len fh) sent plen sending ser mark = Some (pkts, s') /\
    inv (sdata s') b0 t hs N fh (rfc_sequence (sdata s')) /\
    0 < len pkts /\
    Forall (fun p => len p <= N) pkts /\
    numbered (rfc_sequence (sdata s)) pkts /\
    marked_last (if mark then 1 else 0) pkts /\
    rfc_sequence (sdata s') = (rfc_sequence (sdata s) + len pkts) mod 65536 /\
    (forall r, fuaBuffer r = pre ++ takez sent X -> lastSeq r = rfc_sequence (sdata s) - 1 -> rfc_sequence (sdata s) + len pkts <= 65536 ->
       0 < rfc_sequence (sdata s) ->
       exists r', addRTPs hevc r pkts = Some ([be 4 (len (pre ++ X) - 4) ++ dropz 4 (pre ++ X)], r') /\ fuaBuffer r' = []).
Proof.
  induction fuel as [|k IH]; intros s sent ser mark Hinv Hm Hs Hf Hser; [lia|].
  pose proof X_len as XL.
  cbn [frag_loop]. destruct (plen <=? sent) eqn:E0; [lia|].
  destruct (sent =? 0) eqn:E1; [lia|].
  rewrite (u32_id (sent + sending)) by lia.
  set (d0 := sdata s) in *. 
  destruct (plen <=? sent + sending) eqn:E2.
  - (* the last one *)
    set (sg := plen - sent).
    assert (Hd : exists d, (if true && mark then setb d0 1 (fun b => b .| 0x80) else Some d0) = Some d /\
                inv d b0 t hs N fh (rfc_sequence d0) /\ rfc_sequence d = rfc_sequence d0 /\ nthz d 1 / 128 = (if mark then 1 else 0)).
    { destruct mark; cbn [andb].
      - unfold setb. destruct Hinv as [I1 I2 I3 I4 I5 I6]. rewrite rd_some by lia.
        pose proof (bytesP_nthz d0 1 I1) as Hy. unfold byteP in Hy.
        assert (EL : nthz d0 1 .| 128 = nthz d0 1 + 128).
        { rewrite Z.lor_comm. change 128 with (1 << 7) at 1. rewrite (lor_shl_add' 1 (nthz d0 1) 7 128) by (reflexivity || lia). lia. }
        rewrite EL.
        destruct (poke d0 1 [nthz d0 1 + 128]) as [d|] eqn:P. 2:{ rewrite poke_some in P; [discriminate|lia|]. change (len [nthz d0 1 + 128]) with 1. lia. }
        destruct (sets_poke d0 1 [nthz d0 1 + 128] d 1 I1 ltac:(repeat constructor; unfold byteP; lia) P eq_refl) as (S1 & S2 & S3).
        pose proof (poke_seg _ _ _ _ P) as PS. change (len [nthz d0 1 + 128]) with 1 in PS.
        assert (ND : nthz d 1 = nthz d0 1 + 128).
        { rewrite takez_1 in PS by lia. injection PS. auto. }
        assert (SQ : rfc_sequence d = rfc_sequence d0).
        { rewrite !field_seq by (assumption || lia). f_equal. apply seg_same; try lia; intros i Hi; apply S3; lia. }
        exists d. split; [reflexivity|]. split; [|split; [exact SQ|lia]].
        constructor; try assumption; try lia.
        + rewrite S3 by lia. assumption.
        + rewrite <- I5 at 2. apply seg_same; try lia; intros i Hi; apply S3; lia.
      - exists d0. split; [reflexivity|]. split; [assumption|]. split; [reflexivity|]. pose proof (bytesP_nthz d0 1 (i_bytes _ _ _ _ _ _ _ Hinv)) as Hy. unfold byteP in Hy. lia. }
    destruct Hd as (d & -> & Hinvd & SQd & HM).
    rewrite Hser. assert (S64 : 0 <= (ty .| 64) < 256).
    { rewrite Z.lor_comm. change 64 with (1 << 6) at 1 2. rewrite (lor_shl_add' 1 ty 6 64) by (reflexivity || lia). lia. }
    destruct (poke d (hs + len fh) [ty .| 64]) as [d1|] eqn:P1.
    2:{ rewrite poke_some in P1; [discriminate|lia|]. change (len [ty .| 64]) with 1. pose proof (i_len _ _ _ _ _ _ _ Hinvd). lia. }
    rewrite X_part by (unfold sg; lia).
    assert (LB : len (takez sg (dropz sent X)) = sg) by (apply len_takez; rewrite len_dropz by lia; unfold sg; lia).
    assert (BX : bytesP X) by (unfold X; now apply bytesP_takez, bytesP_dropz).
    rewrite <- SQd in Hinvd.
    destruct (pkt_ok d d1 (ty .| 64) (takez sg (dropz sent X)) Hinvd S64 ltac:(now apply bytesP_takez, bytesP_dropz) ltac:(unfold sg in *; lia) P1 s) as (d' & -> & M1 & Hinv' & HP).
    cbv zeta in HP. set (p := takez (hs + len fh + 1) d1 ++ takez sg (dropz sent X)) in *. destruct HP as (P2 & P3 & P4 & P4' & P5 & P6 & P7 & P8).
    cbn [fst snd]. replace (frag_loop k _ mem off hs (len fh) (sent + sg) plen sg (ty .| 64) mark) with
       (Some (@nil (list Z), mksnd d' (u32 (sentPackets s + 1)) (u32 (sentBytes s + len p)))).
    2:{ destruct k; cbn [frag_loop]; (destruct (plen <=? sent + sg) eqn:E3; [reflexivity|unfold sg in E3; lia]). }
    eexists _, _. split; [reflexivity|]. cbn [fst snd sdata].
    assert (SQ' : rfc_sequence d' = (rfc_sequence d0 + 1) mod 65536) by (rewrite <- SQd; exact (i_sq _ _ _ _ _ _ _ Hinv')).
    split; [rewrite SQ', <- SQd; assumption|].
    split; [change (len [p]) with 1; lia|]. split; [constructor; [lia|constructor]|].
    split. { cbn [numbered]. split; [|exact I]. rewrite P7, SQd. symmetry. apply Z.mod_small. rewrite field_seq by (try (apply Hinv); pose proof (i_len _ _ _ _ _ _ _ Hinv); lia).
             pose proof (unbe_bound (takez 2 (dropz 2 d0)) (bytesP_takez _ _ (bytesP_dropz _ _ (i_bytes _ _ _ _ _ _ _ Hinv)))) as B.
             rewrite len_takez in B by (pose proof (i_len _ _ _ _ _ _ _ Hinv); rewrite len_dropz by lia; lia). exact B. }
    split. { unfold marked_last. cbn [map List.length repeat Nat.sub app]. f_equal. destruct (field_b1 p P2 P4) as [-> _]. rewrite P6. exact HM. }
    split. { rewrite SQ'. reflexivity. }
    intros r R1 R2 R3 R4. cbn [addRTPs]. rewrite (addRTP_ok hevc r p hs P2 P4 P4' P5), P7, SQd, R1, R2, P8.
    assert (Z.eqb (rfc_sequence d0 - 1) (u32 (rfc_sequence d0 - 1)) = true) as ->.
    { apply Z.eqb_eq. symmetry. apply u32_id. change (len [p]) with 1 in R3. lia. }
    cbn [negb]. fold handle. 
    rewrite (H3 X) with (f := pre ++ takez sent X).
    + cbn [fst snd app]. eexists. split; [reflexivity|reflexivity].
    + rewrite len_app, XL. lia.
    + destruct pre; [cbn in Hpre; lia|discriminate].
    + rewrite <- app_assoc. f_equal. rewrite (takez_all sg) by (rewrite len_dropz by lia; unfold sg; lia). apply takez_dropz.
  - (* a middle one *)
    cbn [andb]. rewrite Hser.
    destruct (poke d0 (hs + len fh) [ty]) as [d1|] eqn:P1.
    2:{ rewrite poke_some in P1; [discriminate|lia|]. change (len [ty]) with 1. pose proof (i_len _ _ _ _ _ _ _ Hinv). lia. }
    rewrite X_part by lia.
    assert (LB : len (takez sending (dropz sent X)) = sending) by (apply len_takez; rewrite len_dropz by lia; lia).
    assert (BX : bytesP X) by (unfold X; now apply bytesP_takez, bytesP_dropz).
    destruct (pkt_ok d0 d1 ty (takez sending (dropz sent X)) Hinv ltac:(lia) ltac:(now apply bytesP_takez, bytesP_dropz) ltac:(lia) P1 s) as (d' & -> & M1 & Hinv' & HP).
    cbv zeta in HP. set (p := takez (hs + len fh + 1) d1 ++ takez sending (dropz sent X)) in *. destruct HP as (P2 & P3 & P4 & P4' & P5 & P6 & P7 & P8).
    cbn [fst snd].
    pose proof (i_sq _ _ _ _ _ _ _ Hinv') as SQ'.
    destruct (IH (mksnd d' (u32 (sentPackets s + 1)) (u32 (sentBytes s + len p))) (sent + sending) ty mark) as (pkts & s' & -> & J1 & J2 & J3 & J4 & J5 & J6 & J7); cbn [sdata] in *.
    + rewrite SQ'. assumption.
    + lia.
    + lia.
    + lia.
    + rewrite land_127. apply Z.mod_small. lia.
    + assert (RQ : 0 <= rfc_sequence d0 < 65536).
      { rewrite field_seq by (try (apply Hinv); pose proof (i_len _ _ _ _ _ _ _ Hinv); lia).
        pose proof (unbe_bound (takez 2 (dropz 2 d0)) (bytesP_takez _ _ (bytesP_dropz _ _ (i_bytes _ _ _ _ _ _ _ Hinv)))) as B.
        rewrite len_takez in B by (pose proof (i_len _ _ _ _ _ _ _ Hinv); rewrite len_dropz by lia; lia). exact B. }
      eexists _, _. split; [reflexivity|]. cbn [fst snd].
      split; [assumption|]. split; [rewrite len_cons; lia|]. split; [constructor; assumption|].
      split.
      { cbn [numbered]. split; [rewrite P7; symmetry; now apply Z.mod_small|].
        rewrite SQ' in J4. eapply numbered_mod; [|exact J4]. now rewrite Z.mod_mod by lia. }
      split.
      { unfold marked_last in *. cbn [map]. rewrite J5. destruct (field_b1 p P2 P4) as [-> _]. rewrite P6.
        pose proof (bytesP_nthz d0 1 (i_bytes _ _ _ _ _ _ _ Hinv)) as Hy. unfold byteP in Hy. replace (nthz d0 1 / 128) with 0 by lia.
        destruct pkts as [|q l]; [cbn in J2; lia|]. cbn [List.length Nat.sub]. rewrite Nat.sub_0_r. reflexivity. }
      split. { rewrite J6, SQ', len_cons. rewrite Z.add_mod_idemp_l by lia. f_equal. lia. }
      intros r R1 R2 R3 R4. cbn [addRTPs]. rewrite (addRTP_ok hevc r p hs P2 P4 P4' P5), P7, R1, R2, P8.
      assert (Z.eqb (rfc_sequence d0 - 1) (u32 (rfc_sequence d0 - 1)) = true) as ->.
      { apply Z.eqb_eq. symmetry. apply u32_id. lia. }
      cbn [negb]. fold handle. rewrite H2 by (destruct pre; [cbn in Hpre; lia|discriminate]). cbn [fst snd app].
      rewrite len_cons in R3.
      assert (SQ2 : rfc_sequence d' = rfc_sequence d0 + 1) by (rewrite SQ'; apply Z.mod_small; lia).
      destruct (J7 (mkrecv ((pre ++ takez sent X) ++ takez sending (dropz sent X)) (rfc_sequence d0))) as (r' & -> & R'); cbn [fuaBuffer lastSeq].
      * rewrite <- app_assoc. f_equal. rewrite takez_split by lia. reflexivity.
      * lia.
      * lia.
      * lia.
      * eexists. split; [reflexivity|assumption].
Qed.

Lemma frag_all s mark :
  inv (sdata s) b0 t hs N fh (rfc_sequence (sdata s)) -> nthz (sdata s) 1 < 128 ->
  exists pkts s', frag_loop (S (Z.to_nat plen)) s mem off hs (len fh) 0 plen sending ty mark = Some (pkts, s') /\
    inv (sdata s') b0 t hs N fh (rfc_sequence (sdata s')) /\
    1 < len pkts /\
    Forall (fun p => len p <= N) pkts /\
    numbered (rfc_sequence (sdata s)) pkts /\
    marked_last (if mark then 1 else 0) pkts /\
    rfc_sequence (sdata s') = (rfc_sequence (sdata s) + len pkts) mod 65536 /\
    (forall r, fuaBuffer r = [] -> rfc_sequence (sdata s) + len pkts <= 65536 ->
       exists r', addRTPs hevc r pkts = Some ([be 4 (len (pre ++ X) - 4) ++ dropz 4 (pre ++ X)], r') /\ fuaBuffer r' = []).
Proof.
  intros Hinv Hm. pose proof X_len as XL. cbn [frag_loop].
  destruct (plen <=? 0) eqn:E0; [lia|]. change (0 =? 0) with true. cbv iota.
  rewrite (u32_id (0 + sending)) by lia. destruct (plen <=? 0 + sending) eqn:E2; [lia|]. cbn [andb].
  set (d0 := sdata s) in *.
  assert (S128 : 0 <= (ty .| 128) < 256).
  { rewrite Z.lor_comm. change 128 with (1 << 7) at 1 2. rewrite (lor_shl_add' 1 ty 7 128) by (reflexivity || lia). lia. }
  destruct (poke d0 (hs + len fh) [ty .| 128]) as [d1|] eqn:P1.
  2:{ rewrite poke_some in P1; [discriminate|lia|]. change (len [ty .| 128]) with 1. pose proof (i_len _ _ _ _ _ _ _ Hinv). lia. }
  rewrite X_part by lia.
  assert (LB : len (takez sending (dropz 0 X)) = sending) by (apply len_takez; rewrite len_dropz by lia; lia).
  assert (BX : bytesP X) by (unfold X; now apply bytesP_takez, bytesP_dropz).
  destruct (pkt_ok d0 d1 (ty .| 128) (takez sending (dropz 0 X)) Hinv S128 ltac:(now apply bytesP_takez, bytesP_dropz) ltac:(lia) P1 s) as (d' & -> & M1 & Hinv' & HP).
  cbv zeta in HP. set (p := takez (hs + len fh + 1) d1 ++ takez sending (dropz 0 X)) in *. destruct HP as (P2 & P3 & P4 & P4' & P5 & P6 & P7 & P8).
  cbn [fst snd].
  pose proof (i_sq _ _ _ _ _ _ _ Hinv') as SQ'.
  destruct (frag_rest (Z.to_nat plen) (mksnd d' (u32 (sentPackets s + 1)) (u32 (sentBytes s + len p))) (0 + sending) (ty .| 128) mark) as (pkts & s' & -> & J1 & J2 & J3 & J4 & J5 & J6 & J7); cbn [sdata] in *; try lia.
  - rewrite SQ'. assumption.
  - now apply ser_first.
  - assert (RQ : 0 <= rfc_sequence d0 < 65536).
    { rewrite field_seq by (try (apply Hinv); pose proof (i_len _ _ _ _ _ _ _ Hinv); lia).
      pose proof (unbe_bound (takez 2 (dropz 2 d0)) (bytesP_takez _ _ (bytesP_dropz _ _ (i_bytes _ _ _ _ _ _ _ Hinv)))) as B.
      rewrite len_takez in B by (pose proof (i_len _ _ _ _ _ _ _ Hinv); rewrite len_dropz by lia; lia). exact B. }
    eexists _, _. split; [reflexivity|]. cbn [fst snd].
    split; [assumption|]. split; [rewrite len_cons; lia|]. split; [constructor; assumption|].
    split.
    { cbn [numbered]. split; [rewrite P7; symmetry; now apply Z.mod_small|].
      rewrite SQ' in J4. eapply numbered_mod; [|exact J4]. now rewrite Z.mod_mod by lia. }
    split.
    { unfold marked_last in *. cbn [map]. rewrite J5. destruct (field_b1 p P2 P4) as [-> _]. rewrite P6.
      pose proof (bytesP_nthz d0 1 (i_bytes _ _ _ _ _ _ _ Hinv)) as Hy. unfold byteP in Hy. replace (nthz d0 1 / 128) with 0 by lia.
      destruct pkts as [|q l]; [cbn in J2; lia|]. cbn [List.length Nat.sub]. rewrite Nat.sub_0_r. reflexivity. }
    split. { rewrite J6, SQ', len_cons. rewrite Z.add_mod_idemp_l by lia. f_equal. lia. }
    intros r R1 R3. cbn [addRTPs]. rewrite (addRTP_ok hevc r p hs P2 P4 P4' P5), P7, R1, P8.
    fold handle. rewrite H1. cbn [fst snd app].
    rewrite len_cons in R3.
    assert (SQ2 : rfc_sequence d' = rfc_sequence d0 + 1) by (rewrite SQ'; apply Z.mod_small; lia).
    destruct (J7 (mkrecv (pre ++ takez sending (dropz 0 X)) (rfc_sequence d0))) as (r' & -> & R'); cbn [fuaBuffer lastSeq]; try lia.
    + reflexivity.
    + eexists. split; [reflexivity|assumption].
Qed.
End Frag.
