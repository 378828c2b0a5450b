(** C72: FLAC frames. *)
From Verif Require Import Common CommonFacts Bitfields_Model Flac_Model Flac_Spec Flac_Proofs.

(** C72: the size of a frame number is found, whatever follows. *)
Theorem flac_number_size n more : 0 <= n < 2 ^ 36 -> utfBytes (nthz (coded n ++ more) 0) = len (coded n).
Proof. apply bytes_ok. Qed.
(** C72, in part: frame numbers up to 16 bits are read as they were written.  Missing because the code does not do it: longer ones (F194). *)
Theorem flac_number_partial h more : header_ok h -> h_number h < 2 ^ 16 -> number (bytes h ++ more) = h_number h.
Proof.
  intros (_ & _ & _ & _ & H) L. unfold number, bytes. cbn [app]. change (dropz 4 _) with (coded (h_number h) ++ more). rewrite val_ok by exact H.
  destruct (Z.ltb_spec (h_number h) (2 ^ 16)); lia.
Qed.
(** C72, refuted: every number of 17 to 21 bits is read as 2^22 more, and every longer one as 0. *)
Theorem flac_number_refuted h more : header_ok h -> 2 ^ 16 <= h_number h -> number (bytes h ++ more) = if h_number h <? 2 ^ 21 then h_number h + 2 ^ 22 else 0.
Proof.
  intros (_ & _ & _ & _ & H) L. unfold number, bytes. cbn [app]. change (dropz 4 _) with (coded (h_number h) ++ more). rewrite val_ok by exact H.
  destruct (Z.ltb_spec (h_number h) (2 ^ 16)); [lia|reflexivity].
Qed.
(** C72, in part: a frame ends where the one with the next number begins, and nowhere else; so for frames after the first, up to number 65535. *)
Theorem flac_next_partial h h' more more' : header_ok h -> header_ok h' -> 0 < h_number h -> h_number h < 2 ^ 16 -> h_number h' < 2 ^ 16 ->
  follows (bytes h ++ more) (bytes h' ++ more') = (h_number h' =? h_number h + 1).
Proof.
  intros H H' P L L'. pose proof (flac_number_partial h more H L) as N. pose proof (flac_number_partial h' more' H' L') as N'. unfold number in N, N'. unfold follows. rewrite N, N'.
  rewrite Z.eqb_sym. destruct (Z.eqb_spec (h_number h') (h_number h + 1)); destruct (Z.eqb_spec (h_number h) 0); try reflexivity; lia.
Qed.
(** C72, refuted: no frame is taken for the one after frame 65535: the rest of the file becomes a part of it. *)
Theorem flac_frame_65536_refuted h h' more more' : header_ok h -> header_ok h' -> h_number h = 65535 -> 65536 <= h_number h' ->
  follows (bytes h ++ more) (bytes h' ++ more') = false.
Proof.
  intros H H' E L. pose proof (flac_number_partial h more H ltac:(lia)) as N. pose proof (flac_number_refuted h' more' H' L) as N'. unfold number in N, N'. unfold follows. rewrite N, N', E.
  destruct (Z.ltb_spec (h_number h') (2 ^ 21)); [|reflexivity]. destruct (Z.eqb_spec (65535 + 1) (h_number h' + 2 ^ 22)); [lia|reflexivity].
Qed.
(** C72: block size, rate and channels of a frame are what its codes mean. *)
Theorem flac_frame h more : header_ok h -> valid (bytes h ++ more) = true /\
  (forall x, block_size (h_block h) = Some x -> samples (bytes h ++ more) = x) /\
  (forall x, sample_rate (h_rate h) = Some x -> rate (bytes h ++ more) = x) /\
  (forall x, channel_count (h_channels h) = Some x -> channels (bytes h ++ more) = x).
Proof.
  intros (B & R & C & S & _). assert (V : valid (bytes h ++ more) = true) by (destruct h as [[|] ? ? ? ? ?]; reflexivity).
  split; [exact V|]. unfold samples, rate, channels. rewrite V. cbn [negb]. unfold bytes. cbn [app].
  change (nthz (_ :: _ :: ?a :: _) 2) with a. change (nthz (_ :: _ :: _ :: ?a :: _) 3) with a.
  assert (Hi : forall a b, 0 <= a < 16 -> 0 <= b < 16 -> ((a * 16 + b) .& 0xF0) >> 4 = a /\ (a * 16 + b) .& 0x0F = b).
  { intros a b Ha Hb. pose proof (range_sweep 256 (fun x => (((x .& 0xF0) >> 4) =? x / 16) && ((x .& 0x0F) =? x mod 16)) ltac:(vm_compute; reflexivity) (a * 16 + b) ltac:(lia)) as W. cbv beta in W. lia. }
  destruct (Hi _ _ B R) as [-> ->]. destruct (Hi (h_channels h) (h_size h * 2) C ltac:(lia)) as [-> _].
  split; [|split].
  - intros x. pose proof (range_sweep 16 (fun c => match block_size c with Some x => (if c <? 8 then nthz [0; 192; 576; 1152; 2304; 4608; 1; 2] c else u16 (256 << (c - 8))) =? x | None => true end) ltac:(vm_compute; reflexivity) _ B) as W. cbv beta in W. intros E. rewrite E in W. apply Z.eqb_eq. exact W.
  - intros x. pose proof (range_sweep 16 (fun c => match sample_rate c with Some x => nthz [0; 88200; 176400; 192000; 8000; 16000; 22050; 24000; 32000; 44100; 48000; 96000; 1; 2; 3; 0] c =? x | None => true end) ltac:(vm_compute; reflexivity) _ R) as W. cbv beta in W. intros E. rewrite E in W. apply Z.eqb_eq. exact W.
  - intros x. pose proof (range_sweep 16 (fun c => match channel_count c with Some x => (if (8 <? c + 1) && (c + 1 <? 12) then 2 else c + 1) =? x | None => true end) ltac:(vm_compute; reflexivity) _ C) as W. cbv beta in W. intros E. rewrite E in W. apply Z.eqb_eq. exact W.
Qed.
(** C72, refuted: no sample size is read as what its code means. *)
Theorem flac_sample_size_refuted h more x : header_ok h -> sample_size (h_size h) = Some x -> size (bytes h ++ more) <> x.
Proof.
  intros (B & R & C & S & _) E. assert (V : valid (bytes h ++ more) = true) by (destruct h as [[|] ? ? ? ? ?]; reflexivity).
  unfold size. rewrite V. cbn [negb]. unfold bytes. cbn [app]. change (nthz (_ :: _ :: _ :: ?a :: _) 3) with a.
  assert (M : (h_channels h * 16 + h_size h * 2) .& 0x0E = h_size h * 2).
  { pose proof (range_sweep 256 (fun x => (x .& 0x0E) =? x / 2 mod 8 * 2) ltac:(vm_compute; reflexivity) (h_channels h * 16 + h_size h * 2) ltac:(lia)) as W. cbv beta in W. lia. }
  rewrite M. pose proof (range_sweep 8 (fun c => match sample_size c with Some x => negb ((if c * 2 <? 8 then nthz [0; 8; 12; 0; 16; 20; 24; 0] (c * 2) else 0) =? x) | None => true end) ltac:(vm_compute; reflexivity) _ S) as W. cbv beta in W.
  rewrite E in W. apply Z.eqb_neq. apply negb_true_iff. exact W.
Qed.
(** C72, in part: what stream information says is read from its block, but for the checksum (F197). *)
Theorem flac_info_partial last i more : info_ok i -> let p := block last i ++ more in
  getLast p = last /\ getSize p = 34 /\ getMinBlockSize p = min_block i /\ getMaxBlockSize p = max_block i /\ getMinFrameSize p = min_frame i /\ getMaxFrameSize p = max_frame i /\
  getSampleRate p = i_rate i /\ getChannels p = i_channels i /\ getBits p = i_bits i /\ getSamples p = i_samples i.
Proof.
  intros (H1 & H2 & H3 & H4 & H5 & H6 & H7 & H8 & H9) p.
  assert (LC : len (content i) = 34) by (unfold content; rewrite !len_app, !be_len, H9; reflexivity).
  split; [subst p; unfold block, getLast; cbn [app]; rewrite len_cons; match goal with |- context [1 + len ?x] => pose proof (len_nonneg x); destruct (Z.eqb_spec (1 + len x) 0); [lia|] end; rewrite nthz_0; destruct last; reflexivity|].
  split; [subst p; unfold block, getSize; rewrite LC; cbn [app]; rewrite len_cons, !len_app, be_len, LC; match goal with |- context [?x <? 4] => pose proof (len_nonneg more); destruct (Z.ltb_spec x 4); [lia|] end; reflexivity|].
  assert (P : p = [if last then 128 else 0] ++ be 3 34 ++ be 2 (min_block i) ++ be 2 (max_block i) ++ be 3 (min_frame i) ++ be 3 (max_frame i) ++
    be 8 (((i_rate i * 2 ^ 3 + (i_channels i - 1)) * 2 ^ 5 + (i_bits i - 1)) * 2 ^ 36 + i_samples i) ++ md5 i ++ more) by (subst p; unfold block; rewrite LC; unfold content; rewrite <- !app_assoc; reflexivity).
  rewrite P. clear P p.
  split; [unfold getMinBlockSize; change (dropz 4 _) with (be 2 (min_block i) ++ be 2 (max_block i) ++ be 3 (min_frame i) ++ be 3 (max_frame i) ++ be 8 (((i_rate i * 2 ^ 3 + (i_channels i - 1)) * 2 ^ 5 + (i_bits i - 1)) * 2 ^ 36 + i_samples i) ++ md5 i ++ more); apply btohs_be; exact H1|].
  split; [unfold getMaxBlockSize; change (dropz 6 _) with (be 2 (max_block i) ++ be 3 (min_frame i) ++ be 3 (max_frame i) ++ be 8 (((i_rate i * 2 ^ 3 + (i_channels i - 1)) * 2 ^ 5 + (i_bits i - 1)) * 2 ^ 36 + i_samples i) ++ md5 i ++ more); apply btohs_be; exact H2|].
  split; [unfold getMinFrameSize; change (dropz 8 _) with (be 3 (min_frame i) ++ be 3 (max_frame i) ++ be 8 (((i_rate i * 2 ^ 3 + (i_channels i - 1)) * 2 ^ 5 + (i_bits i - 1)) * 2 ^ 36 + i_samples i) ++ md5 i ++ more); apply btoh24_be; exact H3|].
  split; [unfold getMaxFrameSize; change (dropz 11 _) with (be 3 (max_frame i) ++ be 8 (((i_rate i * 2 ^ 3 + (i_channels i - 1)) * 2 ^ 5 + (i_bits i - 1)) * 2 ^ 36 + i_samples i) ++ md5 i ++ more); apply btoh24_be; exact H4|].
  set (pre := [if last then 128 else 0] ++ be 3 34 ++ be 2 (min_block i) ++ be 2 (max_block i) ++ be 3 (min_frame i) ++ be 3 (max_frame i)).
  assert (Q : forall l, [if last then 128 else 0] ++ be 3 34 ++ be 2 (min_block i) ++ be 2 (max_block i) ++ be 3 (min_frame i) ++ be 3 (max_frame i) ++ l = pre ++ l) by (intros l; unfold pre; rewrite <- !app_assoc; reflexivity).
  assert (LP : len pre = 14) by (unfold pre; rewrite !len_app, !be_len; reflexivity).
  rewrite Q. clear Q. clearbody pre.
  rewrite (packed (i_rate i) (i_channels i - 1) (i_bits i - 1) (i_samples i)) by lia.
  generalize dependent (i_rate i). generalize dependent (i_channels i). generalize dependent (i_bits i). generalize dependent (i_samples i). intros S HS B HB C HC R HR.
  unfold getSampleRate, getChannels, getBits, getSamples.
  cbn [app].
  assert (N : forall l j, 14 <= j -> nthz (pre ++ l) j = nthz l (j - 14)) by (intros l j Hj; rewrite nthz_app2 by lia; rewrite LP; reflexivity).
  rewrite !N by lia.
  change (nthz (?a :: _) (14 - 14)) with a. change (nthz (_ :: ?a :: _) (15 - 14)) with a. change (nthz (_ :: _ :: ?a :: _) (16 - 14)) with a. change (nthz (_ :: _ :: _ :: ?a :: _) (17 - 14)) with a.
  change (nthz (_ :: _ :: _ :: _ :: ?a :: _) (18 - 14)) with a. change (nthz (_ :: _ :: _ :: _ :: _ :: ?a :: _) (19 - 14)) with a. change (nthz (_ :: _ :: _ :: _ :: _ :: _ :: ?a :: _) (20 - 14)) with a. change (nthz (_ :: _ :: _ :: _ :: _ :: _ :: _ :: ?a :: _) (21 - 14)) with a.
  clear - HS HB HC HR.
  change (2 ^ 32) with 4294967296. change (2 ^ 24) with 16777216. change (2 ^ 16) with 65536. change (2 ^ 8) with 256. change (2 ^ 36) with 68719476736 in HS. change (2 ^ 20) with 1048576 in HR.
  assert (S32 : 0 <= S / 4294967296 < 16) by lia.
  rewrite hi_nibble, mid_bits, hi_nibble by (unfold byteP; lia). rewrite land_1, land_15, !shl_mul by lia.
  change (2 ^ 32) with 4294967296. change (2 ^ 24) with 16777216. change (2 ^ 16) with 65536. change (2 ^ 8) with 256. change (2 ^ 12) with 4096. change (2 ^ 4) with 16.
  split; [|split; [|split]].
  - clear HS S32. rewrite u32_id; lia.
  - clear HS S32. lia.
  - clear HS. lia.
  - assert ((((B - 1) mod 16 * 16 + S / 4294967296) mod 16) = S / 4294967296) as -> by (clear HS; lia). clear - HS. lia.
Qed.
(** C72, refuted: the checksum is read from 3 bytes too early. *)
Theorem flac_md5_refuted : let i := mkinfo 4096 4096 14 9000 44100 2 16 1000000 [1; 2; 3; 4; 5; 6; 7; 8; 9; 10; 11; 12; 13; 14; 15; 16] in
  info_ok i /\ getMD5 (block true i) = [15; 66; 64; 1; 2; 3; 4; 5; 6; 7; 8; 9; 10; 11; 12; 13].
Proof. cbv zeta. split; [unfold info_ok; cbn; repeat split; lia|vm_compute; reflexivity]. Qed.
(** C72: a file with blocks of one size is opened with this size, its rate and its channels; any other is refused. *)
Theorem flac_open i more : info_ok i -> readInfo (content i ++ more) = if max_block i =? min_block i then Some (min_block i, i_rate i, i_channels i) else None.
Proof.
  intros (H1 & H2 & H3 & H4 & H5 & H6 & H7 & H8 & H9). unfold content. rewrite (packed (i_rate i) (i_channels i - 1) (i_bits i - 1) (i_samples i)) by lia.
  rewrite !be2, !be3. cbn [app]. unfold readInfo.
  change (nthz (?a :: _) 0) with a. change (nthz (_ :: ?a :: _) 1) with a. change (nthz (_ :: _ :: ?a :: _) 2) with a. change (nthz (_ :: _ :: _ :: ?a :: _) 3) with a.
  change (nthz (_ :: _ :: _ :: _ :: _ :: _ :: _ :: _ :: _ :: _ :: ?a :: _) 10) with a. change (nthz (_ :: _ :: _ :: _ :: _ :: _ :: _ :: _ :: _ :: _ :: _ :: ?a :: _) 11) with a. change (nthz (_ :: _ :: _ :: _ :: _ :: _ :: _ :: _ :: _ :: _ :: _ :: _ :: ?a :: _) 12) with a.
  generalize dependent (i_rate i). generalize dependent (i_channels i). generalize dependent (i_bits i). generalize dependent (min_block i). generalize dependent (max_block i). intros M HM m Hm B HB C HC R HR.
  clear - HM Hm HB HC HR.
  rewrite (lor_shl_add' (m / 256 mod 256) (m mod 256) 8 256) by lia. rewrite (lor_shl_add' (M / 256 mod 256) (M mod 256) 8 256) by lia.
  replace (m / 256 mod 256 * 256 + m mod 256) with m by lia. replace (M / 256 mod 256 * 256 + M mod 256) with M by lia.
  destruct (M =? m); [|reflexivity]. cbn [negb]. cbv zeta. clear - HB HC HR. change (2 ^ 20) with 1048576 in HR.
  rewrite hi_nibble by (unfold byteP; lia). change 0xE with 0x0E. rewrite mid_bits by (unfold byteP; lia).
  rewrite (shl_mul (R / 16 mod 256)) by lia. change (2 ^ 4) with 16. rewrite (lor_shl_add' (R / 4096) _ 12 4096) by lia.
  replace (R / 4096 * 4096 + R / 16 mod 256 * 16) with (R / 16 * 2 ^ 4) by (change (2 ^ 4) with 16; lia).
  replace ((R mod 16 * 16 + (C - 1) * 2 + (B - 1) / 16) / 16) with (R mod 16) by lia.
  rewrite lor_add by (try lia; change (2 ^ 4) with 16; lia). change (2 ^ 4) with 16.
  replace (R / 16 * 16 + R mod 16) with R by lia. replace ((R mod 16 * 16 + (C - 1) * 2 + (B - 1) / 16) / 2 mod 8 + 1) with C by lia. reflexivity.
Qed.

(** The hypotheses are met: frames 1000 and 1001 of 4096 samples at 44100 Hz in stereo, and frames 65535 and 65536. *)
Definition frame (n : Z) : header := mkheader false 12 9 10 4 n.
Example flac_case : header_ok (frame 1000) /\ header_ok (frame 1001) /\ header_ok (frame 65535) /\ header_ok (frame 65536) /\
  bytes (frame 1001) = [255; 248; 201; 168; 207; 169] /\ block_size 12 = Some 4096 /\ sample_rate 9 = Some 44100 /\ channel_count 10 = Some 2 /\ sample_size 4 = Some 16 /\
  follows (bytes (frame 1000)) (bytes (frame 1001)) = true /\ follows (bytes (frame 1000)) (bytes (frame 1002)) = false /\ follows (bytes (frame 65535)) (bytes (frame 65536)) = false.
Proof. unfold header_ok, frame; cbn [h_block h_rate h_channels h_size h_number]. repeat split; lia. Qed.

Print Assumptions flac_number_size.
Print Assumptions flac_number_partial.
Print Assumptions flac_number_refuted.
Print Assumptions flac_next_partial.
Print Assumptions flac_frame_65536_refuted.
Print Assumptions flac_frame.
Print Assumptions flac_sample_size_refuted.
Print Assumptions flac_info_partial.
Print Assumptions flac_md5_refuted.
Print Assumptions flac_open.
