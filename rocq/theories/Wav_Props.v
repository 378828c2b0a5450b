(** C70: WAV output, and chunks of RIFF files. *)
From Verif Require Import Common CommonFacts Mem_Model Mem_Proofs Wav_Model Wav_Spec Wav_Proofs.
Local Ltac Zify.zify_post_hook ::= Z.div_mod_to_equations.

Local Ltac clean Q := repeat rewrite <- app_assoc in Q; repeat rewrite len_app in Q.

(** C70: samples of more than one byte are sent in the order of WAV, the least significant byte first; all else as it is. *)
Theorem wav_samples codec size old samples : size = 16 \/ size = 24 -> Forall (fun s => len s = size / 8) samples ->
  sendNext codec size old (List.concat samples) = Some (List.concat (if beqb codec (bs "PCM") then map (@rev Z) samples else samples)).
Proof.
  intros S F. unfold sendNext. destruct (beqb codec (bs "PCM")); [|reflexivity].
  destruct S as [-> | ->]; cbn -[swap2 swap3 List.concat]; [apply swap2_ok|apply swap3_ok]; exact F.
Qed.
Theorem wav_bytes codec size old d : size <= 8 \/ beqb codec (bs "PCM") = false -> sendNext codec size old d = Some d.
Proof. intros H. unfold sendNext. destruct H as [H|H]; [destruct (8 <? size) eqn:E; [lia|rewrite andb_false_r; reflexivity]|rewrite H; reflexivity]. Qed.

(** C70, in part: what is sent of a stream that is not live is a WAV file.  Missing because the code does not do it: the size of a
    PCM file is 12 too large (F183), the block size is 64 times what it should be (F184), the type of the list (F185), and a byte after data
    of odd size and sizes from 2^32 on (F186). *)
Theorem wav_file_partial w f data : w_live w = false -> In (w_codec w, f) wav_formats -> len data = fold_right Z.add 0 (w_keys w) -> len data + 80 < 2 ^ 32 -> Z.odd (len data) = false ->
  let content := wave (wav_format f (w_channels w) (w_rate w) (w_bps w) (w_channels w * w_size w * 8) (w_size w))
    (if f =? 1 then None else Some ((w_last w - w_first w) * w_rate w / 1000)) (info_list (bs "info") (bs "MistServer")) data in
  sendHeader w ++ data = bs "RIFF" ++ le 4 (len content + (if f =? 1 then 12 else 0)) ++ content.
Proof.
  intros L I D B O. cbv zeta. unfold sendHeader. rewrite L.
  assert (Ef : format (w_codec w) = f).
  { unfold wav_formats in I; cbn [In] in I; decompose [or] I; try contradiction; match goal with H : (_, _) = (_, _) |- _ => injection H as H1 <-; rewrite <- H1 end; reflexivity. }
  rewrite Ef. assert (T : total_data w = len data).
  { unfold total_data. rewrite L, total_sum by lia. rewrite Z.add_0_l, <- D. unfold u32. apply Z.mod_small. pose proof (len_nonneg data). lia. }
  rewrite T. unfold wave. rewrite Z.shiftl_mul_pow2 by lia. change (2 ^ 3) with 8. rewrite Z.mul_assoc.
  rewrite fmt_chunk. set (fmtc := wav_format f (w_channels w) (w_rate w) (w_bps w) (w_channels w * w_size w * 8) (w_size w)).
  assert (LF : len fmtc = 26) by (unfold fmtc; rewrite <- (fmt_chunk f (w_channels w)); apply len_fmt).
  set (smp := (w_last w - w_first w) * w_rate w / 1000).
  assert (LI : len (info_list (bs "info") (bs "MistServer")) = 30) by (vm_compute; reflexivity).
  assert (N3 : forall x, bs "LIST" ++ [22; 0; 0; 0] ++ bs "info" ++ bs "ISFT" ++ [10; 0; 0; 0] ++ bs "MistServer" ++ x = info_list (bs "info") (bs "MistServer") ++ x) by reflexivity.
  rewrite <- !app_assoc. rewrite N3.
  assert (N4 : bs "data" ++ le 4 (len data) ++ data = chunk (bs "data") data) by (unfold chunk; rewrite O, app_nil_r; reflexivity). rewrite N4.
  assert (N5 : (if f =? 1 then [] else fact_generate smp) = match (if f =? 1 then None else Some smp) with None => [] | Some n => chunk (bs "fact") (le 4 n) end).
  { destruct (f =? 1); [reflexivity|apply fact_chunk]. }
  rewrite N5. rewrite !len_app, LF, LI. rewrite (len_chunk (bs "data") data) by (reflexivity || exact O). change (len (bs "WAVE")) with 4.
  destruct (f =? 1).
  - change (len (@nil Z)) with 0. replace (4 + (26 + (0 + (30 + (8 + len data)))) + 12) with (80 + len data) by lia. reflexivity.
  - rewrite len_chunk by (rewrite ?len_le; reflexivity). rewrite len_le. replace (4 + (26 + (8 + Z.of_nat 4 + (30 + (8 + len data)))) + 0) with (80 + len data) by lia. reflexivity.
Qed.
(** C70: the header of a live stream has the largest sizes there are. *)
Theorem wav_live w : w_live w = true -> exists rest, sendHeader w = bs "RIFF" ++ [255; 255; 255; 255] ++ bs "WAVE" ++ rest ++ bs "data" ++ le 4 (2 ^ 32 - 81).
Proof.
  intros L. unfold sendHeader, total_data. rewrite L. change (le 4 (80 + (4294967295 - 80))) with [255; 255; 255; 255]. change (4294967295 - 80) with (2 ^ 32 - 81).
  match goal with |- exists rest, ?a ++ ?b ++ ?c ++ ?x ++ ?y ++ ?l ++ ?m ++ ?n ++ ?o ++ ?p ++ ?q ++ ?z = _ => exists (x ++ y ++ l ++ m ++ n ++ o ++ p ++ q); rewrite <- !app_assoc; reflexivity end.
Qed.
(** C70: what a format chunk says is what is read from it. *)
Theorem wav_format_read f channels rate bps block bits more : 0 <= f < 2 ^ 16 -> 0 <= channels < 2 ^ 16 -> 0 <= rate < 2 ^ 32 -> 0 <= bps < 2 ^ 32 -> 0 <= block < 2 ^ 16 -> 0 <= bits < 2 ^ 16 ->
  let p := wav_format f channels rate bps block bits ++ more in
  payloadSize p = Some 18 /\ getFormat p = Some f /\ getChannels p = Some channels /\ getHz p = Some rate /\ getBPS p = Some bps /\ getBlockSize p = Some block /\ getSize p = Some bits /\ getExtLen p = Some 0.
Proof.
  intros F C R B K S. cbv zeta. rewrite <- (fmt_chunk f channels). unfold fmt_generate. rewrite <- !app_assoc.
  set (h := bs "fmt ").
  set (l1 := le 2 f). set (l2 := le 2 channels). set (l3 := le 4 rate). set (l4 := le 4 bps). set (l5 := le 2 block). set (l6 := le 2 bits).
  assert (L1 : len l1 = 2) by apply len_le. assert (L2 : len l2 = 2) by apply len_le. assert (L3 : len l3 = 4) by apply len_le. assert (L4 : len l4 = 4) by apply len_le. assert (L5 : len l5 = 2) by apply len_le. assert (L6 : len l6 = 2) by apply len_le.
  assert (P : payloadSize (h ++ [18; 0; 0; 0] ++ l1 ++ l2 ++ l3 ++ l4 ++ l5 ++ l6 ++ [0; 0] ++ more) = Some 18).
  { exact (field_at h 4 18 (l1 ++ l2 ++ l3 ++ l4 ++ l5 ++ l6 ++ [0; 0] ++ more)). }
  split; [exact P|].
  assert (Z2 : forall v, 0 <= v < 2 ^ 16 -> v mod 256 ^ Z.of_nat 2 = v) by (intros; apply Z.mod_small; exact H).
  assert (Z4 : forall v, 0 <= v < 2 ^ 32 -> v mod 256 ^ Z.of_nat 4 = v) by (intros; apply Z.mod_small; exact H).
  pose proof (field_at (h ++ [18; 0; 0; 0]) 2 f (l2 ++ l3 ++ l4 ++ l5 ++ l6 ++ [0; 0] ++ more)) as Q1.
  pose proof (field_at (h ++ [18; 0; 0; 0] ++ l1) 2 channels (l3 ++ l4 ++ l5 ++ l6 ++ [0; 0] ++ more)) as Q2.
  pose proof (field_at (h ++ [18; 0; 0; 0] ++ l1 ++ l2) 4 rate (l4 ++ l5 ++ l6 ++ [0; 0] ++ more)) as Q3.
  pose proof (field_at (h ++ [18; 0; 0; 0] ++ l1 ++ l2 ++ l3) 4 bps (l5 ++ l6 ++ [0; 0] ++ more)) as Q4.
  pose proof (field_at (h ++ [18; 0; 0; 0] ++ l1 ++ l2 ++ l3 ++ l4) 2 block (l6 ++ [0; 0] ++ more)) as Q5.
  pose proof (field_at (h ++ [18; 0; 0; 0] ++ l1 ++ l2 ++ l3 ++ l4 ++ l5) 2 bits ([0; 0] ++ more)) as Q6.
  pose proof (field_at (h ++ [18; 0; 0; 0] ++ l1 ++ l2 ++ l3 ++ l4 ++ l5 ++ l6) 2 0 more) as Q7.
  rewrite Z2 in Q1, Q2, Q5, Q6 by assumption. rewrite Z4 in Q3, Q4 by assumption.
  clean Q1; clean Q2; clean Q3; clean Q4; clean Q5; clean Q6; clean Q7.
  rewrite ?L1, ?L2, ?L3, ?L4, ?L5, ?L6 in Q2; rewrite ?L1, ?L2, ?L3, ?L4, ?L5, ?L6 in Q3; rewrite ?L1, ?L2, ?L3, ?L4, ?L5, ?L6 in Q4;
  rewrite ?L1, ?L2, ?L3, ?L4, ?L5, ?L6 in Q5; rewrite ?L1, ?L2, ?L3, ?L4, ?L5, ?L6 in Q6; rewrite ?L1, ?L2, ?L3, ?L4, ?L5, ?L6 in Q7.
  split; [exact Q1|]. split; [exact Q2|]. split; [exact Q3|]. split; [exact Q4|]. split; [exact Q5|]. split; [exact Q6|].
  unfold getExtLen. rewrite P. exact Q7.
Qed.
(** C70, in part: the chunks of a list are found one after the other, if their sizes are even (F186) and below 2^32. *)
Theorem riff_list_partial id type l fuel : len id = 4 -> len type = 4 ->
  Forall (fun c => exists i d, c = chunk i d /\ len i = 4 /\ Z.odd (len d) = false) l -> len (List.concat l) + 20 < 2 ^ 32 -> (List.length l < fuel)%nat ->
  let p := chunk id (type ++ List.concat l) in
  chunk_ok p (len p) = Some true /\ list_chunks fuel p = WEnd (positions 12 l).
Proof.
  intros I T F B K. cbv zeta. pose proof (len_nonneg (List.concat l)).
  assert (LP : len (type ++ List.concat l) = 4 + len (List.concat l)) by (rewrite len_app; lia).
  pose proof (payload_chunk id (type ++ List.concat l) [] I ltac:(lia)) as P. rewrite app_nil_r in P.
  assert (LC : 8 + (4 + len (List.concat l)) <= len (chunk id (type ++ List.concat l))).
  { unfold chunk. set (pad := if Z.odd _ then _ else _). rewrite !len_app, len_le, I, T. pose proof (len_nonneg pad). lia. }
  split.
  - unfold chunk_ok. rewrite P. f_equal. rewrite LP. assert (u32 (4 + len (List.concat l) + 8) = 12 + len (List.concat l)) as -> by (unfold u32; rewrite Z.mod_small; lia).
    destruct (Z.ltb_spec (len (chunk id (type ++ List.concat l))) (12 + len (List.concat l))); [lia|]. rewrite andb_false_r. reflexivity.
  - unfold list_chunks. rewrite P, LP. assert (u32 (4 + len (List.concat l) + 8) = 12 + len (List.concat l)) as -> by (unfold u32; rewrite Z.mod_small; lia).
    eapply (walk_ok l F) with (pre := id ++ le 4 (len (type ++ List.concat l)) ++ type); [exact K| | |reflexivity|lia].
    + unfold chunk. rewrite <- !app_assoc. reflexivity.
    + rewrite !len_app, len_le, I, T. reflexivity.
Qed.

(** C70, refuted: the size of a PCM file is 12 larger than the file, as if it had samples per channel. *)
Theorem wav_pcm_size_refuted : let w := mkwav false (bs "PCM") 2 44100 176400 16 0 1000 [4] in
  takez 4 (dropz 4 (sendHeader w ++ [1; 2; 3; 4])) = le 4 (len (dropz 8 (sendHeader w ++ [1; 2; 3; 4])) + 12).
Proof. vm_compute. reflexivity. Qed.
(** C70, refuted: the block size of any format. *)
Theorem wav_block_size_refuted w : w_size w mod 8 = 0 -> getBlockSize (dropz 12 (sendHeader w)) = Some (64 * block_size (w_channels w) (w_size w) mod 2 ^ 16).
Proof.
  intros M. assert (X : 64 * block_size (w_channels w) (w_size w) = w_channels w * w_size w * 8).
  { unfold block_size. assert (E : w_size w = 8 * (w_size w / 8)) by lia. set (q := w_size w / 8) in *. rewrite E.
    replace (w_channels w * (8 * q)) with ((w_channels w * q) * 8) by ring. rewrite Z.div_mul by lia. ring. }
  rewrite X. clear X. unfold sendHeader. rewrite Z.shiftl_mul_pow2 by lia. change (2 ^ 3) with 8. rewrite Z.mul_assoc. rewrite app_assoc. rewrite app_assoc.
  rewrite dropz_app_exact by (rewrite !len_app, len_le; reflexivity). unfold fmt_generate. rewrite <- !app_assoc.
  set (l1 := le 2 (format (w_codec w))). set (l2 := le 2 (w_channels w)). set (l3 := le 4 (w_rate w)). set (l4 := le 4 (w_bps w)).
  match goal with |- getBlockSize (?h ++ ?m ++ ?a ++ ?b ++ ?c ++ ?e ++ le 2 ?v ++ ?post) = _ => pose proof (field_at (h ++ m ++ a ++ b ++ c ++ e) 2 v post) as Q end.
  rewrite <- !app_assoc in Q. rewrite !len_app in Q. unfold l1, l2, l3, l4 in *. rewrite !len_le in Q. exact Q.
Qed.
(** C70, refuted: the type of a list of information is INFO. *)
Theorem wav_info_refuted w : exists a b, sendHeader w = a ++ bs "LIST" ++ le 4 22 ++ bs "info" ++ b /\ bs "info" <> bs "INFO".
Proof.
  unfold sendHeader. match goal with |- exists _ _, ?a ++ ?b ++ ?c ++ ?x ++ ?y ++ ?l ++ ?m ++ ?n ++ ?z = _ /\ _ => exists (a ++ b ++ c ++ x ++ y), z; rewrite <- !app_assoc; split; [reflexivity|discriminate] end.
Qed.
(** C70, refuted: PCM data of an odd size are read and written past the end; samples of 32 bits are replaced by whatever was in memory; data of 2^32 bytes
    have the size 0. *)
Theorem wav_odd_refuted : sendNext (bs "PCM") 16 [] [1; 2; 3] = None.
Proof. reflexivity. Qed.
Theorem wav_32_bits_refuted old d : len d <= len old -> sendNext (bs "PCM") 32 old d = Some (takez (len d) old).
Proof. intros _. reflexivity. Qed.
Theorem wav_large_refuted : total_data (mkwav false (bs "ULAW") 1 8000 8000 8 0 1000 [2 ^ 31; 2 ^ 31]) = 0.
Proof. reflexivity. Qed.
(** C70, refuted: a chunk that says it has almost 2^32 bytes is taken in any buffer, and makes walking over a list never end. *)
Theorem riff_overflow_refuted :
  chunk_ok (bs "data" ++ le 4 (2 ^ 32 - 8)) 8 = Some true /\
  forall fuel, list_chunks fuel (bs "LIST" ++ le 4 12 ++ bs "INFO" ++ bs "ICMT" ++ le 4 (2 ^ 32 - 8)) = WMore.
Proof.
  split; [vm_compute; reflexivity|]. intros fuel. unfold list_chunks.
  set (p := bs "LIST" ++ le 4 12 ++ bs "INFO" ++ bs "ICMT" ++ le 4 (2 ^ 32 - 8)).
  assert (payloadSize p = Some 12) as -> by (vm_compute; reflexivity). change (u32 (12 + 8)) with 20.
  induction fuel as [|k IH]; [reflexivity|]. cbn [walk]. change (u32 (12 + 8) <=? 20) with true. cbv iota.
  assert (payloadSize (dropz 12 p) = Some (2 ^ 32 - 8)) as -> by (vm_compute; reflexivity). change (u32 (12 + u32 (2 ^ 32 - 8 + 8))) with 12. rewrite IH. reflexivity.
Qed.
(** C70, refuted: after a chunk of odd size the next one is looked for one byte too early. *)
Theorem riff_odd_refuted : let l := [chunk (bs "ISFT") (bs "Mist!"); chunk (bs "ICMT") (bs "ab")] in
  positions 12 l = [12; 26] /\ list_chunks 3 (chunk (bs "LIST") (bs "INFO" ++ List.concat l)) = WEnd [12; 25].
Proof. split; vm_compute; reflexivity. Qed.

(** The hypotheses are met. *)
Example wav_case : let w := mkwav false (bs "ULAW") 1 8000 8000 8 0 1 [4; 4] in
  In (w_codec w, 7) wav_formats /\ len [1; 2; 3; 4; 5; 6; 7; 8] = fold_right Z.add 0 (w_keys w) /\
  takez 4 (dropz 4 (sendHeader w ++ [1; 2; 3; 4; 5; 6; 7; 8])) = [88; 0; 0; 0] /\ len (sendHeader w) = 88.
Proof. split; [cbn; tauto|]. split; [reflexivity|]. split; vm_compute; reflexivity. Qed.
Example wav_samples_case : sendNext (bs "PCM") 24 [] [1; 2; 3; 4; 5; 6] = Some [3; 2; 1; 6; 5; 4].
Proof. reflexivity. Qed.
Example riff_list_case : list_chunks 3 (chunk (bs "LIST") (bs "INFO" ++ chunk (bs "ISFT") (bs "MistServer") ++ chunk (bs "ICMT") (bs "ab"))) = WEnd [12; 30].
Proof. vm_compute. reflexivity. Qed.

Print Assumptions wav_samples.
Print Assumptions wav_bytes.
Print Assumptions wav_file_partial.
Print Assumptions wav_live.
Print Assumptions wav_format_read.
Print Assumptions riff_list_partial.
Print Assumptions wav_pcm_size_refuted.
Print Assumptions wav_block_size_refuted.
Print Assumptions wav_info_refuted.
Print Assumptions wav_odd_refuted.
Print Assumptions wav_32_bits_refuted.
Print Assumptions wav_large_refuted.
Print Assumptions riff_overflow_refuted.
Print Assumptions riff_odd_refuted.
