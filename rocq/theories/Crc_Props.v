(** C40: checksums (lib/checksum.h). *)
From Verif Require Import Common CommonFacts CommonMore Crc_Model Crc_Spec Crc_Proofs.
Import List.

(** Each checksum is the remainder that bit by bit division leaves, for every string and every
    start value. The one called crc32c uses the MPEG-2 generator 0x04C11DB7. *)
Theorem crc32c_is_division : forall reg data, bytesP data -> 0 <= reg < 2 ^ 32 -> crc32c reg data = crc_msb 32 0x04C11DB7 reg data.
Proof. intros. now apply crc32c_ok. Qed.
Theorem crc32LE_is_division : forall reg data, bytesP data -> 0 <= reg < 2 ^ 32 -> crc32LE reg data = crc_lsb 0xEDB88320 reg data.
Proof. intros. now apply crc32LE_ok. Qed.
(** The one used for MPEG tables keeps its register byte swapped. *)
Theorem crc32_is_division : forall reg data, bytesP data -> 0 <= reg < 2 ^ 32 ->
  crc32 reg data = swap32 (crc_msb 32 0x04C11DB7 (swap32 reg) data).
Proof.
  intros reg data Hb Hr. rewrite <- crc32c_ok by (try assumption; apply swap32_range). rewrite <- crc32_ok by (try assumption; apply swap32_range).
  now rewrite swap32_invol.
Qed.
Theorem crc16_is_division_partial : forall crc data, bytesP data -> 0 <= crc < 2 ^ 32 -> u16 (crc16 crc data) = crc_msb 16 0x8005 (u16 crc) data.
Proof. intros. now apply crc16_ok. Qed.
(** Missing from it: the answer is not reduced to 16 bits. *)
Theorem crc16_unreduced_refuted : crc_msb 16 0x8005 0 (bs "123456789") = 0xFEE8 /\ crc16 0 (bs "123456789") = 3986030312.
Proof. split; vm_compute; reflexivity. Qed.
Theorem crc8_is_division : forall crc data, bytesP data -> byteP crc -> crc8 crc data = crc_msb 8 0x07 crc data.
Proof.
  intros crc data Hb Hc. rewrite <- (u8_id crc) at 2 by exact Hc. rewrite <- crc8_ok by exact Hb. symmetry. apply u8_id. now apply crc8_range.
Qed.
(** The check values that catalogues list for these five. *)
Example crc_cases : crc32c 0xFFFFFFFF (bs "123456789") = 0x0376E6E7 /\ swap32 (crc32 0xFFFFFFFF (bs "123456789")) = 0x0376E6E7 /\
  Z.lxor (crc32LE 0xFFFFFFFF (bs "123456789")) 0xFFFFFFFF = 0xCBF43926 /\ crc8 0 (bs "123456789") = 0xF4.
Proof. repeat split; vm_compute; reflexivity. Qed.

(** Data may come in pieces. *)
Theorem crc_incremental : forall a b reg,
  crc32c reg (a ++ b) = crc32c (crc32c reg a) b /\ crc32LE reg (a ++ b) = crc32LE (crc32LE reg a) b /\
  crc32 reg (a ++ b) = crc32 (crc32 reg a) b /\ crc16 reg (a ++ b) = crc16 (crc16 reg a) b /\ crc8 reg (a ++ b) = crc8 (crc8 reg a) b.
Proof. intros. repeat split; apply fold_left_app. Qed.

(** What it is for: damage confined to 32 consecutive bits is always noticed. *)
Theorem crc32_detects_bursts : forall reg d1 d2 a x y z, bytesP d1 -> bytesP d2 -> 0 <= reg < 2 ^ 32 ->
  flat_map bits_msb d1 = a ++ x ++ z -> flat_map bits_msb d2 = a ++ y ++ z ->
  List.length x = List.length y -> len x <= 32 -> x <> y -> crc32 reg d1 <> crc32 reg d2.
Proof.
  intros reg d1 d2 a x y z H1 H2 Hr E1 E2 L Hl Hne E. rewrite !crc32_is_division in E by assumption.
  assert (R : forall d, 0 <= crc_msb 32 0x04C11DB7 (swap32 reg) d < 2 ^ 32) by (intros d; apply msb_range; [lia|lia|apply swap32_range]).
  apply (f_equal swap32) in E. rewrite !swap32_invol in E by apply R. unfold crc_msb in E. rewrite E1, E2 in E.
  revert E. apply burst_detected; try assumption; try lia; try reflexivity. apply swap32_range.
Qed.
Example burst_case : exists a x y z, flat_map bits_msb (bs "abcd") = a ++ x ++ z /\ flat_map bits_msb [97; 0; 100; 100] = a ++ y ++ z /\
  List.length x = List.length y /\ len x <= 32 /\ x <> y.
Proof.
  exists (firstn 8 (flat_map bits_msb (bs "abcd"))), (firstn 16 (skipn 8 (flat_map bits_msb (bs "abcd")))),
    (firstn 16 (skipn 8 (flat_map bits_msb [97; 0; 100; 100]))), (skipn 24 (flat_map bits_msb (bs "abcd"))).
  repeat split; vm_compute; try reflexivity; discriminate.
Qed.
(** A receiver that runs the checksum over data and stored checksum gets zero. *)
Theorem crc32_self_check : forall reg data, bytesP data -> 0 <= reg < 2 ^ 32 -> crc32 reg (data ++ le 4 (crc32 reg data)) = 0.
Proof.
  intros reg data Hb Hr. assert (Hle : bytesP (le 4 (crc32 reg data))) by (apply Forall_rev, be_bytes).
  rewrite crc32_is_division by (try assumption; apply bytesP_app; split; assumption). unfold crc_msb. rewrite flat_map_app, fold_left_app.
  fold (crc_msb 32 0x04C11DB7 (swap32 reg) data). set (v := crc_msb 32 0x04C11DB7 (swap32 reg) data).
  assert (Hv : 0 <= v < 2 ^ 32) by (apply msb_range; [lia|lia|apply swap32_range]).
  assert (EV : crc32 reg data = swap32 v) by (now apply crc32_is_division). rewrite EV in *.
  rewrite msb_self_check; [reflexivity|lia|rewrite bits_msb_len; unfold le; rewrite len_rev, be_len; reflexivity|].
  rewrite bval_bytes by exact Hle. unfold le, swap32, unle.
  assert (E : be 4 (unbe (rev (be 4 v))) = rev (be 4 v)).
  { replace 4%nat with (List.length (rev (be 4 v))) at 1 by (now rewrite rev_length, be_length). apply be_unbe. apply Forall_rev. apply be_bytes. }
  rewrite E, rev_involutive, unbe_be. now apply Z.mod_small.
Qed.
Example self_check_case : crc32 0xFFFFFFFF (bs "PAT" ++ le 4 (crc32 0xFFFFFFFF (bs "PAT"))) = 0 /\ crc32 0xFFFFFFFF (bs "PAT") <> 0.
Proof. split; vm_compute; [reflexivity|discriminate]. Qed.

Print Assumptions crc32c_is_division.
Print Assumptions crc32LE_is_division.
Print Assumptions crc32_is_division.
Print Assumptions crc16_is_division_partial.
Print Assumptions crc16_unreduced_refuted.
Print Assumptions crc8_is_division.
Print Assumptions crc_incremental.
Print Assumptions crc32_detects_bursts.
Print Assumptions crc32_self_check.
