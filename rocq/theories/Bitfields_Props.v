(** C04, C05: fixed width fields and bit fields (lib/bitfields.h, lib/bitfields.cpp). *)
From Verif Require Import Common CommonFacts Bits Bitfields_Model Bitfields_Spec Bitfields_Proofs.

(** C04. Every big endian accessor pair stores and retrieves faithfully. *)
Theorem big_endian_fields_faithful :
  faithful_field 2 btohs htobs /\ faithful_field 3 btoh24 htob24 /\ faithful_field 4 btohl htobl /\
  faithful_field 5 btoh40 htob40 /\ faithful_field 6 btoh48 htob48 /\ faithful_field 7 btoh56 htob56 /\
  faithful_field 8 btohll htobll.
Proof.
  exact (conj (faithful_be 2 _ _ rd_btohs wr_htobs) (conj (faithful_be 3 _ _ rd_btoh24 wr_htob24)
    (conj (faithful_be 4 _ _ rd_btohl wr_htobl) (conj (faithful_be 5 _ _ rd_btoh40 wr_htob40)
    (conj (faithful_be 6 _ _ rd_btoh48 wr_htob48) (conj (faithful_be 7 _ _ rd_btoh56 wr_htob56)
    (faithful_be 8 _ _ rd_btohll wr_htobll))))))).
Qed.
Print Assumptions big_endian_fields_faithful.

(** C04. Every little endian accessor pair stores and retrieves faithfully. *)
Theorem little_endian_fields_faithful :
  faithful_field 2 btohs_le htobs_le /\ faithful_field 3 btoh24_le htob24_le /\
  faithful_field 4 btohl_le htobl_le /\ faithful_field 8 btohll_le htobll_le.
Proof.
  exact (conj (faithful_le 2 _ _ rd_btohs_le wr_htobs_le) (conj (faithful_le 3 _ _ rd_btoh24_le wr_htob24_le)
    (conj (faithful_le 4 _ _ rd_btohl_le wr_htobl_le) (faithful_le 8 _ _ rd_btohll_le wr_htobll_le)))).
Qed.
Print Assumptions little_endian_fields_faithful.

(** C04. The byte order is the announced one. *)
Theorem field_byte_order :
  (big_endian 2 btohs /\ big_endian 3 btoh24 /\ big_endian 4 btohl /\ big_endian 5 btoh40 /\
   big_endian 6 btoh48 /\ big_endian 7 btoh56 /\ big_endian 8 btohll) /\
  (little_endian 2 btohs_le /\ little_endian 3 btoh24_le /\ little_endian 4 btohl_le /\ little_endian 8 btohll_le).
Proof.
  exact (conj (conj rd_btohs (conj rd_btoh24 (conj rd_btohl (conj rd_btoh40 (conj rd_btoh48 (conj rd_btoh56 rd_btohll))))))
     (conj rd_btohs_le (conj rd_btoh24_le (conj rd_btohl_le rd_btohll_le)))).
Qed.
Print Assumptions field_byte_order.

(** C04. 32 bit floats: the bit pattern survives. *)
Theorem float_field_faithful : faithful_field 4 btohf htobf.
Proof. exact (proj1 (proj2 (proj2 big_endian_fields_faithful))). Qed.
Print Assumptions float_field_faithful.

(** C04. 64 bit floats do not survive: htobd keeps only the low 32 bits of the pattern.
    Witness: 1.0 = 0x3FF0000000000000 reads back as 0.0. Finding F02. *)
Theorem double_field_refuted : exists pat, 0 <= pat < 2 ^ 64 /\ btohd (htobd pat) = 0 /\ pat <> 0.
Proof. exists 4607182418800017408. repeat split; vm_compute; congruence. Qed.
Print Assumptions double_field_refuted.

Example fields_nonvacuous :
  let buf := [1; 2; 3; 4; 5; 6; 7; 8; 9; 10] in
  bytesP buf /\ btohl (dropz 3 (splice buf 3 (htobl 3735928559))) = 3735928559 /\
  btohs_le (dropz 1 buf) = 770.
Proof. cbv zeta. repeat split; try reflexivity. repeat constructor; vm_compute; congruence. Qed.

(** C05, partial: reading a bit field is right when the field starts at a byte boundary, or when
    the bits before it in its first byte are zero. Missing: fields with earlier non-zero bits,
    for which the claim is false (next theorem), and writing. *)
Theorem getMSB_partial : forall p off n,
  bytesP p -> 0 <= off -> 0 <= n <= 64 -> off + n <= 8 * len p ->
  (off mod 8 <> 0 -> nthz p (off / 8) < 2 ^ (8 - off mod 8)) ->
  getMSB p off n = Some (bitfield p off n).
Proof. exact getMSB_partial_lem. Qed.
Print Assumptions getMSB_partial.

(** Finding F03: the bits before the field leak into the result. *)
Theorem getMSB_refuted : exists p off n r, bytesP p /\ 0 <= n <= 64 /\ 0 <= off /\ off + n <= 8 * len p /\
  getMSB p off n = Some r /\ r <> bitfield p off n.
Proof.
  exists [255], 4, 4, 255. repeat split; try (vm_compute; congruence).
  repeat constructor; vm_compute; congruence.
Qed.
Print Assumptions getMSB_refuted.

(** Finding F04: setMSB (marked unfinished in the source) does not clear old bits. *)
Theorem setMSB_refuted : exists p off n v p', bytesP p /\ 0 <= v < 2 ^ n /\ 0 <= off /\ off + n < 8 * len p /\
  setMSB p off n v = Some p' /\ bitfield p' off n <> v.
Proof.
  exists [255; 255], 0, 8, 0, [255; 255]. repeat split; try (vm_compute; congruence).
  repeat constructor; vm_compute; congruence.
Qed.
Print Assumptions setMSB_refuted.


Example getMSB_nonvacuous : bitfield [1; 255; 128] 4 16 = 8184 /\ getMSB [1; 255; 128] 4 16 = Some 8184
  /\ 1 < 2 ^ (8 - 4).
Proof. repeat split; reflexivity. Qed.

(** Boolean settings: true exactly if, ignoring blanks and case, the text starts with one of the
    four accepted words. *)
Theorem string_to_bool : forall s, stringToBool s = true <->
  exists w r, In w [bs "1"; bs "yes"; bs "true"; bs "cont"] /\
    map tolower (filter (fun c => negb (isspace c)) s) = w ++ r.
Proof. exact stringToBool_lem. Qed.
Print Assumptions string_to_bool.

Example string_to_bool_nonvacuous : stringToBool (bs " Y eS please") = true /\ stringToBool (bs "no") = false.
Proof. split; reflexivity. Qed.
