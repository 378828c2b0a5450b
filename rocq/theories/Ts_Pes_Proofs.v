(** Proofs about PES headers and the demuxer. *)
From Verif Require Import Common CommonFacts CommonMore Bitfields_Model Bitfields_Proofs Ts_Model Ts_Spec Ts_Proofs Ts_Mux_Proofs.
Import List.

(** ** Time stamps *)
Lemma land_field t m k w : 0 <= k -> 0 <= w -> m = Z.ones w << k -> t .& m = (t / 2 ^ k) mod 2 ^ w * 2 ^ k.
Proof.
  intros Hk Hw ->. assert (F := land_shift t (Z.ones w) k Hk). rewrite !shr_div in F by lia. rewrite Z.land_ones in F by lia.
  rewrite <- F. assert (G : (t .& (Z.ones w << k)) mod 2 ^ k = 0).
  { rewrite <- Z.land_ones by lia. rewrite <- Z.land_assoc. replace ((Z.ones w << k) .& Z.ones k) with 0; [apply Z.land_0_r|].
    symmetry. rewrite Z.land_ones by lia. rewrite Z.shiftl_mul_pow2 by lia. apply Z.mod_mul. lia. }
  assert (2 ^ k > 0) by (pose proof (Z.pow_pos_nonneg 2 k); lia).
  set (a := t .& (Z.ones w << k)) in *. clearbody a. rewrite (Z.div_mod a (2 ^ k)) at 1 by lia. rewrite G. lia.
Qed.
Lemma stamp_first l y : l = 1 \/ l = 2 \/ l = 3 -> 0 <= y < 8 -> u8 (l * 16 .| (y * 2) .| 1) = l * 16 + y * 2 + 1.
Proof.
  intros Hl Hy. assert (E : y = 0 \/ y = 1 \/ y = 2 \/ y = 3 \/ y = 4 \/ y = 5 \/ y = 6 \/ y = 7) by lia.
  destruct Hl as [-> |[-> | ->]]; repeat (destruct E as [-> |E]; [reflexivity|]); subst; reflexivity.
Qed.
Lemma lor_1 x : (x * 2) .| 1 = x * 2 + 1.
Proof. change 2 with (2 ^ 1). now apply lor_add. Qed.
Lemma stamp_ok l t : l = 1 \/ l = 2 \/ l = 3 -> encodePESTimestamp (l * 16) t = stamp l t.
Proof.
  intros Hl. unfold encodePESTimestamp, stamp.
  rewrite (land_field t 0x1C0000000 30 3), (land_field t 0x03FC00000 22 8), (land_field t 0x0003F8000 15 7), (land_field t 0x000007F80 7 8), (land_field t 0x00000007F 0 7) by (lia || reflexivity).
  rewrite !shr_div, shl_mul by lia.
  assert (E1 : (t / 2 ^ 30) mod 2 ^ 3 * 2 ^ 30 / 2 ^ 29 = (t / 2 ^ 30) mod 8 * 2).
  { change (2 ^ 30) with (2 * 2 ^ 29) at 2. rewrite Z.mul_assoc, Z.div_mul by lia. reflexivity. }
  assert (E2 : (t / 2 ^ 22) mod 2 ^ 8 * 2 ^ 22 / 2 ^ 22 = (t / 2 ^ 22) mod 256) by (rewrite Z.div_mul by lia; reflexivity).
  assert (E3 : (t / 2 ^ 15) mod 2 ^ 7 * 2 ^ 15 / 2 ^ 14 = (t / 2 ^ 15) mod 128 * 2).
  { change (2 ^ 15) with (2 * 2 ^ 14) at 2. rewrite Z.mul_assoc, Z.div_mul by lia. reflexivity. }
  assert (E4 : (t / 2 ^ 7) mod 2 ^ 8 * 2 ^ 7 / 2 ^ 7 = (t / 2 ^ 7) mod 256) by (rewrite Z.div_mul by lia; reflexivity).
  assert (E5 : (t / 2 ^ 0) mod 2 ^ 7 * 2 ^ 0 * 2 ^ 1 = t mod 128 * 2) by (change (2 ^ 0) with 1; rewrite Z.div_1_r, Z.mul_1_r; reflexivity).
  rewrite E1, E2, E3, E4, E5. rewrite stamp_first by (try assumption; apply Z.mod_pos_bound; lia). rewrite !lor_1.
  unfold u8. rewrite !Z.mod_mod by lia.
  assert (0 <= (t / 2 ^ 15) mod 128 < 128) by (apply Z.mod_pos_bound; lia). assert (0 <= t mod 128 < 128) by (apply Z.mod_pos_bound; lia).
  rewrite (Z.mod_small ((t / 2 ^ 15) mod 128 * 2 + 1)), (Z.mod_small (t mod 128 * 2 + 1)) by lia. reflexivity.
Qed.
Lemma stamp_bytes l t : l = 1 \/ l = 2 \/ l = 3 -> bytesP (stamp l t).
Proof.
  intros Hl. unfold stamp, bytesP, byteP.
  assert (0 <= (t / 2 ^ 30) mod 8 < 8) by (apply Z.mod_pos_bound; lia). assert (0 <= (t / 2 ^ 22) mod 256 < 256) by (apply Z.mod_pos_bound; lia).
  assert (0 <= (t / 2 ^ 15) mod 128 < 128) by (apply Z.mod_pos_bound; lia). assert (0 <= (t / 2 ^ 7) mod 256 < 256) by (apply Z.mod_pos_bound; lia).
  assert (0 <= t mod 128 < 128) by (apply Z.mod_pos_bound; lia).
  repeat constructor; lia.
Qed.
Lemma lor3 a b c : 0 <= b < 256 -> 0 <= c < 128 -> (a << 15) .| (b << 7) .| c = a * 2 ^ 15 + b * 2 ^ 7 + c.
Proof.
  intros Hb Hc. rewrite <- Z.lor_assoc. rewrite (lor_shl_add b c 7) by (change (2 ^ 7) with 128; lia). rewrite lor_shl_add by (change (2 ^ 15) with 32768; change (2 ^ 7) with 128; lia). lia.
Qed.
Lemma decode_stamp l t r : decodePTS (stamp l t ++ r) = (t mod 2 ^ 33) / 90.
Proof.
  unfold decodePTS, stamp. cbn [app].
  set (a := (t / 2 ^ 30) mod 8). set (b := (t / 2 ^ 22) mod 256). set (c := (t / 2 ^ 15) mod 128). set (d := (t / 2 ^ 7) mod 256). set (e := t mod 128).
  assert (Ha : 0 <= a < 8) by (apply Z.mod_pos_bound; lia). assert (Hb : 0 <= b < 256) by (apply Z.mod_pos_bound; lia).
  assert (Hc : 0 <= c < 128) by (apply Z.mod_pos_bound; lia). assert (Hd : 0 <= d < 256) by (apply Z.mod_pos_bound; lia). assert (He : 0 <= e < 128) by (apply Z.mod_pos_bound; lia).
  change (nthz (l * 16 + a * 2 + 1 :: b :: c * 2 + 1 :: d :: e * 2 + 1 :: r) 0) with (l * 16 + a * 2 + 1).
  change (nthz (l * 16 + a * 2 + 1 :: b :: c * 2 + 1 :: d :: e * 2 + 1 :: r) 1) with b.
  change (nthz (l * 16 + a * 2 + 1 :: b :: c * 2 + 1 :: d :: e * 2 + 1 :: r) 2) with (c * 2 + 1).
  change (nthz (l * 16 + a * 2 + 1 :: b :: c * 2 + 1 :: d :: e * 2 + 1 :: r) 3) with d.
  change (nthz (l * 16 + a * 2 + 1 :: b :: c * 2 + 1 :: d :: e * 2 + 1 :: r) 4) with (e * 2 + 1).
  rewrite !shr_div by lia. rewrite land_7, !land_127. change (2 ^ 1) with 2.
  replace ((l * 16 + a * 2 + 1) / 2 mod 8) with a by (clear - Ha; lia).
  replace ((c * 2 + 1) / 2 mod 128) with c by (clear - Hc; lia). replace ((e * 2 + 1) / 2 mod 128) with e by (clear - He; lia).
  rewrite !lor3 by assumption. f_equal.
  assert (E1 : t mod 2 ^ 33 = a * 2 ^ 30 + t mod 2 ^ 30).
  { change (2 ^ 33) with (2 ^ 30 * 8). rewrite Z.rem_mul_r by lia. fold a. lia. }
  assert (E2 : t mod 2 ^ 30 = b * 2 ^ 22 + t mod 2 ^ 22).
  { change (2 ^ 30) with (2 ^ 22 * 256). rewrite Z.rem_mul_r by lia. fold b. lia. }
  assert (E3 : t mod 2 ^ 22 = c * 2 ^ 15 + t mod 2 ^ 15).
  { change (2 ^ 22) with (2 ^ 15 * 128). rewrite Z.rem_mul_r by lia. fold c. lia. }
  assert (E4 : t mod 2 ^ 15 = d * 2 ^ 7 + t mod 2 ^ 7).
  { change (2 ^ 15) with (2 ^ 7 * 256). rewrite Z.rem_mul_r by lia. fold d. lia. }
  change (t mod 2 ^ 7) with e in E4. lia.
Qed.

(** ** Rollover *)
(** What the demuxer makes of millisecond time t. *)
Definition unwrapped (t : Z) : Z := (90 * t mod 2 ^ 33) / 90 + 90 * t / 2 ^ 33 * 95443718.
Lemma unwrapped_small t : 0 <= t -> 90 * t < 2 ^ 33 -> unwrapped t = t.
Proof. intros. unfold unwrapped. rewrite Z.mod_small by lia. rewrite (Z.div_small _ (2 ^ 33)) by lia. rewrite Z.mul_comm, Z.div_mul by lia. lia. Qed.
Lemma unwrapped_close t : 0 <= t -> t <= unwrapped t <= t + 90 * t / 2 ^ 33.
Proof.
  intros. unfold unwrapped. set (k := 90 * t / 2 ^ 33). assert (E : 90 * t mod 2 ^ 33 = 90 * t - 2 ^ 33 * k) by (unfold k; rewrite Z.mod_eq by lia; reflexivity).
  rewrite E. assert (0 <= k) by (apply Z.div_pos; lia). change (2 ^ 33) with 8589934592. clearbody k. clear E.
  (* 8589934592 = 90 * 95443717 + 62 *) lia.
Qed.
Lemma unroll_ok t t' : 0 <= t -> t <= t' -> t' - t <= 9544370 -> unwrapped t' < 2 ^ 64 ->
  unroll ((90 * t' mod 2 ^ 33) / 90) (unwrapped t) (90 * t / 2 ^ 33) = (unwrapped t', 90 * t' / 2 ^ 33).
Proof.
  intros H0 H1 H2 H64. unfold unroll, unwrapped, TS_PTS_ROLLOVER in *.
  set (k := 90 * t / 2 ^ 33). set (k' := 90 * t' / 2 ^ 33) in *.
  assert (E : 90 * t mod 2 ^ 33 = 90 * t - 2 ^ 33 * k) by (unfold k; rewrite Z.mod_eq by lia; reflexivity).
  assert (E' : 90 * t' mod 2 ^ 33 = 90 * t' - 2 ^ 33 * k') by (unfold k'; rewrite Z.mod_eq by lia; reflexivity).
  assert (B : 0 <= 90 * t mod 2 ^ 33 < 2 ^ 33) by (apply Z.mod_pos_bound; lia). assert (B' : 0 <= 90 * t' mod 2 ^ 33 < 2 ^ 33) by (apply Z.mod_pos_bound; lia).
  rewrite E in B. rewrite E' in B'. rewrite E, E' in *. change (2 ^ 33) with 8589934592 in *.
  assert (K0 : 0 <= k) by (apply Z.div_pos; lia). clearbody k k'.
  assert (KK : k' = k \/ k' = k + 1) by lia.
  set (w := (90 * t - 8589934592 * k) / 90). set (w' := (90 * t' - 8589934592 * k') / 90) in *.
  assert (W : w * 90 <= 90 * t - 8589934592 * k < w * 90 + 90) by (unfold w; lia).
  assert (W' : w' * 90 <= 90 * t' - 8589934592 * k' < w' * 90 + 90) by (unfold w'; lia).
  assert (R : 0 <= w <= 95443717) by (unfold w; lia). assert (R' : 0 <= w' <= 95443717) by (unfold w'; lia).
  clearbody w w'. unfold u64. change (2 ^ 64) with 18446744073709551616 in H64.
  rewrite (Z.mod_small (w' + k * 95443718)) by lia.
  rewrite !Z.mod_add by lia. rewrite (Z.mod_small w'), (Z.mod_small w) by lia.
  destruct KK as [-> | ->].
  - destruct (Z.ltb_spec (w' + k * 95443718) (w + k * 95443718)); [lia|]. cbn [andb]. reflexivity.
  - destruct (Z.ltb_spec (w' + k * 95443718) (w + k * 95443718)); [|lia].
    destruct (Z.leb_spec w' 9544371); [|lia]. destruct (Z.leb_spec 85899347 w); [|lia]. cbn [andb].
    rewrite Z.mod_small by lia. f_equal. lia.
Qed.
