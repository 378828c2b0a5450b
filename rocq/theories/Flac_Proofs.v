From Verif Require Import Common CommonFacts Bitfields_Model Flac_Model Flac_Spec.

Local Ltac cases := repeat match goal with |- context [?a <? ?b] => destruct (Z.ltb_spec a b); try lia end.
Local Ltac at_ := unfold nthz; change (Z.to_nat 0) with 0%nat; change (Z.to_nat 1) with 1%nat; change (Z.to_nat 2) with 2%nat; change (Z.to_nat 3) with 3%nat; cbn [nth].
Lemma utfBytes_ok b : byteP b -> utfBytes b = if b <? 128 then 1 else if b <? 192 then 9 else if b <? 224 then 2 else if b <? 240 then 3 else if b <? 248 then 4 else if b <? 252 then 5 else if b <? 254 then 6 else if b <? 255 then 7 else 9.
Proof.
  intros H. apply Z.eqb_eq. revert b H. apply (byte_sweep (fun b => utfBytes b =? if b <? 128 then 1 else if b <? 192 then 9 else if b <? 224 then 2 else if b <? 240 then 3 else if b <? 248 then 4 else if b <? 252 then 5 else if b <? 254 then 6 else if b <? 255 then 7 else 9)).
  vm_compute. reflexivity.
Qed.
Lemma coded_len n : len (coded n) = 1 + Z.of_nat (following n).
Proof.
  unfold coded. assert (L : forall k, len (sixes k n) = Z.of_nat k) by (induction k as [|k IH]; [reflexivity|cbn [sixes]; rewrite len_cons, IH; lia]).
  destruct (following n) as [|k]; [reflexivity|]. rewrite len_cons, L. reflexivity.
Qed.
(** The first byte says how many there are. *)
Lemma bytes_ok n more : 0 <= n < 2 ^ 36 -> utfBytes (nthz (coded n ++ more) 0) = len (coded n).
Proof.
  intros H. rewrite coded_len. unfold coded, following.
  destruct (Z.ltb_spec n (2 ^ 7)); [|destruct (Z.ltb_spec n (2 ^ 11)); [|destruct (Z.ltb_spec n (2 ^ 16)); [|destruct (Z.ltb_spec n (2 ^ 21)); [|destruct (Z.ltb_spec n (2 ^ 26)); [|destruct (Z.ltb_spec n (2 ^ 31))]]]]];
  cbn [app]; rewrite nthz_0.
  - rewrite utfBytes_ok by (unfold byteP; lia). destruct (Z.ltb_spec n 128); lia.
  - change (Z.of_nat 1) with 1. change (256 - 2 ^ (7 - 1)) with 192. change (64 ^ 1) with 64. set (x := n / 64). assert (0 <= x < 32) by (unfold x; lia). clearbody x.
    rewrite utfBytes_ok by (unfold byteP; lia). cases.
  - change (Z.of_nat 2) with 2. change (256 - 2 ^ (7 - 2)) with 224. change (64 ^ 2) with 4096. set (x := n / 4096). assert (0 <= x < 16) by (unfold x; lia). clearbody x.
    rewrite utfBytes_ok by (unfold byteP; lia). cases.
  - change (Z.of_nat 3) with 3. change (256 - 2 ^ (7 - 3)) with 240. change (64 ^ 3) with 262144. set (x := n / 262144). assert (0 <= x < 8) by (unfold x; lia). clearbody x.
    rewrite utfBytes_ok by (unfold byteP; lia). cases.
  - change (Z.of_nat 4) with 4. change (256 - 2 ^ (7 - 4)) with 248. change (64 ^ 4) with 16777216. set (x := n / 16777216). assert (0 <= x < 4) by (unfold x; lia). clearbody x.
    rewrite utfBytes_ok by (unfold byteP; lia). cases.
  - change (Z.of_nat 5) with 5. change (256 - 2 ^ (7 - 5)) with 252. change (64 ^ 5) with 1073741824. set (x := n / 1073741824). assert (0 <= x < 2) by (unfold x; lia). clearbody x.
    rewrite utfBytes_ok by (unfold byteP; lia). cases.
  - change (Z.of_nat 6) with 6. change (256 - 2 ^ (7 - 6)) with 254. change (64 ^ 6) with 68719476736. set (x := n / 68719476736). assert (x = 0) by (unfold x; lia). clearbody x. subst x. reflexivity.
Qed.
(** What is read from a number: itself up to 16 bits, then 2^22 more, then 0. *)
Lemma val_ok n more : 0 <= n < 2 ^ 36 -> utfVal (coded n ++ more) = if n <? 2 ^ 16 then n else if n <? 2 ^ 21 then n + 2 ^ 22 else 0.
Proof.
  intros H. unfold utfVal. rewrite bytes_ok, coded_len by exact H. unfold coded, following.
  destruct (Z.ltb_spec n (2 ^ 7)); [|destruct (Z.ltb_spec n (2 ^ 11)); [|destruct (Z.ltb_spec n (2 ^ 16)); [|destruct (Z.ltb_spec n (2 ^ 21)); [|destruct (Z.ltb_spec n (2 ^ 26)); [|destruct (Z.ltb_spec n (2 ^ 31))]]]]]; cbv zeta; cbn [sixes app].
  - change (1 + Z.of_nat 0) with 1. cbn [Z.eqb Pos.eqb]. destruct (Z.ltb_spec n (2 ^ 16)); [apply nthz_0|lia].
  - change (1 + Z.of_nat 1) with 2. cbn [Z.eqb Pos.eqb]. destruct (Z.ltb_spec n (2 ^ 16)); [|lia].
    at_. change (Z.of_nat 0) with 0. change (Z.of_nat 1) with 1. change (Z.of_nat 2) with 2. change (Z.of_nat 3) with 3. rewrite land_31, land_63. rewrite (lor_shl_add' _ _ 6 64) by lia.
    change (256 - 2 ^ (7 - 1)) with 192. change (64 ^ 1) with 64. change (64 ^ 0) with 1. rewrite Z.div_1_r. lia.
  - change (1 + Z.of_nat 2) with 3. cbn [Z.eqb Pos.eqb]. at_. change (Z.of_nat 0) with 0. change (Z.of_nat 1) with 1. change (Z.of_nat 2) with 2. change (Z.of_nat 3) with 3. rewrite land_31, !land_63. rewrite !(lor_shl_add' _ _ 6 64) by lia.
    change (256 - 2 ^ (7 - 2)) with 224. change (64 ^ 2) with 4096. change (64 ^ 1) with 64. change (64 ^ 0) with 1. rewrite Z.div_1_r. lia.
  - change (1 + Z.of_nat 3) with 4. cbn [Z.eqb Pos.eqb]. at_. change (Z.of_nat 0) with 0. change (Z.of_nat 1) with 1. change (Z.of_nat 2) with 2. change (Z.of_nat 3) with 3. rewrite land_31, !land_63. rewrite !(lor_shl_add' _ _ 6 64) by lia.
    change (256 - 2 ^ (7 - 3)) with 240. change (64 ^ 3) with 262144. change (64 ^ 2) with 4096. change (64 ^ 1) with 64. change (64 ^ 0) with 1. rewrite Z.div_1_r. lia.
  - change (1 + Z.of_nat 4) with 5. cbn [Z.eqb Pos.eqb]. reflexivity.
  - change (1 + Z.of_nat 5) with 6. cbn [Z.eqb Pos.eqb]. reflexivity.
  - change (1 + Z.of_nat 6) with 7. cbn [Z.eqb Pos.eqb]. reflexivity.
Qed.

(** Stream information *)
Lemma hi_nibble b : byteP b -> (b .& 0xF0) >> 4 = b / 16.
Proof. intros H. apply Z.eqb_eq. revert b H. apply (byte_sweep (fun b => (b .& 0xF0) >> 4 =? b / 16)). vm_compute. reflexivity. Qed.
Lemma mid_bits b : byteP b -> (b .& 0x0E) >> 1 = b / 2 mod 8.
Proof. intros H. apply Z.eqb_eq. revert b H. apply (byte_sweep (fun b => (b .& 0x0E) >> 1 =? b / 2 mod 8)). vm_compute. reflexivity. Qed.
Lemma be8 v : be 8 v = [v / 2 ^ 56 mod 256; v / 2 ^ 48 mod 256; v / 2 ^ 40 mod 256; v / 2 ^ 32 mod 256; v / 2 ^ 24 mod 256; v / 2 ^ 16 mod 256; v / 2 ^ 8 mod 256; v mod 256].
Proof. cbn [be]. change (256 ^ Z.of_nat 0) with 1. rewrite Z.div_1_r. reflexivity. Qed.
Lemma be3 v : be 3 v = [v / 65536 mod 256; v / 256 mod 256; v mod 256].
Proof. cbn [be]. change (256 ^ Z.of_nat 0) with 1. rewrite Z.div_1_r. reflexivity. Qed.
Lemma be2 v : be 2 v = [v / 256 mod 256; v mod 256].
Proof. cbn [be]. change (256 ^ Z.of_nat 0) with 1. rewrite Z.div_1_r. reflexivity. Qed.
Lemma btohs_be v more : 0 <= v < 2 ^ 16 -> btohs (be 2 v ++ more) = v.
Proof.
  intros H. rewrite be2. unfold btohs. cbn [app]. change (nthz (?a :: _) 0) with a. change (nthz (_ :: ?a :: _) 1) with a.
  rewrite (lor_shl_add' _ _ 8 256) by lia. rewrite u16_id; lia.
Qed.
Lemma btoh24_be v more : 0 <= v < 2 ^ 24 -> btoh24 (be 3 v ++ more) = v.
Proof.
  intros H. rewrite be3. unfold btoh24. cbn [app]. change (nthz (?a :: _) 0) with a. change (nthz (_ :: ?a :: _) 1) with a. change (nthz (_ :: _ :: ?a :: _) 2) with a.
  assert (E : ((v / 65536 mod 256) << 16) .| ((v / 256 mod 256) << 8) = (v / 256 mod 65536) * 2 ^ 8).
  { rewrite (shl_mul (v / 256 mod 256)) by lia. rewrite (lor_shl_add' _ _ 16 65536) by (try reflexivity; try lia; change (2 ^ 8) with 256; lia). change (2 ^ 8) with 256. lia. }
  rewrite E. rewrite lor_add by (try lia; change (2 ^ 8) with 256; lia). change (2 ^ 8) with 256. lia.
Qed.
(** The 64 bits of rate, channels, bits and samples, as bytes. *)
Lemma packed R C B S : 0 <= R < 2 ^ 20 -> 0 <= C < 8 -> 0 <= B < 32 -> 0 <= S < 2 ^ 36 ->
  be 8 (((R * 2 ^ 3 + C) * 2 ^ 5 + B) * 2 ^ 36 + S) = [R / 4096; R / 16 mod 256; R mod 16 * 16 + C * 2 + B / 16; B mod 16 * 16 + S / 2 ^ 32; S / 2 ^ 24 mod 256; S / 2 ^ 16 mod 256; S / 2 ^ 8 mod 256; S mod 256].
Proof.
  intros HR HC HB HS. rewrite be8. set (v := ((R * 2 ^ 3 + C) * 2 ^ 5 + B) * 2 ^ 36 + S).
  assert (E5 : v / 2 ^ 32 = ((R * 8 + C) * 32 + B) * 16 + S / 2 ^ 32) by (unfold v; replace (((R * 2 ^ 3 + C) * 2 ^ 5 + B) * 2 ^ 36 + S) with (S + (((R * 8 + C) * 32 + B) * 16) * 2 ^ 32) by lia; rewrite Z.div_add by lia; lia).
  assert (S32 : 0 <= S / 2 ^ 32 < 16) by (split; [apply Z.div_pos; lia|apply Z.div_lt_upper_bound; lia]).
  assert (Q : forall a, v / 2 ^ (32 + a) = v / 2 ^ 32 / 2 ^ a \/ a < 0) by (intros a; destruct (Z_lt_dec a 0); [right; assumption|left; rewrite Z.pow_add_r, Z.div_div by lia; reflexivity]).
  destruct (Q 24) as [E8|]; [|lia]. destruct (Q 16) as [E7|]; [|lia]. destruct (Q 8) as [E6|]; [|lia]. change (32 + 24) with 56 in E8. change (32 + 16) with 48 in E7. change (32 + 8) with 40 in E6.
  rewrite E8, E7, E6, E5. set (s := S / 2 ^ 32) in *. 
  assert (Lo : forall k, 0 <= k <= 24 -> v / 2 ^ k mod 256 = S / 2 ^ k mod 256).
  { intros k Hk. unfold v. replace (((R * 2 ^ 3 + C) * 2 ^ 5 + B) * 2 ^ 36 + S) with (S + (((R * 8 + C) * 32 + B) * 2 ^ (28 - k) * 256) * 2 ^ k).
    - rewrite Z.div_add by lia. apply Z.mod_add. lia.
    - assert (2 ^ 36 = 2 ^ (28 - k) * 256 * 2 ^ k) as -> by (change 256 with (2 ^ 8); rewrite <- !Z.pow_add_r by lia; f_equal; lia). lia. }
  pose proof (Lo 24 ltac:(lia)) as L24. pose proof (Lo 16 ltac:(lia)) as L16. pose proof (Lo 8 ltac:(lia)) as L8. pose proof (Lo 0 ltac:(lia)) as L0. change (2 ^ 0) with 1 in L0. rewrite !Z.div_1_r in L0.
  rewrite L24, L16, L8, L0. clear - HR HC HB S32. clearbody s. change (2 ^ 24) with 16777216. change (2 ^ 16) with 65536. change (2 ^ 8) with 256.
  do 4 (apply (f_equal2 (@cons Z)); [lia|]). reflexivity.
Qed.
