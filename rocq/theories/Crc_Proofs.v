From Verif Require Import Common CommonFacts CommonMore Crc_Tables Crc_Model Crc_Spec.
Import List.

(** ** Linearity *)
Lemma lxor_4 a b c d : Z.lxor (Z.lxor a b) (Z.lxor c d) = Z.lxor (Z.lxor a c) (Z.lxor b d).
Proof. apply Z.bits_inj'. intros n _. rewrite !Z.lxor_spec. now destruct (Z.testbit a n), (Z.testbit b n), (Z.testbit c n), (Z.testbit d n). Qed.
Lemma mod_lxor w a b : 0 <= w -> (Z.lxor a b) mod 2 ^ w = Z.lxor (a mod 2 ^ w) (b mod 2 ^ w).
Proof.
  intros H. rewrite <- !Z.land_ones by exact H. apply Z.bits_inj'. intros n _. rewrite !Z.lxor_spec, !Z.land_spec, Z.lxor_spec.
  now destruct (Z.testbit a n), (Z.testbit b n), (Z.testbit (Z.ones w) n).
Qed.
Lemma dbl_lxor a b : 2 * Z.lxor a b = Z.lxor (2 * a) (2 * b).
Proof. rewrite !(Z.mul_comm 2). change 2 with (2 ^ 1). rewrite <- !Z.shiftl_mul_pow2 by lia. apply Z.shiftl_lxor. Qed.
Lemma if_lxor (P : Z) x y : (if xorb x y then P else 0) = Z.lxor (if x then P else 0) (if y then P else 0).
Proof. destruct x, y; cbn [xorb]; now rewrite ?Z.lxor_nilpotent, ?Z.lxor_0_r, ?Z.lxor_0_l. Qed.
Lemma msb_step_lin w P a b x y : 0 <= w -> msb_step w P (Z.lxor a b) (xorb x y) = Z.lxor (msb_step w P a x) (msb_step w P b y).
Proof.
  intros Hw. unfold msb_step. rewrite dbl_lxor, mod_lxor by exact Hw. rewrite lxor_4. f_equal. rewrite <- if_lxor. rewrite Z.lxor_spec.
  now destruct (Z.testbit a (w - 1)), (Z.testbit b (w - 1)), x, y.
Qed.
Lemma odd_lxor a b : Z.odd (Z.lxor a b) = xorb (Z.odd a) (Z.odd b).
Proof. rewrite <- !Z.bit0_odd. apply Z.lxor_spec. Qed.
Lemma lsb_step_lin P a b x y : lsb_step P (Z.lxor a b) (xorb x y) = Z.lxor (lsb_step P a x) (lsb_step P b y).
Proof.
  unfold lsb_step. rewrite lxor_4. f_equal.
  - rewrite !Z.div2_div || idtac. change 2 with (2 ^ 1). rewrite <- !Z.shiftr_div_pow2 by lia. apply Z.shiftr_lxor.
  - rewrite <- if_lxor, odd_lxor. now destruct (Z.odd a), (Z.odd b), x, y.
Qed.
Definition xors (a b : list bool) : list bool := map (fun p => xorb (fst p) (snd p)) (combine a b).
Lemma fold_lin (st : Z -> bool -> Z) : (forall a b x y, st (Z.lxor a b) (xorb x y) = Z.lxor (st a x) (st b y)) ->
  forall l m a b, List.length l = List.length m -> fold_left st (xors l m) (Z.lxor a b) = Z.lxor (fold_left st l a) (fold_left st m b).
Proof.
  intros H l. induction l as [|x l IH]; intros [|y m] a b L; try discriminate; [reflexivity|].
  unfold xors. cbn [combine map fold_left fst snd]. rewrite H. apply IH. now injection L.
Qed.
Lemma xors_zero l : xors l (repeat false (List.length l)) = l.
Proof. induction l as [|x l IH]; [reflexivity|]. unfold xors in *. cbn [repeat List.length combine map fst snd]. rewrite IH. now rewrite xorb_false_r. Qed.

(** ** Zero bits *)
Lemma msb_zeros w P k r : 0 <= w -> 0 <= r -> r * 2 ^ Z.of_nat k < 2 ^ w -> fold_left (msb_step w P) (repeat false k) r = r * 2 ^ Z.of_nat k.
Proof.
  intros Hw. revert r. induction k as [|k IH]; intros r Hr Hl; [cbn; lia|]. cbn [repeat fold_left].
  rewrite Nat2Z.inj_succ, Z.pow_succ_r in * by lia. pose proof (Z.pow_pos_nonneg 2 (Z.of_nat k) ltac:(lia) ltac:(lia)).
  assert (Hs : 2 * r < 2 ^ w) by nia.
  assert (E : msb_step w P r false = 2 * r).
  { unfold msb_step. rewrite xorb_false_r. rewrite Z.mod_small by lia.
    destruct (Z.eq_dec w 0) as [->|]; [cbn in Hs; assert (r = 0) as -> by lia; reflexivity|].
    destruct (Z.eq_dec r 0) as [->|]; [rewrite Z.bits_0; reflexivity|].
    rewrite Z.bits_above_log2; [apply Z.lxor_0_r|exact Hr|].
    apply Z.log2_lt_pow2; [lia|]. assert (W : 2 ^ w = 2 * 2 ^ (w - 1)) by (rewrite <- Z.pow_succ_r by lia; f_equal; lia). lia. }
  rewrite E. rewrite IH by nia. lia.
Qed.
Lemma lsb_zeros P k r : 0 <= r -> fold_left (lsb_step P) (repeat false k) (r * 2 ^ Z.of_nat k) = r.
Proof.
  intros Hr. induction k as [|k IH]; [cbn; lia|]. cbn [repeat fold_left].
  rewrite Nat2Z.inj_succ, Z.pow_succ_r by lia.
  assert (E : lsb_step P (r * (2 * 2 ^ Z.of_nat k)) false = r * 2 ^ Z.of_nat k).
  { unfold lsb_step. rewrite xorb_false_r. replace (r * (2 * 2 ^ Z.of_nat k)) with (2 * (r * 2 ^ Z.of_nat k)) by lia.
    rewrite Z.odd_mul. cbn [Z.odd andb]. rewrite Z.lxor_0_r. rewrite Z.mul_comm, Z.div_mul by lia. reflexivity. }
  now rewrite E.
Qed.

(** ** One byte *)
Lemma split_lxor a b k : 0 <= k -> 0 <= b < 2 ^ k -> a * 2 ^ k + b = Z.lxor (a * 2 ^ k) b.
Proof.
  intros Hk Hb. rewrite Z.add_nocarry_lxor; [reflexivity|]. apply Z.bits_inj'. intros n Hn. rewrite Z.land_spec, Z.bits_0.
  destruct (Z_lt_ge_dec n k) as [H|H].
  - rewrite Z.mul_pow2_bits_low by lia. reflexivity.
  - rewrite (Z.mod_pow2_bits_high b k n) || idtac. rewrite <- (Z.mod_small b (2 ^ k)) by lia. rewrite Z.mod_pow2_bits_high by lia. apply andb_false_r.
Qed.
Lemma msb_byte w P reg d : 8 <= w -> 0 <= reg < 2 ^ w ->
  fold_left (msb_step w P) (bits_msb d) reg =
  Z.lxor (fold_left (msb_step w P) (bits_msb d) (reg / 2 ^ (w - 8) * 2 ^ (w - 8))) (256 * (reg mod 2 ^ (w - 8))).
Proof.
  intros Hw Hr. pose proof (Z.pow_pos_nonneg 2 (w - 8) ltac:(lia) ltac:(lia)) as Hp.
  pose proof (Z.mod_pos_bound reg (2 ^ (w - 8)) Hp) as Hm.
  assert (E : reg = Z.lxor (reg / 2 ^ (w - 8) * 2 ^ (w - 8)) (reg mod 2 ^ (w - 8))).
  { rewrite <- split_lxor by lia. rewrite Z.mul_comm. apply Z.div_mod. lia. }
  rewrite E at 1. rewrite <- (xors_zero (bits_msb d)) at 1. rewrite (fold_lin _ (fun a b x y => msb_step_lin w P a b x y ltac:(lia))) by (now rewrite repeat_length).
  f_equal. change (List.length (bits_msb d)) with 8%nat. rewrite msb_zeros; [change (2 ^ Z.of_nat 8) with 256; lia|lia|lia|].
  change (Z.of_nat 8) with 8. replace w with ((w - 8) + 8) at 2 by lia. rewrite Z.pow_add_r by lia. nia.
Qed.
Lemma lsb_byte P reg d : 0 <= reg ->
  fold_left (lsb_step P) (bits_lsb d) reg = Z.lxor (fold_left (lsb_step P) (bits_lsb d) (reg mod 256)) (reg / 256).
Proof.
  intros Hr. assert (E : reg = Z.lxor (reg mod 256) (reg / 256 * 2 ^ 8)).
  { rewrite Z.lxor_comm, <- split_lxor by (change (2 ^ 8) with 256; lia). change (2 ^ 8) with 256. lia. }
  rewrite E at 1. rewrite <- (xors_zero (bits_lsb d)) at 1. rewrite (fold_lin _ (lsb_step_lin P)) by (now rewrite repeat_length).
  f_equal. change (List.length (bits_lsb d)) with 8%nat. apply (lsb_zeros P 8). lia.
Qed.
Lemma lxor_range a b n : 0 <= n -> 0 <= a < 2 ^ n -> 0 <= b < 2 ^ n -> 0 <= Z.lxor a b < 2 ^ n.
Proof.
  intros Hn Ha Hb. rewrite <- (Z.mod_small a (2 ^ n)), <- (Z.mod_small b (2 ^ n)) by lia. rewrite <- mod_lxor by lia. apply Z.mod_pos_bound. lia.
Qed.
Lemma msb_range w P r l : 0 <= w -> 0 <= P < 2 ^ w -> 0 <= r < 2 ^ w -> 0 <= fold_left (msb_step w P) l r < 2 ^ w.
Proof.
  intros Hw HP. revert r. induction l as [|b l IH]; intros r Hr; [exact Hr|]. cbn [fold_left]. apply IH. unfold msb_step.
  apply lxor_range; [lia|apply Z.mod_pos_bound; lia|]. destruct (xorb _ _); lia.
Qed.
Lemma lsb_range P r l : 0 <= P < 2 ^ 32 -> 0 <= r < 2 ^ 32 -> 0 <= fold_left (lsb_step P) l r < 2 ^ 32.
Proof.
  intros HP. revert r. induction l as [|b l IH]; intros r Hr; [exact Hr|]. cbn [fold_left]. apply IH. unfold lsb_step.
  apply lxor_range; [lia|lia|]. destruct (xorb _ _); lia.
Qed.

(** ** The tables *)
Lemma lxor_byte' d a : byteP d -> byteP a -> byteP (Z.lxor d a).
Proof. intros Hd Ha. exact (lxor_range d a 8 ltac:(lia) Hd Ha). Qed.
Lemma xors_zero' l : xors (repeat false (List.length l)) l = l.
Proof. induction l as [|x l IH]; [reflexivity|]. unfold xors in *. cbn [repeat List.length combine map fst snd]. rewrite IH. now destruct x. Qed.
(** A byte fed into a register is a byte added to it: two sweeps over single bytes suffice. *)
Lemma table_gen (st : Z -> bool -> Z) (bits : Z -> list bool) (m : Z) (T : list Z) :
  (forall a b x y, st (Z.lxor a b) (xorb x y) = Z.lxor (st a x) (st b y)) ->
  (forall d, List.length (bits d) = 8%nat) -> (forall x y, Z.lxor x y * m = Z.lxor (x * m) (y * m)) ->
  forallb (fun x => fold_left st (repeat false 8) (x * m) =? nthz T x) all_bytes = true ->
  forallb (fun d => fold_left st (bits d) (d * m) =? 0) all_bytes = true ->
  forall a d, byteP a -> byteP d -> fold_left st (bits d) (a * m) = nthz T (Z.lxor d a).
Proof.
  intros Hl Hb Hm S1 S2 a d Ha Hd.
  assert (E : a * m = Z.lxor (Z.lxor d a * m) (d * m)).
  { rewrite <- Hm. f_equal. rewrite (Z.lxor_comm d a), Z.lxor_assoc, Z.lxor_nilpotent, Z.lxor_0_r. reflexivity. }
  rewrite E, <- (xors_zero' (bits d)), Hb. rewrite (fold_lin st Hl) by (rewrite repeat_length; symmetry; apply Hb).
  pose proof (byte_sweep _ S1 _ (lxor_byte' d a Hd Ha)) as F1. pose proof (byte_sweep _ S2 d Hd) as F2. cbv beta in F1, F2.
  apply Z.eqb_eq in F1, F2. rewrite F1, F2. apply Z.lxor_0_r.
Qed.
Lemma mul_pow_lxor k x y : 0 <= k -> Z.lxor x y * 2 ^ k = Z.lxor (x * 2 ^ k) (y * 2 ^ k).
Proof. intros H. rewrite <- !Z.shiftl_mul_pow2 by assumption. apply Z.shiftl_lxor. Qed.
Lemma table_32c a d : byteP a -> byteP d -> fold_left (msb_step 32 0x04C11DB7) (bits_msb d) (a * 2 ^ 24) = nthz crc32c_table (Z.lxor d a).
Proof.
  apply (table_gen (msb_step 32 0x04C11DB7) bits_msb (2 ^ 24) crc32c_table); [|reflexivity| | |].
  - intros. apply msb_step_lin. lia.
  - intros. apply mul_pow_lxor. lia.
  - vm_compute. reflexivity.
  - vm_compute. reflexivity.
Qed.
Lemma table_32LE a d : byteP a -> byteP d -> fold_left (lsb_step 0xEDB88320) (bits_lsb d) a = nthz crc32LE_table (Z.lxor d a).
Proof.
  rewrite <- (Z.mul_1_r a) at 2. apply (table_gen (lsb_step 0xEDB88320) bits_lsb 1 crc32LE_table); [|reflexivity| | |].
  - apply lsb_step_lin.
  - intros. now rewrite !Z.mul_1_r.
  - vm_compute. reflexivity.
  - vm_compute. reflexivity.
Qed.
Lemma table_16 a d : byteP a -> byteP d -> fold_left (msb_step 16 0x8005) (bits_msb d) (a * 2 ^ 8) = nthz crc16_table (Z.lxor a d).
Proof.
  rewrite (Z.lxor_comm a d). apply (table_gen (msb_step 16 0x8005) bits_msb (2 ^ 8) crc16_table); [|reflexivity| | |].
  - intros. apply msb_step_lin. lia.
  - intros. apply mul_pow_lxor. lia.
  - vm_compute. reflexivity.
  - vm_compute. reflexivity.
Qed.
Lemma table_8 a d : byteP a -> byteP d -> fold_left (msb_step 8 0x07) (bits_msb d) a = nthz crc8_table (Z.lxor d a).
Proof.
  rewrite <- (Z.mul_1_r a) at 2. apply (table_gen (msb_step 8 0x07) bits_msb 1 crc8_table); [|reflexivity| | |].
  - intros. apply msb_step_lin. lia.
  - intros. now rewrite !Z.mul_1_r.
  - vm_compute. reflexivity.
  - vm_compute. reflexivity.
Qed.
Lemma table_swap a : byteP a -> nthz crc32_table a = swap32 (nthz crc32c_table a).
Proof.
  intros Ha. apply Z.eqb_eq. exact (byte_sweep (fun a => nthz crc32_table a =? swap32 (nthz crc32c_table a)) ltac:(vm_compute; reflexivity) a Ha).
Qed.
Lemma lxor_byte a b : byteP a -> byteP b -> byteP (Z.lxor a b).
Proof. intros Ha Hb. apply (lxor_range a b 8); [lia|exact Ha|exact Hb]. Qed.

Lemma crc32c_ok data : forall reg, bytesP data -> 0 <= reg < 2 ^ 32 -> crc32c reg data = crc_msb 32 0x04C11DB7 reg data.
Proof.
  induction data as [|d l IH]; intros reg Hb Hr; [reflexivity|]. apply bytesP_cons in Hb. destruct Hb as [Hd Hl].
  unfold crc_msb, crc32c. cbn [flat_map fold_left]. rewrite fold_left_app.
  assert (E : Z.lxor (nthz crc32c_table (Z.lxor d ((reg >> 24) .& 255))) (u32 (reg << 8)) = fold_left (msb_step 32 0x04C11DB7) (bits_msb d) reg).
  { rewrite msb_byte by lia. change (2 ^ (32 - 8)) with (2 ^ 24). rewrite shr_div, land_255 by lia. rewrite shl_mul by lia.
    rewrite table_32c; [|unfold byteP; lia|exact Hd]. change (2 ^ 24) with 16777216. rewrite (Z.mod_small (reg / 16777216)) by lia. f_equal. unfold u32. lia. }
  rewrite E. apply IH; [exact Hl|]. apply msb_range; lia.
Qed.
Lemma crc32LE_ok data : forall reg, bytesP data -> 0 <= reg < 2 ^ 32 -> crc32LE reg data = crc_lsb 0xEDB88320 reg data.
Proof.
  induction data as [|d l IH]; intros reg Hb Hr; [reflexivity|]. apply bytesP_cons in Hb. destruct Hb as [Hd Hl].
  unfold crc_lsb, crc32LE. cbn [flat_map fold_left]. rewrite fold_left_app.
  assert (E : Z.lxor (nthz crc32LE_table (Z.lxor d reg .& 255)) (reg >> 8) = fold_left (lsb_step 0xEDB88320) (bits_lsb d) reg).
  { rewrite lsb_byte by lia. rewrite shr_div, land_255 by lia. change (2 ^ 8) with 256. f_equal.
    rewrite table_32LE; [|unfold byteP; lia|exact Hd]. f_equal. change 256 with (2 ^ 8). rewrite mod_lxor by lia. f_equal. apply Z.mod_small. exact Hd. }
  rewrite E. apply IH; [exact Hl|]. apply lsb_range; lia.
Qed.
Lemma crc16_ok data : forall crc, bytesP data -> 0 <= crc < 2 ^ 32 -> u16 (crc16 crc data) = crc_msb 16 0x8005 (u16 crc) data.
Proof.
  induction data as [|d l IH]; intros crc Hb Hr; [reflexivity|]. apply bytesP_cons in Hb. destruct Hb as [Hd Hl].
  unfold crc_msb, crc16. cbn [flat_map fold_left]. rewrite fold_left_app. set (c' := Z.lxor _ _).
  pose proof (bytesP_nthz crc16_table) as _.
  assert (T : forall i, byteP i -> 0 <= nthz crc16_table i < 65536).
  { intros i Hi. pose proof (byte_sweep (fun i => (0 <=? nthz crc16_table i) && (nthz crc16_table i <? 65536)) ltac:(vm_compute; reflexivity) i Hi). cbv beta in *. lia. }
  assert (Hi : byteP (Z.lxor (crc >> 8) d .& 255)) by (rewrite land_255; apply byteP_mod).
  assert (E : u16 c' = fold_left (msb_step 16 0x8005) (bits_msb d) (u16 crc)).
  { rewrite msb_byte; [|lia|apply u16_range]. change (2 ^ (16 - 8)) with 256. unfold c'. unfold u16 at 1. change 65536 with (2 ^ 16) at 1. rewrite mod_lxor by lia.
    rewrite Z.lxor_comm. change (2 ^ 16) with 65536. f_equal.
    - rewrite Z.mod_small by (apply T; exact Hi). change 256 with (2 ^ 8) at 2. rewrite table_16; [|unfold byteP, u16; lia|exact Hd].
      f_equal. rewrite shr_div, land_255 by lia. change 256 with (2 ^ 8). rewrite mod_lxor by lia. rewrite (Z.mod_small d) by exact Hd. f_equal. change (2 ^ 8) with 256. unfold u16. lia.
    - rewrite shl_mul by lia. unfold u32, u16. change (2 ^ 8) with 256. lia. }
  rewrite <- E. apply IH; [exact Hl|]. unfold c'. apply lxor_range; [lia|apply u32_range|]. pose proof (T _ Hi). lia.
Qed.
Lemma crc8_ok data : forall crc, bytesP data -> u8 (crc8 crc data) = crc_msb 8 0x07 (u8 crc) data.
Proof.
  induction data as [|d l IH]; intros crc Hb; [reflexivity|]. apply bytesP_cons in Hb. destruct Hb as [Hd Hl].
  unfold crc_msb, crc8. cbn [flat_map fold_left]. rewrite fold_left_app. set (c' := Z.lxor _ _).
  assert (Z0 : (u32 (crc << 8) .& 255) = 0).
  { rewrite land_255, shl_mul by lia. unfold u32. change (2 ^ 8) with 256. lia. }
  assert (E : u8 c' = fold_left (msb_step 8 0x07) (bits_msb d) (u8 crc)).
  { unfold c'. rewrite Z0, Z.lxor_0_r. rewrite table_8; [|apply u8_byte|exact Hd]. apply u8_id.
    pose proof (byte_sweep (fun i => (0 <=? nthz crc8_table i) && (nthz crc8_table i <? 256)) ltac:(vm_compute; reflexivity) _ (lxor_byte d (u8 crc) Hd (u8_byte crc))).
    cbv beta in *. unfold byteP. lia. }
  rewrite <- E. apply IH. exact Hl.
Qed.
Lemma crc8_range data : forall crc, bytesP data -> byteP crc -> byteP (crc8 crc data).
Proof.
  induction data as [|d l IH]; intros crc Hb Hc; [exact Hc|]. apply bytesP_cons in Hb. destruct Hb as [Hd Hl].
  unfold crc8. cbn [fold_left]. apply IH; [exact Hl|].
  assert (Z0 : (u32 (crc << 8) .& 255) = 0). { rewrite land_255, shl_mul by lia. unfold u32. change (2 ^ 8) with 256. lia. }
  rewrite Z0, Z.lxor_0_r. rewrite u8_id by exact Hc.
  pose proof (byte_sweep (fun i => (0 <=? nthz crc8_table i) && (nthz crc8_table i <? 256)) ltac:(vm_compute; reflexivity) _ (lxor_byte d crc Hd Hc)).
  cbv beta in *. unfold byteP. lia.
Qed.

(** ** Swapped registers *)
Lemma lxor_cat a b c d k : 0 <= k -> 0 <= b < 2 ^ k -> 0 <= d < 2 ^ k -> Z.lxor (a * 2 ^ k + b) (c * 2 ^ k + d) = Z.lxor a c * 2 ^ k + Z.lxor b d.
Proof.
  intros Hk Hb Hd. rewrite !split_lxor by (try lia; apply lxor_range; lia). rewrite lxor_4. f_equal.
  rewrite <- !Z.shiftl_mul_pow2 by lia. symmetry. apply Z.shiftl_lxor.
Qed.
Lemma swap32_eq x : swap32 x = ((x mod 256 * 2 ^ 8 + (x / 256) mod 256) * 2 ^ 8 + (x / 65536) mod 256) * 2 ^ 8 + (x / 16777216) mod 256.
Proof.
  unfold swap32, unle, unbe. cbn [be rev app unbe_acc].
  change (256 ^ Z.of_nat 3) with 16777216. change (256 ^ Z.of_nat 2) with 65536. change (256 ^ Z.of_nat 1) with 256. change (256 ^ Z.of_nat 0) with 1.
  change (2 ^ 8) with 256. lia.
Qed.
Lemma div_lxor a b k : 0 <= k -> Z.lxor a b / 2 ^ k = Z.lxor (a / 2 ^ k) (b / 2 ^ k).
Proof. intros H. rewrite <- !Z.shiftr_div_pow2 by lia. apply Z.shiftr_lxor. Qed.
Lemma swap32_lin a b : swap32 (Z.lxor a b) = Z.lxor (swap32 a) (swap32 b).
Proof.
  rewrite !swap32_eq. rewrite !lxor_cat by (change (2 ^ 8) with 256; lia).
  change 16777216 with (2 ^ 24). change 65536 with (2 ^ 16). change 256 with (2 ^ 8).
  rewrite !div_lxor, !mod_lxor by lia. reflexivity.
Qed.
Lemma crc32_ok data : forall crc, bytesP data -> 0 <= crc < 2 ^ 32 -> crc32 (swap32 crc) data = swap32 (crc32c crc data).
Proof.
  induction data as [|d l IH]; intros crc Hb Hr; [reflexivity|]. apply bytesP_cons in Hb. destruct Hb as [Hd Hl].
  unfold crc32, crc32c. cbn [fold_left]. set (c' := Z.lxor (nthz crc32c_table _) _).
  assert (E : Z.lxor (nthz crc32_table (Z.lxor (u8 (swap32 crc)) d)) (swap32 crc >> 8) = swap32 c').
  { unfold c'. rewrite swap32_lin. rewrite shr_div, shr_div, shl_mul, land_255 by lia. f_equal.
    - rewrite <- table_swap by (apply lxor_byte; [exact Hd|unfold byteP; lia]). f_equal. rewrite Z.lxor_comm. f_equal. rewrite swap32_eq. unfold u8. change (2 ^ 8) with 256. change (2 ^ 24) with 16777216. lia.
    - rewrite !swap32_eq. unfold u32. change (2 ^ 8) with 256. lia. }
  rewrite E. apply IH; [exact Hl|].
  assert (T : forall i, byteP i -> 0 <= nthz crc32c_table i < 2 ^ 32).
  { intros i Hi. pose proof (byte_sweep (fun i => (0 <=? nthz crc32c_table i) && (nthz crc32c_table i <? 2 ^ 32)) ltac:(vm_compute; reflexivity) i Hi). cbv beta in *. lia. }
  apply lxor_range; [lia| |apply u32_range]. apply T. apply lxor_byte; [exact Hd|]. rewrite land_255. apply byteP_mod.
Qed.
Lemma swap32_invol x : 0 <= x < 2 ^ 32 -> swap32 (swap32 x) = x.
Proof.
  intros H. unfold swap32 at 1. unfold unle, swap32, unle. 
  assert (E : be 4 (unbe (rev (be 4 x))) = rev (be 4 x)).
  { replace 4%nat with (List.length (rev (be 4 x))) at 1 by (now rewrite rev_length, be_length). apply be_unbe. apply Forall_rev. apply be_bytes. }
  rewrite E, rev_involutive, unbe_be. apply Z.mod_small. exact H.
Qed.
Lemma swap32_range x : 0 <= swap32 x < 2 ^ 32.
Proof. rewrite swap32_eq. change (2 ^ 8) with 256. change (2 ^ 32) with 4294967296. lia. Qed.

(** ** Error detection *)
(** With a generator whose last coefficient is one the step can be undone. *)
Lemma msb_step_inj w P a b x : 0 < w -> Z.odd P = true -> 0 <= P < 2 ^ w -> 0 <= a < 2 ^ w -> 0 <= b < 2 ^ w ->
  msb_step w P a x = msb_step w P b x -> a = b.
Proof.
  intros Hw HP HPr Ha Hb E.
  assert (L : msb_step w P (Z.lxor a b) false = 0).
  { replace false with (xorb x x) by (destruct x; reflexivity). rewrite msb_step_lin by lia. rewrite E. apply Z.lxor_nilpotent. }
  set (c := Z.lxor a b) in *. assert (Hc : 0 <= c < 2 ^ w) by (apply lxor_range; lia).
  assert (c = 0). 2:{ apply Z.lxor_eq. assumption. }
  unfold msb_step in L. rewrite xorb_false_r in L.
  assert (W : 2 ^ w = 2 * 2 ^ (w - 1)) by (rewrite <- Z.pow_succ_r by lia; f_equal; lia).
  pose proof (Z.pow_pos_nonneg 2 (w - 1) ltac:(lia) ltac:(lia)).
  destruct (Z.testbit c (w - 1)) eqn:T.
  - exfalso. apply Z.lxor_eq in L. pose proof (f_equal Z.odd L) as O. rewrite HP in O. rewrite W, Z.mul_mod_distr_l in O by lia.
    rewrite Z.odd_mul in O. cbn in O. discriminate.
  - rewrite Z.lxor_0_r in L. assert (Hlow : c < 2 ^ (w - 1)).
    { destruct (Z_lt_ge_dec c (2 ^ (w - 1))) as [|G]; [assumption|]. exfalso. rewrite Z.testbit_odd, Z.shiftr_div_pow2 in T by lia.
      assert (D : c / 2 ^ (w - 1) = 1) by (symmetry; apply (Z.div_unique c (2 ^ (w - 1)) 1 (c - 2 ^ (w - 1))); lia). rewrite D in T. discriminate. }
    rewrite Z.mod_small in L by lia. lia.
Qed.
Lemma msb_fold_inj w P l : forall a b, 0 < w -> Z.odd P = true -> 0 <= P < 2 ^ w -> 0 <= a < 2 ^ w -> 0 <= b < 2 ^ w ->
  fold_left (msb_step w P) l a = fold_left (msb_step w P) l b -> a = b.
Proof.
  induction l as [|x l IH]; intros a b Hw HP HPr Ha Hb E; [exact E|]. cbn [fold_left] in E.
  apply (msb_step_inj w P a b x); try assumption. apply IH; try assumption; apply (msb_range w P _ [x]); lia.
Qed.
(** Feeding bits is feeding zeros after adding the bits to the top of the register. *)
Definition bval (l : list bool) : Z := fold_left (fun v (b : bool) => 2 * v + (if b then 1 else 0)) l 0.
Lemma bval_acc l : forall v, fold_left (fun v (b : bool) => 2 * v + (if b then 1 else 0)) l v = v * 2 ^ len l + bval l.
Proof.
  induction l as [|b l IH]; intros v; [cbn; lia|]. unfold bval. cbn [fold_left]. rewrite (IH (2 * v + _)), (IH (2 * 0 + _)).
  lens. rewrite Z.pow_add_r by (try lia; apply len_nonneg). change (2 ^ 1) with 2. lia.
Qed.
Lemma bval_cons b l : bval (b :: l) = (if b then 1 else 0) * 2 ^ len l + bval l.
Proof. unfold bval at 1. cbn [fold_left]. rewrite bval_acc. lia. Qed.
Lemma bval_range l : 0 <= bval l < 2 ^ len l.
Proof.
  induction l as [|b l IH]; [cbn; lia|]. rewrite bval_cons. lens. rewrite Z.pow_add_r by (try lia; apply len_nonneg). change (2 ^ 1) with 2. destruct b; lia.
Qed.
Lemma bval_inj a : forall b, List.length a = List.length b -> bval a = bval b -> a = b.
Proof.
  induction a as [|x a IH]; intros [|y b] L E; try discriminate; [reflexivity|]. injection L as L.
  assert (LL : len a = len b) by (unfold len; lia). rewrite !bval_cons, LL in E. pose proof (bval_range a). pose proof (bval_range b). rewrite LL in *.
  destruct x, y; try (f_equal; apply IH; [exact L|lia]); exfalso; lia.
Qed.
Lemma msb_feed w P l : 0 < w -> len l <= w -> fold_left (msb_step w P) l 0 = fold_left (msb_step w P) (repeat false (List.length l)) (bval l * 2 ^ (w - len l)).
Proof.
  intros Hw. remember (List.length l) as n eqn:En. revert l En. induction n as [|n IH]; intros l En Hl.
  - destruct l; [|discriminate]. reflexivity.
  - (* split off the last bit *)
    destruct (exists_last (l := l)) as [l0 [b ->]]; [destruct l; discriminate|].
    rewrite app_length in En. cbn in En. assert (En' : n = List.length l0) by lia. lens. rewrite Z.add_0_r in Hl.
    rewrite fold_left_app. cbn [fold_left]. rewrite (IH l0 En') by lia.
    replace (S n) with (n + 1)%nat by lia. rewrite repeat_app, fold_left_app. cbn [repeat fold_left].
    assert (BV : bval (l0 ++ [b]) = 2 * bval l0 + (if b then 1 else 0)) by (unfold bval; now rewrite fold_left_app).
    rewrite BV. lens. rewrite Z.add_0_r.
    set (h := 2 ^ (w - (len l0 + 1))). assert (Hh : 2 ^ (w - len l0) = 2 * h) by (unfold h; rewrite <- Z.pow_succ_r by lia; f_equal; lia).
    pose proof (bval_range l0) as BR. pose proof (len_nonneg l0) as LN.
    assert (hp : 0 < h) by (apply Z.pow_pos_nonneg; lia).
    rewrite Hh. replace ((2 * bval l0 + (if b then 1 else 0)) * h) with (bval l0 * (2 * h) + (if b then h else 0)) by (destruct b; lia).
    assert (X : bval l0 * (2 * h) + (if b then h else 0) = Z.lxor (bval l0 * (2 * h)) (if b then h else 0)).
    { rewrite <- Hh. apply split_lxor; [lia|]. rewrite Hh. destruct b; lia. }
    rewrite X. rewrite <- (xors_zero (repeat false n)) at 2. rewrite repeat_length.
    rewrite (fold_lin _ (fun a b x y => msb_step_lin w P a b x y ltac:(lia))) by reflexivity.
    set (r := fold_left _ (repeat false n) (bval l0 * (2 * h))).
    rewrite msb_zeros; [|lia|destruct b; lia|].
    2:{ assert (2 ^ w = 2 * h * 2 ^ len l0) by (rewrite <- Hh, <- Z.pow_add_r by lia; f_equal; lia). replace (Z.of_nat n) with (len l0) by (unfold len; lia).
        destruct b; nia. }
    assert (V : (if b then h else 0) * 2 ^ Z.of_nat n = if b then 2 ^ (w - 1) else 0).
    { destruct b; [|lia]. unfold h. replace (Z.of_nat n) with (len l0) by (unfold len; lia). rewrite <- Z.pow_add_r by lia. f_equal. lia. }
    rewrite V. unfold msb_step. rewrite xorb_false_r.
    destruct b.
    + rewrite dbl_lxor, mod_lxor by lia. replace (2 * 2 ^ (w - 1)) with (2 ^ w) by (rewrite <- Z.pow_succ_r by lia; f_equal; lia).
      rewrite Z.mod_same by (apply Z.pow_nonzero; lia). rewrite Z.lxor_0_r. rewrite Z.lxor_spec, Z.pow2_bits_true by lia. reflexivity.
    + rewrite Z.lxor_0_r, xorb_false_r. reflexivity.
Qed.
(** Two bit strings that differ only within [w] consecutive bits have different remainders. *)
Lemma burst_detected w P init a x y z : 0 < w -> Z.odd P = true -> 0 <= P < 2 ^ w -> 0 <= init < 2 ^ w ->
  List.length x = List.length y -> len x <= w -> x <> y ->
  fold_left (msb_step w P) (a ++ x ++ z) init <> fold_left (msb_step w P) (a ++ y ++ z) init.
Proof.
  intros Hw HP HPr Hi L Hl Hne E. rewrite !fold_left_app in E.
  assert (R : 0 <= fold_left (msb_step w P) a init < 2 ^ w) by (apply msb_range; lia). set (r := fold_left (msb_step w P) a init) in *.
  apply msb_fold_inj in E; try assumption; try (apply msb_range; lia).
  assert (X : forall l, fold_left (msb_step w P) l r = Z.lxor (fold_left (msb_step w P) l 0) (fold_left (msb_step w P) (repeat false (List.length l)) r)).
  { intros l. rewrite <- (xors_zero l) at 1. rewrite <- (Z.lxor_0_l r) at 1. apply (fold_lin _ (fun a b x y => msb_step_lin w P a b x y ltac:(lia))). now rewrite repeat_length. }
  rewrite (X x), (X y), L in E. assert (LL : len x = len y) by (unfold len; lia).
  assert (E0 : fold_left (msb_step w P) x 0 = fold_left (msb_step w P) y 0).
  { apply (f_equal (fun v => Z.lxor v (fold_left (msb_step w P) (repeat false (List.length y)) r))) in E. rewrite !Z.lxor_assoc, !Z.lxor_nilpotent, !Z.lxor_0_r in E. exact E. }
  rewrite !msb_feed in E0 by lia. rewrite L, LL in E0.
  pose proof (bval_range x) as Bx. pose proof (bval_range y) as By. rewrite LL in Bx.
  assert (W : 2 ^ w = 2 ^ (w - len y) * 2 ^ len y) by (rewrite <- Z.pow_add_r by (pose proof (len_nonneg y); lia); f_equal; lia).
  pose proof (Z.pow_pos_nonneg 2 (w - len y) ltac:(lia) ltac:(lia)).
  apply msb_fold_inj in E0; try assumption; try nia.
  apply Hne, bval_inj; [exact L|]. nia.
Qed.

(** ** A checksum behind its data *)
Lemma bval_app a b : bval (a ++ b) = bval a * 2 ^ len b + bval b.
Proof. unfold bval at 1. rewrite fold_left_app. fold (bval a). apply bval_acc. Qed.
Lemma bval_byte b : byteP b -> bval (bits_msb b) = b.
Proof. intros H. apply Z.eqb_eq. exact (byte_sweep (fun b => bval (bits_msb b) =? b) ltac:(vm_compute; reflexivity) b H). Qed.
Lemma bits_msb_len l : len (flat_map bits_msb l) = 8 * len l.
Proof. induction l as [|b l IH]; [reflexivity|]. cbn [flat_map]. rewrite len_app, IH. lens. change (len (bits_msb b)) with 8. lia. Qed.
Lemma bval_bytes l : bytesP l -> bval (flat_map bits_msb l) = unbe l.
Proof.
  induction l as [|b l IH]; intros H; [reflexivity|]. apply bytesP_cons in H. destruct H as [Hb Hl]. cbn [flat_map].
  rewrite bval_app, unbe_cons, IH, bval_byte, bits_msb_len by assumption. f_equal. f_equal. rewrite Z.pow_mul_r by (try lia; apply len_nonneg). reflexivity.
Qed.
Lemma msb_self_check w P r l : 0 < w -> len l = w -> bval l = r -> fold_left (msb_step w P) l r = 0.
Proof.
  intros Hw Hl Hv. rewrite <- (xors_zero l) at 1. rewrite <- (Z.lxor_0_l r) at 1.
  rewrite (fold_lin _ (fun a b x y => msb_step_lin w P a b x y ltac:(lia))) by (now rewrite repeat_length).
  rewrite msb_feed by lia. rewrite Hl, Hv, Z.sub_diag, Z.mul_1_r. apply Z.lxor_nilpotent.
Qed.
