(** Proofs about lib/auth.cpp: words, blocks, padding, then the three compression functions. *)
From Verif Require Import Common CommonFacts Hash_Model Hash_Spec.

(** ** Words *)
Definition word (w x : Z) : Prop := 0 <= x < 2 ^ w.

Lemma u32_mod x : u32 x = x mod 2 ^ 32. Proof. reflexivity. Qed.
Lemma u64_mod x : u64 x = x mod 2 ^ 64. Proof. reflexivity. Qed.

Lemma mod_lor w a b : 0 <= w -> (Z.lor a b) mod 2 ^ w = Z.lor (a mod 2 ^ w) (b mod 2 ^ w).
Proof. intros Hw. rewrite <- !Z.land_ones by lia. apply Z.land_lor_distr_l. Qed.
Lemma mod_lxor w a b : 0 <= w -> (Z.lxor a b) mod 2 ^ w = Z.lxor (a mod 2 ^ w) (b mod 2 ^ w).
Proof.
  intros Hw. apply Z.bits_inj'. intros n Hn. rewrite Z.lxor_spec.
  destruct (Z.lt_ge_cases n w).
  - rewrite !Z.mod_pow2_bits_low by lia. apply Z.lxor_spec.
  - rewrite !Z.mod_pow2_bits_high by lia. reflexivity.
Qed.
Lemma word_bit w x n : 0 <= w <= n -> word w x -> Z.testbit x n = false.
Proof. intros Hn Hx. rewrite <- (Z.mod_small x (2 ^ w)) by exact Hx. apply Z.mod_pow2_bits_high. lia. Qed.
Lemma word_bits w x : 0 <= w -> 0 <= x -> (forall n, w <= n -> Z.testbit x n = false) -> word w x.
Proof.
  intros Hw Hx Hb. unfold word. split; [exact Hx |].
  destruct (Z.eq_dec x 0) as [->|E]; [apply Z.pow_pos_nonneg; lia |].
  apply Z.log2_lt_pow2; [lia |].
  destruct (Z.lt_ge_cases (Z.log2 x) w) as [|G]; [assumption |].
  pose proof (Z.bit_log2 x ltac:(lia)) as B. rewrite (Hb _ G) in B. discriminate B.
Qed.
Lemma word_mod w x : 0 <= w -> word w (x mod 2 ^ w).
Proof. intros Hw. apply Z.mod_pos_bound. apply Z.pow_pos_nonneg; lia. Qed.
Lemma word_land w a b : 0 <= w -> word w a -> 0 <= b -> word w (Z.land a b).
Proof.
  intros Hw Ha Hb. apply word_bits; [lia | apply Z.land_nonneg; left; apply Ha |].
  intros n Hn. rewrite Z.land_spec, (word_bit w a n) by (assumption || lia). reflexivity.
Qed.
Lemma word_lor w a b : 0 <= w -> word w a -> word w b -> word w (Z.lor a b).
Proof.
  intros Hw Ha Hb. apply word_bits; [lia | apply Z.lor_nonneg; split; [apply Ha | apply Hb] |].
  intros n Hn. rewrite Z.lor_spec, (word_bit w a n), (word_bit w b n) by (assumption || lia). reflexivity.
Qed.
Lemma word_lxor w a b : 0 <= w -> word w a -> word w b -> word w (Z.lxor a b).
Proof.
  intros Hw Ha Hb. apply word_bits; [lia | apply Z.lxor_nonneg; split; intros; [apply Hb | apply Ha] |].
  intros n Hn. rewrite Z.lxor_spec, (word_bit w a n), (word_bit w b n) by (assumption || lia). reflexivity.
Qed.
Lemma word_compl w x : word w x -> word w (compl w x).
Proof. unfold word, compl. lia. Qed.
Lemma compl_lnot w x : 0 <= w -> word w x -> (Z.lnot x) mod 2 ^ w = compl w x.
Proof.
  intros Hw Hx. unfold compl, Z.lnot, word in *. symmetry.
  apply (Z.mod_unique _ _ (-1)); [left; lia | lia].
Qed.
Lemma compl_bit w x n : 0 <= w -> word w x -> 0 <= n -> Z.testbit (compl w x) n = (n <? w) && negb (Z.testbit x n).
Proof.
  intros Hw Hx Hn. rewrite <- compl_lnot by assumption.
  destruct (Z.ltb_spec n w).
  - rewrite Z.mod_pow2_bits_low by lia. now apply Z.lnot_spec.
  - now rewrite Z.mod_pow2_bits_high by lia.
Qed.
Lemma word_rotr w n x : 0 <= n <= w -> word w x -> word w (rotr w n x).
Proof.
  intros Hn Hx. unfold rotr. apply word_lor; [lia | | apply word_mod; lia].
  unfold word in *. pose proof (Z.pow_pos_nonneg 2 n ltac:(lia) ltac:(lia)).
  split; [apply Z.div_pos; lia |]. apply Z.le_lt_trans with x; [| lia]. apply Z.div_le_upper_bound; nia.
Qed.

Lemma rotl_code s x : 0 <= s <= 32 -> word 32 x -> u32 (x << s) .| (x >> (32 - s)) = rotl 32 s x.
Proof.
  intros Hs Hx. unfold rotl. rewrite u32_mod, shl_mul, shr_div by lia.
  assert (E : 2 ^ 32 = 2 ^ (32 - s) * 2 ^ s) by (rewrite <- Z.pow_add_r by lia; f_equal; lia).
  pose proof (Z.pow_pos_nonneg 2 s ltac:(lia) ltac:(lia)).
  pose proof (Z.pow_pos_nonneg 2 (32 - s) ltac:(lia) ltac:(lia)).
  assert (E2 : (x * 2 ^ s) mod 2 ^ 32 = (x mod 2 ^ (32 - s)) * 2 ^ s).
  { rewrite E. apply Z.mul_mod_distr_r; lia. }
  rewrite E2. apply lor_add; [lia |]. unfold word in Hx. split; [apply Z.div_pos; lia |].
  apply Z.div_lt_upper_bound; [lia |]. rewrite <- E. lia.
Qed.

Lemma rr512_rotr c x : 0 <= c <= 64 -> rr512 x c = rotr 64 c x.
Proof. intros Hc. unfold rr512, rotr. now rewrite u64_mod, shr_div, shl_mul by lia. Qed.
Lemma rr256_rotr c x : 0 <= c <= 32 -> word 32 x -> (rr256 x c) mod 2 ^ 32 = rotr 32 c x.
Proof.
  intros Hc Hx. unfold rr256, rotr. rewrite mod_lor by lia. rewrite u64_mod.
  rewrite (land_low x _ 32) by (lia || reflexivity). rewrite (Z.mod_small x) by exact Hx.
  rewrite shr_div, shl_mul by lia. rewrite Z.lor_comm. f_equal.
  - apply Z.mod_small. unfold word in Hx. pose proof (Z.pow_pos_nonneg 2 c ltac:(lia) ltac:(lia)).
    split; [apply Z.div_pos; lia |]. apply Z.le_lt_trans with x; [| lia]. apply Z.div_le_upper_bound; nia.
  - generalize (x * 2 ^ (32 - c)). intros y. change (2 ^ 64) with 18446744073709551616.
    change (2 ^ 32) with 4294967296. lia.
Qed.
Lemma rr256_xor c1 c2 c3 x : 0 <= c1 <= 32 -> 0 <= c2 <= 32 -> 0 <= c3 <= 32 -> word 32 x ->
  (Z.lxor (Z.lxor (rr256 x c1) (rr256 x c2)) (rr256 x c3)) mod 2 ^ 32
  = xor3 (rotr 32 c1 x) (rotr 32 c2 x) (rotr 32 c3 x).
Proof.
  intros. rewrite !mod_lxor by lia. rewrite !rr256_rotr by assumption. apply Z.lxor_assoc.
Qed.
Lemma rr256_small c1 c2 c3 x : 0 <= c1 <= 32 -> 0 <= c2 <= 32 -> 0 <= c3 <= 32 -> word 32 x ->
  u32 (Z.lxor (Z.lxor (rr256 x c1) (rr256 x c2)) ((x .& 0xFFFFFFFF) >> c3))
  = xor3 (rotr 32 c1 x) (rotr 32 c2 x) (x / 2 ^ c3).
Proof.
  intros. rewrite u32_mod, !mod_lxor by lia. rewrite !rr256_rotr by assumption.
  rewrite (land_low x _ 32) by (lia || reflexivity). rewrite (Z.mod_small x) by assumption.
  rewrite shr_div by lia. rewrite Z.lxor_assoc. unfold xor3. do 2 f_equal.
  apply Z.mod_small. unfold word in *. pose proof (Z.pow_pos_nonneg 2 c3 ltac:(lia) ltac:(lia)).
  split; [apply Z.div_pos; lia |]. apply Z.le_lt_trans with x; [| lia]. apply Z.div_le_upper_bound; nia.
Qed.

Ltac bits := apply Z.bits_inj'; intros ? ?;
  rewrite ?Z.lxor_spec, ?Z.land_spec, ?Z.lor_spec, ?Z.lxor_spec, ?Z.land_spec, ?Z.lor_spec.
Lemma ch256 e f g : word 32 e -> word 32 f -> word 32 g -> Z.lxor g (e .& Z.lxor f g) = Ch V32 e f g.
Proof.
  intros He Hf Hg. unfold Ch. cbn [wbits V32]. bits. rewrite compl_bit by (assumption || lia).
  destruct (Z.ltb_spec n 32).
  - destruct (Z.testbit e n), (Z.testbit f n), (Z.testbit g n); reflexivity.
  - rewrite (word_bit 32 e n), (word_bit 32 g n) by (assumption || lia). reflexivity.
Qed.
Lemma maj256 a b c : (a .& b) .| (c .& (a .| b)) = Maj a b c.
Proof.
  unfold Maj, xor3. bits. destruct (Z.testbit a n), (Z.testbit b n), (Z.testbit c n); reflexivity.
Qed.

Lemma Forall_nthz (P : Z -> Prop) l i : P 0 -> Forall P l -> P (nthz l i).
Proof.
  intros P0 Hl. unfold nthz. destruct (nth_in_or_default (Z.to_nat i) l 0) as [Hin | ->]; [| exact P0].
  rewrite Forall_forall in Hl. now apply Hl.
Qed.

(** ** Blocks *)
Lemma cut_fuel n : (0 < n)%nat -> forall a b l, (List.length l <= a)%nat -> (List.length l <= b)%nat ->
  cut n a l = cut n b l.
Proof.
  intros Hn. induction a as [|a IH]; intros b l H1 H2.
  - destruct l; [destruct b; reflexivity | cbn in H1; lia].
  - destruct l as [|z l]; [destruct b; reflexivity |].
    destruct b as [|b]; [cbn in H2; lia |]. cbn [cut]. f_equal. cbn [List.length] in H1, H2.
    apply IH; rewrite skipn_length; cbn [List.length]; lia.
Qed.
Lemma blocks_nil n : blocks n [] = []. Proof. reflexivity. Qed.
Lemma blocks_cons n a b : (0 < n)%nat -> List.length a = n -> blocks n (a ++ b) = a :: blocks n b.
Proof.
  intros Hn Ha. unfold blocks. destruct a as [|x a]; [cbn in Ha; lia |].
  cbn [app List.length cut]. f_equal.
  - change (x :: a ++ b) with ((x :: a) ++ b). rewrite <- Ha. rewrite firstn_app, Nat.sub_diag, firstn_all.
    cbn [firstn]. apply app_nil_r.
  - change (x :: a ++ b) with ((x :: a) ++ b). rewrite <- Ha at 2. rewrite skipn_app, Nat.sub_diag, skipn_all.
    cbn [skipn app]. apply cut_fuel; [exact Hn | | lia]. rewrite app_length. lia.
Qed.
Lemma blocks_app n : (0 < n)%nat -> forall k a b, List.length a = (k * n)%nat -> blocks n (a ++ b) = blocks n a ++ blocks n b.
Proof.
  intros Hn. induction k as [|k IH]; intros a b Ha.
  - destruct a; [reflexivity | cbn in Ha; lia].
  - rewrite <- (firstn_skipn n a). assert (L : List.length (firstn n a) = n) by (rewrite firstn_length; cbn in Ha; lia).
    rewrite <- app_assoc. rewrite (blocks_cons n _ (skipn n a ++ b)), (blocks_cons n _ (skipn n a)) by assumption.
    cbn [app]. f_equal. apply IH.
    rewrite skipn_length. cbn in Ha. lia.
Qed.
Lemma blocks_one n a : (0 < n)%nat -> List.length a = n -> blocks n a = [a].
Proof. intros Hn Ha. rewrite <- (app_nil_r a) at 1. now rewrite blocks_cons, blocks_nil. Qed.
(** The [k] blocks of a string of [k * n] bytes, by index. *)
Lemma blocks_index n : (0 < n)%nat -> forall k l, List.length l = (k * n)%nat ->
  blocks n l = map (fun i => firstn n (skipn (i * n) l)) (seq 0 k).
Proof.
  intros Hn. induction k as [|k IH]; intros l Hl.
  - destruct l; [reflexivity | cbn in Hl; lia].
  - rewrite <- (firstn_skipn n l) at 1.
    assert (L : List.length (firstn n l) = n) by (rewrite firstn_length; cbn in Hl; lia).
    rewrite blocks_cons by assumption. cbn [seq map]. f_equal.
    rewrite IH by (rewrite skipn_length; cbn in Hl; lia).
    rewrite <- seq_shift, map_map. apply map_ext. intros i. f_equal.
    rewrite <- (firstn_skipn n l) at 2. rewrite skipn_app, L.
    rewrite (skipn_all2 (firstn n l)) by (rewrite L; nia). cbn [app]. f_equal. nia.
Qed.

(** ** The loop over whole blocks *)
Lemma feed_ok add n : (0 < n)%nat -> forall fuel h input off, 0 <= off <= len input ->
  len input - off <= Z.of_nat fuel ->
  exists full rest, dropz off input = full ++ rest /\ len rest < Z.of_nat n /\
    (exists k, List.length full = (k * n)%nat) /\
    feed add (Z.of_nat n) fuel h input off = (fold_left add (blocks n full) h, off + len full).
Proof.
  intros Hn. induction fuel as [|f IH]; intros h input off Ho Hf.
  - exists [], (dropz off input). repeat split.
    + rewrite len_dropz by lia. lia.
    + now exists 0%nat.
    + cbn. f_equal. lia.
  - cbn [feed]. destruct (Z.leb_spec (off + Z.of_nat n) (len input)).
    + set (b := takez (Z.of_nat n) (dropz off input)).
      assert (Lb : List.length b = n).
      { unfold b, takez. rewrite firstn_length. pose proof (len_dropz off input ltac:(lia)) as Ld.
        unfold len in Ld at 1. lia. }
      destruct (IH (add h b) input (off + Z.of_nat n)) as (full & rest & E & Lr & (k & Lf) & R); [lia | lia |].
      exists (b ++ full), rest. repeat split.
      * rewrite <- app_assoc, <- E. rewrite Z.add_comm, <- dropz_dropz by lia.
        unfold b. symmetry. apply takez_dropz.
      * exact Lr.
      * exists (S k). rewrite app_length. lia.
      * rewrite R. rewrite blocks_cons by assumption. cbn [fold_left]. f_equal.
        rewrite len_app. unfold len at 2. lia.
    + exists [], (dropz off input). repeat split.
      * rewrite len_dropz by lia. lia.
      * now exists 0%nat.
      * cbn. f_equal. lia.
Qed.

(** ** Padding *)
Lemma pad_blocks {S} (add : S -> list Z -> S) n field full rest h k :
  (0 < n)%nat -> (List.length field < n)%nat -> List.length full = (k * n)%nat -> len rest < Z.of_nat n ->
  fold_left add (blocks n (pad (Z.of_nat n) field (full ++ rest))) h =
  let h1 := fold_left add (blocks n full) h in
  if len rest + 1 + len field <=? Z.of_nat n
  then add h1 (rest ++ [128] ++ repeat 0 (Z.to_nat (Z.of_nat n - (len rest + 1 + len field))) ++ field)
  else add (add h1 (rest ++ [128] ++ repeat 0 (Z.to_nat (Z.of_nat n - (len rest + 1)))))
           (repeat 0 (Z.to_nat (Z.of_nat n - len field)) ++ field).
Proof.
  intros Hn Hf Hk Hr. cbn zeta. unfold pad. rewrite <- app_assoc, (blocks_app n Hn k) by assumption.
  rewrite fold_left_app. set (h1 := fold_left add (blocks n full) h).
  pose proof (len_nonneg rest). pose proof (len_nonneg field).
  assert (Lfield : len field < Z.of_nat n) by (unfold len; lia).
  assert (Lfull : len (full ++ rest) = Z.of_nat k * Z.of_nat n + len rest)
    by (rewrite len_app; unfold len at 1; rewrite Hk; lia).
  rewrite Lfull.
  destruct (Z.leb_spec (len rest + 1 + len field) (Z.of_nat n)).
  - assert (E : (- (Z.of_nat k * Z.of_nat n + len rest + 1 + len field)) mod Z.of_nat n
                = Z.of_nat n - (len rest + 1 + len field)).
    { symmetry. apply (Z.mod_unique _ _ (- Z.of_nat k - 1)); [left; lia | lia]. }
    rewrite E. rewrite blocks_one; [reflexivity | exact Hn |].
    rewrite !app_length, repeat_length. cbn [List.length]. unfold len in *. lia.
  - assert (E : (- (Z.of_nat k * Z.of_nat n + len rest + 1 + len field)) mod Z.of_nat n
                = 2 * Z.of_nat n - (len rest + 1 + len field)).
    { symmetry. apply (Z.mod_unique _ _ (- Z.of_nat k - 2)); [left; lia | lia]. }
    rewrite E.
    replace (Z.to_nat (2 * Z.of_nat n - (len rest + 1 + len field)))
      with (Z.to_nat (Z.of_nat n - (len rest + 1)) + Z.to_nat (Z.of_nat n - len field))%nat by lia.
    rewrite repeat_app.
    replace (rest ++ [128] ++ (repeat 0 (Z.to_nat (Z.of_nat n - (len rest + 1)))
              ++ repeat 0 (Z.to_nat (Z.of_nat n - len field))) ++ field)
      with ((rest ++ [128] ++ repeat 0 (Z.to_nat (Z.of_nat n - (len rest + 1))))
              ++ (repeat 0 (Z.to_nat (Z.of_nat n - len field)) ++ field))
      by (rewrite !app_assoc; reflexivity).
    rewrite blocks_cons, blocks_one; [reflexivity | exact Hn | | exact Hn |];
      rewrite !app_length, repeat_length; cbn [List.length]; unfold len in *; lia.
Qed.

(** ** Local arrays *)
Lemma splice_len l i xs : 0 <= i -> i + len xs <= len l -> len (splice l i xs) = len l.
Proof.
  intros Hi Hl. unfold splice. pose proof (len_nonneg xs).
  rewrite !len_app, len_takez, len_dropz by lia. lia.
Qed.
Lemma splice_app p q i xs : len p <= i -> splice (p ++ q) i xs = p ++ splice q (i - len p) xs.
Proof.
  intros Hi. unfold splice. pose proof (len_nonneg xs). pose proof (len_nonneg p).
  rewrite takez_app_ge by lia. rewrite dropz_app_ge by lia. rewrite <- app_assoc. do 3 f_equal. f_equal. lia.
Qed.
Lemma splice_0 l xs : splice l 0 xs = xs ++ dropz (len xs) l.
Proof. unfold splice. rewrite takez_0. reflexivity. Qed.
Lemma splice_at p q i xs : len p = i -> splice (p ++ q) i xs = p ++ xs ++ dropz (len xs) q.
Proof. intros Hi. rewrite splice_app by lia. now rewrite Hi, Z.sub_diag, splice_0. Qed.

(** The message's tail, the marker and zeros up to the end of the array. *)
Lemma buffer_pad junk rest n : len junk = n -> len rest < n ->
  memset (splice (splice junk 0 rest) (len rest) [0x80]) (len rest + 1) 0 (n - len rest - 1)
  = rest ++ [128] ++ repeat 0 (Z.to_nat (n - (len rest + 1))).
Proof.
  intros Hj Hr. pose proof (len_nonneg rest). rewrite splice_0. rewrite splice_at by reflexivity.
  unfold memset. rewrite (app_assoc rest). rewrite splice_at by (rewrite len_app; reflexivity).
  rewrite <- app_assoc. do 2 f_equal.
  rewrite dropz_all.
  - rewrite app_nil_r. do 2 f_equal. lia.
  - rewrite !len_repeat. change (len [128]) with 1. rewrite dropz_dropz by lia. rewrite len_dropz by lia. lia.
Qed.
Lemma memset_all buf n : len buf = n -> memset buf 0 0 n = repeat 0 (Z.to_nat n).
Proof.
  intros Hb. unfold memset. rewrite splice_0, dropz_all, app_nil_r by (rewrite len_repeat; pose proof (len_nonneg buf); lia).
  reflexivity.
Qed.

(** What the three functions have in common, with the compression function left open. *)
Definition skel (add : list Z -> list Z -> list Z) (n thr : Z) (setlen : list Z -> list Z) (junk init input : list Z)
  : list Z :=
  let '(hash, offset) := feed add n (List.length input) init input 0 in
  let buffer := splice junk 0 (takez (len input - offset) (dropz offset input)) in
  let offset := len input - offset in
  let buffer := splice buffer offset [0x80] in
  let buffer := memset buffer (offset + 1) 0 (n - offset - 1) in
  let '(hash, buffer) := if offset >? thr then (add hash buffer, memset buffer 0 0 n) else (hash, buffer) in
  add hash (setlen buffer).

Lemma skel_ok add n field setlen junk init m : (0 < n)%nat -> (List.length field < n)%nat -> len junk = Z.of_nat n ->
  (forall p q, len p = Z.of_nat n - len field -> len q = len field -> setlen (p ++ q) = p ++ field) ->
  skel add (Z.of_nat n) (Z.of_nat n - len field - 1) setlen junk init m
  = fold_left add (blocks n (pad (Z.of_nat n) field m)) init.
Proof.
  intros Hn Hf Hj SL. pose proof (len_nonneg m) as Hm0. unfold skel.
  destruct (feed_ok add n Hn (List.length m) init m 0)
    as (full & rest & E & Lr & (k & Lf) & R); [lia | unfold len; lia |].
  rewrite dropz_0 in E. rewrite R. clear R. cbv beta iota zeta.
  assert (Lm : len m = len full + len rest) by (rewrite E; apply len_app).
  pose proof (len_nonneg rest) as Hr0. pose proof (len_nonneg full) as Hf0. pose proof (len_nonneg field) as Hfi0.
  assert (Lfield : len field < Z.of_nat n) by (unfold len; lia).
  rewrite Z.add_0_l.
  replace (dropz (len full) m) with rest by (rewrite E; symmetry; now apply dropz_app_exact).
  replace (len m - len full) with (len rest) by lia.
  rewrite takez_all by lia. rewrite buffer_pad by lia.
  rewrite E. rewrite (pad_blocks add n field full rest init k) by assumption. cbv zeta.
  set (h1 := fold_left add (blocks n full) init).
  destruct (Z.gtb_spec (len rest) (Z.of_nat n - len field - 1)) as [G|G];
    destruct (Z.leb_spec (len rest + 1 + len field) (Z.of_nat n)) as [G'|G']; try lia.
  - rewrite memset_all by (rewrite !len_app, len_repeat; change (len [128]) with 1; lia).
    replace (Z.to_nat (Z.of_nat n)) with (Z.to_nat (Z.of_nat n - len field) + Z.to_nat (len field))%nat by lia.
    rewrite repeat_app. rewrite SL by (rewrite len_repeat; lia). reflexivity.
  - replace (Z.to_nat (Z.of_nat n - (len rest + 1)))
      with (Z.to_nat (Z.of_nat n - (len rest + 1 + len field)) + Z.to_nat (len field))%nat by lia.
    rewrite repeat_app. rewrite !app_assoc. rewrite <- (app_assoc rest).
    rewrite SL; [reflexivity | |]; rewrite ?len_app, ?len_repeat; change (len [128]) with 1; lia.
Qed.

Lemma pad_length n field m : (0 < n)%nat -> exists k, List.length (pad (Z.of_nat n) field m) = (k * n)%nat.
Proof.
  intros Hn. pose proof (len_nonneg m). pose proof (len_nonneg field).
  set (x := len m + 1 + len field).
  exists (Z.to_nat ((x + (- x) mod Z.of_nat n) / Z.of_nat n)).
  assert (D : (x + (- x) mod Z.of_nat n) mod Z.of_nat n = 0).
  { rewrite Zplus_mod_idemp_r. replace (x + - x) with 0 by lia. apply Z.mod_0_l. lia. }
  pose proof (Z.div_mod (x + (- x) mod Z.of_nat n) (Z.of_nat n) ltac:(lia)) as DM. rewrite D in DM.
  pose proof (Z.mod_pos_bound (- x) (Z.of_nat n) ltac:(lia)) as MB.
  unfold pad. rewrite !app_length, repeat_length. cbn [List.length]. fold x.
  apply Nat2Z.inj. rewrite Nat2Z.inj_mul. rewrite !Nat2Z.inj_add. rewrite !Z2Nat.id; [unfold x, len in *; lia | |].
  - apply Z.div_pos; unfold x; lia.
  - lia.
Qed.
Lemma pad_bytes n field m : bytesP field -> bytesP m -> bytesP (pad n field m).
Proof.
  intros Hf Hm. unfold pad. rewrite !bytesP_app. repeat split; try assumption.
  - repeat constructor; unfold byteP; lia.
  - unfold bytesP; apply Forall_forall; intros x Hx; apply repeat_spec in Hx; subst; unfold byteP; lia.
Qed.
