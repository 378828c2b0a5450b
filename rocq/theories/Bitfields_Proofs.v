From Verif Require Import Common CommonFacts Bits BitsFacts Bitfields_Model Bitfields_Spec.

Lemma join x y n m : 0 <= n -> m = n + 8 -> byteP y -> Z.lor (x << m) (y << n) = (x * 256 + y) << n.
Proof.
  intros Hn -> Hy. rewrite Z.add_comm, <- Z.shiftl_shiftl by lia. rewrite <- Z.shiftl_lor.
  f_equal. rewrite (lor_shl_add' x y 8 256); [reflexivity|lia|reflexivity|exact Hy].
Qed.
Lemma join0 x y : byteP y -> Z.lor (x << 8) y = x * 256 + y.
Proof. intros Hy. apply lor_shl_add'; [lia|reflexivity|exact Hy]. Qed.

Ltac byteside := first [assumption | lia | reflexivity].
Ltac joins :=
  repeat first [rewrite (join _ _ 48 56) by byteside | rewrite (join _ _ 40 48) by byteside
               |rewrite (join _ _ 32 40) by byteside | rewrite (join _ _ 24 32) by byteside
               |rewrite (join _ _ 16 24) by byteside | rewrite (join _ _ 8 16) by byteside];
  try rewrite join0 by byteside.

(** Explode the first bytes of [p]. *)
Ltac explode p H :=
  let b := fresh "b" in let Hb := fresh "Hb" in
  destruct p as [|b p]; [exfalso; revert H; unfold len; cbn; lia|].

Tactic Notation "reader" integer(n) :=
  let p := fresh "p" in let H := fresh "H" in let L := fresh "L" in
  intros p H L;
  do n explode p L;
  rewrite ?bytesP_cons in H;
  repeat match goal with Hc : _ /\ _ |- _ => destruct Hc end;
  cbv [nthz nth Z.to_nat Pos.to_nat Pos.iter_op Init.Nat.add firstn];
  unfold unle, unbe; cbn [rev app unbe_acc];
  joins; unfold byteP, u16, u32, u64 in *; rewrite ?Z.mod_small by lia; try lia.

Lemma rd_btohs : big_endian 2 btohs. Proof. unfold btohs. reader 2. Qed.
Lemma rd_btoh24 : big_endian 3 btoh24. Proof. unfold btoh24. reader 3. Qed.
Lemma rd_btohl : big_endian 4 btohl. Proof. unfold btohl. reader 4. Qed.
Lemma rd_btoh40 : big_endian 5 btoh40. Proof. unfold btoh40. reader 5. Qed.
Lemma rd_btoh48 : big_endian 6 btoh48. Proof. unfold btoh48. reader 6. Qed.
Lemma rd_btoh56 : big_endian 7 btoh56. Proof. unfold btoh56. reader 7. Qed.
Lemma rd_btohll : big_endian 8 btohll. Proof. unfold btohll. reader 8. Qed.
Lemma rd_btohs_le : little_endian 2 btohs_le. Proof. unfold btohs_le. reader 2. Qed.
Lemma rd_btoh24_le : little_endian 3 btoh24_le. Proof. unfold btoh24_le. reader 3. Qed.
Lemma rd_btohl_le : little_endian 4 btohl_le. Proof. unfold btohl_le. reader 4. Qed.
Lemma rd_btohll_le : little_endian 8 btohll_le. Proof. unfold btohll_le. reader 8. Qed.

Lemma be_mod_ge n m v : Z.of_nat n <= m -> be n (v mod 256 ^ m) = be n v.
Proof.
  intros H. rewrite <- (be_mod n (v mod 256 ^ m)), <- (be_mod n v). f_equal.
  rewrite <- Znumtheory.Zmod_div_mod; [reflexivity| | |].
  1,2: apply pow256_pos; lia.
  exists (256 ^ (m - Z.of_nat n)). rewrite <- Z.pow_add_r by lia. f_equal. lia.
Qed.

Ltac writer n m :=
  intros v; rewrite <- (be_mod_ge n m v) by lia;
  rewrite !land_255, ?shr_div by lia; unfold u16, u32, u64; cbn [be rev app];
  cbn [Z.of_nat Pos.of_succ_nat Pos.succ];
  change (256 ^ 0) with 1; rewrite ?Z.div_1_r; reflexivity.

Lemma wr_htobs v : htobs v = be 2 v. Proof. revert v. unfold htobs, le. writer 2%nat 2. Qed.
Lemma wr_htob24 v : htob24 v = be 3 v. Proof. revert v. unfold htob24, le. writer 3%nat 8. Qed.
Lemma wr_htobl v : htobl v = be 4 v. Proof. revert v. unfold htobl, le. writer 4%nat 4. Qed.
Lemma wr_htob40 v : htob40 v = be 5 v. Proof. revert v. unfold htob40, le. writer 5%nat 8. Qed.
Lemma wr_htob48 v : htob48 v = be 6 v. Proof. revert v. unfold htob48, le. writer 6%nat 8. Qed.
Lemma wr_htob56 v : htob56 v = be 7 v. Proof. revert v. unfold htob56, le. writer 7%nat 8. Qed.
Lemma wr_htobll v : htobll v = be 8 v. Proof. revert v. unfold htobll, le. writer 8%nat 8. Qed.
Lemma wr_htobs_le v : htobs_le v = le 2 v. Proof. revert v. unfold htobs_le, le. writer 2%nat 2. Qed.
Lemma wr_htob24_le v : htob24_le v = le 3 v. Proof. revert v. unfold htob24_le, le. writer 3%nat 8. Qed.
Lemma wr_htobl_le v : htobl_le v = le 4 v. Proof. revert v. unfold htobl_le, le. writer 4%nat 8. Qed.
Lemma wr_htobll_le v : htobll_le v = le 8 v. Proof. revert v. unfold htobll_le, le. writer 8%nat 8. Qed.

Lemma faithful_gen (w : nat) (read : list Z -> Z) (write : Z -> list Z) (f : list Z -> Z) :
  (forall v, len (write v) = Z.of_nat w /\ bytesP (write v)) ->
  (forall p, bytesP p -> Z.of_nat w <= len p -> read p = f (firstn w p)) ->
  (forall v, f (write v) = v mod 256 ^ Z.of_nat w) ->
  faithful_field (Z.of_nat w) read write.
Proof.
  intros Hw Hr Hf buf off v Hb Ho Hl. cbv zeta. destruct (Hw v) as [W1 W2].
  assert (B' : bytesP (splice buf off (write v))) by (apply bytesP_splice; assumption).
  assert (L' : len (splice buf off (write v)) = len buf) by (apply len_splice; lia).
  split; [exact L'|]. split; [exact B'|]. split.
  - rewrite Hr.
    + pose proof (splice_read buf off (write v) Ho ltac:(lia)) as S. unfold takez in S.
      rewrite W1, Nat2Z.id in S. rewrite S, Hf.
      f_equal. rewrite Z.pow_mul_r by lia. reflexivity.
    + now apply bytesP_dropz.
    + rewrite len_dropz; lia.
  - intros j Hj. apply splice_out; lia.
Qed.
Lemma faithful_be w read write : big_endian w read -> (forall v, write v = be w v) ->
  faithful_field (Z.of_nat w) read write.
Proof.
  intros Hr Hw. apply faithful_gen with (f := unbe); [|exact Hr|].
  - intros v. rewrite Hw. split; [apply be_len|apply be_bytes].
  - intros v. rewrite Hw. apply unbe_be.
Qed.
Lemma bytesP_rev l : bytesP l -> bytesP (rev l).
Proof. intros H. apply Forall_rev, H. Qed.
Lemma faithful_le w read write : little_endian w read -> (forall v, write v = le w v) ->
  faithful_field (Z.of_nat w) read write.
Proof.
  intros Hr Hw. apply faithful_gen with (f := unle); [|exact Hr|].
  - intros v. rewrite Hw. unfold le. split; [rewrite len_rev; apply be_len|apply bytesP_rev, be_bytes].
  - intros v. rewrite Hw. unfold unle, le. rewrite rev_involutive. apply unbe_be.
Qed.

(** ** getMSB *)
Lemma seg_step (b off n : Z) : byteP b -> 0 <= off < 8 -> 0 <= n <= 8 - off ->
  (b mod 2 ^ (8 - off)) / 2 ^ (8 - off - n) = bits_val (takez n (dropz off (bits_of 8 b))).
Proof.
  intros Hb Ho Hn.
  assert (E : (fun b => forallb (fun off => forallb (fun n =>
     if n <=? 8 - off then (b mod 2 ^ (8 - off)) / 2 ^ (8 - off - n) =? bits_val (takez n (dropz off (bits_of 8 b))) else true)
     (range 9)) (range 8)) b = true).
  { revert b Hb. apply byte_sweep. vm_compute. reflexivity. }
  cbv beta in E. rewrite forallb_forall in E. specialize (E off (range_in 8 off ltac:(lia))).
  rewrite forallb_forall in E. specialize (E n (range_in 9 n ltac:(lia))).
  replace (n <=? 8 - off) with true in E by lia. now apply Z.eqb_eq.
Qed.

(** Bits of a byte string, read from a bit position: the remainder of the first byte, then on. *)
Lemma bits_from l pos : 0 <= pos -> pos / 8 < len l ->
  dropz pos (bits l) = dropz (pos mod 8) (bits_of 8 (nthz l (pos / 8))) ++ bits (dropz (pos / 8 + 1) l).
Proof.
  intros Hp Hl.
  rewrite <- (takez_dropz (pos / 8) l) at 1. rewrite bits_app.
  rewrite dropz_app_ge by (rewrite bits_len, len_takez by lia; lia).
  rewrite bits_len, len_takez by lia. replace (pos - 8 * (pos / 8)) with (pos mod 8) by lia.
  assert (E : dropz (pos / 8) l = nthz l (pos / 8) :: dropz (pos / 8 + 1) l).
  { rewrite Z.add_comm, <- (dropz_dropz 1 (pos / 8)) by lia.
    destruct (dropz (pos / 8) l) as [|x r] eqn:D.
    - pose proof (len_dropz (pos / 8) l ltac:(lia)) as LL. rewrite D in LL. unfold len in LL, Hl. cbn in LL. lia.
    - pose proof (nthz_dropz l 0 (pos / 8) ltac:(lia) ltac:(lia)) as N. rewrite D, nthz_0, Z.add_0_r in N. subst x. reflexivity. }
  rewrite E. unfold bits at 1. cbn [flat_map]. fold (bits (dropz (pos / 8 + 1) l)).
  rewrite dropz_app; [reflexivity|]. rewrite bits_of_len. lia.
Qed.

Lemma seg_take l pos n : 0 <= pos -> pos / 8 < len l -> 0 <= n <= 8 - pos mod 8 ->
  takez n (dropz pos (bits l)) = takez n (dropz (pos mod 8) (bits_of 8 (nthz l (pos / 8)))).
Proof.
  intros Hp Hl Hn. rewrite bits_from by assumption. apply takez_app.
  rewrite len_dropz, bits_of_len; [lia|]. rewrite bits_of_len. lia.
Qed.

Lemma takez_add {A} n m (l : list A) : 0 <= n -> 0 <= m -> takez (n + m) l = takez n l ++ takez m (dropz n l).
Proof.
  intros Hn Hm. unfold takez, dropz. rewrite Z2Nat.inj_add by lia.
  revert l. generalize (Z.to_nat n) as a. intros a. induction a as [|a IH]; intros l; [reflexivity|].
  cbn [Nat.add]. destruct l as [|x l]; cbn; [now rewrite firstn_nil|]. now rewrite IH.
Qed.

Lemma getMSB_loop_ok fuel p pos n v :
  bytesP p -> 0 <= pos -> 0 <= n <= 64 -> n <= Z.of_nat fuel -> pos + n <= 8 * len p ->
  (pos mod 8 <> 0 -> nthz p (pos / 8) < 2 ^ (8 - pos mod 8)) ->
  0 <= v < 2 ^ (64 - n) ->
  getMSB_loop fuel p (pos / 8) (pos mod 8) n v = Some (v * 2 ^ n + bits_val (takez n (dropz pos (bits p)))).
Proof.
  intros Hp. revert pos n v. induction fuel as [|k IH]; intros pos n v Hpos Hn Hf Hl Hz Hv.
  - assert (n = 0) as -> by lia. cbn [getMSB_loop]. rewrite takez_0. f_equal. change (bits_val []) with 0. lia.
  - cbn [getMSB_loop]. destruct (n =? 0) eqn:E0.
    { assert (n = 0) as -> by lia. rewrite takez_0. f_equal. change (bits_val []) with 0. lia. }
    set (cur := if 8 - pos mod 8 >? n then n else 8 - pos mod 8).
    assert (Hc : 0 < cur <= n /\ cur <= 8 - pos mod 8 /\ (cur = n \/ cur = 8 - pos mod 8)).
    { unfold cur. destruct (8 - pos mod 8 >? n) eqn:G; lia. }
    assert (Hi : 0 <= pos / 8 < len p) by lia.
    rewrite rd_some by lia.
    set (b := nthz p (pos / 8)). assert (Hb : byteP b) by (apply bytesP_nthz; assumption).
    assert (Hbz : b < 2 ^ (8 - pos mod 8)).
    { destruct (Z.eq_dec (pos mod 8) 0) as [->|Hne]; [unfold byteP in Hb; change (2 ^ (8 - 0)) with 256; lia|now apply Hz]. }
    assert (P2 : forall x, 0 <= x -> 0 < 2 ^ x) by (intros; apply Z.pow_pos_nonneg; lia).
    assert (Hn2 : 2 ^ n = 2 ^ cur * 2 ^ (n - cur)) by (rewrite <- Z.pow_add_r by lia; f_equal; lia).
    assert (Hm2 : 2 ^ (64 - (n - cur)) = 2 ^ (64 - n) * 2 ^ cur) by (rewrite <- Z.pow_add_r by lia; f_equal; lia).
    assert (H64 : 2 ^ (64 - (n - cur)) <= 18446744073709551616) by (change 18446744073709551616 with (2 ^ 64); apply Z.pow_le_mono_r; lia).
    pose proof (P2 cur ltac:(lia)) as Pc.
    assert (Vc : 0 <= v * 2 ^ cur <= 2 ^ (64 - (n - cur)) - 2 ^ cur) by (rewrite Hm2; nia).
    rewrite (shl_mul v) by lia. rewrite (u64_id (v * 2 ^ cur)) by lia.
    assert (Seg : (b << (pos mod 8)) >> (8 - cur) = bits_val (takez cur (dropz pos (bits p)))).
    { rewrite seg_take by lia. fold b. rewrite <- seg_step by (assumption || lia).
      rewrite (Z.mod_small b) by (unfold byteP in Hb; lia).
      rewrite shl_mul, shr_div by lia.
      replace (2 ^ (8 - cur)) with (2 ^ (8 - pos mod 8 - cur) * 2 ^ (pos mod 8)) by (rewrite <- Z.pow_add_r by lia; f_equal; lia).
      rewrite Z.div_mul_cancel_r; [reflexivity| |]; pose proof (P2 (8 - pos mod 8 - cur) ltac:(lia)); pose proof (P2 (pos mod 8) ltac:(lia)); lia. }
    rewrite Seg. set (s := bits_val (takez cur (dropz pos (bits p)))).
    assert (Hs : 0 <= s < 2 ^ cur).
    { unfold s. pose proof (bits_val_bound (takez cur (dropz pos (bits p)))) as B.
      rewrite len_takez in B; [lia|]. rewrite len_dropz; rewrite bits_len; lia. }
    rewrite lor_add by lia.
    rewrite u64_id by lia.
    destruct Hc as [Hc1 [Hc2 [Hc3|Hc3]]].
    + (* last byte *)
      replace (n - cur) with 0 by lia.
      assert (Z0 : forall f p q o r, getMSB_loop f p q o 0 r = Some r) by (intros [|f] ? ? ? ?; reflexivity).
      rewrite Z0. f_equal. unfold s. rewrite Hc3. reflexivity.
    + specialize (IH (pos + cur) (n - cur) (v * 2 ^ cur + s)).
      replace ((pos + cur) / 8) with (pos / 8 + 1) in IH by lia.
      replace ((pos + cur) mod 8) with 0 in IH by lia.
      rewrite IH; try lia.
      f_equal. rewrite Hn2.
      replace (takez n (dropz pos (bits p))) with (takez (cur + (n - cur)) (dropz pos (bits p))) by (f_equal; lia).
      rewrite takez_add by lia. rewrite bits_val_app. rewrite dropz_dropz by lia.
      rewrite (len_takez (n - cur)). 2:{ rewrite len_dropz; rewrite bits_len; lia. }
      replace (cur + pos) with (pos + cur) by lia. fold s. ring.
Qed.

Lemma getMSB_partial_lem p off n : bytesP p -> 0 <= off -> 0 <= n <= 64 -> off + n <= 8 * len p ->
  (off mod 8 <> 0 -> nthz p (off / 8) < 2 ^ (8 - off mod 8)) ->
  getMSB p off n = Some (bitfield p off n).
Proof.
  intros Hp Ho Hn Hl Hz. unfold getMSB. rewrite shr_div by lia. change (2 ^ 3) with 8.
  change (off .& 7) with (off .& Z.ones 3). rewrite Z.land_ones by lia. change (2 ^ 3) with 8.
  rewrite getMSB_loop_ok; try assumption; try lia.
  reflexivity.
Qed.

(** ** stringToBool *)
Lemma stb_collect_spec s n : stb_collect s n = firstn n (map tolower (filter (fun c => negb (isspace c)) s)).
Proof.
  revert n; induction s as [|c s IH]; intros n; [now rewrite firstn_nil|].
  cbn [stb_collect filter]. destruct n as [|n]; [destruct (isspace c); reflexivity|].
  destruct (isspace c); cbn [negb map firstn]; now rewrite IH.
Qed.
Lemma prefixb_spec a b : prefixb a b = true <-> exists r, b = a ++ r.
Proof.
  revert b; induction a as [|x a IH]; intros b; cbn [prefixb].
  - split; [intros _; now exists b|reflexivity].
  - destruct b as [|y b].
    + split; [discriminate|]. intros [r H]. discriminate.
    + rewrite andb_true_iff, IH, Z.eqb_eq. split.
      * intros [-> [r ->]]. now exists r.
      * intros [r H]. injection H as -> ->. split; [reflexivity|now exists r].
Qed.
Lemma prefix_firstn (a l : list Z) n : (List.length a <= n)%nat ->
  ((exists r, firstn n l = a ++ r) <-> (exists r, l = a ++ r)).
Proof.
  intros Hn. split; intros [r H].
  - exists (r ++ skipn n l). rewrite app_assoc, <- H. symmetry. apply firstn_skipn.
  - subst l. exists (firstn (n - List.length a) r). rewrite firstn_app. f_equal. now apply firstn_all2.
Qed.
Lemma stringToBool_lem s : stringToBool s = true <->
  exists w r, In w [bs "1"; bs "yes"; bs "true"; bs "cont"] /\
    map tolower (filter (fun c => negb (isspace c)) s) = w ++ r.
Proof.
  unfold stringToBool. rewrite stb_collect_spec, !orb_true_iff, !prefixb_spec.
  rewrite !(prefix_firstn _ _ 4) by (cbn; lia).
  split.
  - intros [[[[r H]|[r H]]|[r H]]|[r H]]; rewrite H;
      eexists; exists r; (split; [|reflexivity]); cbn [In]; tauto.
  - intros [w [r [Hw H]]]. cbn [In] in Hw. destruct Hw as [<-|[<-|[<-|[<-|[]]]]]; eauto.
Qed.
