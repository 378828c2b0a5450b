From Verif Require Import Common CommonFacts Bits BitsFacts Bitfields_Model Bitfields_Proofs Bitstream_Model Bitstream_Spec.

Lemma nthz_nil i : nthz [] i = 0.
Proof. unfold nthz. now destruct (Z.to_nat i). Qed.
Lemma nthz_out l i : len l <= i -> nthz l i = 0.
Proof. intros H. unfold nthz, len in *. apply nth_overflow. lia. Qed.
Lemma nthz_zeros n i : nthz (repeat 0 n) i = 0.
Proof. unfold nthz. apply nth_repeat. Qed.
Lemma nthz_app_zeros l n i : 0 <= i -> nthz (l ++ repeat 0 n) i = nthz l i.
Proof.
  intros Hi. destruct (Z_lt_ge_dec i (len l)) as [H|H].
  - now apply nthz_app1.
  - rewrite nthz_app2 by lia. rewrite nthz_zeros. symmetry. apply nthz_out. lia.
Qed.

(** ** Writer *)
Lemma len_or_loop p k buf : 0 <= k -> k + len buf <= len p -> len (or_loop p k buf) = len p.
Proof.
  revert p k; induction buf as [|b r IH]; intros p k Hk Hl; [reflexivity|].
  rewrite len_cons in Hl. pose proof (len_nonneg r). cbn [or_loop].
  assert (L1 : len (splice p k [nthz p k .| b]) = len p) by (apply len_splice; rewrite ?len_cons, ?len_nil; lia).
  rewrite IH; lia.
Qed.
Lemma nthz_or_loop p k buf j : 0 <= k -> k + len buf <= len p -> 0 <= j ->
  nthz (or_loop p k buf) j = if (k <=? j) && (j <? k + len buf) then nthz p j .| nthz buf (j - k) else nthz p j.
Proof.
  revert p k; induction buf as [|b r IH]; intros p k Hk Hl Hj.
  - rewrite len_nil. replace ((k <=? j) && (j <? k + 0)) with false by lia. reflexivity.
  - rewrite len_cons in *. pose proof (len_nonneg r). cbn [or_loop].
    assert (L1 : len (splice p k [nthz p k .| b]) = len p) by (apply len_splice; rewrite ?len_cons, ?len_nil; lia).
    rewrite IH by lia.
    destruct (Z.eq_dec j k) as [->|Hne].
    + replace ((k + 1 <=? k) && (k <? k + 1 + len r)) with false by lia.
      replace ((k <=? k) && (k <? k + (1 + len r))) with true by lia.
      rewrite splice_in by (rewrite ?len_cons, ?len_nil; lia). now rewrite Z.sub_diag.
    + assert (O : nthz (splice p k [nthz p k .| b]) j = nthz p j) by (apply splice_out; change (len [nthz p k .| b]) with 1; lia).
      rewrite O.
      destruct ((k + 1 <=? j) && (j <? k + 1 + len r)) eqn:E.
      * replace ((k <=? j) && (j <? k + (1 + len r))) with true by lia.
        rewrite nthz_S by lia. replace (j - k - 1) with (j - (k + 1)) by lia. reflexivity.
      * replace ((k <=? j) && (j <? k + (1 + len r))) with false by lia. reflexivity.
Qed.
Lemma bytes_or_loop p k buf : bytesP p -> bytesP buf -> bytesP (or_loop p k buf).
Proof.
  revert p k; induction buf as [|b r IH]; intros p k Hp Hb; [exact Hp|].
  apply bytesP_cons in Hb as [Hb Hr]. cbn [or_loop]. apply IH; [|exact Hr].
  apply bytesP_splice; [exact Hp|]. constructor; [|constructor].
  pose proof (bytesP_nthz p k Hp) as Hn. unfold byteP in *. split; [apply Z.lor_nonneg; lia|].
  assert (B : Z.log2 (nthz p k .| b) < 8 \/ nthz p k .| b = 0).
  { destruct (Z.eq_dec (nthz p k .| b) 0) as [E|E]; [now right|left].
    rewrite Z.log2_lor by lia. apply Z.max_lub_lt.
    - destruct (Z.eq_dec (nthz p k) 0) as [->|]; [cbn; lia|]. apply Z.log2_lt_pow2; lia.
    - destruct (Z.eq_dec b 0) as [->|]; [cbn; lia|]. apply Z.log2_lt_pow2; lia. }
  destruct B as [B| ->]; [|lia].
  assert (0 <= nthz p k .| b) by (apply Z.lor_nonneg; lia).
  destruct (Z.eq_dec (nthz p k .| b) 0); [lia|].
  change 256 with (2 ^ 8). apply Z.log2_lt_pow2; lia.
Qed.

(** The writer holds the bit string [B]. *)
Definition holds (w : bw) (B : list bool) : Prop :=
  wn w = len B /\ bytesP (wp w) /\
  ((B = [] /\ wp w = []) \/ wn w / 8 + 1 <= len (wp w)) /\
  (forall i, 0 <= i -> bitat (wp w) i = nth (Z.to_nat i) B false).

Lemma holds_new : holds bw_new [].
Proof.
  repeat split; try reflexivity; [constructor|left; now split|].
  intros i Hi. unfold bitat. cbn [wp bw_new]. rewrite nthz_nil, Z.bits_0. now destruct (Z.to_nat i).
Qed.

Lemma bitat_or a b i : Z.testbit (a .| b) i = Z.testbit a i || Z.testbit b i.
Proof. apply Z.lor_spec. Qed.

Lemma testbit_high v n i : 0 <= v < 2 ^ n -> n <= i -> Z.testbit v i = false.
Proof.
  intros Hv Hi. destruct (Z.eq_dec v 0) as [->|Hne]; [apply Z.bits_0|].
  assert (Hn : 0 <= n). { destruct (Z_lt_ge_dec n 0) as [H|H]; [rewrite Z.pow_neg_r in Hv by lia; lia|lia]. }
  apply Z.bits_above_log2; [lia|]. assert (Z.log2 v < n) by (apply Z.log2_lt_pow2; lia). lia.
Qed.

(** The scratch buffer of append, seen bitwise: the value's bits at bit [off] on. *)
Definition scratch (val L off : Z) : list Z :=
  let bitShift := (64 - L) - off in
  if 0 <=? bitShift then htobll (val << bitShift)
  else htobll (val >> (- bitShift)) ++ [(val << (8 + bitShift)) .& 255].

Lemma scratch_bits val L off k : 0 <= val < 2 ^ 64 -> 0 <= val < 2 ^ L -> 0 <= L -> 0 <= off < 8 -> L + off <= 72 ->
  0 <= k < 8 * len (scratch val L off) ->
  bitat (scratch val L off) k = Z.testbit val (L + off - 1 - k).
Proof.
  intros Hv Hvl HL Ho Hlo Hk. unfold scratch in *. cbv zeta in *.
  destruct (0 <=? 64 - L - off) eqn:E.
  - rewrite wr_htobll in *. rewrite be_len in Hk. rewrite bitat_be by lia.
    destruct (Z_lt_ge_dec (8 * Z.of_nat 8 - 1 - k) (64 - L - off)) as [H|H].
    + rewrite Z.shiftl_spec_low by lia. symmetry. apply Z.testbit_neg_r. lia.
    + rewrite Z.shiftl_spec_high by lia. f_equal. lia.
  - rewrite wr_htobll in *. rewrite len_app, be_len in Hk. change (len [_]) with 1 in Hk.
    destruct (Z_lt_ge_dec k 64) as [H|H].
    + unfold bitat. rewrite nthz_app1 by (rewrite be_len; lia).
      fold (bitat (be 8 (val >> (- (64 - L - off)))) k). rewrite bitat_be by lia.
      rewrite Z.shiftr_spec by lia. f_equal. lia.
    + unfold bitat. rewrite nthz_app2 by (rewrite be_len; lia). rewrite be_len.
      replace (k / 8 - Z.of_nat 8) with 0 by lia. rewrite nthz_0.
      change 255 with (Z.ones 8). rewrite Z.land_spec, Z.ones_spec_low by lia. rewrite andb_true_r.
      destruct (Z_lt_ge_dec (7 - k mod 8) (8 + (64 - L - off))) as [H1|H1].
      * rewrite Z.shiftl_spec_low by lia. symmetry. apply Z.testbit_neg_r. lia.
      * rewrite Z.shiftl_spec_high by lia. f_equal. lia.
Qed.
Lemma scratch_len val L off : len (scratch val L off) = if 0 <=? 64 - L - off then 8 else 9.
Proof. unfold scratch. cbv zeta. destruct (0 <=? 64 - L - off); reflexivity. Qed.
Lemma scratch_bytes val L off : bytesP (scratch val L off).
Proof.
  unfold scratch. cbv zeta. rewrite !wr_htobll. destruct (0 <=? 64 - L - off).
  - apply be_bytes.
  - apply bytesP_app. split; [apply be_bytes|]. constructor; [|constructor]. rewrite land_255. apply byteP_mod.
Qed.

Lemma bw_append_holds w B val L : holds w B -> 0 <= val < 2 ^ 64 -> 0 <= val < 2 ^ L -> 1 <= L ->
  L + wn w mod 8 <= 72 -> (wn w + L) / 8 + 1 < 4294967296 ->
  exists w', bw_append w val L = Some w' /\ holds w' (B ++ bits_of (Z.to_nat L) val).
Proof.
  intros [Hn [Hb [Hc Hbits]]] Hv Hvl HL Hlo H32.
  pose proof (len_nonneg B) as HB.
  unfold bw_append. rewrite (u64_id val) by lia.
  replace ((64 <=? 64 - L - wn w mod 8) || (64 - L - wn w mod 8 <? -8)) with false by lia.
  cbv zeta. fold (scratch val L (wn w mod 8)).
  set (off := wn w mod 8) in *. set (sc := scratch val L off).
  rewrite (u32_id ((wn w + L) / 8 + 1)) by lia.
  set (p := wp w ++ repeat 0 (Z.to_nat ((wn w + L) / 8 + 1 - len (wp w)))).
  set (m := (off + L) / 8 + (if (off + L) mod 8 =? 0 then 0 else 1)).
  assert (Hoff : 0 <= off < 8) by (unfold off; lia).
  assert (Hm : 8 * m >= off + L /\ m <= (off + L + 7) / 8 /\ 1 <= m) by (unfold m; destruct ((off + L) mod 8 =? 0) eqn:E; lia).
  pose proof (scratch_len val L off) as Lsc. fold sc in Lsc.
  assert (Hmsc : m <= len sc). { rewrite Lsc. destruct (0 <=? 64 - L - off) eqn:E; lia. }
  assert (Lp : (wn w + L) / 8 + 1 <= len p) by (unfold p; rewrite len_app, len_repeat; lia).
  assert (Lt : len (takez m sc) = m) by (apply len_takez; lia).
  assert (Hmp : wn w / 8 + m <= len p).
  { assert (8 * (wn w / 8) + off = wn w) by (unfold off; lia). lia. }
  eexists. split; [reflexivity|].
  repeat split; cbn [wp wn].
  - rewrite len_app, bits_of_len. lia.
  - apply bytes_or_loop.
    + unfold p. apply bytesP_app. split; [exact Hb|]. apply Forall_forall. intros x Hx. apply repeat_spec in Hx. subst x. unfold byteP; lia.
    + apply bytesP_takez, scratch_bytes.
  - right. rewrite len_or_loop; lia.
  - intros i Hi. unfold bitat. rewrite nthz_or_loop by lia. rewrite Lt.
    assert (Pold : nthz p (i / 8) = nthz (wp w) (i / 8)) by (apply nthz_app_zeros; lia).
    specialize (Hbits i Hi). unfold bitat in Hbits.
    destruct ((wn w / 8 <=? i / 8) && (i / 8 <? wn w / 8 + m)) eqn:E.
    + rewrite bitat_or, Pold, Hbits. rewrite nthz_takez by lia.
      pose proof (scratch_bits val L off (i - 8 * (wn w / 8)) Hv Hvl ltac:(lia) Hoff ltac:(lia)) as S.
      fold sc in S. specialize (S ltac:(lia)). unfold bitat in S.
      replace ((i - 8 * (wn w / 8)) / 8) with (i / 8 - wn w / 8) in S by lia.
      replace ((i - 8 * (wn w / 8)) mod 8) with (i mod 8) in S by lia. rewrite S.
      replace (L + off - 1 - (i - 8 * (wn w / 8))) with (L - 1 - (i - wn w)) by (unfold off; lia).
      destruct (Z_lt_ge_dec i (wn w)) as [H1|H1].
      * rewrite (testbit_high val L) by lia. rewrite orb_false_r. rewrite app_nth1; [reflexivity|].
        unfold len in *. lia.
      * rewrite nth_overflow by (unfold len in *; lia). cbn [orb].
        rewrite app_nth2 by (unfold len in *; lia).
        destruct (Z_lt_ge_dec i (wn w + L)) as [H2|H2].
        -- rewrite nth_bits_of by (unfold len in *; lia). f_equal. unfold len in *. lia.
        -- rewrite nth_overflow by (rewrite bits_of_length; unfold len in *; lia).
           apply Z.testbit_neg_r. lia.
    + rewrite Pold, Hbits.
      destruct (Z_lt_ge_dec i (wn w)) as [H1|H1].
      * rewrite app_nth1; [reflexivity|]. unfold len in *. lia.
      * rewrite nth_overflow by (unfold len in *; lia). symmetry.
        apply nth_overflow. rewrite app_length, bits_of_length.
        assert (i >= wn w + L); [|unfold len in *; lia].
        unfold off in *. lia.
Qed.

(** What str() gives. *)
Lemma holds_str w B : holds w B -> exists pad, (pad < 8)%nat /\ bits (bw_str w) = B ++ repeat false pad.
Proof.
  intros [Hn [Hb [Hc Hbits]]]. pose proof (len_nonneg B) as HB. unfold bw_str.
  set (m := wn w / 8 + (if wn w mod 8 =? 0 then 0 else 1)).
  assert (Hm : 0 <= m /\ wn w <= 8 * m < wn w + 8) by (unfold m; destruct (wn w mod 8 =? 0) eqn:E; lia).
  assert (Hl : m <= len (wp w)).
  { destruct Hc as [[-> Hc]|Hc]; [|unfold m; destruct (wn w mod 8 =? 0); lia].
    rewrite Hc. unfold m. rewrite Hn. cbn. lia. }
  exists (Z.to_nat (8 * m - wn w)). split; [lia|].
  assert (Lb : List.length (takez m (wp w)) = Z.to_nat m).
  { pose proof (len_takez m (wp w) ltac:(lia)) as LL. unfold len in LL. lia. }
  apply bits_ext.
  - rewrite bits_length, app_length, repeat_length, Lb. unfold len in *. lia.
  - intros i Hi. rewrite bits_length, Lb in Hi. rewrite nth_bits by (rewrite Lb; lia).
    unfold bitat. rewrite nthz_takez by lia. fold (bitat (wp w) (Z.of_nat i)).
    rewrite Hbits by lia. rewrite Nat2Z.id.
    destruct (Nat.lt_ge_cases i (List.length B)) as [H|H].
    + now rewrite app_nth1.
    + rewrite nth_overflow by lia. rewrite app_nth2 by lia. now rewrite nth_repeat.
Qed.

(** ** Exp-Golomb sizes *)
Lemma ue_size_loop_ok fuel v res : 0 < v < 2 ^ 64 -> 1 <= res -> 2 ^ (res - 1) <= v -> Z.log2 v + 1 - res <= Z.of_nat fuel ->
  ue_size_loop fuel v (2 ^ res - 1) res = Z.log2 v + 1.
Proof.
  intros Hv. revert res. induction fuel as [|k IH]; intros res Hr Hlo Hf.
  - cbn [ue_size_loop]. apply Z.log2_le_pow2 in Hlo; lia.
  - assert (Hlg : Z.log2 v < 64) by (apply Z.log2_lt_pow2; lia).
    assert (Hge : res - 1 <= Z.log2 v) by (apply Z.log2_le_pow2; lia).
    cbn [ue_size_loop]. destruct (v >? 2 ^ res - 1) eqn:E.
    + assert (Hres : res <= Z.log2 v) by (apply Z.log2_le_pow2; lia).
      assert (Hp : 0 < 2 ^ res) by (apply Z.pow_pos_nonneg; lia).
      assert (Hp2 : 2 ^ (res + 1) <= 2 ^ 64) by (apply Z.pow_le_mono_r; lia).
      rewrite Z.pow_add_r in Hp2 by lia. change (2 ^ 1) with 2 in Hp2.
      replace (u64 (((2 ^ res - 1) << 1) .| 1)) with (2 ^ (res + 1) - 1).
      * rewrite IH; [reflexivity|lia| |lia]. replace (res + 1 - 1) with res by lia. lia.
      * rewrite (lor_shl_add' _ _ 1 2) by lia. rewrite Z.pow_add_r by lia. change (2 ^ 1) with 2.
        rewrite u64_id; [lia|]. change 18446744073709551616 with (2 ^ 64). lia.
    + assert (Z.log2 v < res) by (apply Z.log2_lt_pow2; lia). lia.
Qed.
Lemma ue_size_ok v : 0 <= v < 2 ^ 64 - 1 -> ue_size v = 2 * Z.log2 (v + 1) + 1.
Proof.
  intros Hv. unfold ue_size. rewrite u64_id by (change 18446744073709551616 with (2 ^ 64); lia).
  assert (Hlg : Z.log2 (v + 1) < 64) by (apply Z.log2_lt_pow2; lia).
  pose proof (ue_size_loop_ok 64 (v + 1) 1 ltac:(lia) ltac:(lia) ltac:(cbn; lia) ltac:(lia)) as E.
  change (2 ^ 1 - 1) with 1 in E. rewrite E. lia.
Qed.

Lemma bits_of_0 n : bits_of n 0 = repeat false n.
Proof. induction n as [|n IH]; [reflexivity|]. cbn [bits_of repeat]. now rewrite Z.bits_0, IH. Qed.
Lemma ue_code_bits v : 0 <= v -> bits_of (Z.to_nat (2 * Z.log2 (v + 1) + 1)) (v + 1) = ue_code v.
Proof.
  intros Hv. unfold ue_code. pose proof (Z.log2_nonneg (v + 1)) as Hk.
  replace (Z.to_nat (2 * Z.log2 (v + 1) + 1)) with (Z.to_nat (Z.log2 (v + 1)) + S (Z.to_nat (Z.log2 (v + 1))))%nat by lia.
  rewrite bits_of_app. f_equal. rewrite Z.div_small; [apply bits_of_0|].
  split; [lia|]. replace (Z.of_nat (S (Z.to_nat (Z.log2 (v + 1))))) with (Z.succ (Z.log2 (v + 1))) by lia.
  apply Z.log2_spec. lia.
Qed.

Lemma ue_code_len v : 0 <= v -> len (ue_code v) = 2 * Z.log2 (v + 1) + 1.
Proof.
  intros Hv. rewrite <- ue_code_bits by lia. rewrite bits_of_len. pose proof (Z.log2_nonneg (v + 1)). lia.
Qed.

Lemma bw_ue_holds w B v : holds w B -> 0 <= v < 2 ^ 32 - 1 -> len B + len (ue_code v) < 8 * (2 ^ 32 - 1) ->
  exists w', bw_append_ue w v = Some w' /\ holds w' (B ++ ue_code v).
Proof.
  intros Hw Hv Hl. pose proof Hw as [Hn _]. pose proof (len_nonneg B) as HB.
  unfold bw_append_ue. rewrite ue_size_ok by lia. rewrite u64_id by (change 18446744073709551616 with (2 ^ 64); lia).
  rewrite <- ue_code_bits by lia. rewrite ue_code_len in Hl by lia.
  assert (Hlg : Z.log2 (v + 1) < 32) by (apply Z.log2_lt_pow2; lia).
  pose proof (Z.log2_nonneg (v + 1)) as Hk.
  apply bw_append_holds; try assumption; try lia.
  split; [lia|]. pose proof (Z.log2_spec (v + 1) ltac:(lia)) as [_ Hs].
  eapply Z.lt_le_trans; [exact Hs|]. apply Z.pow_le_mono_r; lia.
Qed.

Lemma bw_item_holds w B x : holds w B -> item_ok x -> len B + len (item_code x) < 8 * (2 ^ 32 - 1) ->
  exists w', bw_item w x = Some w' /\ holds w' (B ++ item_code x).
Proof.
  intros Hw Hx Hl. pose proof Hw as [Hn _]. pose proof (len_nonneg B) as HB. destruct x as [val width|v|v]; cbn [item_ok item_code bw_item] in *.
  - rewrite bits_of_len in Hl. apply bw_append_holds; try assumption; try lia.
    split; [lia|]. eapply Z.lt_le_trans; [apply Hx|]. apply Z.pow_le_mono_r; lia.
  - now apply bw_ue_holds.
  - unfold bw_append_se, se_code in *.
    set (a := if v <? 0 then v * -2 else if v >? 0 then v * 2 - 1 else v).
    set (b := if v >? 0 then 2 * v - 1 else - 2 * v) in *.
    assert (a = b) as -> by (unfold a, b; dif; lia).
    assert (Hb : 0 <= b < 2 ^ 32 - 1) by (unfold b; dif; lia).
    rewrite u64_id by lia. now apply bw_ue_holds.
Qed.

Lemma bw_items_holds l w B : holds w B -> Forall item_ok l -> len B + len (code l) < 8 * (2 ^ 32 - 1) ->
  exists w', bw_items w l = Some w' /\ holds w' (B ++ code l).
Proof.
  revert w B. induction l as [|x l IH]; intros w B Hw Hl Hs.
  - exists w. split; [reflexivity|]. cbn. now rewrite app_nil_r.
  - apply Forall_cons_iff in Hl as [Hx Hl]. unfold code in Hs. cbn [flat_map] in Hs. fold (code l) in Hs.
    rewrite len_app in Hs. pose proof (len_nonneg (code l)).
    destruct (bw_item_holds w B x Hw Hx ltac:(lia)) as [w1 [E1 H1]].
    destruct (IH w1 (B ++ item_code x) H1 Hl ltac:(rewrite len_app; lia)) as [w2 [E2 H2]].
    exists w2. cbn [bw_items]. rewrite E1. split; [exact E2|].
    unfold code. cbn [flat_map]. fold (code l). now rewrite app_assoc.
Qed.

Lemma nth_skipn' {A} n i (l : list A) d : nth i (skipn n l) d = nth (n + i) l d.
Proof. revert l; induction n as [|n IH]; intros l; [reflexivity|]. destruct l; [now destruct i|]. apply IH. Qed.

(** ** Reader *)

Lemma remaining_len r : reader r -> len (unread r) = br_size r.
Proof. intros [_ Ho]. unfold unread, br_size. rewrite len_dropz; rewrite bits_len; lia. Qed.

Lemma peek_loop_ok fuel r count cur v : reader r -> 0 <= cur <= count -> count - cur <= Z.of_nat fuel -> count <= br_size r ->
  0 <= v < 2 ^ 64 -> v = bits_val (takez cur (unread r)) mod 2 ^ 64 ->
  br_peek_loop fuel r count cur v = bits_val (takez count (unread r)) mod 2 ^ 64.
Proof.
  intros Hr. pose proof Hr as [Hb Ho]. revert cur v. induction fuel as [|k IH]; intros cur v Hc Hf Hs Hv Hval.
  - assert (cur = count) as -> by lia. exact Hval.
  - cbn [br_peek_loop]. destruct (cur <? count) eqn:E; [|assert (cur = count) as -> by lia; exact Hval].
    unfold br_size in Hs.
    set (pos := roff r + cur). set (b := nthz (rdat r) (pos / 8)).
    assert (Hbb : byteP b) by (apply bytesP_nthz; assumption).
    set (rs := if pos mod 8 =? 0 then 8 else 8 - pos mod 8).
    assert (Ers : rs = 8 - pos mod 8) by (unfold rs; dif; lia).
    replace (if pos mod 8 =? 0 then b else b .& ((1 << rs) - 1)) with (b mod 2 ^ (8 - pos mod 8)).
    2:{ rewrite Ers. replace ((1 << (8 - pos mod 8)) - 1) with (Z.ones (8 - pos mod 8)) by (unfold Z.ones; lia).
        destruct (pos mod 8 =? 0) eqn:E0.
        - replace (8 - pos mod 8) with 8 by lia. apply Z.mod_small. exact Hbb.
        - rewrite Z.land_ones by lia. reflexivity. }
    set (cut := count - cur <? rs).
    set (n := if cut then count - cur else rs).
    assert (Hn : 0 < n <= 8 - pos mod 8 /\ cur + n <= count) by (unfold n, cut; dif; lia).
    replace (if cut then (b mod 2 ^ (8 - pos mod 8)) >> (8 - n - pos mod 8) else b mod 2 ^ (8 - pos mod 8))
      with (bits_val (takez n (dropz pos (bits (rdat r))))).
    2:{ rewrite seg_take by lia. fold b. rewrite <- seg_step by (assumption || lia).
        destruct cut eqn:C.
        - rewrite shr_div by lia. do 2 f_equal. lia.
        - replace (8 - pos mod 8 - n) with 0 by (unfold n; lia). change (2 ^ 0) with 1. apply Z.div_1_r. }
    apply IH; try lia.
    + unfold br_size. lia.
    + apply u64_range.
    + unfold u64. change 18446744073709551616 with (2 ^ 64).
      rewrite takez_add by lia. rewrite bits_val_app.
      assert (Ed : dropz cur (unread r) = dropz pos (bits (rdat r))).
      { unfold unread, pos. rewrite dropz_dropz by lia. f_equal. lia. }
      assert (Ln : len (takez n (dropz cur (unread r))) = n).
      { apply len_takez. rewrite len_dropz; rewrite remaining_len by assumption; unfold br_size; lia. }
      rewrite Ln, Ed.
      rewrite shl_mul by lia. subst v.
      rewrite Z.mul_mod_idemp_l by lia. rewrite Z.add_mod_idemp_l by lia. reflexivity.
Qed.

Lemma br_get_ok r c rest : reader r -> unread r = c ++ rest -> len c <= 64 ->
  exists r', br_get r (len c) = (bits_val c, r') /\ reader r' /\ unread r' = rest.
Proof.
  intros Hr Hrem Hc. pose proof (remaining_len r Hr) as Hl. rewrite Hrem, len_app in Hl.
  pose proof (len_nonneg rest). pose proof (len_nonneg c). pose proof Hr as [Hb Ho].
  unfold br_get. replace (len c <=? br_size r) with true by lia.
  unfold br_peek. replace (len c >? br_size r) with false by lia.
  unfold br_skip. replace (len c <=? br_size r) with true by lia.
  eexists. split; [f_equal|split].
  - rewrite peek_loop_ok; try assumption; try lia.
    + rewrite Hrem, takez_app_exact by reflexivity. apply Z.mod_small.
      pose proof (bits_val_bound c) as Hbd. split; [lia|]. eapply Z.lt_le_trans; [apply Hbd|].
      apply Z.pow_le_mono_r; lia.
    + now rewrite takez_0.
  - split; [exact Hb|]. cbn [rdat roff]. unfold br_size in Hl. lia.
  - unfold unread. cbn [rdat roff]. rewrite Z.add_comm, <- dropz_dropz by lia.
    fold (unread r). rewrite Hrem. now apply dropz_app_exact.
Qed.

Lemma peekOffset_ok r i : reader r -> 0 <= i < br_size r -> br_peekOffset r i = nth (Z.to_nat i) (unread r) false.
Proof.
  intros [Hb Ho] Hi. unfold br_size in Hi. unfold br_peekOffset, unread.
  set (o := i + roff r).
  assert (Eo : nth (Z.to_nat i) (dropz (roff r) (bits (rdat r))) false = nth (Z.to_nat o) (bits (rdat r)) false).
  { unfold dropz. rewrite nth_skipn'. f_equal. unfold o. lia. }
  rewrite Eo. rewrite nth_bits by (unfold len in *; lia). rewrite Z2Nat.id by lia.
  unfold bitat. rewrite (shr_div o 3) by lia. change (2 ^ 3) with 8.
  replace (o .& 7) with (o mod 8) by (change 7 with (Z.ones 3); now rewrite Z.land_ones by lia).
  set (x := nthz (rdat r) (o / 8)). rewrite Z.testbit_eqb by lia. rewrite shr_div by lia.
  replace ((x / 2 ^ (7 - o mod 8)) .& 1) with ((x / 2 ^ (7 - o mod 8)) mod 2)
    by (change 1 with (Z.ones 1); now rewrite Z.land_ones by lia).
  set (y := x / 2 ^ (7 - o mod 8)). destruct (y mod 2 =? 1) eqn:E; lia.
Qed.

Lemma golomb_loop_ok fuel r i k tl : reader r -> unread r = repeat false k ++ true :: tl -> 0 <= i <= Z.of_nat k ->
  Z.of_nat k - i < Z.of_nat fuel -> golomb_loop fuel r i = br_get r (Z.of_nat k * 2 + 1).
Proof.
  intros Hr Hrem. pose proof (remaining_len r Hr) as Hl.
  rewrite Hrem, len_app, len_repeat, len_cons in Hl. pose proof (len_nonneg tl).
  revert i. induction fuel as [|f IH]; intros i Hi Hf; [lia|].
  cbn [golomb_loop]. replace (i <? br_size r) with true by lia.
  rewrite peekOffset_ok by (assumption || lia). rewrite Hrem.
  destruct (Z.eq_dec i (Z.of_nat k)) as [->|Hne].
  - rewrite app_nth2 by (rewrite repeat_length; lia). rewrite repeat_length.
    replace (Z.to_nat (Z.of_nat k) - k)%nat with 0%nat by lia. reflexivity.
  - rewrite app_nth1 by (rewrite repeat_length; lia). rewrite nth_repeat.
    apply IH; lia.
Qed.

Lemma ue_code_shape v : 0 <= v -> exists tl, ue_code v = repeat false (Z.to_nat (Z.log2 (v + 1))) ++ true :: tl.
Proof.
  intros Hv. unfold ue_code. cbn [bits_of]. eexists. f_equal. f_equal.
  rewrite Z2Nat.id by apply Z.log2_nonneg. apply Z.bit_log2. lia.
Qed.
Lemma ue_code_val v : 0 <= v -> bits_val (ue_code v) = v + 1.
Proof.
  intros Hv. unfold ue_code. rewrite bits_val_app, bits_val_zeros, bits_val_of.
  pose proof (Z.log2_nonneg (v + 1)) as Hk. pose proof (Z.log2_spec (v + 1) ltac:(lia)) as Hs.
  replace (Z.of_nat (S (Z.to_nat (Z.log2 (v + 1))))) with (Z.succ (Z.log2 (v + 1))) by lia.
  rewrite Z.mod_small by lia. lia.
Qed.

Lemma golombGetter_ok r v rest : reader r -> 0 <= v < 2 ^ 32 - 1 -> unread r = ue_code v ++ rest ->
  exists r', golombGetter r = (v + 1, r') /\ reader r' /\ unread r' = rest.
Proof.
  intros Hr Hv Hrem. pose proof (Z.log2_nonneg (v + 1)) as Hk.
  assert (Hlg : Z.log2 (v + 1) < 32) by (apply Z.log2_lt_pow2; lia).
  destruct (ue_code_shape v ltac:(lia)) as [tl Hs].
  unfold golombGetter. rewrite (golomb_loop_ok 64 r 0 (Z.to_nat (Z.log2 (v + 1))) (tl ++ rest)); try assumption; try lia.
  2:{ rewrite Hrem, Hs. now rewrite <- app_assoc. }
  replace (Z.of_nat (Z.to_nat (Z.log2 (v + 1))) * 2 + 1) with (len (ue_code v)) by (rewrite ue_code_len; lia).
  rewrite <- (ue_code_val v) by lia. apply br_get_ok; try assumption. rewrite ue_code_len; lia.
Qed.

Lemma br_item_ok r x rest : reader r -> item_ok x -> unread r = item_code x ++ rest ->
  exists r', br_item r x = (item_value x, r') /\ reader r' /\ unread r' = rest.
Proof.
  intros Hr Hx Hrem. destruct x as [val width|v|v]; cbn [item_ok item_code item_value br_item] in *.
  - destruct (br_get_ok r _ rest Hr Hrem) as [r' [E H]]; [rewrite bits_of_len; lia|].
    exists r'. rewrite bits_of_len, Z2Nat.id in E by lia. rewrite bits_val_of, Z2Nat.id in E by lia.
    rewrite Z.mod_small in E by lia. now split.
  - destruct (golombGetter_ok r v rest Hr Hx Hrem) as [r' [E H]].
    exists r'. unfold br_get_ue. rewrite E. split; [|exact H]. f_equal.
    replace (v + 1 - 1) with v by lia. apply u64_id. lia.
  - unfold se_code in Hrem.
    set (b := if v >? 0 then 2 * v - 1 else - 2 * v) in *.
    assert (Hb : 0 <= b < 2 ^ 32 - 1) by (unfold b; dif; lia).
    destruct (golombGetter_ok r b rest Hr Hb Hrem) as [r' [E H]].
    exists r'. unfold br_get_se. rewrite E. split; [|exact H]. f_equal.
    rewrite land_1. rewrite shl_mul, shr_div by lia. change (2 ^ 1) with 2.
    replace ((b + 1) / 2 * (1 - (b + 1) mod 2 * 2)) with v.
    + unfold s64. unfold u64. destruct (v mod 18446744073709551616 <? 9223372036854775808) eqn:E2; lia.
    + unfold b. destruct (v >? 0) eqn:E3.
      * replace ((2 * v - 1 + 1) mod 2) with 0 by lia. lia.
      * replace ((-2 * v + 1) mod 2) with 1 by lia. lia.
Qed.

Lemma br_items_ok l r rest : reader r -> Forall item_ok l -> unread r = code l ++ rest ->
  exists r', br_items r l = (map item_value l, r') /\ reader r' /\ unread r' = rest.
Proof.
  revert r. induction l as [|x l IH]; intros r Hr Hl Hrem.
  - exists r. cbn in *. auto.
  - apply Forall_cons_iff in Hl as [Hx Hl]. unfold code in Hrem. cbn [flat_map] in Hrem. fold (code l) in Hrem.
    rewrite <- app_assoc in Hrem.
    destruct (br_item_ok r x _ Hr Hx Hrem) as [r1 [E1 [H1 R1]]].
    destruct (IH r1 H1 Hl R1) as [r2 [E2 [H2 R2]]].
    exists r2. cbn [br_items map]. rewrite E1, E2. auto.
Qed.

Lemma write_ok l : Forall item_ok l -> len (code l) < 8 * (2 ^ 32 - 1) ->
  exists w pad, bw_items bw_new l = Some w /\ (pad < 8)%nat /\ bits (bw_str w) = code l ++ repeat false pad /\ bytesP (bw_str w).
Proof.
  intros Hl Hs. destruct (bw_items_holds l bw_new [] holds_new Hl) as [w [E Hw]]; [rewrite len_nil; lia|].
  destruct (holds_str w _ Hw) as [pad [Hp Hb]]. exists w, pad. repeat split; try assumption.
  apply bytesP_takez. apply Hw.
Qed.
Lemma round_trip l extra : Forall item_ok l -> len (code l) < 8 * (2 ^ 32 - 1) -> bytesP extra ->
  exists w, bw_items bw_new l = Some w /\
  exists r', br_items (br_append (mkbr [] 0) (bw_str w ++ extra)) l = (map item_value l, r').
Proof.
  intros Hl Hs He. destruct (write_ok l Hl Hs) as [w [pad [E [Hp [Hb Hby]]]]].
  exists w. split; [exact E|].
  destruct (br_items_ok l (mkbr (bw_str w ++ extra) 0) (repeat false pad ++ bits extra)) as [r' [E' _]].
  - split; cbn [rdat roff]; [apply bytesP_app; now split|]. pose proof (len_nonneg (bw_str w ++ extra)). lia.
  - exact Hl.
  - unfold unread. cbn [rdat roff]. rewrite dropz_0, bits_app, Hb, <- app_assoc. reflexivity.
  - exists r'. exact E'.
Qed.

Lemma peek_ok r count : reader r -> 0 <= count <= 64 ->
  br_peek r count = if count <=? br_size r then bits_val (takez count (unread r)) else 0.
Proof.
  intros Hr Hc. unfold br_peek. destruct (count <=? br_size r) eqn:E.
  - replace (count >? br_size r) with false by lia. rewrite peek_loop_ok; try assumption; try lia.
    + apply Z.mod_small. pose proof (bits_val_bound (takez count (unread r))) as Hb.
      rewrite len_takez in Hb by (rewrite remaining_len by assumption; lia).
      split; [lia|]. eapply Z.lt_le_trans; [apply Hb|]. apply Z.pow_le_mono_r; lia.
    + now rewrite takez_0.
  - now replace (count >? br_size r) with true by lia.
Qed.
Lemma flush_ok r : reader r -> reader (br_flush r) /\ unread (br_flush r) = unread r /\ br_size (br_flush r) = br_size r.
Proof.
  intros [Hb Ho].
  assert (Hl : len (dropz (roff r / 8) (rdat r)) = len (rdat r) - roff r / 8) by (apply len_dropz; lia).
  split; [split; [now apply bytesP_dropz|]|split].
  - cbn [rdat roff br_flush]. rewrite Hl. lia.
  - unfold unread. cbn [rdat roff br_flush].
    rewrite <- (takez_dropz (roff r / 8) (rdat r)) at 2. rewrite bits_app.
    assert (L8 : len (bits (takez (roff r / 8) (rdat r))) = 8 * (roff r / 8)) by (rewrite bits_len, len_takez; lia).
    rewrite dropz_app_ge by lia. rewrite L8. f_equal. lia.
  - unfold br_size. cbn [rdat roff br_flush]. rewrite Hl. lia.
Qed.
