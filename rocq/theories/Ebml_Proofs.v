From Verif Require Import Common CommonFacts Bitfields_Model Bitfields_Spec Bitfields_Proofs Ebml_Model Ebml_Spec.
Import List.

(** ** Variable length integers *)
Lemma readSizeB_range n b : 1 <= n <= 8 -> 2 ^ (8 - n) <= b < 2 ^ (9 - n) -> readSizeB b = n.
Proof.
  intros Hn Hb. assert (Hby : byteP b).
  { unfold byteP. split; [|]. pose proof (Z.pow_pos_nonneg 2 (8 - n) ltac:(lia) ltac:(lia)). lia.
    assert (2 ^ (9 - n) <= 2 ^ 8) by (apply Z.pow_le_mono_r; lia). lia. }
  assert (S : forall b, byteP b ->
    (fun b => forallb (fun n => implb ((2 ^ (8 - n) <=? b) && (b <? 2 ^ (9 - n))) (readSizeB b =? n)) [1;2;3;4;5;6;7;8]) b = true)
    by (apply byte_sweep; vm_compute; reflexivity).
  specialize (S b Hby). cbv beta in S. rewrite forallb_forall in S.
  assert (I : In n [1;2;3;4;5;6;7;8]) by (cbn; lia).
  specialize (S n I). destruct ((2 ^ (8 - n) <=? b) && (b <? 2 ^ (9 - n)))%bool eqn:E; cbn in S; lia.
Qed.
Lemma readSizeB_bounds b : 1 <= readSizeB b <= 8.
Proof. unfold readSizeB. dif; lia. Qed.

Lemma vint_len n v : len (vint n v) = Z.of_nat n. Proof. apply be_len. Qed.
Lemma vint_bytes n v : bytesP (vint n v). Proof. apply be_bytes. Qed.

Lemma readSize_app p tl : p <> [] -> readSize (p ++ tl) = readSize p.
Proof.
  destruct p as [|b p]; [congruence|]. intros _. unfold readSize. rewrite !rd_some; [reflexivity| |]; lens;
  pose proof (len_nonneg p); pose proof (len_nonneg tl); lia.
Qed.
Lemma readSize_cons b p : readSize (b :: p) = Some (readSizeB b).
Proof. unfold readSize. rewrite rd_some; [reflexivity|]. lens. pose proof (len_nonneg p). lia. Qed.

Lemma take_vint n v tl : firstn n (vint n v ++ tl) = vint n v.
Proof.
  rewrite <- (app_nil_r (vint n v)) at 2. rewrite <- (be_length n (2 ^ (7 * Z.of_nat n) + v)) at 1.
  fold (vint n v). rewrite firstn_app, Nat.sub_diag, firstn_all. now cbn.
Qed.
Lemma unbe_vint n v : 0 <= v < 2 ^ (7 * Z.of_nat n) -> (1 <= n)%nat -> unbe (vint n v) = 2 ^ (7 * Z.of_nat n) + v.
Proof.
  intros Hv Hn. unfold vint. rewrite unbe_be. apply Z.mod_small. split; [lia|].
  replace (256 ^ Z.of_nat n) with (2 ^ (8 * Z.of_nat n)) by (rewrite Z.pow_mul_r by lia; reflexivity).
  assert (2 ^ (7 * Z.of_nat n + 1) <= 2 ^ (8 * Z.of_nat n)) by (apply Z.pow_le_mono_r; lia).
  rewrite Z.pow_add_r in H by lia. change (2 ^ 1) with 2 in H. lia.
Qed.

Lemma vint_first n v tl : (1 <= n <= 8)%nat -> 0 <= v < 2 ^ (7 * Z.of_nat n) -> readSize (vint n v ++ tl) = Some (Z.of_nat n).
Proof.
  intros Hn Hv. destruct n as [|k]; [lia|]. unfold vint. cbn [be app]. rewrite readSize_cons. f_equal.
  apply readSizeB_range; [lia|].
  assert (P : 0 < 256 ^ Z.of_nat k) by (apply pow256_pos; lia).
  assert (E1 : 2 ^ (7 * Z.of_nat (S k)) = 2 ^ (8 - Z.of_nat (S k)) * 256 ^ Z.of_nat k).
  { replace (256 ^ Z.of_nat k) with (2 ^ (8 * Z.of_nat k)) by (rewrite Z.pow_mul_r by lia; reflexivity).
    rewrite <- Z.pow_add_r by lia. f_equal. lia. }
  rewrite E1 in *.
  replace (9 - Z.of_nat (S k)) with (8 - Z.of_nat (S k) + 1) by lia. rewrite Z.pow_add_r by lia. change (2 ^ 1) with 2.
  set (A := 2 ^ (8 - Z.of_nat (S k))) in *. set (B := 256 ^ Z.of_nat k) in *.
  assert (HA : 0 < A <= 128).
  { unfold A. split; [apply Z.pow_pos_nonneg; lia|]. change 128 with (2 ^ 7). apply Z.pow_le_mono_r; lia. }
  rewrite Z.add_comm, Z.div_add by lia.
  assert (0 <= v / B < A).
  { split; [apply Z.div_pos; lia|]. apply Z.div_lt_upper_bound; lia. }
  rewrite Z.mod_small; lia.
Qed.

Lemma vint_read n v tl : (1 <= n <= 8)%nat -> 0 <= v < 2 ^ (7 * Z.of_nat n) -> (n = 1%nat -> v <> 127) -> bytesP tl ->
  readInt (vint n v ++ tl) = Some v.
Proof.
  intros Hn Hv H1 Htl. unfold readInt. rewrite vint_first by assumption.
  assert (Hl : Z.of_nat n <= len (vint n v ++ tl)) by (rewrite len_app, vint_len; pose proof (len_nonneg tl); lia).
  replace (len (vint n v ++ tl) <? Z.of_nat n) with false by lia.
  assert (Hb : bytesP (vint n v ++ tl)) by (apply bytesP_app; split; [apply vint_bytes|exact Htl]).
  pose proof (unbe_vint n v Hv ltac:(lia)) as U. pose proof (take_vint n v tl) as T. f_equal.
  assert (Hlow : forall x m, x = 2 ^ (7 * Z.of_nat n) + v -> m = Z.ones (7 * Z.of_nat n) -> x .& m = v).
  { intros x m -> ->. rewrite Z.land_ones by lia.
    rewrite <- (Z.mul_1_l (2 ^ (7 * Z.of_nat n))) at 1. rewrite Z.add_comm, Z.mod_add by (apply Z.pow_nonzero; lia).
    now apply Z.mod_small. }
  assert (Hc : (n = 1 \/ n = 2 \/ n = 3 \/ n = 4 \/ n = 5 \/ n = 6 \/ n = 7 \/ n = 8)%nat) by lia.
  destruct Hc as [->|[->|[->|[->|[->|[->|[->| ->]]]]]]]; cbn [Z.of_nat Pos.of_succ_nat Pos.succ Z.eqb Pos.eqb] in *.
  - unfold vint. cbn [be app Z.of_nat]. rewrite nthz_0. change (256 ^ 0) with 1. rewrite Z.div_1_r.
    change (2 ^ (7 * Z.pos (Pos.of_succ_nat 0))) with 128. change (2 ^ (7 * 1)) with 128 in *. rewrite Z.mod_small by lia.
    replace (128 + v =? 255) with false by (specialize (H1 eq_refl); lia).
    rewrite land_127. lia.
  - apply Hlow; [|reflexivity]. rewrite rd_btohs by assumption. now rewrite T.
  - apply Hlow; [|reflexivity]. rewrite rd_btoh24 by assumption. now rewrite T.
  - apply Hlow; [|reflexivity]. rewrite rd_btohl by assumption. now rewrite T.
  - apply Hlow; [|reflexivity]. rewrite rd_btoh40 by assumption. now rewrite T.
  - apply Hlow; [|reflexivity]. rewrite rd_btoh48 by assumption. now rewrite T.
  - apply Hlow; [|reflexivity]. rewrite rd_btoh56 by assumption. now rewrite T.
  - apply Hlow; [|reflexivity]. rewrite rd_btohll by assumption. now rewrite T.
Qed.

Lemma lor_top v n : 0 <= n -> 0 <= v < 2 ^ n -> v .| 2 ^ n = 2 ^ n + v.
Proof. intros Hn Hv. rewrite Z.lor_comm. rewrite <- (Z.mul_1_l (2 ^ n)) at 1. rewrite lor_add by lia. lia. Qed.

Lemma width_ok v : 0 <= v <= vint_max -> (1 <= width v <= 8)%nat /\ v < 2 ^ (7 * Z.of_nat (width v)) - 1 /\
  writeSize v = Z.of_nat (width v).
Proof.
  unfold vint_max. intros Hv. unfold width, writeSize. cbn [width_from].
  change (2 ^ (7 * Z.of_nat 1)) with 128. change (2 ^ (7 * Z.of_nat 2)) with 16384.
  change (2 ^ (7 * Z.of_nat 3)) with 2097152. change (2 ^ (7 * Z.of_nat 4)) with 268435456.
  change (2 ^ (7 * Z.of_nat 5)) with 34359738368. change (2 ^ (7 * Z.of_nat 6)) with 4398046511104.
  change (2 ^ (7 * Z.of_nat 7)) with 562949953421312. change (2 ^ (7 * Z.of_nat 8)) with 72057594037927936.
  change (2 ^ 56) with 72057594037927936 in *.
  repeat match goal with |- context [v <? ?c] => destruct (v <? c) eqn:? end;
  repeat match goal with |- context [v <=? ?c] => destruct (v <=? c) eqn:? end; try lia;
  (split; [lia|]; split; [|reflexivity]);
  match goal with |- _ < ?e => let x := eval vm_compute in e in change e with x end; lia.
Qed.
Lemma svint_len v : len (svint v) = Z.of_nat (width v). Proof. apply vint_len. Qed.
Lemma svint_bytes v : bytesP (svint v). Proof. apply vint_bytes. Qed.
Lemma svint_size v tl : 0 <= v <= vint_max -> readSize (svint v ++ tl) = Some (len (svint v)).
Proof.
  intros Hv. pose proof (width_ok v Hv) as [H1 [H2 _]]. rewrite svint_len. apply vint_first; [exact H1|lia].
Qed.
Lemma svint_read v tl : 0 <= v <= vint_max -> bytesP tl -> readInt (svint v ++ tl) = Some v.
Proof.
  intros Hv Ht. pose proof (width_ok v Hv) as [H1 [H2 _]]. apply vint_read; try assumption; [lia|].
  intros E. rewrite E in H2. change (2 ^ (7 * Z.of_nat 1)) with 128 in H2. lia.
Qed.
Lemma writeInt_ok v : 0 <= v <= vint_max -> writeInt v = svint v.
Proof.
  intros Hv. pose proof (width_ok v Hv) as [H1 [H2 H3]]. unfold writeInt, svint, vint. rewrite H3.
  assert (Hc : (width v = 1 \/ width v = 2 \/ width v = 3 \/ width v = 4 \/ width v = 5 \/ width v = 6 \/ width v = 7 \/ width v = 8)%nat) by lia.
  destruct Hc as [E|[E|[E|[E|[E|[E|[E|E]]]]]]]; rewrite E in *; cbn [Z.of_nat Pos.of_succ_nat Pos.succ Z.eqb Pos.eqb Z.mul Pos.mul Pos.add Pos.add_carry] in *.
  - change 0x80 with (2 ^ 7). rewrite lor_top by lia. cbn [be Z.of_nat]. change (256 ^ 0) with 1. now rewrite Z.div_1_r.
  - change 0x4000 with (2 ^ 14). rewrite lor_top by lia. apply wr_htobs.
  - change 0x200000 with (2 ^ 21). rewrite lor_top by lia. apply wr_htob24.
  - change 0x10000000 with (2 ^ 28). rewrite lor_top by lia. apply wr_htobl.
  - change 0x800000000 with (2 ^ 35). rewrite lor_top by lia. apply wr_htob40.
  - change 0x40000000000 with (2 ^ 42). rewrite lor_top by lia. apply wr_htob48.
  - change 0x2000000000000 with (2 ^ 49). change (2 ^ (7 * Z.of_nat 7)) with (2 ^ 49). match type of H2 with _ < ?e - 1 => change e with (2 ^ 49) in H2 end. rewrite lor_top by lia. apply wr_htob56.
  - change 0x100000000000000 with (2 ^ 56). rewrite lor_top by lia. apply wr_htobll.
Qed.
Lemma sendUniInt_ok v : 0 <= v <= vint_max -> sendUniInt v = svint v.
Proof.
  intros Hv. pose proof (width_ok v Hv) as [H1 [_ H3]]. unfold sendUniInt. rewrite H3.
  replace (Z.of_nat (width v) =? 0) with false by lia. now apply writeInt_ok.
Qed.

(** ** Elements *)
Section ELEM.
Variables (w : nat) (id : Z) (p tl : list Z).
Hypothesis (OK : elem_ok w id p) (Htl : bytesP tl).
Let d := elemw w id p ++ tl.
Let rest := vint w (len p) ++ p ++ tl.
Lemma el_d : d = svint id ++ rest.
Proof. unfold d, rest, elemw. now rewrite <- !app_assoc. Qed.
Lemma el_id : 0 <= id <= vint_max. Proof. destruct OK as [H _]. unfold vint_max. lia. Qed.
Lemma el_ptl : bytesP (p ++ tl). Proof. apply bytesP_app. split; [apply OK|exact Htl]. Qed.
Lemma el_rest : bytesP rest. Proof. apply bytesP_app. split; [apply vint_bytes|apply el_ptl]. Qed.
Lemma el_bytes : bytesP d. Proof. rewrite el_d. apply bytesP_app. split; [apply svint_bytes|apply el_rest]. Qed.
Lemma el_readSize : readSize d = Some (len (svint id)).
Proof. rewrite el_d. apply svint_size, el_id. Qed.
Lemma el_readInt : readInt d = Some id.
Proof. rewrite el_d. apply svint_read; [apply el_id|apply el_rest]. Qed.
Lemma el_drop : dropz (len (svint id)) d = rest.
Proof. rewrite el_d. now apply dropz_app_exact. Qed.
Lemma el_readSize2 : readSize rest = Some (Z.of_nat w).
Proof. destruct OK as [_ [H1 [H2 _]]]. pose proof (len_nonneg p). apply vint_first; lia. Qed.
Lemma el_readInt2 : readInt rest = Some (len p).
Proof.
  destruct OK as [_ [H1 [H2 _]]]. pose proof (len_nonneg p). apply vint_read; [lia|lia| |apply el_ptl].
  intros E. rewrite E in H2. change (2 ^ (7 * Z.of_nat 1)) with 128 in H2. lia.
Qed.
Lemma el_getID : getID d = Some id.
Proof. unfold getID. rewrite el_readInt. f_equal. apply u32_id. destruct OK as [H _]. lia. Qed.
Lemma el_getPayloadLen : getPayloadLen d = Some (len p).
Proof. unfold getPayloadLen. rewrite el_readSize, el_drop. apply el_readInt2. Qed.
Lemma el_getHeaderLen : getHeaderLen d = Some (len (svint id) + Z.of_nat w).
Proof. unfold getHeaderLen. now rewrite el_readSize, el_drop, el_readSize2. Qed.
Lemma el_len : len (elemw w id p) = len (svint id) + Z.of_nat w + len p.
Proof. unfold elemw. lens. rewrite vint_len. lia. Qed.
Lemma el_getPayload : getPayload d = Some (p ++ tl).
Proof.
  unfold getPayload. rewrite el_getHeaderLen, el_d. f_equal. pose proof (len_nonneg (svint id)).
  rewrite dropz_app_ge by lia. unfold rest. apply dropz_app_exact. rewrite vint_len. lia.
Qed.
Lemma el_plen : 0 <= len p < 2 ^ 56.
Proof.
  destruct OK as [_ [H1 [H2 _]]]. split; [apply len_nonneg|].
  assert (2 ^ (7 * Z.of_nat w) <= 2 ^ 56) by (apply Z.pow_le_mono_r; lia). lia.
Qed.
Lemma el_idlen : 1 <= len (svint id) <= 4.
Proof.
  rewrite svint_len. destruct OK as [H _]. pose proof (width_ok id el_id) as [[H1 _] _].
  split; [lia|]. unfold width. cbn [width_from].
  change (2 ^ (7 * Z.of_nat 1)) with 128. change (2 ^ (7 * Z.of_nat 2)) with 16384.
  change (2 ^ (7 * Z.of_nat 3)) with 2097152. change (2 ^ (7 * Z.of_nat 4)) with 268435456.
  change (2 ^ 28) with 268435456 in H. dif; lia.
Qed.
Lemma el_getOuterLen m : getOuterLen m d = Some (len (elemw w id p)).
Proof.
  unfold getOuterLen. rewrite el_readSize, el_drop, el_readSize2, el_readInt2. f_equal. rewrite el_len.
  pose proof el_plen. pose proof el_idlen. destruct OK as [_ [H1 _]].
  change (2 ^ 56) with 72057594037927936 in *. unfold UNKNOWN. replace (len p =? 18446744073709551615) with false by lia. rewrite andb_false_r.
  rewrite u64_id; lia.
Qed.
Lemma el_needBytes avail : len (elemw w id p) <= avail -> needBytes d avail false = Some (len (elemw w id p)).
Proof.
  intros Ha. rewrite el_len in *. pose proof el_plen. pose proof el_idlen. destruct OK as [_ [H1 _]].
  unfold needBytes. rewrite el_readSize, el_drop, el_readSize2, el_getID, el_readInt2. cbn [andb].
  replace (avail <? 2) with false by lia. replace (avail <? len (svint id) + 1) with false by lia.
  replace (avail <? len (svint id) + Z.of_nat w) with false by lia.
  change (2 ^ 56) with 72057594037927936 in *. unfold UNKNOWN. replace (len p =? 18446744073709551615) with false by lia.
  f_equal. apply u64_id. lia.
Qed.
End ELEM.

(** With only [k] bytes of an element available. *)
Lemma readSize_take d k : 1 <= k -> readSize (takez k d) = readSize d.
Proof.
  intros Hk. destruct d as [|b r]; [unfold takez; now rewrite firstn_nil|].
  rewrite takez_S by lia. now rewrite !readSize_cons.
Qed.
Lemma needBytes_short w id p k : elem_ok w id p -> 0 <= k < len (elemw w id p) ->
  exists n, needBytes (takez k (elemw w id p)) k false = Some n /\ k < n <= len (elemw w id p).
Proof.
  intros OK Hk. pose proof (el_plen w id p OK) as P. pose proof (el_idlen w id p OK) as I. pose proof (el_len w id p) as L.
  assert (Hw := OK). destruct Hw as [_ [Hw [Hlp Hpb]]].
  pose proof (el_readSize w id p [] OK) as R1. pose proof (el_drop w id p []) as R2.
  pose proof (el_readSize2 w id p [] OK) as R3. pose proof (el_readInt2 w id p [] OK ltac:(constructor)) as R4.
  pose proof (el_getID w id p [] OK ltac:(constructor)) as R5.
  rewrite !app_nil_r in *.
  unfold needBytes. destruct (k <? 2) eqn:E1; [exists 2; split; [reflexivity|lia]|].
  rewrite readSize_take, R1 by lia.
  destruct (k <? len (svint id) + 1) eqn:E2; [eexists; split; [reflexivity|lia]|].
  assert (D : dropz (len (svint id)) (takez k (elemw w id p)) = takez (k - len (svint id)) (vint w (len p) ++ p)).
  { unfold elemw. rewrite takez_app_ge by lia. now apply dropz_app_exact. }
  rewrite D, readSize_take, R3 by lia.
  destruct (k <? len (svint id) + Z.of_nat w) eqn:E3; [eexists; split; [reflexivity|lia]|].
  assert (A : takez k (elemw w id p) = svint id ++ vint w (len p) ++ takez (k - len (svint id) - Z.of_nat w) p).
  { unfold elemw. rewrite takez_app_ge by lia. rewrite takez_app_ge by (rewrite vint_len; lia). now rewrite vint_len. }
  assert (G : getID (takez k (elemw w id p)) = Some id).
  { unfold getID. rewrite A, svint_read; [|apply (el_id w id p OK)|].
    - f_equal. apply u32_id. destruct OK as [H _]. lia.
    - apply bytesP_app. split; [apply vint_bytes|now apply bytesP_takez]. }
  rewrite G. cbn [andb].
  assert (V : readInt (takez (k - len (svint id)) (vint w (len p) ++ p)) = Some (len p)).
  { rewrite takez_app_ge by (rewrite vint_len; lia). apply vint_read; [lia|lia| |now apply bytesP_takez].
    intros E. rewrite E in Hlp. change (2 ^ (7 * Z.of_nat 1)) with 128 in Hlp. lia. }
  rewrite V. change (2 ^ 56) with 72057594037927936 in *. unfold UNKNOWN.
  replace (len p =? 18446744073709551615) with false by lia.
  eexists. split; [reflexivity|]. rewrite u64_id; lia.
Qed.

(** ** findChild on a well formed tree *)
Lemma tree_ind' (P : tree -> Prop) : (forall w id p, P (Leaf w id p)) ->
  (forall w id kids, Forall P kids -> P (Node w id kids)) -> forall t, P t.
Proof.
  intros HL HN. fix IH 1. intros [w id p|w id kids]; [apply HL|]. apply HN.
  induction kids as [|k r IHr]; constructor; [apply IH|exact IHr].
Qed.
Fixpoint fuel_of (t : tree) : nat :=
  match t with
  | Leaf _ _ _ => 1
  | Node _ _ kids => S (fold_right (fun t n => S (fuel_of t + n)) 1%nat kids)
  end.
Definition fuel_kids (kids : list tree) : nat := fold_right (fun t n => S (fuel_of t + n)) 1%nat kids.

Definition find_spec (t : tree) : Prop := forall fuel tl id, tree_ok is_master t -> bytesP tl -> (fuel_of t <= fuel)%nat ->
  match tree_find id t with
  | Some x => exists pre tl', enc t ++ tl = pre ++ enc x ++ tl' /\ findChild fuel false (enc t ++ tl) id = Found (enc x ++ tl')
  | None => findChild fuel false (enc t ++ tl) id = NotFound
  end.

Definition tree_shape (t : tree) : nat * Z * list Z :=
  match t with Leaf w id p => (w, id, p) | Node w id kids => (w, id, flat_map enc kids) end.
Lemma tree_elem t : tree_ok is_master t ->
  exists w id p, enc t = elemw w id p /\ elem_ok w id p.
Proof. destruct t as [w id p|w id kids]; cbn; intros [H _]; eauto. Qed.
Lemma enc_bytes t : tree_ok is_master t -> bytesP (enc t).
Proof.
  intros H. destruct (tree_elem t H) as [w [id [p [-> OK]]]].
  pose proof (el_bytes w id p [] OK ltac:(constructor)) as B. now rewrite app_nil_r in B.
Qed.
Lemma kids_bytes kids : fold_right (fun t P => tree_ok is_master t /\ P) True kids -> bytesP (flat_map enc kids).
Proof.
  induction kids as [|k r IH]; cbn; intros H; [constructor|]. destruct H as [H1 H2].
  apply bytesP_app. split; [now apply enc_bytes|now apply IH].
Qed.

Lemma find_loop_ok kids : Forall find_spec kids -> forall fuel pre tl id,
  fold_right (fun t P => tree_ok is_master t /\ P) True kids -> bytesP tl -> (fuel_kids kids <= fuel)%nat ->
  len pre + len (flat_map enc kids) < 2 ^ 56 ->
  let dat := pre ++ flat_map enc kids ++ tl in
  match fold_right (fun t r => match tree_find id t with Some x => Some x | None => r end) None kids with
  | Some x => exists pre' tl', dat = pre' ++ enc x ++ tl' /\
      find_loop fuel dat (len pre + len (flat_map enc kids)) (len pre) id = Found (enc x ++ tl')
  | None => find_loop fuel dat (len pre + len (flat_map enc kids)) (len pre) id = NotFound
  end.
Proof.
  induction kids as [|k r IH]; intros HF fuel pre tl id Hok Htl Hfuel Hlen dat.
  - cbn [flat_map app fold_right]. destruct fuel as [|fuel]; [cbn in Hfuel; lia|]. cbn [find_loop].
    lnil. now rewrite Z.add_0_r, Z.ltb_irrefl.
  - inversion HF as [|? ? Hk Hr]; subst. cbn [fold_right] in Hok. destruct Hok as [Ok Or].
    cbn [fuel_kids fold_right] in Hfuel. fold (fuel_kids r) in Hfuel.
    destruct fuel as [|fuel]; [lia|]. cbn [find_loop].
    destruct (tree_elem k Ok) as [w [i [p [Ee OKe]]]].
    assert (Hrt : bytesP (flat_map enc r ++ tl)) by (apply bytesP_app; split; [now apply kids_bytes|exact Htl]).
    assert (Hd : dropz (len pre) dat = enc k ++ flat_map enc r ++ tl).
    { unfold dat. cbn [flat_map]. rewrite <- app_assoc. now apply dropz_app_exact. }
    rewrite Hd. cbn [flat_map] in *. rewrite len_app in *.
    pose proof (len_nonneg pre). pose proof (len_nonneg (flat_map enc r)).
    assert (Le : 0 < len (enc k)).
    { rewrite Ee, (el_len w i p). pose proof (el_idlen w i p OKe). pose proof (len_nonneg p). lia. }
    replace (len pre <? len pre + (len (enc k) + len (flat_map enc r))) with true by lia.
    assert (NB : needBytes (enc k ++ flat_map enc r ++ tl) (len pre + (len (enc k) + len (flat_map enc r)) - len pre) false = Some (len (enc k))).
    { rewrite Ee. apply el_needBytes; [exact OKe|exact Hrt|lia]. }
    rewrite NB. replace (len (enc k) >? len pre + (len (enc k) + len (flat_map enc r)) - len pre) with false by lia.
    specialize (Hk fuel (flat_map enc r ++ tl) id Ok Hrt ltac:(lia)). cbn [fold_right].
    destruct (tree_find id k) as [x|].
    + destruct Hk as [pre' [tl' [E1 E2]]]. exists (pre ++ pre'), tl'. split.
      * unfold dat. rewrite <- !app_assoc. f_equal. exact E1.
      * now rewrite E2.
    + rewrite Hk. assert (OL : getOuterLen false (enc k ++ flat_map enc r ++ tl) = Some (len (enc k))).
      { rewrite Ee. apply el_getOuterLen; [exact OKe|exact Hrt]. }
      rewrite OL. change (2 ^ 56) with 72057594037927936 in *. rewrite u64_id by lia.
      specialize (IH Hr fuel (pre ++ enc k) tl id Or Htl ltac:(lia)). rewrite len_app in IH. specialize (IH ltac:(lia)).
      cbv zeta in IH. unfold dat. rewrite <- !app_assoc in IH. rewrite <- !app_assoc.
      replace (len pre + (len (enc k) + len (flat_map enc r))) with (len pre + len (enc k) + len (flat_map enc r)) by lia.
      exact IH.
Qed.

Lemma find_ok t : find_spec t.
Proof.
  induction t as [w i p|w i kids IH] using tree_ind'; intros fuel tl id Hok Htl Hfuel.
  - cbn [tree_ok] in Hok. destruct Hok as [OK Hm]. cbn [fuel_of] in Hfuel. destruct fuel as [|fuel]; [lia|].
    cbn [findChild tree_find tree_id enc]. rewrite el_getID by assumption.
    destruct (i =? id); [exists [], tl; split; [reflexivity|reflexivity]|]. now rewrite Hm.
  - cbn [tree_ok] in Hok. destruct Hok as [OK [Hm Hk]]. cbn [fuel_of] in Hfuel. destruct fuel as [|fuel]; [lia|].
    cbn [findChild tree_find tree_id enc]. rewrite el_getID by assumption.
    destruct (i =? id); [exists [], tl; split; reflexivity|]. rewrite Hm. cbn [negb].
    rewrite el_getPayloadLen, el_getPayload by assumption.
    pose proof (el_plen w i (flat_map enc kids) OK) as P.
    pose proof (find_loop_ok kids IH fuel [] tl id Hk Htl) as L. unfold fuel_kids in L. specialize (L ltac:(lia)).
    lnil. specialize (L ltac:(lia)). rewrite Z.add_0_l in L. cbv zeta in L. cbn [app] in L.
    destruct (fold_right _ None kids) as [x|]; [|exact L].
    destruct L as [pre [tl' [E1 E2]]]. exists (svint i ++ vint w (len (flat_map enc kids)) ++ pre), tl'. split; [|exact E2].
    unfold elemw. rewrite <- !app_assoc. do 2 f_equal. exact E1.
Qed.

(** ** Writers *)
Lemma sendElemHead_ok id n : 0 <= id <= vint_max -> 0 <= n <= vint_max -> sendElemHead id n = svint id ++ svint n.
Proof. intros H1 H2. unfold sendElemHead. now rewrite !sendUniInt_ok. Qed.
Lemma writeSize_len v : 0 <= v <= vint_max -> writeSize v = len (svint v).
Proof. intros H. rewrite svint_len. apply width_ok, H. Qed.
Lemma svint_len_bounds v : 0 <= v <= vint_max -> 1 <= len (svint v) <= 8.
Proof. intros H. rewrite svint_len. pose proof (width_ok v H). lia. Qed.
Lemma sizeElemHead_ok id n : 0 <= id <= vint_max -> 0 <= n <= vint_max ->
  sizeElemHead id n = len (svint id) + len (svint n).
Proof.
  intros H1 H2. unfold sizeElemHead. rewrite !writeSize_len by assumption.
  pose proof (svint_len_bounds id H1). pose proof (svint_len_bounds n H2).
  replace (len (svint n) =? 0) with false by lia. apply u32_id. lia.
Qed.
Lemma sizeUInt_ok v : 0 <= v < 2 ^ 64 -> 1 <= sizeUInt v <= 8 /\ v < 256 ^ sizeUInt v.
Proof.
  change (2 ^ 64) with 18446744073709551616. intros H. unfold sizeUInt.
  dif; (split; [lia|]); match goal with |- _ < ?e => let x := eval vm_compute in e in change e with x end; lia.
Qed.
Lemma int_bytes_ok w v : 1 <= w <= 8 -> int_bytes w v = be (Z.to_nat w) v.
Proof.
  intros H. assert (w = 1 \/ w = 2 \/ w = 3 \/ w = 4 \/ w = 5 \/ w = 6 \/ w = 7 \/ w = 8) as Hc by lia.
  destruct Hc as [->|[->|[->|[->|[->|[->|[->| ->]]]]]]]; unfold int_bytes; cbn [Z.eqb Pos.eqb].
  - cbn [Z.to_nat]. change (Pos.to_nat 1) with 1%nat. cbn [be]. change (256 ^ Z.of_nat 0) with 1. now rewrite Z.div_1_r.
  - apply wr_htobs.
  - apply wr_htob24.
  - apply wr_htobl.
  - apply wr_htob40.
  - apply wr_htob48.
  - apply wr_htob56.
  - apply wr_htobll.
Qed.

Definition uintp (v : Z) : list Z := be (Z.to_nat (sizeUInt v)) v.
Lemma uintp_len v : 0 <= v < 2 ^ 64 -> len (uintp v) = sizeUInt v.
Proof. intros H. unfold uintp. rewrite be_len. pose proof (sizeUInt_ok v H). lia. Qed.
Lemma sendElemUInt_ok id v : 0 <= id <= vint_max -> 0 <= v < 2 ^ 64 -> sendElemUInt id v = elem id (uintp v).
Proof.
  intros Hi Hv. pose proof (sizeUInt_ok v Hv) as [H1 _]. unfold sendElemUInt, elem, elemw. cbv zeta.
  rewrite sendElemHead_ok by (unfold vint_max in *; lia). rewrite int_bytes_ok by lia. rewrite <- app_assoc.
  rewrite uintp_len by lia. reflexivity.
Qed.
Lemma elem_ok_shortest id p : 0 <= id < 2 ^ 28 - 1 -> bytesP p -> len p <= vint_max -> elem_ok (width (len p)) id p.
Proof.
  intros H1 H2 H3. pose proof (len_nonneg p). pose proof (width_ok (len p) ltac:(lia)) as [Ha [Hb _]].
  split; [exact H1|]. split; [exact Ha|]. split; assumption.
Qed.
Lemma id_max id : 0 <= id < 2 ^ 28 - 1 -> 0 <= id <= vint_max. Proof. unfold vint_max. lia. Qed.
Lemma elem_len id p : len (elem id p) = len (svint id) + len (svint (len p)) + len p.
Proof. unfold elem, elemw. lens. unfold svint. rewrite !vint_len. lia. Qed.
Lemma sizeElemUInt_ok id v : 0 <= id <= vint_max -> 0 <= v < 2 ^ 64 -> sizeElemUInt id v = len (elem id (uintp v)).
Proof.
  intros Hi Hv. pose proof (sizeUInt_ok v Hv) as [H1 _]. unfold sizeElemUInt. cbv zeta.
  assert (0 <= sizeUInt v <= vint_max) by (unfold vint_max; lia).
  rewrite sizeElemHead_ok by assumption. rewrite elem_len, uintp_len by assumption.
  pose proof (svint_len_bounds id Hi). pose proof (svint_len_bounds (sizeUInt v) H). apply u32_id. lia.
Qed.
Lemma uintp_bytes v : bytesP (uintp v). Proof. apply be_bytes. Qed.

(** Reading the value of an element whose payload is the number [v] in [n] bytes. *)
Lemma getValUInt_be w id n v tl : elem_ok w id (be n v) -> bytesP tl -> (n <= 8)%nat -> 0 <= v < 256 ^ Z.of_nat n ->
  getValUInt (elemw w id (be n v) ++ tl) = Some v.
Proof.
  intros OK Htl Hn Hv. unfold getValUInt. rewrite el_getPayload, el_getPayloadLen by assumption.
  rewrite be_len. replace (8 <? Z.of_nat n) with false by lia.
  assert (Hl : Z.of_nat n <= len (be n v ++ tl)) by (lens; pose proof (len_nonneg tl); lia).
  replace (len (be n v ++ tl) <? Z.of_nat n) with false by lia.
  assert (Hb : bytesP (be n v ++ tl)) by (apply bytesP_app; split; [apply be_bytes|exact Htl]).
  assert (T : unbe (firstn n (be n v ++ tl)) = v).
  { rewrite firstn_app, be_length, Nat.sub_diag. cbn [firstn]. rewrite app_nil_r, firstn_all2 by (rewrite be_length; lia).
    rewrite unbe_be. now apply Z.mod_small. }
  f_equal.
  assert (Hc : (n = 0 \/ n = 1 \/ n = 2 \/ n = 3 \/ n = 4 \/ n = 5 \/ n = 6 \/ n = 7 \/ n = 8)%nat) by lia.
  destruct Hc as [->|[->|[->|[->|[->|[->|[->|[->| ->]]]]]]]]; cbn [Z.of_nat Pos.of_succ_nat Pos.succ Z.eqb Pos.eqb] in *.
  - change (256 ^ 0) with 1 in Hv. lia.
  - cbn [be app]. rewrite nthz_0. change (256 ^ Z.of_nat 0) with 1. rewrite Z.div_1_r. apply Z.mod_small. change (256 ^ 1) with 256 in Hv. lia.
  - now rewrite rd_btohs.
  - now rewrite rd_btoh24.
  - now rewrite rd_btohl.
  - now rewrite rd_btoh40.
  - now rewrite rd_btoh48.
  - now rewrite rd_btoh56.
  - now rewrite rd_btohll.
Qed.
Lemma getValUInt_uintp id v tl : 0 <= id < 2 ^ 28 - 1 -> bytesP tl -> 0 <= v < 2 ^ 64 ->
  getValUInt (elem id (uintp v) ++ tl) = Some v.
Proof.
  intros Hi Htl Hv. pose proof (sizeUInt_ok v Hv) as [H1 H2]. apply getValUInt_be; try assumption; [|lia|].
  - apply elem_ok_shortest; [exact Hi|apply uintp_bytes|]. rewrite be_len. unfold vint_max. lia.
  - rewrite Z2Nat.id by lia. lia.
Qed.

(** Signed values: right when the value fits its bytes with the sign bit. *)
Lemma sext_ok n v : 0 < n -> - 2 ^ (n - 1) <= v < 2 ^ (n - 1) -> sext n (v mod 2 ^ n) = v.
Proof.
  intros Hn Hv. assert (E : 2 ^ n = 2 * 2 ^ (n - 1)) by (rewrite <- Z.pow_succ_r by lia; f_equal; lia).
  assert (Hp : 0 < 2 ^ (n - 1)) by (apply Z.pow_pos_nonneg; lia).
  unfold sext. destruct (Z_lt_ge_dec v 0) as [Hs|Hs].
  - replace (v mod 2 ^ n) with (v + 2 ^ n).
    2:{ apply (Z.mod_unique_pos _ _ (-1)); lia. }
    replace (v + 2 ^ n <? 2 ^ (n - 1)) with false by lia. lia.
  - rewrite Z.mod_small by lia. replace (v <? 2 ^ (n - 1)) with true by lia. reflexivity.
Qed.
Lemma getValInt_be w id n v tl : elem_ok w id (be n v) -> bytesP tl -> (1 <= n <= 8)%nat ->
  - 2 ^ (8 * Z.of_nat n - 1) <= v < 2 ^ (8 * Z.of_nat n - 1) ->
  getValInt (elemw w id (be n v) ++ tl) = Some v.
Proof.
  intros OK Htl Hn Hv. unfold getValInt. rewrite el_getPayload, el_getPayloadLen by assumption.
  rewrite be_len. replace (8 <? Z.of_nat n) with false by lia.
  assert (Hl : Z.of_nat n <= len (be n v ++ tl)) by (lens; pose proof (len_nonneg tl); lia).
  replace (len (be n v ++ tl) <? Z.of_nat n) with false by lia.
  assert (Hb : bytesP (be n v ++ tl)) by (apply bytesP_app; split; [apply be_bytes|exact Htl]).
  assert (T : unbe (firstn n (be n v ++ tl)) = v mod 2 ^ (8 * Z.of_nat n)).
  { rewrite firstn_app, be_length, Nat.sub_diag. cbn [firstn]. rewrite app_nil_r, firstn_all2 by (rewrite be_length; lia).
    rewrite unbe_be. f_equal. rewrite Z.pow_mul_r by lia. reflexivity. }
  pose proof (sext_ok (8 * Z.of_nat n) v ltac:(lia) Hv) as S. rewrite <- T in S.
  f_equal.
  assert (Hc : (n = 1 \/ n = 2 \/ n = 3 \/ n = 4 \/ n = 5 \/ n = 6 \/ n = 7 \/ n = 8)%nat) by lia.
  destruct Hc as [->|[->|[->|[->|[->|[->|[->| ->]]]]]]].
  - refine (eq_trans _ S). clear S T. cbn [be app firstn]. change (Z.of_nat 1 =? 0) with false. change (Z.of_nat 1 =? 1) with true. cbv iota. f_equal.
  - now rewrite rd_btohs.
  - now rewrite rd_btoh24.
  - now rewrite rd_btohl.
  - now rewrite rd_btoh40.
  - now rewrite rd_btoh48.
  - now rewrite rd_btoh56.
  - now rewrite rd_btohll.
Qed.
Lemma sizeInt_bounds v : 1 <= sizeInt v <= 8.
Proof. unfold sizeInt. dif; lia. Qed.
Lemma sendElemInt_ok id v : 0 <= id <= vint_max -> sendElemInt id v = elem id (be (Z.to_nat (sizeInt v)) v).
Proof.
  intros Hi. pose proof (sizeInt_bounds v) as H1. unfold sendElemInt, elem, elemw. cbv zeta.
  rewrite sendElemHead_ok by (unfold vint_max in *; lia). rewrite int_bytes_ok by lia. rewrite <- app_assoc.
  rewrite be_len, Z2Nat.id by lia. reflexivity.
Qed.
Lemma sizeElemInt_ok id v : 0 <= id <= vint_max -> sizeElemInt id v = len (elem id (be (Z.to_nat (sizeInt v)) v)).
Proof.
  intros Hi. pose proof (sizeInt_bounds v) as H1. unfold sizeElemInt. cbv zeta.
  assert (0 <= sizeInt v <= vint_max) by (unfold vint_max; lia).
  rewrite sizeElemHead_ok by assumption. rewrite elem_len, be_len, Z2Nat.id by lia.
  pose proof (svint_len_bounds id Hi). pose proof (svint_len_bounds (sizeInt v) H). apply u32_id. lia.
Qed.
Lemma sendElemStr_ok id s : 0 <= id <= vint_max -> len s <= vint_max -> sendElemStr id s = elem id s.
Proof.
  intros Hi Hs. pose proof (len_nonneg s). unfold sendElemStr, elem, elemw. rewrite sendElemHead_ok by lia. now rewrite <- app_assoc.
Qed.
Lemma sizeElemStr_ok id s : 0 <= id <= vint_max -> len s < 2 ^ 32 - 16 -> sizeElemStr id s = len (elem id s).
Proof.
  intros Hi Hs. pose proof (len_nonneg s). unfold sizeElemStr.
  assert (0 <= len s <= vint_max) by (unfold vint_max; lia).
  rewrite sizeElemHead_ok by assumption. rewrite elem_len.
  pose proof (svint_len_bounds id Hi). pose proof (svint_len_bounds (len s) H0). apply u32_id. lia.
Qed.
Lemma getValStringUntrimmed_ok w id s tl : elem_ok w id s -> bytesP tl -> getValStringUntrimmed (elemw w id s ++ tl) = Some s.
Proof.
  intros OK Htl. unfold getValStringUntrimmed. rewrite el_getPayload, el_getPayloadLen by assumption.
  replace (len (s ++ tl) <? len s) with false by (lens; pose proof (len_nonneg tl); lia).
  now rewrite takez_app_exact.
Qed.
Lemma getValString_ok w id s tl : elem_ok w id s -> bytesP tl -> last s 1 <> 0 -> getValString (elemw w id s ++ tl) = Some s.
Proof.
  intros OK Htl Hl. unfold getValString. rewrite getValStringUntrimmed_ok by assumption. f_equal.
  destruct s as [|x s'] using rev_ind; [reflexivity|]. rewrite rev_app_distr. cbn [rev app strip0].
  rewrite last_last in Hl. replace (x =? 0) with false by lia. cbn [rev]. now rewrite rev_involutive.
Qed.

(** ** Blocks *)
Lemma bytesP_concat (F : list (list Z)) : Forall bytesP F -> bytesP (concat F).
Proof. induction 1; cbn; [constructor|]. apply bytesP_app. now split. Qed.
Lemma firstn_be n v r : firstn n (be n v ++ r) = be n v.
Proof. rewrite firstn_app, be_length, Nat.sub_diag. cbn [firstn]. rewrite app_nil_r. apply firstn_all2. rewrite be_length. lia. Qed.
Section BLOCK.
Variables (w : nat) (id track tc fl : Z) (lace : list Z) (F : list (list Z)) (tl : list Z).
Let body := block track tc fl lace F.
Hypothesis (OK : elem_ok w id body) (Htl : bytesP tl) (Htr : 0 <= track <= vint_max).
Let d := elemw w id body ++ tl.
Let n := len (svint track).
Lemma bk_payload : getPayload d = Some (svint track ++ be 2 tc ++ [fl] ++ lace ++ concat F ++ tl).
Proof. unfold d. rewrite el_getPayload by assumption. unfold body, block. now rewrite <- !app_assoc. Qed.
Lemma bk_rest_bytes : bytesP (be 2 tc ++ [fl] ++ lace ++ concat F ++ tl).
Proof.
  destruct OK as [_ [_ [_ B]]]. unfold body, block in B. rewrite !bytesP_app in *. tauto.
Qed.
Lemma bk_size : readSize (svint track ++ be 2 tc ++ [fl] ++ lace ++ concat F ++ tl) = Some n.
Proof. now apply svint_size. Qed.
Lemma bk_track : getTrackNum d = Some track.
Proof. unfold getTrackNum. rewrite bk_payload. apply svint_read; [exact Htr|apply bk_rest_bytes]. Qed.
Lemma bk_time : getTimecode d = Some (s16 tc).
Proof.
  unfold getTimecode. rewrite bk_payload, bk_size. fold n.
  set (R := [fl] ++ lace ++ concat F ++ tl).
  replace (len (svint track ++ be 2 tc ++ R) <? n + 2) with false
    by (lens; fold n; pose proof (len_nonneg R); lia).
  rewrite dropz_app_exact by reflexivity. rewrite rd_btohs; [|apply bk_rest_bytes|lens; pose proof (len_nonneg R); lia].
  f_equal. rewrite firstn_be.
  rewrite unbe_be. unfold s16, u16. change (256 ^ Z.of_nat 2) with 65536. now rewrite Zmod_mod.
Qed.
Lemma bk_flags : flags d = Some fl.
Proof.
  unfold flags. rewrite bk_payload, bk_size. fold n. unfold n. rewrite rd_some.
  2:{ lens. pose proof (len_nonneg (svint track)). pose proof (len_nonneg lace). pose proof (len_nonneg (concat F)). pose proof (len_nonneg tl). lia. }
  f_equal. rewrite nthz_app2 by lia. rewrite nthz_app2 by (lens; lia). lens.
  replace (len (svint track) + 2 - len (svint track) - Z.of_nat 2) with 0 by lia. reflexivity.
Qed.
Lemma bk_lacing : getLacing d = Some ((fl .& 6) >> 1).
Proof. unfold getLacing. now rewrite bk_flags. Qed.
Lemma bk_key : isKeyframe d = Some (negb ((fl .& 128) =? 0)).
Proof. unfold isKeyframe. now rewrite bk_flags. Qed.
Lemma bk_plen : getPayloadLen d = Some (n + 3 + len lace + len (concat F)).
Proof. unfold d. rewrite el_getPayloadLen by assumption. unfold body, block. f_equal. lens. unfold n. lia. Qed.
Lemma bk_count c r : lace = c :: r -> (fl .& 6) >> 1 <> 0 -> 0 <= c < 255 -> getFrameCount d = Some (c + 1).
Proof.
  intros El Hf Hc. unfold getFrameCount. rewrite bk_lacing. replace ((fl .& 6) >> 1 =? 0) with false by lia.
  rewrite bk_payload, bk_size. fold n. unfold n. rewrite rd_some.
  2:{ rewrite El. lens. pose proof (len_nonneg (svint track)). pose proof (len_nonneg r). pose proof (len_nonneg (concat F)). pose proof (len_nonneg tl). lia. }
  f_equal. rewrite nthz_app2 by lia. rewrite nthz_app2 by (lens; lia). rewrite El. cbn [app].
  replace (len (svint track) + 3 - len (svint track) - len (be 2 tc)) with 1 by (lens; lia).
  change (nthz (fl :: c :: r ++ concat F ++ tl) 1) with c. unfold u8. rewrite Z.mod_small; lia.
Qed.
End BLOCK.

Definition sumz (l : list Z) : Z := fold_right Z.add 0 l.
Lemma sumz_cons x l : sumz (x :: l) = x + sumz l. Proof. reflexivity. Qed.
Lemma sumz_app a b : sumz (a ++ b) = sumz a + sumz b.
Proof. induction a as [|x a IH]; [reflexivity|]. cbn [app]. rewrite !sumz_cons, IH. lia. Qed.
Lemma sumz_len (F : list (list Z)) : sumz (map len F) = len (concat F).
Proof. induction F as [|f F IH]; [reflexivity|]. cbn [map concat]. rewrite len_app, <- IH. reflexivity. Qed.
Lemma sumz_nonneg l : Forall (fun x => 0 <= x) l -> 0 <= sumz l.
Proof. induction 1; [cbn; lia|]. rewrite sumz_cons. lia. Qed.
Lemma sumz_firstn_le k l : Forall (fun x => 0 <= x) l -> 0 <= sumz (firstn k l) <= sumz l.
Proof.
  intros H. rewrite <- (firstn_skipn k l) at 3. rewrite sumz_app.
  assert (Forall (fun x => 0 <= x) (firstn k l) /\ Forall (fun x => 0 <= x) (skipn k l)) as [H1 H2]
    by (apply Forall_app; now rewrite firstn_skipn).
  pose proof (sumz_nonneg _ H1). pose proof (sumz_nonneg _ H2). lia.
Qed.
Lemma frame_split (F : list (list Z)) k : 0 <= k < len F ->
  takez (len (frame F k)) (dropz (sumz (map len (firstn (Z.to_nat k) F))) (concat F)) = frame F k.
Proof.
  intros Hk. unfold frame. assert (Hn : (Z.to_nat k < List.length F)%nat) by (unfold len in Hk; lia).
  revert Hn. generalize (Z.to_nat k) as j. clear Hk k. induction F as [|f F IH]; intros [|j] Hn; cbn [List.length] in Hn; try lia.
  - cbn. now apply takez_app_exact.
  - cbn [firstn map nth concat]. cbn [sumz fold_right]. fold (sumz (map len (firstn j F))).
    rewrite sumz_len. pose proof (len_nonneg f). pose proof (len_nonneg (concat (firstn j F))).
    rewrite dropz_app_ge by lia. replace (len f + len (concat (firstn j F)) - len f) with (len (concat (firstn j F))) by lia.
    rewrite <- sumz_len. apply IH. lia.
Qed.
Lemma frame_split_tl (F : list (list Z)) k tl : 0 <= k < len F ->
  takez (len (frame F k)) (dropz (sumz (map len (firstn (Z.to_nat k) F))) (concat F ++ tl)) = frame F k.
Proof.
  intros Hk. pose proof (frame_split F k Hk) as E.
  assert (L : 0 <= sumz (map len (firstn (Z.to_nat k) F)) <= len (concat F)).
  { rewrite <- (firstn_map len), <- sumz_len. apply sumz_firstn_le. apply Forall_map, Forall_forall.
    intros x _. apply len_nonneg. }
  rewrite dropz_app by exact L. rewrite takez_app; [exact E|]. split; [apply len_nonneg|].
  rewrite <- E at 1. rewrite len_takez_min by apply len_nonneg. lia.
Qed.

(** *** Xiph lacing *)
Definition xcodes (ss : list Z) : list Z := flat_map xiph_code ss.
Lemma xiph_code_len s : 0 <= s -> len (xiph_code s) = s / 255 + 1.
Proof. intros H. unfold xiph_code. lens. change (Z.of_nat 1) with 1. rewrite Z2Nat.id by lia. lia. Qed.
Lemma xiph_code_eq s : 0 <= s -> xiph_code s = if s <? 255 then [s] else 255 :: xiph_code (s - 255).
Proof.
  intros Hs. unfold xiph_code. destruct (s <? 255) eqn:E.
  - replace (s / 255) with 0 by lia. cbn. f_equal. lia.
  - replace (Z.to_nat (s / 255)) with (S (Z.to_nat ((s - 255) / 255))) by lia. cbn [repeat app]. do 2 f_equal. f_equal. lia.
Qed.
Lemma rd_at pre x r : rd (pre ++ x :: r) (len pre) = Some x.
Proof.
  rewrite rd_some by (lens; pose proof (len_nonneg pre); pose proof (len_nonneg r); lia).
  rewrite nthz_app2 by lia. now rewrite Z.sub_diag.
Qed.
Lemma xiph_size_code n s : (Z.to_nat s <= n)%nat -> forall fuel pre r payLen frames no laceNo cur tot,
  0 <= s -> 0 <= cur -> 0 <= tot -> tot + cur + s < 2 ^ 32 ->
  (List.length (xiph_code s) <= fuel)%nat -> len pre + len (xiph_code s) <= payLen -> laceNo <= no -> laceNo < frames - 1 ->
  xiph_size fuel (pre ++ xiph_code s ++ r) payLen frames no (len pre) laceNo cur tot =
  if laceNo =? no then Some (inl (cur + s))
  else xiph_size (fuel - List.length (xiph_code s)) (pre ++ xiph_code s ++ r) payLen frames no (len pre + len (xiph_code s)) (laceNo + 1) 0 (tot + cur + s).
Proof.
  revert s. induction n as [|n IH]; intros s Hn fuel pre r payLen frames no laceNo cur tot Hs Hc Ht Hb Hf Hp Hl Hl2;
  change (2 ^ 32) with 4294967296 in *.
  - replace s with 0 in * by lia. change (xiph_code 0) with [0] in *. cbn [List.length] in *. destruct fuel as [|fuel]; [lia|].
    cbn [xiph_size]. lens. replace ((laceNo <=? no) && (laceNo <? frames - 1) && (len pre <? payLen)) with true by lia.
    cbn [app]. rewrite rd_at. cbn [Z.eqb negb]. rewrite Z.add_0_r. unfold u32. rewrite !Z.mod_small by lia.
    rewrite !Z.add_0_r. destruct (laceNo =? no); [reflexivity|]. cbn [Nat.sub]. rewrite Nat.sub_0_r. reflexivity.
  - destruct (Z_lt_ge_dec s 255) as [Hlt|Hge].
    + rewrite (xiph_code_eq s Hs) in *. replace (s <? 255) with true in * by lia. cbn [List.length] in *. destruct fuel as [|fuel]; [lia|].
      cbn [xiph_size]. lens. replace ((laceNo <=? no) && (laceNo <? frames - 1) && (len pre <? payLen)) with true by lia.
      cbn [app]. rewrite rd_at. replace (s =? 255) with false by lia. cbn [negb]. unfold u32. rewrite !Z.mod_small by lia.
      destruct (laceNo =? no); [reflexivity|]. cbn [Nat.sub]. rewrite Nat.sub_0_r. rewrite Z.add_assoc. reflexivity.
    + rewrite (xiph_code_eq s Hs) in *. replace (s <? 255) with false in * by lia. cbn [List.length] in *. destruct fuel as [|fuel]; [lia|].
      cbn [xiph_size]. lens. pose proof (len_nonneg (xiph_code (s - 255))). replace ((laceNo <=? no) && (laceNo <? frames - 1) && (len pre <? payLen)) with true by lia.
      cbn [app]. rewrite rd_at. cbn [Z.eqb Pos.eqb negb]. unfold u32. rewrite Z.mod_small by lia.
      specialize (IH (s - 255) ltac:(lia) fuel (pre ++ [255]) r payLen frames no laceNo (cur + 255) tot).
      rewrite <- app_assoc in IH. cbn [app] in IH. lens. cbn [Nat.sub].
      rewrite Z.add_0_r in IH. rewrite IH by lia. replace (cur + 255 + (s - 255)) with (cur + s) by lia.
      replace (tot + (cur + 255) + (s - 255)) with (tot + cur + s) by lia.
      destruct (laceNo =? no); [reflexivity|]. f_equal. lia.
Qed.
Definition nonneg := Forall (fun x => 0 <= x).
Lemma xiph_size_all ss : forall fuel pre r payLen frames no laceNo tot,
  nonneg ss -> 0 <= tot -> tot + sumz ss < 2 ^ 32 ->
  (List.length (xcodes ss) <= fuel)%nat -> len pre + len (xcodes ss) <= payLen -> 0 <= laceNo <= no ->
  laceNo + len ss = frames - 1 ->
  xiph_size fuel (pre ++ xcodes ss ++ r) payLen frames no (len pre) laceNo 0 tot =
  Some (if no - laceNo <? len ss then inl (nthz ss (no - laceNo)) else inr (len pre + len (xcodes ss), tot + sumz ss)).
Proof.
  induction ss as [|s ss IH]; intros fuel pre r payLen frames no laceNo tot Hn Ht Hb Hf Hp Hl Hfr.
  - lnil. change (xcodes []) with (@nil Z) in *. lnil. change (sumz []) with 0. rewrite !Z.add_0_r. replace (no - laceNo <? 0) with false by lia.
    destruct fuel as [|fuel]; [reflexivity|]. cbn [xiph_size].
    now replace ((laceNo <=? no) && (laceNo <? frames - 1) && (len pre <? payLen)) with false by lia.
  - inversion Hn as [|? ? Hs Hn']; subst. rewrite sumz_cons in *. lens.
    change (xcodes (s :: ss)) with (xiph_code s ++ xcodes ss) in *. rewrite app_length in Hf. lens. rewrite <- app_assoc.
    pose proof (len_nonneg (xcodes ss)). pose proof (len_nonneg ss). pose proof (sumz_nonneg ss Hn').
    rewrite (xiph_size_code (Z.to_nat s) s) by lia.
    rewrite Z.add_0_r. destruct (laceNo =? no) eqn:E.
    + replace (no - laceNo) with 0 by lia. replace (0 <? 1 + len ss) with true by lia. now rewrite nthz_0.
    + specialize (IH (fuel - List.length (xiph_code s))%nat (pre ++ xiph_code s) r payLen frames no (laceNo + 1) (tot + s) Hn').
      rewrite <- app_assoc in IH. lens. rewrite IH by lia. f_equal.
      replace (no - (laceNo + 1)) with (no - laceNo - 1) by lia.
      replace (no - laceNo <? 1 + len ss) with (no - laceNo - 1 <? len ss) by lia.
      destruct (no - laceNo - 1 <? len ss); [rewrite nthz_S by lia; reflexivity|]. do 2 f_equal; lia.
Qed.
Lemma xiph_data_code n s : (Z.to_nat s <= n)%nat -> forall fuel pre r payLen frames no laceNo cur,
  0 <= s -> 0 <= cur -> (laceNo < no -> cur + s < 2 ^ 32) ->
  (List.length (xiph_code s) <= fuel)%nat -> len pre + len (xiph_code s) <= payLen -> laceNo < frames - 1 ->
  xiph_data fuel (pre ++ xiph_code s ++ r) payLen frames no (len pre) laceNo cur =
  xiph_data (fuel - List.length (xiph_code s)) (pre ++ xiph_code s ++ r) payLen frames no (len pre + len (xiph_code s)) (laceNo + 1)
    (if laceNo <? no then cur + s else cur).
Proof.
  revert s. induction n as [|n IH]; intros s Hn fuel pre r payLen frames no laceNo cur Hs Hc Hb Hf Hp Hl2;
  change (2 ^ 32) with 4294967296 in *.
  - replace s with 0 in * by lia. change (xiph_code 0) with [0] in *. cbn [List.length] in *. destruct fuel as [|fuel]; [lia|].
    cbn [xiph_data]. lens. replace ((laceNo <? frames - 1) && (len pre <? payLen)) with true by lia.
    cbn [app]. rewrite rd_at. cbn [Z.eqb negb]. rewrite !Z.add_0_r. cbn [Nat.sub]. rewrite Nat.sub_0_r. f_equal.
    destruct (laceNo <? no) eqn:E; [|reflexivity]. unfold u32. apply Z.mod_small. lia.
  - destruct (Z_lt_ge_dec s 255) as [Hlt|Hge].
    + rewrite (xiph_code_eq s Hs) in *. replace (s <? 255) with true in * by lia. cbn [List.length] in *. destruct fuel as [|fuel]; [lia|].
      cbn [xiph_data]. lens. replace ((laceNo <? frames - 1) && (len pre <? payLen)) with true by lia.
      cbn [app]. rewrite rd_at. replace (s =? 255) with false by lia. cbn [negb]. cbn [Nat.sub]. rewrite Nat.sub_0_r, Z.add_0_r. f_equal.
      destruct (laceNo <? no) eqn:E; [|reflexivity]. unfold u32. apply Z.mod_small. lia.
    + rewrite (xiph_code_eq s Hs) in *. replace (s <? 255) with false in * by lia. cbn [List.length] in *. destruct fuel as [|fuel]; [lia|].
      cbn [xiph_data]. lens. pose proof (len_nonneg (xiph_code (s - 255))). replace ((laceNo <? frames - 1) && (len pre <? payLen)) with true by lia.
      cbn [app]. rewrite rd_at. cbn [Z.eqb Pos.eqb negb].
      specialize (IH (s - 255) ltac:(lia) fuel (pre ++ [255]) r payLen frames no laceNo (if laceNo <? no then cur + 255 else cur)).
      rewrite <- app_assoc in IH. cbn [app] in IH. lens. cbn [Nat.sub].
      replace (if laceNo <? no then u32 (cur + 255) else cur) with (if laceNo <? no then cur + 255 else cur).
      2:{ destruct (laceNo <? no) eqn:E; [|reflexivity]. unfold u32. rewrite Z.mod_small by lia. reflexivity. }
      rewrite Z.add_0_r in IH. rewrite IH; try lia; [|destruct (laceNo <? no); lia|intros; replace (laceNo <? no) with true by lia; lia].
      f_equal; [lia|]. destruct (laceNo <? no); lia.
Qed.
Lemma xiph_data_all ss : forall fuel pre r payLen frames no laceNo cur,
  nonneg ss -> 0 <= cur -> cur + sumz ss < 2 ^ 32 ->
  (List.length (xcodes ss) <= fuel)%nat -> len pre + len (xcodes ss) <= payLen ->
  laceNo + len ss = frames - 1 ->
  xiph_data fuel (pre ++ xcodes ss ++ r) payLen frames no (len pre) laceNo cur =
  Some (len pre + len (xcodes ss), cur + sumz (takez (no - laceNo) ss)).
Proof.
  induction ss as [|s ss IH]; intros fuel pre r payLen frames no laceNo cur Hn Ht Hb Hf Hp Hfr.
  - lnil. change (xcodes []) with (@nil Z) in *. lnil. unfold takez. rewrite firstn_nil. change (sumz []) with 0. rewrite !Z.add_0_r.
    destruct fuel as [|fuel]; [reflexivity|]. cbn [xiph_data].
    now replace ((laceNo <? frames - 1) && (len pre <? payLen)) with false by lia.
  - inversion Hn as [|? ? Hs Hn']; subst. rewrite sumz_cons in *. lens.
    change (xcodes (s :: ss)) with (xiph_code s ++ xcodes ss) in *. rewrite app_length in Hf. lens. rewrite <- app_assoc.
    pose proof (len_nonneg (xcodes ss)). pose proof (len_nonneg ss). pose proof (sumz_nonneg ss Hn').
    rewrite (xiph_data_code (Z.to_nat s) s) by lia.
    specialize (IH (fuel - List.length (xiph_code s))%nat (pre ++ xiph_code s) r payLen frames no (laceNo + 1) (if laceNo <? no then cur + s else cur) Hn').
    rewrite <- app_assoc in IH. lens. rewrite IH; try lia; try (destruct (laceNo <? no); lia). do 2 f_equal; [lia|].
    destruct (laceNo <? no) eqn:E.
    + rewrite (takez_S (no - laceNo)) by lia. rewrite sumz_cons. replace (no - (laceNo + 1)) with (no - laceNo - 1) by lia. lia.
    + rewrite !takez_nonpos by lia. reflexivity.
Qed.

(** *** EBML lacing *)
Lemma readSInt_vint n v tl : (1 <= n <= 8)%nat -> 0 <= v < 2 ^ (7 * Z.of_nat n) - 1 -> bytesP tl ->
  readSInt (vint n v ++ tl) = Some (v - (2 ^ (7 * Z.of_nat n - 1) - 1)).
Proof.
  intros Hn Hv Htl. unfold readSInt. rewrite vint_first by lia. rewrite vint_read; [|lia|lia| |exact Htl].
  2:{ intros ->. change (2 ^ (7 * Z.of_nat 1)) with 128 in Hv. lia. }
  assert (Hs : s64 v = v).
  { assert (2 ^ (7 * Z.of_nat n) <= 2 ^ 56) by (apply Z.pow_le_mono_r; lia). change (2 ^ 56) with 72057594037927936 in *.
    unfold s64. cbv zeta. rewrite u64_id by lia. replace (v <? 9223372036854775808) with true by lia. reflexivity. }
  rewrite Hs. f_equal.
  assert (Hc : (n = 1 \/ n = 2 \/ n = 3 \/ n = 4 \/ n = 5 \/ n = 6 \/ n = 7 \/ n = 8)%nat) by lia.
  destruct Hc as [->|[->|[->|[->|[->|[->|[->| ->]]]]]]]; reflexivity.
Qed.
Lemma drop_pre {A} (pre r : list A) : dropz (len pre) (pre ++ r) = r.
Proof. now apply dropz_app_exact. Qed.
Lemma diffs_nonempty prev ss code : ebml_diffs prev ss code -> len ss <= len code.
Proof.
  induction 1; [lia|]. lens. rewrite vint_len. lia.
Qed.
Lemma diffs_bytes prev ss code : ebml_diffs prev ss code -> bytesP code.
Proof. induction 1; [constructor|]. apply bytesP_app. split; [apply vint_bytes|assumption]. Qed.
Lemma ebml_size_diffs prev ss code : ebml_diffs prev ss code -> forall fuel pre r payLen frames no laceNo tot,
  nonneg ss -> 0 <= prev -> 0 <= tot -> tot + sumz ss < 2 ^ 32 ->
  len ss <= Z.of_nat fuel -> len pre + len code <= payLen -> 1 <= laceNo <= no ->
  laceNo + len ss = frames - 1 -> bytesP r ->
  ebml_size fuel (pre ++ code ++ r) payLen frames no (len pre) laceNo prev tot =
  Some (if no - laceNo <? len ss then inl (nthz ss (no - laceNo)) else inr (len pre + len code, tot + sumz ss)).
Proof.
  induction 1 as [prev|prev s ss n code Hn Hd Hds IH]; intros fuel pre r payLen frames no laceNo tot Hnn Hpr Ht Hb Hf Hp Hl Hfr Hr.
  - lnil. change (sumz []) with 0. rewrite !Z.add_0_r. replace (no - laceNo <? 0) with false by lia.
    destruct fuel as [|fuel]; [reflexivity|]. cbn [ebml_size].
    now replace ((laceNo <=? no) && (laceNo <? frames - 1) && (len pre <? payLen)) with false by lia.
  - inversion Hnn as [|? ? Hs Hn']; subst. rewrite sumz_cons in *. lens. rewrite vint_len in *.
    pose proof (len_nonneg ss). pose proof (len_nonneg code). pose proof (sumz_nonneg ss Hn').
    destruct fuel as [|fuel]; [lia|]. cbn [ebml_size].
    replace ((laceNo <=? no) && (laceNo <? frames - 1) && (len pre <? payLen)) with true by lia.
    rewrite <- app_assoc, drop_pre. replace (laceNo =? 0) with false by lia.
    assert (Hcr : bytesP (code ++ r)) by (apply bytesP_app; split; [eapply diffs_bytes; eauto|exact Hr]).
    rewrite readSInt_vint by assumption. cbv zeta.
    match goal with |- context [u32 (prev + ?e)] => replace (prev + e) with s by lia end.
    change (2 ^ 32) with 4294967296 in *. unfold u32. rewrite !Z.mod_small by lia.
    destruct (laceNo =? no) eqn:E.
    + replace (no - laceNo) with 0 by lia. replace (0 <? 1 + len ss) with true by lia. now rewrite nthz_0.
    + rewrite vint_first by lia. set (V := vint n _) in *. assert (LV : len V = Z.of_nat n) by apply vint_len.
      specialize (IH fuel (pre ++ V) r payLen frames no (laceNo + 1) (tot + s) Hn' Hs). rewrite <- app_assoc in IH. lens. rewrite LV in IH.
      rewrite IH by (try lia; assumption). f_equal.
      replace (no - (laceNo + 1)) with (no - laceNo - 1) by lia.
      replace (no - laceNo <? 1 + len ss) with (no - laceNo - 1 <? len ss) by lia.
      destruct (no - laceNo - 1 <? len ss); [rewrite nthz_S by lia; reflexivity|]. do 2 f_equal; lia.
Qed.
Lemma ebml_data_diffs prev ss code : ebml_diffs prev ss code -> forall fuel pre r payLen frames no laceNo tot,
  nonneg ss -> 0 <= prev -> 0 <= tot -> tot + sumz ss < 2 ^ 32 ->
  len ss <= Z.of_nat fuel -> len pre + len code <= payLen -> 1 <= laceNo ->
  laceNo + len ss = frames - 1 -> bytesP r ->
  ebml_data fuel (pre ++ code ++ r) payLen frames no (len pre) laceNo prev tot =
  Some (len pre + len code, tot + sumz (takez (no - laceNo) ss)).
Proof.
  induction 1 as [prev|prev s ss n code Hn Hd Hds IH]; intros fuel pre r payLen frames no laceNo tot Hnn Hpr Ht Hb Hf Hp Hl Hfr Hr.
  - lnil. unfold takez. rewrite firstn_nil. change (sumz []) with 0. rewrite !Z.add_0_r.
    destruct fuel as [|fuel]; [reflexivity|]. cbn [ebml_data].
    now replace ((laceNo <? frames - 1) && (len pre <? payLen)) with false by lia.
  - inversion Hnn as [|? ? Hs Hn']; subst. rewrite sumz_cons in *. lens. rewrite vint_len in *.
    pose proof (len_nonneg ss). pose proof (len_nonneg code). pose proof (sumz_nonneg ss Hn').
    destruct fuel as [|fuel]; [lia|]. cbn [ebml_data].
    replace ((laceNo <? frames - 1) && (len pre <? payLen)) with true by lia.
    rewrite <- app_assoc, drop_pre. replace (laceNo =? 0) with false by lia.
    assert (Hcr : bytesP (code ++ r)) by (apply bytesP_app; split; [eapply diffs_bytes; eauto|exact Hr]).
    rewrite readSInt_vint by assumption. cbv zeta.
    match goal with |- context [u32 (prev + ?e)] => replace (prev + e) with s by lia end.
    change (2 ^ 32) with 4294967296 in *. unfold u32. rewrite (Z.mod_small s) by lia. rewrite (Z.mod_small (tot + s)) by lia.
    rewrite vint_first by lia. set (V := vint n _) in *. assert (LV : len V = Z.of_nat n) by apply vint_len.
    specialize (IH fuel (pre ++ V) r payLen frames no (laceNo + 1) (if laceNo <? no then tot + s else tot) Hn' Hs). rewrite <- app_assoc in IH. lens. rewrite LV in IH.
    rewrite IH by (try lia; try assumption; destruct (laceNo <? no); lia). do 2 f_equal; [lia|].
    destruct (laceNo <? no) eqn:E.
    + rewrite (takez_S (no - laceNo)) by lia. rewrite sumz_cons. replace (no - (laceNo + 1)) with (no - laceNo - 1) by lia. lia.
    + rewrite !takez_nonpos by lia. reflexivity.
Qed.

(** *** The lacing theorems *)
Definition laced (w : nat) (id track tc fl : Z) (lace : list Z) (F : list (list Z)) (tl : list Z) : Prop :=
  let d := elemw w id (block track tc fl lace F) ++ tl in
  getFrameCount d = Some (len F) /\
  forall k, 0 <= k < len F ->
    getFrameSize d k = Some (len (frame F k)) /\
    exists o p, getFrameData d k = Some o /\ getPayload d = Some p /\ takez (len (frame F k)) (dropz o p) = frame F k.

Lemma sizes_nth (F : list (list Z)) k : 0 <= k < len F - 1 -> nthz (map len (removelast F)) k = len (frame F k).
Proof.
  intros Hk. unfold frame, nthz. assert (Hn : (Z.to_nat k < List.length F - 1)%nat) by (unfold len in Hk; lia).
  revert Hn. generalize (Z.to_nat k). clear Hk k. induction F as [|f F IH]; intros [|j] Hn; cbn [List.length] in Hn; try lia.
  - destruct F as [|g F]; [cbn [List.length] in Hn; lia|]. reflexivity.
  - destruct F as [|g F]; [cbn [List.length] in Hn; lia|]. cbn [removelast map nth]. apply IH. cbn [List.length] in *. lia.
Qed.
Lemma sizes_len (F : list (list Z)) : F <> [] -> len (map len (removelast F)) = len F - 1.
Proof.
  intros H. rewrite len_map. rewrite (app_removelast_last [] H) at 2. lens. lia.
Qed.
Lemma sizes_sum (F : list (list Z)) : F <> [] -> len (concat F) = sumz (map len (removelast F)) + len (frame F (len F - 1)).
Proof.
  intros H. rewrite (app_removelast_last [] H) at 1. rewrite concat_app, len_app, sumz_len. f_equal. cbn [concat]. rewrite app_nil_r.
  f_equal. unfold frame. rewrite (app_removelast_last [] H) at 3. rewrite app_nth2.
  - replace (Z.to_nat (len F - 1) - _)%nat with O; [reflexivity|].
    pose proof (sizes_len F H) as L. rewrite len_map in L. unfold len in *. lia.
  - pose proof (sizes_len F H) as L. rewrite len_map in L. unfold len in *. lia.
Qed.
Lemma sizes_take (F : list (list Z)) k : F <> [] -> 0 <= k < len F -> sumz (takez k (map len (removelast F))) = sumz (map len (firstn (Z.to_nat k) F)).
Proof.
  intros H Hk. unfold takez. rewrite (app_removelast_last [] H) at 2. rewrite firstn_app.
  pose proof (sizes_len F H) as L. rewrite len_map in L. unfold len in L, Hk.
  replace (Z.to_nat k - List.length (removelast F))%nat with O by lia. rewrite app_nil_r. now rewrite firstn_map.
Qed.
Lemma sizes_nonneg (F : list (list Z)) : nonneg (map len F).
Proof. apply Forall_map, Forall_forall. intros x _. apply len_nonneg. Qed.

Lemma ebml_lace_inv F l : ebml_lace F l -> (exists f, [f] = F /\ [0] = l) \/
  exists f g r code, ebml_diffs (len f) (map len (removelast (g :: r))) code /\ f :: g :: r = F /\ (1 + len r) :: svint (len f) ++ code = l.
Proof. intros H. inversion H; subst; [left|right]; eauto 10. Qed.
Section LACED.
Variables (w : nat) (id track tc fl : Z) (lace : list Z) (F : list (list Z)) (tl : list Z).
Let body := block track tc fl lace F.
Hypothesis (OK : elem_ok w id body) (Htl : bytesP tl) (Htr : 0 <= track <= vint_max) (H32 : len body < 2 ^ 32).
Hypothesis (HN : 1 <= len F <= 255).
Let d := elemw w id body ++ tl.
Let n := len (svint track).
Let pre := svint track ++ be 2 tc ++ [fl].
Lemma lc_pre : len pre = n + 3. Proof. unfold pre. lens. unfold n. lia. Qed.
Lemma lc_ne : F <> []. Proof. intros ->. revert HN. lnil. lia. Qed.
Lemma lc_body : len body = n + 3 + len lace + len (concat F).
Proof. unfold body, block. lens. unfold n. lia. Qed.
Lemma lc_fuel : Z.of_nat (Z.to_nat (n + 3 + len lace + len (concat F))) = n + 3 + len lace + len (concat F).
Proof. rewrite Z2Nat.id; [reflexivity|]. rewrite <- lc_body. apply len_nonneg. Qed.
Lemma lc_data k o : 0 <= k < len F -> o = n + 3 + len lace + sumz (map len (firstn (Z.to_nat k) F)) ->
  takez (len (frame F k)) (dropz o (svint track ++ be 2 tc ++ [fl] ++ lace ++ concat F ++ tl)) = frame F k.
Proof.
  intros Hk ->. replace (svint track ++ be 2 tc ++ [fl] ++ lace ++ concat F ++ tl) with ((pre ++ lace) ++ concat F ++ tl)
    by (unfold pre; rewrite <- !app_assoc; reflexivity).
  assert (0 <= sumz (map len (firstn (Z.to_nat k) F))) by (apply sumz_nonneg, sizes_nonneg).
  rewrite dropz_app_ge by (lens; rewrite lc_pre; lia). lens. rewrite lc_pre.
  replace (n + 3 + len lace + sumz (map len (firstn (Z.to_nat k) F)) - (n + 3 + len lace)) with (sumz (map len (firstn (Z.to_nat k) F))) by lia.
  now apply frame_split_tl.
Qed.

Lemma lc_count c r : lace = c :: r -> (fl .& 6) >> 1 <> 0 -> c = len F - 1 -> getFrameCount d = Some (len F).
Proof.
  intros El Hf Hc. unfold d, body. rewrite (bk_count w id track tc fl lace F tl OK Htr c r El Hf) by lia. f_equal. lia.
Qed.
Let P := svint track ++ be 2 tc ++ [fl] ++ lace ++ concat F ++ tl.
Lemma lc_plen : getPayloadLen d = Some (len body). Proof. now apply el_getPayloadLen. Qed.
Lemma lc_getFrameSize l k : (fl .& 6) >> 1 = l -> l <> 0 -> getFrameCount d = Some (len F) -> 0 <= k < len F ->
  getFrameSize d k =
    if l =? 1 then (r <- xiph_size (Z.to_nat (len body)) P (len body) (len F) k (n + 3 + 1) 0 0 0;; Some (finish_size (len body) r))
    else if l =? 3 then (r <- ebml_size (Z.to_nat (len body)) P (len body) (len F) k (n + 3 + 1) 0 0 0;; Some (finish_size (len body) r))
    else Some (u32 ((len body - (n + 3)) / len F)).
Proof.
  intros Hl Hl0 C Hk. unfold getFrameSize. rewrite lc_plen. unfold d, body. rewrite bk_lacing, bk_payload by assumption.
  rewrite bk_size by assumption. fold n. fold body. fold d. rewrite C, Hl.
  replace (l =? 0) with false by lia. replace (k >? len F - 1) with false by lia. replace (len F =? 0) with false by lia. reflexivity.
Qed.
Lemma lc_getFrameData l k : (fl .& 6) >> 1 = l -> l <> 0 -> getFrameCount d = Some (len F) -> 0 <= k < len F ->
  getFrameData d k =
    if l =? 1 then (r <- xiph_data (Z.to_nat (len body)) P (len body) (len F) k (n + 3 + 1) 0 0;; Some (fst r + snd r))
    else if l =? 3 then (r <- ebml_data (Z.to_nat (len body)) P (len body) (len F) k (n + 3 + 1) 0 0 0;; Some (fst r + snd r))
    else (s <- getFrameSize d k;; Some (n + 3 + 1 + k * s)).
Proof.
  intros Hl Hl0 C Hk. unfold getFrameData. rewrite lc_plen. unfold d, body. rewrite bk_lacing, bk_payload by assumption.
  rewrite bk_size by assumption. fold n. fold body. fold d. rewrite C, Hl.
  replace (l =? 0) with false by lia. replace (k >? len F - 1) with false by lia. reflexivity.
Qed.
(** Both variable size schemes come down to this. *)
Lemma lc_var (code : list Z) :
  let ss := map len (removelast F) in
  lace = (len F - 1) :: code -> getFrameCount d = Some (len F) ->
  (forall k, 0 <= k < len F -> getFrameSize d k =
     Some (finish_size (len body) (if k <? len ss then inl (nthz ss k) else inr (n + 3 + len lace, sumz ss)))) ->
  (forall k, 0 <= k < len F -> getFrameData d k = Some (n + 3 + len lace + sumz (takez k ss))) ->
  laced w id track tc fl lace F tl.
Proof.
  intros ss El C S D. split; [exact C|]. intros k Hk. fold body. fold d.
  pose proof (sizes_len F lc_ne) as SL. pose proof (sizes_sum F lc_ne) as SS. fold ss in SL, SS. pose proof lc_body as LB.
  split.
  - rewrite S by assumption. f_equal. destruct (k <? len ss) eqn:E; cbn [finish_size].
    + apply sizes_nth. lia.
    + replace k with (len F - 1) by lia. change (2 ^ 32) with 4294967296 in *.
      pose proof (len_nonneg (frame F (len F - 1))). pose proof (sumz_nonneg ss (sizes_nonneg _)). pose proof (len_nonneg lace).
      pose proof (len_nonneg (svint track)) as Hn. fold n in Hn.
      unfold u32. rewrite Z.mod_small; lia.
  - eexists; exists P. split; [apply D; exact Hk|]. split; [unfold d; now apply bk_payload|].
    apply lc_data; [exact Hk|]. unfold ss. rewrite sizes_take by (try apply lc_ne; lia). reflexivity.
Qed.

Lemma lc_xiph : (fl .& 6) >> 1 = 1 -> lace = xiph_lace F -> laced w id track tc fl lace F tl.
Proof.
  intros Hf Hl.
  assert (Hx : lace = (len F - 1) :: xcodes (map len (removelast F))).
  { rewrite Hl. unfold xiph_lace, xcodes. f_equal. induction (removelast F) as [|f r IH]; [reflexivity|]. cbn. now rewrite IH. }
  assert (C : getFrameCount d = Some (len F)) by (eapply lc_count; [exact Hx|lia|reflexivity]).
  pose proof (sizes_len F lc_ne) as SL. pose proof (sizes_sum F lc_ne) as SS. pose proof lc_body as LB.
  assert (PL : n + 3 + 1 = len (pre ++ [len F - 1])) by (lens; rewrite lc_pre; lia).
  set (ss := map len (removelast F)) in *. assert (NN : nonneg ss) by apply sizes_nonneg.
  assert (PE : P = (pre ++ [len F - 1]) ++ xcodes ss ++ concat F ++ tl).
  { unfold P. rewrite Hx. unfold pre. rewrite <- !app_assoc. reflexivity. }
  assert (LL : len lace = 1 + len (xcodes ss)) by (rewrite Hx; lens; reflexivity).
  pose proof (len_nonneg (frame F (len F - 1))). pose proof (sumz_nonneg ss NN).
  pose proof (len_nonneg (xcodes ss)). pose proof (len_nonneg (svint track)) as Hn. fold n in Hn.
  change (2 ^ 32) with 4294967296 in *.
  assert (FU : (List.length (xcodes ss) <= Z.to_nat (len body))%nat) by (unfold len at 1 in H1; unfold len in LL; unfold len in *; lia).
  apply (lc_var (xcodes ss)); [exact Hx|exact C| |]; intros k Hk.
  - rewrite (lc_getFrameSize 1) by (try assumption; lia). cbn [Z.eqb Pos.eqb]. rewrite PE, PL.
    rewrite xiph_size_all; try assumption; try lia; change (2 ^ 32) with 4294967296; try lia.
    rewrite Z.sub_0_r, Z.add_0_l, <- PL, LL. rewrite !Z.add_assoc. reflexivity.
  - rewrite (lc_getFrameData 1) by (try assumption; lia). cbn [Z.eqb Pos.eqb]. rewrite PE, PL.
    rewrite xiph_data_all; try assumption; try lia; change (2 ^ 32) with 4294967296; try lia.
    cbn [fst snd]. f_equal. rewrite Z.sub_0_r, Z.add_0_l, <- PL, LL. fold ss. lia.
Qed.

Lemma lc_ebml : (fl .& 6) >> 1 = 3 -> ebml_lace F lace -> laced w id track tc fl lace F tl.
Proof.
  intros Hf Hl. pose proof lc_body as LB. pose proof (len_nonneg (svint track)) as Hn. fold n in Hn.
  assert (PL : n + 3 + 1 = len (pre ++ [len F - 1])) by (lens; rewrite lc_pre; lia).
  pose proof OK as [_ [_ [_ Hbb]]]. unfold body, block in Hbb. rewrite !bytesP_app in Hbb.
  assert (BF : bytesP (concat F ++ tl)) by (apply bytesP_app; tauto).
  change (2 ^ 32) with 4294967296 in *.
  destruct (ebml_lace_inv _ _ Hl) as [[f [HF HL]]|[f [g [r [code [Hd [HF HL]]]]]]].
  - assert (LF1 : len F = 1) by (rewrite <- HF; reflexivity). assert (LL : len lace = 1) by (rewrite <- HL; reflexivity).
    assert (C : getFrameCount d = Some (len F)) by (apply (lc_count 0 []); [now symmetry|lia|lia]).
    apply (lc_var []); [rewrite LF1; now symmetry|exact C| |]; intros k Hk; replace k with 0 by lia;
    [rewrite (lc_getFrameSize 3) by (try assumption; lia)|rewrite (lc_getFrameData 3) by (try assumption; lia)]; cbn [Z.eqb Pos.eqb]; rewrite LF1, LL.
    + replace (map len (removelast F)) with (@nil Z) by (rewrite <- HF; reflexivity). lnil.
      destruct (Z.to_nat (len body)); reflexivity.
    + replace (map len (removelast F)) with (@nil Z) by (rewrite <- HF; reflexivity).
      destruct (Z.to_nat (len body)); reflexivity.
  - assert (Hx : lace = (len F - 1) :: svint (len f) ++ code) by (rewrite <- HF, <- HL; lens; f_equal; lia).
    assert (C : getFrameCount d = Some (len F)) by (eapply lc_count; [exact Hx|lia|reflexivity]).
    pose proof (sizes_len F lc_ne) as SL. pose proof (sizes_sum F lc_ne) as SS.
    assert (ES : map len (removelast F) = len f :: map len (removelast (g :: r))) by (rewrite <- HF; reflexivity).
    set (ss := map len (removelast F)) in *. set (ss' := map len (removelast (g :: r))) in *.
    assert (NN : nonneg ss') by apply sizes_nonneg.
    pose proof (len_nonneg (frame F (len F - 1))). pose proof (sumz_nonneg ss' NN). pose proof (len_nonneg f).
    assert (E1 : len ss = 1 + len ss') by (rewrite ES; lens; reflexivity).
    assert (E2 : sumz ss = len f + sumz ss') by (rewrite ES; apply sumz_cons).
    assert (LL : len lace = 1 + len (svint (len f)) + len code) by (rewrite Hx; lens; lia).
    pose proof (len_nonneg lace). assert (Hfm : 0 <= len f <= vint_max) by (unfold vint_max; lia).
    pose proof (svint_len_bounds _ Hfm). pose proof (len_nonneg code). pose proof (diffs_nonempty _ _ _ Hd). pose proof (len_nonneg ss').
    assert (BC : bytesP (code ++ concat F ++ tl)) by (apply bytesP_app; split; [eapply diffs_bytes; eauto|exact BF]).
    assert (PE : P = (pre ++ [len F - 1]) ++ svint (len f) ++ code ++ concat F ++ tl).
    { unfold P. rewrite Hx. unfold pre. cbn [app]. rewrite <- !app_assoc. reflexivity. }
    assert (PE2 : P = ((pre ++ [len F - 1]) ++ svint (len f)) ++ code ++ concat F ++ tl) by (rewrite PE, <- !app_assoc; reflexivity).
    assert (PL2 : n + 3 + 1 + len (svint (len f)) = len ((pre ++ [len F - 1]) ++ svint (len f))) by (rewrite len_app, <- PL; reflexivity).
    destruct (Z.to_nat (len body)) as [|fuel] eqn:EF; [lia|].
    apply (lc_var (svint (len f) ++ code)); [exact Hx|exact C| |]; intros k Hk; fold ss.
    + rewrite (lc_getFrameSize 3) by (try assumption; lia). cbn [Z.eqb Pos.eqb]. rewrite EF. cbn [ebml_size].
      replace ((0 <=? k) && (0 <? len F - 1) && (n + 3 + 1 <? len body)) with true by lia.
      rewrite PE, PL, drop_pre. change (0 =? 0) with true. cbv iota. rewrite svint_read, svint_size by assumption. rewrite <- PE.
      cbv zeta. rewrite Z.add_0_l. unfold u32. rewrite !Z.mod_small by lia.
      destruct (0 =? k) eqn:E0.
      * replace k with 0 by lia. replace (0 <? len ss) with true by lia. cbn [finish_size]. rewrite ES. reflexivity.
      * rewrite <- PL, PE2, PL2. rewrite (ebml_size_diffs (len f) ss' code Hd); try assumption; change (2 ^ 32) with 4294967296; try lia.
        do 2 f_equal. rewrite <- PL2, ES, sumz_cons, LL. lens. replace (k - 1 <? len ss') with (k <? 1 + len ss') by lia.
        destruct (k <? 1 + len ss'); [rewrite nthz_S by lia; reflexivity|]. do 2 f_equal; lia.
    + rewrite (lc_getFrameData 3) by (try assumption; lia). cbn [Z.eqb Pos.eqb]. rewrite EF. cbn [ebml_data].
      replace ((0 <? len F - 1) && (n + 3 + 1 <? len body)) with true by lia.
      rewrite PE, PL, drop_pre. change (0 =? 0) with true. cbv iota. rewrite svint_read, svint_size by assumption. rewrite <- PE.
      cbv zeta. rewrite Z.add_0_l. unfold u32. rewrite !Z.mod_small by lia.
      rewrite <- PL, PE2, PL2. rewrite (ebml_data_diffs (len f) ss' code Hd); try assumption; change (2 ^ 32) with 4294967296; try lia.
      2:{ destruct (0 <? k); lia. } 2:{ destruct (0 <? k); lia. }
      cbn [fst snd]. f_equal. rewrite <- PL2, ES, LL. destruct (0 <? k) eqn:E0.
      * rewrite (takez_S k) by lia. rewrite sumz_cons. lia.
      * rewrite !takez_nonpos by lia. change (sumz []) with 0. lia.
Qed.

Lemma lc_fixed s : (fl .& 6) >> 1 = 2 -> lace = fixed_lace F -> 2 <= len F -> Forall (fun f => len f = s) F -> laced w id track tc fl lace F tl.
Proof.
  intros Hf Hl H2 Hs. unfold fixed_lace in Hl.
  assert (C : getFrameCount d = Some (len F)) by (eapply lc_count; [exact Hl|lia|reflexivity]).
  assert (SZ : forall G, Forall (fun f : list Z => len f = s) G -> sumz (map len G) = len G * s).
  { induction 1 as [|f G Hf' HG IH]; [reflexivity|]. cbn [map]. rewrite sumz_cons, IH. lens. lia. }
  assert (S0 : 0 <= s).
  { destruct F as [|f r]; [revert H2; lnil; lia|]. inversion Hs as [|? ? E _]. rewrite <- E. apply len_nonneg. }
  pose proof lc_body as LB. rewrite <- sumz_len, (SZ F Hs) in LB. pose proof (len_nonneg (svint track)) as Hn. fold n in Hn.
  assert (LL : len lace = 1) by (rewrite Hl; reflexivity).
  change (2 ^ 32) with 4294967296 in *.
  assert (G : forall k, 0 <= k < len F -> getFrameSize d k = Some s).
  { intros k Hk. rewrite (lc_getFrameSize 2) by (try assumption; lia). cbn [Z.eqb Pos.eqb]. f_equal.
    replace (len body - (n + 3)) with (s * len F + 1) by lia.
    rewrite Z.div_add_l by lia. rewrite (Z.div_small 1) by lia. unfold u32. rewrite Z.mod_small; nia. }
  assert (FS : forall k, 0 <= k < len F -> len (frame F k) = s).
  { intros k Hk. rewrite Forall_forall in Hs. apply Hs. unfold frame. apply nth_In. unfold len in Hk. lia. }
  split; [exact C|]. fold body. fold d. intros k Hk. rewrite (FS k Hk). split; [now apply G|].
  eexists; exists P. split; [|split; [unfold d; now apply bk_payload|]].
  - rewrite (lc_getFrameData 2) by (try assumption; lia). cbn [Z.eqb Pos.eqb]. rewrite G by exact Hk. reflexivity.
  - rewrite <- (FS k Hk) at 1. apply lc_data; [exact Hk|]. rewrite SZ.
    + rewrite LL. f_equal. f_equal. unfold len in *. rewrite firstn_length. lia.
    + apply Forall_forall. intros x Hx. rewrite Forall_forall in Hs. apply Hs. rewrite <- (firstn_skipn (Z.to_nat k) F). apply in_or_app. now left.
Qed.
End LACED.

(** No lacing: one frame. *)
Lemma unlaced w id track tc fl f tl : elem_ok w id (block track tc fl [] [f]) -> bytesP tl -> 0 <= track <= vint_max ->
  len f < 2 ^ 32 -> (fl .& 6) >> 1 = 0 -> laced w id track tc fl [] [f] tl.
Proof.
  intros OK Htl Htr H32 Hf. unfold laced. set (d := elemw w id (block track tc fl [] [f]) ++ tl). pose proof (len_nonneg f).
  split; [unfold getFrameCount, d; rewrite bk_lacing by assumption; rewrite Hf; reflexivity|].
  intros k Hk. assert (k = 0) as -> by (revert Hk; lens; lia). change (frame [f] 0) with f.
  change (2 ^ 32) with 4294967296 in *. split.
  - unfold getFrameSize, d. rewrite bk_lacing, bk_plen, bk_payload, bk_size by assumption. rewrite Hf. cbn [Z.eqb]. f_equal.
    cbn [concat]. rewrite app_nil_r. lnil. unfold u32. rewrite Z.mod_small; lia.
  - eexists; eexists. split; [|split; [unfold d; now apply bk_payload|]].
    + unfold getFrameData, d. rewrite bk_lacing, bk_plen, bk_payload, bk_size by assumption. rewrite Hf. reflexivity.
    + cbn [app concat]. rewrite dropz_app_ge by lia. rewrite dropz_app_ge by (lens; lia). lens.
      replace (len (svint track) + 3 - len (svint track) - Z.of_nat 2) with 1 by lia. cbn [app]. rewrite dropz_S by lia.
      rewrite app_nil_r. change (1 - 1) with 0. rewrite dropz_0. now apply takez_app_exact.
Qed.

(** ** Writers as trees *)
Definition leaf (id : Z) (p : list Z) : tree := Leaf (width (len p)) id p.
Definition node (id : Z) (kids : list tree) : tree := Node (width (len (flat_map enc kids))) id kids.
Lemma enc_leaf id p : enc (leaf id p) = elem id p. Proof. reflexivity. Qed.
Lemma enc_node id kids : enc (node id kids) = elem id (flat_map enc kids). Proof. reflexivity. Qed.
Lemma leaf_ok id p : 0 <= id < 2 ^ 28 - 1 -> is_master id = false -> bytesP p -> len p <= vint_max -> tree_ok is_master (leaf id p).
Proof. intros. split; [now apply elem_ok_shortest|assumption]. Qed.
Lemma node_ok id kids : 0 <= id < 2 ^ 28 - 1 -> is_master id = true -> fold_right (fun t P => tree_ok is_master t /\ P) True kids ->
  len (flat_map enc kids) <= vint_max -> tree_ok is_master (node id kids).
Proof. intros. cbn [node tree_ok]. split; [|now split]. apply elem_ok_shortest; try assumption. now apply kids_bytes. Qed.
Lemma uleaf_ok id v : 0 <= id < 2 ^ 28 - 1 -> is_master id = false -> 0 <= v < 2 ^ 64 -> tree_ok is_master (leaf id (uintp v)).
Proof.
  intros. apply leaf_ok; try assumption; [apply uintp_bytes|]. rewrite uintp_len by lia. pose proof (sizeUInt_ok v ltac:(lia)). unfold vint_max. lia.
Qed.
Lemma uelem_len id v : 0 <= id < 2 ^ 28 - 1 -> 0 <= v < 2 ^ 64 -> 3 <= len (elem id (uintp v)) <= 24.
Proof.
  intros Hi Hv. pose proof (sizeUInt_ok v Hv). rewrite elem_len, uintp_len by assumption.
  pose proof (svint_len_bounds id (id_max id Hi)). assert (0 <= sizeUInt v <= vint_max) by (unfold vint_max; lia).
  pose proof (svint_len_bounds _ H1). lia.
Qed.

(** What a reader of the element [d] finds under the identifier [id]: an element whose unsigned
    value is [v]. *)
Definition finds (d : list Z) (id : Z) (P : list Z -> Prop) : Prop :=
  exists n0, forall fuel, (n0 <= fuel)%nat -> exists d', findChild fuel false d id = Found d' /\ P d'.
Lemma finds_tree t tl id x (P : list Z -> Prop) : tree_ok is_master t -> bytesP tl -> tree_find id t = Some x ->
  (forall tl', bytesP tl' -> P (enc x ++ tl')) -> finds (enc t ++ tl) id P.
Proof.
  intros Ok Ht Hf HP. exists (fuel_of t). intros fuel Hfu. pose proof (find_ok t fuel tl id Ok Ht Hfu) as F. rewrite Hf in F.
  destruct F as [pre [tl' [E1 E2]]]. eexists. split; [exact E2|]. apply HP.
  assert (B : bytesP (enc t ++ tl)) by (apply bytesP_app; split; [now apply enc_bytes|exact Ht]).
  rewrite E1, !bytesP_app in B. tauto.
Qed.

Definition cue_tree time track cpos rpos : tree :=
  node 0x3B [leaf 0x33 (uintp time); node 0x37 [leaf 0x77 (uintp track); leaf 0x71 (uintp cpos); leaf 0x70 (uintp rpos)]].
Definition u64v (v : Z) : Prop := 0 <= v < 2 ^ 64.
Lemma cue_ok time track cpos rpos : u64v time -> u64v track -> u64v cpos -> u64v rpos ->
  sendElemCuePoint time track cpos rpos = enc (cue_tree time track cpos rpos) /\
  sizeElemCuePoint time track cpos rpos = len (enc (cue_tree time track cpos rpos)) /\
  tree_ok is_master (cue_tree time track cpos rpos).
Proof.
  unfold u64v. intros Ha Hb Hc Hd. unfold sendElemCuePoint, sizeElemCuePoint, cue_tree. cbv zeta.
  rewrite !sendElemUInt_ok, !sizeElemUInt_ok by (unfold vint_max; lia).
  pose proof (uelem_len 0x33 time ltac:(lia) Ha). pose proof (uelem_len 0x77 track ltac:(lia) Hb).
  pose proof (uelem_len 0x71 cpos ltac:(lia) Hc). pose proof (uelem_len 0x70 rpos ltac:(lia) Hd).
  rewrite !enc_node. cbn [flat_map]. rewrite !enc_leaf, !enc_node. cbn [flat_map]. rewrite !enc_leaf, !app_nil_r.
  set (A := elem 0x33 (uintp time)) in *. set (B := elem 0x77 (uintp track)) in *. set (C := elem 0x71 (uintp cpos)) in *. set (D := elem 0x70 (uintp rpos)) in *.
  unfold u32. rewrite !(Z.mod_small (len B + len C + len D)) by lia.
  assert (V1 : 0 <= len B + len C + len D <= vint_max) by (unfold vint_max; lia).
  pose proof (svint_len_bounds _ V1).
  rewrite !sizeElemHead_ok by (assumption || (unfold vint_max; lia)).
  change (len (svint 0x37)) with 1. change (len (svint 0x3B)) with 1.
  set (k := len B + len C + len D) in *.
  assert (EA : elem 0x37 (B ++ C ++ D) = svint 0x37 ++ svint k ++ B ++ C ++ D).
  { unfold elem, elemw. replace (len (B ++ C ++ D)) with k by (unfold k; lens; lia). reflexivity. }
  assert (LA : len (elem 0x37 (B ++ C ++ D)) = 1 + len (svint k) + k) by (rewrite EA; lens; change (len (svint 0x37)) with 1; unfold k; lia).
  assert (V2 : 0 <= len A + (1 + len (svint k) + k) <= vint_max) by (unfold vint_max; lia).
  pose proof (svint_len_bounds _ V2).
  split; [|split].
  - rewrite Z.mod_small by lia.
    rewrite !sendElemHead_ok by (assumption || (unfold vint_max in *; lia)).
    unfold elem at 1, elemw at 1. rewrite EA. lens. change (len (svint 0x37)) with 1.
    replace (len A + (1 + (len (svint k) + (len B + (len C + len D))))) with (k + len A + (1 + len (svint k))) by (unfold k; lia).
    fold (svint (k + len A + (1 + len (svint k)))). rewrite <- !app_assoc. reflexivity.
  - rewrite elem_len, len_app, LA. rewrite (Z.mod_small (k + (1 + len (svint k)))) by lia.
    rewrite (Z.mod_small (k + (1 + len (svint k)) + len A)) by lia.
    replace (k + (1 + len (svint k)) + len A) with (len A + (1 + len (svint k) + k)) by lia.
    change (len (svint 0x3B)) with 1. rewrite Z.mod_small; lia.
  - apply node_ok; [lia|reflexivity| |].
    + cbn [fold_right]. split; [now apply uleaf_ok|]. split; [|exact I]. apply node_ok; [lia|reflexivity| |].
      * cbn [fold_right]. repeat match goal with |- _ /\ _ => split end; try exact I; now apply uleaf_ok.
      * cbn [flat_map]. rewrite !enc_leaf, app_nil_r. fold B C D. lens. unfold vint_max; lia.
    + cbn [flat_map]. rewrite enc_leaf, enc_node. cbn [flat_map]. rewrite !enc_leaf, !app_nil_r. fold A B C D. lens. rewrite LA. unfold vint_max; lia.
Qed.

(** The EBML header. *)
Definition ebml_tree (doctype : list Z) : tree :=
  node 0x0A45DFA3 [leaf 0x286 (uintp 1); leaf 0x2F7 (uintp 1); leaf 0x2F2 (uintp 4); leaf 0x2F3 (uintp 8);
    leaf 0x282 doctype; leaf 0x287 (uintp (if beqb doctype (bs "matroska") then 4 else 1)); leaf 0x285 (uintp 1)].
Lemma svint_small v : 0 <= v <= 126 -> svint v = [128 + v].
Proof.
  intros H. unfold svint, width. cbn [width_from]. change (2 ^ (7 * Z.of_nat 1)) with 128. replace (v <? 128 - 1) with true by lia.
  unfold vint. cbn [be]. change (2 ^ (7 * Z.of_nat 1)) with 128. change (256 ^ Z.of_nat 0) with 1. rewrite Z.div_1_r, Z.mod_small by lia. reflexivity.
Qed.
Lemma ebml_header_ok doctype : bytesP doctype -> len doctype <= 126 ->
  sendElemEBML doctype = enc (ebml_tree doctype) /\ sizeElemEBML doctype = len (enc (ebml_tree doctype)) /\
  tree_ok is_master (ebml_tree doctype).
Proof.
  intros Hb Hl. pose proof (len_nonneg doctype) as H0.
  assert (D : forall d, (if beqb doctype (bs "matroska") then sendElemUInt 0x287 4 ++ d else sendElemUInt 0x287 1 ++ d) =
     elem 0x287 (uintp (if beqb doctype (bs "matroska") then 4 else 1)) ++ d).
  { intros d. destruct (beqb doctype (bs "matroska")); now rewrite sendElemUInt_ok by (unfold vint_max; lia). }
  assert (L5 : len (elem 0x282 doctype) = 3 + len doctype).
  { rewrite elem_len. rewrite (svint_small (len doctype)) by lia. change (len (svint 0x282)) with 2. lens. lia. }
  assert (EB : flat_map enc [leaf 0x286 (uintp 1); leaf 0x2F7 (uintp 1); leaf 0x2F2 (uintp 4); leaf 0x2F3 (uintp 8);
    leaf 0x282 doctype; leaf 0x287 (uintp (if beqb doctype (bs "matroska") then 4 else 1)); leaf 0x285 (uintp 1)] =
    elem 0x286 (uintp 1) ++ elem 0x2F7 (uintp 1) ++ elem 0x2F2 (uintp 4) ++ elem 0x2F3 (uintp 8) ++ elem 0x282 doctype ++
    elem 0x287 (uintp (if beqb doctype (bs "matroska") then 4 else 1)) ++ elem 0x285 (uintp 1)).
  { cbn [flat_map]. now rewrite app_nil_r. }
  assert (LB : len (flat_map enc [leaf 0x286 (uintp 1); leaf 0x2F7 (uintp 1); leaf 0x2F2 (uintp 4); leaf 0x2F3 (uintp 8);
    leaf 0x282 doctype; leaf 0x287 (uintp (if beqb doctype (bs "matroska") then 4 else 1)); leaf 0x285 (uintp 1)]) = 27 + len doctype).
  { rewrite EB. lens. rewrite L5. change (len (elem 0x286 (uintp 1))) with 4. change (len (elem 0x2F7 (uintp 1))) with 4.
    change (len (elem 0x2F2 (uintp 4))) with 4. change (len (elem 0x2F3 (uintp 8))) with 4. change (len (elem 0x285 (uintp 1))) with 4.
    destruct (beqb doctype (bs "matroska")); [change (len (elem 0x287 (uintp 4))) with 4|change (len (elem 0x287 (uintp 1))) with 4]; lia. }
  assert (V : 0 <= 27 + len doctype <= vint_max) by (unfold vint_max; lia).
  pose proof (svint_len_bounds _ V).
  split; [|split].
  - unfold sendElemEBML, ebml_tree. rewrite enc_node. unfold elem, elemw. rewrite LB, EB. rewrite D.
    rewrite !sendElemUInt_ok by (unfold vint_max; lia). rewrite sendElemStr_ok by (unfold vint_max; lia).
    rewrite sendElemHead_ok by (assumption || (unfold vint_max; lia)). rewrite <- app_assoc. reflexivity.
  - unfold sizeElemEBML, ebml_tree. rewrite enc_node, elem_len, LB.
    rewrite sizeElemHead_ok by (assumption || (unfold vint_max; lia)). change (len (svint 0x0A45DFA3)) with 4. unfold u32. rewrite Z.mod_small; lia.
  - apply node_ok; [lia|reflexivity| |rewrite LB; unfold vint_max; lia]. cbn [fold_right].
    repeat match goal with |- _ /\ _ => split end; try exact I; try (apply uleaf_ok; [lia|reflexivity|lia]).
    + apply leaf_ok; [lia|reflexivity|exact Hb|unfold vint_max; lia].
    + apply uleaf_ok; [lia|reflexivity|]. destruct (beqb doctype (bs "matroska")); lia.
Qed.

(** Seek entries. *)
Definition seek_tree id pos : tree := node 0xDBB [leaf 0x13AB (svint id); leaf 0x13AC (uintp pos)].
Lemma seek_ok id pos : 0 <= id < 2 ^ 28 - 1 -> u64v pos -> sizeUInt id = writeSize id ->
  sendElemSeek id pos = enc (seek_tree id pos) /\ sizeElemSeek id pos = len (enc (seek_tree id pos)) /\
  tree_ok is_master (seek_tree id pos).
Proof.
  intros Hi Hp Hs. pose proof (id_max id Hi) as Hm. pose proof (svint_len_bounds id Hm). pose proof (uelem_len 0x13AC pos ltac:(lia) Hp).
  assert (Vi : 0 <= len (svint id) <= vint_max) by (unfold vint_max; lia). pose proof (svint_len_bounds _ Vi).
  assert (L1 : len (elem 0x13AB (svint id)) = 2 + len (svint (len (svint id))) + len (svint id)) by (rewrite elem_len; reflexivity).
  assert (S1 : sizeElemUInt 0x13AB id = len (elem 0x13AB (svint id))).
  { unfold sizeElemUInt. cbv zeta. rewrite Hs, writeSize_len by assumption. rewrite sizeElemHead_ok by (assumption || (unfold vint_max; lia)).
    rewrite L1. change (len (svint 0x13AB)) with 2. apply u32_id. lia. }
  assert (S2 : sizeElemID 0x13AB id = len (elem 0x13AB (svint id))).
  { unfold sizeElemID. cbv zeta. rewrite writeSize_len by assumption. rewrite sizeElemHead_ok by (assumption || (unfold vint_max; lia)).
    rewrite L1. change (len (svint 0x13AB)) with 2. apply u32_id. lia. }
  assert (W : sendElemID 0x13AB id = elem 0x13AB (svint id)).
  { unfold sendElemID. rewrite writeSize_len, sendUniInt_ok by assumption. rewrite sendElemHead_ok by (assumption || (unfold vint_max; lia)).
    unfold elem, elemw. now rewrite <- app_assoc. }
  unfold sendElemSeek, sizeElemSeek, seek_tree. cbv zeta. rewrite S1, S2, W, sendElemUInt_ok, sizeElemUInt_ok by (assumption || (unfold vint_max; lia)).
  rewrite enc_node. cbn [flat_map]. rewrite !enc_leaf, app_nil_r.
  set (A := elem 0x13AB (svint id)) in *. set (B := elem 0x13AC (uintp pos)) in *.
  unfold u32. rewrite (Z.mod_small (len A + len B)) by lia.
  assert (V : 0 <= len A + len B <= vint_max) by (unfold vint_max; lia). pose proof (svint_len_bounds _ V).
  split; [|split].
  - rewrite sendElemHead_ok by (assumption || (unfold vint_max; lia)). unfold elem, elemw. lens. now rewrite <- app_assoc.
  - rewrite sizeElemHead_ok by (assumption || (unfold vint_max; lia)). rewrite elem_len. lens. change (len (svint 0xDBB)) with 2. rewrite Z.mod_small; lia.
  - apply node_ok; [lia|reflexivity| |].
    + cbn [fold_right]. split; [|split; [now apply uleaf_ok|exact I]]. apply leaf_ok; [lia|reflexivity|apply svint_bytes|apply Vi].
    + cbn [flat_map]. rewrite !enc_leaf, app_nil_r. fold A B. lens. unfold vint_max; lia.
Qed.

(** SimpleBlock. *)
Lemma simple_block_ok dat track time (key : bool) ctime : bytesP dat -> 0 <= track <= vint_max -> len dat < 2 ^ 32 - 11 ->
  let b := block track (s16 (time - ctime)) (if key then 128 else 0) [] [dat] in
  sendSimpleBlock dat track time key ctime = elem 0x23 b /\
  (len dat < 2 ^ 32 - 32 -> sizeSimpleBlock track (len dat) = len (elem 0x23 b)) /\ elem_ok (width (len b)) 0x23 b.
Proof.
  intros Hb Ht Hl. cbv zeta. unfold sendSimpleBlock, sizeSimpleBlock. cbv zeta.
  set (b := block track (s16 (time - ctime)) (if key then 128 else 0) [] [dat]).
  rewrite writeSize_len by assumption. pose proof (svint_len_bounds _ Ht). pose proof (len_nonneg dat).
  assert (LB : len b = len (svint track) + 3 + len dat).
  { unfold b, block. cbn [concat app]. rewrite app_nil_r. lens. lia. }
  change (2 ^ 32) with 4294967296 in *. unfold u32. rewrite !(Z.mod_small (len (svint track) + 3 + len dat)) by lia. rewrite <- LB.
  assert (V : 0 <= len b <= vint_max) by (unfold vint_max; lia). pose proof (svint_len_bounds _ V).
  split; [|split].
  - rewrite sendElemHead_ok by (assumption || (unfold vint_max; lia)). rewrite sendUniInt_ok by assumption. rewrite wr_htobs.
    unfold elem, elemw. rewrite <- app_assoc. fold (svint (len b)). do 2 f_equal. unfold b, block. cbn [concat app]. rewrite app_nil_r. reflexivity.
  - intros Hs. rewrite sizeElemHead_ok by (assumption || (unfold vint_max; lia)). rewrite elem_len. change (len (svint 0x23)) with 1.
    rewrite Z.mod_small; lia.
  - apply elem_ok_shortest; [lia| |apply V]. unfold b, block. cbn [concat app]. rewrite app_nil_r, !bytesP_app.
    split; [apply svint_bytes|]. split; [apply be_bytes|]. apply bytesP_cons. split; [destruct key; unfold byteP; lia|exact Hb].
Qed.
