(** Proofs for RelAccX_Props.v: the layout. *)
From Verif Require Import Common CommonFacts CommonMore Bitfields_Model Bitfields_Proofs Mem_Model Mem_Proofs RelAccX_Model RelAccX_Spec.

Ltac conjs := repeat match goal with |- _ /\ _ => split end.

Lemma poke_app m o a b m1 m2 : poke m o a = Some m1 -> poke m1 (o + len a) b = Some m2 -> poke m o (a ++ b) = Some m2.
Proof.
  intros H1 H2. pose proof (poke_len _ _ _ _ H1) as L. destruct (poke_inv _ _ _ _ H1) as (A1 & A2 & ->).
  destruct (poke_inv _ _ _ _ H2) as (B1 & B2 & ->). rewrite L in B2.
  rewrite poke_some; [|lia|rewrite len_app; lia]. f_equal.
  pose proof (len_nonneg a). pose proof (len_nonneg b).
  assert (Hab : o + len (a ++ b) <= len m) by (rewrite len_app; lia).
  apply nthz_ext.
  - rewrite !len_splice; lia.
  - intros i Hi. rewrite len_splice in Hi by lia.
    destruct (Z_lt_dec i o) as [C1|C1].
    { rewrite !splice_out; try lia; try reflexivity; rewrite ?L; lia. }
    destruct (Z_lt_dec i (o + len a)) as [C2|C2].
    { rewrite splice_in by (rewrite ?len_app; lia). rewrite nthz_app1 by lia. rewrite (splice_out (splice m o a)) by (rewrite ?L; lia). rewrite splice_in by lia. reflexivity. }
    destruct (Z_lt_dec i (o + len a + len b)) as [C3|C3].
    { rewrite splice_in by (rewrite ?len_app; lia). rewrite nthz_app2 by lia. rewrite (splice_in (splice m o a)) by (rewrite ?L; lia). f_equal. lia. }
    rewrite !splice_out; try reflexivity; try lia; rewrite ?L, ?len_app; lia.
Qed.
Lemma poke_nil m o : 0 <= o <= len m -> poke m o [] = Some m.
Proof. intros H. rewrite poke_some by (rewrite ?len_nil; lia). f_equal. unfold splice. rewrite len_nil, Z.add_0_r. cbn [app]. apply takez_dropz. Qed.

(** Types. *)
Lemma type_hi ty : byteP ty -> (ty .& 0xF0) = ty / 16 * 16.
Proof.
  intros H. apply Z.eqb_eq. revert ty H. apply (byte_sweep (fun ty => (ty .& 0xF0) =? ty / 16 * 16)). vm_compute. reflexivity.
Qed.
Lemma type_is ty k : byteP ty -> ((ty .& 0xF0) =? k * 16) = (ty / 16 =? k).
Proof. intros H. rewrite type_hi by exact H. destruct (Z.eqb_spec (ty / 16) k); destruct (Z.eqb_spec (ty / 16 * 16) (k * 16)); try reflexivity; lia. Qed.
Lemma default_size_ok ty : byteP ty -> default_size ty = natural_size ty.
Proof.
  intros H. apply Z.eqb_eq. revert ty H. apply (byte_sweep (fun ty => default_size ty =? natural_size ty)). vm_compute. reflexivity.
Qed.
Lemma natural_range ty : byteP ty -> 0 <= natural_size ty < 2 ^ 32.
Proof.
  intros H. assert (E : ((0 <=? natural_size ty) && (natural_size ty <? 2 ^ 32)) = true).
  { revert ty H. apply (byte_sweep (fun ty => (0 <=? natural_size ty) && (natural_size ty <? 2 ^ 32))). vm_compute. reflexivity. }
  lia.
Qed.
Lemma d_size_range d : decl_ok d -> 0 < d_size d < 2 ^ 32.
Proof. intros (_ & _ & H1 & H2 & H3). unfold d_size in *. pose proof (natural_range _ H1). destruct (snd d =? 0); lia. Qed.

(** Description of one field. *)
Definition type_len (d : decl) : Z :=
  if natural_size (d_type d) =? d_size d then 1 else if d_size d <? 0x100 then 2 else if d_size d <? 0x10000 then 3 else 5.
Definition descr (d : decl) : list Z :=
  [len (d_name d) * 8 + type_len d] ++ d_name d ++ [d_type d] ++ le (Z.to_nat (type_len d - 1)) (d_size d).
Lemma type_len_in d : type_len d = 1 \/ type_len d = 2 \/ type_len d = 3 \/ type_len d = 5.
Proof. unfold type_len. dif; auto. Qed.
Lemma descr_len d : len (descr d) = 1 + len (d_name d) + type_len d.
Proof.
  unfold descr. rewrite !len_app, le_len. change (len [len (d_name d) * 8 + type_len d]) with 1. change (len [d_type d]) with 1.
  pose proof (type_len_in d). lia.
Qed.
Lemma descr_bytes d : decl_ok d -> bytesP (descr d).
Proof.
  intros (H1 & H2 & H3 & _). unfold descr. apply bytesP_app; split; [|apply bytesP_app; split; [exact H2|apply bytesP_app; split; [|apply le_bytes]]].
  - constructor; [|constructor]. pose proof (type_len_in d). unfold byteP. lia.
  - constructor; [exact H3|constructor].
Qed.
Lemma le1 v : byteP v -> le 1 v = [v].
Proof. intros H. unfold le. cbn. f_equal. unfold byteP in H. rewrite Z.div_1_r. apply Z.mod_small. lia. Qed.
Lemma header_byte d : decl_ok d -> u8 ((len (d_name d) << 3) .| (type_len d .& 7)) = len (d_name d) * 8 + type_len d.
Proof.
  intros (H1 & _). pose proof (type_len_in d) as T. rewrite land_7, Z.mod_small by lia.
  rewrite (lor_shl_add' _ _ 3 8) by lia. apply u8_id. unfold byteP. lia.
Qed.

(** Building. *)
Definition described (l : list decl) : list Z := flat_map descr l.
Record building (n : Z) (l : list decl) (s : rax) : Prop := mkbld {
  b_len : len (page s) = n; b_bytes : bytesP (page s); b_fields : fields s = rev (layout 0 l);
  b_status : ld 1 (page s) 0 = Some 0; b_cnt : ld 4 (page s) 2 = Some 0;
  b_start : ld 4 (page s) 10 = Some 0; b_del : ld 8 (page s) 14 = Some 0; b_pres : ld 4 (page s) 22 = Some 0; b_end : ld 8 (page s) 28 = Some 0;
  b_more : l <> [] -> ld 1 (page s) 1 = Some 36 /\ ld 4 (page s) 6 = Some (record_size l) /\
      ld 2 (page s) 26 = Some (36 + len (described l)) /\ peek (page s) 36 (len (described l)) = Some (described l) }.
Lemma layout_app l1 : forall a l2, layout a (l1 ++ l2) = layout a l1 ++ layout (a + record_size l1) l2.
Proof.
  induction l1 as [|d l1 IH]; intros a l2; cbn [layout app record_size fold_right]; [f_equal; lia|].
  f_equal. rewrite IH. f_equal. f_equal. unfold record_size. lia.
Qed.
Lemma record_size_app a b : record_size (a ++ b) = record_size a + record_size b.
Proof. induction a as [|d a IH]; cbn [app record_size fold_right]; [reflexivity|]. unfold record_size in *. lia. Qed.
Lemma described_app a b : described (a ++ b) = described a ++ described b.
Proof. unfold described. apply flat_map_app. Qed.
Lemma described_one d : described [d] = descr d.
Proof. unfold described. cbn [flat_map]. apply app_nil_r. Qed.
Lemma described_le l : Forall decl_ok l -> len (described l) <= description l.
Proof.
  induction 1 as [|d l H _ IH]; cbn [described flat_map description fold_right]; [reflexivity|].
  rewrite len_app, descr_len. pose proof (type_len_in d). unfold described, description in *. lia.
Qed.
Lemma record_size_nonneg l : Forall decl_ok l -> 0 <= record_size l.
Proof. induction 1 as [|d l H _ IH]; cbn [record_size fold_right]; [lia|]. pose proof (d_size_range _ H). unfold record_size in IH. lia. Qed.

Ltac other H := rewrite (ld_poke_other _ _ _ _ _ _ H) by (rewrite ?le_len; lia).
Lemma flags_clear m : ld 1 m 0 = Some 0 -> isExit m = Some false /\ isReload m = Some false /\ isReady m = Some false.
Proof. intros H. unfold isExit, isReload, isReady. rewrite H. conjs; reflexivity. Qed.

Lemma described_nonempty l : l <> [] -> Forall decl_ok l -> 3 <= len (described l).
Proof.
  destruct l as [|d l]; [congruence|]. intros _ H. inversion H as [|? ? H1 H2]; subst. cbn [described flat_map]. rewrite len_app, descr_len.
  pose proof (len_nonneg (described l)). unfold described in *. pose proof (type_len_in d). destruct H1 as [H1 _]. lia.
Qed.

(** The first declaration prepares the header. *)
Lemma first_field n s : building n [] s -> 36 < n ->
  exists m, (m1 <- st 4 (page s) 6 0;; m2 <- st 2 m1 26 36;; o <- getOffset m2;; st 1 m2 1 o) = Some m /\
    len m = n /\ bytesP m /\ ld 1 m 0 = Some 0 /\ ld 4 m 2 = Some 0 /\ ld 4 m 10 = Some 0 /\ ld 8 m 14 = Some 0 /\ ld 4 m 22 = Some 0 /\ ld 8 m 28 = Some 0 /\
    ld 1 m 1 = Some 36 /\ ld 4 m 6 = Some 0 /\ ld 2 m 26 = Some 36.
Proof.
  intros [L B F S C P D R E _] Hn. unfold getOffset.
  destruct (st_some 4 (page s) 6 0) as [m1 E1]; [lia|lia|]. rewrite E1.
  pose proof (st_len _ _ _ _ _ E1) as L1. pose proof (st_bytes _ _ _ _ _ B E1) as B1.
  destruct (st_some 2 m1 26 36) as [m2 E2]; [lia|lia|]. rewrite E2.
  pose proof (st_len _ _ _ _ _ E2) as L2. pose proof (st_bytes _ _ _ _ _ B1 E2) as B2.
  pose proof (ld_st_same _ _ _ _ _ E2) as G2. change (36 mod 256 ^ Z.of_nat 2) with 36 in G2. rewrite G2.
  destruct (st_some 1 m2 1 36) as [m3 E3]; [lia|lia|]. rewrite E3.
  pose proof (st_len _ _ _ _ _ E3) as L3. pose proof (st_bytes _ _ _ _ _ B2 E3) as B3.
  pose proof (ld_st_same _ _ _ _ _ E3) as G3. change (36 mod 256 ^ Z.of_nat 1) with 36 in G3.
  pose proof (ld_st_same _ _ _ _ _ E1) as G1. change (0 mod 256 ^ Z.of_nat 4) with 0 in G1.
  unfold st in E1, E2, E3.
  exists m3. conjs; try congruence; try assumption.
  - other E3. other E2. other E1. exact S.
  - other E3. other E2. other E1. exact C.
  - other E3. other E2. other E1. exact P.
  - other E3. other E2. other E1. exact D.
  - other E3. other E2. other E1. exact R.
  - other E3. other E2. other E1. exact E.
  - other E3. other E2. exact G1.
  - other E3. exact G2.
Qed.

(** One declaration. *)
Lemma add_field_ok n l s d : building n l s -> Forall decl_ok (l ++ [d]) ->
  36 + description (l ++ [d]) < 2 ^ 16 -> record_size (l ++ [d]) < 2 ^ 32 -> 36 + description (l ++ [d]) <= n ->
  exists s', addField s (d_name d) (d_type d) (snd d) = Some s' /\ building n (l ++ [d]) s'.
Proof.
  intros Hb Hok Hdesc Hrs Hn.
  pose proof (described_le _ Hok) as Hle. rewrite described_app, described_one, len_app in Hle.
  pose proof (len_nonneg (described l)) as Hnn.
  assert (Hd : decl_ok d) by (apply Forall_app in Hok; destruct Hok as [_ Hok]; inversion Hok; assumption).
  assert (Hl : Forall decl_ok l) by (apply Forall_app in Hok; apply Hok).
  pose proof (record_size_nonneg _ Hl) as Hrl. rewrite record_size_app in Hrs. cbn [record_size fold_right] in Hrs.
  pose proof (d_size_range _ Hd) as Hsz.
  pose proof (descr_len d) as Hdl. pose proof (type_len_in d) as Htl. pose proof Hd as (Hnm & Hnb & Hty & Hs0 & Hnz).
  destruct (flags_clear _ (b_status _ _ _ Hb)) as (F1 & F2 & F3).
  assert (P : exists m, (match fields s with [] => m1 <- st 4 (page s) 6 0;; m2 <- st 2 m1 26 36;; o <- getOffset m2;; st 1 m2 1 o | _ => Some (page s) end) = Some m /\
    len m = n /\ bytesP m /\ ld 1 m 0 = Some 0 /\ ld 4 m 2 = Some 0 /\ ld 4 m 10 = Some 0 /\ ld 8 m 14 = Some 0 /\ ld 4 m 22 = Some 0 /\ ld 8 m 28 = Some 0 /\
    ld 1 m 1 = Some 36 /\ ld 4 m 6 = Some (record_size l) /\ ld 2 m 26 = Some (36 + len (described l)) /\ peek m 36 (len (described l)) = Some (described l)).
  { destruct l as [|d0 l0].
    - rewrite (b_fields _ _ _ Hb). cbn [layout rev]. destruct (first_field n s Hb) as (m & E & Q); [lia|].
      exists m. split; [exact E|]. destruct Q as (Q1 & Q2 & Q3 & Q4 & Q5 & Q6 & Q7 & Q8 & Q9 & Q10 & Q11). conjs; try assumption.
      cbn [described flat_map]. rewrite len_nil. rewrite peek_some by lia. rewrite takez_0. reflexivity.
    - rewrite (b_fields _ _ _ Hb). destruct (rev (layout 0 (d0 :: l0))) as [|x r] eqn:Er.
      { apply (f_equal (@rev _)) in Er. rewrite rev_involutive in Er. discriminate. }
      exists (page s). split; [reflexivity|]. destruct Hb as [L B F S C P D R E M]. destruct (M ltac:(discriminate)) as (M1 & M2 & M3 & M4). conjs; assumption. }
  destruct P as (m & Em & L & B & S & C & P & D & R & E & M1 & M2 & M3 & M4).
  unfold addField. rewrite F1, F2, F3. cbn [orb]. replace ((len (d_name d) =? 0) || (31 <? len (d_name d))) with false by lia.
  rewrite default_size_ok by exact Hty. change (if snd d =? 0 then natural_size (d_type d) else snd d) with (d_size d).
  replace (d_size d =? 0) with false by lia. rewrite Em. cbv zeta. unfold getRSize, getOffset. rewrite M2, M3.
  fold (type_len d). rewrite header_byte by exact Hd.
  set (o := 36 + len (described l)) in *.
  assert (Ho : o + len (descr d) <= n) by (rewrite Hdl; unfold o; lia).
  assert (Ho36 : 36 <= o) by (unfold o; lia).
  assert (Hhb : byteP (len (d_name d) * 8 + type_len d)) by (unfold byteP; lia).
  destruct (st_some 1 m o (len (d_name d) * 8 + type_len d)) as [m1 E1]; [lia|lia|]. rewrite E1.
  unfold st in E1. rewrite le1 in E1 by exact Hhb. pose proof (poke_len _ _ _ _ E1) as L1.
  rewrite (poke_some m1 (o + 1) (d_name d)) by lia. set (m2 := splice m1 (o + 1) (d_name d)).
  assert (E2 : poke m1 (o + 1) (d_name d) = Some m2) by (apply poke_some; lia).
  pose proof (poke_len _ _ _ _ E2) as L2.
  destruct (st_some 1 m2 (o + 1 + len (d_name d)) (d_type d)) as [m3 E3]; [lia|lia|]. rewrite E3.
  unfold st in E3. rewrite le1 in E3 by exact Hty. pose proof (poke_len _ _ _ _ E3) as L3.
  assert (W3 : poke m o ([len (d_name d) * 8 + type_len d] ++ d_name d ++ [d_type d]) = Some m3).
  { eapply poke_app; [exact E1|]. eapply poke_app; [exact E2|]. change (len [len (d_name d) * 8 + type_len d]) with 1. exact E3. }
  assert (P4 : exists m4, (if type_len d =? 2 then st 1 m3 (o + 2 + len (d_name d)) (d_size d)
      else if type_len d =? 3 then st 2 m3 (o + 2 + len (d_name d)) (d_size d)
      else if type_len d =? 5 then st 4 m3 (o + 2 + len (d_name d)) (d_size d) else Some m3) = Some m4 /\ poke m o (descr d) = Some m4).
  { assert (G : forall k m4, Z.to_nat (type_len d - 1) = k -> poke m3 (o + 2 + len (d_name d)) (le k (d_size d)) = Some m4 -> poke m o (descr d) = Some m4).
    { intros k m4 Hk H. unfold descr. rewrite Hk.
      replace ([len (d_name d) * 8 + type_len d] ++ d_name d ++ [d_type d] ++ le k (d_size d))
        with (([len (d_name d) * 8 + type_len d] ++ d_name d ++ [d_type d]) ++ le k (d_size d)) by (rewrite <- !app_assoc; reflexivity).
      eapply poke_app; [exact W3|]. rewrite !len_app. change (len [len (d_name d) * 8 + type_len d]) with 1. change (len [d_type d]) with 1.
      replace (o + (1 + (len (d_name d) + 1))) with (o + 2 + len (d_name d)) by lia. exact H. }
    destruct Htl as [T|[T|[T|T]]]; rewrite T in *; cbn [Z.eqb Pos.eqb].
    - exists m3. split; [reflexivity|]. apply (G 0%nat); [reflexivity|]. apply poke_nil. lia.
    - destruct (st_some 1 m3 (o + 2 + len (d_name d)) (d_size d)) as [m4 E4]; [lia|lia|]. exists m4. split; [exact E4|]. apply (G 1%nat); [reflexivity|exact E4].
    - destruct (st_some 2 m3 (o + 2 + len (d_name d)) (d_size d)) as [m4 E4]; [lia|lia|]. exists m4. split; [exact E4|]. apply (G 2%nat); [reflexivity|exact E4].
    - destruct (st_some 4 m3 (o + 2 + len (d_name d)) (d_size d)) as [m4 E4]; [lia|lia|]. exists m4. split; [exact E4|]. apply (G 4%nat); [reflexivity|exact E4]. }
  destruct P4 as (m4 & E4 & W4). rewrite E4. clear E4 W3 E3 E2 E1 m1 m2 m3 L1 L2 L3.
  pose proof (poke_len _ _ _ _ W4) as L4. pose proof (poke_bytes _ _ _ _ B (descr_bytes _ Hd) W4) as B4.
  rewrite (u16_id (o + 1 + len (d_name d) + type_len d)) by lia. rewrite (u32_id (record_size l + d_size d)) by lia.
  destruct (st_some 2 m4 26 (o + 1 + len (d_name d) + type_len d)) as [m5 E5]; [lia|lia|]. rewrite E5.
  pose proof (st_len _ _ _ _ _ E5) as L5. pose proof (st_bytes _ _ _ _ _ B4 E5) as B5. pose proof (ld_st_same _ _ _ _ _ E5) as G5.
  destruct (st_some 4 m5 6 (record_size l + d_size d)) as [m6 E6]; [lia|lia|]. rewrite E6.
  pose proof (st_len _ _ _ _ _ E6) as L6. pose proof (st_bytes _ _ _ _ _ B5 E6) as B6. pose proof (ld_st_same _ _ _ _ _ E6) as G6.
  unfold st in E5, E6.
  eexists. split; [reflexivity|]. constructor; cbn [page fields]; try congruence; try assumption.
  - rewrite (b_fields _ _ _ Hb), layout_app, rev_app_distr. cbn [layout rev app]. rewrite Z.add_0_l. reflexivity.
  - other E6. other E5. other W4. exact S.
  - other E6. other E5. other W4. exact C.
  - other E6. other E5. other W4. exact P.
  - other E6. other E5. other W4. exact D.
  - other E6. other E5. other W4. exact R.
  - other E6. other E5. other W4. exact E.
  - intros _. rewrite record_size_app, described_app, described_one, len_app. cbn [record_size fold_right]. conjs.
    + other E6. other E5. other W4. exact M1.
    + rewrite G6. f_equal. change (256 ^ Z.of_nat 4) with (2 ^ 32). rewrite (Z.mod_small (record_size l + d_size d)) by lia. lia.
    + other E6. rewrite G5. f_equal. change (256 ^ Z.of_nat 2) with 65536. rewrite (Z.mod_small (o + 1 + len (d_name d) + type_len d)) by lia. unfold o. lia.
    + rewrite (peek_poke_other _ _ _ _ _ _ E6) by (rewrite le_len; lia). rewrite (peek_poke_other _ _ _ _ _ _ E5) by (rewrite le_len; lia).
      pose proof (peek_poke_same _ _ _ _ W4) as Q.
      assert (Q0 : peek m4 36 (len (described l)) = Some (described l)) by (rewrite (peek_poke_other _ _ _ _ _ _ W4) by (unfold o; lia); exact M4).
      destruct (peek_inv _ _ _ _ Q) as (_ & _ & _ & Q1). destruct (peek_inv _ _ _ _ Q0) as (_ & _ & _ & Q2).
      rewrite peek_some by lia. f_equal. rewrite takez_add by lia. rewrite <- Q2 at 1. f_equal.
      rewrite dropz_dropz by lia. replace (len (described l) + 36) with o by (unfold o; lia). symmetry. exact Q1.
Qed.
