(** Proofs for RelAccX_Props.v: opening a page, and histories. *)
From Verif Require Import Common CommonFacts CommonMore Bitfields_Model Bitfields_Proofs Mem_Model Mem_Proofs RelAccX_Model RelAccX_Spec RelAccX_Proofs.

(** A page in use. [off] is where the records start. *)
Record inv (l : list decl) (cnt off n : Z) (w : window) (s : rax) : Prop := mkinv {
  i_len : len (page s) = n; i_bytes : bytesP (page s); i_fields : fields s = rev (layout 0 l);
  i_status : ld 1 (page s) 0 = Some 1; i_first : ld 1 (page s) 1 = Some 36; i_cnt : ld 4 (page s) 2 = Some cnt;
  i_rs : ld 4 (page s) 6 = Some (record_size l); i_start : ld 4 (page s) 10 = Some (fst w mod 2 ^ 32);
  i_del : ld 8 (page s) 14 = Some (fst w); i_pres : ld 4 (page s) 22 = Some (snd w - fst w);
  i_off : ld 2 (page s) 26 = Some off; i_end : ld 8 (page s) 28 = Some (snd w);
  i_desc : peek (page s) 36 (len (described l)) = Some (described l) }.

Lemma add_fields_ok n l2 : forall l s, building n l s -> Forall decl_ok (l ++ l2) ->
  36 + description (l ++ l2) < 2 ^ 16 -> record_size (l ++ l2) < 2 ^ 32 -> 36 + description (l ++ l2) <= n ->
  exists s', addFields s l2 = Some s' /\ building n (l ++ l2) s'.
Proof.
  induction l2 as [|d l2 IH]; intros l s Hb Hok Hd Hr Hn.
  - rewrite app_nil_r. exists s. split; [reflexivity|exact Hb].
  - assert (E : l ++ d :: l2 = (l ++ [d]) ++ l2) by (rewrite <- app_assoc; reflexivity). rewrite E in *.
    pose proof Hok as Hok2. apply Forall_app in Hok2. destruct Hok2 as [Ok1 Ok2].
    assert (D : description ((l ++ [d]) ++ l2) = description (l ++ [d]) + description l2).
    { generalize (l ++ [d]). intros k. induction k as [|x k IHk]; cbn [app description fold_right]; [reflexivity|]. unfold description in *. lia. }
    assert (D2 : 0 <= description l2).
    { clear. induction l2 as [|x k IHk]; cbn [description fold_right]; [lia|]. unfold description in *. pose proof (len_nonneg (d_name x)). lia. }
    pose proof (record_size_nonneg _ Ok2). rewrite record_size_app in Hr.
    destruct (add_field_ok n l s d Hb Ok1) as (s1 & E1 & B1); [lia|lia|lia|].
    destruct (IH (l ++ [d]) s1 B1 Hok) as (s2 & E2 & B2); [lia|rewrite record_size_app; lia|lia|].
    exists s2. split; [|exact B2]. destruct d as [[nm ty] sz]. cbn [addFields]. cbn [d_name d_type fst snd] in E1. unfold d_name, d_type in E1. cbn [fst snd] in E1. rewrite E1. exact E2.
Qed.

Lemma zeros_peek n o k : 0 <= o -> 0 <= k -> o + k <= Z.of_nat n -> peek (repeat 0 n) o k = Some (repeat 0 (Z.to_nat k)).
Proof.
  intros H1 H2 H3. rewrite peek_some by (rewrite ?len_repeat; lia). f_equal. apply nthz_ext.
  - rewrite len_takez by (rewrite len_dropz; rewrite len_repeat; lia). rewrite len_repeat. lia.
  - intros i Hi. rewrite len_takez in Hi by (rewrite len_dropz; rewrite len_repeat; lia). rewrite nthz_takez, nthz_dropz by lia.
    unfold nthz. rewrite !nth_repeat. reflexivity.
Qed.
Lemma fresh_building size : 36 <= size -> building size [] (mkrax (repeat 0 (Z.to_nat size)) []).
Proof.
  intros H. constructor; cbn [page fields]; try reflexivity; try (unfold ld; rewrite zeros_peek by lia; reflexivity).
  - rewrite len_repeat. lia.
  - unfold bytesP. apply Forall_forall. intros x Hx. apply repeat_spec in Hx. subst. unfold byteP. lia.
  - congruence.
Qed.

Lemma build_ok l cnt size : fits l cnt size ->
  exists s, build (repeat 0 (Z.to_nat size)) l cnt = Some s /\ inv l cnt (36 + len (described l)) size (0, 0) s.
Proof.
  intros (Hok & Hne & Hd & Hr & Hc & Hs & Hb64).
  pose proof (described_le _ Hok) as Hle. pose proof (len_nonneg (described l)) as Hnn. pose proof (record_size_nonneg _ Hok) as Hrn.
  assert (Hs2 : 36 + description l <= size) by nia.
  destruct (add_fields_ok size l [] _ (fresh_building size ltac:(lia))) as (s1 & E1 & B1); try assumption.
  cbn [app] in B1. unfold build. rewrite E1. destruct B1 as [L B F S C P D R E M]. destruct (M Hne) as (M1 & M2 & M3 & M4).
  unfold setRCount. destruct (st_some 4 (page s1) 2 cnt) as [m2 E2]; [lia|lia|]. rewrite E2.
  pose proof (st_len _ _ _ _ _ E2) as L2. pose proof (st_bytes _ _ _ _ _ B E2) as B2. pose proof (ld_st_same _ _ _ _ _ E2) as G2. unfold st in E2.
  assert (S2 : ld 1 m2 0 = Some 0) by (other E2; exact S).
  unfold setReady. cbn [page fields]. destruct (flags_clear _ S2) as (F1 & F2 & F3). rewrite F1, F2, F3. cbn [orb]. rewrite S2.
  change (0 .| 1) with 1. destruct (st_some 1 m2 0 1) as [m3 E3]; [lia|lia|]. rewrite E3.
  pose proof (st_len _ _ _ _ _ E3) as L3. pose proof (st_bytes _ _ _ _ _ B2 E3) as B3. pose proof (ld_st_same _ _ _ _ _ E3) as G3. unfold st in E3.
  eexists. split; [reflexivity|]. constructor; cbn [page fields fst snd]; try assumption; try congruence.
  - other E3. other E2. exact M1.
  - other E3. rewrite G2. f_equal. change (256 ^ Z.of_nat 4) with (2 ^ 32). apply Z.mod_small. lia.
  - other E3. other E2. exact M2.
  - other E3. other E2. exact P.
  - other E3. other E2. exact D.
  - other E3. other E2. exact R.
  - other E3. other E2. exact M3.
  - other E3. other E2. exact E.
  - rewrite (peek_poke_other _ _ _ _ _ _ E3) by (rewrite le_len; lia). rewrite (peek_poke_other _ _ _ _ _ _ E2) by (rewrite le_len; lia). exact M4.
Qed.

(** Opening. *)
Lemma ld1_of m o x : peek m o 1 = Some [x] -> ld 1 m o = Some x.
Proof. intros H. unfold ld. change (Z.of_nat 1) with 1. rewrite H. reflexivity. Qed.
Lemma peek_part m o n a b c : peek m o n = Some (a ++ b ++ c) -> peek m (o + len a) (len b) = Some b.
Proof.
  intros H. pose proof (peek_len _ _ _ _ H) as L. rewrite !len_app in L. pose proof (len_nonneg a). pose proof (len_nonneg b). pose proof (len_nonneg c).
  rewrite (peek_sub m o n _ _ _ H) by lia. f_equal. replace (o + len a - o) with (len a) by lia.
  rewrite dropz_app_exact by reflexivity. apply takez_app_exact. reflexivity.
Qed.
Lemma header_split d : decl_ok d -> ((len (d_name d) * 8 + type_len d) >> 3) = len (d_name d) /\ ((len (d_name d) * 8 + type_len d) .& 7) = type_len d.
Proof. intros (H & _). pose proof (type_len_in d). rewrite shr_div, land_7 by lia. change (2 ^ 3) with 8. lia. Qed.
Lemma read_fields_ok m last l : forall fuel off doff acc, Forall decl_ok l -> (List.length l <= fuel)%nat ->
  0 <= off -> 0 <= doff -> doff + record_size l < 2 ^ 32 -> last < 2 ^ 16 -> last = off + len (described l) -> peek m off (len (described l)) = Some (described l) ->
  read_fields fuel m last off doff acc = Some (rev (layout doff l) ++ acc).
Proof.
  induction l as [|d l IH]; intros fuel off doff acc Hok Hf Ho Hdo Hr Hl Hlast Hp.
  - cbn [described flat_map] in Hlast. rewrite len_nil in Hlast. destruct fuel; cbn [read_fields]; replace (last <=? off) with true by lia; reflexivity.
  - inversion Hok as [|? ? Hd Hok2]; subst x l0. cbn [described flat_map] in Hlast, Hp. change (flat_map descr l) with (described l) in *.
    pose proof (descr_len d) as Hdl. pose proof (type_len_in d) as Htl. rewrite len_app in Hlast. pose proof Hd as (Hnm & Hnb & Hty & Hs0 & Hnz).
    pose proof (len_nonneg (described l)) as Hnn. pose proof (d_size_range _ Hd) as Hsz. pose proof (record_size_nonneg _ Hok2) as Hrn.
    cbn [record_size fold_right] in Hr. change (fold_right (fun d n => d_size d + n) 0 l) with (record_size l) in Hr.
    destruct fuel as [|fuel]; [cbn in Hf; lia|]. cbn [read_fields]. replace (last <=? off) with false by lia.
    set (hb := len (d_name d) * 8 + type_len d) in *.
    assert (D1 : descr d ++ described l = [] ++ [hb] ++ (d_name d ++ [d_type d] ++ le (Z.to_nat (type_len d - 1)) (d_size d) ++ described l)) by (unfold descr; rewrite <- !app_assoc; reflexivity).
    assert (D2 : descr d ++ described l = [hb] ++ d_name d ++ ([d_type d] ++ le (Z.to_nat (type_len d - 1)) (d_size d) ++ described l)) by (unfold descr; rewrite <- !app_assoc; reflexivity).
    assert (D3 : descr d ++ described l = ([hb] ++ d_name d) ++ [d_type d] ++ (le (Z.to_nat (type_len d - 1)) (d_size d) ++ described l)) by (unfold descr; rewrite <- !app_assoc; reflexivity).
    assert (D4 : descr d ++ described l = ([hb] ++ d_name d ++ [d_type d]) ++ le (Z.to_nat (type_len d - 1)) (d_size d) ++ described l) by (unfold descr; rewrite <- !app_assoc; reflexivity).
    assert (D5 : descr d ++ described l = descr d ++ described l ++ []) by (rewrite app_nil_r; reflexivity).
    pose proof Hp as P1. rewrite D1 in P1 at 2. apply peek_part in P1. change (len (@nil Z)) with 0 in P1. rewrite Z.add_0_r in P1.
    rewrite (ld1_of _ _ _ P1). destruct (header_split d Hd) as [H1 H2]. fold hb in H1, H2. rewrite H1, H2.
    pose proof Hp as P2. rewrite D2 in P2 at 2. apply peek_part in P2. change (len [hb]) with 1 in P2.
    pose proof Hp as P3. rewrite D3 in P3 at 2. apply peek_part in P3. rewrite len_app in P3. change (len [hb]) with 1 in P3. change (len [d_type d]) with 1 in P3.
    replace (off + (1 + len (d_name d))) with (off + 1 + len (d_name d)) in P3 by lia.
    rewrite (ld1_of _ _ _ P3), P2.
    pose proof Hp as P4. rewrite D4 in P4 at 2. apply peek_part in P4. rewrite !len_app, le_len in P4. change (len [hb]) with 1 in P4. change (len [d_type d]) with 1 in P4.
    replace (off + (1 + (len (d_name d) + 1))) with (off + 1 + len (d_name d) + 1) in P4 by lia.
    pose proof Hp as P5. rewrite D5 in P5 at 2. apply peek_part in P5. rewrite Hdl in P5.
    assert (Esz : (if type_len d =? 1 then
               Some (if ((d_type d .& 0xF0) =? 0x10) || ((d_type d .& 0xF0) =? 0x20) then (d_type d .& 0x0F) + 1
                     else if ((d_type d .& 0xF0) =? 0x30) || ((d_type d .& 0xF0) =? 0x40) then 16 << (d_type d .& 0x0F) else 0)
             else if type_len d =? 2 then ld 1 m (off + 1 + len (d_name d) + 1)
             else if type_len d =? 3 then ld 2 m (off + 1 + len (d_name d) + 1)
             else if type_len d =? 4 then x <- peek m (off + 1 + len (d_name d) + 1) 3;; Some (btoh24 x)
             else if type_len d =? 5 then ld 4 m (off + 1 + len (d_name d) + 1)
             else Some 0) = Some (d_size d)).
    { assert (G : forall k, Z.to_nat (type_len d - 1) = k -> d_size d < 256 ^ Z.of_nat k -> ld k m (off + 1 + len (d_name d) + 1) = Some (d_size d)).
      { intros k Hk Hb. rewrite Hk in P4. unfold ld. rewrite P4. f_equal. rewrite unle_le. apply Z.mod_small. lia. }
      assert (T : type_len d = if natural_size (d_type d) =? d_size d then 1 else if d_size d <? 0x100 then 2 else if d_size d <? 0x10000 then 3 else 5) by reflexivity.
      revert T. destruct (Z.eqb_spec (natural_size (d_type d)) (d_size d)) as [En|En];
        [|destruct (Z.ltb_spec (d_size d) 0x100) as [C1|C1]; [|destruct (Z.ltb_spec (d_size d) 0x10000) as [C2|C2]]]; intros T; rewrite T; cbn [Z.eqb Pos.eqb].
      - f_equal. rewrite <- En, <- default_size_ok by exact Hty. unfold default_size. rewrite (orb_comm (_ =? 0x20)). reflexivity.
      - apply G; [rewrite T; reflexivity|exact C1].
      - apply G; [rewrite T; reflexivity|exact C2].
      - apply G; [rewrite T; reflexivity|]. change (256 ^ Z.of_nat 4) with (2 ^ 32). lia. }
    rewrite Esz. rewrite u16_id by lia. rewrite u64_id by lia. rewrite u32_id by lia.
    rewrite (IH fuel (off + len (d_name d) + type_len d + 1) (doff + d_size d) _ Hok2); try lia.
    + cbn [layout rev]. rewrite <- app_assoc. reflexivity.
    + cbn in Hf. lia.
    + replace (off + len (d_name d) + type_len d + 1) with (off + (1 + len (d_name d) + type_len d)) by lia. exact P5.
Qed.
Lemma length_described l : Forall decl_ok l -> Z.of_nat (List.length l) <= len (described l).
Proof.
  induction 1 as [|d l H _ IH]; [cbn; lia|]. cbn [described flat_map]. rewrite len_app, descr_len. pose proof (type_len_in d).
  pose proof (len_nonneg (d_name d)). unfold described in IH. cbn [List.length]. lia.
Qed.
Lemma open_ok l cnt size n w s off : fits l cnt size -> off = 36 + len (described l) -> inv l cnt off n w s -> open (page s) = Some (Some s).
Proof.
  intros (Hok & Hne & Hd & Hr & Hc & Hs & Hb64) -> Hi. unfold open. rewrite (i_first _ _ _ _ _ _ Hi). unfold getOffset. rewrite (i_off _ _ _ _ _ _ Hi).
  pose proof (described_nonempty _ Hne Hok). pose proof (described_le _ Hok). replace ((36 <? 11) || (36 + len (described l) <=? 36)) with false by lia.
  rewrite (read_fields_ok (page s) _ l); try assumption; try lia.
  - rewrite app_nil_r, <- (i_fields _ _ _ _ _ _ Hi). destruct s; reflexivity.
  - pose proof (length_described _ Hok). lia.
  - apply (i_desc _ _ _ _ _ _ Hi).
Qed.

(** Layout facts. *)
Lemma layout_in l : forall a d, In d l -> exists f, In (d_name d, f) (layout a l) /\ f_type f = d_type d /\ f_size f = d_size d.
Proof.
  induction l as [|x l IH]; intros a d H; [destruct H|]. cbn [layout]. destruct H as [-> |H].
  - eexists. split; [left; reflexivity|]. split; reflexivity.
  - destruct (IH (a + d_size x) d H) as (f & F1 & F2). exists f. split; [right; exact F1|exact F2].
Qed.
Lemma layout_range l : forall a n f, Forall decl_ok l -> In (n, f) (layout a l) -> a <= f_off f /\ 0 < f_size f /\ f_off f + f_size f <= a + record_size l.
Proof.
  induction l as [|x l IH]; intros a n f Hok H; [destruct H|]. inversion Hok as [|? ? Hx Hl]; subst. cbn [layout] in H. cbn [record_size fold_right].
  change (fold_right (fun d n => d_size d + n) 0 l) with (record_size l).
  pose proof (d_size_range _ Hx). pose proof (record_size_nonneg _ Hl). destruct H as [H|H].
  - injection H as <- <-. cbn. lia.
  - specialize (IH _ _ _ Hl H). lia.
Qed.
Lemma layout_disjoint l : forall a n1 f1 n2 f2, Forall decl_ok l -> In (n1, f1) (layout a l) -> In (n2, f2) (layout a l) -> n1 <> n2 ->
  f_off f1 + f_size f1 <= f_off f2 \/ f_off f2 + f_size f2 <= f_off f1.
Proof.
  induction l as [|x l IH]; intros a n1 f1 n2 f2 Hok H1 H2 Hn; [destruct H1|]. inversion Hok as [|? ? Hx Hl]; subst. cbn [layout] in H1, H2.
  destruct H1 as [H1|H1], H2 as [H2|H2].
  - injection H1 as <- <-. injection H2 as <- <-. congruence.
  - injection H1 as <- <-. destruct (layout_range _ _ _ _ Hl H2). cbn. lia.
  - injection H2 as <- <-. destruct (layout_range _ _ _ _ Hl H1). cbn. lia.
  - eapply IH; eassumption.
Qed.
Lemma layout_names l : forall a, map fst (layout a l) = map d_name l.
Proof. induction l as [|x l IH]; intros a; [reflexivity|]. cbn. f_equal. apply IH. Qed.
Lemma lookup_in (l : list (list Z * fd)) n f : NoDup (map fst l) -> In (n, f) l -> lookup l n = Some f.
Proof.
  induction l as [|[n' f'] l IH]; intros Hn H; [destruct H|]. cbn [map fst] in Hn. inversion Hn as [|? ? H1 H2]; subst. cbn [lookup].
  destruct H as [H|H].
  - injection H as -> ->. rewrite beqb_refl. reflexivity.
  - destruct (beqb n' n) eqn:E; [|apply IH; assumption]. apply beqb_eq in E. subst. exfalso. apply H1. apply (in_map fst) in H. exact H.
Qed.
Lemma lookup_layout l n f : NoDup (map d_name l) -> In (n, f) (layout 0 l) -> lookup (rev (layout 0 l)) n = Some f.
Proof.
  intros Hn H. apply lookup_in; [|rewrite <- in_rev; exact H]. rewrite map_rev. apply NoDup_rev. rewrite layout_names. exact Hn.
Qed.
Lemma layout_type l a n f : Forall decl_ok l -> In (n, f) (layout a l) -> byteP (f_type f).
Proof.
  revert a. induction l as [|x l IH]; intros a Hok H; [destruct H|]. inversion Hok as [|? ? Hx Hl]; subst. destruct H as [H|H].
  - injection H as <- <-. apply Hx.
  - eapply IH; eassumption.
Qed.

(** Field contents. *)
Definition enc (n v : Z) : list Z := if n =? 3 then be 3 v else le (Z.to_nat n) v.
Definition content (d : decl) (v : value) (x : list Z) : Prop :=
  match v, kind_of (d_type d) with
  | VInt v, KUint => x = enc (d_size d) v /\ In (d_size d) [1; 2; 3; 4; 8]
  | VInt v, KInt => x = enc (d_size d) v /\ In (d_size d) [1; 2; 4; 8]
  | VString v, KString => exists rest, x = takez (d_size d - 1) v ++ 0 :: rest
  | VString v, KRaw => exists rest, x = takez (d_size d) v ++ rest
  | _, _ => False
  end.
Lemma enc_len n v : 0 <= n -> len (enc n v) = n.
Proof. intros H. unfold enc. destruct (Z.eqb_spec n 3) as [-> |]; [apply be_len|]. rewrite le_len. lia. Qed.
Lemma enc_bytes n v : bytesP (enc n v).
Proof. unfold enc. destruct (n =? 3); [apply be_bytes|apply le_bytes]. Qed.
Lemma kind_is ty : kind_of ty = KUint <-> ty / 16 = 1.
Proof. unfold kind_of. dif; split; intros; try discriminate; try reflexivity; lia. Qed.
Lemma kind_is2 ty : kind_of ty = KInt <-> ty / 16 = 2.
Proof. unfold kind_of. dif; split; intros; try discriminate; try reflexivity; lia. Qed.
Lemma kind_is3 ty : kind_of ty = KString <-> ty / 16 = 3.
Proof. unfold kind_of. dif; split; intros; try discriminate; try reflexivity; lia. Qed.
Lemma kind_is4 ty : kind_of ty = KRaw <-> ty / 16 = 4.
Proof. unfold kind_of. dif; split; intros; try discriminate; try reflexivity; lia. Qed.

Definition addr (l : list decl) (cnt off r : Z) (f : fd) : Z := off + (r mod cnt) * record_size l + f_off f.
Lemma mod_inj a b c d : 0 < c -> d <= a < d + c -> d <= b < d + c -> a mod c = b mod c -> a = b.
Proof.
  intros Hc Ha Hb H. pose proof (Z.div_mod a c). pose proof (Z.div_mod b c).
  assert (a - b = c * (a / c - b / c)) by lia. assert (a / c - b / c = 0) by nia. nia.
Qed.

Section Page.
Context (l : list decl) (cnt size : Z) (F : fits l cnt size) (N : NoDup (map d_name l)).
Let off := 36 + len (described l).
Let rs := record_size l.

Lemma page_facts : 36 <= off < 2 ^ 16 /\ 0 < cnt < 2 ^ 32 /\ 0 <= rs < 2 ^ 32 /\ off + cnt * rs <= size /\ cnt * rs < 2 ^ 64 /\ Forall decl_ok l.
Proof.
  destruct F as (Hok & Hne & Hd & Hr & Hc & Hs & Hb64). pose proof (described_le _ Hok). pose proof (len_nonneg (described l)). pose proof (record_size_nonneg _ Hok).
  unfold off, rs. conjs; try lia. exact Hok.
Qed.
Lemma addr_range r n f : In (n, f) (layout 0 l) -> 36 <= addr l cnt off r f /\ addr l cnt off r f + f_size f <= size.
Proof.
  intros H. destruct page_facts as (A & B & C & D & E & G). destruct (layout_range _ _ _ _ G H) as (R1 & R2 & R3). fold rs in R3.
  unfold addr. fold rs. pose proof (Z.mod_pos_bound r cnt ltac:(lia)). split; nia.
Qed.
Lemma addr_disjoint r1 n1 f1 r2 n2 f2 : In (n1, f1) (layout 0 l) -> In (n2, f2) (layout 0 l) ->
  r1 mod cnt <> r2 mod cnt \/ n1 <> n2 ->
  addr l cnt off r1 f1 + f_size f1 <= addr l cnt off r2 f2 \/ addr l cnt off r2 f2 + f_size f2 <= addr l cnt off r1 f1.
Proof.
  intros H1 H2 Hd. destruct page_facts as (A & B & C & D & E & G).
  destruct (layout_range _ _ _ _ G H1) as (R1 & R2 & R3). destruct (layout_range _ _ _ _ G H2) as (S1 & S2 & S3). fold rs in R3, S3.
  unfold addr. fold rs. set (a := r1 mod cnt) in *. set (b := r2 mod cnt) in *.
  destruct (Z.eq_dec a b) as [Eab|Eab].
  - rewrite Eab. destruct Hd as [Hd|Hd]; [congruence|]. destruct (layout_disjoint _ _ _ _ _ _ G H1 H2 Hd); lia.
  - destruct (Z_lt_dec a b).
    + left. assert ((a + 1) * rs <= b * rs) by (apply Z.mul_le_mono_nonneg_r; lia). lia.
    + right. assert ((b + 1) * rs <= a * rs) by (apply Z.mul_le_mono_nonneg_r; lia). lia.
Qed.
Lemma pointer_ok w s f r : inv l cnt off size w s -> record_pointer (page s) f r = Some (addr l cnt off r f).
Proof.
  intros I. unfold record_pointer, getOffset, getRCount, getRSize. rewrite (i_off _ _ _ _ _ _ I), (i_cnt _ _ _ _ _ _ I), (i_rs _ _ _ _ _ _ I).
  destruct page_facts as (A & B & C & D & E & G). replace (cnt =? 0) with false by lia.
  pose proof (Z.mod_pos_bound r cnt ltac:(lia)). rewrite u64_id; [reflexivity|]. fold rs. change 18446744073709551616 with (2 ^ 64). nia.
Qed.
(** Writing in the records leaves the header alone. *)
Lemma inv_write w s o xs m : inv l cnt off size w s -> off <= o -> bytesP xs -> poke (page s) o xs = Some m -> inv l cnt off size w (mkrax m (fields s)).
Proof.
  intros [] Ho Hx H. destruct page_facts as (A & B & C & D & E & G). pose proof (len_nonneg (described l)). assert (Hoff : off = 36 + len (described l)) by reflexivity.
  constructor; cbn [page fields]; try assumption; try (other H; assumption).
  - rewrite (poke_len _ _ _ _ H). assumption.
  - eapply (poke_bytes (page s) o xs); eassumption.
  - rewrite (peek_poke_other _ _ _ _ _ _ H) by lia. assumption.
Qed.

(** The contents after a history, given what was written last. *)
Definition holds (w : window) (m : list Z) (lw : list Z -> Z -> option value) : Prop :=
  (forall n r, fst w + cnt <= r -> lw n r = None) /\
  (forall d f r v, In d l -> In (d_name d, f) (layout 0 l) -> fst w <= r < fst w + cnt -> lw (d_name d) r = Some v ->
     f_type f = d_type d /\ f_size f = d_size d /\ exists x, peek m (addr l cnt off r f) (d_size d) = Some x /\ content d v x).
Definition fresh_lw (name : list Z) (r0 : Z) (v : value) (lw : list Z -> Z -> option value) : list Z -> Z -> option value :=
  fun n r => if beqb name n && (r0 =? r) then Some v else lw n r.
Lemma same_decl d1 d2 : In d1 l -> In d2 l -> d_name d1 = d_name d2 -> d1 = d2.
Proof.
  clear F. revert N. clear. induction l as [|x k IH]; intros N H1 H2 E; [destruct H1|]. cbn [map] in N. inversion N as [|? ? N1 N2]; subst.
  destruct H1 as [-> |H1], H2 as [-> |H2]; try reflexivity.
  - exfalso. apply N1. rewrite E. apply in_map. exact H2.
  - exfalso. apply N1. rewrite <- E. apply in_map. exact H1.
  - apply IH; assumption.
Qed.
Lemma same_field n f1 f2 : In (n, f1) (layout 0 l) -> In (n, f2) (layout 0 l) -> f1 = f2.
Proof. intros H1 H2. apply (lookup_layout l) in H1; [|exact N]. apply (lookup_layout l) in H2; [|exact N]. congruence. Qed.

(** A write of [xs] at the start of field [d] of record [r]. *)
Lemma holds_write w m lw d f r v xs m' : holds w m lw -> In d l -> In (d_name d, f) (layout 0 l) -> f_type f = d_type d -> f_size f = d_size d ->
  fst w <= r < fst w + cnt -> len xs <= d_size d -> poke m (addr l cnt off r f) xs = Some m' ->
  (exists x, peek m' (addr l cnt off r f) (d_size d) = Some x /\ content d v x) ->
  holds w m' (fresh_lw (d_name d) r v lw).
Proof.
  intros [H1 H2] Hd Hf Ht Hs Hr Hx Hp Hc. destruct page_facts as (A & B & C & D & E & G). split.
  - intros n r' Hr'. unfold fresh_lw. replace (r =? r') with false by lia. rewrite andb_false_r. apply H1. exact Hr'.
  - intros d' f' r' v' Hd' Hf' Hr' Hv. unfold fresh_lw in Hv. destruct (beqb (d_name d) (d_name d') && (r =? r')) eqn:Eb.
    + injection Hv as <-. apply andb_prop in Eb. destruct Eb as [E1 E2]. apply beqb_eq in E1. assert (r = r') by lia. subst r'.
      assert (d = d') by (apply same_decl; assumption). subst d'. assert (f = f') by (eapply same_field; eassumption). subst f'.
      conjs; assumption.
    + destruct (H2 d' f' r' v' Hd' Hf' Hr' Hv) as (T1 & T2 & x & T3 & T4). conjs; try assumption. exists x. split; [|exact T4].
      rewrite <- T3. apply (peek_poke_other _ _ _ _ _ _ Hp).
      assert (Dj : r mod cnt <> r' mod cnt \/ d_name d <> d_name d').
      { destruct (Z.eq_dec r r') as [-> |Hn].
        - right. intros En. rewrite En, beqb_refl, Z.eqb_refl in Eb. discriminate.
        - left. intros Em. apply Hn. eapply (mod_inj r r' cnt (fst w)); lia. }
      destruct (addr_disjoint r _ f r' _ f' Hf Hf' Dj); lia.
Qed.

Lemma peek_prefix m o n xs y : poke m o xs = Some y -> len xs <= n -> o + n <= len m -> exists rest, peek y o n = Some (xs ++ rest) /\ len rest = n - len xs.
Proof.
  intros H Hn Ho. pose proof (poke_len _ _ _ _ H) as L. destruct (poke_inv _ _ _ _ H) as (A & B & Ey). pose proof (len_nonneg xs).
  pose proof (peek_poke_same _ _ _ _ H) as P. destruct (peek_inv _ _ _ _ P) as (_ & _ & _ & P2).
  exists (takez (n - len xs) (dropz (o + len xs) y)). split.
  - rewrite peek_some by lia. f_equal. replace n with (len xs + (n - len xs)) at 1 by lia. rewrite takez_add by lia. rewrite <- P2. f_equal.
    rewrite dropz_dropz by lia. f_equal. f_equal. lia.
  - apply len_takez. rewrite len_dropz; lia.
Qed.

(** SetInt. *)
Lemma set_int_ok w s lw d f r v : inv l cnt off size w s -> holds w (page s) lw -> In d l -> In (d_name d, f) (layout 0 l) ->
  f_type f = d_type d -> f_size f = d_size d -> fst w <= r < fst w + cnt -> int_ok d ->
  exists s', setInt s (d_name d) v r = Some s' /\ inv l cnt off size w s' /\ holds w (page s') (fresh_lw (d_name d) r (VInt v) lw).
Proof.
  intros I H Hd Hf Ht Hs Hr Hi. destruct page_facts as (A & B & C & D & E & G).
  assert (Lk : lookup (fields s) (d_name d) = Some f) by (rewrite (i_fields _ _ _ _ _ _ I); apply lookup_layout; assumption).
  unfold setInt. rewrite Lk. unfold set_int. rewrite (pointer_ok _ _ _ _ I).
  pose proof (addr_range r _ _ Hf) as (R1 & R2). pose proof (layout_type _ _ _ _ G Hf) as Hty. pose proof (layout_range _ _ _ _ G Hf) as (R3 & R4 & R5).
  assert (Hoff : off <= addr l cnt off r f) by (unfold addr; fold rs; pose proof (Z.mod_pos_bound r cnt ltac:(lia)); nia).
  replace (((f_type f .& 0xF0) =? 0x10) || ((f_type f .& 0xF0) =? 0x20)) with true.
  2:{ change 0x10 with (1 * 16). change 0x20 with (2 * 16). rewrite !type_is by exact Hty. rewrite Ht. destruct Hi as [[K _]|[K _]]; [apply kind_is in K|apply kind_is2 in K]; lia. }
  assert (Hin : In (d_size d) [1; 2; 3; 4; 8]) by (destruct Hi as [[_ K]|[_ K]]; cbn in K |- *; tauto).
  assert (W : (if f_size f =? 1 then st 1 (page s) (addr l cnt off r f) v
    else if f_size f =? 2 then st 2 (page s) (addr l cnt off r f) v
    else if f_size f =? 3 then poke (page s) (addr l cnt off r f) (htob24 v)
    else if f_size f =? 4 then st 4 (page s) (addr l cnt off r f) v
    else if f_size f =? 8 then st 8 (page s) (addr l cnt off r f) v
    else Some (page s)) = poke (page s) (addr l cnt off r f) (enc (d_size d) v)).
  { rewrite Hs. unfold enc. cbn [In] in Hin. destruct Hin as [K|[K|[K|[K|[K|[]]]]]]; rewrite <- K; cbn [Z.eqb Pos.eqb]; try reflexivity. rewrite wr_htob24. reflexivity. }
  rewrite W. pose proof (enc_len (d_size d) v ltac:(lia)) as El.
  assert (Ep : poke (page s) (addr l cnt off r f) (enc (d_size d) v) = Some (splice (page s) (addr l cnt off r f) (enc (d_size d) v))).
  { apply poke_some; [lia|]. rewrite El, (i_len _ _ _ _ _ _ I). lia. }
  rewrite Ep. eexists. split; [reflexivity|]. split.
  - eapply inv_write; [exact I|exact Hoff|apply enc_bytes|exact Ep].
  - cbn [page]. eapply holds_write; try eassumption; [lia|].
    exists (enc (d_size d) v). split; [pose proof (peek_poke_same _ _ _ _ Ep) as Pk; rewrite El in Pk; exact Pk|].
    unfold content. destruct Hi as [[K1 K2]|[K1 K2]]; rewrite K1; split; try reflexivity; assumption.
Qed.
(** SetString. *)
Lemma set_string_ok w s lw d f r v : inv l cnt off size w s -> holds w (page s) lw -> In d l -> In (d_name d, f) (layout 0 l) ->
  f_type f = d_type d -> f_size f = d_size d -> fst w <= r < fst w + cnt -> string_ok d v ->
  exists s', setString s (d_name d) v r = Some s' /\ inv l cnt off size w s' /\ holds w (page s') (fresh_lw (d_name d) r (VString v) lw).
Proof.
  intros I H Hd Hf Ht Hs Hr (Hk & Hb & Hl). destruct page_facts as (A & B & C & D & E & G).
  assert (Lk : lookup (fields s) (d_name d) = Some f) by (rewrite (i_fields _ _ _ _ _ _ I); apply lookup_layout; assumption).
  unfold setString. rewrite Lk. unfold set_string.
  pose proof (addr_range r _ _ Hf) as (R1 & R2). pose proof (layout_type _ _ _ _ G Hf) as Hty. pose proof (layout_range _ _ _ _ G Hf) as (R3 & R4 & R5).
  assert (Hoff : off <= addr l cnt off r f) by (unfold addr; fold rs; pose proof (Z.mod_pos_bound r cnt ltac:(lia)); nia).
  change 0x30 with (3 * 16). change 0x40 with (4 * 16). rewrite !type_is by exact Hty. rewrite Ht.
  replace (negb (d_type d / 16 =? 3) && negb (d_type d / 16 =? 4)) with false by (destruct Hk as [K|K]; [apply kind_is3 in K|apply kind_is4 in K]; lia).
  rewrite (pointer_ok _ _ _ _ I). pose proof (len_nonneg v) as Hv0. rewrite (u32_id (len v)) by lia. rewrite Hs in *.
  pose proof (d_size_range d) as Hsz. assert (Hsz2 : 0 < d_size d < 2 ^ 32) by (apply Hsz; rewrite Forall_forall in G; apply G, Hd).
  rewrite (u32_id (d_size d - 1)) by lia.
  set (q := addr l cnt off r f) in *. set (n := Z.min (len v) (d_size d)).
  assert (Ln : len (takez n v) = n) by (apply len_takez; unfold n; lia).
  pose proof (i_len _ _ _ _ _ _ I) as IL.
  assert (E1 : poke (page s) q (takez n v) = Some (splice (page s) q (takez n v))) by (apply poke_some; [|rewrite Ln]; unfold n; lia).
  rewrite E1. set (m1 := splice (page s) q (takez n v)) in *. pose proof (poke_len _ _ _ _ E1) as L1.
  pose proof (bytesP_takez n v Hb) as Btv.
  destruct (Z.eqb_spec (d_type d / 16) 3) as [K3|K3].
  - assert (Hk3 : kind_of (d_type d) = KString) by (apply kind_is3; exact K3).
    set (z := Z.min (len v) (d_size d - 1)).
    destruct (st_some 1 m1 (q + z) 0) as [m2 E2]; [unfold z; lia|unfold z; lia|]. rewrite E2. unfold st in E2. rewrite le1 in E2 by (unfold byteP; lia).
    (* both writes as one *)
    assert (E3 : poke (page s) q (takez z v ++ [0]) = Some m2).
    { destruct (Z_le_dec (d_size d) (len v)) as [Cv|Cv].
      - assert (Hz : z = d_size d - 1) by (unfold z; lia). assert (Hn : n = d_size d) by (unfold n; lia).
        assert (Q : takez n v = takez z v ++ takez 1 (dropz z v)) by (rewrite Hz, Hn; replace (d_size d) with (d_size d - 1 + 1) at 1 by lia; apply takez_add; lia).
        assert (Lz : len (takez z v) = z) by (apply len_takez; lia). assert (Lx : len (takez 1 (dropz z v)) = 1) by (apply len_takez; rewrite len_dropz; lia).
        assert (P1 : exists a, poke (page s) q (takez z v) = Some a) by (rewrite poke_some by lia; eauto). destruct P1 as [a P1].
        pose proof (poke_len _ _ _ _ P1) as La.
        assert (P2 : exists b, poke a (q + len (takez z v)) [0] = Some b) by (rewrite poke_some by (change (len [0]) with 1; lia); eauto). destruct P2 as [b P2].
        rewrite (poke_app _ _ _ _ _ _ P1 P2). f_equal.
        pose proof (poke_app _ _ _ _ _ _ P1 P2) as P3. pose proof (poke_len _ _ _ _ P3) as Lb.
        pose proof (poke_len _ _ _ _ E2) as L2.
        destruct (poke_inv _ _ _ _ P3) as (_ & P3b & P3c). destruct (poke_inv _ _ _ _ E2) as (_ & E2b & E2c).
        apply nthz_ext; [lia|]. intros i Hi. rewrite P3c, E2c.
        assert (LL : len (takez z v ++ [0]) = z + 1) by (rewrite len_app, Lz; reflexivity).
        change (len [0]) with 1 in *.
        destruct (Z_lt_dec i q) as [C1|C1].
        { rewrite !splice_out; rewrite ?LL; try lia; try reflexivity. unfold m1. rewrite splice_out; [reflexivity|lia|lia|lia]. change (len [0]) with 1. lia. }
        destruct (Z_lt_dec i (q + z)) as [C2|C2].
        { rewrite splice_in by lia. rewrite nthz_app1 by lia. rewrite splice_out; [|lia|change (len [0]) with 1; lia|lia]. unfold m1. rewrite splice_in by lia. rewrite Q. rewrite nthz_app1 by lia. reflexivity. }
        destruct (Z.eq_dec i (q + z)) as [C3|C3].
        { subst i. rewrite splice_in by lia. rewrite nthz_app2 by lia. rewrite splice_in by (change (len [0]) with 1; lia). f_equal. lia. }
        rewrite !splice_out; rewrite ?LL; try lia; try reflexivity; try (change (len [0]) with 1; lia). unfold m1. rewrite splice_out; [reflexivity|lia|lia|lia].
      - assert (Hz : z = len v) by (unfold z; lia). assert (Hn : n = len v) by (unfold n; lia). rewrite Hz in *. rewrite Hn in *.
        eapply poke_app; [exact E1|]. rewrite Ln. exact E2. }
    assert (Lz0 : len (takez z v ++ [0]) = z + 1) by (rewrite len_app, len_takez; [reflexivity|unfold z; lia]).
    eexists. split; [reflexivity|]. split.
    + eapply inv_write; [exact I|exact Hoff| |exact E3]. apply bytesP_app. split; [apply bytesP_takez, Hb|]. constructor; [unfold byteP; lia|constructor].
    + cbn [page]. eapply holds_write; try eassumption; [rewrite Lz0; unfold z; lia|].
      destruct (peek_prefix _ _ (d_size d) _ _ E3) as (rest & P & _); [rewrite Lz0; unfold z; lia|lia|].
      eexists. split; [exact P|]. unfold content. rewrite Hk3. exists rest. rewrite <- app_assoc. cbn [app]. f_equal. unfold z.
      destruct (Z_le_dec (len v) (d_size d - 1)); [rewrite Z.min_l by lia; rewrite !takez_all by lia; reflexivity|rewrite Z.min_r by lia; reflexivity].
  - assert (Hk4 : kind_of (d_type d) = KRaw) by (destruct Hk as [K|K]; [apply kind_is3 in K; congruence|exact K]).
    eexists. split; [reflexivity|]. split.
    + eapply inv_write; [exact I|exact Hoff|exact Btv|exact E1].
    + cbn [page]. eapply holds_write; try eassumption; [rewrite Ln; unfold n; lia|].
      destruct (peek_prefix _ _ (d_size d) _ _ E1) as (rest & P & _); [rewrite Ln; unfold n; lia|lia|].
      eexists. split; [exact P|]. unfold content. rewrite Hk4. exists rest. f_equal. unfold n.
      destruct (Z_le_dec (len v) (d_size d)); [rewrite Z.min_l by lia; rewrite !takez_all by lia; reflexivity|rewrite Z.min_r by lia; reflexivity].
Qed.

(** A header write below the records. *)
Lemma holds_header w m o xs m' lw : holds w m lw -> o + len xs <= 36 -> poke m o xs = Some m' -> holds w m' lw.
Proof.
  intros [H1 H2] Ho Hp. split; [exact H1|]. intros d f r v Hd Hf Hr Hv. destruct (H2 d f r v Hd Hf Hr Hv) as (T1 & T2 & x & T3 & T4).
  conjs; try assumption. exists x. split; [|exact T4]. rewrite <- T3. apply (peek_poke_other _ _ _ _ _ _ Hp). destruct (addr_range r _ _ Hf). lia.
Qed.
Definition okw (w : window) : Prop := 0 <= fst w <= snd w /\ snd w - fst w <= cnt /\ snd w < 2 ^ 64.

Lemma add_ok w s lw n : inv l cnt off size w s -> okw w -> holds w (page s) lw -> allowed l cnt w (Add n) ->
  exists s', addRecords s n = Some s' /\ inv l cnt off size (slide w (Add n)) s' /\ holds (slide w (Add n)) (page s') lw.
Proof.
  intros I (W1 & W2 & W3) H (Hn & Hc & He). destruct page_facts as (A & B & C & D & E & G). cbn [slide].
  unfold addRecords, getEndPos, getDeleted, getRCount, getPresent. rewrite (i_end _ _ _ _ _ _ I), (i_del _ _ _ _ _ _ I), (i_cnt _ _ _ _ _ _ I), (i_pres _ _ _ _ _ _ I).
  change (2 ^ 64) with 18446744073709551616 in *. change (2 ^ 32) with 4294967296 in *.
  rewrite (u64_id (snd w + n - fst w)) by lia. rewrite (u64_id (snd w + n)) by lia. replace (cnt <? snd w + n - fst w) with false by lia. rewrite (u32_id (snd w - fst w + n)) by lia.
  pose proof (i_len _ _ _ _ _ _ I) as IL. pose proof (i_bytes _ _ _ _ _ _ I) as IB.
  destruct (st_some 4 (page s) 22 (snd w - fst w + n)) as [m1 E1]; [lia|lia|]. rewrite E1.
  pose proof (st_len _ _ _ _ _ E1) as L1. pose proof (st_bytes _ _ _ _ _ IB E1) as B1. pose proof (ld_st_same _ _ _ _ _ E1) as G1. unfold st in E1.
  destruct (st_some 8 m1 28 (snd w + n)) as [m2 E2]; [lia|lia|]. rewrite E2.
  pose proof (st_len _ _ _ _ _ E2) as L2. pose proof (st_bytes _ _ _ _ _ B1 E2) as B2. pose proof (ld_st_same _ _ _ _ _ E2) as G2. unfold st in E2.
  eexists. split; [reflexivity|]. split.
  - destruct I. constructor; cbn [page fields fst snd]; try assumption; try congruence; try (other E2; other E1; assumption).
    + other E2. rewrite G1. f_equal. change (256 ^ Z.of_nat 4) with 4294967296. rewrite (Z.mod_small (snd w - fst w + n)) by lia. lia.
    + rewrite G2. f_equal. apply Z.mod_small. change (256 ^ Z.of_nat 8) with 18446744073709551616. lia.
    + rewrite (peek_poke_other _ _ _ _ _ _ E2) by (rewrite le_len; lia). rewrite (peek_poke_other _ _ _ _ _ _ E1) by (rewrite le_len; lia). assumption.
  - cbn [page]. change (holds w m2 lw). eapply holds_header; [eapply holds_header; [exact H| |exact E1]| |exact E2]; rewrite le_len; lia.
Qed.
Lemma delete_ok w s lw n : inv l cnt off size w s -> okw w -> holds w (page s) lw -> allowed l cnt w (Delete n) ->
  exists s', deleteRecords s n = Some s' /\ inv l cnt off size (slide w (Delete n)) s' /\ holds (slide w (Delete n)) (page s') lw.
Proof.
  intros I (W1 & W2 & W3) H (Hn & Hc). destruct page_facts as (A & B & C & D & E & G). cbn [slide].
  unfold deleteRecords, getStartPos, getDeleted, getPresent. rewrite (i_start _ _ _ _ _ _ I).
  change (2 ^ 64) with 18446744073709551616 in *. change (2 ^ 32) with 4294967296 in *.
  pose proof (i_len _ _ _ _ _ _ I) as IL. pose proof (i_bytes _ _ _ _ _ _ I) as IB.
  destruct (st_some 4 (page s) 10 (u32 (fst w mod 4294967296 + n))) as [m1 E1]; [lia|lia|]. rewrite E1.
  pose proof (st_len _ _ _ _ _ E1) as L1. pose proof (st_bytes _ _ _ _ _ IB E1) as B1. pose proof (ld_st_same _ _ _ _ _ E1) as G1. unfold st in E1.
  assert (Q1 : ld 8 m1 14 = Some (fst w)) by (other E1; exact (i_del _ _ _ _ _ _ I)). rewrite Q1. rewrite (u64_id (fst w + n)) by lia.
  destruct (st_some 8 m1 14 (fst w + n)) as [m2 E2]; [lia|lia|]. rewrite E2.
  pose proof (st_len _ _ _ _ _ E2) as L2. pose proof (st_bytes _ _ _ _ _ B1 E2) as B2. pose proof (ld_st_same _ _ _ _ _ E2) as G2. unfold st in E2.
  assert (Q2 : ld 4 m2 22 = Some (snd w - fst w)) by (other E2; other E1; exact (i_pres _ _ _ _ _ _ I)). rewrite Q2.
  replace (n <=? snd w - fst w) with true by lia. rewrite (u32_id (snd w - fst w - n)) by lia.
  destruct (st_some 4 m2 22 (snd w - fst w - n)) as [m3 E3]; [lia|lia|]. rewrite E3.
  pose proof (st_len _ _ _ _ _ E3) as L3. pose proof (st_bytes _ _ _ _ _ B2 E3) as B3. pose proof (ld_st_same _ _ _ _ _ E3) as G3. unfold st in E3.
  eexists. split; [reflexivity|]. split.
  - destruct I. constructor; cbn [page fields fst snd]; try assumption; try congruence; try (other E3; other E2; other E1; assumption).
    + other E3. other E2. rewrite G1. f_equal. change (256 ^ Z.of_nat 4) with 4294967296. unfold u32. change (2 ^ 32) with 4294967296. rewrite Z.mod_mod by lia. rewrite Zplus_mod_idemp_l. reflexivity.
    + other E3. rewrite G2. f_equal. apply Z.mod_small. change (256 ^ Z.of_nat 8) with 18446744073709551616. lia.
    + rewrite G3. f_equal. change (256 ^ Z.of_nat 4) with 4294967296. rewrite (Z.mod_small (snd w - fst w - n)) by lia. lia.
    + rewrite (peek_poke_other _ _ _ _ _ _ E3) by (rewrite le_len; lia). rewrite (peek_poke_other _ _ _ _ _ _ E2) by (rewrite le_len; lia). rewrite (peek_poke_other _ _ _ _ _ _ E1) by (rewrite le_len; lia). assumption.
  - cbn [page]. assert (H3 : holds w m3 lw) by (eapply holds_header; [eapply holds_header; [eapply holds_header; [exact H| |exact E1]| |exact E2]| |exact E3]; rewrite le_len; lia).
    destruct H3 as [H31 H32]. split; cbn [fst].
    + intros nm r Hr. apply H31. lia.
    + intros d f r v Hd Hf Hr Hv. destruct (Z_lt_dec r (fst w + cnt)); [apply (H32 d f r v Hd Hf); [lia|exact Hv]|]. rewrite H31 in Hv by lia. discriminate.
Qed.

Lemma slide_ok w o : okw w -> allowed l cnt w o -> okw (slide w o).
Proof. intros (A & B & C). destruct o; cbn [allowed slide]; unfold okw; cbn [fst snd]; lia. Qed.

Definition after_op (lw : list Z -> Z -> option value) (o : op) : list Z -> Z -> option value :=
  fun n r => match written n r o with Some v => Some v | None => lw n r end.
Lemma holds_ext w m lw lw' : (forall n r, lw n r = lw' n r) -> holds w m lw -> holds w m lw'.
Proof. intros E [H1 H2]. split; intros; rewrite <- ?E; auto. apply (H2 d f r v); try assumption. rewrite E. assumption. Qed.
Lemma op_ok w s lw o : inv l cnt off size w s -> okw w -> holds w (page s) lw -> allowed l cnt w o ->
  exists s', do_op s o = Some s' /\ inv l cnt off size (slide w o) s' /\ holds (slide w o) (page s') (after_op lw o).
Proof.
  intros I W H Ha. destruct o as [n|n|name r v|name r v]; cbn [do_op].
  - destruct (add_ok w s lw n I W H Ha) as (s' & P1 & P2 & P3). exists s'. conjs; assumption.
  - destruct (delete_ok w s lw n I W H Ha) as (s' & P1 & P2 & P3). exists s'. conjs; assumption.
  - destruct Ha as (Hr & d & Hd & Hn & Hi). subst name. destruct (layout_in l 0 d Hd) as (f & F1 & F2 & F3).
    destruct (set_int_ok w s lw d f r v I H Hd F1 F2 F3 ltac:(lia) Hi) as (s' & P1 & P2 & P3). exists s'. conjs; try assumption.
    eapply holds_ext; [|exact P3]. intros n' r'. unfold fresh_lw, after_op. cbn [written]. destruct (beqb (d_name d) n' && (r =? r')); reflexivity.
  - destruct Ha as (Hr & d & Hd & Hn & Hi). subst name. destruct (layout_in l 0 d Hd) as (f & F1 & F2 & F3).
    destruct (set_string_ok w s lw d f r v I H Hd F1 F2 F3 ltac:(lia) Hi) as (s' & P1 & P2 & P3). exists s'. conjs; try assumption.
    eapply holds_ext; [|exact P3]. intros n' r'. unfold fresh_lw, after_op. cbn [written]. destruct (beqb (d_name d) n' && (r =? r')); reflexivity.
Qed.
Lemma ops_ok ops : forall w s lw, inv l cnt off size w s -> okw w -> holds w (page s) lw -> history l cnt w ops ->
  exists s', do_ops s ops = Some s' /\ inv l cnt off size (fold_left slide ops w) s' /\ okw (fold_left slide ops w) /\
    holds (fold_left slide ops w) (page s') (fun n r => last_written n r ops (lw n r)).
Proof.
  induction ops as [|o ops IH]; intros w s lw I W H Hh; cbn [do_ops fold_left].
  - exists s. conjs; try reflexivity; assumption.
  - destruct Hh as [Ha Hh]. destruct (op_ok w s lw o I W H Ha) as (s1 & E1 & I1 & H1). rewrite E1.
    destruct (IH _ s1 _ I1 (slide_ok _ _ W Ha) H1 Hh) as (s2 & P1 & P2 & P3 & P4). exists s2. conjs; assumption.
Qed.

(** Reading. *)
Lemma reads_ok w s lw d r v : inv l cnt off size w s -> holds w (page s) lw -> In d l -> fst w <= r < fst w + cnt -> lw (d_name d) r = Some v -> reads s d r v.
Proof.
  intros I [_ H] Hd Hr Hv. destruct (layout_in l 0 d Hd) as (f & F1 & F2 & F3). destruct (H d f r v Hd F1 Hr Hv) as (_ & _ & x & P & Cx). clear H.
  destruct page_facts as (A & B & C & D & E & G).
  assert (Lk : lookup (fields s) (d_name d) = Some f) by (rewrite (i_fields _ _ _ _ _ _ I); apply lookup_layout; assumption).
  pose proof (addr_range r _ _ F1) as (R1 & R2). pose proof (layout_type _ _ _ _ G F1) as Hty. pose proof (layout_range _ _ _ _ G F1) as (R3 & R4 & R5).
  pose proof (pointer_ok _ _ f r I) as Hp. pose proof (i_len _ _ _ _ _ _ I) as IL. set (q := addr l cnt off r f) in *.
  unfold reads, content in *. destruct v as [v|v].
  - destruct (kind_of (d_type d)) eqn:K; try contradiction; destruct Cx as [-> Hin].
    + unfold getInt. rewrite Lk. unfold get_int. rewrite Hp. change 0x10 with (1 * 16). rewrite type_is by exact Hty. rewrite F2. apply kind_is in K. rewrite K. cbn [Z.eqb Pos.eqb].
      rewrite F3. unfold cut_unsigned. cbn [In] in Hin. unfold ld.
      destruct Hin as [E0|[E0|[E0|[E0|[E0|[]]]]]]; rewrite <- E0 in *; cbn [Z.eqb Pos.eqb]; unfold enc in P; cbn [Z.eqb Pos.eqb] in P;
        change (Z.of_nat 1) with 1; change (Z.of_nat 2) with 2; change (Z.of_nat 4) with 4; change (Z.of_nat 8) with 8; rewrite P; f_equal; rewrite ?unle_le; try reflexivity.
      rewrite (rd_btoh24 (be 3 v) ltac:(apply be_bytes) ltac:(rewrite be_len; lia)). rewrite firstn_all2 by (rewrite be_length; lia). rewrite unbe_be. reflexivity.
    + unfold getInt. rewrite Lk. unfold get_int. rewrite Hp. change 0x10 with (1 * 16). change 0x20 with (2 * 16). rewrite !type_is by exact Hty. rewrite F2. apply kind_is2 in K. rewrite K. cbn [Z.eqb Pos.eqb].
      rewrite F3. unfold cut_signed. cbn [In] in Hin. unfold ld. unfold signed, u64.
      destruct Hin as [E0|[E0|[E0|[E0|[]]]]]; rewrite <- E0 in *; cbn [Z.eqb Pos.eqb]; unfold enc in P; cbn [Z.eqb Pos.eqb] in P;
        change (Z.of_nat 1) with 1; change (Z.of_nat 2) with 2; change (Z.of_nat 4) with 4; change (Z.of_nat 8) with 8; rewrite P; f_equal; rewrite ?unle_le; try reflexivity.
      change (256 ^ Z.of_nat (Z.to_nat 8)) with 18446744073709551616. change (2 ^ (8 * 8)) with 18446744073709551616. change (2 ^ 64) with 18446744073709551616. change (2 ^ (8 * 8 - 1)) with 9223372036854775808.
      dif; [rewrite Z.mod_mod by lia; reflexivity|]. clear. set (y := v mod 18446744073709551616). assert (0 <= y < 18446744073709551616) by (unfold y; apply Z.mod_pos_bound; lia).
      rewrite <- (Z.mod_add _ 1) by lia. rewrite Z.mod_small by lia. lia.
  - destruct (kind_of (d_type d)) eqn:K; try contradiction.
    + destruct Cx as [rest ->]. unfold getString, getPointer. rewrite Lk, Hp. replace ((0 <=? q) && (q <=? len (page s))) with true by lia.
      destruct (peek_inv _ _ _ _ P) as (_ & _ & _ & P2).
      assert (Ed : dropz q (page s) = (takez (d_size d - 1) v ++ 0 :: rest) ++ dropz (d_size d) (dropz q (page s))) by (rewrite P2; symmetry; apply takez_dropz).
      rewrite Ed. generalize (dropz (d_size d) (dropz q (page s))). intros tl. generalize (takez (d_size d - 1) v). clear. intros a.
      induction a as [|b a IH]; [reflexivity|]. cbn [app cstr before_zero]. destruct (b =? 0); [reflexivity|]. rewrite IH. reflexivity.
    + destruct Cx as [rest ->]. exists rest. unfold getRaw. rewrite Lk, Hp, F3. exact P.
Qed.
Lemma available_ok w s r : inv l cnt off size w s -> isRecordAvailable (page s) r = Some ((fst w <=? r) && (r <? snd w)).
Proof.
  intros I. unfold isRecordAvailable, getDeleted, getEndPos. rewrite (i_del _ _ _ _ _ _ I), (i_end _ _ _ _ _ _ I). f_equal.
  destruct (Z.ltb_spec r (fst w)), (Z.leb_spec (snd w) r); lia.
Qed.
Lemma size_ok w s lw d r v : inv l cnt off size w s -> holds w (page s) lw -> okw w -> In d l -> fst w <= r < snd w -> lw (d_name d) r = Some (VString v) ->
  kind_of (d_type d) = KString -> getSize s (d_name d) r = Some (len (before_zero (takez (d_size d - 1) v))).
Proof.
  intros I [_ H] (W1 & W2 & W3) Hd Hr Hv K. destruct (layout_in l 0 d Hd) as (f & F1 & F2 & F3). destruct (H d f r _ Hd F1 ltac:(lia) Hv) as (_ & _ & x & P & Cx). clear H.
  destruct page_facts as (A & B & C & D & E & G).
  assert (Lk : lookup (fields s) (d_name d) = Some f) by (rewrite (i_fields _ _ _ _ _ _ I); apply lookup_layout; assumption).
  pose proof (layout_type _ _ _ _ G F1) as Hty. pose proof (pointer_ok _ _ f r I) as Hp.
  unfold getSize. rewrite (available_ok w s r I). replace ((fst w <=? r) && (r <? snd w)) with true by lia. cbn [negb]. rewrite Lk.
  change 0x30 with (3 * 16). rewrite type_is by exact Hty. rewrite F2. unfold content in Cx. rewrite K in Cx. apply kind_is3 in K. rewrite K. cbn [Z.eqb Pos.eqb]. rewrite Hp, F3, P.
  destruct Cx as [rest ->]. f_equal. generalize (takez (d_size d - 1) v). clear. intros a.
  induction a as [|b a IH]; [reflexivity|]. cbn [app strnlen before_zero]. destruct (b =? 0); [reflexivity|]. rewrite IH, len_cons. reflexivity.
Qed.
End Page.
Lemma holds_start l cnt w m : holds l cnt w m (fun _ _ => None).
Proof. split; [reflexivity|]. intros; discriminate. Qed.
