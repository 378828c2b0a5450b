From Verif Require Import Common CommonFacts Mem_Model Mem_Proofs Flv_Model Flv_Spec.
Local Ltac Zify.zify_post_hook ::= Z.div_mod_to_equations.

Lemma rd_cons_0 x l : rd (x :: l) 0 = Some x.
Proof. rewrite rd_some by (rewrite len_cons; pose proof (len_nonneg l); lia). reflexivity. Qed.
Lemma rd_cons x l i : 0 < i -> rd (x :: l) i = rd l (i - 1).
Proof.
  intros H. unfold rd. rewrite len_cons.
  replace (Z.to_nat i) with (S (Z.to_nat (i - 1))) by lia. cbn [nth_error nth].
  destruct (i <? 1 + len l) eqn:E1, (i - 1 <? len l) eqn:E2; try lia.
  all: try (destruct (0 <=? i) eqn:E3; destruct (0 <=? i - 1) eqn:E4; try lia; reflexivity).
Qed.
Lemma peek_cons x l i n : 0 < i -> peek (x :: l) i n = peek l (i - 1) n.
Proof.
  intros H. unfold peek. rewrite len_cons.
  assert (0 <=? i = true) as -> by lia. assert (0 <=? i - 1 = true) as -> by lia.
  assert ((i + n <=? 1 + len l) = (i - 1 + n <=? len l)) as -> by (destruct (i - 1 + n <=? len l) eqn:E; lia).
  replace (dropz i (x :: l)) with (dropz (i - 1) l); [reflexivity|]. unfold dropz. replace (Z.to_nat i) with (S (Z.to_nat (i - 1))) by lia. reflexivity.
Qed.
Lemma peek_app_0 f l n : len f = n -> peek (f ++ l) 0 n = Some f.
Proof. intros H. pose proof (len_nonneg f). pose proof (len_nonneg l). rewrite peek_some by (rewrite ?len_app; lia). change (dropz 0 (f ++ l)) with (f ++ l). rewrite takez_app_exact by (symmetry; exact H). reflexivity. Qed.
Definition tail (body : list Z) : list Z := be 4 (len body + 15 - 4).
Lemma tag_eq ty tm body : tag ty tm body =
  ty :: u8 ((len body + 15 - 15) >> 16) :: u8 ((len body + 15 - 15) >> 8) :: u8 (len body + 15 - 15) :: u8 (tm >> 16) :: u8 (tm >> 8) :: u8 tm :: u8 (tm >> 24) :: 0 :: 0 :: 0 :: (body ++ tail body).
Proof. reflexivity. Qed.
Lemma rd_tag ty tm body i : 0 <= i -> rd (tag ty tm body) (11 + i) = rd (body ++ tail body) i.
Proof. intros H. rewrite tag_eq. rewrite !rd_cons by lia. f_equal. lia. Qed.
Lemma peek_tag ty tm body i n : 0 <= i -> peek (tag ty tm body) (11 + i) n = peek (body ++ tail body) i n.
Proof. intros H. rewrite tag_eq. rewrite !peek_cons by lia. f_equal. lia. Qed.
Lemma rd_tag_0 ty tm body : rd (tag ty tm body) 0 = Some ty.
Proof. rewrite tag_eq. apply rd_cons_0. Qed.
Lemma len_tag ty tm body : len (tag ty tm body) = len body + 15.
Proof. rewrite tag_eq. rewrite !len_cons, len_app. unfold tail. rewrite be_len. lia. Qed.
Lemma rd_at pre x post : rd (pre ++ x :: post) (len pre) = Some x.
Proof.
  induction pre as [|a pre IH]; [apply rd_cons_0|]. rewrite len_cons. cbn [app]. rewrite rd_cons by (pose proof (len_nonneg pre); lia).
  replace (1 + len pre - 1) with (len pre) by lia. exact IH.
Qed.
Lemma tagTime_tag ty tm body : 0 <= tm -> tagTime (tag ty tm body) = Some (u32 tm).
Proof.
  intros H. unfold tagTime. rewrite tag_eq.
  match goal with |- context[rd (?a :: ?b :: ?c :: ?d :: ?e :: ?f :: ?g :: ?h :: ?r) 4] =>
    pose proof (rd_at [a; b; c; d] e (f :: g :: h :: r)) as R4; pose proof (rd_at [a; b; c; d; e] f (g :: h :: r)) as R5;
    pose proof (rd_at [a; b; c; d; e; f] g (h :: r)) as R6; pose proof (rd_at [a; b; c; d; e; f; g] h r) as R7;
    change (len [a; b; c; d]) with 4 in R4; change (len [a; b; c; d; e]) with 5 in R5; change (len [a; b; c; d; e; f]) with 6 in R6; change (len [a; b; c; d; e; f; g]) with 7 in R7 end.
  cbn [app] in R4, R5, R6, R7. rewrite R4, R5, R6, R7. f_equal. unfold u8, u32. rewrite !Z.shiftl_mul_pow2, !Z.shiftr_div_pow2 by lia. lia.
Qed.

(** Reading within a body that begins with constants. *)
Lemma skip_none t o b : rd t o = Some b -> (b .& 15 =? 7) = false -> skipModEx t o = Some o.
Proof. intros R E. unfold skipModEx. cbn [skip]. rewrite R, E. reflexivity. Qed.
Lemma getData_at ty tm hdr data : getDataOffset (tag ty tm (hdr ++ data)) = Some (11 + len hdr) -> getData (tag ty tm (hdr ++ data)) = Some data.
Proof.
  intros E. unfold getData. rewrite E, len_tag, len_app. pose proof (len_nonneg hdr). pose proof (len_nonneg data).
  destruct (_ <? _) eqn:L; [lia|]. rewrite peek_tag by lia. rewrite <- app_assoc.
  rewrite peek_some by (rewrite ?len_app; pose proof (len_nonneg (tail (hdr ++ data))); lia).
  rewrite dropz_app_exact by reflexivity. rewrite takez_app_exact by lia. reflexivity.
Qed.

(** *** Files *)
Definition item_ok (x : list Z) : Prop := file_header x \/ file_tag x.
Definition is_tag (x : list Z) : bool := negb (is_header x).
(** Between calls: what was read is a proper part of the first of what is to come. *)
Definition pending (s : loader) (future : list Z) (items : list (list Z)) : Prop :=
  l_data s ++ future = List.concat items /\
  match items with
  | [] => l_data s = [] /\ l_len s = None
  | x :: _ => len (l_data s) < len x /\
    match l_len s with None => is_tag x = true -> len (l_data s) < 11 | Some n => is_tag x = true /\ n = len x end
  end.
Lemma tag_facts t : file_tag t -> 15 <= len t /\ is_header t = false /\ at_ t 0 <= 18 /\ at_ t 3 + 15 + (at_ t 2 << 8) + (at_ t 1 << 16) = len t.
Proof.
  intros (ty & others & body & size & -> & T & B & O & S). pose proof (len_nonneg body).
  assert (Lb : len (be 3 (len body)) = 3) by (rewrite be_len; reflexivity).
  rewrite !len_app. change (len [ty]) with 1. split; [lia|].
  split; [unfold is_header; change (at_ ([ty] ++ _) 0) with ty; destruct (ty =? 70) eqn:X; [lia|reflexivity]|].
  split; [change (at_ ([ty] ++ _) 0) with ty; lia|].
  change (at_ ([ty] ++ be 3 (len body) ++ others ++ body ++ size) 1) with ((len body / 65536) mod 256).
  change (at_ ([ty] ++ be 3 (len body) ++ others ++ body ++ size) 2) with ((len body / 256) mod 256).
  change (at_ ([ty] ++ be 3 (len body) ++ others ++ body ++ size) 3) with ((len body / 1) mod 256).
  rewrite !Z.shiftl_mul_pow2 by lia. lia.
Qed.
Lemma header_facts h : file_header h -> len h = 13 /\ is_header h = true /\ check_header h = true.
Proof. intros (v & f & ->). split; [reflexivity|]. split; reflexivity. Qed.
Lemma at_app a b i : 0 <= i < len a -> at_ (a ++ b) i = at_ a i.
Proof. intros H. unfold at_, len in *. apply app_nth1. lia. Qed.
Lemma is_header_app a b : 3 <= len a -> is_header (a ++ b) = is_header a.
Proof. intros H. unfold is_header. rewrite !at_app by lia. reflexivity. Qed.
Lemma app_split (a b c e : list Z) : a ++ b = c ++ e -> len a <= len c -> exists m, c = a ++ m /\ b = m ++ e.
Proof.
  intros E L. exists (dropz (len a) c). split.
  - apply (f_equal (takez (len a))) in E. rewrite takez_app_exact in E by reflexivity.
    assert (T : takez (len a) (c ++ e) = takez (len a) c).
    { clear E. unfold takez, len in *. rewrite firstn_app. replace (Z.to_nat (Z.of_nat (List.length a)) - List.length c)%nat with 0%nat by lia. cbn [firstn]. apply app_nil_r. }
    rewrite T in E. rewrite E at 1. symmetry. apply takez_dropz.
  - apply (f_equal (dropz (len a))) in E. rewrite dropz_app_exact in E by reflexivity. rewrite E.
    unfold dropz, len in *. rewrite skipn_app. replace (Z.to_nat (Z.of_nat (List.length a)) - List.length c)%nat with 0%nat by lia. reflexivity.
Qed.
(** Reading on: what is read, from what there is. *)
Lemma until_ok d count avail : len d <= count -> let '(d', rest) := until d count avail in
  d' ++ rest = d ++ avail /\ len d' <= count /\ (len d' < count -> rest = []) /\ (len d < count -> avail <> [] -> len rest < len avail) /\ len d <= len d'.
Proof.
  intros H. unfold until. pose proof (len_nonneg avail). pose proof (len_nonneg d).
  destruct (Z.le_gt_cases (count - len d) (len avail)) as [L|L].
  - rewrite len_app, len_takez, len_dropz by lia. rewrite <- app_assoc, takez_dropz. repeat split; try lia.
  - assert (takez (count - len d) avail = avail) as -> by (apply takez_all; lia).
    assert (dropz (count - len d) avail = []) as -> by (unfold dropz, len in *; apply skipn_all2; lia).
    rewrite app_nil_r, len_app. repeat split; try lia. intros _ NE. destruct avail; [contradiction|]. rewrite len_cons. change (len (@nil Z)) with 0. pose proof (len_nonneg avail). lia.
Qed.

Lemma load_ok s avail later items : Forall item_ok items -> pending s (avail ++ later) items -> avail <> [] ->
  let '(s', rest, r) := load s avail in
  len rest < len avail /\
  exists done items', items = done ++ items' /\ pending s' (rest ++ later) items' /\
    match r with LError => False | LNone => filter is_tag done = [] | LTag t => filter is_tag done = [t] end.
Proof.
  intros F [E P] NE. destruct items as [|x items].
  { destruct P as [P _]. rewrite P in E. cbn in E. destruct avail; [contradiction|discriminate E]. }
  destruct P as [L P]. inversion F as [|? ? F0 F1]; subst. cbn [List.concat] in E. unfold load.
  assert (NX : is_header x = negb (is_tag x)) by (unfold is_tag; rewrite negb_involutive; reflexivity).
  destruct (l_len s) as [n|].
  - destruct P as [T ->]. pose proof (until_ok (l_data s) (len x) avail ltac:(lia)) as U. destruct (until (l_data s) (len x) avail) as [d rest].
    destruct U as (U1 & U2 & U3 & U4 & U5). specialize (U4 L NE).
    assert (E' : d ++ rest ++ later = x ++ List.concat items) by (rewrite app_assoc, U1, <- app_assoc; exact E).
    destruct (Z.ltb_spec (len d) (len x)) as [S|S].
    + split; [exact U4|]. exists [], (x :: items). split; [reflexivity|]. split; [|reflexivity]. split; [exact E'|]. cbn [l_data l_len]. split; [exact S|]. split; [exact T|reflexivity].
    + split; [exact U4|]. destruct (app_split _ _ _ _ E' U2) as (m & Ex & Em).
      assert (m = []) as -> by (rewrite Ex, len_app in S; destruct m; [reflexivity|rewrite len_cons in S; pose proof (len_nonneg m); lia]). rewrite app_nil_r in Ex. cbn [app] in Em.
      exists [x], items. split; [reflexivity|]. split; [|cbn [filter]; rewrite T, Ex; reflexivity].
      split; [exact Em|]. cbn [l_data fresh l_len]. destruct items as [|y items]; [split; reflexivity|]. 
      inversion F1 as [|? ? [Fh|Ft] _]; subst.
      * destruct (header_facts _ Fh) as [H1 [H2 _]]. change (len (@nil Z)) with 0. split; [lia|]. intros _; lia.
      * destruct (tag_facts _ Ft) as [H1 _]. change (len (@nil Z)) with 0. split; [lia|]. intros _; lia.
  - destruct (Z.le_gt_cases 11 (len (l_data s))) as [G|G].
    + (* within a header *)
      assert (T : is_tag x = false) by (destruct (is_tag x); [specialize (P eq_refl); lia|reflexivity]).
      destruct F0 as [Fh|Ft]; [|destruct (tag_facts _ Ft) as [_ [H2 _]]; rewrite NX, T in H2; discriminate H2].
      destruct (header_facts _ Fh) as [H1 [H2 H3]].
      assert (U0 : until (l_data s) 11 avail = (l_data s, avail)).
      { unfold until. unfold takez, dropz. replace (Z.to_nat (11 - len (l_data s))) with 0%nat by lia. cbn [firstn skipn]. rewrite app_nil_r. reflexivity. }
      rewrite U0. destruct (Z.ltb_spec (len (l_data s)) 11) as [S|_]; [lia|].
      destruct (app_split _ _ _ _ E ltac:(lia)) as (m0 & Ex0 & _).
      assert (is_header (l_data s) = true) as -> by (rewrite <- H2, Ex0, is_header_app by lia; reflexivity).
      pose proof (until_ok (l_data s) 13 avail ltac:(lia)) as U. destruct (until (l_data s) 13 avail) as [d rest]. destruct U as (U1 & U2 & U3 & U4 & U5). specialize (U4 ltac:(lia) NE).
      assert (E' : d ++ rest ++ later = x ++ List.concat items) by (rewrite app_assoc, U1, <- app_assoc; exact E).
      destruct (Z.ltb_spec (len d) 13) as [S|S].
      * split; [exact U4|]. exists [], (x :: items). split; [reflexivity|]. split; [|reflexivity]. split; [exact E'|]. cbn [l_data l_len]. split; [lia|]. rewrite T. discriminate.
      * destruct (app_split _ _ _ _ E' ltac:(lia)) as (m & Ex & Em).
        assert (m = []) as -> by (rewrite Ex, len_app in H1; destruct m; [reflexivity|rewrite len_cons in H1; pose proof (len_nonneg m); lia]). rewrite app_nil_r in Ex. cbn [app] in Em.
        rewrite <- Ex, H3. split; [exact U4|]. exists [x], items. split; [reflexivity|]. split; [|cbn [filter]; rewrite T; reflexivity].
        split; [exact Em|]. cbn [l_data fresh l_len]. destruct items as [|y items]; [split; reflexivity|].
        inversion F1 as [|? ? [Fh'|Ft'] _]; subst.
        -- destruct (header_facts _ Fh') as [K1 _]. change (len (@nil Z)) with 0. split; [lia|]. intros _; lia.
        -- destruct (tag_facts _ Ft') as [K1 _]. change (len (@nil Z)) with 0. split; [lia|]. intros _; lia.
    + assert (Lx : 13 <= len x) by (destruct F0 as [Fh|Ft]; [destruct (header_facts _ Fh) as [H1 _]|destruct (tag_facts _ Ft) as [H1 _]]; lia).
      pose proof (until_ok (l_data s) 11 avail ltac:(lia)) as U. destruct (until (l_data s) 11 avail) as [d rest]. destruct U as (U1 & U2 & U3 & U4 & U5). specialize (U4 ltac:(lia) NE).
      assert (E' : d ++ rest ++ later = x ++ List.concat items) by (rewrite app_assoc, U1, <- app_assoc; exact E).
      destruct (Z.ltb_spec (len d) 11) as [S|S].
      * split; [exact U4|]. exists [], (x :: items). split; [reflexivity|]. split; [|reflexivity]. split; [exact E'|]. cbn [l_data l_len]. split; [lia|]. intros _; exact S.
      * destruct (app_split _ _ _ _ E' ltac:(lia)) as (m & Ex & Em).
        assert (IH : is_header d = is_header x) by (rewrite Ex, is_header_app by lia; reflexivity). rewrite IH.
        destruct F0 as [Fh|Ft].
        -- destruct (header_facts _ Fh) as [H1 [H2 H3]]. rewrite H2. assert (T : is_tag x = false) by (unfold is_tag; rewrite H2; reflexivity).
           pose proof (until_ok d 13 rest ltac:(lia)) as U. destruct (until d 13 rest) as [d2 rest2]. destruct U as (V1 & V2 & V3 & V4 & V5).
           assert (Lr : len rest2 <= len rest).
           { apply (f_equal len) in V1. rewrite !len_app in V1. lia. }
           assert (E2 : d2 ++ rest2 ++ later = x ++ List.concat items) by (rewrite app_assoc, V1, <- app_assoc; exact E').
           destruct (Z.ltb_spec (len d2) 13) as [S2|S2].
           ++ split; [lia|]. exists [], (x :: items). split; [reflexivity|]. split; [|reflexivity]. split; [exact E2|]. cbn [l_data l_len]. split; [lia|]. rewrite T. discriminate.
           ++ destruct (app_split _ _ _ _ E2 ltac:(lia)) as (m2 & Ex2 & Em2).
              assert (m2 = []) as -> by (rewrite Ex2, len_app in H1; destruct m2; [reflexivity|rewrite len_cons in H1; pose proof (len_nonneg m2); lia]). rewrite app_nil_r in Ex2. cbn [app] in Em2.
              rewrite <- Ex2, H3. split; [lia|]. exists [x], items. split; [reflexivity|]. split; [|cbn [filter]; rewrite T; reflexivity].
              split; [exact Em2|]. cbn [l_data fresh l_len]. destruct items as [|y items]; [split; reflexivity|].
              inversion F1 as [|? ? [Fh'|Ft'] _]; subst.
              ** destruct (header_facts _ Fh') as [K1 _]. change (len (@nil Z)) with 0. split; [lia|]. intros _; lia.
              ** destruct (tag_facts _ Ft') as [K1 _]. change (len (@nil Z)) with 0. split; [lia|]. intros _; lia.
        -- destruct (tag_facts _ Ft) as [H1 [H2 [H3 H4]]]. rewrite H2. assert (T : is_tag x = true) by (unfold is_tag; rewrite H2; reflexivity).
           assert (A : forall i, 0 <= i < 4 -> at_ d i = at_ x i) by (intros i Hi; rewrite Ex, at_app by lia; reflexivity).
           rewrite !A by lia. rewrite H4. destruct (Z.ltb_spec 18 (at_ x 0)) as [Q|_]; [lia|].
           split; [exact U4|]. exists [], (x :: items). split; [reflexivity|]. split; [|reflexivity]. split; [exact E'|]. cbn [l_data l_len]. split; [lia|]. split; [exact T|reflexivity].
Qed.
Lemma loads_ok fuel : forall s avail later items, Forall item_ok items -> pending s (avail ++ later) items -> len avail <= Z.of_nat fuel ->
  let '(s', ts, e) := loads fuel s avail in
  e = false /\ exists done items', items = done ++ items' /\ pending s' later items' /\ ts = filter is_tag done.
Proof.
  induction fuel as [|k IH]; intros s avail later items F P L.
  - destruct avail as [|a avail]; [|rewrite len_cons in L; pose proof (len_nonneg avail); lia]. cbn [loads]. split; [reflexivity|]. exists [], items. auto.
  - destruct avail as [|a avail]. { cbn [loads]. split; [reflexivity|]. exists [], items. auto. }
    cbn [loads]. pose proof (load_ok s (a :: avail) later items F P ltac:(discriminate)) as Q. destruct (load s (a :: avail)) as [[s' rest] r].
    destruct Q as (Q1 & done & items' & -> & Q3 & Q4). apply Forall_app in F as [F1 F2].
    assert (L' : len rest <= Z.of_nat k) by lia. specialize (IH s' rest later items' F2 Q3 L').
    destruct r as [|t|]; [| |contradiction].
    + destruct (loads k s' rest) as [[s2 ts] e]. destruct IH as (I1 & done2 & items2 & -> & I3 & ->). split; [exact I1|].
      exists (done ++ done2), items2. split; [rewrite app_assoc; reflexivity|]. split; [exact I3|]. rewrite filter_app, Q4. reflexivity.
    + destruct (loads k s' rest) as [[s2 ts] e]. destruct IH as (I1 & done2 & items2 & -> & I3 & ->). split; [exact I1|].
      exists (done ++ done2), items2. split; [rewrite app_assoc; reflexivity|]. split; [exact I3|]. rewrite filter_app, Q4. reflexivity.
Qed.
Lemma reads_ok chunks : forall s later items, Forall item_ok items -> pending s (List.concat chunks ++ later) items ->
  let '(s', ts, e) := reads s chunks in
  e = false /\ exists done items', items = done ++ items' /\ pending s' later items' /\ ts = filter is_tag done.
Proof.
  induction chunks as [|c chunks IH]; intros s later items F P.
  - cbn [reads]. split; [reflexivity|]. exists [], items. auto.
  - cbn [List.concat] in P. rewrite <- app_assoc in P. cbn [reads].
    pose proof (loads_ok (List.length c) s c (List.concat chunks ++ later) items F P ltac:(unfold len; lia)) as Q.
    destruct (loads (List.length c) s c) as [[s' ts] e]. destruct Q as (-> & done & items' & -> & Q3 & ->). apply Forall_app in F as [F1 F2].
    specialize (IH s' later items' F2 Q3). destruct (reads s' chunks) as [[s2 ts2] e2]. destruct IH as (I1 & done2 & items2 & -> & I3 & ->).
    split; [exact I1|]. exists (done ++ done2), items2. split; [rewrite app_assoc; reflexivity|]. split; [exact I3|]. rewrite filter_app. reflexivity.
Qed.

(** *** Layout *)
Lemma tag_layout ty tm body : tag ty tm body = flv_tag ty tm body.
Proof.
  unfold tag, flv_tag, time_bytes. cbv zeta. change (be 3 (len body)) with [(len body / 65536) mod 256; (len body / 256) mod 256; (len body / 1) mod 256].
  change (be 3 tm) with [(tm / 65536) mod 256; (tm / 256) mod 256; (tm / 1) mod 256].
  replace (len body + 15 - 15) with (len body) by lia. replace (len body + 15 - 4) with (11 + len body) by lia.
  unfold u8. rewrite !Z.shiftr_div_pow2 by lia. rewrite !Z.div_1_r. reflexivity.
Qed.
Lemma offset3 o : [u8 (o >> 16); u8 (o >> 8); u8 o] = be 3 o.
Proof. unfold u8. rewrite !Z.shiftr_div_pow2 by lia. change (be 3 o) with [(o / 65536) mod 256; (o / 256) mod 256; (o / 1) mod 256]. rewrite Z.div_1_r. reflexivity. Qed.
Lemma s24_be o : - 2 ^ 23 <= o < 2 ^ 23 -> s24 (unbe (be 3 o)) = o.
Proof. intros H. rewrite unbe_be. change (256 ^ Z.of_nat 3) with (2 ^ 24). unfold s24. destruct (_ <? _) eqn:E; lia. Qed.

(** *** Reading what was made *)
Lemma rd_body ty tm pre x post : rd (tag ty tm (pre ++ x :: post)) (11 + len pre) = Some x.
Proof. rewrite rd_tag by apply len_nonneg. rewrite <- app_assoc. apply rd_at. Qed.
Lemma peek_body ty tm pre x post : peek (tag ty tm (pre ++ x ++ post)) (11 + len pre) (len x) = Some x.
Proof.
  rewrite peek_tag by apply len_nonneg. rewrite <- !app_assoc. rewrite peek_some by (rewrite ?len_app; pose proof (len_nonneg pre); pose proof (len_nonneg x); pose proof (len_nonneg post); pose proof (len_nonneg (tail (pre ++ x ++ post))); lia).
  rewrite dropz_app_exact by reflexivity. rewrite takez_app_exact by reflexivity. reflexivity.
Qed.
Lemma rd_11 ty tm b r : rd (tag ty tm (b :: r)) 11 = Some b.
Proof. exact (rd_body ty tm [] b r). Qed.
Lemma rd_12 ty tm a b r : rd (tag ty tm (a :: b :: r)) 12 = Some b.
Proof. exact (rd_body ty tm [a] b r). Qed.
Lemma peek_12 ty tm a f r : len f = 4 -> peek (tag ty tm (a :: f ++ r)) 12 4 = Some f.
Proof. intros <-. exact (peek_body ty tm [a] f r). Qed.
Lemma peek_13 ty tm a b f r : len f = 4 -> peek (tag ty tm (a :: b :: f ++ r)) 13 4 = Some f.
Proof. intros <-. exact (peek_body ty tm [a; b] f r). Qed.
Lemma peek_13_3 ty tm a b f r : len f = 3 -> peek (tag ty tm (a :: b :: f ++ r)) 13 3 = Some f.
Proof. intros <-. exact (peek_body ty tm [a; b] f r). Qed.
Lemma rd_17 ty tm a b f k r : len f = 4 -> rd (tag ty tm (a :: b :: f ++ k :: r)) 17 = Some k.
Proof. intros H. pose proof (rd_body ty tm (a :: b :: f) k r) as R. rewrite !len_cons, H in R. exact R. Qed.
Lemma peek_18 ty tm a b f k o r : len f = 4 -> len o = 3 -> peek (tag ty tm (a :: b :: f ++ k :: o ++ r)) 18 3 = Some o.
Proof. intros H H3. pose proof (peek_body ty tm (a :: b :: f ++ [k]) o r) as R. rewrite !len_cons, len_app, H, H3 in R. cbn [app] in R. rewrite <- app_assoc in R. exact R. Qed.

Lemma data_at ty tm hdr data b n : b = hdr ++ data -> len hdr = n -> getDataOffset (tag ty tm b) = Some (11 + n) -> getData (tag ty tm b) = Some data.
Proof. intros -> <-. apply getData_at. Qed.
