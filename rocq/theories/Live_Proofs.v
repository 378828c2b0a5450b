From Verif Require Import Common CommonFacts CommonMore Dtsc_Spec Page_Model Page_Spec Page_Proofs PageRead_Proofs Meta_Model Meta_Spec Meta_Proofs MetaUpd_Proofs MetaRun_Proofs MetaFind_Model MetaView_Proofs MetaFind_Proofs Live_Model Live_Spec.

(** * The ring of pages under the other calls *)
Definition pgood (t t' : track) : Prop := ringok (pages t) -> agree (pages t) (pages t') /\ ringok (pages t').
Lemma pgood_refl t : pgood t t. Proof. intros R. split; [apply agree_refl | exact R]. Qed.
Lemma pgood_trans a b c : pgood a b -> pgood b c -> pgood a c.
Proof. intros H1 H2 R. destruct (H1 R) as (A1 & R1). destruct (H2 R1) as (A2 & R2). split; [eapply agree_trans; eassumption | exact R2]. Qed.
Lemma pgood_resize t a b c : pgood t (resizeTrack t a b c (t_rc (pages t))).
Proof.
  intros R. unfold resizeTrack. cbn [pages]. assert (R' := R). destruct R' as (R1 & R2 & R3 & R4 & R5 & R6).
  destruct (resize_agree page0 (pages t) (t_rc (pages t)) R ltac:(lia) ltac:(lia)) as (A & _ & B). auto.
Qed.
Lemma pgood_same t t' : pages t' = pages t -> pgood t t'.
Proof. intros E R. rewrite E. split; [apply agree_refl | exact R]. Qed.
Lemma addPart_pages t p : pgood t (addPart t p).
Proof.
  unfold addPart. cbv zeta. fold (room_parts t). assert (G : pgood t (room_parts t)) by (unfold room_parts; destruct (_ <=? _); [apply pgood_resize | apply pgood_refl]).
  eapply pgood_trans; [exact G |]. apply pgood_same. cbv zeta. destruct (_ =? 0); reflexivity.
Qed.
Lemma addKey_pages t p : pgood t (addKey t p).
Proof.
  unfold addKey. cbv zeta. fold (room_keys t). assert (G : pgood t (room_keys t)) by (unfold room_keys; destruct (_ <=? _); [apply pgood_resize | apply pgood_refl]).
  eapply pgood_trans; [exact G |]. apply pgood_same. reflexivity.
Qed.
Lemma addFrag_pages t p n t' : addFrag t p n = Done t' -> pgood t t'.
Proof.
  unfold addFrag. cbv zeta. destruct (_ || _).
  - cbv zeta. fold (room_frags t). assert (G : pgood t (room_frags t)) by (unfold room_frags; destruct (_ <=? _); [apply pgood_resize | apply pgood_refl]).
    intros E. eapply pgood_trans; [exact G |]. apply pgood_same.
    destruct (_ =? 0).
    + apply (f_equal (fun r => match r with Done x => x | _ => t' end)) in E. cbn in E. subst t'. reflexivity.
    + destruct (sum_frags _ _ _ _ _) as (b, d) in E. destruct (_ =? 0) in E; [discriminate E |].
      apply (f_equal (fun r => match r with Done x => x | _ => t' end)) in E. cbn in E. subst t'. reflexivity.
  - intros E. apply (f_equal (fun r => match r with Done x => x | _ => t' end)) in E. cbn in E. subst t'. apply pgood_same. reflexivity.
Qed.
Lemma update_pages t p t' : update t p = Done t' -> pgood t t'.
Proof.
  unfold update. destruct (p_time p <? lastms t); [intros E; injection E as <-; apply pgood_refl |]. cbv zeta.
  destruct (opensKey _ _).
  - destruct (addFrag _ _ _) as [| | t2] eqn:E; intros H; try discriminate H. injection H as <-.
    eapply pgood_trans; [apply addPart_pages |]. eapply pgood_trans; [apply addKey_pages |]. eapply pgood_trans; [eapply addFrag_pages; exact E |].
    apply pgood_same. reflexivity.
  - intros H. injection H as <-. eapply pgood_trans; [apply addPart_pages |]. apply pgood_same. reflexivity.
Qed.
Lemma roomPages_ok t ps d : inv t ps d -> ringok (pages t) -> inv (roomPages t) ps d /\ video (roomPages t) = video t /\
  agree (pages t) (pages (roomPages t)) /\ ringok (pages (roomPages t)) /\ t_end (pages t) - t_del (pages t) < t_rc (pages (roomPages t)).
Proof.
  intros I R. unfold roomPages. assert (R' := R). destruct R' as (R1 & R2 & R3 & R4 & R5 & R6).
  destruct (Z.leb_spec (t_rc (pages t)) (u64 (t_end (pages t) - t_del (pages t)))) as [L | L].
  - unfold u64 in L. rewrite Z.mod_small in L by lia.
    replace (u32 (t_rc (pages t) * 2)) with (t_rc (pages t) * 2) by (unfold u32; rewrite Z.mod_small; lia).
    destruct (resize_agree page0 (pages t) (t_rc (pages t) * 2) R ltac:(lia) ltac:(lia)) as (A & B & C).
    assert (I' := I). destruct I' as ((Q1 & Q2 & Q3) & _). assert (S1 := Q1). assert (S2 := Q2). assert (S3 := Q3).
    destruct Q1 as (? & ? & ? & ? & _). destruct Q2 as (? & ? & ? & ? & _). destruct Q3 as (? & ? & ? & ? & _).
    destruct (resize_moved t (t_rc (frags t)) (t_rc (keys t)) (t_rc (parts t)) (t_rc (pages t) * 2)) as (M & _); try lia.
    { exact (conj S1 (conj S2 S3)). }
    split; [eapply inv_moved; [exact I | exact M] |]. split; [reflexivity |]. unfold resizeTrack. cbn [pages].
    split; [exact A |]. split; [exact C |]. rewrite B. lia.
  - unfold u64 in L. rewrite Z.mod_small in L by lia. split; [exact I |]. split; [reflexivity |]. split; [apply agree_refl |]. split; [exact R | lia].
Qed.

(** * The ring as a list of records *)
Notation recs t a gl := (holds t a gl (fun _ (g : page) => g)).
Lemma recs_at (t : tbl page) a gl j g : recs t a gl -> nth_error gl j = Some g -> (a <= j)%nat -> at_ t (Z.of_nat j) = g.
Proof. intros (_ & _ & _ & H) E L. exact (H j g E L). Qed.
Lemma recs_agree (t t' : tbl page) a gl : recs t a gl -> agree t t' -> recs t' a gl.
Proof. apply holds_agree. Qed.
Lemma len_nth {A} (l : list A) j x : nth_error l j = Some x -> (j < List.length l)%nat.
Proof. intros H. apply nth_error_Some. congruence. Qed.
(** Changing the last record. *)
Lemma recs_upd (t : tbl page) a r g f : ringok t -> recs t a (r ++ [g]) -> (a <= List.length r)%nat ->
  recs (upd t (Z.of_nat (List.length r)) f) a (r ++ [f g]) /\ ringok (upd t (Z.of_nat (List.length r)) f).
Proof.
  intros R H L. split; [| exact R]. assert (H' := H). destruct H' as (H1 & H2 & H3 & H4). destruct R as (R1 & R2 & R3 & R4 & R5 & R6).
  rewrite app_length in H2. cbn [List.length] in H2.
  split; [exact H1 |]. split; [rewrite app_length; cbn [List.length]; exact H2 |]. split; [exact H3 |].
  intros i x E Li. pose proof (len_nth _ _ _ E) as Lx. rewrite app_length in Lx. cbn [List.length] in Lx.
  rewrite at_upd by lia. destruct (Z.eqb_spec (Z.of_nat i) (Z.of_nat (List.length r))) as [Q | Q].
  - assert (i = List.length r) by lia. subst i. rewrite nth_mid in E. injection E as <-. f_equal. apply (H4 (List.length r)); [apply nth_mid | lia].
  - rewrite nth_error_app1 in E by lia. apply (H4 i); [rewrite nth_error_app1 by lia; exact E | exact Li].
Qed.
Lemma at_self (t : tbl page) r f : at_ (upd t r f) r = f (at_ t r).
Proof. unfold at_, upd, put, slot. cbn [t_rc t_cell]. rewrite Z.eqb_refl. reflexivity. Qed.
Definition like (t q : tbl page) : Prop := t_rc q = t_rc t /\ t_start q = t_start t /\ t_del q = t_del t /\ t_pres q = t_pres t /\ t_end q = t_end t.
Lemma recs_add (t q : tbl page) a gl : ringok t -> recs t a gl -> t_end t - t_del t < t_rc t -> t_end t + 1 < 2 ^ 31 ->
  like t q -> (forall i, t_del t <= i < t_end t -> at_ q i = at_ t i) ->
  recs (addRecord q) a (gl ++ [at_ q (t_end t)]) /\ ringok (addRecord q).
Proof.
  intros R H L1 L2 (E1 & E2 & E3 & E4 & E5) Eq. assert (R' := R). destruct R' as (R1 & R2 & R3 & R4 & R5 & R6). destruct H as (H1 & H2 & H3 & H4).
  destruct (addRecord_ok q) as (Q1 & Q2 & Q3 & Q4 & Q5 & Q6); [unfold ringok; rewrite E1, E2, E3, E4, E5; lia | rewrite E1, E3, E5; exact L1 | rewrite E5; exact L2 |].
  split; [| exact Q1]. split; [rewrite Q2, E3; exact H1 |]. split; [rewrite Q3, E5, app_length; cbn [List.length]; lia |].
  split; [rewrite Q4, Q3, Q2, E3, E4, E5; lia |].
  intros i x E Li. rewrite Q5. pose proof (len_nth _ _ _ E) as Lx. rewrite app_length in Lx. cbn [List.length] in Lx.
  destruct (Z.eqb_spec (Z.of_nat i) (t_end t)) as [Q | Q].
  - assert (i = List.length gl) by lia. subst i. rewrite nth_mid in E. injection E as <-. rewrite Q. reflexivity.
  - rewrite nth_error_app1 in E by lia. rewrite Eq by lia. apply (H4 i); [exact E | exact Li].
Qed.
Lemma newPage_ok t a gl n time size clean : ringok (pages t) -> recs (pages t) a gl -> t_end (pages t) - t_del (pages t) < t_rc (pages t) -> t_end (pages t) + 1 < 2 ^ 31 ->
  exists gp gt, recs (pages (newPage t n time size clean)) a (gl ++ [mkpage (u32 n) 0 gp (u32 size) 0 (u64 time) gt]) /\
    ringok (pages (newPage t n time size clean)) /\ (clean = true -> gp = 0).
Proof.
  intros R H L1 L2. unfold newPage. cbv zeta. cbn [with_pages pages]. assert (R' := R). destruct R' as (R1 & R2 & R3 & R4 & R5 & R6).
  set (e := t_end (pages t)). set (q := if clean then _ else _).
  destruct (recs_add (pages t) q a gl R H L1 L2) as (A & B).
  - unfold q. destruct clean; repeat split.
  - intros i Hi. unfold q. destruct clean; rewrite !at_upd by (rewrite ?rc_upd; fold e in Hi; lia); destruct (Z.eqb_spec i e); try reflexivity; fold e in Hi; lia.
  - fold e in A. assert (X : exists gp gt, at_ q e = mkpage (u32 n) 0 gp (u32 size) 0 (u64 time) gt /\ (clean = true -> gp = 0)).
    { unfold q. destruct clean; rewrite !at_self; unfold g_first_, g_ftime_, g_size_, g_count_, g_avail_, g_parts_, g_ltime_; cbn [g_first g_count g_parts g_size g_avail g_ftime g_ltime];
        do 2 eexists; (split; [reflexivity | intros K; try discriminate K; reflexivity]). }
    destruct X as (gp & gt & X & Y). exists gp, gt. rewrite X in A. auto.
Qed.

(** * Looking for pages *)
Lemma count_recs (t : track) a gl : recs (pages t) a gl -> (a <= List.length gl)%nat -> count (pages t) = (List.length gl - a)%nat /\ t_del (pages t) = Z.of_nat a.
Proof. intros (H1 & H2 & _ & _) L. unfold count. rewrite H1, H2. split; [lia | reflexivity]. Qed.
Lemma where_at (t : track) a gl (p : Z -> bool) j : recs (pages t) a gl -> (a <= j < List.length gl)%nat ->
  p (Z.of_nat j) = true -> (forall i, (a <= i < j)%nat -> p (Z.of_nat i) = false) -> first_where (count (pages t)) (t_del (pages t)) p = Some (Z.of_nat j).
Proof.
  intros H L P N. destruct (count_recs t a gl H) as (C & D); [lia |]. rewrite C, D.
  pose proof (first_where_spec (List.length gl - a) (Z.of_nat a) p) as S. destruct (first_where _ _ p) as [i |].
  - destruct S as (S1 & S2 & S3). f_equal. destruct (Z.lt_trichotomy i (Z.of_nat j)) as [Q | [Q | Q]]; [| exact Q |].
    + specialize (N (Z.to_nat i) ltac:(lia)). rewrite Z2Nat.id in N by lia. congruence.
    + rewrite (S3 (Z.of_nat j)) in P by lia. discriminate P.
  - rewrite S in P by lia. discriminate P.
Qed.
Lemma where_none (t : track) a gl (p : Z -> bool) : recs (pages t) a gl -> (a <= List.length gl)%nat ->
  (forall i, (a <= i < List.length gl)%nat -> p (Z.of_nat i) = false) -> first_where (count (pages t)) (t_del (pages t)) p = None.
Proof.
  intros H L N. destruct (count_recs t a gl H L) as (C & D). rewrite C, D.
  pose proof (first_where_spec (List.length gl - a) (Z.of_nat a) p) as S. destruct (first_where _ _ p) as [i |]; [| reflexivity].
  destruct S as (S1 & S2 & _). specialize (N (Z.to_nat i) ltac:(lia)). rewrite Z2Nat.id in N by lia. congruence.
Qed.

(** * Storing on a page *)
Lemma len_rep0 n : 0 <= n -> len (repeat 0 (Z.to_nat n)) = n.
Proof. intros H. unfold len. rewrite repeat_length. lia. Qed.
Lemma page_append size w f : len w + len (wire_packet f) <= size -> size < 2 ^ 64 ->
  bufferNext size (w ++ repeat 0 (Z.to_nat (size - len w)), len w) f =
  Some ((w ++ wire_packet f) ++ repeat 0 (Z.to_nat (size - len (w ++ wire_packet f))), len (w ++ wire_packet f)).
Proof.
  intros L S. pose proof (len_nonneg w). pose proof (len_nonneg (wire_packet f)).
  unfold bufferNext. rewrite (refused_eq size (len w) f) by lia. destruct (Z.leb_spec (len w + len (wire_packet f)) size); [| lia]. cbn [negb].
  set (m := w ++ repeat 0 (Z.to_nat (size - len w))).
  assert (Lm : len m = size) by (unfold m; rewrite len_app, len_rep0; lia).
  destruct (writes_ok (fun i => nthz (wire_packet f) (i - len w)) (List.concat (stores (len w) f)) m) as (m' & W & Lm' & N).
  { intros i b I. apply in_stores in I as (I & ->). split; [lia | reflexivity]. }
  rewrite W. destruct (segs_wire f) as (_ & <-). rewrite len_app. f_equal. f_equal.
  apply list_ext.
  - rewrite Lm', Lm, !len_app, len_rep0; lia.
  - intros i Hi. rewrite Lm' in Hi. destruct (N i Hi) as (N1 & N2).
    destruct (in_dec Z.eq_dec i (map fst (List.concat (stores (len w) f)))) as [I | I].
    + rewrite (N1 I). apply in_map_iff in I as ((i' & b) & <- & I). apply in_stores in I as (I & _). cbn [fst].
      rewrite nthz_app1 by (rewrite len_app; lia). rewrite nthz_app2 by lia. reflexivity.
    + rewrite (N2 I). assert (O : ~ len w <= i < len w + len (wire_packet f)).
      { intros Q. apply I. apply in_map_iff. exists (i, nthz (wire_packet f) (i - len w)). split; [reflexivity | apply in_stores; split; [lia | reflexivity]]. }
      unfold m. destruct (Z.ltb_spec i (len w)).
      * rewrite !nthz_app1 by (rewrite ?len_app; lia). reflexivity.
      * rewrite !nthz_app2 by (rewrite ?len_app; lia). rewrite !nthz_repeat0. reflexivity.
Qed.

(** A packet that does not fit is ignored. *)
Definition added (size : Z) (w : list Z) (f : fields) : list Z := if len w + len (wire_packet f) <=? size then w ++ wire_packet f else w.
Lemma page_next size w f : len w <= size -> size < 2 ^ 64 ->
  bufferNext size (w ++ repeat 0 (Z.to_nat (size - len w)), len w) f =
  Some (added size w f ++ repeat 0 (Z.to_nat (size - len (added size w f))), len (added size w f)).
Proof.
  intros L S. unfold added. destruct (Z.leb_spec (len w + len (wire_packet f)) size) as [G | G]; [apply page_append; assumption |].
  unfold bufferNext. pose proof (len_nonneg w). rewrite (refused_eq size (len w) f) by lia. destruct (Z.leb_spec (len w + len (wire_packet f)) size); [lia |]. reflexivity.
Qed.
Lemma added_len size w f : len w <= size -> len w <= len (added size w f) <= size.
Proof. intros H. unfold added. pose proof (len_nonneg (wire_packet f)). destruct (Z.leb_spec (len w + len (wire_packet f)) size); [rewrite len_app |]; lia. Qed.
Lemma taken_app size : forall l1 l2 a, taken size a (l1 ++ l2) = taken size a l1 ++ taken size (a + used (taken size a l1)) l2.
Proof.
  induction l1 as [| f l1 IH]; intros l2 a; cbn [app taken]; [unfold used; cbn; rewrite Z.add_0_r; reflexivity |].
  destruct (_ <=? _); [| apply IH]. cbn [app]. rewrite IH. unfold used. cbn [flat_map]. rewrite len_app, Z.add_assoc. reflexivity.
Qed.
Lemma held_add SIZE p p' x : List.concat p' = List.concat p ++ [x] -> wire_page SIZE p' = added SIZE (wire_page SIZE p) (fst x).
Proof.
  intros E. unfold wire_page, held. rewrite E, map_app, taken_app. cbn [map taken]. rewrite Z.add_0_l. unfold added, used.
  destruct (_ <=? _); rewrite flat_map_app; cbn [flat_map]; rewrite ?app_nil_r; reflexivity.
Qed.
Lemma held_bound SIZE p : 0 <= SIZE -> len (wire_page SIZE p) <= SIZE.
Proof. intros H. pose proof (taken_used SIZE (map fst (List.concat p)) 0 ltac:(lia)) as B. exact B. Qed.
