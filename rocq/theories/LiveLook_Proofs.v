From Verif Require Import Common CommonFacts CommonMore Mem_Model Outcome_Model Dtsc_Model Dtsc_Spec Dtsc_Props Page_Model Page_Spec Page_Proofs PageRead_Proofs Page_Props Meta_Model Meta_Spec Meta_Proofs MetaUpd_Proofs MetaRun_Proofs MetaFind_Model MetaView_Proofs MetaFind_Proofs Live_Model Live_Spec Live_Proofs LiveRun_Proofs LiveHist_Proofs.

Section Live.
Context (SIZE FLIP DURATION : Z) (HS : SIZE < 2 ^ 32) (HF : 0 <= FLIP).
Context (v : bool) (s : live) (ls : list lpacket) (d : nat) (pgs : list lpage) (a : nat) (gl : list page) (I : linv SIZE FLIP v s ls d pgs a gl).
Context (Sm : (List.length (map pk ls) < Z.to_nat (2 ^ 31))%nat).
Notation t := (tk s).

Lemma rec_at i : (a <= i < List.length pgs)%nat -> exists p, nth_error pgs i = Some p /\ let g := at_ (pages t) (Z.of_nat i) in
  g_first g = before i pgs /\ g_first g + g_count g = before (S i) pgs /\ 1 <= g_count g /\ 35 <= g_avail g /\ g_ftime g = start ltime p /\
  0 <= before i pgs /\ before (S i) pgs < 2 ^ 31.
Proof.
  intros L. destruct (nth_some gl i) as (g & Eg); [rewrite (l_len _ _ _ _ _ _ _ _ _ I); lia |]. destruct (nth_some pgs i ltac:(lia)) as (p & Ep).
  exists p. split; [exact Ep |]. rewrite (recs_at _ _ _ i g (l_recs _ _ _ _ _ _ _ _ _ I) Eg ltac:(lia)). cbv zeta.
  destruct (first_at _ _ _ _ _ _ _ _ _ I i g Eg ltac:(lia)) as (F1 & F2 & F3). destruct (l_rec _ _ _ _ _ _ _ _ _ I i p g Ep Eg ltac:(lia)) as ((_ & _ & _ & Av & Ft & _) & _).
  pose proof (l_ne _ _ _ _ _ _ _ _ _ I) as N. rewrite Forall_forall in N.
  pose proof (wire_pos SIZE p (N p (nth_error_In _ _ Ep)) (fun k => keys_ne _ v ls (l_grp _ _ _ _ _ _ _ _ _ I) p k (nth_error_In _ _ Ep)) (page_pok _ _ _ _ _ _ _ _ _ I i p Ep)).
  destruct (pgs_small _ _ _ _ _ _ _ _ _ I Sm) as (P1 & _). pose proof (before_mono pgs (S i) (List.length pgs) ltac:(lia)). pose proof (before_bound pgs i).
  repeat split; lia.
Qed.
Lemma gl_len : List.length gl = List.length pgs. Proof. exact (l_len _ _ _ _ _ _ _ _ _ I). Qed.
Lemma a_le' : (a <= List.length gl)%nat. Proof. rewrite gl_len. exact (a_le _ _ _ _ _ _ _ _ _ I). Qed.

Lemma look_in i k : (a <= i < List.length pgs)%nat -> before i pgs <= k < before (S i) pgs ->
  bufferedOnPage t k = before i pgs /\ pageNumForKey t k = before i pgs.
Proof.
  intros L K. destruct (rec_at i L) as (p & _ & R1 & R2 & R3 & R4 & _ & R5 & R6). cbv zeta in R1, R2, R3, R4.
  assert (Old : forall j, (a <= j < i)%nat -> exists p, nth_error pgs j = Some p /\ before (S j) pgs <= k).
  { intros j Lj. destruct (rec_at j ltac:(lia)) as (q & Eq & _). exists q. split; [exact Eq |]. pose proof (before_mono pgs (S j) i ltac:(lia)). lia. }
  assert (Av : (g_avail (at_ (pages t) (Z.of_nat i)) =? 0) = false) by (apply Z.eqb_neq; lia).
  split.
  - unfold bufferedOnPage. rewrite (where_at t a gl _ i (l_recs _ _ _ _ _ _ _ _ _ I)); [rewrite Av; exact R1 | rewrite gl_len; lia | |].
    + cbv zeta. rewrite u64_id by lia. destruct (Z.ltb_spec k (g_first (at_ (pages t) (Z.of_nat i)))); [lia |]. destruct (Z.eqb_spec (g_count (at_ (pages t) (Z.of_nat i))) 0); [lia |].
      destruct (Z.ltb_spec (g_first (at_ (pages t) (Z.of_nat i)) + g_count (at_ (pages t) (Z.of_nat i)) - 1) k); [lia | reflexivity].
    + intros j Lj. cbv zeta. destruct (rec_at j ltac:(lia)) as (q & _ & Q1 & Q2 & Q3 & Q4 & _ & Q5 & Q6). cbv zeta in Q1, Q2, Q3. rewrite u64_id by lia.
      destruct (Old j Lj) as (_ & _ & O). destruct (Z.ltb_spec (g_first (at_ (pages t) (Z.of_nat j)) + g_count (at_ (pages t) (Z.of_nat j)) - 1) k); [| lia]. rewrite Bool.orb_true_r. apply Bool.andb_false_r.
  - unfold pageNumForKey. rewrite (where_at t a gl _ i (l_recs _ _ _ _ _ _ _ _ _ I)); [rewrite Av; exact R1 | rewrite gl_len; lia | |].
    + cbv zeta. rewrite u64_id by lia. destruct (Z.ltb_spec k (g_first (at_ (pages t) (Z.of_nat i)))); [lia |].
      destruct (Z.ltb_spec (g_first (at_ (pages t) (Z.of_nat i)) + g_count (at_ (pages t) (Z.of_nat i)) - 1) k); [lia | reflexivity].
    + intros j Lj. cbv zeta. destruct (rec_at j ltac:(lia)) as (q & _ & Q1 & Q2 & Q3 & Q4 & _ & Q5 & Q6). cbv zeta in Q1, Q2, Q3. rewrite u64_id by lia.
      destruct (Old j Lj) as (_ & _ & O). destruct (Z.ltb_spec (g_first (at_ (pages t) (Z.of_nat j)) + g_count (at_ (pages t) (Z.of_nat j)) - 1) k); [| lia]. apply Bool.andb_false_r.
Qed.
Lemma look_out k : before (List.length pgs) pgs <= k -> bufferedOnPage t k = INVALID_KEY_NUM /\ pageNumForKey t k = INVALID_KEY_NUM.
Proof.
  intros K. assert (Old : forall j, (a <= j < List.length gl)%nat -> u64 (g_first (at_ (pages t) (Z.of_nat j)) + g_count (at_ (pages t) (Z.of_nat j)) - 1) <? k = true).
  { intros j Lj. rewrite gl_len in Lj. destruct (rec_at j Lj) as (q & _ & Q1 & Q2 & Q3 & Q4 & _ & Q5 & Q6). cbv zeta in Q1, Q2, Q3. rewrite u64_id by lia. apply Z.ltb_lt.
    pose proof (before_mono pgs (S j) (List.length pgs) ltac:(lia)). lia. }
  split.
  - unfold bufferedOnPage. rewrite (where_none t a gl _ (l_recs _ _ _ _ _ _ _ _ _ I) a_le'); [reflexivity |]. intros j Lj. cbv zeta. rewrite (Old j Lj), Bool.orb_true_r. apply Bool.andb_false_r.
  - unfold pageNumForKey. rewrite (where_none t a gl _ (l_recs _ _ _ _ _ _ _ _ _ I) a_le'); [reflexivity |]. intros j Lj. cbv zeta. rewrite (Old j Lj). apply Bool.andb_false_r.
Qed.
Lemma forKey_ok k i : (a <= i < List.length pgs)%nat -> before i pgs <= k < before (S i) pgs -> forall n x res, (x + n = List.length pgs)%nat -> (a <= x)%nat ->
  forKey_loop n t k (Z.of_nat x) res = if (x <=? i)%nat then Z.of_nat i else res.
Proof.
  intros L K. induction n as [| n IH]; intros x res E La; cbn [forKey_loop]; [destruct (Nat.leb_spec x i); [lia | reflexivity] |].
  destruct (rec_at x ltac:(lia)) as (q & _ & Q1 & Q2 & Q3 & Q4 & _ & Q5 & Q6). cbv zeta in Q1, Q2, Q3, Q4.
  destruct (Z.eqb_spec (g_avail (at_ (pages t) (Z.of_nat x))) 0); [lia |].
  replace (Z.of_nat x + 1) with (Z.of_nat (S x)) by lia. destruct (Z.ltb_spec k (g_first (at_ (pages t) (Z.of_nat x)))) as [G | G].
  - destruct (Nat.leb_spec x i) as [Q | Q]; [| reflexivity]. pose proof (before_mono pgs x i Q). lia.
  - rewrite IH by lia. assert (x <= i)%nat. { destruct (Nat.leb_spec x i); [assumption |]. pose proof (before_mono pgs (S i) x ltac:(lia)). lia. }
    destruct (Nat.leb_spec x i); [| lia]. destruct (Nat.leb_spec (S x) i); [reflexivity | f_equal; lia].
Qed.
Lemma look_forKey i k : (a <= i < List.length pgs)%nat -> before i pgs <= k < before (S i) pgs -> getPageNumberForKey t k = before i pgs.
Proof.
  intros L K. unfold getPageNumberForKey. destruct (count_recs t a gl (l_recs _ _ _ _ _ _ _ _ _ I) a_le') as (C & D). rewrite C, D, gl_len.
  rewrite (forKey_ok k i L K) by lia. destruct (Nat.leb_spec a i); [| lia]. destruct (rec_at i L) as (q & _ & Q1 & _). exact Q1.
Qed.
Lemma look_next i : (a <= i < List.length pgs)%nat -> nextPageAvailable t (before i pgs) = (S i <? List.length pgs)%nat.
Proof.
  intros L. unfold nextPageAvailable. destruct (count_recs t a gl (l_recs _ _ _ _ _ _ _ _ _ I) a_le') as (C & D). rewrite C, D, gl_len.
  pose proof (first_where_spec (List.length pgs - a - 1) (Z.of_nat a) (fun i0 => g_first (at_ (pages t) i0) =? before i pgs)) as F.
  destruct (first_where _ _ _) as [x |].
  - destruct F as (F1 & F2 & F3). apply Z.eqb_eq in F2. destruct (rec_at (Z.to_nat x) ltac:(lia)) as (q & _ & Q1 & _). cbv zeta in Q1. rewrite Z2Nat.id in Q1 by lia. rewrite Q1 in F2.
    assert (X : Z.to_nat x = i). { destruct (Nat.lt_trichotomy (Z.to_nat x) i) as [G | [G | G]]; [| exact G |]; pose proof (first_mono _ _ _ _ _ _ _ _ _ I (Z.to_nat x) i); pose proof (first_mono _ _ _ _ _ _ _ _ _ I i (Z.to_nat x)); lia. }
    destruct (rec_at (S i) ltac:(lia)) as (q' & _ & _ & _ & _ & Q4 & _). cbv zeta in Q4. replace (Z.of_nat (S i)) with (x + 1) in Q4 by lia.
    destruct (Z.eqb_spec (g_avail (at_ (pages t) (x + 1))) 0); [lia |]. destruct (Nat.ltb_spec (S i) (List.length pgs)); [reflexivity | lia].
  - destruct (Nat.ltb_spec (S i) (List.length pgs)) as [G | G]; [| reflexivity]. exfalso. specialize (F (Z.of_nat i) ltac:(lia)). cbv beta in F. destruct (rec_at i L) as (q & _ & Q1 & _). cbv zeta in Q1. rewrite Q1, Z.eqb_refl in F. discriminate F.
Qed.
Lemma forTime_ok T : forall n x, (x + n = List.length pgs)%nat -> (a <= x)%nat -> (forall j p, nth_error pgs j = Some p -> (a <= j < x)%nat -> start ltime p <= T) ->
  exists i, (x <= i <= List.length pgs)%nat /\ (forall j p, nth_error pgs j = Some p -> (a <= j < i)%nat -> start ltime p <= T) /\
    (forall p, nth_error pgs i = Some p -> T < start ltime p) /\
    forTime_loop n t T (Z.of_nat x) (Z.of_nat (Nat.max a (x - 1))) = (Z.of_nat (Nat.max a (i - 1)), if (i <? List.length pgs)%nat then Some (before i pgs) else None).
Proof.
  induction n as [| n IH]; intros x E La Be; cbn [forTime_loop].
  - exists x. split; [lia |]. split; [exact Be |]. split; [intros p Ep; apply len_nth in Ep; lia |]. destruct (Nat.ltb_spec x (List.length pgs)); [lia | reflexivity].
  - destruct (rec_at x ltac:(lia)) as (q & Eq & Q1 & Q2 & Q3 & Q4 & Q7 & Q5 & Q6). cbv zeta in Q1, Q2, Q3, Q4, Q7.
    destruct (Z.eqb_spec (g_avail (at_ (pages t) (Z.of_nat x))) 0); [lia |]. rewrite Q7. destruct (Z.ltb_spec T (start ltime q)) as [G | G].
    + exists x. split; [lia |]. split; [exact Be |]. split; [intros p Ep; rewrite Ep in Eq; injection Eq as ->; exact G |]. rewrite Q1. destruct (Nat.ltb_spec x (List.length pgs)); [reflexivity | lia].
    + destruct (IH (S x)) as (i & I1 & I2 & I3 & I4); [lia | lia | |].
      { intros j p Ep Lj. destruct (Nat.eq_dec j x) as [-> |]; [rewrite Ep in Eq; injection Eq as ->; exact G | apply (Be j p Ep); lia]. }
      exists i. split; [lia |]. split; [exact I2 |]. split; [exact I3 |]. replace (Z.of_nat x + 1) with (Z.of_nat (S x)) by lia.
      replace (Z.of_nat (Nat.max a (S x - 1))) with (Z.of_nat x) in I4 by lia. exact I4.
Qed.
Lemma look_time T : pgs <> [] -> time_lookup t pgs a T.
Proof.
  intros N. pose proof (a_lt _ _ _ _ _ _ _ _ _ I N) as La. destruct (pgs_small _ _ _ _ _ _ _ _ _ I Sm) as (P1 & P2).
  destruct (forTime_ok T (List.length pgs - a) a ltac:(lia) ltac:(lia)) as (i & I1 & I2 & I3 & I4); [intros j p _ Lj; lia |].
  exists i. split; [exact I1 |]. split; [exact I2 |]. split; [exact I3 |].
  unfold getPageNumbersForTime. destruct (count_recs t a gl (l_recs _ _ _ _ _ _ _ _ _ I) a_le') as (C & D). rewrite C, D, gl_len. rewrite u32_id by lia.
  replace (Nat.max a (a - 1)) with a in I4 by lia. rewrite I4. destruct (rec_at (Nat.max a (i - 1)) ltac:(lia)) as (q & _ & Q1 & _). cbv zeta in Q1. rewrite Q1. reflexivity.
Qed.

(** When the keys are small enough nothing is dropped. *)
Lemma taken_all size : forall fs u, u + used fs <= size -> taken size u fs = fs.
Proof.
  induction fs as [| f fs IH]; intros u H; [reflexivity |]. cbn [taken]. unfold used in *. cbn [flat_map] in H. rewrite len_app in H.
  pose proof (len_nonneg (flat_map wire_packet fs)). destruct (Z.leb_spec (u + len (wire_packet f)) size); [| lia]. f_equal. apply IH. lia.
Qed.
Lemma key_total k : Forall (fun x => fields_ok (fst x) /\ len (wire_packet (fst x)) <= SIZE) k -> used (map fst k) = total sendSize (map pk k).
Proof.
  induction 1 as [| x k (F & _) _ IH]; [reflexivity |]. unfold used in *. cbn [flat_map map total fold_right]. rewrite len_app, IH, send_pk by exact F. reflexivity.
Qed.
Lemma all_held : roomy SIZE FLIP v (map pk ls) -> forall p, In p pgs -> held SIZE p = map fst (List.concat p).
Proof.
  intros Ro p Hp. unfold roomy in Ro. rewrite (groups_of _ _ _ _ _ _ _ _ _ I), Forall_forall in Ro.
  assert (G : forall q r, p = q ++ r -> held SIZE q = map fst (List.concat q)); [| apply (G p []); symmetry; apply app_nil_r].
  induction q as [| k q IH] using rev_ind; intros r E; [reflexivity |].
  rewrite <- app_assoc in E. specialize (IH ([k] ++ r) E). unfold held in *. rewrite concat_snoc, map_app, taken_app, IH. f_equal. apply taken_all.
  assert (Fl : used (map fst (List.concat q)) <= FLIP).
  { destruct (rev_case ([k] ++ r)) as [X | (r0 & k0 & X)]; [discriminate X |].
    pose proof (l_flip _ _ _ _ _ _ _ _ _ I (q ++ r0) k0) as Fl. rewrite <- app_assoc, <- X, <- E in Fl. specialize (Fl Hp). unfold wire_page, held in Fl.
    rewrite concat_app, map_app, taken_app, flat_map_app, len_app, IH in Fl. unfold used. match type of Fl with _ + ?z <= _ => assert (0 <= z) by apply len_nonneg end. lia. }
  rewrite (key_total k).
  - assert (Gk : FLIP + total sendSize (map pk k) <= SIZE). { apply Ro. apply in_map. apply in_concat. exists p. split; [exact Hp |]. rewrite E. apply in_or_app. right. left. reflexivity. }
    lia.
  - apply Forall_forall. intros x Hx. apply In_nth_error in Hp as (j & Ej). apply (page_pok _ _ _ _ _ _ _ _ _ I j p Ej k x); [rewrite E; apply in_or_app; right; left; reflexivity | exact Hx].
Qed.

(** A reader gets what is held. *)
Lemma buffer_held : forall fs w, len w <= SIZE -> exists m, bufferAll SIZE (w ++ repeat 0 (Z.to_nat (SIZE - len w)), len w) fs = Some m /\
  m = (let w' := w ++ flat_map wire_packet (taken SIZE (len w) fs) in (w' ++ repeat 0 (Z.to_nat (SIZE - len w')), len w')).
Proof.
  induction fs as [| f fs IH]; intros w L; cbn [bufferAll taken].
  - eexists. split; [reflexivity |]. cbn [flat_map]. rewrite app_nil_r. reflexivity.
  - rewrite page_next by lia. destruct (IH (added SIZE w f) ltac:(apply added_len; exact L)) as (m & E & ->). eexists. split; [exact E |].
    unfold added. destruct (_ <=? _); [| reflexivity]. rewrite len_app. cbn [flat_map]. rewrite !app_assoc. reflexivity.
Qed.
Lemma held_read p j : nth_error pgs j = Some p -> (a <= j)%nat -> exists m seen, shm s (before j pgs) = Some m /\
  follow (repeat m (List.length (held SIZE p))) 0 pnew = Ok seen /\ Forall2 reports seen (held SIZE p).
Proof.
  intros Ep L. destruct (nth_some gl j) as (g & Eg); [rewrite gl_len; eapply len_nth; exact Ep |]. destruct (l_rec _ _ _ _ _ _ _ _ _ I j p g Ep Eg L) as (_ & W1 & W2).
  pose proof (len_nonneg (wire_page SIZE p)).
  destruct (page_finished SIZE (map fst (List.concat p))) as (m & seen & B & _ & _ & _ & F1 & F2); [lia | |].
  { apply Forall_forall. intros f Hf. apply in_map_iff in Hf as (x & <- & Hx). apply in_concat in Hx as (k & Hk & Hx). apply (page_pok _ _ _ _ _ _ _ _ _ I j p Ep k x Hk Hx). }
  exists m, seen. split; [| split; [exact F1 | exact F2]]. rewrite W1. f_equal.
  destruct (buffer_held (map fst (List.concat p)) [] ltac:(change (len []) with 0; lia)) as (m' & B' & ->). change (len []) with 0 in B'. rewrite Z.sub_0_r in B'. cbn [app] in B'. rewrite B in B'. injection B' as ->. reflexivity.
Qed.
End Live.
