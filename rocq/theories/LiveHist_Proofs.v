From Verif Require Import Common CommonFacts CommonMore Dtsc_Spec Page_Model Page_Spec Page_Proofs PageRead_Proofs Meta_Model Meta_Spec Meta_Proofs MetaUpd_Proofs MetaRun_Proofs MetaFind_Model MetaView_Proofs MetaFind_Proofs Live_Model Live_Spec Live_Proofs LiveRun_Proofs.

Section Live.
Context (SIZE FLIP DURATION : Z) (HS : SIZE < 2 ^ 32) (HF : 0 <= FLIP).
Notation linv := (linv SIZE FLIP).
Notation pok := (fun x : lpacket => fields_ok (fst x) /\ len (wire_packet (fst x)) <= SIZE).

Definition matches (s : live) (ls : list lpacket) (pgs : list lpage) (open : bool) (last lastkey : Z) : Prop :=
  open = match cur s with Some _ => true | None => false end /\ last = lasttime (map pk ls) /\
  (open = true -> forall r p, pgs = r ++ [p] -> lastkey = last_time p).

Lemma flips_dec s time : flips FLIP DURATION s time \/ ~ flips FLIP DURATION s time.
Proof.
  unfold flips. destruct (cur s); [| left; exact Logic.I]. destruct (_ || _); [left; reflexivity | right; discriminate].
Qed.
Lemma last_time_snoc p k : last_time (p ++ [k]) = ltime k.
Proof. unfold last_time. rewrite rev_app_distr. reflexivity. Qed.

Lemma packet_step v s ls d pgs a gl open last lastkey f mf : linv v s ls d pgs a gl -> matches s ls pgs open last lastkey ->
  let k := if v then f_key f else negb open || (2047 <=? f_time f - lastkey) in
  let x := (set_key f k, mf) in
  last <= f_time f -> (k || open = true -> fields_ok (set_key f k) /\ small v (map pk ls ++ [pk x]) /\ len (wire_packet (set_key f k)) <= SIZE) ->
  exists s' pgs' gl', bufferLive SIZE FLIP DURATION s f mf = Done s' /\
    (if k || open then linv v s' (ls ++ [x]) d pgs' a gl' /\ matches s' (ls ++ [x]) pgs' true (f_time f) (if k then f_time f else lastkey) else s' = s).
Proof.
  intros I (M1 & M2 & M3) k x Ord Ok. unfold bufferLive.
  assert (Lm : lastms (tk s) = last) by (destruct (l_inv _ _ _ _ _ _ _ _ _ I) as (_ & (_ & _ & _ & _ & T & _) & _); rewrite M2; exact T).
  assert (Ek : isKey s f = k).
  { unfold isKey, k. rewrite (l_vid _ _ _ _ _ _ _ _ _ I). destruct v; [reflexivity |]. rewrite M1. destruct (cur s) as [c |] eqn:C; [| rewrite Bool.orb_true_r; reflexivity].
    destruct (last_page _ _ _ _ _ _ _ _ _ _ I C) as (r & p0 & k0 & rg & g & Ep & Eg & Lr & Lar & Ec & (Q1 & Q2 & Q3 & Q4 & Q5 & Q6) & _ & _).
    destruct (l_recs _ _ _ _ _ _ _ _ _ I) as (_ & E & _). assert (At := recs_at _ _ _ (List.length rg) g (l_recs _ _ _ _ _ _ _ _ _ I) ltac:(rewrite Eg; apply nth_mid) ltac:(lia)).
    rewrite E, Eg, app_length. cbn [List.length]. destruct (Z.eqb_spec (Z.of_nat (List.length rg + 1)) 0); [lia |]. cbn [orb negb].
    replace (Z.of_nat (List.length rg + 1) - 1) with (Z.of_nat (List.length rg)) by lia. rewrite At, Q6. rewrite (M3 ltac:(rewrite M1; reflexivity) r _ Ep), last_time_snoc.
    destruct (page_time _ _ _ _ _ _ _ _ _ I p0 k0 r Ep) as (_ & B). destruct (Ok ltac:(rewrite M1; apply Bool.orb_true_r)) as ((T0 & _) & _). cbn [set_key f_time] in T0.
    unfold AUDIO_KEY_INTERVAL. rewrite u64_id by lia. reflexivity. }
  rewrite Ek. cbn [set_key f_time f_key]. fold (set_key f k). rewrite Lm. destruct (Z.ltb_spec (f_time f) last) as [L | L]; [lia |].
  assert (Ord' : lasttime (map pk ls) <= f_time (set_key f k)) by (rewrite <- M2; exact Ord).
  assert (Cs : forall s', cur s' <> None -> true = match cur s' with Some _ => true | None => false end) by (intros s' Hs; destruct (cur s'); [reflexivity | congruence]).
  assert (Lt : f_time f = lasttime (map pk (ls ++ [x]))) by (rewrite map_app; cbn [map]; rewrite lasttime_snoc; reflexivity).
  destruct k eqn:Kk.
  - destruct (Ok eq_refl) as (O1 & O2 & O3). destruct (flips_dec s (f_time f)) as [Fl | Fl].
    + destruct (packet_fresh SIZE FLIP DURATION HS HF v s ls d pgs a gl I (set_key f true) mf O1 O3 Ord' O2 eq_refl Fl) as (s1 & i & s' & gl' & E1 & E2 & C' & I').
      cbn [set_key f_time] in E1, E2. rewrite E1. fold (set_key f true) in E2. exists s', (pgs ++ [[[x]]]), gl'. split; [exact E2 |]. cbn [orb]. split; [exact I' |].
      split; [apply Cs; exact C' |]. split; [exact Lt |]. intros _ r p E. apply app_inj_tail in E as (_ & <-). reflexivity.
    + destruct (cur s) as [c |] eqn:C; [| exfalso; apply Fl; unfold flips; rewrite C; exact Logic.I].
      destruct (packet_key SIZE FLIP DURATION HS v s ls d pgs a gl I (set_key f true) mf O1 O3 Ord' O2 c eq_refl C Fl) as (i & s' & gl' & r & p & E1 & E2 & C' & Ep & I').
      cbn [set_key f_time] in E1, E2. rewrite E1. fold (set_key f true) in E2. exists s', (r ++ [p ++ [[x]]]), gl'. split; [exact E2 |]. cbn [orb]. split; [exact I' |].
      split; [apply Cs; exact C' |]. split; [exact Lt |]. intros _ r0 p1 E. apply app_inj_tail in E as (_ & <-). rewrite last_time_snoc. reflexivity.
  - cbn [orb] in Ok |- *. destruct (cur s) as [c |] eqn:C; rewrite M1 in *.
    + destruct (Ok eq_refl) as (O1 & O2 & O3).
      destruct (packet_more SIZE FLIP DURATION HS v s ls d pgs a gl I (set_key f false) mf O1 O3 Ord' O2 c eq_refl C) as (s' & gl' & r & p0 & k0 & E2 & C' & Ep & I').
      { intros -> r p Ep. subst k. rewrite M1 in Kk. cbn [negb orb] in Kk. apply Z.leb_gt in Kk. rewrite (M3 eq_refl r p Ep) in Kk. exact Kk. }
      exists s', (r ++ [p0 ++ [k0 ++ [x]]]), gl'. split; [exact E2 |]. split; [exact I' |].
      split; [apply Cs; exact C' |]. split; [exact Lt |]. intros _ r0 p1 E. apply app_inj_tail in E as (_ & <-). rewrite (M3 eq_refl r _ Ep), !last_time_snoc.
      destruct k0 as [| y k0]; [| reflexivity]. exfalso. apply (keys_ne _ v ls (l_grp _ _ _ _ _ _ _ _ _ I) (p0 ++ [[]]) []); [rewrite Ep; apply in_or_app; right; left; reflexivity | apply in_or_app; right; left; reflexivity | reflexivity].
    + exists s, pgs, gl. split; [| reflexivity]. unfold append. rewrite C. reflexivity.
Qed.

Lemma page_pok v s ls d pgs a gl : linv v s ls d pgs a gl -> forall j p, nth_error pgs j = Some p -> forall k x, In k p -> In x k -> pok x.
Proof.
  intros I j p Ep k x Hk Hx. pose proof (l_ok _ _ _ _ _ _ _ _ _ I) as O. rewrite Forall_forall in O. apply O. rewrite <- (l_cat _ _ _ _ _ _ _ _ _ I).
  apply in_concat. exists k. split; [| exact Hx]. apply in_concat. exists p. split; [eapply nth_error_In; exact Ep | exact Hk].
Qed.
Lemma evict_step v s ls d pgs a gl : linv v s ls d pgs a gl -> (List.length (map pk ls) < Z.to_nat (2 ^ 31))%nat -> Forall packet_ok (map pk ls) -> newest_kept v (map pk ls) d ->
  exists s' a', evictKey s = Done s' /\ linv v s' ls (S d) pgs a' gl /\ cur s' = cur s.
Proof.
  intros I Sm Pok NK. pose proof (l_vid _ _ _ _ _ _ _ _ _ I) as V. pose proof (l_recs _ _ _ _ _ _ _ _ _ I) as H. pose proof (l_ring _ _ _ _ _ _ _ _ _ I) as R.
  pose proof (l_len _ _ _ _ _ _ _ _ _ I) as Ll. rewrite <- V in NK.
  destruct (removeFirstKey_ok _ _ _ (l_inv _ _ _ _ _ _ _ _ _ I) Sm Pok NK) as (t1 & g0 & Eg0 & E & I1 & Pg & V1).
  pose proof (kept_key _ _ _ (newest_kept_kept _ _ _ NK)) as KK. rewrite V in KK.
  assert (Kn : Z.of_nat (S d) < before (List.length pgs) pgs). { rewrite <- (groups_num _ _ _ _ _ _ _ _ _ I). destruct KK as [KK | (_ & KK)]; [lia | discriminate KK]. }
  assert (Np : pgs <> []) by (intros ->; cbn in Kn; lia).
  assert (Nl : ls <> []) by (intros X; apply Np, (pgs_nil _ _ _ _ _ _ _ _ _ I), X).
  pose proof (a_lt _ _ _ _ _ _ _ _ _ I Np) as La. pose proof (l_win _ _ _ _ _ _ _ _ _ I Nl) as W.
  destruct (pgs_small _ _ _ _ _ _ _ _ _ I Sm) as (P1 & P2).
  destruct (nth_some gl a ltac:(lia)) as (g & Eg). destruct (nth_some pgs a La) as (p & Ep).
  destruct (first_at _ _ _ _ _ _ _ _ _ I a g Eg (Nat.le_refl _)) as (F1 & F2 & F3).
  destruct (l_rec _ _ _ _ _ _ _ _ _ I a p g Ep Eg (Nat.le_refl _)) as ((_ & _ & _ & Av & _) & _).
  assert (Av0 : (g_avail g =? 0) = false).
  { apply Z.eqb_neq. rewrite Av. pose proof (l_ne _ _ _ _ _ _ _ _ _ I) as N. rewrite Forall_forall in N. pose proof (wire_pos SIZE p (N p (nth_error_In _ _ Ep)) (fun k => keys_ne _ v ls (l_grp _ _ _ _ _ _ _ _ _ I) p k (nth_error_In _ _ Ep)) (page_pok _ _ _ _ _ _ _ I a p Ep)). lia. }
  pose proof (before_bound pgs a) as Bb. pose proof (before_mono pgs (S a) (List.length pgs) ltac:(lia)) as Bm.
  unfold evictKey. rewrite E. unfold evict_pages. rewrite Pg. assert (Da : t_del (pages (tk s)) = Z.of_nat a) by apply H. rewrite Da.
  rewrite (u32_id (Z.of_nat a)) by lia. rewrite (recs_at _ _ _ a g H Eg (Nat.le_refl _)), F2, u32_id, u64_id, Av0 by lia.
  destruct (Z.leb_spec (before (S a) pgs) (Z.of_nat d + 1)) as [L | L].
  - destruct (delete_ok _ a 1 gl _ R H ltac:(lia)) as (q & Eq & Rq & Hq & _). change (Z.of_nat 1) with 1 in Eq. rewrite Eq. cbn [fst snd].
    eexists. exists (S a). split; [reflexivity |]. cbn [cur]. split; [| reflexivity]. replace (a + 1)%nat with (S a) in Hq by lia.
    assert (Sa : (S a < List.length pgs)%nat). { destruct (Nat.eq_dec (S a) (List.length pgs)) as [X | X]; [| lia]. rewrite X in L. lia. }
    constructor; cbn [tk cur shm with_pages pages video].
    + exact I1.
    + rewrite V1. exact V.
    + exact Rq.
    + exact Hq.
    + exact Ll.
    + intros j p' g' E1 E2 Lj. destruct (l_rec _ _ _ _ _ _ _ _ _ I j p' g' E1 E2 ltac:(lia)) as (X1 & X2 & X3). split; [exact X1 |]. split; [| exact X3].
      unfold set_shm. pose proof (first_mono _ _ _ _ _ _ _ _ _ I a j) as M. assert (j < List.length pgs)%nat by (eapply len_nth; exact E1). specialize (M ltac:(lia)).
      destruct (Z.eqb_spec (before j pgs) (g_first g)); [lia | exact X2].
    + exact (l_cat _ _ _ _ _ _ _ _ _ I).
    + exact (l_grp _ _ _ _ _ _ _ _ _ I).
    + exact (l_ne _ _ _ _ _ _ _ _ _ I).
    + intros _. pose proof (first_mono _ _ _ _ _ _ _ _ _ I (S a) (S (S a)) ltac:(lia)). lia.
    + intros X. congruence.
    + intros n Hn. unfold set_shm in Hn. destruct (Z.eqb_spec n (g_first g)); [congruence |]. destruct (l_shm _ _ _ _ _ _ _ _ _ I n Hn) as (j & Hj & ->).
      exists j. split; [| reflexivity]. destruct (Nat.eq_dec j a) as [-> |]; [congruence | lia].
    + exact (l_cur _ _ _ _ _ _ _ _ _ I).
    + exact (l_flip _ _ _ _ _ _ _ _ _ I).
    + exact (l_ok _ _ _ _ _ _ _ _ _ I).
  - eexists. exists a. split; [reflexivity |]. cbn [cur fst snd]. split; [| reflexivity]. destruct I. constructor; cbn [tk cur shm]; try assumption; rewrite ?Pg; try assumption.
    + rewrite V1. exact V.
    + intros _. lia.
Qed.

Lemma stored_prefix v ops1 ops2 : forall open last lastkey, exists z, stored v open last lastkey (ops1 ++ ops2) = stored v open last lastkey ops1 ++ z.
Proof.
  induction ops1 as [| o ops1 IH]; intros open last lastkey; cbn [app stored]; [eauto |]. destruct o as [f m | |]; try apply IH.
  destruct (_ <? _); [apply IH |]. destruct (_ || open); [| apply IH]. destruct (IH true (f_time f) (if (if v then f_key f else negb open || (2047 <=? f_time f - lastkey)) then f_time f else lastkey)) as (z & ->). exists z. reflexivity.
Qed.
Lemma live_run v ops : forall s ls d pgs a gl open last lastkey, linv v s ls d pgs a gl -> matches s ls pgs open last lastkey ->
  lfits SIZE v (ls ++ stored v open last lastkey ops) ->
  (forall pre post, ops = pre ++ LEvict :: post -> newest_kept v (map pk (ls ++ stored v open last lastkey pre)) (d + levictions pre)) ->
  exists s' pgs' a' gl', lrun SIZE FLIP DURATION s ops = Done s' /\ linv v s' (ls ++ stored v open last lastkey ops) (d + levictions ops) pgs' a' gl'.
Proof.
  induction ops as [| o ops IH]; intros s ls d pgs a gl open last lastkey I M Fi Lg.
  { exists s, pgs, a, gl. cbn [stored lrun]. change (levictions []) with 0%nat. rewrite app_nil_r, Nat.add_0_r. auto. }
  cbn [lrun]. destruct o as [f m | |]; cbn [lstep stored] in *.
  - assert (Lv : levictions (LPacket f m :: ops) = levictions ops) by reflexivity. rewrite Lv.
    destruct (Z.ltb_spec (f_time f) last) as [L | L].
    + assert (Es : bufferLive SIZE FLIP DURATION s f m = Done s).
      { unfold bufferLive. cbn [set_key f_time]. destruct M as (_ & M2 & _). replace (lastms (tk s)) with last by (destruct (l_inv _ _ _ _ _ _ _ _ _ I) as (_ & (_ & _ & _ & _ & T & _) & _); rewrite M2; symmetry; exact T).
        destruct (Z.ltb_spec (f_time f) last); [reflexivity | lia]. }
      rewrite Es. apply (IH s ls d pgs a gl); try assumption. intros pre post E. specialize (Lg (LPacket f m :: pre) post ltac:(rewrite E; reflexivity)). cbn [stored] in Lg.
      destruct (Z.ltb_spec (f_time f) last); [exact Lg | lia].
    + set (k := if v then f_key f else negb open || (2047 <=? f_time f - lastkey)) in *.
      destruct (packet_step v s ls d pgs a gl open last lastkey f m I M L) as (s' & pgs' & gl' & E & Post).
      { fold k. intros Hk. rewrite Hk in Fi. destruct Fi as (F1 & F2). rewrite map_app in F1. cbn [map] in F1.
        change (pk (set_key f k, m) :: ?y) with ([pk (set_key f k, m)] ++ y) in F1. rewrite app_assoc in F1.
        apply Forall_app in F2 as (_ & F2). inversion F2 as [| ? ? (F3 & F4) _]. split; [exact F3 |]. split; [exact (F1 _ _ eq_refl) | exact F4]. }
      fold k in Post. rewrite E. destruct (k || open) eqn:Ko.
      * destruct Post as (I' & M'). destruct (IH s' _ d pgs' a gl' true (f_time f) (if k then f_time f else lastkey) I' M') as (s2 & pgs2 & a2 & gl2 & E2 & I2).
        { rewrite <- app_assoc. exact Fi. }
        { intros pre post E'. specialize (Lg (LPacket f m :: pre) post ltac:(rewrite E'; reflexivity)). cbn [stored] in Lg. destruct (Z.ltb_spec (f_time f) last); [lia |]. fold k in Lg. rewrite Ko in Lg. rewrite <- app_assoc. exact Lg. }
        exists s2, pgs2, a2, gl2. split; [exact E2 |]. rewrite <- app_assoc in I2. exact I2.
      * subst s'. apply (IH s ls d pgs a gl); try assumption. intros pre post E'. specialize (Lg (LPacket f m :: pre) post ltac:(rewrite E'; reflexivity)). cbn [stored] in Lg.
        destruct (Z.ltb_spec (f_time f) last); [lia |]. fold k in Lg. rewrite Ko in Lg. exact Lg.
  - assert (Fi' := Fi). destruct Fi' as (F1 & _). rewrite map_app in F1. destruct (F1 _ _ eq_refl) as (S1 & S2 & _).
    destruct (evict_step v s ls d pgs a gl I S1 S2) as (s' & a' & E & I' & C'). { specialize (Lg [] ops eq_refl). cbn [stored] in Lg. change (levictions []) with 0%nat in Lg. rewrite app_nil_r, Nat.add_0_r in Lg. exact Lg. }
    rewrite E. assert (M' : matches s' ls pgs open last lastkey) by (unfold matches; rewrite C'; exact M).
    assert (Lv : forall l, (d + levictions (LEvict :: l))%nat = (S d + levictions l)%nat) by (intros l; unfold levictions; cbn [filter List.length]; lia). rewrite Lv.
    apply (IH s' ls (S d) pgs a' gl); try assumption. intros pre post E'. specialize (Lg (LEvict :: pre) post ltac:(rewrite E'; reflexivity)). rewrite Lv in Lg. exact Lg.
  - destruct M as (M1 & M2 & M3). change (levictions (LClose :: ops)) with (levictions ops).
    apply (IH (liveFinalize s) ls d pgs a gl false last lastkey).
    + destruct I. constructor; cbn [liveFinalize tk cur shm]; try assumption. exact Logic.I.
    + split; [reflexivity |]. split; [exact M2 | discriminate].
    + exact Fi.
    + intros pre post E'. exact (Lg (LClose :: pre) post ltac:(rewrite E'; reflexivity)).
Qed.

Lemma new_linv v a b c e : 1 <= a < 2 ^ 32 -> 1 <= b < 2 ^ 32 -> 1 <= c < 2 ^ 32 -> 1 <= e < 2 ^ 32 -> linv v (newLive v a b c e) [] 0 [] 0 [].
Proof.
  intros H1 H2 H3 H4. constructor; cbn [newLive tk cur shm]; try reflexivity; try congruence.
  - apply new_inv; assumption.
  - unfold newTrack, emptyTbl, ringok. cbn [pages t_rc t_start t_del t_pres t_end t_cell]. repeat split; lia.
  - cbn. repeat split; try (intros [| i] x; discriminate).
  - intros [| j] p g X; discriminate X.
  - constructor.
  - intros p0 k [].
  - constructor.
Qed.
Lemma linv_layout v s ls d pgs a gl : linv v s ls d pgs a gl -> layout SIZE FLIP v s ls d pgs a.
Proof.
  intros I. destruct (l_recs _ _ _ _ _ _ _ _ _ I) as (D & E & _). rewrite (l_len _ _ _ _ _ _ _ _ _ I) in E. unfold layout.
  split; [apply I |]. split; [apply I |]. split; [apply I |]. split; [exact D |]. split; [exact E |]. split.
  { intros j p Ep L. destruct (nth_some gl j) as (g & Eg); [rewrite (l_len _ _ _ _ _ _ _ _ _ I); eapply len_nth; exact Ep |].
    destruct (l_rec _ _ _ _ _ _ _ _ _ I j p g Ep Eg L) as ((Q1 & Q2 & Q3 & Q4 & Q5 & Q6) & W1 & W2). unfold page_holds. cbv zeta.
    rewrite (recs_at _ _ _ j g (l_recs _ _ _ _ _ _ _ _ _ I) Eg L). rewrite <- Q1 in W1.
    pose proof (l_ne _ _ _ _ _ _ _ _ _ I) as N. rewrite Forall_forall in N. pose proof (wire_pos SIZE p (N p (nth_error_In _ _ Ep)) (fun k => keys_ne _ v ls (l_grp _ _ _ _ _ _ _ _ _ I) p k (nth_error_In _ _ Ep)) (page_pok _ _ _ _ _ _ _ I j p Ep)).
    unfold full in W1. assert (0 < len (wire_page SIZE p)) by lia. auto 14. }
  split; [apply I |]. split; [apply I |]. split; [apply I |]. apply I.
Qed.
Lemma live_all v ops a b c e : 1 <= a < 2 ^ 32 -> 1 <= b < 2 ^ 32 -> 1 <= c < 2 ^ 32 -> 1 <= e < 2 ^ 32 -> lfits SIZE v (all_stored v ops) -> llegal v ops ->
  exists s pgs k gl, lrun SIZE FLIP DURATION (newLive v a b c e) ops = Done s /\ linv v s (all_stored v ops) (levictions ops) pgs k gl.
Proof.
  intros H1 H2 H3 H4 Fi Lg. destruct (live_run v ops _ [] 0 [] 0 [] false 0 0 (new_linv v a b c e H1 H2 H3 H4)) as (s & pgs & k & gl & E & I); [| exact Fi | exact Lg |].
  - split; [reflexivity |]. split; [reflexivity | discriminate].
  - exists s, pgs, k, gl. split; [exact E | exact I].
Qed.
End Live.
