(** Proofs about the window of a live stream. *)
From Verif Require Import Common CommonFacts CommonMore Dtsc_Spec Page_Model Page_Spec Meta_Model Meta_Spec Meta_Proofs MetaUpd_Proofs MetaRun_Proofs MetaFind_Model MetaFind_Spec MetaView_Proofs MetaFind_Proofs MetaLim_Proofs Live_Model Live_Spec Live_Proofs LiveRun_Proofs LiveHist_Proofs LiveLook_Proofs Window_Model Window_Spec.

(** * Packets of a live track are in order *)
Lemma stored_ge v ops : forall open last lastkey x, In x (stored v open last lastkey ops) -> last <= p_time (pk x).
Proof.
  induction ops as [| o ops IH]; intros open last lastkey x H; cbn [stored] in H; [destruct H |].
  destruct o as [f m | |]; [| eapply IH; exact H | eapply IH; exact H].
  destruct (Z.ltb_spec (f_time f) last) as [L | L]; [eapply IH; exact H |].
  destruct (_ || open); [| eapply IH; exact H]. destruct H as [<- | H]; [exact L |]. specialize (IH _ _ _ _ H). lia.
Qed.
Lemma stored_sorted v ops : forall open last lastkey i j x y, nth_error (stored v open last lastkey ops) i = Some x -> nth_error (stored v open last lastkey ops) j = Some y ->
  (i <= j)%nat -> p_time (pk x) <= p_time (pk y).
Proof.
  induction ops as [| o ops IH]; intros open last lastkey i j x y Hi Hj L; cbn [stored] in *; [destruct i; discriminate |].
  destruct o as [f m | |]; [| eapply IH; eassumption | eapply IH; eassumption].
  destruct (_ <? _); [eapply IH; eassumption |]. destruct (_ || open); [| eapply IH; eassumption].
  destruct i as [| i], j as [| j]; cbn [nth_error] in *.
  - injection Hi as <-. injection Hj as <-. lia.
  - injection Hi as <-. apply nth_error_In in Hj. apply stored_ge in Hj. exact Hj.
  - lia.
  - eapply IH; [exact Hi | exact Hj | lia].
Qed.
Definition sorted (ps : list packet) : Prop := forall i j p q, nth_error ps i = Some p -> nth_error ps j = Some q -> (i <= j)%nat -> p_time p <= p_time q.
Lemma stored_all v ops : sorted (map pk (all_stored v ops)).
Proof.
  intros i j p q Hi Hj L. rewrite nth_error_map in Hi, Hj. unfold all_stored in *.
  destruct (nth_error (stored v false 0 0 ops) i) as [x |] eqn:Ex; [| discriminate Hi]. destruct (nth_error (stored v false 0 0 ops) j) as [y |] eqn:Ey; [| discriminate Hj].
  injection Hi as <-. injection Hj as <-. eapply stored_sorted; eassumption.
Qed.
Lemma stored_evicts v n : forall ops open last lastkey, stored v open last lastkey (ops ++ repeat LEvict n) = stored v open last lastkey ops.
Proof.
  induction ops as [| o ops IH]; intros open last lastkey; cbn [app stored].
  - induction n as [| n IHn]; [reflexivity |]. exact IHn.
  - destruct o as [f m | |]; [| apply IH | apply IH]. rewrite !IH. reflexivity.
Qed.
Lemma levictions_app a b : levictions (a ++ b) = (levictions a + levictions b)%nat.
Proof. unfold levictions. rewrite filter_app, app_length. reflexivity. Qed.
Lemma levictions_rep n : levictions (repeat LEvict n) = n.
Proof. induction n as [| n IH]; [reflexivity |]. unfold levictions in *. cbn [repeat filter List.length]. congruence. Qed.

Lemma lrun_app SIZE FLIP DURATION : forall a b s s', lrun SIZE FLIP DURATION s a = Done s' -> lrun SIZE FLIP DURATION s (a ++ b) = lrun SIZE FLIP DURATION s' b.
Proof.
  induction a as [| o a IH]; intros b s s' E; cbn [lrun app] in *; [injection E as <-; reflexivity |].
  destruct (lstep SIZE FLIP DURATION s o) as [| | s1]; try discriminate. apply IH. exact E.
Qed.

Lemma firstn_exact {A} (a b : list A) : firstn (List.length a) (a ++ b) = a.
Proof. rewrite firstn_app, firstn_all, Nat.sub_diag. apply app_nil_r. Qed.
Lemma firstn_same {A} (a b c e : list A) : a ++ b = c ++ e -> (List.length a <= List.length c)%nat -> firstn (List.length a) c = a.
Proof.
  intros E L. pose proof (f_equal (firstn (List.length a)) E) as X. rewrite firstn_exact, firstn_app in X. replace (List.length a - List.length c)%nat with O in X by lia.
  cbn [firstn] in X. rewrite app_nil_r in X. congruence.
Qed.

(** * What the check says *)
Lemma biggest_spec (f : tbl frag) : forall n i r, 0 <= r ->
  r <= biggest n f i r /\ (forall j, i <= j < i + Z.of_nat n -> f_dur (at_ f j) <= biggest n f i r) /\
  (biggest n f i r = r \/ exists j, i <= j < i + Z.of_nat n /\ biggest n f i r = f_dur (at_ f j)).
Proof.
  induction n as [| n IH]; intros i r R; cbn [biggest]. { split; [lia |]. split; [intros; lia | left; reflexivity]. }
  set (r' := if r <? f_dur (at_ f i) then f_dur (at_ f i) else r).
  assert (R' : r <= r' /\ f_dur (at_ f i) <= r' /\ (r' = r \/ r' = f_dur (at_ f i))) by (unfold r'; destruct (Z.ltb_spec r (f_dur (at_ f i))); lia).
  destruct (IH (i + 1) r' ltac:(lia)) as (A & B & C). split; [lia |]. split.
  - intros j Hj. destruct (Z.eq_dec j i) as [-> |]; [lia | apply B; lia].
  - destruct C as [C | (j & Hj & C)]; [| right; exists j; split; [lia | exact C]].
    destruct R' as (_ & _ & [Q | Q]); [left; congruence | right; exists i; split; [lia | congruence]].
Qed.

Section One.
Context (t : track) (ps : list packet) (d : nat).
Context (I : inv t ps d) (Sm : (List.length ps < Z.to_nat (2 ^ 31))%nat) (Po : Forall packet_ok ps) (So : sorted ps).
Context (Fr : forall j f h, nth_error (fragments (groups (video t) ps)) j = Some f -> nth_error (fragments (groups (video t) ps)) (S j) = Some h -> ftime h - ftime f < 2 ^ 32).
Context (Ne : ps <> []).
Lemma one_view : view t ps d.
Proof. apply view_of; assumption. Qed.

Local Notation GS := (groups (video t) ps).
Local Notation FS := (fragments GS).
Local Notation AA := (expired d FS).
Lemma check_spec bt : 0 <= bt < 2 ^ 64 -> exists m, longest (video t) ps AA m /\ 0 <= m < 2 ^ 32 /\
  removable t true bt = (5 <=? Z.of_nat (List.length FS) - Z.of_nat AA) && (bt <=? lasttime ps - key_time GS (Z.of_nat d)) &&
    (8 * ((m / 1000 + 1) * 1000) <=? frag_time FS (Z.of_nat (List.length FS) - 1) - frag_time FS (Z.of_nat AA)).
Proof.
  intros Hb. assert (LT := lasttime_at ps Ne). pose proof one_view as W. destruct I as (_ & T & _). destruct T as (_ & _ & _ & T1 & T2 & _).
  assert (FT : firstms t = key_time GS (Z.of_nat d)) by (rewrite T1; unfold key_time; rewrite Nat2Z.id; reflexivity).
  pose proof Fr as Fr'. viewd W W'. rewrite <- EG in *|-. rewrite <- EF in *|-. rewrite <- EG, <- EF, ED, EM, EA. rewrite ED in FT. rewrite EN in LT.
  assert (Sfr : forall i, A <= i -> i + 1 < M -> 0 <= frag_time fs (i + 1) - frag_time fs i < 2 ^ 32).
  { intros i H1 H2. rewrite !(v_fragtime W') by qlia. pose proof (v_gmono W' i (i + 1) ltac:(qlia) ltac:(qlia)) as Q.
    assert (0 <= G i) by (destruct (Z.eq_dec i A) as [-> |]; [qlia | pose proof (v_gmono W' A i ltac:(qlia) ltac:(qlia)); qlia]).
    assert (G (i + 1) < K) by (pose proof (v_gmono W' (i + 1) M ltac:(qlia) ltac:(qlia)); qlia).
    pose proof (v_fmono W' (G i) (G (i + 1)) ltac:(qlia) ltac:(qlia)) as Q2. pose proof (v_fmono W' (G (i + 1)) K ltac:(qlia) ltac:(qlia)).
    assert (0 <= F (G i)). { destruct (Z.eq_dec (G i) 0) as [-> |]; [qlia |]. pose proof (v_fmono W' 0 (G i) ltac:(qlia) ltac:(qlia)). qlia. }
    pose proof (v_sorted W' (F (G i)) (F (G (i + 1))) ltac:(qlia) ltac:(qlia)). split; [qlia |].
    destruct (nth_some fs (Z.to_nat i) ltac:(qlia)) as (f & Ef). destruct (nth_some fs (S (Z.to_nat i)) ltac:(qlia)) as (h & Eh).
    pose proof (Fr' _ f h Ef Eh) as Z1. rewrite <- !(v_fragtime W') by qlia. unfold frag_time. rewrite Ef. replace (Z.to_nat (i + 1)) with (S (Z.to_nat i)) by qlia. rewrite Eh. exact Z1. }
  pose proof (biggest_spec (frags t) (Z.to_nat (M - A)) A 0 ltac:(lia)) as (B1 & B2 & B3). set (m := biggest (Z.to_nat (M - A)) (frags t) A 0) in *.
  assert (Dur : forall i, A <= i < M -> f_dur (at_ (frags t) i) = if i + 1 =? M then 0 else frag_time fs (i + 1) - frag_time fs i).
  { intros i Hi. rewrite (v_fdur W') by exact Hi. destruct (Z.eqb_spec (i + 1) M); [reflexivity |]. rewrite !(v_fragtime W') by qlia. reflexivity. }
  assert (Lm : longest (video t) ps (Z.to_nat A) m).
  { unfold longest. rewrite <- EG, <- EF, EM, Z2Nat.id by qlia. split.
    - intros j H1 H2. specialize (B2 j ltac:(qlia)). rewrite Dur in B2 by qlia. destruct (Z.eqb_spec (j + 1) M); [qlia | exact B2].
    - destruct B3 as [B3 | (j & Hj & B3)]; [left; exact B3 |]. rewrite Dur in B3 by qlia. destruct (Z.eqb_spec (j + 1) M); [left; exact B3 |].
      right. exists j. split; [qlia |]. split; [qlia | symmetry; exact B3]. }
  assert (Bm : 0 <= m < 2 ^ 32).
  { split; [exact B1 |]. destruct B3 as [-> | (j & Hj & ->)]; [reflexivity |]. rewrite Dur by qlia. destruct (Z.eqb_spec (j + 1) M); [reflexivity |]. apply Sfr; qlia. }
  exists m. split. { rewrite <- EA in Lm. rewrite Nat2Z.id in Lm. exact Lm. } split; [exact Bm |].
  unfold removable. rewrite v_del, v_end, v_fdel, v_fend. fold m. destruct (Z.eqb_spec K D); [qlia |].
  assert (MS : M < 2 ^ 31). { rewrite <- EM. rewrite EF, EG. pose proof (fragments_len (groups (video t) ps)). pose proof (groups_len (video t) ps). qlia. }
  rewrite T2, LT, FT. rewrite (v_keytime W') by qlia.
  pose proof (v_range W' (N - 1)) as R1. pose proof (v_range W' (F D)) as R2.
  assert (R3 : time_at ps (F D) <= time_at ps (N - 1)).
  { pose proof (v_fmono W' D K ltac:(qlia) ltac:(qlia)). apply (v_sorted W'); qlia. }
  assert (Fe : forall i, A <= i < M -> k_time (at_ (keys t) (f_first (at_ (frags t) i))) = frag_time fs i).
  { intros i Hi. rewrite (v_ffirst W') by exact Hi. assert (D <= G i) by (destruct (Z.eq_dec i A) as [-> |]; [qlia | pose proof (v_gmono W' A i ltac:(qlia) ltac:(qlia)); qlia]).
    pose proof (v_gmono W' i M ltac:(qlia) ltac:(qlia)). rewrite (v_ktime W') by qlia. rewrite (v_fragtime W') by qlia. reflexivity. }
  unfold u64, u32. rewrite (Z.mod_small (M - A)) by qlia. rewrite (Z.mod_small (time_at ps (N - 1) - time_at ps (F D))) by qlia.
  rewrite (Z.mod_small A), (Z.mod_small M) by qlia. rewrite (Z.mod_small (M - A)) by qlia.
  destruct (Z.ltb_spec (M - A) 5), (Z.leb_spec 5 (M - A)); try (exfalso; qlia); [reflexivity |]. cbn [andb].
  destruct (Z.ltb_spec (time_at ps (N - 1) - time_at ps (F D)) bt), (Z.leb_spec bt (time_at ps (N - 1) - time_at ps (F D))); try (exfalso; qlia); [reflexivity |]. cbn [andb].
  destruct (Z.ltb_spec 2 (M - A)); [| qlia].
  rewrite (Z.mod_small (M - 1)) by qlia. rewrite !Fe by qlia.
  assert (0 <= m / 1000 <= m) by (split; [apply Z.div_pos; qlia | apply Z.div_le_upper_bound; qlia]).
  rewrite (Z.mod_small ((m / 1000 + 1) * 1000)) by qlia. rewrite (Z.mod_small ((m / 1000 + 1) * 1000 * 8)) by qlia.
  assert (R4 : 0 <= frag_time fs (M - 1) - frag_time fs A < 2 ^ 64).
  { rewrite !(v_fragtime W') by qlia. pose proof (v_range W' (F (G (M - 1)))). pose proof (v_range W' (F (G A))). split; [| qlia].
    pose proof (v_gmono W' A (M - 1) ltac:(qlia) ltac:(qlia)). pose proof (v_gmono W' (M - 1) M ltac:(qlia) ltac:(qlia)).
    pose proof (v_fmono W' (G A) (G (M - 1)) ltac:(qlia) ltac:(qlia)). pose proof (v_fmono W' (G (M - 1)) K ltac:(qlia) ltac:(qlia)).
    assert (0 <= F (G A)). { destruct (Z.eq_dec (G A) 0) as [-> |]; [qlia |]. pose proof (v_fmono W' 0 (G A) ltac:(qlia) ltac:(qlia)). qlia. }
    pose proof (v_sorted W' (F (G A)) (F (G (M - 1))) ltac:(qlia) ltac:(qlia)). qlia. }
  rewrite (Z.mod_small (frag_time _ _ - _)) by exact R4.
  destruct (Z.ltb_spec (frag_time fs (M - 1) - frag_time fs A) ((m / 1000 + 1) * 1000 * 8)), (Z.leb_spec (8 * ((m / 1000 + 1) * 1000)) (frag_time fs (M - 1) - frag_time fs A)); try (exfalso; qlia); reflexivity.
Qed.
End One.
Lemma longest_unique v ps a m m' : longest v ps a m -> longest v ps a m' -> 0 <= m -> 0 <= m' -> m = m'.
Proof.
  intros (A1 & A2) (B1 & B2) P P'.
  destruct A2 as [-> | (j & J1 & J2 & J3)], B2 as [-> | (k & K1 & K2 & K3)].
  - reflexivity.
  - specialize (A1 k K1 K2). lia.
  - specialize (B1 j J1 J2). lia.
  - specialize (A1 k K1 K2). specialize (B1 j J1 J2). lia.
Qed.

(** * The loops *)
Section Loop.
Context (SIZE FLIP DURATION : Z) (v : bool) (ls : list lpacket) (pgs : list lpage) (gl : list page).
Local Notation ps := (map pk ls).
Local Notation linv := (linv SIZE FLIP).
Context (Sm : (List.length ps < Z.to_nat (2 ^ 31))%nat) (Po : Forall packet_ok ps).

Lemma removeWhile_ok bt more : forall n s d a, linv v s ls d pgs a gl -> Z.of_nat (List.length (groups v ps)) - Z.of_nat d <= Z.of_nat n ->
  exists s' k a', removeWhile n more true bt s = Done s' /\ linv v s' ls (d + k) pgs a' gl /\
    lrun SIZE FLIP DURATION s (repeat LEvict k) = Done s' /\
    (forall e, (d <= e < d + k)%nat -> newest_kept v ps e /\ exists s1 a1, linv v s1 ls e pgs a1 gl /\ more s1 = true /\ 1 < validCount s1 /\ removable (tk s1) true bt = true) /\
    ((1 <? validCount s') && more s' = false \/ removable (tk s') true bt = false).
Proof.
  induction n as [| n IH]; intros s d a I Hn; cbn [removeWhile].
  - assert (V : validCount s <= 1).
    { destruct (l_inv _ _ _ _ _ _ _ _ _ I) as (_ & T & Kp & _). destruct (tables_of _ _ _ _ eq_refl T) as (_ & (T1 & T2 & _) & _).
      unfold validCount. rewrite T1, T2. rewrite (l_vid _ _ _ _ _ _ _ _ _ I) in *.
      destruct (kept_key _ _ _ Kp) as [Q | (Q1 & ->)]; [lia |]. rewrite Q1 in *. cbn. lia. }
    destruct (Z.ltb_spec 1 (validCount s)); [lia |]. cbn [andb]. exists s, O, a. rewrite Nat.add_0_r. split; [reflexivity |]. split; [exact I |]. split; [reflexivity |].
    split; [intros e He; lia |]. left. destruct (Z.ltb_spec 1 (validCount s)); [lia | reflexivity].
  - destruct ((1 <? validCount s) && more s) eqn:M.
    + unfold removeKey. destruct (removable (tk s) true bt) eqn:R.
      * assert (NK : newest_kept v ps d) by (rewrite <- (l_vid _ _ _ _ _ _ _ _ _ I); eapply removable_kept; [exact (l_inv _ _ _ _ _ _ _ _ _ I) | exact R]).
        destruct (evict_step SIZE FLIP v s ls d pgs a gl I Sm Po NK) as (s1 & a1 & E & I1 & _). rewrite E. cbn [fst snd].
        destruct (IH s1 (S d) a1 I1 ltac:(lia)) as (s' & k & a' & E' & I' & L' & H' & X'). exists s', (S k), a'. split; [exact E' |].
        replace (d + S k)%nat with (S d + k)%nat by lia. split; [exact I' |]. split; [cbn [repeat lrun lstep]; rewrite E; exact L' |]. split; [| exact X'].
        intros e He. destruct (Nat.eq_dec e d) as [-> | Q]; [| apply H'; lia]. split; [exact NK |]. apply andb_prop in M as (M1 & M2).
        exists s, a. split; [exact I |]. split; [exact M2 |]. split; [apply Z.ltb_lt; exact M1 | exact R].
      * cbn [fst snd]. exists s, O, a. rewrite Nat.add_0_r. split; [reflexivity |]. split; [exact I |]. split; [reflexivity |]. split; [intros e He; lia | right; exact R].
    + exists s, O, a. rewrite Nat.add_0_r. split; [reflexivity |]. split; [exact I |]. split; [reflexivity |]. split; [intros e He; lia | left; exact M].
Qed.

(** The page of the oldest key stays: the records say how many keys a page has. *)
Lemma dropPages_none n firstKey s d a : linv v s ls d pgs a gl -> 0 <= firstKey <= Z.of_nat d -> dropPages n firstKey (u32 (t_del (pages (tk s)))) s = Done s.
Proof.
  intros I Hf. destruct n as [| n]; cbn [dropPages]; [reflexivity |].
  destruct (l_recs _ _ _ _ _ _ _ _ _ I) as (D & E & _). pose proof (l_len _ _ _ _ _ _ _ _ _ I) as Len.
  assert (B : (List.length (List.concat pgs) <= List.length ps)%nat).
  { rewrite <- (map_length (map pk)), (l_grp _ _ _ _ _ _ _ _ _ I). apply groups_len. }
  assert (Pl : (List.length pgs <= List.length (List.concat pgs))%nat).
  { pose proof (l_ne _ _ _ _ _ _ _ _ _ I) as N. clear - N. induction N as [| p q Hp N IH]; [cbn; lia |]. cbn [List.concat List.length]. rewrite app_length. destruct p; [congruence |]. cbn [List.length]. lia. }
  destruct ls as [| l0 lr] eqn:El.
  { assert (pgs = []). { destruct pgs as [| p q]; [reflexivity |]. exfalso. cbn [map List.length] in B. cbn [List.length] in Pl. lia. } subst pgs.
    rewrite (l_win0 _ _ _ _ _ _ _ _ _ I eq_refl) in D. rewrite D, E. destruct gl; [| discriminate Len]. reflexivity. }
  pose proof (l_win _ _ _ _ _ _ _ _ _ I ltac:(discriminate)) as W. rewrite <- El in *.
  assert (La : (a < List.length pgs)%nat).
  { destruct (Nat.lt_ge_cases a (List.length pgs)) as [Q | Q]; [exact Q |]. exfalso. unfold before in W. rewrite !firstn_all2 in W by lia. lia. }
  destruct (nth_some pgs a La) as (p & Ep). destruct (nth_some gl a ltac:(lia)) as (g & Eg).
  destruct (l_rec _ _ _ _ _ _ _ _ _ I a p g Ep Eg (Nat.le_refl a)) as ((Q1 & Q2 & _) & _).
  pose proof (before_succ pgs a p Ep) as BS. pose proof (before_bound pgs (S a)) as BB. rewrite D.
  assert (Hu : u32 (Z.of_nat a) = Z.of_nat a) by (unfold u32; apply Z.mod_small; lia). rewrite Hu.
  destruct (Z.leb_spec (t_end (pages (tk s))) (Z.of_nat a)) as [Q | Q]; [reflexivity |]. cbv zeta.
  rewrite (recs_at _ _ _ a g (l_recs _ _ _ _ _ _ _ _ _ I) Eg (Nat.le_refl a)), Q1, Q2.
  assert (u64 (before a pgs + Z.of_nat (List.length p)) = before (S a) pgs) as ->. { unfold u64. rewrite Z.mod_small; lia. }
  destruct (Z.ltb_spec firstKey (before (S a) pgs)); [reflexivity | lia].
Qed.
End Loop.

(** * One track *)
Section Track.
Context (SIZE FLIP DURATION : Z) (HS : SIZE < 2 ^ 32) (HF : 0 <= FLIP).
Context (v : bool) (ops : list lop).
Local Notation ls := (all_stored v ops).
Local Notation ps := (map pk ls).
Local Notation GS := (groups v ps).
Local Notation FS := (fragments GS).
Local Notation linv := (linv SIZE FLIP).

(** What the two tests and the check say of the packets. *)
Lemma state_facts s d pgs a gl bt : linv v s ls d pgs a gl -> fits v ps -> 0 <= bt < 2 ^ 64 -> ls <> [] ->
  validCount s = Z.of_nat (List.length GS) - Z.of_nat d /\ (d < List.length GS)%nat /\
  (forall cut, cutMore cut s = (key_time GS (Z.of_nat d) <? cut)) /\
  (1 < validCount s -> sizeMore bt s = (bt <? lasttime ps - key_time GS (Z.of_nat d + 1))) /\
  exists m, longest v ps (expired d FS) m /\ 0 <= m /\
  removable (tk s) true bt = (5 <=? Z.of_nat (List.length FS) - Z.of_nat (expired d FS)) && (bt <=? lasttime ps - key_time GS (Z.of_nat d)) &&
    (8 * ((m / 1000 + 1) * 1000) <=? frag_time FS (Z.of_nat (List.length FS) - 1) - frag_time FS (Z.of_nat (expired d FS))).
Proof.
  intros I Fi Hb Ne. destruct (Fi ps [] ltac:(rewrite app_nil_r; reflexivity)) as (S1 & S2 & _ & _ & S5 & _).
  assert (Np : ps <> []) by (destruct ls; [congruence | discriminate]).
  pose proof (l_inv _ _ _ _ _ _ _ _ _ I) as J. pose proof (l_vid _ _ _ _ _ _ _ _ _ I) as V.
  pose proof (one_view (tk s) ps d J S1 S2 (stored_all v ops) Np) as W.
  destruct (check_spec (tk s) ps d J S1 S2 (stored_all v ops) ltac:(rewrite V; exact S5) Np bt Hb) as (m & M1 & M2 & M3). rewrite V in M1, M3.
  assert (LT := lasttime_at ps Np). viewd W W'. rewrite V in EG. rewrite <- EG, <- EF in *|-. rewrite <- EG, <- EF, EK, ED, EM, EA. rewrite EN in LT.
  split. { unfold validCount. rewrite v_del, v_end. unfold u64. apply Z.mod_small. pose proof (groups_len v ps) as Q. rewrite <- EG in Q. lia. }
  split; [lia |]. split.
  { intros cut. unfold cutMore, keyTime, firstValid. rewrite v_del, (v_ktime W') by lia. rewrite (v_keytime W') by lia. reflexivity. }
  split.
  { intros L. assert (L' : D + 1 < K). { unfold validCount in L. rewrite v_del, v_end in L. unfold u64 in L. rewrite Z.mod_small in L; [lia |]. pose proof (groups_len v ps) as Q. rewrite <- EG in Q. lia. }
    unfold sizeMore, keyTime, firstValid. rewrite v_del, v_last, (v_ktime W'), (v_keytime W'), LT by lia.
    pose proof (v_range W' (N - 1)). pose proof (v_range W' (F (D + 1))). pose proof (v_fmono W' (D + 1) K ltac:(lia) ltac:(lia)). pose proof (v_fmono W' D (D + 1) ltac:(lia) ltac:(lia)).
    pose proof (v_sorted W' (F (D + 1)) (N - 1) ltac:(lia) ltac:(lia)). unfold u64. rewrite Z.mod_small by lia. reflexivity. }
  exists m. split. { rewrite <- (Nat2Z.id (expired d fs)) in M1. rewrite EA in M1. rewrite <- EA in M1. rewrite Nat2Z.id in M1. exact M1. }
  split; [lia |]. rewrite ED, EM, EA in M3. exact M3.
Qed.

(** Packets of key [e] are not after the start of the next key, and packets before key [d'] but not before key
    [d] belong to one of the keys between. *)
Lemma key_packets d d' j : before d GS <= j < before d' GS -> (d' <= List.length GS)%nat -> exists e, (d <= e < d')%nat /\ before e GS <= j < before (S e) GS.
Proof.
  induction d' as [| d' IH]; intros H L. { unfold before in H. cbn in H. lia. }
  destruct (Z.lt_ge_cases j (before d' GS)) as [Q | Q].
  - destruct (IH ltac:(lia) ltac:(lia)) as (e & He & E). exists e. split; [lia | exact E].
  - exists d'. split; [| lia]. destruct (Nat.le_gt_cases d d') as [Q2 | Q2]; [lia |]. pose proof (before_mono GS (S d') d ltac:(lia)). lia.
Qed.

(** The fragments between add up. *)
Lemma frag_sum a m : longest v ps a m -> forall n, (a + n < List.length FS)%nat -> frag_time FS (Z.of_nat (a + n)) - frag_time FS (Z.of_nat a) <= Z.of_nat n * m.
Proof.
  intros (L & _). induction n as [| n IH]; intros H; [rewrite Nat.add_0_r; lia |].
  specialize (IH ltac:(lia)). specialize (L (Z.of_nat (a + n)) ltac:(lia) ltac:(lia)). replace (Z.of_nat (a + n) + 1) with (Z.of_nat (a + S n)) in L by lia. lia.
Qed.
Lemma eight_of d m : longest v ps (expired d FS) m -> 0 <= m -> (expired d FS < List.length FS)%nat ->
  8 * ((m / 1000 + 1) * 1000) <= frag_time FS (Z.of_nat (List.length FS) - 1) - frag_time FS (Z.of_nat (expired d FS)) -> (10 <= List.length FS - expired d FS)%nat.
Proof.
  intros L P H Big. pose proof (frag_sum _ _ L (List.length FS - 1 - expired d FS) ltac:(lia)) as X.
  replace (Z.of_nat (expired d FS + (List.length FS - 1 - expired d FS))) with (Z.of_nat (List.length FS) - 1) in X by lia.
  assert (m < (m / 1000 + 1) * 1000). { pose proof (Z.div_mod m 1000 ltac:(lia)). pose proof (Z.mod_pos_bound m 1000 ltac:(lia)). lia. }
  destruct (Nat.le_gt_cases 10 (List.length FS - expired d FS)) as [G | G]; [exact G |]. exfalso.
  assert (Z.of_nat (List.length FS - 1 - expired d FS) * m <= 8 * m) by (apply Z.mul_le_mono_nonneg_r; lia). lia.
Qed.
(** With an eviction nine fragments stay, and seven times the longest. *)
Lemma after_evict d m : (expired d FS < List.length FS)%nat -> longest v ps (expired d FS) m -> 0 <= m ->
  8 * ((m / 1000 + 1) * 1000) <= frag_time FS (Z.of_nat (List.length FS) - 1) - frag_time FS (Z.of_nat (expired d FS)) -> enough v ps (S d).
Proof.
  intros L Lm P Big. pose proof (expired_step d FS (fragments_nonempty GS) L) as X. pose proof (eight_of d m Lm P L Big) as Ten.
  assert (X' : expired (S d) FS = expired d FS \/ expired (S d) FS = S (expired d FS)) by (rewrite X; destruct (_ <? _); auto).
  split; [lia |]. intros m' Lm' P'.
  assert (Mm : m' <= m). { destruct Lm' as (_ & [-> | (j & J1 & J2 & <-)]); [exact P |]. apply Lm; lia. }
  pose proof (Z.div_le_mono m' m 1000 ltac:(lia) Mm). assert (m < (m / 1000 + 1) * 1000). { pose proof (Z.div_mod m 1000 ltac:(lia)). pose proof (Z.mod_pos_bound m 1000 ltac:(lia)). lia. }
  destruct X' as [-> | ->]; [assert (0 <= m / 1000) by (apply Z.div_pos; lia); lia |].
  destruct Lm as (Lm & _). specialize (Lm (Z.of_nat (expired d FS)) ltac:(lia) ltac:(lia)). rewrite Nat2Z.inj_succ. unfold Z.succ. lia.
Qed.

Lemma manage_track_ok s bt cut : 0 <= bt < 2 ^ 64 -> lreached SIZE FLIP DURATION v ops s ->
  exists s' n, manageTrack true bt cut s = Done s' /\ lrun SIZE FLIP DURATION s (repeat LEvict n) = Done s' /\ lreached SIZE FLIP DURATION v (ops ++ repeat LEvict n) s' /\
    window_kept v ps (levictions ops) (levictions ops + n) bt cut /\
    cut_done v ps (levictions ops + n) bt cut /\ size_done v ps (levictions ops + n) bt /\
    ((0 < n)%nat -> enough v ps (levictions ops + n)).
Proof.
  intros Hb Re. assert (Re0 := Re). destruct Re as (a0 & b0 & c0 & e0 & H1 & H2 & H3 & H4 & Fi & Lg & E).
  destruct (live_all SIZE FLIP DURATION HS HF v ops a0 b0 c0 e0 H1 H2 H3 H4 Fi Lg) as (s0 & pgs & a & gl & E' & I). rewrite E in E'. injection E' as <-.
  assert (Fp : fits v ps) by apply Fi. destruct (Fp ps [] ltac:(rewrite app_nil_r; reflexivity)) as (S1 & S2 & _).
  set (d := levictions ops) in *.
  assert (Rn : forall s d a, linv v s ls d pgs a gl -> Z.of_nat (List.length GS) - Z.of_nat d <= Z.of_nat (rounds s)).
  { intros s1 d1 a1 I1. destruct (l_inv _ _ _ _ _ _ _ _ _ I1) as (_ & T & _). destruct (tables_of _ _ _ _ eq_refl T) as (_ & (T1 & T2 & _) & _).
    rewrite (l_vid _ _ _ _ _ _ _ _ _ I1) in *. unfold rounds. rewrite T1, T2. lia. }
  unfold manageTrack.
  destruct (removeWhile_ok SIZE FLIP DURATION v ls pgs gl S1 S2 bt (cutMore cut) _ s d a I (Rn _ _ _ I)) as (s1 & k1 & a1 & E1 & I1 & L1 & Q1 & X1). rewrite E1.
  destruct (removeWhile_ok SIZE FLIP DURATION v ls pgs gl S1 S2 bt (sizeMore bt) _ s1 (d + k1)%nat a1 I1 (Rn _ _ _ I1)) as (s2 & k2 & a2 & E2 & I2 & L2 & Q2 & X2). rewrite E2.
  rewrite (dropPages_none SIZE FLIP v ls pgs gl S1 S2 _ (u32 (firstValid s)) s2 _ a2 I2).
  2:{ destruct (l_inv _ _ _ _ _ _ _ _ _ I) as (_ & T & _). destruct (tables_of _ _ _ _ eq_refl T) as (_ & (T1 & _) & _). unfold firstValid. rewrite T1.
      pose proof (Z.mod_le (Z.of_nat d) (2 ^ 32) ltac:(lia) ltac:(lia)). pose proof (Z.mod_pos_bound (Z.of_nat d) (2 ^ 32) ltac:(lia)). unfold u32. lia. }
  replace (d + k1 + k2)%nat with (d + (k1 + k2))%nat in * by lia. exists s2, (k1 + k2)%nat. split; [reflexivity |]. split; [rewrite repeat_app, (lrun_app SIZE FLIP DURATION _ _ _ _ L1); exact L2 |].
  assert (NK : forall e, (d <= e < d + (k1 + k2))%nat -> newest_kept v ps e).
  { intros e He. destruct (Nat.lt_ge_cases e (d + k1)) as [G | G]; [apply Q1; lia | apply Q2; lia]. }
  split.
  { exists a0, b0, c0, e0. do 4 (split; [assumption |]). unfold all_stored in *. rewrite stored_evicts. split; [exact Fi |]. split.
    - intros pre post Eq. unfold all_stored. destruct (Nat.le_gt_cases (List.length ops) (List.length pre)) as [G | G].
      + assert (exists r, pre = ops ++ r /\ repeat LEvict (k1 + k2) = r ++ LEvict :: post) as (r & -> & Er).
        { exists (skipn (List.length ops) pre). assert (Eo : ops = firstn (List.length ops) pre).
          { symmetry. eapply firstn_same; [exact Eq | exact G]. }
          split; [rewrite Eo at 1; symmetry; apply firstn_skipn |]. rewrite <- (firstn_skipn (List.length ops) pre) in Eq. rewrite <- Eo, <- app_assoc in Eq. apply app_inv_head in Eq. exact Eq. }
        assert (r = repeat LEvict (List.length r) /\ (List.length r < k1 + k2)%nat) as (Hr & Lr).
        { split; [| pose proof (f_equal (@List.length _) Er) as X; rewrite app_length, repeat_length in X; cbn [List.length] in X; lia].
          assert (In_ : forall o, In o r -> o = LEvict) by (intros o Ho; apply (repeat_spec (k1 + k2)); rewrite Er; apply in_or_app; left; exact Ho). clear - In_. induction r as [| o r IH]; [reflexivity |]. cbn [List.length repeat].
          rewrite (In_ o (or_introl eq_refl)), <- IH; [reflexivity | intros; apply In_; right; assumption]. }
        rewrite Hr, stored_evicts, levictions_app, levictions_rep. apply NK. fold d. lia.
      + apply (Lg pre (skipn (S (List.length pre)) ops)).
        rewrite <- (firstn_skipn (List.length pre) ops) at 1. assert (Ep : firstn (List.length pre) ops = pre).
        { eapply firstn_same; [symmetry; exact Eq | lia]. }
        rewrite Ep. f_equal. destruct (nth_some ops (List.length pre) G) as (o & Eo).
        assert (o = LEvict). { pose proof (f_equal (fun l => nth_error l (List.length pre)) Eq) as X. cbn beta in X. rewrite nth_error_app1 in X by exact G. rewrite nth_error_app2, Nat.sub_diag in X by lia. cbn [nth_error] in X. congruence. } subst o.
        clear - Eo. revert Eo. generalize (List.length pre) as n. induction ops as [| o l IH]; intros [| n] Eo; cbn [nth_error] in Eo; try discriminate.
        * injection Eo as ->. reflexivity.
        * cbn [skipn]. apply IH. exact Eo.
    - rewrite (lrun_app SIZE FLIP DURATION _ _ _ _ E). rewrite repeat_app, (lrun_app SIZE FLIP DURATION _ _ _ _ L1). exact L2. }
  clearbody d. destruct ls as [| l0 lr] eqn:El.
  { (* nothing stored *)
    assert (d = O /\ k1 = O /\ k2 = O) as (-> & -> & ->).
    { assert (forall e, (d <= e < d + (k1 + k2))%nat -> False). { intros e He. destruct (NK e He) as (j & f & Ef & _). cbn in Ef. destruct j; discriminate Ef. }
      destruct (l_inv _ _ _ _ _ _ _ _ _ I) as (_ & _ & Kp & _). rewrite (l_vid _ _ _ _ _ _ _ _ _ I) in Kp. destruct (kept_key _ _ _ Kp) as [Z1 | (_ & Z1)]; [cbn in Z1; lia |].
      split; [exact Z1 |]. destruct (Nat.eq_dec (k1 + k2) 0) as [Z2 | Z2]; [lia | exfalso; apply (H d); lia]. }
    split. { intros j (K1 & K2) _. cbn in K1, K2. lia. } split; [left; cbn; lia |]. split; [left; cbn; lia |]. intros X. lia. }
  rewrite <- El in *. assert (Ne : ls <> []) by (rewrite El; discriminate). clear El.
  assert (Facts := fun s d a (J : linv v s ls d pgs a gl) => state_facts s d pgs a gl bt J Fp Hb Ne).
  destruct (Facts s2 _ a2 I2) as (V2 & Ld2 & C2 & Z2 & m2 & M2 & P2 & R2).
  assert (Lf : forall s d a, linv v s ls d pgs a gl -> (expired d FS < List.length FS)%nat).
  { intros s3 d3 a3 I3. destruct (l_inv _ _ _ _ _ _ _ _ _ I3) as (_ & _ & Kp & _). rewrite (l_vid _ _ _ _ _ _ _ _ _ I3) in Kp.
    destruct (kept_frag _ _ _ Kp) as [Q | (Q & _)]; [exact Q | destruct ls; [congruence | discriminate Q]]. }
  assert (Lf2 := Lf _ _ _ I2).
  assert (Nd : removable (tk s2) true bt = false -> needed v ps (d + (k1 + k2)) \/ lasttime ps - key_time GS (Z.of_nat (d + (k1 + k2))) < bt).
  { rewrite R2. intros B. apply Bool.andb_false_iff in B as [B | B]; [apply Bool.andb_false_iff in B as [B | B] |].
    - left. exists m2. split; [exact M2 |]. destruct (Z.lt_ge_cases (frag_time FS (Z.of_nat (List.length FS) - 1) - frag_time FS (Z.of_nat (expired (d + (k1 + k2)) FS))) (8 * ((m2 / 1000 + 1) * 1000))) as [Q | Q]; [exact Q |].
      exfalso. apply Z.leb_gt in B. pose proof (eight_of _ m2 M2 P2 Lf2 Q). lia.
    - right. apply Z.leb_gt in B. lia.
    - left. exists m2. split; [exact M2 |]. apply Z.leb_gt in B. exact B. }
  split; [| split; [| split]].
  - intros j (J1 & J2) Hj. destruct (Z.lt_ge_cases j (before (d + (k1 + k2)) GS)) as [Q | Q]; [| left; split; [lia | exact J2]]. right.
    destruct (key_packets d (d + (k1 + k2)) j (conj J1 Q) ltac:(lia)) as (e & He & Ee). exists (Z.of_nat e). unfold in_key. rewrite Nat2Z.id. replace (e + 1)%nat with (S e) by lia. split; [exact Ee |].
    destruct (Nat.lt_ge_cases e (d + k1)) as [G | G].
    + destruct (Q1 e ltac:(lia)) as (_ & s3 & a3 & I3 & M3 & _). destruct (Facts _ _ _ I3) as (_ & _ & C3 & _). rewrite C3 in M3. apply Z.ltb_lt in M3. exact M3.
    + exfalso. destruct (Q2 e ltac:(lia)) as (_ & s3 & a3 & I3 & M3 & V3 & _). destruct (Facts _ _ _ I3) as (V3' & _ & _ & Z3 & _). rewrite (Z3 V3) in M3. apply Z.ltb_lt in M3.
      rewrite V3' in V3. destruct (nth_some GS (S e) ltac:(lia)) as (g & Eg).
      assert (Kt : key_time GS (Z.of_nat e + 1) = time_at ps (before (S e) GS)).
      { unfold key_time. replace (Z.to_nat (Z.of_nat e + 1)) with (S e) by lia. rewrite Eg. apply gtime_at. exact Eg. }
      assert (time_at ps j <= time_at ps (before (S e) GS)); [| lia].
      pose proof (before_lt GS (S e) (groups_nonempty v ps) ltac:(lia)) as Lb. rewrite groups_concat in Lb. pose proof (before_bound GS e).
      unfold time_at. destruct (nth_some ps (Z.to_nat j) ltac:(lia)) as (p & Ep). destruct (nth_some ps (Z.to_nat (before (S e) GS)) ltac:(lia)) as (q & Eq). rewrite Ep, Eq.
      eapply (stored_all v ops); [exact Ep | exact Eq | lia].
  - destruct X1 as [X1 | X1].
    + apply Bool.andb_false_iff in X1 as [X1 | X1].
      * left. destruct (Facts _ _ _ I1) as (V1 & _). rewrite V1 in X1. apply Z.ltb_ge in X1. lia.
      * right. left. destruct (Facts _ _ _ I1) as (_ & Ld1 & C1 & _). rewrite C1 in X1. apply Z.ltb_ge in X1.
        assert (key_time GS (Z.of_nat (d + k1)) <= key_time GS (Z.of_nat (d + (k1 + k2)))); [| lia].
        destruct (nth_some GS (d + k1) Ld1) as (g & Eg). destruct (nth_some GS (d + (k1 + k2)) Ld2) as (h & Eh). unfold key_time. rewrite !Nat2Z.id, Eg, Eh, (gtime_at v ps _ _ Eg), (gtime_at v ps _ _ Eh).
        pose proof (before_lt GS (d + (k1 + k2)) (groups_nonempty v ps) Ld2) as Lb. rewrite groups_concat in Lb. pose proof (before_mono GS (d + k1) (d + (k1 + k2)) ltac:(lia)). pose proof (before_bound GS (d + k1)).
        unfold time_at. destruct (nth_some ps (Z.to_nat (before (d + k1) GS)) ltac:(lia)) as (p & Ep). destruct (nth_some ps (Z.to_nat (before (d + (k1 + k2)) GS)) ltac:(lia)) as (q & Eq). rewrite Ep, Eq.
        eapply (stored_all v ops); [exact Ep | exact Eq | lia].
    + assert (k2 = O /\ s2 = s1) as (-> & ->).
      { destruct k2 as [| k2]; [split; [reflexivity |]; cbn [repeat lrun] in L2; congruence |]. exfalso. destruct (Q2 (d + k1)%nat ltac:(lia)) as (_ & s3 & a3 & I3 & _ & _ & R3).
        destruct (Facts _ _ _ I3) as (_ & _ & _ & _ & m3 & M3 & P3 & R3'). destruct (Facts _ _ _ I1) as (_ & _ & _ & _ & m1 & M1 & P1 & R1').
        rewrite (longest_unique _ _ _ _ _ M3 M1 P3 P1) in R3'. congruence. }
      right. right. destruct (Nd X1); [left | right]; assumption.
  - destruct X2 as [X2 | X2].
    + apply Bool.andb_false_iff in X2 as [X2 | X2].
      * left. rewrite V2 in X2. apply Z.ltb_ge in X2. lia.
      * destruct (Z.lt_ge_cases 1 (validCount s2)) as [G | G]; [| left; lia]. right. left. rewrite (Z2 G) in X2. apply Z.ltb_ge in X2. exact X2.
    + destruct (Nat.le_gt_cases (List.length GS) (d + (k1 + k2) + 1)) as [G | G]; [left; exact G |]. right.
      destruct (Nd X2) as [Q | Q]; [right; exact Q |]. left.
      assert (key_time GS (Z.of_nat (d + (k1 + k2))) <= key_time GS (Z.of_nat (d + (k1 + k2)) + 1)); [| lia].
      destruct (nth_some GS (d + (k1 + k2)) Ld2) as (g & Eg). destruct (nth_some GS (S (d + (k1 + k2))) ltac:(lia)) as (h & Eh). unfold key_time. replace (Z.to_nat (Z.of_nat (d + (k1 + k2)) + 1)) with (S (d + (k1 + k2))) by lia. rewrite Nat2Z.id, Eg, Eh, (gtime_at v ps _ _ Eg), (gtime_at v ps _ _ Eh).
      pose proof (before_lt GS (S (d + (k1 + k2))) (groups_nonempty v ps) ltac:(lia)) as Lb. rewrite groups_concat in Lb. pose proof (before_mono GS (d + (k1 + k2)) (S (d + (k1 + k2))) ltac:(lia)). pose proof (before_bound GS (d + (k1 + k2))).
      unfold time_at. destruct (nth_some ps (Z.to_nat (before (d + (k1 + k2)) GS)) ltac:(lia)) as (p & Ep). destruct (nth_some ps (Z.to_nat (before (S (d + (k1 + k2))) GS)) ltac:(lia)) as (q & Eq). rewrite Ep, Eq.
      eapply (stored_all v ops); [exact Ep | exact Eq | lia].
  - intros Hn. assert (exists e, (e = d + (k1 + k2) - 1)%nat /\ exists s1 a1, linv v s1 ls e pgs a1 gl /\ removable (tk s1) true bt = true) as (e & Ee & s3 & a3 & I3 & R3).
    { eexists. split; [reflexivity |]. destruct (Nat.eq_dec k2 0) as [G | G].
      - destruct (Q1 (d + (k1 + k2) - 1)%nat ltac:(lia)) as (_ & s3 & a3 & I3 & _ & _ & R3). eauto.
      - destruct (Q2 (d + (k1 + k2) - 1)%nat ltac:(lia)) as (_ & s3 & a3 & I3 & _ & _ & R3). eauto. }
    replace (d + (k1 + k2))%nat with (S e) by lia. destruct (Facts _ _ _ I3) as (_ & _ & _ & _ & m3 & M3 & P3 & R3'). rewrite R3' in R3.
    apply andb_prop in R3 as (R3 & R5). apply andb_prop in R3 as (R3 & R4). apply Z.leb_le in R5. eapply after_evict; [exact (Lf _ _ _ I3) | exact M3 | exact P3 | exact R5].
Qed.
End Track.

(** * Idle tracks *)
Lemma active_dec time x : 0 <= time < 2 ^ 63 -> times_ok x -> (5 <? u64 (time - x_updated x)) = false <-> active_at time x.
Proof.
  intros Ht (_ & _ & Hx). unfold active_at. rewrite Z.ltb_ge. unfold u64. destruct (Z.le_gt_cases (x_updated x) time) as [G | G].
  - rewrite Z.mod_small by lia. lia.
  - split; [| lia]. intros H. exfalso. rewrite <- (Z.mod_add _ 1) in H by lia. rewrite Z.mod_small in H; lia.
Qed.
Section Edges.
Context (time : Z) (Ht : 0 <= time < 2 ^ 63).
Definition edges_ok (l : list strack) (e : Z * Z * list (list Z)) : Prop :=
  let '(cf, cl, types) := e in
  (forall y, In y l -> active_at time y -> cf <= firstmsOf y /\ lastmsOf y <= cl /\ In (x_type y) types) /\
  (cf = 2 ^ 64 - 1 \/ exists y, In y l /\ active_at time y /\ cf = firstmsOf y) /\
  (cl = 0 \/ exists y, In y l /\ active_at time y /\ cl = lastmsOf y) /\
  (forall ty, In ty types -> exists y, In y l /\ active_at time y /\ x_type y = ty) /\ 0 <= cl.
Lemma edges_spec l : Forall times_ok l -> edges_ok l (edges time l).
Proof.
  intros F. unfold edges. induction l as [| x l IH] using rev_ind.
  { cbn. split; [intros y [] |]. split; [left; reflexivity |]. split; [left; reflexivity |]. split; [intros ty [] | lia]. }
  apply Forall_app in F as (F1 & F2). inversion F2 as [| ? ? Fx _]; subst. specialize (IH F1). rewrite fold_left_app. cbn [fold_left].
  destruct (fold_left (edge time) l (2 ^ 64 - 1, 0, [])) as ((cf & cl) & types). unfold edge. destruct IH as (A & B & C & D & E).
  pose proof (active_dec time x Ht Fx) as Ad. destruct (5 <? u64 (time - x_updated x)).
  - split; [| split; [| split; [| split; [| exact E]]]].
    + intros y Hy Ay. apply in_app_or in Hy as [Hy | [<- | []]]; [apply A; assumption |]. apply Ad in Ay. discriminate Ay.
    + destruct B as [B | (y & B1 & B2)]; [left; exact B | right; exists y; split; [apply in_or_app; left; exact B1 | exact B2]].
    + destruct C as [C | (y & B1 & B2)]; [left; exact C | right; exists y; split; [apply in_or_app; left; exact B1 | exact B2]].
    + intros ty Hty. destruct (D ty Hty) as (y & B1 & B2). exists y. split; [apply in_or_app; left; exact B1 | exact B2].
  - assert (Ax : active_at time x) by (apply Ad; reflexivity). destruct Fx as (X1 & X2 & _). assert (Inx : In x (l ++ [x])) by (apply in_or_app; right; left; reflexivity).
    split; [| split; [| split; [| split]]].
    + intros y Hy Ay. destruct (Z.ltb_spec (firstmsOf x) cf), (Z.ltb_spec cl (lastmsOf x)); (apply in_app_or in Hy as [Hy | [<- | []]]; [destruct (A y Hy Ay) as (Q1 & Q2 & Q3); split; [lia | split; [lia | right; exact Q3]] | split; [lia | split; [lia | left; reflexivity]]]).
    + destruct (Z.ltb_spec (firstmsOf x) cf); [right; exists x; auto |]. destruct B as [B | (y & B1 & B2)]; [left; exact B | right; exists y; split; [apply in_or_app; left; exact B1 | exact B2]].
    + destruct (Z.ltb_spec cl (lastmsOf x)); [right; exists x; auto |]. destruct C as [C | (y & B1 & B2)]; [left; exact C | right; exists y; split; [apply in_or_app; left; exact B1 | exact B2]].
    + intros ty [<- | Hty]; [exists x; auto |]. destruct (D ty Hty) as (y & B1 & B2). exists y. split; [apply in_or_app; left; exact B1 | exact B2].
    + destruct (Z.ltb_spec cl (lastmsOf x)); lia.
Qed.
Lemma gone_iff l i x : Forall times_ok l -> In x l -> 0 <= i < 2 ^ 63 -> gone time i (edges time l) x = true <-> idle time i l x.
Proof.
  intros F Hx Hi. pose proof (edges_spec l F) as E. rewrite Forall_forall in F. destruct (F x Hx) as (X1 & X2 & X3). unfold gone, idle. destruct (edges time l) as ((cf & cl) & types).
  destruct E as (A & B & C & D & E).
  destruct (beqb (x_type x) (bs "meta")) eqn:Em. { apply beqb_eq in Em. split; [discriminate | intros (N & _); congruence]. }
  assert (Nm : x_type x <> bs "meta") by (intros Q; rewrite Q, beqb_refl in Em; discriminate Em).
  destruct (Z.leb_spec time (x_updated x)) as [G | G].
  { split; [discriminate |]. intros (_ & [(Q & _) | (Q & _)]); lia. }
  assert (Ea : u64 (time - x_updated x) = time - x_updated x) by (unfold u64; apply Z.mod_small; lia). rewrite Ea. cbv zeta.
  assert (Dv : 0 <= i / 1000) by (apply Z.div_pos; lia).
  assert (Bcl : cl < 2 ^ 64). { destruct C as [-> | (y & Hy & _ & ->)]; [lia | destruct (F y Hy) as (_ & Q & _); lia]. }
  assert (Bcf : 0 <= cf < 2 ^ 64). { destruct B as [-> | (y & Hy & _ & ->)]; [lia | destruct (F y Hy) as (Q & _); lia]. }
  rewrite Bool.orb_true_iff, Z.ltb_lt. split.
  - intros [H | H]; (split; [exact Nm |]); [left; split; [exact G | exact H] |].
    apply andb_prop in H as (H & H4). apply andb_prop in H as (H & H3). apply andb_prop in H as (H1 & H2). apply Z.ltb_lt in H3. apply existsb_exists in H2 as (ty & H2 & H2'). apply beqb_eq in H2'. subst ty.
    right. split; [exact G |]. split; [exact H3 |]. split; [destruct (D _ H2) as (y & Q); exists y; exact Q |]. split.
    { destruct C as [-> | (y & Hy & Ay & ->)]; [discriminate H1 |]. exists y. split; [exact Hy |]. split; [exact Ay |]. intros Q. rewrite Q in H1. discriminate H1. }
    apply Bool.orb_true_iff in H4 as [H4 | H4]; apply andb_prop in H4 as (H4 & H5); apply Z.ltb_lt in H4, H5; [left | right]; intros y Hy Ay; destruct (A y Hy Ay) as (Q1 & Q2 & _).
    + unfold u64 in H5. rewrite Z.mod_small in H5 by lia. lia.
    + unfold u64 in H5. rewrite Z.mod_small in H5 by lia. lia.
  - intros (_ & [(_ & H) | (_ & H1 & (y & Hy & Ay & Ty) & (z & Hz & Az & Nz) & H4)]); [left; exact H | right].
    destruct (A y Hy Ay) as (Qy1 & Qy2 & Qy3). destruct (A z Hz Az) as (Qz1 & Qz2 & _).
    assert (Hcl : (cl =? 0) = false) by (apply Z.eqb_neq; destruct (F z Hz) as (_ & Q & _); lia). rewrite Hcl. cbn [negb andb].
    assert (Ht' : existsb (beqb (x_type x)) types = true) by (apply existsb_exists; exists (x_type y); split; [exact Qy3 | rewrite Ty; apply beqb_refl]). rewrite Ht'. cbn [andb].
    destruct (Z.ltb_spec 5 (time - x_updated x)); [cbn [andb] | lia]. apply Bool.orb_true_iff. destruct H4 as [H4 | H4]; [left | right]; apply andb_true_intro.
    + assert (cl + i < firstmsOf x). { destruct C as [-> | (w & Hw & Aw & ->)]; [specialize (H4 y Hy Ay); destruct (F y Hy) as (_ & Q & _); lia | apply H4; assumption]. }
      split; apply Z.ltb_lt; [lia |]. unfold u64. rewrite Z.mod_small; lia.
    + assert (lastmsOf x + i < cf). { destruct B as [Q | (w & Hw & Aw & ->)]; [specialize (H4 y Hy Ay); destruct (F y Hy) as (Q' & _); lia | apply H4; assumption]. }
      split; apply Z.ltb_lt; [lia |]. unfold u64. rewrite Z.mod_small; lia.
Qed.
End Edges.

Lemma removeFirstGone_some g : forall l r, removeFirstGone g l = Some r -> exists a x b, l = a ++ x :: b /\ r = a ++ b /\ g x = true /\ forall y, In y a -> g y = false.
Proof.
  induction l as [| x l IH]; intros r H; cbn [removeFirstGone] in H; [discriminate |]. destruct (g x) eqn:G.
  - injection H as <-. exists [], x, l. split; [reflexivity |]. split; [reflexivity |]. split; [exact G | intros y []].
  - destruct (removeFirstGone g l) as [r' |]; [| discriminate]. injection H as <-. destruct (IH r' eq_refl) as (a & y & b & -> & -> & Gy & Ga).
    exists (x :: a), y, b. split; [reflexivity |]. split; [reflexivity |]. split; [exact Gy |]. intros z [<- | Hz]; [exact G | apply Ga, Hz].
Qed.
Lemma removeFirstGone_none g : forall l, removeFirstGone g l = None -> forall y, In y l -> g y = false.
Proof.
  induction l as [| x l IH]; intros H y Hy; [destruct Hy |]. cbn [removeFirstGone] in H. destruct (g x) eqn:G; [discriminate |]. destruct (removeFirstGone g l); [discriminate |].
  destruct Hy as [<- | Hy]; [exact G | apply IH; [reflexivity | exact Hy]].
Qed.
Lemma removeIdle_ok clock i : (forall k, 0 <= clock k < 2 ^ 63) -> 0 <= i < 2 ^ 63 -> forall n k l, Forall times_ok l -> (List.length l < n)%nat ->
  dropped clock i k l (removeIdle n clock k i l).
Proof.
  intros Hc Hi. induction n as [| n IH]; intros k l F L; [lia |]. cbn [removeIdle].
  destruct (removeFirstGone _ l) as [r |] eqn:E.
  - apply removeFirstGone_some in E as (a & x & b & -> & -> & Gx & Ga).
    assert (F' : Forall times_ok (a ++ b)) by (apply Forall_app in F as (F1 & F2); inversion F2; apply Forall_app; auto).
    apply dropped_one.
    + intros y Hy Q. apply (gone_iff (clock k) (Hc k)) in Q; [| exact F | apply in_or_app; left; exact Hy | exact Hi]. rewrite (Ga y Hy) in Q. discriminate Q.
    + apply (gone_iff (clock k) (Hc k)); [exact F | apply in_or_app; right; left; reflexivity | exact Hi | exact Gx].
    + apply IH; [exact F' |]. rewrite app_length in *. cbn [List.length] in L. lia.
  - apply dropped_none. intros x Hx Q. apply (gone_iff (clock k) (Hc k)) in Q; [| exact F | exact Hx | exact Hi]. rewrite (removeFirstGone_none _ _ E x Hx) in Q. discriminate Q.
Qed.
Lemma dropped_in clock i k l r : dropped clock i k l r -> forall x, In x r -> In x l.
Proof. induction 1 as [| k a y b l N Id D IH]; intros x Hx; [exact Hx |]. specialize (IH x Hx). apply in_app_or in IH as [Q | Q]; apply in_or_app; [left | right; right]; exact Q. Qed.
Lemma dropped_keeps clock i k l r x : dropped clock i k l r -> (forall j m, (k <= j)%nat -> ~ idle (clock j) i m x) -> In x l -> In x r.
Proof.
  induction 1 as [| k a y b l N Id D IH]; intros K Hx; [exact Hx |]. apply IH; [intros j m Hj; apply K; lia |].
  apply in_app_or in Hx as [Q | [-> | Q]]; [apply in_or_app; left; exact Q | exfalso; exact (K k _ (Nat.le_refl k) Id) | apply in_or_app; right; exact Q].
Qed.
Lemma dropped_end clock i k l r : dropped clock i k l r -> exists j, (k <= j <= k + List.length l)%nat /\ forall x, In x r -> ~ idle (clock j) i r x.
Proof.
  induction 1 as [k l N | k a y b l N Id D (j & Hj & IH)]; [exists k; split; [lia | exact N] |]. exists j. split; [| exact IH]. rewrite app_length in *. cbn [List.length]. lia.
Qed.

(** * The stream *)
Lemma videoFirst_spec l : let m := videoFirst l in
  (forall z, In z l -> x_loaded z = true -> x_type z = bs "video" -> m <= firstmsOf z) /\
  (m = 2 ^ 64 - 1 \/ exists z, In z l /\ x_loaded z = true /\ x_type z = bs "video" /\ m = firstmsOf z).
Proof.
  cbv zeta. unfold videoFirst. induction l as [| x l (A & B)] using rev_ind; [cbn; split; [intros z [] | left; reflexivity] |].
  rewrite fold_left_app. cbn [fold_left]. set (m := fold_left _ l _) in *.
  destruct (x_loaded x) eqn:L; cbn [andb].
  2:{ split; [| destruct B as [B | (z & Hz & B)]; [left; exact B | right; exists z; split; [apply in_or_app; left; exact Hz | exact B]]].
      intros z Hz L' T. apply in_app_or in Hz as [Hz | [<- | []]]; [apply A; assumption | congruence]. }
  destruct (beqb (x_type x) (bs "video")) eqn:T; cbn [andb].
  2:{ split; [| destruct B as [B | (z & Hz & B)]; [left; exact B | right; exists z; split; [apply in_or_app; left; exact Hz | exact B]]].
      intros z Hz L' T'. apply in_app_or in Hz as [Hz | [<- | []]]; [apply A; assumption |]. rewrite T', beqb_refl in T. discriminate T. }
  apply beqb_eq in T. destruct (Z.ltb_spec (firstmsOf x) m) as [G | G].
  - split; [| right; exists x; split; [apply in_or_app; right; left; reflexivity | auto]].
    intros z Hz L' T'. apply in_app_or in Hz as [Hz | [<- | []]]; [specialize (A z Hz L' T') |]; lia.
  - split; [| destruct B as [B | (z & Hz & B)]; [left; exact B | right; exists z; split; [apply in_or_app; left; exact Hz | exact B]]].
    intros z Hz L' T'. apply in_app_or in Hz as [Hz | [<- | []]]; [apply A; assumption | lia].
Qed.
Section Stream.
Context (SIZE FLIP DURATION : Z) (HS : SIZE < 2 ^ 32) (HF : 0 <= FLIP).
Lemma held_back_iff v ops l x : lreached SIZE FLIP DURATION v ops (x_live x) -> Forall times_ok l ->
  held_back (videoFirst l) x = true <-> waits v ops l x.
Proof.
  intros Re Ft. destruct Re as (a0 & b0 & c0 & e0 & H1 & H2 & H3 & H4 & Fi & Lg & E).
  destruct (live_all SIZE FLIP DURATION HS HF v ops a0 b0 c0 e0 H1 H2 H3 H4 Fi Lg) as (s0 & pgs & a & gl & E' & I). rewrite E in E'. injection E' as <-.
  destruct (videoFirst_spec l) as (A & B). cbv zeta in A, B. set (m := videoFirst l) in *. unfold held_back, waits. cbv zeta.
  assert (Fp : fits v (map pk (all_stored v ops))) by apply Fi. destruct (Fp (map pk (all_stored v ops)) [] ltac:(rewrite app_nil_r; reflexivity)) as (S1 & S2 & _).
  destruct (l_inv _ _ _ _ _ _ _ _ _ I) as (_ & T & Kp & _). destruct (tables_of _ _ _ _ eq_refl T) as (_ & (T1 & T2 & _ & T4) & _).
  rewrite (l_vid _ _ _ _ _ _ _ _ _ I) in *. set (gs := groups v (map pk (all_stored v ops))) in *. set (d := levictions ops) in *.
  assert (Gl : (List.length gs < Z.to_nat (2 ^ 31))%nat) by (pose proof (groups_len v (map pk (all_stored v ops))); fold gs in H; lia).
  assert (Kd : (d <= List.length gs)%nat). { destruct (kept_key _ _ _ Kp) as [Q | (Q1 & Q2)]; fold gs in Q || fold gs in Q1; [lia |]. rewrite Q2. lia. }
  unfold firstValid, keyTime. rewrite T1, T2. unfold u32.
  rewrite (Z.mod_small (Z.of_nat d)), (Z.mod_small (Z.of_nat (List.length gs))) by lia. rewrite (Z.mod_small (Z.of_nat _ - _)) by lia. rewrite (Z.mod_small (Z.of_nat d + 1)) by lia.
  assert (Kt : (d + 2 <= List.length gs)%nat -> k_time (at_ (keys (tk (x_live x))) (Z.of_nat d + 1)) = key_time gs (Z.of_nat d + 1)).
  { intros L. destruct (nth_some gs (S d) ltac:(lia)) as (g & Eg). specialize (T4 _ _ Eg ltac:(lia)). replace (Z.of_nat (S d)) with (Z.of_nat d + 1) in T4 by lia. rewrite T4. unfold key_time.
    replace (Z.to_nat (Z.of_nat d + 1)) with (S d) by lia. rewrite Eg. reflexivity. }
  rewrite Forall_forall in Ft. split.
  - intros H. apply andb_prop in H as (H & Hc). apply andb_prop in H as (Ha & Hb).
    split. { intros Q. rewrite Q, beqb_refl in Ha. discriminate Ha. }
    destruct B as [B | (z & Z1 & Z2 & Z3 & Z4)]; [rewrite B in Hb; discriminate Hb |]. exists z. split; [exact Z1 |]. split; [exact Z2 |]. split; [exact Z3 |].
    apply Bool.orb_true_iff in Hc as [Hc | Hc]; apply Z.ltb_lt in Hc; [left; lia |]. destruct (Nat.lt_ge_cases (List.length gs) (d + 2)) as [G | G]; [left; exact G |]. right. rewrite Kt in Hc by exact G. lia.
  - intros (N & z & Z1 & Z2 & Z3 & Z4). pose proof (A z Z1 Z2 Z3) as Am. destruct (Ft z Z1) as (F1 & _).
    destruct (beqb (x_type x) (bs "video")) eqn:Q; [apply beqb_eq in Q; congruence |]. destruct (Z.eqb_spec m (2 ^ 64 - 1)); [lia |]. cbn [negb andb].
    apply Bool.orb_true_iff. destruct (Nat.lt_ge_cases (List.length gs) (d + 2)) as [G | G]; [left; apply Z.ltb_lt; lia |]. right. rewrite Kt by exact G. apply Z.ltb_lt. lia.
Qed.
Lemma manage_ok bt cut l x v ops : 0 <= bt < 2 ^ 64 -> Forall times_ok l -> lreached SIZE FLIP DURATION v ops (x_live x) ->
  exists y, manage (videoFirst l) true bt cut x = Done y.
Proof.
  intros Hb Ft Re. unfold manage. destruct (_ || _); [eauto |]. destruct (manage_track_ok SIZE FLIP DURATION HS HF v ops (x_live x) bt cut Hb Re) as (s' & n & E & _). rewrite E. eauto.
Qed.
Lemma manage_managed bt cut l x y : 0 <= bt < 2 ^ 64 -> Forall times_ok l -> manage (videoFirst l) true bt cut x = Done y -> managed SIZE FLIP DURATION bt cut l x y.
Proof.
  intros Hb Ft E. unfold managed.
  assert (Same : x_tid y = x_tid x /\ x_type y = x_type x /\ x_updated y = x_updated x /\ x_loaded y = x_loaded x /\ x_embedded y = x_embedded x).
  { unfold manage in E. destruct (_ || _); [injection E as <-; auto |]. destruct (manageTrack _ _ _ _); try discriminate. injection E as <-. cbn. auto. }
  destruct Same as (M1 & M2 & M3 & M4 & M5). do 5 (split; [assumption |]). intros v ops Re. cbv zeta. unfold manage in E.
  assert (Wk : forall ps d, window_kept v ps d d bt cut) by (intros ps d j Hj _; left; exact Hj).
  pose proof (held_back_iff v ops l x Re Ft) as Hw.
  destruct (negb (x_loaded x) || x_embedded x || held_back (videoFirst l) x) eqn:C.
  - injection E as <-. exists O. cbn [repeat]. rewrite app_nil_r, Nat.add_0_r. split; [exact Re |]. split; [reflexivity |]. split; [reflexivity |]. split; [apply Wk |]. split; [lia |].
    intros L1 L2 L3. exfalso. rewrite L1, L2 in C. cbn [negb orb] in C. apply L3, Hw, C.
  - destruct (manage_track_ok SIZE FLIP DURATION HS HF v ops (x_live x) bt cut Hb Re) as (s' & n & E' & Ln & Re' & W & Cd & Sd & En). rewrite E' in E. injection E as <-. cbn [x_live].
    exists n. split; [exact Re' |]. split.
    { intros ->. cbn [repeat lrun] in Ln. injection Ln as <-. destruct x; reflexivity. }
    split; [| split; [exact W |]; split; [exact En | intros _ _ _; auto]].
    intros [Q | [Q | Q]]; exfalso; [rewrite Q in C | rewrite Q, Bool.orb_true_r in C | apply Hw in Q; rewrite Q, Bool.orb_true_r in C]; discriminate C.
Qed.
Lemma manageAll_ok bt cut l : 0 <= bt < 2 ^ 64 -> Forall times_ok l -> forall m, Forall (fun x => exists v ops, lreached SIZE FLIP DURATION v ops (x_live x)) m ->
  exists r, manageAll (videoFirst l) true bt cut m = Done r /\ Forall2 (managed SIZE FLIP DURATION bt cut l) m r.
Proof.
  intros Hb Ft. induction 1 as [| x m (v & ops & Re) F (r & E & IH)]; cbn [manageAll]; [exists []; split; [reflexivity | constructor] |].
  destruct (manage_ok bt cut l x v ops Hb Ft Re) as (y & Ey). rewrite Ey, E. exists (y :: r). split; [reflexivity |]. constructor; [| exact IH]. apply manage_managed; assumption.
Qed.
End Stream.
