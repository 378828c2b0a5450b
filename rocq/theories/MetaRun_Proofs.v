From Verif Require Import Common CommonFacts Meta_Model Meta_Spec Meta_Proofs MetaUpd_Proofs.

Definition key_pre (gs : list (list packet)) (p : packet) (j : nat) (g : list packet) : key :=
  let k := key_of gs j g in
  if (S j =? List.length gs)%nat
  then mkkey (k_firstpart k) (k_bpos k) (k_dur k) (k_num k) (k_parts k - 1) (k_time k) (k_size k - sendSize p) else k.

Lemma holds_ext {A B} (t : tbl B) a (l : list A) f f' : (forall i x, nth_error l i = Some x -> f i x = f' i x) -> holds t a l f -> holds t a l f'.
Proof. intros E (H1 & H2 & H3 & H4). repeat split; try assumption. intros i x Ex L. rewrite <- E by exact Ex. apply H4; assumption. Qed.
Lemma key_new_pre gs p j g : nth_error (gs ++ [[p]]) j = Some g -> key_new (gs ++ [[p]]) (List.length gs) p j g = key_pre (gs ++ [[p]]) p j g.
Proof.
  intros E. unfold key_new, key_pre. rewrite app_length. cbn [List.length].
  apply nth_snoc in E as [(L & E) | (-> & ->)].
  - destruct (Nat.eqb_spec j (List.length gs)); [lia |]. destruct (Nat.eqb_spec (S j) (List.length gs + 1)); [lia | reflexivity].
  - rewrite Nat.eqb_refl. destruct (Nat.eqb_spec (S (List.length gs)) (List.length gs + 1)); [| lia].
    unfold key_of. cbn [k_firstpart k_bpos k_dur k_num k_parts k_time k_size List.length gtime start total fold_right].
    destruct (nth_error (gs ++ [[p]]) (S (List.length gs))) eqn:Z1.
    { assert (S (List.length gs) < List.length (gs ++ [[p]]))%nat by (apply nth_error_Some; congruence).
      rewrite app_length in *. cbn [List.length] in *. lia. }
    change (lasttime [p]) with (p_time p). f_equal; lia.
Qed.
Lemma lasttime_app a g : g <> [] -> lasttime (a ++ g) = lasttime g.
Proof. intros H. destruct (rev_case g) as [-> | (r & x & ->)]; [congruence |]. rewrite app_assoc, !lasttime_snoc. reflexivity. Qed.
Lemma sendSize_nonneg p : packet_ok p -> 0 <= sendSize p < 2 ^ 64.
Proof. intros (_ & _ & _ & _ & H & _). unfold sendSize. destruct (p_send p =? 0); [unfold u64; lia | lia]. Qed.

Lemma growKey_ok t d p r g n :
  rings t -> holds (keys t) d (r ++ [g]) (key_of (r ++ [g])) -> (d <= List.length r)%nat -> g <> [] ->
  pt_dur (at_ (parts t) (n - 1)) = p_time p - lasttime g -> 0 <= lasttime g - gtime g -> lasttime g <= p_time p -> p_time p - gtime g < 2 ^ 32 ->
  let gs' := r ++ [g ++ [p]] in
  holds (keys (growKey t n)) d gs' (key_pre gs' p).
Proof.
  intros R H D GN PD O1 O2 O3. cbv zeta. assert (H' := H). destruct H' as (H1 & H2 & H3 & H4).
  rewrite app_length in H2. cbn [List.length] in H2.
  unfold growKey. rewrite H2. set (k := Z.of_nat (List.length r + 1) - 1).
  assert (Ek : k = Z.of_nat (List.length r)) by lia.
  assert (Rk : 1 <= t_rc (keys t) /\ t_end (keys t) - t_del (keys t) <= t_rc (keys t)) by (destruct R as (_ & ? & _); rok; lia).
  pose proof (H4 _ _ (nth_mid r [] g) D) as Hl. rewrite <- Ek in Hl.
  rewrite Hl, PD. cbn [with_keys keys]. unfold holds.
  match goal with |- t_del ?q = _ /\ _ => set (q' := q) end.
  change (t_del q') with (t_del (keys t)). change (t_end q') with (t_end (keys t)). change (t_pres q') with (t_pres (keys t)).
  split; [exact H1 |]. rewrite app_length. cbn [List.length]. split; [lia |]. split; [lia |].
  intros i x Ex Li. assert (Ri : (i < List.length (r ++ [g ++ [p]]))%nat) by (apply nth_error_Some; congruence).
  rewrite app_length in Ri. cbn [List.length] in Ri. unfold q'. rewrite at_upd by lia.
  unfold key_pre. rewrite app_length. cbn [List.length].
  assert (Z1 : nth_error (r ++ [g]) (S (List.length r)) = None) by (apply nth_error_None; rewrite app_length; cbn [List.length]; lia).
  assert (Z2 : nth_error (r ++ [g ++ [p]]) (S (List.length r)) = None) by (apply nth_error_None; rewrite app_length; cbn [List.length]; lia).
  apply nth_snoc in Ex as [(L & Ex) | (-> & ->)].
  - destruct (Z.eqb_spec (Z.of_nat i) k); [lia |]. destruct (Nat.eqb_spec (S i) (List.length r + 1)); [lia |].
    rewrite (H4 i x); [| rewrite nth_error_app1 by lia; exact Ex | exact Li].
    unfold key_of. rewrite !before_app by lia.
    destruct (Nat.eq_dec (S i) (List.length r)) as [Q | Q].
    + rewrite Q, !nth_mid. unfold gtime. rewrite start_snoc_ne by exact GN. reflexivity.
    + rewrite !nth_error_app1 by lia. reflexivity.
  - rewrite Ek, Z.eqb_refl. destruct (Nat.eqb_spec (S (List.length r)) (List.length r + 1)); [| lia].
    rewrite <- Ek, Hl. unfold k_dur_, key_of. cbn [k_firstpart k_bpos k_dur k_num k_parts k_time k_size].
    rewrite Z1, Z2. rewrite !before_app by lia. unfold gtime in *. rewrite !start_snoc_ne by exact GN.
    rewrite lasttime_snoc, total_app, app_length. cbn [total fold_right List.length].
    f_equal; try lia. unfold u32, u64. rewrite !Z.mod_small; lia.
Qed.

Lemma account_ok t d a p gs fs :
  rings t -> holds (keys t) d gs (key_pre gs p) -> holds (frags t) a fs (frag_pre fs p) ->
  (d < List.length gs)%nat -> (a < List.length fs)%nat -> packet_ok p ->
  Forall (fun g => 0 <= total sendSize g - sendSize p /\ total sendSize g < 2 ^ 32) (skipn (List.length gs - 1) gs) ->
  Forall (fun f => 0 <= total (total p_size) f - p_size p /\ total (total p_size) f < 2 ^ 32) (skipn (List.length fs - 1) fs) ->
  Forall (fun g => Z.of_nat (List.length g) < 2 ^ 32) gs ->
  let t' := account t p in
  rings t' /\ parts t' = parts t /\ holds (keys t') d gs (key_of gs) /\ holds (frags t') a fs (frag_of fs) /\
  video t' = video t /\ firstms t' = firstms t /\ lastms t' = p_time p /\ nowms t' = p_time p /\ missed t' = missed t.
Proof.
  intros (R1 & R2 & R3) (K1 & K2 & K3 & K4) (F1 & F2 & F3 & F4) D A P BK BF BL. cbv zeta.
  unfold account. rewrite K2, F2.
  set (k := Z.of_nat (List.length gs) - 1). set (m := Z.of_nat (List.length fs) - 1).
  assert (RK : 1 <= t_rc (keys t) /\ t_end (keys t) - t_del (keys t) <= t_rc (keys t)) by (rok; lia).
  assert (RF : 1 <= t_rc (frags t) /\ t_end (frags t) - t_del (frags t) <= t_rc (frags t)) by (rok; lia).
  cbn [with_lastms with_frags with_keys parts keys frags video lastms nowms missed firstms].
  assert (Tp : u64 (p_time p) = p_time p) by (destruct P as (P1 & _); unfold u64; rewrite Z.mod_small; lia).
  rewrite Tp. split. { unfold rings. cbn [with_lastms with_frags with_keys parts keys frags]. split; [exact R1 |]. split; repeat apply upd_ringok; assumption. }
  split; [reflexivity |].
  assert (Sl : forall (X : Type) (l : list X) x, nth_error l (List.length l - 1) = Some x -> skipn (List.length l - 1) l = [x]).
  { intros X l x E. destruct (rev_case l) as [-> | (r & y & ->)]; [discriminate |].
    rewrite app_length in *. cbn [List.length] in *. replace (List.length r + 1 - 1)%nat with (List.length r) in * by lia.
    rewrite nth_mid in E. injection E as ->. rewrite skipn_app, Nat.sub_diag, skipn_all. reflexivity. }
  split; [| split; [| auto 10]].
  - unfold holds. match goal with |- t_del ?q = _ /\ _ => set (q' := q) end.
    change (t_del q') with (t_del (keys t)). change (t_end q') with (t_end (keys t)). change (t_pres q') with (t_pres (keys t)).
    split; [exact K1 |]. split; [exact K2 |]. split; [exact K3 |].
    intros i x Ex Li. assert (Ri : (i < List.length gs)%nat) by (apply nth_error_Some; congruence).
    unfold q'. rewrite !at_upd by (rewrite ?rc_upd; lia). rewrite Z.eqb_refl.
    destruct (Z.eqb_spec (Z.of_nat i) k) as [Q | Q].
    + rewrite <- Q. rewrite (K4 i x Ex Li). unfold key_pre. destruct (Nat.eqb_spec (S i) (List.length gs)); [| lia].
      assert (i = List.length gs - 1)%nat by lia. subst i.
      rewrite (Sl _ gs x Ex) in BK. apply Forall_inv in BK.
      rewrite Forall_forall in BL. specialize (BL _ (nth_error_In _ _ Ex)).
      unfold k_parts_, k_size_, key_of. cbn [k_firstpart k_bpos k_dur k_num k_parts k_time k_size].
      pose proof (sendSize_nonneg p P).
      f_equal; unfold u32, u64; rewrite ?Z.mod_small; lia.
    + rewrite (K4 i x Ex Li). unfold key_pre. destruct (Nat.eqb_spec (S i) (List.length gs)); [lia | reflexivity].
  - unfold holds. match goal with |- t_del ?q = _ /\ _ => set (q' := q) end.
    change (t_del q') with (t_del (frags t)). change (t_end q') with (t_end (frags t)). change (t_pres q') with (t_pres (frags t)).
    split; [exact F1 |]. split; [exact F2 |]. split; [exact F3 |].
    intros i x Ex Li. assert (Ri : (i < List.length fs)%nat) by (apply nth_error_Some; congruence).
    unfold q'. rewrite !at_upd by (rewrite ?rc_upd; lia).
    destruct (Z.eqb_spec (Z.of_nat i) m) as [Q | Q].
    + rewrite <- Q. rewrite (F4 i x Ex Li). unfold frag_pre. destruct (Nat.eqb_spec (S i) (List.length fs)); [| lia].
      assert (i = List.length fs - 1)%nat by lia. subst i.
      rewrite (Sl _ fs x Ex) in BF. apply Forall_inv in BF.
      unfold f_size_, frag_of. cbn [f_dur f_keys f_first f_size]. destruct P as (_ & _ & P3 & _).
      f_equal; unfold u32, u64; rewrite ?Z.mod_small; lia.
    + rewrite (F4 i x Ex Li). unfold frag_pre. destruct (Nat.eqb_spec (S i) (List.length fs)); [lia | reflexivity].
Qed.

(** * One packet *)
Definition kept (v : bool) (ps : list packet) (d : nat) : Prop :=
  ps = [] /\ d = O \/
  exists s f, fragments (groups v ps) = s ++ [f] /\ Z.of_nat d <= before (List.length s) (fragments (groups v ps)).
Definition inv (t : track) (ps : list packet) (d : nat) : Prop :=
  rings t /\ tables t ps d /\ kept (video t) ps d /\ (forall q, In q ps -> 0 <= p_time q <= lasttime ps).

Lemma groups_nil v ps : groups v ps = [] -> ps = [].
Proof. intros E. rewrite <- (groups_concat v ps), E. reflexivity. Qed.
Lemma fragments_nil gs : fragments gs = [] -> gs = [].
Proof. intros E. rewrite <- (fragments_concat gs), E. reflexivity. Qed.
Lemma before_lt {A} (gs : list (list A)) j : Forall (fun g => g <> []) gs -> (j < List.length gs)%nat -> before j gs < Z.of_nat (List.length (List.concat gs)).
Proof.
  intros N L. pose proof (before_strict gs j (List.length gs) N ltac:(lia)) as H.
  pose proof (before_bound gs (List.length gs)). lia.
Qed.
Lemma kept_key v ps d : kept v ps d -> (d < List.length (groups v ps))%nat \/ groups v ps = [] /\ d = O.
Proof.
  intros [(-> & ->) | (s & f & E & L)]; [right; auto |]. left.
  pose proof (before_lt (fragments (groups v ps)) (List.length s) (fragments_nonempty _)) as H.
  rewrite fragments_concat in H. rewrite E in H at 1. rewrite app_length in H. cbn [List.length] in H. lia.
Qed.
Lemma kept_part v ps d : kept v ps d -> (Z.to_nat (before d (groups v ps)) < List.length ps)%nat \/ ps = [] /\ Z.to_nat (before d (groups v ps)) = O.
Proof.
  intros K. pose proof (kept_key _ _ _ K) as [L | (E & ->)].
  - left. pose proof (before_lt (groups v ps) d (groups_nonempty _ _) L) as H. rewrite groups_concat in H.
    pose proof (before_bound (groups v ps) d). lia.
  - right. split; [apply (groups_nil v), E |]. rewrite E. reflexivity.
Qed.
Lemma kept_frag v ps d : kept v ps d -> (expired d (fragments (groups v ps)) < List.length (fragments (groups v ps)))%nat \/ ps = [] /\ d = O.
Proof.
  intros [K | (s & f & E & L)]; [right; exact K |]. left.
  destruct (expired_spec d (fragments (groups v ps)) (fragments_nonempty _)) as (X1 & X2).
  rewrite E at 2. rewrite app_length. cbn [List.length].
  destruct (Nat.lt_ge_cases (expired d (fragments (groups v ps))) (List.length s + 1)) as [G | G]; [exact G |].
  assert (Ls : (List.length s < List.length (fragments (groups v ps)))%nat) by (rewrite E, app_length; cbn [List.length]; lia).
  assert (G' : (List.length s < expired d (fragments (groups v ps)))%nat) by lia. apply X2 in G'; [lia | exact Ls].
Qed.

(** The fragments when the newest key grows. *)
Lemma fragments_grow r g p : g <> [] -> exists s h,
  fragments (r ++ [g]) = s ++ [h ++ [g]] /\ fragments (r ++ [g ++ [p]]) = s ++ [h ++ [g ++ [p]]].
Proof.
  intros N. rewrite !fragments_snoc. destruct (rev_case (fragments r)) as [-> | (s & f & ->)].
  - exists [], []. split; reflexivity.
  - rewrite !join_snoc. assert (E : frag_opens f (g ++ [p]) = frag_opens f g) by (destruct g; [congruence | reflexivity]).
    rewrite E. destruct (frag_opens f g).
    + exists (s ++ [f]), []. split; reflexivity.
    + exists s, f. split; reflexivity.
Qed.
Lemma before_len {A} (s : list (list A)) a b j : List.length a = List.length b -> before j (s ++ [a]) = before j (s ++ [b]) .
Proof.
  intros L. destruct (Nat.le_gt_cases j (List.length s)) as [G | G].
  - rewrite !before_app by exact G. reflexivity.
  - unfold before. rewrite !firstn_all2 by (rewrite app_length; cbn [List.length]; lia).
    rewrite !concat_app, !app_length. cbn [List.concat]. rewrite !app_nil_r. lia.
Qed.
Lemma before_ext {A B} (a : list (list A)) (b : list (list B)) : map (@List.length A) a = map (@List.length B) b -> forall j, before j a = before j b.
Proof.
  unfold before. revert b. induction a as [| x a IH]; intros [| y b] E j; try discriminate. { rewrite !firstn_nil. reflexivity. }
  cbn [map] in E. injection E as E1 E2. destruct j as [| j]; [reflexivity |]. cbn [firstn List.concat]. rewrite !app_length.
  specialize (IH b E2 j). lia.
Qed.
Lemma expired_len {A} d (a b : list (list A)) : map (@List.length A) a = map (@List.length A) b -> expired d a = expired d b.
Proof.
  intros E. unfold expired. assert (L : List.length a = List.length b) by (rewrite <- (map_length (@List.length A) a), E, map_length; reflexivity).
  rewrite L. f_equal. apply filter_ext. intros j. rewrite (before_ext a b E). reflexivity.
Qed.
Lemma expired_stable {A} d (fs fs' : list (list A)) : Forall (fun g => g <> []) fs -> Forall (fun g => g <> []) fs' ->
  (List.length fs <= List.length fs')%nat -> (forall j, (j < List.length fs)%nat -> before j fs' = before j fs) ->
  (forall j, (List.length fs <= j < List.length fs')%nat -> Z.of_nat d <= before j fs') -> expired d fs' = expired d fs.
Proof.
  intros N N' L E G. destruct (expired_spec d fs N) as (X1 & X2). apply expired_unique; [exact N' | lia |].
  intros j Lj. destruct (Nat.lt_ge_cases j (List.length fs)) as [C | C].
  - rewrite (E j C). apply X2, C.
  - specialize (G j ltac:(lia)). lia.
Qed.
(** The fragments when a key is added. *)
Lemma fragments_add gs p d : gs = [] /\ d = O \/ (exists s f, fragments gs = s ++ [f] /\ Z.of_nat d <= before (List.length s) (fragments gs)) ->
  let fs := fragments gs in let fs' := fragments (gs ++ [[p]]) in
  expired d fs' = expired d fs /\ (exists s f, fs' = s ++ [f] /\ Z.of_nat d <= before (List.length s) fs') /\
  (exists s f, fs' = s ++ [f ++ [[p]]]).
Proof.
  intros W fs fs'.
  assert (FC : List.concat fs = gs) by apply fragments_concat.
  pose proof (fragments_nonempty gs) as N. pose proof (fragments_nonempty (gs ++ [[p]])) as N'. fold fs in N. fold fs' in N'.
  assert (E : fs' = join frag_opens fs [p]) by apply fragments_snoc.
  destruct W as [(-> & ->) | (s & f & Es & L)].
  - rewrite E. change fs with (@nil (list (list packet))). split; [reflexivity |]. split; [exists [], [[p]]; split; [reflexivity | cbn; lia] |].
    exists [], []; reflexivity.
  - fold fs in Es, L.
    assert (D : Z.of_nat d < Z.of_nat (List.length gs)).
    { rewrite <- FC. pose proof (before_lt fs (List.length s) N) as B. rewrite Es in B at 1. rewrite app_length in B. cbn [List.length] in B. lia. }
    assert (J : fs' = if frag_opens f [p] then (s ++ [f]) ++ [[[p]]] else s ++ [f ++ [[p]]]) by (rewrite E, Es, join_snoc; reflexivity).
    destruct (frag_opens f [p]).
    + rewrite <- Es in J. split; [| split].
      * apply expired_stable; try assumption.
        -- rewrite J, app_length. lia.
        -- intros j Lj. rewrite J. apply before_app. lia.
        -- intros j Lj. rewrite J, app_length in Lj. cbn [List.length] in Lj. replace j with (List.length fs) by lia. rewrite J, before_all, FC. lia.
      * exists fs, [[p]]. split; [exact J |]. rewrite J, before_all, FC. lia.
      * exists fs, []. exact J.
    + split; [| split].
      * apply expired_stable; try assumption.
        -- rewrite J, Es, !app_length. cbn [List.length]. lia.
        -- intros j Lj. rewrite Es, app_length in Lj. cbn [List.length] in Lj. rewrite J, Es, !before_app by lia. reflexivity.
        -- intros j Lj. rewrite J, Es, !app_length in Lj. cbn [List.length] in Lj. lia.
      * exists s, (f ++ [[p]]). split; [exact J |]. rewrite J, before_app by lia. rewrite Es, before_app in L by lia. exact L.
      * exists s, f. exact J.
Qed.
Lemma fits_prefix v ps p : fits v (ps ++ [p]) -> fits v ps /\ small v (ps ++ [p]).
Proof.
  intros F. split.
  - intros q r E. apply (F q (r ++ [p])). rewrite E, app_assoc. reflexivity.
  - apply (F _ []). rewrite app_nil_r. reflexivity.
Qed.
Lemma tables_of t ps d gs : gs = groups (video t) ps -> tables t ps d ->
  holds (parts t) (Z.to_nat (before d gs)) ps (part_of ps) /\ holds (keys t) d gs (key_of gs) /\
  holds (frags t) (expired d (fragments gs)) (fragments gs) (frag_of (fragments gs)) /\
  firstms t = match nth_error gs d with Some g => gtime g | None => 0 end /\
  lastms t = lasttime ps /\ nowms t = lasttime ps /\ missed t = Z.of_nat (expired d (fragments gs)).
Proof. intros -> H. exact H. Qed.
Lemma last_skip {A} (l : list A) x : skipn (List.length (l ++ [x]) - 1) (l ++ [x]) = [x].
Proof. rewrite app_length. cbn [List.length]. replace (List.length l + 1 - 1)%nat with (List.length l) by lia. rewrite skipn_app, Nat.sub_diag, skipn_all. reflexivity. Qed.

Lemma update_ok t ps d p : inv t ps d -> lasttime ps <= p_time p -> small (video t) (ps ++ [p]) ->
  exists t', update t p = Done t' /\ inv t' (ps ++ [p]) d /\ video t' = video t.
Proof.
  intros (R & T & K & O) A S. set (v := video t) in *. set (gs := groups v ps).
  destruct (tables_of t ps d gs eq_refl T) as (TP & TK & TF & T1 & T2 & T3 & T4). clear T.
  set (fs := fragments gs) in *.
  destruct S as (S1 & S2 & S3 & S4 & S5 & S6 & S7).
  rewrite app_length in S1. cbn [List.length] in S1.
  apply Forall_app in S2 as (S2 & S2'). apply Forall_inv in S2' as PK.
  unfold update. rewrite T2. destruct (Z.ltb_spec (p_time p) (lasttime ps)); [lia |].
  assert (NP : t_end (parts t) = Z.of_nat (List.length ps)) by apply TP. rewrite NP.
  assert (GapP : ps <> [] -> p_time p - lasttime ps < 65536).
  { intros NE. destruct (rev_case ps) as [E | (r & x & E)]; [congruence |].
    rewrite E, lasttime_snoc. apply (S3 (List.length r) x p).
    - rewrite E, <- app_assoc. apply nth_mid.
    - rewrite E. replace (Datatypes.S (List.length r)) with (List.length (r ++ [x])) by (rewrite app_length; cbn [List.length]; lia). apply nth_mid. }
  destruct (addPart_ok t ps (Z.to_nat (before d gs)) p R TP (kept_part _ _ _ K) T2 A GapP PK ltac:(lia))
    as (Ra & AK & AF & AP & V1 & L1 & N1 & X1 & FM).
  set (t1 := addPart t p) in *.
  assert (GN : Forall (fun g => g <> []) gs) by apply groups_nonempty.
  assert (GC : List.concat gs = ps) by apply groups_concat.
  assert (Gl : (List.length gs <= List.length ps)%nat).
  { rewrite <- GC. clear - GN. induction gs as [| f gs IH]; [cbn; lia |]. inversion GN; subst. cbn [List.concat List.length]. rewrite app_length.
    specialize (IH ltac:(assumption)). destruct f; [congruence |]. cbn [List.length]. lia. }
  assert (GT : forall g, In g gs -> 0 <= gtime g <= p_time p).
  { intros g Hg. assert (g <> []) by (rewrite Forall_forall in GN; auto). destruct g as [| x g]; [congruence |].
    cbn [gtime start]. assert (In x ps) by (rewrite <- GC; apply in_concat; exists (x :: g); split; [exact Hg | left; reflexivity]).
    specialize (O x ltac:(assumption)). lia. }
  assert (EG : groups v (ps ++ [p]) = join (key_opens v) gs p) by apply groups_snoc.
  pose proof (holds_agree _ _ _ _ _ TK AK) as TK1. pose proof (holds_agree _ _ _ _ _ TF AF) as TF1.
  assert (OK : opensKey t1 p = match rev gs with [] => true | g :: _ => key_opens v g p end).
  { unfold opensKey. destruct TK1 as (_ & J2 & _ & J4). rewrite J2, V1. fold v.
    destruct (rev_case gs) as [E | (r & g & E)].
    - rewrite E. cbn [List.length rev]. change (Z.of_nat 0 =? 0) with true. rewrite orb_true_r. reflexivity.
    - rewrite E, rev_app_distr. cbn [rev app]. rewrite app_length. cbn [List.length].
      destruct (Z.eqb_spec (Z.of_nat (List.length r + 1)) 0); [lia |]. rewrite orb_false_r.
      replace (Z.of_nat (List.length r + 1) - 1) with (Z.of_nat (List.length r)) by lia.
      destruct (kept_key _ _ _ K) as [D | (D & _)]; [| fold gs in D; rewrite D in E; destruct r; discriminate].
      fold gs in D. rewrite E, app_length in D. cbn [List.length] in D.
      rewrite (J4 (List.length r) g); [| apply nth_last, E | lia]. cbn [key_of k_time].
      assert (Hg : In g gs) by (rewrite E; apply in_or_app; right; left; reflexivity). specialize (GT g Hg).
      destruct PK as (PK & _). unfold key_opens, AUDIO_KEY_INTERVAL. unfold u64. rewrite Z.mod_small by lia. reflexivity. }
  rewrite OK.
  assert (W : gs = [] /\ d = 0%nat \/ exists s f, fs = s ++ [f] /\ Z.of_nat d <= before (List.length s) fs).
  { destruct K as [(E & ->) | K]; [left; split; [unfold gs; rewrite E; reflexivity | reflexivity] | right; exact K]. }
  assert (LT : lasttime (ps ++ [p]) = p_time p) by apply lasttime_snoc.
  assert (O' : forall q, In q (ps ++ [p]) -> 0 <= p_time q <= lasttime (ps ++ [p])).
  { intros q Hq. rewrite LT. apply in_app_or in Hq as [Hq | [<- | []]]; [specialize (O q Hq); lia | destruct PK; lia]. }
  set (opens := match rev gs with [] => true | g :: _ => key_opens v g p end) in *.
  assert (KB : t_end (keys t1) = Z.of_nat (List.length gs)) by apply TK1.
  destruct opens eqn:Op.
  - (* a new key *)
    assert (EG' : groups v (ps ++ [p]) = gs ++ [[p]]).
    { rewrite EG. destruct (rev_case gs) as [E | (r & g & E)]; [rewrite E; reflexivity |].
      unfold opens in Op. rewrite E, rev_app_distr in Op. cbn [rev app] in Op. rewrite E, join_snoc, Op. reflexivity. }
    rewrite EG' in *.
    destruct (addKey_ok t1 ps d p gs Ra TK1 (kept_key _ _ _ K) ltac:(rewrite GC; lia) GN PK ltac:(lia) S2 GC) as (Rb & BP & BF & BK & V2 & L2 & N2 & X2 & FM2).
    { intros g r E. split; [assert (Hg : In g gs) by (rewrite E; apply in_or_app; right; left; reflexivity); specialize (GT g Hg); lia |].
      specialize (S4 (List.length r) g [p]). cbn [gtime start] in S4. apply S4.
      - rewrite E, <- app_assoc. apply nth_mid.
      - rewrite E. replace (Datatypes.S (List.length r)) with (List.length (r ++ [g])) by (rewrite app_length; cbn [List.length]; lia). apply nth_mid. }
    set (t2 := addKey t1 p) in *. rewrite KB.
    pose proof (holds_agree _ _ _ _ _ TF1 BF) as TF2.
    assert (S7a : Forall (fun f => Z.of_nat (List.length f) < 65536) (fragments (gs ++ [[p]]))).
    { eapply Forall_impl; [| exact S7]. cbv beta. intros x Hx. apply Hx. }
    destruct (addFrag_ok t2 d p gs Rb BK TF2 W GN GT PK ltac:(lia) S5 S7a)
      as (t3 & E3 & Rc & CP & CK & CF & V3 & FM3 & L3 & N3 & X3).
    rewrite E3.
    destruct (fragments_add gs p d W) as (XE & (s' & f' & Es' & Ls') & (s2 & f2 & Es2)).
    set (fs' := fragments (gs ++ [[p]])) in *. fold fs in XE, CF.
    assert (DL : (d <= List.length gs)%nat) by (pose proof (kept_key _ _ _ K) as [D | (_ & ->)]; [fold gs in D; lia | lia]).
    assert (Xlt : (expired d fs' < List.length fs')%nat).
    { destruct (expired_spec d fs' (fragments_nonempty _)) as (Y1 & Y2).
      rewrite Es' at 2. rewrite app_length. cbn [List.length].
      destruct (Nat.lt_ge_cases (expired d fs') (List.length s' + 1)) as [G | G]; [exact G |].
      assert (Ls : (List.length s' < List.length fs')%nat) by (rewrite Es', app_length; cbn [List.length]; lia).
      assert (G' : (List.length s' < expired d fs')%nat) by lia. apply Y2 in G'; [lia | exact Ls]. }
    pose proof (holds_agree _ _ _ _ _ BK CK) as CK'.
    apply (holds_ext _ _ _ _ _ (key_new_pre gs p)) in CK'.
    destruct (account_ok t3 d (expired d fs) p (gs ++ [[p]]) fs' Rc CK' CF) as (Rd & DP & DK & DF & V4 & FM4 & L4 & N4 & X4).
    + rewrite app_length. cbn [List.length]. lia.
    + rewrite <- XE. exact Xlt.
    + exact PK.
    + rewrite last_skip. apply Forall_app in S6 as (_ & S6). constructor; [| constructor]. apply Forall_inv in S6.
      destruct S6 as (_ & S6). split; [cbn [total fold_right]; lia | exact S6].
    + rewrite Es2, last_skip. rewrite Es2 in S7. apply Forall_app in S7 as (_ & S7). apply Forall_inv in S7. constructor; [| constructor].
      destruct S7 as (_ & S7). split; [| exact S7]. rewrite total_app. cbn [total fold_right].
      assert (0 <= total (total p_size) f2); [| lia].
      apply total_nonneg. intros x Hx. apply total_nonneg. intros y Hy.
      assert (In y ps \/ y = p) as [Hy' | ->].
      { assert (In x (gs ++ [[p]])).
        { rewrite <- (fragments_concat (gs ++ [[p]])). fold fs'. rewrite Es2. apply in_concat. exists (f2 ++ [[p]]).
          split; [apply in_or_app; right; left; reflexivity | apply in_or_app; left; exact Hx]. }
        apply in_app_or in H0 as [H0 | [<- | []]]; [left; rewrite <- GC; apply in_concat; exists x; auto | right; destruct Hy as [Hy | []]; auto]. }
      * rewrite Forall_forall in S2. destruct (S2 _ Hy') as (_ & _ & ? & _). lia.
      * destruct PK as (_ & _ & ? & _). lia.
    + apply Forall_app. split; [| repeat constructor; cbn; lia].
      apply Forall_forall. intros g Hg. apply in_split in Hg as (a & b & Eg).
      assert (List.length g <= List.length ps)%nat by (rewrite <- GC, Eg, concat_app, app_length; cbn [List.concat]; rewrite app_length; lia). lia.
    + eexists. split; [reflexivity |]. assert (Vt : video (account t3 p) = v) by (rewrite V4, V3, V2; exact V1).
      split; [| exact Vt].
      split; [exact Rd |]. split; [| split].
      * unfold tables. rewrite Vt, EG'. fold fs'. rewrite DP.
        split. { rewrite before_app by exact DL. eapply holds_agree; [| exact CP]. eapply holds_agree; [exact AP | exact BP]. }
        split; [exact DK |]. rewrite XE. split; [exact DF |].
        split; [rewrite FM4, FM3; exact FM2 |]. rewrite L4, N4, LT. split; [reflexivity |]. split; [reflexivity |].
        rewrite X4, X3, X2, X1. exact T4.
      * rewrite Vt. right. rewrite EG'. exists s', f'. split; [exact Es' | exact Ls'].
      * exact O'.
  - (* the newest key grows *)
    destruct (rev_case gs) as [E | (r & g & E)]; [unfold opens in Op; rewrite E in Op; discriminate |].
    assert (EG' : groups v (ps ++ [p]) = r ++ [g ++ [p]]).
    { unfold opens in Op. rewrite E, rev_app_distr in Op. cbn [rev app] in Op. rewrite EG, E, join_snoc, Op. reflexivity. }
    rewrite EG' in *.
    assert (gN : g <> []) by (rewrite E in GN; apply Forall_app in GN as (_ & GN); apply Forall_inv in GN; exact GN).
    assert (psE : ps = List.concat r ++ g) by (rewrite <- GC, E, concat_app; cbn [List.concat]; rewrite app_nil_r; reflexivity).
    assert (PN : ps <> []) by (rewrite psE; destruct (List.concat r); [exact gN | discriminate]).
    assert (LG : lasttime ps = lasttime g) by (rewrite psE; apply lasttime_app, gN).
    assert (DL : (d <= List.length r)%nat).
    { destruct (kept_key _ _ _ K) as [D | (D & _)]; fold gs in D; [| rewrite D in E; destruct r; discriminate].
      rewrite E, app_length in D. cbn [List.length] in D. lia. }
    assert (gI : In g gs) by (rewrite E; apply in_or_app; right; left; reflexivity).
    assert (gT : gtime g <= lasttime g).
    { destruct g as [| x g']; [congruence |]. rewrite <- LG. cbn [gtime start]. apply O. rewrite psE. apply in_or_app. right. left. reflexivity. }
    assert (S6l := S6). apply Forall_app in S6l as (_ & S6l). apply Forall_inv in S6l. destruct S6l as (S6a & S6b).
    rewrite lasttime_snoc in S6a. unfold gtime in S6a. rewrite start_snoc_ne in S6a by exact gN. fold (gtime g) in S6a.
    assert (PD : pt_dur (at_ (parts t1) (Z.of_nat (List.length ps) - 1)) = p_time p - lasttime g).
    { destruct AP as (_ & _ & _ & J4). destruct (rev_case ps) as [EP | (r0 & x0 & EP)]; [congruence |].
      replace (Z.of_nat (List.length ps) - 1) with (Z.of_nat (List.length r0)) by (rewrite EP, app_length; cbn [List.length]; lia).
      rewrite (J4 (List.length r0) x0).
      - unfold part_of. cbn [pt_dur]. replace (Datatypes.S (List.length r0)) with (List.length ps) by (rewrite EP, app_length; cbn [List.length]; lia).
        rewrite nth_mid. rewrite <- LG, EP, lasttime_snoc. reflexivity.
      - rewrite EP, <- app_assoc. apply nth_mid.
      - pose proof (kept_part _ _ _ K) as [D | (D & _)]; [| congruence]. fold gs in D. rewrite EP, app_length in D. cbn [List.length] in D. lia. }
    rewrite E in TK1.
    pose proof (growKey_ok t1 d p r g (Z.of_nat (List.length ps)) Ra TK1 DL gN PD ltac:(lia) ltac:(lia) S6a) as GK. cbv zeta in GK.
    destruct (fragments_grow r g p gN) as (s & h & F1 & F2).
    assert (Efs : fs = s ++ [h ++ [g]]) by (unfold fs; rewrite E; exact F1).
    set (fs' := fragments (r ++ [g ++ [p]])) in *.
    assert (LenE : map (@List.length _) fs' = map (@List.length _) fs).
    { rewrite F2, Efs, !map_app. cbn [map]. rewrite !app_length. reflexivity. }
    assert (XE : expired d fs' = expired d fs) by (apply expired_len, LenE).
    assert (FL : List.length fs' = List.length fs) by (rewrite <- (map_length (@List.length _) fs'), LenE, map_length; reflexivity).
    assert (Rg : rings (growKey t1 (Z.of_nat (List.length ps)))).
    { destruct Ra as (Ra1 & Ra2 & Ra3). unfold rings, growKey. cbn [with_keys parts keys frags].
      split; [exact Ra1 |]. split; [apply upd_ringok, Ra2 | exact Ra3]. }
    assert (GF : holds (frags (growKey t1 (Z.of_nat (List.length ps)))) (expired d fs) fs' (frag_pre fs' p)).
    { change (frags (growKey t1 (Z.of_nat (List.length ps)))) with (frags t1).
      destruct TF1 as (J1 & J2 & J3 & J4). unfold holds. rewrite FL. split; [exact J1 |]. split; [exact J2 |]. split; [exact J3 |].
      intros i x Ex Li. assert (Ri : (i < List.length fs')%nat) by (apply nth_error_Some; congruence).
      unfold frag_pre. unfold frag_of. rewrite (before_ext _ _ LenE). rewrite FL in *.
      rewrite Efs, app_length in Ri. cbn [List.length] in Ri.
      rewrite F2 in Ex. apply nth_snoc in Ex as [(L & Ex) | (-> & ->)].
      - destruct (Nat.eqb_spec (Datatypes.S i) (List.length fs)); [rewrite Efs, app_length in *; cbn [List.length] in *; lia |].
        rewrite (J4 i x); [| rewrite Efs, nth_error_app1 by lia; exact Ex | exact Li]. unfold frag_of.
        rewrite F2, Efs. destruct (Nat.eq_dec (Datatypes.S i) (List.length s)) as [Q | Q].
        + rewrite Q, !nth_mid. f_equal. f_equal. destruct h as [| h0 h']; [| reflexivity].
          cbn [app ftime start]. unfold gtime. rewrite start_snoc_ne by exact gN. reflexivity.
        + rewrite !nth_error_app1 by lia. reflexivity.
      - rewrite (J4 (List.length s) (h ++ [g])); [| apply nth_last, Efs | exact Li]. unfold frag_of.
        destruct (Nat.eqb_spec (Datatypes.S (List.length s)) (List.length fs)) as [Q | Q]; [| rewrite Efs, app_length in *; cbn [List.length] in *; lia].
        assert (Z1 : nth_error fs (Datatypes.S (List.length s)) = None) by (apply nth_error_None; lia).
        assert (Z2 : nth_error fs' (Datatypes.S (List.length s)) = None) by (apply nth_error_None; lia).
        rewrite Z1, Z2. cbn [f_dur f_keys f_first f_size]. rewrite !app_length, !total_app. cbn [List.length total fold_right].
        f_equal. rewrite !total_app. cbn [total fold_right]. lia. }
    assert (Xlt : (expired d fs < List.length fs')%nat).
    { rewrite FL. destruct (kept_frag _ _ _ K) as [D | (D & _)]; [exact D | congruence]. }
    destruct (account_ok (growKey t1 (Z.of_nat (List.length ps))) d (expired d fs) p (r ++ [g ++ [p]]) fs' Rg GK GF) as (Rd & DP & DK & DF & V4 & FM4 & L4 & N4 & X4).
    + rewrite app_length. cbn [List.length]. lia.
    + exact Xlt.
    + exact PK.
    + rewrite last_skip. constructor; [| constructor]. split; [| exact S6b]. rewrite total_app. cbn [total fold_right].
      assert (0 <= total sendSize g); [| lia]. apply total_nonneg. intros y Hy. apply sendSize_nonneg.
      rewrite Forall_forall in S2. apply S2. rewrite psE. apply in_or_app. right. exact Hy.
    + rewrite F2, last_skip. rewrite F2 in S7. apply Forall_app in S7 as (_ & S7). apply Forall_inv in S7. constructor; [| constructor].
      destruct S7 as (_ & S7). split; [| exact S7]. rewrite total_app. cbn [total fold_right]. rewrite total_app. cbn [total fold_right].
      assert (0 <= total p_size g).
      { apply total_nonneg. intros y Hy. rewrite Forall_forall in S2. assert (Iy : In y ps) by (rewrite psE; apply in_or_app; right; exact Hy).
        destruct (S2 _ Iy) as (_ & _ & ? & _). lia. }
      assert (0 <= total (total p_size) h); [| lia].
      apply total_nonneg. intros x Hx. apply total_nonneg. intros y Hy.
      assert (Ix : In x gs). { rewrite <- (fragments_concat gs). fold fs. rewrite Efs. apply in_concat. exists (h ++ [g]).
        split; [apply in_or_app; right; left; reflexivity | apply in_or_app; left; exact Hx]. }
      assert (Iy : In y ps) by (rewrite <- GC; apply in_concat; exists x; auto).
      rewrite Forall_forall in S2. destruct (S2 _ Iy) as (_ & _ & ? & _). lia.
    + apply Forall_forall. intros x Hx. rewrite <- EG' in Hx. apply in_split in Hx as (a & b & Eg).
      assert (List.length x <= List.length (ps ++ [p]))%nat by (rewrite <- (groups_concat v (ps ++ [p])), Eg, concat_app, app_length; cbn [List.concat]; rewrite app_length; lia).
      rewrite app_length in *. cbn [List.length] in *. lia.
    + eexists. split; [reflexivity |].
      assert (Vt : video (account (growKey t1 (Z.of_nat (List.length ps))) p) = v) by (rewrite V4; exact V1).
      split; [| exact Vt]. split; [exact Rd |]. split; [| split].
      * unfold tables. rewrite Vt, EG'. fold fs'. rewrite DP.
        change (parts (growKey t1 (Z.of_nat (List.length ps)))) with (parts t1).
        split. { rewrite E, before_app in AP by exact DL. rewrite before_app by exact DL. exact AP. }
        split; [exact DK |]. rewrite XE. split; [exact DF |].
        split.
        { rewrite FM4. change (firstms (growKey t1 (Z.of_nat (List.length ps)))) with (firstms t1). rewrite (FM PN), T1, E.
          destruct (Nat.eq_dec d (List.length r)) as [-> | Q].
          - rewrite !nth_mid. unfold gtime. rewrite start_snoc_ne by exact gN. reflexivity.
          - rewrite !nth_error_app1 by lia. reflexivity. }
        rewrite L4, N4, LT. split; [reflexivity |]. split; [reflexivity |].
        rewrite X4. change (missed (growKey t1 (Z.of_nat (List.length ps)))) with (missed t1). rewrite X1. exact T4.
      * rewrite Vt. right. rewrite EG'. fold fs'. destruct W as [(W & _) | (s0 & f0 & W1 & W2)]; [rewrite W in E; destruct r; discriminate |].
        rewrite Efs in W1. apply app_inj_tail in W1 as (W1 & W3). subst s0.
        exists s, (h ++ [g ++ [p]]). split; [exact F2 |]. rewrite (before_ext _ _ LenE). exact W2.
      * exact O'.
Qed.

(** * Evicting a key *)
Lemma delete_ok {A B} (t : tbl B) a n (l : list A) f : ringok t -> holds t a l f -> (a + n <= List.length l)%nat ->
  exists t', deleteRecords t (Z.of_nat n) = Done t' /\ ringok t' /\ holds t' (a + n) l f /\ (forall i, at_ t' i = at_ t i).
Proof.
  intros (R1 & R2 & R3 & R4 & R5 & R6) (H1 & H2 & H3 & H4) L. unfold deleteRecords.
  destruct (Z.ltb_spec (t_pres t) (Z.of_nat n)); [lia |].
  eexists. split; [reflexivity |]. unfold ringok, holds, at_, slot, u32, u64. cbn [t_rc t_start t_del t_pres t_end t_cell].
  rewrite !Z.mod_small by lia. split; [repeat split; lia |]. split; [| reflexivity].
  split; [lia |]. split; [lia |]. split; [lia |]. intros i x E Li. apply (H4 i x E). lia.
Qed.
Lemma expired_step {A} d (fs : list (list A)) : Forall (fun g => g <> []) fs -> (expired d fs < List.length fs)%nat ->
  expired (S d) fs = if before (expired d fs) fs <? Z.of_nat (S d) then S (expired d fs) else expired d fs.
Proof.
  intros N L. destruct (expired_spec d fs N) as (X1 & X2). set (a := expired d fs) in *.
  assert (B : Z.of_nat d <= before a fs). { destruct (Z.lt_ge_cases (before a fs) (Z.of_nat d)) as [G | G]; [| lia]. apply X2 in G; lia. }
  destruct (Z.ltb_spec (before a fs) (Z.of_nat (S d))) as [G | G].
  - apply expired_unique; [exact N | lia |]. intros j Lj. split; intros Q.
    + destruct (Nat.eq_dec j a) as [-> | Q']; [exact G |]. assert (Q2 : (j < a)%nat) by lia. apply X2 in Q2; lia.
    + destruct (Nat.lt_ge_cases j (S a)) as [Q' | Q']; [exact Q' |].
      pose proof (before_strict fs a j N ltac:(lia)). lia.
  - apply expired_unique; [exact N | lia |]. intros j Lj. split; intros Q.
    + apply X2 in Q; lia.
    + destruct (Nat.lt_ge_cases j a) as [Q' | Q']; [exact Q' |].
      pose proof (before_mono fs a j Q'). lia.
Qed.
Lemma newest_kept_kept v ps d : newest_kept v ps d -> kept v ps (S d).
Proof.
  intros (j & f & E & L). set (fs := fragments (groups v ps)) in *. right.
  destruct (rev_case fs) as [Q | (s & g & Q)]; [rewrite Q in E; destruct j; discriminate |].
  exists s, g. split; [exact Q |]. fold fs.
  assert (j < List.length fs)%nat by (apply nth_error_Some; congruence). rewrite Q, app_length in H. cbn [List.length] in H.
  pose proof (before_mono fs j (List.length s) ltac:(lia)). lia.
Qed.

Lemma groups_len v ps : (List.length (groups v ps) <= List.length ps)%nat.
Proof.
  pose proof (groups_nonempty v ps) as N. rewrite <- (groups_concat v ps) at 2.
  induction (groups v ps) as [| f gs IH]; [cbn; lia |]. inversion N; subst. cbn [List.concat List.length]. rewrite app_length.
  specialize (IH ltac:(assumption)). destruct f; [congruence |]. cbn [List.length]. lia.
Qed.
Lemma fragments_len gs : (List.length (fragments gs) <= List.length gs)%nat.
Proof.
  pose proof (fragments_nonempty gs) as N. rewrite <- (fragments_concat gs) at 2.
  induction (fragments gs) as [| f fs IH]; [cbn; lia |]. inversion N; subst. cbn [List.concat List.length]. rewrite app_length.
  specialize (IH ltac:(assumption)). destruct f; [congruence |]. cbn [List.length]. lia.
Qed.
Lemma nth_some {A} (l : list A) i : (i < List.length l)%nat -> exists x, nth_error l i = Some x.
Proof. intros H. apply nth_error_Some in H. destruct (nth_error l i); [eauto | congruence]. Qed.

(** What the table of pages decides; it does not touch the other tables. *)
Definition evict_pages (t : track) (k n : Z) : out (track * option Z) :=
  let g := u32 (t_del (pages t)) in
  let r := at_ (pages t) g in
  if u32 (g_first r + g_count r) <=? u64 (k + 1) then
    gs <! deleteRecords (pages t) 1;;
    Done (with_pages t gs, if g_avail r =? 0 then None else Some (g_first r))
  else if g_avail r =? 0 then
    let q := upd (pages t) g (g_count_ (u32 (g_count r - 1))) in
    let q := upd q g (g_parts_ (u64 (g_parts r - n))) in
    let q := upd q g (g_first_ (u64 (k + 1))) in
    Done (with_pages t q, None)
  else Done (t, None).

Lemma removeFirstKey_ok t ps d : inv t ps d -> (List.length ps < Z.to_nat (2 ^ 31))%nat -> Forall packet_ok ps -> newest_kept (video t) ps d ->
  exists t1 g, nth_error (groups (video t) ps) d = Some g /\ removeFirstKey t = evict_pages t1 (Z.of_nat d) (Z.of_nat (List.length g)) /\
    inv t1 ps (S d) /\ pages t1 = pages t /\ video t1 = video t.
Proof.
  intros (R & T & K & O) B PO NK. set (v := video t) in *. set (gs := groups v ps) in *.
  destruct (tables_of t ps d gs eq_refl T) as (TP & TK & TF & T1 & T2 & T3 & T4). clear T.
  set (fs := fragments gs) in *.
  pose proof (newest_kept_kept _ _ _ NK) as K'.
  destruct (kept_key _ _ _ K') as [L' | (_ & ?)]; [| discriminate]. fold gs in L'.
  destruct (nth_some gs d ltac:(lia)) as (g & Eg). destruct (nth_some gs (S d) L') as (g' & Eg').
  assert (GN : Forall (fun g => g <> []) gs) by apply groups_nonempty.
  assert (FN : Forall (fun g => g <> []) fs) by apply fragments_nonempty.
  pose proof (groups_len v ps) as GL. fold gs in GL. pose proof (fragments_len gs) as FL. fold fs in FL.
  assert (XL : (expired d fs < List.length fs)%nat).
  { destruct (kept_frag _ _ _ K) as [X | (X & ->)]; [exact X |]. exfalso. unfold gs in L'. rewrite X in L'. cbn in L'. lia. }
  destruct (nth_some fs (expired d fs) XL) as (f & Ef).
  assert (gL : (List.length g <= List.length ps)%nat).
  { assert (In g gs) as I by (eapply nth_error_In; eauto). apply in_split in I as (a & b & Q).
    rewrite <- (groups_concat v ps). fold gs. rewrite Q, concat_app, app_length. cbn [List.concat]. rewrite app_length. lia. }
  exists (with_firstms
     (let t := with_keys (with_parts t (match deleteRecords (parts t) (u32 (Z.of_nat (List.length g))) with Done x => x | _ => parts t end))
                         (match deleteRecords (keys t) 1 with Done x => x | _ => keys t end) in
      if before (expired d fs) fs <? Z.of_nat (S d)
      then with_missed (with_frags t (match deleteRecords (frags t) 1 with Done x => x | _ => frags t end)) (missed t + 1) else t) (gtime g')), g.
  split; [exact Eg |].
  destruct R as (R1 & R2 & R3).
  assert (KD : t_del (keys t) = Z.of_nat d) by apply TK. assert (FD : t_del (frags t) = Z.of_nat (expired d fs)) by apply TF.
  assert (KA : at_ (keys t) (Z.of_nat d) = key_of gs d g) by (apply TK; [exact Eg | lia]).
  assert (KA' : at_ (keys t) (Z.of_nat (S d)) = key_of gs (S d) g') by (apply TK; [exact Eg' | lia]).
  assert (FA : at_ (frags t) (Z.of_nat (expired d fs)) = frag_of fs (expired d fs) f) by (apply TF; [exact Ef | lia]).
  pose proof (before_succ gs d g Eg) as BS. pose proof (before_bound gs (S d)) as BB. rewrite (groups_concat v ps : List.concat gs = ps) in BB.
  pose proof (before_bound gs d) as BB0.
  destruct (delete_ok (parts t) (Z.to_nat (before d gs)) (List.length g) ps (part_of ps) R1 TP ltac:(lia)) as (ps' & P1 & P2 & P3 & P4).
  destruct (delete_ok (keys t) d 1 gs (key_of gs) R2 TK ltac:(lia)) as (ks' & K1 & K2 & K3 & K4).
  destruct (delete_ok (frags t) (expired d fs) 1 fs (frag_of fs) R3 TF ltac:(lia)) as (fs' & F1 & F2 & F3 & F4).
  change (Z.of_nat 1) with 1 in *.
  assert (u32 (Z.of_nat (List.length g)) = Z.of_nat (List.length g)) as U by (unfold u32; rewrite Z.mod_small; lia).
  assert (K3' : t_del ks' = Z.of_nat (S d)) by (destruct K3 as (-> & _); lia).
  assert (Ff : k_parts (key_of gs d g) = Z.of_nat (List.length g)) by reflexivity.
  assert (Kt : k_time (key_of gs (S d) g') = gtime g') by reflexivity.
  assert (Fi : f_first (frag_of fs (expired d fs) f) = before (expired d fs) fs) by reflexivity.
  split.
  { unfold removeFirstKey. rewrite KD, KA, Ff, U, P1. cbn [with_parts keys]. rewrite K1.
    change (frags (with_keys (with_parts t ps') ks')) with (frags t). change (keys (with_keys (with_parts t ps') ks')) with ks'.
    rewrite FD, FA, K3', Fi, F1. cbv zeta. destruct (before (expired d fs) fs <? Z.of_nat (S d)).
    - cbn [with_missed with_frags with_keys with_parts keys]. rewrite K3', K4, KA', Kt. reflexivity.
    - cbn [with_keys with_parts keys]. rewrite K3', K4, KA', Kt. reflexivity. }
  cbv zeta. rewrite U, P1, K1. change (frags (with_keys (with_parts t ps') ks')) with (frags t). rewrite F1.
  assert (Tg : 0 <= gtime g' < 2 ^ 64).
  { rewrite Forall_forall in GN, PO. pose proof (GN _ (nth_error_In _ _ Eg')). destruct g' as [| x g']; [congruence |]. cbn [gtime start].
    apply PO. rewrite <- (groups_concat v ps). apply in_concat. exists (x :: g'). split; [eapply nth_error_In; exact Eg' | left; reflexivity]. }
  assert (Ug : u64 (gtime g') = gtime g') by (unfold u64; rewrite Z.mod_small; lia).
  pose proof (expired_step d fs FN XL) as ES.
  replace (Z.to_nat (before d gs) + List.length g)%nat with (Z.to_nat (before (S d) gs)) in P3 by lia.
  replace (d + 1)%nat with (S d) in K3 by lia.
  destruct (before (expired d fs) fs <? Z.of_nat (S d)).
  - split; [| split; reflexivity].
    split; [cbv [rings with_firstms with_missed with_frags with_keys with_parts parts keys frags]; auto |].
    split; [| split; [exact K' | exact O]].
    change (holds ps' (Z.to_nat (before (S d) gs)) ps (part_of ps) /\ holds ks' (S d) gs (key_of gs) /\ holds fs' (expired (S d) fs) fs (frag_of fs) /\
      u64 (gtime g') = match nth_error gs (S d) with Some g => gtime g | None => 0 end /\ lastms t = lasttime ps /\ nowms t = lasttime ps /\
      u32 (missed t + 1) = Z.of_nat (expired (S d) fs)).
    split; [exact P3 |]. split; [exact K3 |]. rewrite ES. split; [replace (S (expired d fs)) with (expired d fs + 1)%nat by lia; exact F3 |].
    rewrite Eg'. split; [exact Ug |]. split; [exact T2 |]. split; [exact T3 |].
    rewrite T4. unfold u32. rewrite Z.mod_small; lia.
  - split; [| split; reflexivity].
    split; [cbv [rings with_firstms with_missed with_frags with_keys with_parts parts keys frags]; auto |].
    split; [| split; [exact K' | exact O]].
    change (holds ps' (Z.to_nat (before (S d) gs)) ps (part_of ps) /\ holds ks' (S d) gs (key_of gs) /\ holds (frags t) (expired (S d) fs) fs (frag_of fs) /\
      u64 (gtime g') = match nth_error gs (S d) with Some g => gtime g | None => 0 end /\ lastms t = lasttime ps /\ nowms t = lasttime ps /\
      missed t = Z.of_nat (expired (S d) fs)).
    split; [exact P3 |]. split; [exact K3 |]. rewrite ES. split; [exact TF |].
    rewrite Eg'. split; [exact Ug |]. split; [exact T2 |]. split; [exact T3 |]. exact T4.
Qed.
Lemma evict_pages_inv t k n ps d t' x : inv t ps d -> evict_pages t k n = Done (t', x) -> inv t' ps d /\ video t' = video t.
Proof.
  intros I. unfold evict_pages. destruct (_ <=? _).
  - destruct (deleteRecords (pages t) 1) as [| | q]; try discriminate. intros E. injection E as <- _. split; [exact I | reflexivity].
  - destruct (_ =? _); intros E; injection E as <- _; (split; [exact I | reflexivity]).
Qed.
Lemma evict_pages_done t k n : 1 <= t_pres (pages t) -> exists r, evict_pages t k n = Done r.
Proof.
  intros H. unfold evict_pages. destruct (_ <=? _).
  - unfold deleteRecords. destruct (Z.ltb_spec (t_pres (pages t)) 1); [lia |]. eauto.
  - destruct (_ =? _); eauto.
Qed.

(** * Histories *)
Lemma inv_moved t t' ps d : inv t ps d -> moved t t' -> inv t' ps d.
Proof.
  intros (R & T & K & O) (A1 & A2 & A3 & R' & V & F & L & N & M). unfold inv. rewrite V.
  split; [exact R' |]. split; [| auto]. unfold tables. rewrite V, F, L, N, M.
  destruct T as (TP & TK & TF & T'). split; [eapply holds_agree; eauto |]. split; [eapply holds_agree; eauto |]. split; [eapply holds_agree; eauto | exact T'].
Qed.
Lemma new_inv v a b c e : 1 <= a < 2 ^ 32 -> 1 <= b < 2 ^ 32 -> 1 <= c < 2 ^ 32 -> inv (newTrack v a b c e) [] 0.
Proof.
  intros H1 H2 H3. split; [unfold rings, ringok, newTrack, emptyTbl; cbn; repeat split; lia |].
  split; [| split; [left; auto | intros q []]].
  unfold tables, newTrack, emptyTbl, holds. cbn. repeat split; try (intros [| i] x; discriminate).
Qed.

Lemma packets_app a b : packets (a ++ b) = packets a ++ packets b. Proof. unfold packets. apply flat_map_app. Qed.
Lemma evictions_app a b : evictions (a ++ b) = (evictions a + evictions b)%nat.
Proof. unfold evictions. rewrite filter_app, app_length. reflexivity. Qed.
Lemma run_app t a b : run t (a ++ b) = match run t a with Quit => Quit | Trap => Trap | Done t' => run t' b end.
Proof. revert t. induction a as [| o a IH]; intros t; cbn [app run]; [reflexivity |]. destruct (step t o); auto. Qed.

Lemma accepted_prefix l q r : exists z, accepted l (q ++ r) = accepted l q ++ z.
Proof.
  revert l. induction q as [| p q IH]; intros l; cbn [app accepted]; [eauto |].
  destruct (p_time p <? l); [apply IH |]. destruct (IH (p_time p)) as (z & ->). exists z. reflexivity.
Qed.
Lemma legal_prefix v a b : legal v (a ++ b) -> legal v a.
Proof. intros H pre post E. apply (H pre (post ++ b)). rewrite E, <- app_assoc. reflexivity. Qed.
Lemma fits_sub v l q : fits v (l ++ q) -> fits v l.
Proof. intros H a b E. apply (H a (b ++ q)). rewrite E, app_assoc. reflexivity. Qed.

Lemma history v a b c e ops t : 1 <= a < 2 ^ 32 -> 1 <= b < 2 ^ 32 -> 1 <= c < 2 ^ 32 ->
  fits v (accepted 0 (packets ops)) -> legal v ops -> run (newTrack v a b c e) ops = Done t ->
  inv t (accepted 0 (packets ops)) (evictions ops) /\ video t = v.
Proof.
  intros Ha Hb Hc. revert t. induction ops as [| o ops IH] using rev_ind; intros t F L E.
  { cbn in E. injection E as <-. split; [apply new_inv; assumption | reflexivity]. }
  rewrite run_app in E. rewrite packets_app in *. rewrite evictions_app.
  assert (F' : fits v (accepted 0 (packets ops))) by (destruct (accepted_prefix 0 (packets ops) (packets [o])) as (z & Q); rewrite Q in F; eapply fits_sub; exact F).
  destruct (run (newTrack v a b c e) ops) as [| | t1]; try discriminate.
  specialize (IH t1 F' (legal_prefix _ _ _ L) eq_refl) as (I & V). cbn [run] in E.
  assert (Sm : small v (accepted 0 (packets ops))) by (apply (F' _ []); rewrite app_nil_r; reflexivity).
  destruct Sm as (S1 & S2 & _).
  destruct o as [p | | pg cc]; cbn [step] in E.
  - change (packets [Packet p]) with [p] in *. change (evictions [Packet p]) with 0%nat. rewrite Nat.add_0_r.
    rewrite accepted_snoc0 in *.
    assert (LM : lastms t1 = lasttime (accepted 0 (packets ops))) by (destruct I as (_ & (_ & _ & _ & _ & Q & _) & _); exact Q).
    destruct (Z.ltb_spec (p_time p) (lasttime (accepted 0 (packets ops)))) as [G | G].
    + rewrite app_nil_r. unfold update in E. rewrite LM in E. destruct (Z.ltb_spec (p_time p) (lasttime (accepted 0 (packets ops)))); [| lia].
      injection E as <-. auto.
    + destruct (fits_prefix _ _ _ F) as (_ & Sm). rewrite <- V in Sm.
      destruct (update_ok t1 _ _ p I G Sm) as (t2 & E2 & I2 & V2). rewrite E2 in E. injection E as <-. split; [exact I2 | congruence].
  - change (packets [Evict]) with (@nil packet). rewrite app_nil_r. change (evictions [Evict]) with 1%nat. rewrite Nat.add_1_r.
    specialize (L ops [] eq_refl). rewrite <- V in L.
    destruct (removeFirstKey_ok t1 _ _ I S1 S2 L) as (t2 & g & _ & E2 & I2 & _ & V2). rewrite E2 in E.
    destruct (evict_pages t2 _ _) as [| | (t3, x)] eqn:E3; try discriminate. injection E as <-.
    destruct (evict_pages_inv _ _ _ _ _ _ _ I2 E3) as (I3 & V3). split; [exact I3 | cbn [fst]; congruence].
  - change (packets [Other pg cc]) with (@nil packet). rewrite app_nil_r. change (evictions [Other pg cc]) with 0%nat. rewrite Nat.add_0_r.
    injection E as <-. assert (I2 : inv (with_pages t1 pg) (accepted 0 (packets ops)) (evictions ops)) by exact I.
    destruct cc as [n |]; [| split; [exact I2 | exact V]].
    assert (I2' := I2). destruct I2' as ((R1 & R2 & R3) & _). assert (Q1 := R1). assert (Q2 := R2). assert (Q3 := R3).
    destruct Q1 as (? & ? & ? & ? & _). destruct Q2 as (? & ? & ? & ? & _). destruct Q3 as (? & ? & ? & ? & _).
    destruct (resize_moved (with_pages t1 pg) (t_rc (frags (with_pages t1 pg))) (t_rc (keys (with_pages t1 pg))) (t_rc (parts (with_pages t1 pg))) n) as (M & _); try lia.
    { exact (conj R1 (conj R2 R3)). }
    split; [eapply inv_moved; [exact I2 | exact M] |]. exact V.
Qed.

(** Progress: a packet never ends the process. *)
Lemma history_packet v a b c e ops t p : 1 <= a < 2 ^ 32 -> 1 <= b < 2 ^ 32 -> 1 <= c < 2 ^ 32 ->
  fits v (accepted 0 (packets (ops ++ [Packet p]))) -> legal v ops -> run (newTrack v a b c e) ops = Done t ->
  exists t', update t p = Done t'.
Proof.
  intros Ha Hb Hc F L E. rewrite packets_app in F. change (packets [Packet p]) with [p] in F. rewrite accepted_snoc0 in F.
  assert (F' : fits v (accepted 0 (packets ops))) by (eapply fits_sub; exact F).
  destruct (history v a b c e ops t Ha Hb Hc F' L E) as (I & V).
  assert (LM : lastms t = lasttime (accepted 0 (packets ops))) by (destruct I as (_ & (_ & _ & _ & _ & Q & _) & _); exact Q).
  destruct (Z.ltb_spec (p_time p) (lasttime (accepted 0 (packets ops)))) as [G | G].
  - exists t. unfold update. rewrite LM. destruct (Z.ltb_spec (p_time p) (lasttime (accepted 0 (packets ops)))); [reflexivity | lia].
  - destruct (fits_prefix _ _ _ F) as (_ & Sm). rewrite <- V in Sm. destruct (update_ok t _ _ p I G Sm) as (t2 & E2 & _). eauto.
Qed.
Lemma history_evict v a b c e ops t : 1 <= a < 2 ^ 32 -> 1 <= b < 2 ^ 32 -> 1 <= c < 2 ^ 32 ->
  fits v (accepted 0 (packets ops)) -> legal v ops -> run (newTrack v a b c e) ops = Done t ->
  newest_kept v (accepted 0 (packets ops)) (evictions ops) -> 1 <= t_pres (pages t) -> exists r, removeFirstKey t = Done r.
Proof.
  intros Ha Hb Hc F L E NK PG. destruct (history v a b c e ops t Ha Hb Hc F L E) as (I & V). rewrite <- V in NK.
  assert (Sm : small v (accepted 0 (packets ops))) by (apply (F _ []); rewrite app_nil_r; reflexivity). destruct Sm as (S1 & S2 & _).
  destruct (removeFirstKey_ok t _ _ I S1 S2 NK) as (t1 & g & _ & E1 & _ & P1 & _). rewrite E1.
  apply evict_pages_done. rewrite P1. exact PG.
Qed.
(** The check of the live buffer before it evicts a key. *)
Lemma removable_kept t ps d bt : inv t ps d -> removable t true bt = true -> newest_kept (video t) ps d.
Proof.
  intros (R & T & K & _). destruct (tables_of t ps d _ eq_refl T) as (_ & _ & (F1 & F2 & _) & _).
  unfold removable. destruct (_ =? _); [discriminate |].
  destruct R as (_ & _ & R). rewrite F1, F2. set (gs := groups (video t) ps) in *. set (fs := fragments gs) in *.
  destruct (Z.ltb_spec (u64 (Z.of_nat (List.length fs) - Z.of_nat (expired d fs))) 5) as [G | G]; [discriminate |]. intros _.
  assert (Rk : Z.of_nat (List.length fs) < 2 ^ 31) by (rok; lia).
  unfold u64 in G. destruct (Z.lt_ge_cases (Z.of_nat (List.length fs)) (Z.of_nat (expired d fs))) as [Q | Q].
  { destruct (expired_spec d fs (fragments_nonempty gs)) as (X & _). lia. }
  rewrite Z.mod_small in G by lia.
  destruct (expired_spec d fs (fragments_nonempty gs)) as (X1 & X2).
  exists (S (expired d fs)). destruct (nth_some fs (S (expired d fs)) ltac:(lia)) as (f & Ef). exists f. split; [exact Ef |]. fold gs. fold fs.
  pose proof (before_strict fs (expired d fs) (S (expired d fs)) (fragments_nonempty gs) ltac:(lia)).
  destruct (Z.lt_ge_cases (before (expired d fs) fs) (Z.of_nat d)) as [Q' | Q']; [apply X2 in Q'; lia | lia].
Qed.
