From Verif Require Import Common CommonFacts CommonMore Dtsc_Spec Page_Model Page_Spec Page_Proofs PageRead_Proofs Meta_Model Meta_Spec Meta_Proofs MetaUpd_Proofs MetaRun_Proofs MetaFind_Model MetaView_Proofs MetaFind_Proofs Live_Model Live_Spec Live_Proofs.

Section Live.
Context (SIZE FLIP DURATION : Z) (HS : SIZE < 2 ^ 32) (HF : 0 <= FLIP).
Notation wire_page := (Live_Spec.wire_page SIZE).
Notation pok := (fun x : lpacket => fields_ok (fst x) /\ len (wire_packet (fst x)) <= SIZE).

Definition rec_ok (pgs : list lpage) (j : nat) (p : lpage) (g : page) : Prop :=
  g_first g = before j pgs /\ g_count g = Z.of_nat (List.length p) /\ g_size g = SIZE /\
  g_avail g = len (wire_page p) /\ g_ftime g = start ltime p /\ g_ltime g = last_time p.
Definition full (w : list Z) : list Z := w ++ repeat 0 (Z.to_nat (SIZE - len w)).
Definition mem_ok (h : Z -> option (list Z)) (pgs : list lpage) (j : nat) (p : lpage) : Prop :=
  h (before j pgs) = Some (full (wire_page p)) /\ len (wire_page p) <= SIZE.
Record linv (v : bool) (s : live) (ls : list lpacket) (d : nat) (pgs : list lpage) (a : nat) (gl : list page) : Prop := mklinv {
  l_inv : inv (tk s) (map pk ls) d;
  l_vid : video (tk s) = v;
  l_ring : ringok (pages (tk s));
  l_recs : recs (pages (tk s)) a gl;
  l_len : List.length gl = List.length pgs;
  l_rec : forall j p g, nth_error pgs j = Some p -> nth_error gl j = Some g -> (a <= j)%nat -> rec_ok pgs j p g /\ mem_ok (shm s) pgs j p;
  l_cat : List.concat (List.concat pgs) = ls;
  l_grp : map (map pk) (List.concat pgs) = groups v (map pk ls);
  l_ne : Forall (fun p => p <> []) pgs;
  l_win : ls <> [] -> before a pgs <= Z.of_nat d < before (S a) pgs;
  l_win0 : ls = [] -> a = O;
  l_shm : forall n, shm s n <> None -> exists j, (a <= j < List.length pgs)%nat /\ n = before j pgs;
  l_cur : match cur s with Some c => pgs <> [] /\ c = before (List.length pgs - 1) pgs | None => True end;
  l_flip : forall p0 k, In (p0 ++ [k]) pgs -> len (wire_page p0) <= FLIP;
  l_ok : Forall pok ls
}.

Lemma keys_ne pgs v ls : map (map pk) (List.concat pgs) = groups v (map pk ls) -> forall p k, In p pgs -> In k p -> k <> [].
Proof.
  intros E p k Ip Ik -> . pose proof (groups_nonempty v (map pk ls)) as G. rewrite Forall_forall in G. rewrite <- E in G.
  apply (G []); [| reflexivity]. change (@nil packet) with (map pk []). apply in_map. apply in_concat. exists p. auto.
Qed.
Lemma wire_pos p : p <> [] -> (forall k, In k p -> k <> []) -> (forall k x, In k p -> In x k -> pok x) -> 35 <= len (wire_page p).
Proof.
  intros N K O. destruct p as [| k p]; [congruence |]. destruct k as [| x k]; [exfalso; apply (K []); [left |]; reflexivity |].
  destruct (O (x :: k) x (or_introl eq_refl) (or_introl eq_refl)) as (_ & L). unfold Live_Spec.wire_page, held. cbn [List.concat app map taken]. rewrite Z.add_0_l.
  destruct (Z.leb_spec (len (wire_packet (fst x))) SIZE); [| lia]. cbn [flat_map]. rewrite len_app. pose proof (wire_min (fst x)).
  match goal with |- _ <= _ + ?l => assert (0 <= l) by apply len_nonneg end. lia.
Qed.
Lemma send_pk x : fields_ok (fst x) -> sendSize (pk x) = len (wire_packet (fst x)).
Proof.
  intros (_ & _ & _ & H4 & _ & H6). destruct (segs_wire (fst x)) as (_ & ->). unfold sendSize, packDataLen, pk. cbn [p_send p_off p_bpos p_key p_size].
  change (0 =? 0) with true. cbv iota. pose proof (len_nonneg (f_data (fst x))). unfold u64. change (2 ^ 32) with 4294967296 in H6.
  assert (E : (if 0 <? f_bpos (fst x) then 15 else 0) = (if f_bpos (fst x) =? 0 then 0 else 15)) by (destruct (Z.ltb_spec 0 (f_bpos (fst x))), (Z.eqb_spec (f_bpos (fst x)) 0); lia).
  rewrite E. apply Z.mod_small. destruct (f_offset (fst x) =? 0), (f_bpos (fst x) =? 0), (f_key (fst x)); lia.
Qed.
Section Facts.
Context (v : bool) (s : live) (ls : list lpacket) (d : nat) (pgs : list lpage) (a : nat) (gl : list page) (I : linv v s ls d pgs a gl).
Lemma pgs_nil : ls = [] <-> pgs = [].
Proof.
  split; [| intros E; rewrite <- (l_cat _ _ _ _ _ _ _ I), E; reflexivity].
  intros E. destruct pgs as [| p r] eqn:Ep; [reflexivity | exfalso].
  pose proof (l_grp _ _ _ _ _ _ _ I) as G. rewrite E in G. cbn in G. pose proof (l_ne _ _ _ _ _ _ _ I) as N. inversion N; subst.
  destruct p as [| k p]; [congruence |]. discriminate G.
Qed.
Lemma groups_num : Z.of_nat (List.length (groups v (map pk ls))) = before (List.length pgs) pgs.
Proof. rewrite before_top. rewrite <- (l_grp _ _ _ _ _ _ _ I), map_length. reflexivity. Qed.
Lemma a_lt : pgs <> [] -> (a < List.length pgs)%nat.
Proof.
  intros N. destruct (Nat.ltb_spec a (List.length pgs)) as [L | L]; [exact L | exfalso].
  assert (W := l_win _ _ _ _ _ _ _ I). rewrite pgs_nil in W. specialize (W N). unfold before in W. rewrite !firstn_all2 in W by lia. lia.
Qed.
Lemma a_le : (a <= List.length pgs)%nat.
Proof.
  assert (D : pgs = [] \/ pgs <> []) by (destruct pgs; [left; reflexivity | right; discriminate]). destruct D as [D | D].
  - rewrite (l_win0 _ _ _ _ _ _ _ I); [lia |]. apply pgs_nil. exact D.
  - pose proof (a_lt D). lia.
Qed.
Lemma first_mono i j : (i < j <= List.length pgs)%nat -> before i pgs < before j pgs.
Proof. intros L. apply before_strict; [exact (l_ne _ _ _ _ _ _ _ I) | exact L]. Qed.
Lemma first_at j g : nth_error gl j = Some g -> (a <= j)%nat -> g_first g = before j pgs /\ g_first g + g_count g = before (S j) pgs /\ 1 <= g_count g.
Proof.
  intros E L. assert (J : (j < List.length pgs)%nat) by (rewrite <- (l_len _ _ _ _ _ _ _ I); eapply len_nth; exact E).
  destruct (nth_some pgs j J) as (p & Ep). destruct (l_rec _ _ _ _ _ _ _ I j p g Ep E L) as ((R1 & R2 & _) & _).
  rewrite R1, R2, (before_succ pgs j p Ep). split; [reflexivity |]. split; [reflexivity |].
  assert (N := l_ne _ _ _ _ _ _ _ I). rewrite Forall_forall in N. specialize (N p (nth_error_In _ _ Ep)). destruct p; [congruence | cbn [List.length]; lia].
Qed.
Lemma pgs_small : (List.length (map pk ls) < Z.to_nat (2 ^ 31))%nat -> before (List.length pgs) pgs < 2 ^ 31 /\ Z.of_nat (List.length pgs) <= before (List.length pgs) pgs.
Proof.
  intros S. rewrite <- groups_num. pose proof (groups_len v (map pk ls)). split; [lia |]. rewrite groups_num.
  pose proof (l_ne _ _ _ _ _ _ _ I) as N. rewrite before_top. clear - N. induction N as [| p r Np N IH]; [cbn; lia |].
  cbn [List.length List.concat]. rewrite app_length. destruct p; [congruence | cbn [List.length]; lia].
Qed.
End Facts.

Lemma find_last t a rg g c : recs (pages t) a (rg ++ [g]) -> (a <= List.length rg)%nat -> g_first g = c ->
  (forall j x, nth_error rg j = Some x -> (a <= j)%nat -> g_first x <> c) -> findPage t c = Z.of_nat (List.length rg).
Proof.
  intros H L E N. unfold findPage. rewrite (where_at t a (rg ++ [g]) _ (List.length rg) H); [reflexivity | rewrite app_length; cbn; lia | |].
  - rewrite (recs_at _ _ _ _ g H (nth_mid _ _ _) L). apply Z.eqb_eq. exact E.
  - intros i Hi. destruct (nth_some rg i ltac:(lia)) as (x & Ex).
    rewrite (recs_at _ _ _ i x H) by (try lia; rewrite nth_error_app1 by lia; exact Ex). apply Z.eqb_neq. exact (N i x Ex ltac:(lia)).
Qed.
Lemma u32_id x : 0 <= x < 2 ^ 32 -> u32 x = x. Proof. intros H. unfold u32. apply Z.mod_small. exact H. Qed.
Lemma u64_id x : 0 <= x < 2 ^ 64 -> u64 x = x. Proof. intros H. unfold u64. apply Z.mod_small. exact H. Qed.

(** Storing the packet and telling the tables. *)
Lemma append_ok s ps d a rg g c w f mf : inv (tk s) ps d -> ringok (pages (tk s)) -> recs (pages (tk s)) a (rg ++ [g]) -> (a <= List.length rg)%nat ->
  cur s = Some c -> findPage (tk s) c = Z.of_nat (List.length rg) -> shm s c = Some (full w) -> g_avail g = len w -> g_size g = SIZE ->
  len w <= SIZE -> lasttime ps <= f_time f -> small (video (tk s)) (ps ++ [pk (f, mf)]) ->
  exists s', append s f mf = Done s' /\ inv (tk s') (ps ++ [pk (f, mf)]) d /\ video (tk s') = video (tk s) /\ ringok (pages (tk s')) /\
    recs (pages (tk s')) a (rg ++ [g_avail_ (len (added SIZE w f)) g]) /\ cur s' = Some c /\
    shm s' = set_shm (shm s) c (Some (full (added SIZE w f))).
Proof.
  intros I R H L C Fp M A Sz Room Ord Sm. unfold append. rewrite C, M, Fp.
  rewrite (recs_at _ _ _ (List.length rg) g H (nth_mid _ _ _) L), A, Sz. unfold full. rewrite page_next by lia.
  destruct (recs_upd (pages (tk s)) a rg g (g_avail_ (len (added SIZE w f))) R H L) as (H1 & R1).
  set (t1 := with_pages (tk s) _).
  assert (I1 : inv t1 ps d) by exact I.
  destruct (update_ok t1 ps d (pk (f, mf)) I1 Ord Sm) as (t2 & E2 & I2 & V2). unfold pk in E2 at 1. cbn [fst snd] in E2. rewrite E2.
  destruct (update_pages _ _ _ E2 R1) as (A2 & R2).
  eexists. split; [reflexivity |]. cbn [tk cur shm]. split; [exact I2 |]. split; [exact V2 |]. split; [exact R2 |].
  split; [eapply recs_agree; [exact H1 | exact A2] |]. split; reflexivity.
Qed.

(** The next key number, from the table of keys. *)
Lemma keyNum_last n t T i res : (forall x, i <= x < i + Z.of_nat n -> k_time (at_ (keys t) x) <= T) -> (0 < n)%nat -> keyNum_loop n t T i res = i + Z.of_nat n - 1.
Proof.
  revert i res. induction n as [| n IH]; intros i res H P; [lia |]. cbn [keyNum_loop].
  destruct (Z.ltb_spec T (k_time (at_ (keys t) i))) as [L | L]; [specialize (H i ltac:(lia)); lia |].
  destruct n as [| n]; [cbn [keyNum_loop]; lia |]. rewrite IH; [lia | | lia]. intros x Hx. apply H. lia.
Qed.
Lemma nextNum t ps d T : inv t ps d -> (List.length ps < Z.to_nat (2 ^ 31))%nat -> lasttime ps <= T ->
  u32 (if getKeyNumForTime t T =? INVALID_KEY_NUM then 0 else getKeyNumForTime t T + 1) = Z.of_nat (List.length (groups (video t) ps)).
Proof.
  intros (R & Tb & K & O) Sm Le. destruct (tables_of t ps d _ eq_refl Tb) as (_ & (K1 & K2 & _ & K4) & _). unfold getKeyNumForTime.
  pose proof (groups_len (video t) ps) as GL. destruct (kept_key _ _ _ K) as [L | (E & _)].
  - rewrite K2. destruct (Z.eqb_spec (Z.of_nat (List.length (groups (video t) ps))) 0); [lia |].
    rewrite keyNum_last; [| | unfold count; lia].
    + unfold count. rewrite K1, K2. unfold INVALID_KEY_NUM. destruct (Z.eqb_spec (Z.of_nat d + Z.of_nat (Z.to_nat (Z.of_nat (List.length (groups (video t) ps)) - Z.of_nat d)) - 1) 0xFFFFFFFF); [lia |].
      rewrite u32_id; lia.
    + intros x Hx. unfold count in Hx. rewrite K1, K2 in Hx. destruct (nth_some (groups (video t) ps) (Z.to_nat x) ltac:(lia)) as (g & Eg).
      pose proof (K4 (Z.to_nat x) g Eg ltac:(lia)) as A. rewrite Z2Nat.id in A by lia. rewrite A. cbn [key_of k_time].
      pose proof (groups_nonempty (video t) ps) as N. rewrite Forall_forall in N. specialize (N g (nth_error_In _ _ Eg)).
      destruct g as [| p g]; [congruence |]. cbn [gtime start]. assert (In p ps). { rewrite <- (groups_concat (video t) ps). apply in_concat. exists (p :: g). split; [eapply nth_error_In; exact Eg | left; reflexivity]. }
      specialize (O p H). lia.
  - rewrite K2, E. reflexivity.
Qed.

(** A new page. *)
Lemma open_ok t h a gl' n gnew : ringok (pages t) -> recs (pages t) a (gl' ++ [gnew]) -> (a <= List.length gl')%nat ->
  g_first gnew = n -> g_count gnew = 0 -> g_size gnew = SIZE -> g_avail gnew = 0 -> 0 <= n < 2 ^ 31 ->
  (forall j g, nth_error gl' j = Some g -> (a <= j)%nat -> 0 <= g_first g < n /\ 1 <= g_count g /\ g_first g + g_count g <= n) ->
  exists t1, opened (mklive t None h) n (Z.of_nat (List.length gl')) = (mklive t1 (Some n) (set_shm h n (Some (full []))), Some (Z.of_nat (List.length gl'))) /\
    t1 = with_pages t (upd (pages t) (Z.of_nat (List.length gl')) (g_avail_ 0)) /\ ringok (pages t1) /\ recs (pages t1) a (gl' ++ [gnew]).
Proof.
  intros R H L E1 E2 E3 E4 B N. unfold opened, bufferStart. cbn [tk shm].
  assert (At : at_ (pages t) (Z.of_nat (List.length gl')) = gnew) by (eapply recs_at; [exact H | apply nth_mid | exact L]).
  assert (Old : forall i, (a <= i < List.length gl')%nat -> exists g, at_ (pages t) (Z.of_nat i) = g /\ 0 <= g_first g < n /\ 1 <= g_count g /\ g_first g + g_count g <= n).
  { intros i Hi. destruct (nth_some gl' i ltac:(lia)) as (g & Eg). exists g. split; [| apply (N i); [exact Eg | lia]].
    eapply recs_at; [exact H | rewrite nth_error_app1 by lia; exact Eg | lia]. }
  assert (Len : List.length (gl' ++ [gnew]) = S (List.length gl')) by (rewrite app_length; cbn; lia).
  rewrite (where_at t a (gl' ++ [gnew]) _ (List.length gl') H); [| lia | rewrite At; apply Z.eqb_eq, E1 | intros i Hi; destruct (Old i Hi) as (g & -> & Hg & _); apply Z.eqb_neq; lia].
  assert (Bo : bufferedOnPage t n = INVALID_KEY_NUM).
  { unfold bufferedOnPage. rewrite (where_none t a (gl' ++ [gnew]) _ H); [reflexivity | lia |]. intros i Hi. rewrite Len in Hi.
    destruct (Nat.eq_dec i (List.length gl')) as [-> | Ne].
    - rewrite At, E2. cbn [orb Z.eqb negb]. apply Bool.andb_false_r.
    - destruct (Old i ltac:(lia)) as (g & -> & Hg1 & Hg2 & Hg3). cbv zeta. rewrite u64_id by lia.
      destruct (Z.ltb_spec (g_first g + g_count g - 1) n); [| lia]. rewrite Bool.orb_true_r, Bool.andb_false_r. reflexivity. }
  rewrite Bo, Z.eqb_refl. cbn [negb]. rewrite At, E3. eexists. split; [| split; [reflexivity |]].
  - unfold full. cbn [app]. change (len []) with 0. rewrite Z.sub_0_r. reflexivity.
  - cbn [with_pages pages]. destruct (recs_upd (pages t) a gl' gnew (g_avail_ 0) R H L) as (H1 & R1). split; [exact R1 |].
    replace (g_avail_ 0 gnew) with gnew in H1; [exact H1 |]. destruct gnew. cbn in *. subst. reflexivity.
Qed.

(** After a packet: the last page is new, or has grown. *)
Definition same_but_parts (g0 g : page) : Prop := g_first g = g_first g0 /\ g_count g = g_count g0 /\ g_size g = g_size g0 /\ g_avail g = g_avail g0 /\ g_ftime g = g_ftime g0 /\ g_ltime g = g_ltime g0.
Lemma assemble v s ls d pgs a gl s' x r p' rg g' :
  linv v s ls d pgs a gl -> (pgs = r \/ exists p, pgs = r ++ [p] /\ (List.length p <= List.length p')%nat) ->
  inv (tk s') (map pk ls ++ [pk x]) d -> video (tk s') = v -> ringok (pages (tk s')) -> recs (pages (tk s')) a (rg ++ [g']) ->
  List.length rg = List.length r -> (a <= List.length r)%nat ->
  (forall j g, nth_error rg j = Some g -> (a <= j)%nat -> exists g0, nth_error gl j = Some g0 /\ same_but_parts g0 g) ->
  rec_ok (r ++ [p']) (List.length r) p' g' ->
  (forall n, n <> before (List.length r) r -> shm s' n = shm s n) -> shm s' (before (List.length r) r) = Some (full (wire_page p')) ->
  len (wire_page p') <= SIZE -> List.concat (List.concat (r ++ [p'])) = ls ++ [x] ->
  map (map pk) (List.concat (r ++ [p'])) = groups v (map pk (ls ++ [x])) -> p' <> [] -> cur s' = Some (before (List.length r) r) ->
  (forall p0 k, p0 ++ [k] = p' -> len (wire_page p0) <= FLIP) -> pok x ->
  linv v s' (ls ++ [x]) d (r ++ [p']) a (rg ++ [g']).
Proof.
  intros I Hr I' V' R' H' Lr La Old New Sh1 Sh2 Room Cat Grp Ne Cur Fl Fok.
  assert (Bl : forall j, (j <= List.length r)%nat -> before j (r ++ [p']) = before j r) by (intros j Hj; apply before_app; exact Hj).
  assert (Bp : forall j, (j <= List.length r)%nat -> before j pgs = before j r) by (intros j Hj; destruct Hr as [-> | (p & -> & _)]; [reflexivity | apply before_app; exact Hj]).
  assert (Nr : Forall (fun p => p <> []) r).
  { pose proof (l_ne _ _ _ _ _ _ _ I) as N. destruct Hr as [-> | (p & -> & _)]; [exact N | apply Forall_app in N; apply N]. }
  constructor.
  - rewrite map_app. exact I'.
  - exact V'.
  - exact R'.
  - exact H'.
  - rewrite !app_length, Lr. reflexivity.
  - intros j p g Ep Eg Lj. destruct (Nat.lt_ge_cases j (List.length r)) as [C | C].
    + rewrite nth_error_app1 in Ep by lia. rewrite nth_error_app1 in Eg by lia. destruct (Old j g Eg Lj) as (g0 & E0 & Q1 & Q2 & Q3 & Q4 & Q5 & Q6).
      assert (Ep0 : nth_error pgs j = Some p) by (destruct Hr as [-> | (q & -> & _)]; [exact Ep | rewrite nth_error_app1 by lia; exact Ep]).
      destruct (l_rec _ _ _ _ _ _ _ I j p g0 Ep0 E0 Lj) as ((W1 & W2 & W3 & W4 & W5 & W6) & W7 & W8).
      rewrite (Bp j ltac:(lia)) in W1, W7. unfold rec_ok, mem_ok. rewrite Q1, Q2, Q3, Q4, Q5, Q6, (Bl j ltac:(lia)).
      split; [auto 10 |]. split; [| exact W8]. rewrite Sh1; [exact W7 |]. pose proof (before_strict r j (List.length r) Nr ltac:(lia)). lia.
    + assert (j = List.length r) as -> by (apply len_nth in Ep; rewrite app_length in Ep; cbn in Ep; lia).
      rewrite nth_mid in Ep. injection Ep as <-. rewrite <- Lr in Eg at 1. rewrite nth_mid in Eg. injection Eg as <-. split; [exact New |].
      unfold mem_ok. rewrite Bl by lia. auto.
  - exact Cat.
  - exact Grp.
  - apply Forall_app. split; [exact Nr | constructor; [exact Ne | constructor]].
  - intros _. destruct ls as [| y ls0] eqn:El.
    + rewrite (l_win0 _ _ _ _ _ _ _ I eq_refl) in *. assert (D : d = O). { destruct I as [(_ & _ & K & _)]. destruct K as [(_ & ->) | (s0 & f0 & Ef & _)]; [reflexivity |]. cbn in Ef. destruct s0; discriminate. }
      subst d. assert (P0 : pgs = []) by (apply (pgs_nil _ _ _ _ _ _ _ I); reflexivity). destruct Hr as [-> | (p & -> & _)]; [| destruct r; discriminate P0]. rewrite P0.
      unfold before. cbn. rewrite !app_nil_r. destruct p'; [congruence | cbn; lia].
    + rewrite <- El in *. pose proof (l_win _ _ _ _ _ _ _ I ltac:(rewrite El; discriminate)) as W. rewrite (Bl a La). rewrite (Bp a La) in W. split; [lia |].
      assert (La2 := a_lt _ _ _ _ _ _ _ I). destruct (Nat.eq_dec a (List.length r)) as [-> | Na].
      * rewrite (before_succ _ _ _ (nth_mid r [] p')), Bl by lia. destruct Hr as [-> | (p & -> & Lp)].
        -- exfalso. assert (r <> []) by (intros ->; assert (X : ls = []) by (apply (pgs_nil _ _ _ _ _ _ _ I); reflexivity); rewrite El in X; discriminate X). specialize (La2 H). lia.
        -- rewrite (before_succ _ _ _ (nth_mid r [] p)), before_app in W by lia. lia.
      * rewrite Bl by lia. rewrite Bp in W by lia. lia.
  - intros E. destruct ls; discriminate E.
  - intros n Hn. destruct (Z.eq_dec n (before (List.length r) r)) as [-> | N].
    + exists (List.length r). rewrite app_length. cbn [List.length]. rewrite Bl by lia. split; [lia | reflexivity].
    + rewrite Sh1 in Hn by exact N. destruct (l_shm _ _ _ _ _ _ _ I n Hn) as (j & Hj & ->).
      assert (j < List.length r)%nat. { destruct Hr as [-> | (p & -> & _)]; [lia |]. rewrite app_length in Hj. cbn in Hj. destruct (Nat.eq_dec j (List.length r)) as [-> |]; [| lia]. rewrite Bp in N by lia. congruence. }
      exists j. rewrite app_length. cbn [List.length]. rewrite Bl, Bp by lia. split; [lia | reflexivity].
  - rewrite Cur. split; [destruct r; discriminate |]. rewrite app_length. cbn [List.length]. replace (List.length r + 1 - 1)%nat with (List.length r) by lia. rewrite Bl by lia. reflexivity.
  - intros p0 k Hin. apply in_app_or in Hin as [Hin | [Hin | []]]; [| exact (Fl p0 k (eq_sym Hin))].
    apply (l_flip _ _ _ _ _ _ _ I p0 k). destruct Hr as [-> | (p & -> & _)]; [exact Hin | apply in_or_app; left; exact Hin].
  - apply Forall_app. split; [exact (l_ok _ _ _ _ _ _ _ I) | constructor; [exact Fok | constructor]].
Qed.

Lemma snoc_of {A} (l : list A) : l <> [] -> exists r x, l = r ++ [x].
Proof. intros N. destruct (rev_case l) as [-> | (r & x & ->)]; [congruence | eauto]. Qed.
(** The page being written. *)
Lemma last_page v s ls d pgs a gl c : linv v s ls d pgs a gl -> cur s = Some c -> exists r p0 k rg g,
  pgs = r ++ [p0 ++ [k]] /\ gl = rg ++ [g] /\ List.length rg = List.length r /\ (a <= List.length r)%nat /\ c = before (List.length r) r /\
  rec_ok pgs (List.length r) (p0 ++ [k]) g /\ mem_ok (shm s) pgs (List.length r) (p0 ++ [k]) /\ findPage (tk s) c = Z.of_nat (List.length rg) /\ k <> [].
Proof.
  intros I C. pose proof (l_cur _ _ _ _ _ _ _ I) as Lc. rewrite C in Lc. destruct Lc as (N & Ec).
  destruct (snoc_of _ N) as (r & p & ->). pose proof (l_ne _ _ _ _ _ _ _ I) as Ne. apply Forall_app in Ne as (_ & Np). inversion Np as [| ? ? Np0 _]; subst.
  destruct (snoc_of _ Np0) as (p0 & k & ->). pose proof (l_len _ _ _ _ _ _ _ I) as Ll. rewrite app_length in Ll. cbn [List.length] in Ll.
  destruct (snoc_of gl) as (rg & g & ->); [intros ->; cbn in Ll; lia |]. rewrite app_length in Ll. cbn [List.length] in Ll.
  pose proof (a_lt _ _ _ _ _ _ _ I N) as La. rewrite app_length in La. cbn [List.length] in La.
  rewrite app_length. cbn [List.length]. replace (List.length r + 1 - 1)%nat with (List.length r) by lia. rewrite before_app by lia.
  exists r, p0, k, rg, g. split; [reflexivity |]. split; [reflexivity |]. split; [lia |]. split; [lia |]. split; [reflexivity |].
  assert (Lr : List.length rg = List.length r) by lia.
  assert (Eg : nth_error (rg ++ [g]) (List.length r) = Some g) by (rewrite <- Lr; apply nth_mid).
  destruct (l_rec _ _ _ _ _ _ _ I (List.length r) _ g (nth_mid _ _ _) Eg ltac:(lia)) as (R1 & R2). split; [exact R1 |]. split; [exact R2 |]. split.
  - eapply find_last; [exact (l_recs _ _ _ _ _ _ _ I) | lia | |].
    + destruct R1 as (R1 & _). rewrite R1. apply before_app. lia.
    + intros j x Ex Lj E. assert (j < List.length rg)%nat by (eapply len_nth; exact Ex).
      destruct (first_at _ _ _ _ _ _ _ I j x) as (F & _); [rewrite nth_error_app1 by lia; exact Ex | exact Lj |].
      pose proof (first_mono _ _ _ _ _ _ _ I j (List.length r) ltac:(rewrite app_length; lia)) as M. rewrite (before_app (List.length r)) in M by lia. lia.
  - eapply (keys_ne _ v ls (l_grp _ _ _ _ _ _ _ I)); [apply in_or_app; right; left; reflexivity | apply in_or_app; right; left; reflexivity].
Qed.

Definition flips (s : live) (time : Z) : Prop :=
  match cur s with None => True | Some c => let g := at_ (pages (tk s)) (findPage (tk s) c) in (FLIP <? g_avail g) || (DURATION <? u64 (time - g_ftime g)) = true end.
Lemma page_fresh v s ls d pgs a gl time : linv v s ls d pgs a gl -> 0 <= SIZE -> (S (List.length (map pk ls)) < Z.to_nat (2 ^ 31))%nat -> lasttime (map pk ls) <= time < 2 ^ 64 ->
  flips s time -> let n := before (List.length pgs) pgs in
  exists s1 rg gp gt, keyPage SIZE FLIP DURATION s time = (s1, Some (Z.of_nat (List.length pgs))) /\ inv (tk s1) (map pk ls) d /\ video (tk s1) = v /\ ringok (pages (tk s1)) /\
    recs (pages (tk s1)) a (rg ++ [mkpage n 0 gp SIZE 0 time gt]) /\ List.length rg = List.length pgs /\
    (forall j g, nth_error rg j = Some g -> (a <= j)%nat -> exists g0, nth_error gl j = Some g0 /\ same_but_parts g0 g) /\
    cur s1 = Some n /\ shm s1 = set_shm (shm s) n (Some (full [])).
Proof.
  intros I S0 Sm Ti Fl n.
  pose proof (l_inv _ _ _ _ _ _ _ I) as Iv. pose proof (l_vid _ _ _ _ _ _ _ I) as Vd. pose proof (l_ring _ _ _ _ _ _ _ I) as R. pose proof (l_recs _ _ _ _ _ _ _ I) as H.
  pose proof (l_len _ _ _ _ _ _ _ I) as Ll. pose proof (a_le _ _ _ _ _ _ _ I) as La. destruct (pgs_small _ _ _ _ _ _ _ I ltac:(lia)) as (P1 & P2). fold n in P1, P2.
  assert (Gn := groups_num _ _ _ _ _ _ _ I). fold n in Gn. pose proof (groups_len v (map pk ls)) as GL.
  destruct (roomPages_ok _ _ _ Iv R) as (I1 & V1 & A1 & R1 & C1). set (t1 := roomPages (tk s)) in *.
  assert (H1 := recs_agree _ _ _ _ H A1). assert (T0 : 0 <= lasttime (map pk ls)).
  { destruct Iv as (_ & _ & _ & O). destruct (rev_case (map pk ls)) as [-> | (q & y & E)]; [cbn; lia |]. rewrite E, lasttime_snoc. apply (O y). rewrite E. apply in_or_app; right; left; reflexivity. }
  assert (Old : forall j g, nth_error gl j = Some g -> (a <= j)%nat -> 0 <= g_first g < n /\ 1 <= g_count g /\ g_first g + g_count g <= n).
  { intros j g Eg Lj. destruct (first_at _ _ _ _ _ _ _ I j g Eg Lj) as (F1 & F2 & F3). assert (j < List.length pgs)%nat by (rewrite <- Ll; eapply len_nth; exact Eg).
    pose proof (before_bound pgs j). pose proof (before_mono pgs (S j) (List.length pgs) ltac:(lia)). fold n in H3. lia. }
  assert (E1 : t_end (pages t1) = Z.of_nat (List.length gl)) by (destruct H1 as (_ & H1 & _); exact H1).
  assert (C1' : t_end (pages t1) - t_del (pages t1) < t_rc (pages t1)) by (destruct H as (X1 & X2 & _); destruct H1 as (Y1 & Y2 & _); lia).
  unfold keyPage. fold t1. unfold flips in Fl. destruct (cur s) as [c |] eqn:Ec.
  - destruct (last_page _ _ _ _ _ _ _ _ I Ec) as (r & p0 & k & rg & g & Ep & Eg & Lr & Lar & _ & (Q1 & Q2 & _) & _ & Fp & _).
    cbv zeta in Fl |- *. rewrite Fl. assert (Atg : at_ (pages (tk s)) (findPage (tk s) c) = g).
    { rewrite Fp. apply (recs_at _ _ _ (List.length rg) g H); [rewrite Eg; apply nth_mid | lia]. }
    assert (En : u32 (g_first g + g_count g) = n).
    { rewrite Q1, Q2. rewrite <- (before_succ pgs (List.length r) (p0 ++ [k])) by (rewrite Ep; apply nth_mid). rewrite u32_id; replace (S (List.length r)) with (List.length pgs) by (rewrite Ep, app_length; cbn; lia); fold n; lia. }
    rewrite Atg, En, Fp. rewrite Eg in H1. set (sp := sum_parts _ _ _ _).
    destruct (recs_upd (pages t1) a rg g (g_parts_ sp) R1 H1 ltac:(lia)) as (H2 & R2).
    set (q := upd (pages t1) (Z.of_nat (List.length rg)) (g_parts_ sp)) in *. set (t2 := with_pages t1 q).
    assert (Eq : t_end (pages t2) = t_end (pages t1)) by reflexivity.
    destruct (newPage_ok t2 a (rg ++ [g_parts_ sp g]) n time SIZE true R2 H2) as (gp & gt & H3 & R3 & _); [exact C1' | rewrite Eq, E1, Ll; lia |].
    rewrite !u32_id, u64_id in H3 by lia.
    assert (Lrg : List.length (rg ++ [g_parts_ sp g]) = List.length pgs) by (rewrite app_length, Lr, Ep, app_length; reflexivity).
    replace (t_end (pages t2)) with (Z.of_nat (List.length (rg ++ [g_parts_ sp g]))) by (rewrite Eq, E1, Ll, Lrg; reflexivity).
    assert (O2 : forall j x, nth_error (rg ++ [g_parts_ sp g]) j = Some x -> exists g0, nth_error gl j = Some g0 /\ same_but_parts g0 x).
    { intros j x Ex. apply nth_snoc in Ex as [(Lj & Ex) | (-> & ->)].
      - exists x. rewrite Eg, nth_error_app1 by exact Lj. split; [exact Ex | unfold same_but_parts; auto 10].
      - exists g. rewrite Eg. split; [apply nth_mid | destruct g; cbn; unfold same_but_parts; cbn; auto 10]. }
    destruct (open_ok (newPage t2 n time SIZE true) (shm s) a (rg ++ [g_parts_ sp g]) n _ R3 H3) as (t3 & E3 & Et3 & R4 & H4); cbn [g_first g_count g_size g_avail]; try lia.
    { intros j x Ex Lj. destruct (O2 j x Ex) as (g0 & E0 & S1 & S2 & _). rewrite S1, S2. exact (Old j g0 E0 Lj). }
    fold t2. rewrite E3. exists (mklive t3 (Some n) (set_shm (shm s) n (Some (full [])))), (rg ++ [g_parts_ sp g]), gp, gt. rewrite Lrg. cbn [tk cur shm].
    split; [reflexivity |]. split; [rewrite Et3; exact I1 |]. split; [rewrite Et3; rewrite <- Vd; exact V1 |]. split; [exact R4 |]. split; [exact H4 |].
    split; [reflexivity |]. split; [intros j x Ex _; exact (O2 j x Ex) |]. split; reflexivity.
  - cbv zeta. rewrite (nextNum _ _ _ time Iv) by lia. rewrite Vd, Gn.
    destruct (newPage_ok t1 a gl n time SIZE false R1 H1 C1') as (gp & gt & H3 & R3 & _); [rewrite E1, Ll; lia |].
    rewrite !u32_id, u64_id in H3 by lia. rewrite E1.
    destruct (open_ok (newPage t1 n time SIZE false) (shm s) a gl n _ R3 H3) as (t3 & E3 & Et3 & R4 & H4); cbn [g_first g_count g_size g_avail]; try lia.
    { exact Old. }
    rewrite E3. exists (mklive t3 (Some n) (set_shm (shm s) n (Some (full [])))), gl, gp, gt. rewrite Ll. cbn [tk cur shm].
    split; [reflexivity |]. split; [rewrite Et3; exact I1 |]. split; [rewrite Et3; rewrite <- Vd; exact V1 |]. split; [exact R4 |]. split; [exact H4 |].
    split; [reflexivity |]. split; [intros j x Ex _; exists x; split; [exact Ex | unfold same_but_parts; auto 10] |]. split; reflexivity.
Qed.

Lemma countKey_ok s a rg g time : ringok (pages (tk s)) -> recs (pages (tk s)) a (rg ++ [g]) -> (a <= List.length rg)%nat ->
  0 <= time < 2 ^ 64 -> 0 <= g_count g < 2 ^ 31 -> let s' := countKey s (Z.of_nat (List.length rg)) time in
  (forall ps d, inv (tk s) ps d -> inv (tk s') ps d) /\ video (tk s') = video (tk s) /\ ringok (pages (tk s')) /\
  recs (pages (tk s')) a (rg ++ [mkpage (g_first g) (g_count g + 1) (g_parts g) (g_size g) (g_avail g) (g_ftime g) time]) /\ cur s' = cur s /\ shm s' = shm s.
Proof.
  intros R H L T C s'. unfold s', countKey. cbv zeta. cbn [tk cur shm with_pages pages]. split; [intros ps d I; exact I |]. split; [reflexivity |].
  destruct (recs_upd _ a rg g (g_ltime_ time) R H L) as (H1 & R1). set (q := upd (pages (tk s)) (Z.of_nat (List.length rg)) (g_ltime_ time)) in *.
  rewrite (recs_at q a _ (List.length rg) (g_ltime_ time g) H1 (nth_mid _ _ _) L).
  destruct (recs_upd q a rg _ (g_count_ (u64 (g_count (g_ltime_ time g) + 1))) R1 H1 L) as (H2 & R2). split; [exact R2 |]. split; [| split; reflexivity].
  assert (X : g_count_ (u64 (g_count (g_ltime_ time g) + 1)) (g_ltime_ time g) = mkpage (g_first g) (g_count g + 1) (g_parts g) (g_size g) (g_avail g) (g_ftime g) time).
  { unfold g_count_, g_ltime_. cbn [g_first g_count g_parts g_size g_avail g_ftime g_ltime]. rewrite (u64_id time), (u64_id (g_count g + 1)), u32_id by lia. reflexivity. }
  rewrite X in H2. exact H2.
Qed.
Lemma groups_of v s ls d pgs a gl : linv v s ls d pgs a gl -> groups v (map pk ls) = map (map pk) (List.concat pgs).
Proof. intros I. symmetry. exact (l_grp _ _ _ _ _ _ _ I). Qed.
Lemma groups_key v ps p : p_key p = true -> groups v (ps ++ [p]) = groups v ps ++ [[p]].
Proof.
  intros K. rewrite groups_snoc. destruct (rev_case (groups v ps)) as [-> | (r & g & ->)]; [reflexivity |]. rewrite join_snoc. unfold key_opens. rewrite K. reflexivity.
Qed.
Lemma concat_snoc {A} (l : list (list A)) x : List.concat (l ++ [x]) = List.concat l ++ x.
Proof. rewrite concat_app. cbn [List.concat]. rewrite app_nil_r. reflexivity. Qed.

Section Packet.
Context (v : bool) (s : live) (ls : list lpacket) (d : nat) (pgs : list lpage) (a : nat) (gl : list page) (I : linv v s ls d pgs a gl).
Context (f : fields) (mf : Z) (Fok : fields_ok f) (Fit : len (wire_packet f) <= SIZE) (Ord : lasttime (map pk ls) <= f_time f) (Sm : small v (map pk ls ++ [pk (f, mf)])).
Lemma sm_len : (S (List.length (map pk ls)) < Z.to_nat (2 ^ 31))%nat.
Proof. destruct Sm as (H & _). rewrite app_length in H. cbn [List.length] in H. lia. Qed.

(** The packet goes on a new page. *)
Lemma packet_fresh : f_key f = true -> flips s (f_time f) -> exists s1 i s' gl',
  keyPage SIZE FLIP DURATION s (f_time f) = (s1, Some i) /\ append (countKey s1 i (f_time f)) f mf = Done s' /\ cur s' <> None /\ linv v s' (ls ++ [(f, mf)]) d (pgs ++ [[[(f, mf)]]]) a gl'.
Proof.
  intros K Fl. pose proof sm_len as SL. assert (Fk := Fok). destruct Fk as (T0 & _).
  pose proof (wire_min f) as Wm. pose proof (a_le _ _ _ _ _ _ _ I) as La.
  destruct (page_fresh _ _ _ _ _ _ _ (f_time f) I) as (s1 & rg & gp & gt & E1 & I1 & V1 & R1 & H1 & L1 & O1 & C1 & M1); [lia | exact SL | lia | exact Fl |].
  set (n := before (List.length pgs) pgs) in *. rewrite <- L1 in E1.
  destruct (countKey_ok s1 a rg _ (f_time f) R1 H1) as (I2 & V2 & R2 & H2 & C2 & M2); cbn [g_count]; try lia.
  set (s2 := countKey s1 (Z.of_nat (List.length rg)) (f_time f)) in *. cbn [g_first g_count g_parts g_size g_avail g_ftime] in H2.
  assert (Fp : findPage (tk s2) n = Z.of_nat (List.length rg)).
  { eapply find_last; [exact H2 | lia | reflexivity |]. intros j x Ex Lj. destruct (O1 j x Ex Lj) as (g0 & E0 & -> & _).
    destruct (first_at _ _ _ _ _ _ _ I j g0 E0 Lj) as (-> & _). assert (j < List.length rg)%nat by (eapply len_nth; exact Ex).
    pose proof (first_mono _ _ _ _ _ _ _ I j (List.length pgs) ltac:(lia)) as M. fold n in M. lia. }
  destruct (append_ok s2 (map pk ls) d a rg _ n [] f mf (I2 _ _ I1) R2 H2) as (s3 & E3 & I3 & V3 & R3 & H3 & C3 & M3); cbn [g_avail g_size]; try assumption; try lia; try (change (len []) with 0; lia).
  { rewrite M2, M1. unfold set_shm. rewrite Z.eqb_refl. reflexivity. } { rewrite V2, V1. exact Sm. }
  eexists s1, _, s3, _. split; [exact E1 |]. split; [exact E3 |]. split; [rewrite C3; discriminate |].
  assert (Nb : before (List.length pgs) (pgs ++ [[[(f, mf)]]]) = n) by (apply before_app; lia).
  assert (W0 : wire_page [[(f, mf)]] = added SIZE [] f) by (apply (held_add SIZE [] [[(f, mf)]] (f, mf)); reflexivity).
  eapply (assemble v s ls d pgs a gl s3 (f, mf) pgs [[(f, mf)]]); [exact I | left; reflexivity | exact I3 | rewrite V3, V2; exact V1 | exact R3 | exact H3 | exact L1 | exact La | exact O1 | | | | | | | discriminate | exact C3 | | split; [exact Fok | exact Fit]].
  - unfold rec_ok. rewrite Nb. unfold g_avail_. cbn [g_first g_count g_parts g_size g_avail g_ftime g_ltime List.length]. rewrite W0. rewrite u32_id by (pose proof (added_len SIZE [] f); pose proof (len_nonneg (added SIZE [] f)); change (len []) with 0 in *; lia).
    repeat split; lia.
  - fold n. intros m Hm. rewrite M3, M2, M1. unfold set_shm. destruct (Z.eqb_spec m n); [congruence | reflexivity].
  - fold n. rewrite M3. unfold set_shm. rewrite Z.eqb_refl. rewrite W0. reflexivity.
  - apply held_bound. lia.
  - rewrite !concat_snoc, (l_cat _ _ _ _ _ _ _ I). reflexivity.
  - rewrite concat_snoc, !map_app. cbn [map]. rewrite groups_key by exact K. rewrite <- (groups_of _ _ _ _ _ _ _ I). reflexivity.
  - intros p0 k E. destruct p0 as [| q p0]; [exact HF |]. destruct p0; discriminate E.
Qed.

(** ... or on the page being written. *)
Lemma page_time p0 k r : pgs = r ++ [p0 ++ [k]] -> 0 <= start ltime (p0 ++ [k]) <= lasttime (map pk ls) /\ 0 <= ltime k <= lasttime (map pk ls).
Proof.
  intros E. pose proof (l_inv _ _ _ _ _ _ _ I) as (_ & _ & _ & O).
  assert (G : forall q, In q (p0 ++ [k]) -> 0 <= ltime q <= lasttime (map pk ls)).
  { intros q Hq. assert (Nq : q <> []) by (eapply (keys_ne _ v ls (l_grp _ _ _ _ _ _ _ I)); [rewrite E; apply in_or_app; right; left; reflexivity | exact Hq]).
    destruct q as [| y q]; [congruence |]. change (ltime (y :: q)) with (p_time (pk y)). apply O. apply in_map. rewrite <- (l_cat _ _ _ _ _ _ _ I). apply in_concat. exists (y :: q). split; [| left; reflexivity].
    apply in_concat. exists (p0 ++ [k]). split; [rewrite E; apply in_or_app; right; left; reflexivity | exact Hq]. }
  split; [| apply G, in_or_app; right; left; reflexivity]. destruct p0 as [| q p0]; cbn [app start]; apply G; left; reflexivity.
Qed.
Lemma packet_key c : f_key f = true -> cur s = Some c -> ~ flips s (f_time f) -> exists i s' gl' r p,
  keyPage SIZE FLIP DURATION s (f_time f) = (s, Some i) /\ append (countKey s i (f_time f)) f mf = Done s' /\ cur s' <> None /\
  pgs = r ++ [p] /\ linv v s' (ls ++ [(f, mf)]) d (r ++ [p ++ [[(f, mf)]]]) a gl'.
Proof.
  intros K C Nf. pose proof sm_len as SL. assert (Fk := Fok). destruct Fk as (T0 & _).
  destruct (last_page _ _ _ _ _ _ _ _ I C) as (r & p0 & k & rg & g & Ep & Eg & Lr & Lar & Ec & (Q1 & Q2 & Q3 & Q4 & Q5 & Q6) & (W1 & W2) & Fp & Nk).
  set (p := p0 ++ [k]) in *. pose proof (l_ring _ _ _ _ _ _ _ I) as R. pose proof (l_recs _ _ _ _ _ _ _ I) as H. rewrite Eg in H.
  assert (At : at_ (pages (tk s)) (findPage (tk s) c) = g) by (rewrite Fp; eapply recs_at; [exact H | apply nth_mid | lia]).
  unfold flips in Nf. rewrite C in Nf. cbv zeta in Nf. rewrite At in Nf. apply Bool.not_true_iff_false in Nf.
  assert (Av : g_avail g <= FLIP) by (apply Bool.orb_false_iff in Nf as (Nf & _); apply Z.ltb_ge in Nf; exact Nf).
  assert (Bp : before (List.length r) pgs = before (List.length r) r) by (rewrite Ep; apply before_app; lia).
  destruct (pgs_small _ _ _ _ _ _ _ I ltac:(lia)) as (P1 & P2).
  assert (Cb : 0 <= g_count g < 2 ^ 31).
  { assert (Z1 : before (S (List.length r)) pgs = before (List.length r) pgs + Z.of_nat (List.length p)) by (apply before_succ; rewrite Ep; apply nth_mid).
    replace (S (List.length r)) with (List.length pgs) in Z1 by (rewrite Ep, app_length; cbn; lia). pose proof (before_bound pgs (List.length r)). rewrite Q2. split; [lia |]. rewrite Z1 in P1. lia. }
  destruct (countKey_ok s a rg g (f_time f) R H ltac:(lia) ltac:(lia) Cb) as (I2 & V2 & R2 & H2 & C2 & M2).
  set (s2 := countKey s (Z.of_nat (List.length rg)) (f_time f)) in *.
  set (g2 := mkpage _ _ _ _ _ _ _) in H2. assert (Fp2 : findPage (tk s2) c = Z.of_nat (List.length rg)).
  { eapply find_last; [exact H2 | lia | unfold g2; cbn [g_first]; rewrite Q1, Ec; exact Bp |]. intros j x Ex Lj E.
    assert (j < List.length rg)%nat by (eapply len_nth; exact Ex).
    destruct (first_at _ _ _ _ _ _ _ I j x) as (F & _); [rewrite Eg, nth_error_app1 by lia; exact Ex | exact Lj |].
    pose proof (first_mono _ _ _ _ _ _ _ I j (List.length r) ltac:(rewrite Ep, app_length; lia)) as M. lia. }
  rewrite Bp, <- Ec in W1.
  destruct (append_ok s2 (map pk ls) d a rg g2 c (wire_page p) f mf (I2 _ _ (l_inv _ _ _ _ _ _ _ I)) R2 H2) as (s3 & E3 & I3 & V3 & R3 & H3 & C3 & M3); try assumption; try lia.
  { rewrite V2, (l_vid _ _ _ _ _ _ _ I). exact Sm. }
  exists (Z.of_nat (List.length rg)), s3. eexists. exists r, p. split; [| split; [exact E3 | split; [rewrite C3; discriminate | split; [exact Ep |]]]].
  { unfold keyPage. rewrite C. cbv zeta. rewrite At, Nf, Fp. reflexivity. }
  assert (Lp : List.length (p ++ [[(f, mf)]]) = S (List.length p)) by (rewrite app_length; cbn; lia).
  assert (Wp : wire_page (p ++ [[(f, mf)]]) = added SIZE (wire_page p) f) by (apply (held_add SIZE p _ (f, mf)); rewrite concat_snoc; reflexivity).
  pose proof (added_len SIZE (wire_page p) f W2) as Al.
  eapply (assemble v s ls d pgs a gl s3 (f, mf) r (p ++ [[(f, mf)]])); [exact I | right; exists p; split; [exact Ep | lia] | exact I3 | rewrite V3, V2; exact (l_vid _ _ _ _ _ _ _ I) | exact R3 | exact H3 | lia | lia | | | | | | | | destruct p; discriminate | rewrite C3, Ec; reflexivity | | split; [exact Fok | exact Fit]].
  - intros j x Ex Lj. exists x. rewrite Eg. rewrite nth_error_app1 by (eapply len_nth; exact Ex). split; [exact Ex | unfold same_but_parts; auto 10].
  - unfold rec_ok. rewrite (before_app (List.length r)) by lia. rewrite Wp, Lp. unfold g2, g_avail_. cbn [g_first g_count g_parts g_size g_avail g_ftime g_ltime].
    rewrite Q1, Q2, Q3, Q5. rewrite u32_id by (pose proof (len_nonneg (wire_page p)); lia).
    split; [exact Bp |]. split; [lia |]. split; [reflexivity |]. split; [reflexivity |]. split; [unfold p; destruct p0; reflexivity |]. unfold last_time. rewrite rev_app_distr. reflexivity.
  - intros m Hm. rewrite M3, M2, Ec. unfold set_shm. destruct (Z.eqb_spec m (before (List.length r) r)); [congruence | reflexivity].
  - rewrite M3, <- Ec, Wp. unfold set_shm. rewrite Z.eqb_refl. reflexivity.
  - rewrite Wp. lia.
  - rewrite <- (l_cat _ _ _ _ _ _ _ I), Ep, !concat_snoc, !concat_app. cbn [List.concat]. rewrite !app_nil_r, <- !app_assoc. reflexivity.
  - rewrite map_app. cbn [map]. rewrite groups_key by exact K. rewrite (groups_of _ _ _ _ _ _ _ I), Ep, !concat_snoc, !map_app, <- app_assoc. reflexivity.
  - intros q0 k0 E. apply app_inj_tail in E as (-> & _). lia.
Qed.
Lemma packet_more c : f_key f = false -> cur s = Some c -> (v = false -> forall r p, pgs = r ++ [p] -> f_time f - last_time p < 2047) -> exists s' gl' r p0 k,
  append s f mf = Done s' /\ cur s' <> None /\
  pgs = r ++ [p0 ++ [k]] /\ linv v s' (ls ++ [(f, mf)]) d (r ++ [p0 ++ [k ++ [(f, mf)]]]) a gl'.
Proof.
  intros K C Au. pose proof sm_len as SL. assert (Fk := Fok). destruct Fk as (T0 & _).
  destruct (last_page _ _ _ _ _ _ _ _ I C) as (r & p0 & k & rg & g & Ep & Eg & Lr & Lar & Ec & (Q1 & Q2 & Q3 & Q4 & Q5 & Q6) & (W1 & W2) & Fp & Nk).
  pose proof (l_ring _ _ _ _ _ _ _ I) as R. pose proof (l_recs _ _ _ _ _ _ _ I) as H. rewrite Eg in H.
  assert (Bp : before (List.length r) pgs = before (List.length r) r) by (rewrite Ep; apply before_app; lia).
  assert (Lk : last_time (p0 ++ [k]) = gtime (map pk k)) by (unfold last_time; rewrite rev_app_distr; destruct k; [congruence | reflexivity]).
  assert (Gr : groups v (map pk ls ++ [pk (f, mf)]) = map (map pk) (List.concat r ++ p0 ++ [k ++ [(f, mf)]])).
  { rewrite groups_snoc, (groups_of _ _ _ _ _ _ _ I), Ep, concat_snoc, app_assoc, !map_app. cbn [map]. rewrite join_snoc, map_app. unfold key_opens. cbn [pk p_key p_time fst]. rewrite K. cbn [orb].
    replace (negb v && (2047 <=? f_time f) && (2047 <=? f_time f - gtime (map pk k))) with false; [rewrite <- app_assoc; reflexivity |].
    destruct v; [reflexivity |]. specialize (Au eq_refl r (p0 ++ [k]) Ep). rewrite Lk in Au. destruct (Z.leb_spec 2047 (f_time f - gtime (map pk k))); [lia |]. rewrite Bool.andb_false_r. reflexivity. }
  pose proof (l_flip _ _ _ _ _ _ _ I p0 k ltac:(rewrite Ep; apply in_or_app; right; left; reflexivity)) as Fl.
  assert (Wp : wire_page (p0 ++ [k ++ [(f, mf)]]) = added SIZE (wire_page (p0 ++ [k])) f) by (apply (held_add SIZE (p0 ++ [k]) _ (f, mf)); rewrite !concat_snoc, app_assoc; reflexivity).
  pose proof (added_len SIZE (wire_page (p0 ++ [k])) f W2) as Al.
  rewrite Bp, <- Ec in W1.
  destruct (append_ok s (map pk ls) d a rg g c (wire_page (p0 ++ [k])) f mf (l_inv _ _ _ _ _ _ _ I) R H) as (s3 & E3 & I3 & V3 & R3 & H3 & C3 & M3); try assumption; try lia.
  { rewrite (l_vid _ _ _ _ _ _ _ I). exact Sm. }
  exists s3. eexists. exists r, p0, k. split; [exact E3 |]. split; [rewrite C3; discriminate |]. split; [exact Ep |].
  assert (Lp : List.length (p0 ++ [k ++ [(f, mf)]]) = List.length (p0 ++ [k])) by (rewrite !app_length; reflexivity).
  eapply (assemble v s ls d pgs a gl s3 (f, mf) r (p0 ++ [k ++ [(f, mf)]])); [exact I | right; exists (p0 ++ [k]); split; [exact Ep | lia] | exact I3 | rewrite V3; exact (l_vid _ _ _ _ _ _ _ I) | exact R3 | exact H3 | lia | lia | | | | | | | | destruct p0; discriminate | rewrite C3, Ec; reflexivity | | split; [exact Fok | exact Fit]].
  - intros j x Ex Lj. exists x. rewrite Eg. rewrite nth_error_app1 by (eapply len_nth; exact Ex). split; [exact Ex | unfold same_but_parts; auto 10].
  - unfold rec_ok. rewrite (before_app (List.length r)) by lia. rewrite Wp, Lp. unfold g_avail_. cbn [g_first g_count g_parts g_size g_avail g_ftime g_ltime].
    rewrite Q1, Q2, Q3, Q5, Q6. rewrite u32_id by (pose proof (len_nonneg (wire_page (p0 ++ [k]))); lia).
    assert (Lt : ltime (k ++ [(f, mf)]) = ltime k) by (destruct k; [congruence | reflexivity]).
    split; [exact Bp |]. split; [reflexivity |]. split; [reflexivity |]. split; [reflexivity |]. split; [destruct p0; cbn [app start]; [symmetry; exact Lt | reflexivity] |].
    unfold last_time. rewrite !rev_app_distr. cbn [rev app]. symmetry. exact Lt.
  - intros m Hm. rewrite M3, Ec. unfold set_shm. destruct (Z.eqb_spec m (before (List.length r) r)); [congruence | reflexivity].
  - rewrite M3, <- Ec, Wp. unfold set_shm. rewrite Z.eqb_refl. reflexivity.
  - rewrite Wp. lia.
  - rewrite <- (l_cat _ _ _ _ _ _ _ I), Ep, !concat_snoc, !concat_app. cbn [List.concat]. rewrite !app_nil_r, <- !app_assoc. reflexivity.
  - rewrite map_app. cbn [map]. rewrite Gr, concat_snoc. reflexivity.
  - intros q0 k0 E. apply app_inj_tail in E as (-> & _). exact Fl.
Qed.
End Packet.
End Live.
