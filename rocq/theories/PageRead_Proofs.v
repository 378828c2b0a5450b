From Verif Require Import Common CommonFacts CommonMore Mem_Model Mem_Proofs Outcome_Model JsonVal_Model Scan_Model Dtmi_Spec Dtmi_Proofs DtmiScan_Proofs Dtsc_Model Dtsc_Spec Dtsc_Proofs Dtsc_Props Page_Model Page_Spec Page_Proofs.

Lemma bytesP_nthz l : (forall i, 0 <= i < len l -> byteP (nthz l i)) -> bytesP l.
Proof.
  induction l as [| x l IH]; intros H; [constructor |]. pose proof (len_nonneg l). constructor.
  - specialize (H 0). rewrite len_cons in H. apply H. lia.
  - apply IH. intros i Hi. specialize (H (i + 1)). rewrite len_cons, nthz_cons in H by lia. replace (i + 1 - 1) with i in H by lia. apply H. lia.
Qed.
Lemma nthz_bytes l i : bytesP l -> byteP (nthz l i).
Proof.
  intros H. unfold nthz. generalize (Z.to_nat i). induction H; intros [| k]; cbn; try (split; lia); auto.
Qed.
Lemma wire_bytes f : fields_ok f -> bytesP (wire_packet f).
Proof.
  intros (H1 & H2 & H3 & H4 & H5 & H6). rewrite wire_pkt. set (w := pkt _ _ _ _ _ _). rewrite <- (app_nil_r w).
  apply (m_bytes _ _ _ _ _ _ [] (mkP (Some (w ++ [])) true (len w) 0 0)); try assumption; try reflexivity. constructor.
Qed.
Lemma taken_in size f : forall fs a, In f (taken size a fs) -> In f fs.
Proof.
  induction fs as [| g fs IH]; intros a H; cbn [taken] in H; [destruct H |].
  destruct (a + len (wire_packet g) <=? size); [destruct H as [<- | H]; [left; reflexivity |] |]; right; eapply IH; exact H.
Qed.

Lemma ok_inj {A} (x y : A) : Ok x = Ok y -> x = y. Proof. now intros [= E]. Qed.
Lemma valid_null p : valid (pnull p) = Ok false. Proof. reflexivity. Qed.
Lemma reInit_zero ext p i : 0 <= i < 4 -> i < len ext -> nthz ext i = 0 -> reInit 0 ext 0 true p = Ok (pnull p).
Proof.
  intros Hi L Z0.
  assert (G : forall j, 0 <= j <= i -> getb ext j = Ok (nthz ext j)) by (intros j J; unfold getb; rewrite rd_some by lia; reflexivity).
  unfold reInit. rewrite (G 0) by lia. cbv beta iota. destruct (Z.eqb_spec (nthz ext 0) 0); [reflexivity |].
  assert (i <> 0) by congruence. rewrite (G 1) by lia. cbv beta iota. destruct (Z.eqb_spec (nthz ext 1) 0); [reflexivity |].
  assert (i <> 1) by congruence. rewrite (G 2) by lia. cbv beta iota. destruct (Z.eqb_spec (nthz ext 2) 0); [reflexivity |].
  assert (i <> 2) by congruence. rewrite (G 3) by lia. cbv beta iota. destruct (Z.eqb_spec (nthz ext 3) 0); [reflexivity |].
  assert (i <> 3) by congruence. lia.
Qed.
Lemma reInit_ext ext p q b : reInit 0 ext 0 true p = Ok q -> pdata q = Some b -> b = ext.
Proof.
  unfold reInit. intros H P. cbv beta iota zeta in H.
  repeat match type of H with
  | context [match ?x with Ok _ => _ | _ => _ end] => let E := fresh in destruct x eqn:E; try discriminate H; try (injection H as <-; discriminate P)
  | context [if ?x then _ else _] => let E := fresh in destruct x eqn:E; try (injection H as <-; discriminate P); try discriminate H
  end; try (injection H as <-; cbn in P; congruence).
Qed.
Lemma read_packet f behind p : fields_ok f -> bytesP behind -> bytesP (match pdata p with Some b => b | None => [] end) ->
  exists q, reInit 0 (wire_packet f ++ behind) 0 true p = Ok q /\ reports q f /\ dlen q = len (wire_packet f) /\ pdata q = Some (wire_packet f ++ behind).
Proof.
  intros F B P. destruct (dtsc_received f behind true 0 p 0 F B (or_introl eq_refl) (or_intror (or_intror eq_refl)) P ltac:(split; lia)) as (q & E & R).
  exists q. split; [exact E |]. split; [exact R |]. destruct R as (_ & _ & _ & _ & _ & _ & _ & b & Pb & _ & G).
  pose proof (reInit_ext _ _ _ _ E Pb) as ->. split; [| exact Pb].
  assert (H4 : has (wire_packet f ++ behind) 4 (be 4 (len (wire_packet f) - 8) ++ [])).
  { rewrite app_nil_r. assert (H : has (wire_packet f ++ behind) 0 (wire_packet f)) by (now exists [], behind).
    replace (len (wire_packet f) - 8) with (12 + len (enc (object_of f))).
    2:{ unfold wire_packet. rewrite !len_app, !be_len. change (len (bs "DTP2")) with 4. lia. }
    unfold wire_packet in H. apply has_app in H as [_ H]. apply has_app in H as [H _]. exact H. }
  rewrite (has_getbe _ _ 4 _ _ _ H4) in G by reflexivity. apply ok_inj in G.
  pose proof (wire_min f). destruct (segs_wire f) as (_ & L). destruct F as (_ & _ & _ & _ & _ & F).
  assert (packDataLen f <= 86 + len (f_data f)) by (unfold packDataLen; destruct (f_offset f =? 0), (f_bpos f =? 0), (f_key f); lia).
  change (2 ^ 32) with 4294967296 in F. change (4 * 1) with 4 in G.
  replace (256 ^ Z.of_nat 4) with 4294967296 in G by reflexivity. rewrite Z.mod_small in G by lia. lia.
Qed.

Section Read.
Context (size : Z) (fs : list fields) (S0 : 0 <= size < 2 ^ 64) (OK : Forall fields_ok fs).
Let ts := taken size 0 fs.
Context (Room : used ts < size).

Lemma moment_all_bytes k some m : moment size fs k some m -> bytesP m.
Proof.
  intros Mo. destruct (moment_bytes size fs S0 k some m Mo) as (L & N). apply bytesP_nthz. rewrite L. intros i Hi. destruct (N i Hi) as (A & B).
  destruct (in_dec Z.eq_dec i (map fst (done_ size fs k some))) as [Y | Y]; [rewrite (A Y) | rewrite (B Y); split; lia].
  apply nthz_bytes. assert (Q : Forall fields_ok ts).
  { apply Forall_forall. intros f H. apply taken_in in H. rewrite Forall_forall in OK. apply OK, H. }
  fold ts. clear - Q. induction Q; cbn [flat_map]; [constructor |]. rewrite bytesP_app. split; [now apply wire_bytes | exact IHQ].
Qed.
Lemma read_at k some m t1 rest p : moment size fs k some m -> ts = t1 ++ rest -> bytesP (match pdata p with Some b => b | None => [] end) ->
  reInit 0 (dropz (used t1) m) 0 true p = Ok (pnull p) \/
  exists f t3 q, rest = f :: t3 /\ reInit 0 (dropz (used t1) m) 0 true p = Ok q /\ reports q f /\ dlen q = len (wire_packet f) /\
    bytesP (match pdata q with Some b => b | None => [] end).
Proof.
  intros Mo E P. pose proof (moment_all_bytes k some m Mo) as Bm. destruct (moment_bytes size fs S0 k some m Mo) as (L & N).
  pose proof (used_nonneg t1) as U1.
  destruct rest as [| f t3].
  - rewrite app_nil_r in E. left. assert (Hu : used t1 < size) by (rewrite <- E; exact Room).
    apply (reInit_zero _ _ 0); [lia | rewrite len_dropz by lia; lia |].
    rewrite nthz_dropz by lia. destruct (N (used t1 + 0)) as (_ & N0); [lia |]. apply N0. intros Q. apply (moment_eq size fs S0) in Mo as (I & _).
    apply in_map_iff in Q as ((i & b) & Q1 & Q2). apply (done_in size fs k some i b I) in Q2 as (Q2 & _). cbn [fst] in Q1. fold ts in Q2. rewrite E in Q2. lia.
  - destruct (fits_in size fs S0 t1 f t3 E) as (_ & U2). pose proof (wire_min f) as WM.
    destruct (Z.eq_dec (nthz m (used t1 + 0)) 0) as [Z0 | N0].
    { left. apply (reInit_zero _ _ 0); [lia | rewrite len_dropz by lia; lia | rewrite nthz_dropz by lia; exact Z0]. }
    destruct (Z.eq_dec (nthz m (used t1 + 1)) 0) as [Z1 | N1].
    { left. apply (reInit_zero _ _ 1); [lia | rewrite len_dropz by lia; lia | rewrite nthz_dropz by lia; exact Z1]. }
    destruct (Z.eq_dec (nthz m (used t1 + 2)) 0) as [Z2 | N2].
    { left. apply (reInit_zero _ _ 2); [lia | rewrite len_dropz by lia; lia | rewrite nthz_dropz by lia; exact Z2]. }
    destruct (Z.eq_dec (nthz m (used t1 + 3)) 0) as [Z3 | N3].
    { left. apply (reInit_zero _ _ 3); [lia | rewrite len_dropz by lia; lia | rewrite nthz_dropz by lia; exact Z3]. }
    right. exists f, t3.
    assert (W : takez (len (wire_packet f)) (dropz (used t1) m) = wire_packet f).
    { apply (stable size fs S0 k some m k some m t1 f t3 Mo Mo); [right; split; [reflexivity | apply incl_refl] | exact E |].
      intros a Ha. assert (a = 0 \/ a = 1 \/ a = 2 \/ a = 3) as [-> | [-> | [-> | ->]]] by lia; assumption. }
    rewrite <- (takez_dropz (len (wire_packet f)) (dropz (used t1) m)). rewrite W.
    assert (F : fields_ok f).
    { rewrite Forall_forall in OK. apply OK. apply (taken_in size f fs 0). fold ts. rewrite E. apply in_or_app. right. left. reflexivity. }
    assert (Bb : bytesP (dropz (len (wire_packet f)) (dropz (used t1) m))) by (apply bytesP_dropz, bytesP_dropz, Bm).
    destruct (read_packet f _ p F Bb P) as (q & Q1 & Q2 & Q3 & Q4).
    exists q. split; [reflexivity |]. split; [exact Q1 |]. split; [exact Q2 |]. split; [exact Q3 |]. rewrite Q4, bytesP_app. split; [now apply wire_bytes | exact Bb].
Qed.

Lemma follow_ok ms : forall t1 rest p, ts = t1 ++ rest -> bytesP (match pdata p with Some b => b | None => [] end) ->
  Forall (fun m => exists k some, moment size fs k some m) ms ->
  exists seen n, follow ms (used t1) p = Ok seen /\ Forall2 reports seen (firstn n rest) /\ (n <= List.length rest)%nat.
Proof.
  induction ms as [| m ms IH]; intros t1 rest p E P F; cbn [follow].
  - exists [], O. split; [reflexivity |]. split; [constructor | lia].
  - apply Forall_cons_iff in F as ((k & some & Mo) & F).
    destruct (read_at k some m t1 rest p Mo E P) as [R | (f & t3 & q & -> & R & Rep & D & Bq)]; rewrite R; cbv beta iota.
    + rewrite valid_null. cbv beta iota. apply (IH t1 rest (pnull p) E); [constructor | exact F].
    + pose proof Rep as (V & _). rewrite V. cbv beta iota. rewrite D.
      destruct (IH (t1 ++ [f]) t3 q) as (seen & n & E2 & F2 & L); [rewrite <- app_assoc; exact E | exact Bq | exact F |].
      rewrite used_app in E2. replace (used [f]) with (len (wire_packet f)) in E2 by (unfold used; cbn [flat_map]; now rewrite app_nil_r).
      rewrite E2. cbv beta iota. exists (q :: seen), (S n). split; [reflexivity |]. split; [cbn [firstn]; constructor; assumption | cbn [List.length]; lia].
Qed.

Lemma got_here m o n x : 0 <= o -> 0 <= n -> o + n <= len m -> takez n (dropz o m) = x -> getn m o n = Ok x.
Proof. intros A B C <-. unfold getn. rewrite peek_some by assumption. reflexivity. Qed.
Lemma slice_ext m o n x : 0 <= o -> 0 <= n -> o + n <= len m -> len x = n -> (forall i, 0 <= i < n -> nthz m (o + i) = nthz x i) -> takez n (dropz o m) = x.
Proof.
  intros A B C D H. apply list_ext; rewrite len_takez by (rewrite len_dropz by lia; lia); [now symmetry |].
  intros i Hi. rewrite nthz_takez, nthz_dropz by lia. apply H. exact Hi.
Qed.
Lemma slice_nth m o n x i : takez n (dropz o m) = x -> 0 <= o -> 0 <= i < n -> nthz m (o + i) = nthz x i.
Proof. intros <- A B. rewrite nthz_takez, nthz_dropz by lia. reflexivity. Qed.

Lemma untouched k some m i : moment size fs k some m -> used ts <= i < size -> nthz m i = 0.
Proof.
  intros Mo Hi. destruct (moment_bytes size fs S0 k some m Mo) as (L & N). pose proof (used_nonneg ts).
  destruct (N i) as (_ & N0); [lia |]. apply N0. intros Q. apply (moment_eq size fs S0) in Mo as (I & _).
  apply in_map_iff in Q as ((j & b) & Q1 & Q2). apply (done_in size fs k some j b I) in Q2 as (Q2 & _). cbn [fst] in Q1. fold ts in Q2. lia.
Qed.
Lemma next_ok k some m t1 g rest : moment size fs k some m -> ts = t1 ++ g :: rest ->
  nextTime m (used t1) (len (wire_packet g)) =
  Ok (match rest with
      | f :: _ => if beqb (takez 4 (dropz (used t1 + len (wire_packet g)) m)) [0; 0; 0; 0] then None else Some (f_time f)
      | [] => None end).
Proof.
  intros Mo E. destruct (moment_bytes size fs S0 k some m Mo) as (L & N). destruct (fits_in size fs S0 t1 g rest E) as (U1 & U2).
  unfold nextTime. pose proof (wire_min g) as WG. destruct rest as [| f t3].
  - destruct (Z.ltb_spec (used t1 + len (wire_packet g) + 20) (len m)); [| reflexivity].
    assert (Ue : used ts = used t1 + len (wire_packet g)) by (rewrite E, used_app, used_cons; unfold used at 2; cbn; lia).
    rewrite (got_here m _ 4 [0; 0; 0; 0]); try lia; [reflexivity |]. apply slice_ext; try lia; [reflexivity |].
    intros i Hi. rewrite (untouched k some m _ Mo) by lia. assert (i = 0 \/ i = 1 \/ i = 2 \/ i = 3) as [-> | [-> | [-> | ->]]] by lia; reflexivity.
  - assert (E2 : ts = (t1 ++ [g]) ++ f :: t3) by (rewrite <- app_assoc; exact E).
    assert (Ue : used (t1 ++ [g]) = used t1 + len (wire_packet g)) by (rewrite used_app, used_cons; unfold used at 2; cbn; lia).
    destruct (fits_in size fs S0 (t1 ++ [g]) f t3 E2) as (U3 & U4). rewrite Ue in U3, U4. pose proof (wire_min f) as WF.
    destruct (Z.ltb_spec (used t1 + len (wire_packet g) + 20) (len m)); [| lia].
    set (o := used t1 + len (wire_packet g)) in *. rewrite (got_here m o 4 _) by (try lia; reflexivity). cbv beta iota.
    destruct (beqb (takez 4 (dropz o m)) [0; 0; 0; 0]) eqn:B; [reflexivity |]. apply beqb_neq in B.
    assert (Q : exists a, 0 <= a < 4 /\ nthz m (o + a) <> 0).
    { destruct (Z.eq_dec (nthz m (o + 0)) 0); [| exists 0; split; [lia | assumption]].
      destruct (Z.eq_dec (nthz m (o + 1)) 0); [| exists 1; split; [lia | assumption]].
      destruct (Z.eq_dec (nthz m (o + 2)) 0); [| exists 2; split; [lia | assumption]].
      destruct (Z.eq_dec (nthz m (o + 3)) 0); [| exists 3; split; [lia | assumption]].
      exfalso. apply B. apply slice_ext; try lia; [reflexivity |].
      intros i Hi. assert (i = 0 \/ i = 1 \/ i = 2 \/ i = 3) as [-> | [-> | [-> | ->]]] by lia; assumption. }
    destruct Q as (a & Ha & Na). apply (nonzero_in size fs S0 k some m _ Mo) in Na; [| lia].
    assert (I := Mo). apply (moment_eq size fs S0) in I as (I & _). rewrite <- Ue in Na.
    pose proof (order size fs (t1 ++ [g]) f t3 k some a E2 I Ha Na) as O.
    unfold getbe. rewrite (got_here m (o + 12) 8 (be 8 (f_time f))); try lia.
    + cbv beta iota. rewrite unbe_be. do 2 f_equal. change (256 ^ Z.of_nat 8) with (2 ^ 64). apply Z.mod_small.
      assert (F : fields_ok f) by (rewrite Forall_forall in OK; apply OK, (taken_in size f fs 0); fold ts; rewrite E2; apply in_or_app; right; left; reflexivity).
      apply F.
    + apply slice_ext; try lia; [apply be_len |]. intros i Hi.
      assert (T : nthz m (o + 12 + i) = nthz (wire_packet f) (12 + i)).
      { rewrite <- (image_at size fs (t1 ++ [g]) f t3 (12 + i) E2) by lia. rewrite Ue. replace (o + (12 + i)) with (o + 12 + i) by lia.
        apply (N (o + 12 + i)); [lia |]. apply O. lia. }
      rewrite T. unfold wire_packet. change (len (bs "DTP2")) with 4. rewrite !nthz_app2 by (rewrite ?be_len; change (len (bs "DTP2")) with 4; lia).
      rewrite nthz_app1 by (rewrite ?be_len; change (len (bs "DTP2")) with 4; lia). f_equal. rewrite ?be_len. change (len (bs "DTP2")) with 4. lia.
Qed.
End Read.

(** ** The page when everything is stored *)
Lemma writes_app l2 : forall l1 m, writes m (l1 ++ l2) = match writes m l1 with Some m' => writes m' l2 | None => None end.
Proof. induction l1 as [| (o, b) l1 IH]; intros m; cbn [writes app]; [reflexivity |]. destruct (poke m o [b]); [apply IH | reflexivity]. Qed.
Lemma bufferAll_trace size : size < 2 ^ 64 -> forall fs a m m', 0 <= a <= size -> writes m (List.concat (trace size a fs)) = Some m' ->
  bufferAll size (m, a) fs = Some (m', a + used (taken size a fs)).
Proof.
  intros S1. induction fs as [| f fs IH]; intros a m m' Ha W; cbn [bufferAll trace taken] in *.
  - cbn in W. injection W as <-. unfold used. cbn. now rewrite Z.add_0_r.
  - unfold bufferNext. rewrite (refused_eq size a f Ha S1) in *. destruct (Z.leb_spec (a + len (wire_packet f)) size); cbn [negb] in *.
    + rewrite concat_app, writes_app in W. destruct (writes m (List.concat (stores a f))) as [m1 |]; [| discriminate W].
      destruct (segs_wire f) as (_ & L). rewrite <- L in *. pose proof (len_nonneg (wire_packet f)). rewrite used_cons, Z.add_assoc. apply IH; [lia | exact W].
    + apply IH; [exact Ha | exact W].
Qed.
Section Final.
Context (size : Z) (fs : list fields) (S0 : 0 <= size < 2 ^ 64) (OK : Forall fields_ok fs).
Let ts := taken size 0 fs.
Lemma final_ex : exists m, moment size fs (List.length (trace size 0 fs)) [] m /\ bufferAll size (repeat 0 (Z.to_nat size), 0) fs = Some (m, used ts).
Proof.
  destruct (writes_ok (fun i => nthz (flat_map wire_packet ts) i) (List.concat (tr 0 ts)) (repeat 0 (Z.to_nat size))) as (m & W & _).
  - intros i b H. apply in_tr in H as (H & ->). pose proof (room size fs S0) as R. fold ts in R. unfold len. rewrite repeat_length.
    rewrite Z2Nat.id by lia. split; [lia | f_equal; lia].
  - exists m. unfold ts in W at 1. rewrite <- (trace_tr size ltac:(lia) fs 0 ltac:(lia)) in W. split.
    + split; [intros x [] |]. rewrite firstn_all, app_nil_r. exact W.
    + change (used ts) with (0 + used ts). apply bufferAll_trace; [lia | lia | exact W].
Qed.
Lemma final_holds m t1 f t3 : moment size fs (List.length (trace size 0 fs)) [] m -> ts = t1 ++ f :: t3 ->
  takez (len (wire_packet f)) (dropz (used t1) m) = wire_packet f.
Proof.
  intros Mo E. apply (shown size fs S0 _ _ m t1 f t3 Mo E). intros a Ha. unfold done_. rewrite app_nil_r.
  rewrite (trace_tr size ltac:(lia) fs 0 ltac:(lia)). fold ts. rewrite firstn_all.
  apply in_map_iff. exists (used t1 + a, nthz (flat_map wire_packet ts) (used t1 + a)). split; [reflexivity |]. apply in_tr.
  pose proof (wire_min f). pose proof (used_nonneg t1). pose proof (used_nonneg t3). rewrite Z.sub_0_r. split; [| reflexivity].
  rewrite E at 1. rewrite used_app, used_cons. lia.
Qed.
Lemma follow_final m : moment size fs (List.length (trace size 0 fs)) [] m -> forall rest t1 p, ts = t1 ++ rest ->
  bytesP (match pdata p with Some b => b | None => [] end) ->
  exists seen, follow (repeat m (List.length rest)) (used t1) p = Ok seen /\ Forall2 reports seen rest.
Proof.
  intros Mo. assert (Bm := moment_all_bytes size fs S0 OK _ _ m Mo). induction rest as [| f rest IH]; intros t1 p E P; cbn [List.length repeat follow].
  - exists []. split; [reflexivity | constructor].
  - pose proof (final_holds m t1 f rest Mo E) as W.
    assert (F : fields_ok f) by (rewrite Forall_forall in OK; apply OK, (taken_in size f fs 0); fold ts; rewrite E; apply in_or_app; right; left; reflexivity).
    rewrite <- (takez_dropz (len (wire_packet f)) (dropz (used t1) m)), W.
    assert (Bb : bytesP (dropz (len (wire_packet f)) (dropz (used t1) m))) by (apply bytesP_dropz, bytesP_dropz, Bm).
    destruct (read_packet f _ p F Bb P) as (q & Q1 & Q2 & Q3 & Q4). rewrite Q1. cbv beta iota. pose proof Q2 as (V & _). rewrite V. cbv beta iota. rewrite Q3.
    destruct (IH (t1 ++ [f]) q) as (seen & E2 & F2); [rewrite <- app_assoc; exact E | rewrite Q4, bytesP_app; split; [now apply wire_bytes | exact Bb] |].
    rewrite used_app in E2. replace (used [f]) with (len (wire_packet f)) in E2 by (unfold used; cbn [flat_map]; now rewrite app_nil_r).
    rewrite E2. exists (q :: seen). split; [reflexivity | constructor; assumption].
Qed.
End Final.
