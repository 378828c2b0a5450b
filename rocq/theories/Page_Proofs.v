From Verif Require Import Common CommonFacts CommonMore Bitfields_Model Bitfields_Spec Bitfields_Proofs Mem_Model Mem_Proofs Outcome_Model JsonVal_Model Scan_Model Dtmi_Spec Dtmi_Proofs DtmiScan_Proofs Dtsc_Model Dtsc_Spec Dtsc_Proofs Dtsc_Props Page_Model Page_Spec.

(** ** Stores *)
Definition segs (f : fields) : list (list Z) :=
  bs "DTP2" :: htobl (packDataLen f - 8) :: htobl (f_track f) :: htobll (f_time f) :: [0xE0] ::
  (if f_offset f =? 0 then [] else [[0; 6] ++ bs "offset" ++ [1]; htobll (f_offset f)]) ++
  (if f_bpos f =? 0 then [] else [[0; 4] ++ bs "bpos" ++ [1]; htobll (f_bpos f)]) ++
  (if f_key f then [[0; 8] ++ bs "keyframe" ++ [1; 0; 0; 0; 0; 0; 0; 0; 1]] else []) ++
  [[0; 4] ++ bs "data" ++ [2]; htobl (len (f_data f)); f_data f; [0; 0; 0xEE]].
Fixpoint layout (o : Z) (ss : list (list Z)) : list (list store) :=
  match ss with [] => [] | s :: r => group o s :: layout (o + len s) r end.

Lemma len_htobl v : len (htobl v) = 4. Proof. rewrite wr_htobl. apply be_len. Qed.
Lemma len_htobll v : len (htobll v) = 8. Proof. rewrite wr_htobll. apply be_len. Qed.

Definition bodyg (o : Z) (f : fields) : list (list store) :=
  match layout o (segs f) with
  | _ :: b :: c :: d :: r => r ++ [d; c; b]
  | _ => []
  end.
Lemma stores_eq o f : stores o f = bodyg o f ++ [group o (bs "DTP2")].
Proof.
  unfold stores, bodyg, segs. cbn [layout]. rewrite <- app_assoc. cbn [app].
  change (len (bs "DTP2")) with 4. rewrite !len_htobl, !len_htobll. change (len [224]) with 1.
  replace (o + 4 + 4) with (o + 8) by lia. replace (o + 8 + 4) with (o + 12) by lia. replace (o + 12 + 8) with (o + 20) by lia.
  replace (o + 20 + 1) with (o + 21) by lia.
  destruct (f_offset f =? 0), (f_bpos f =? 0), (f_key f); cbn [layout app]; rewrite ?len_htobl, ?len_htobll;
    change (len [0; 6] ) with 2; cbn [len];
    repeat match goal with |- context [len (?a :: ?b)] => let v := eval vm_compute in (len (a :: b)) in change (len (a :: b)) with v end;
    repeat (f_equal; try lia).
Qed.
Lemma segs_wire f : List.concat (segs f) = wire_packet f /\ len (wire_packet f) = packDataLen f.
Proof.
  assert (L : len (wire_packet f) = packDataLen f).
  { rewrite wire_pkt, len_pkt, len_body. unfold packDataLen. destruct (f_offset f =? 0), (f_bpos f =? 0), (f_key f); cbn [negb key_of]; lia. }
  split; [| exact L]. rewrite wire_pkt in L |- *. rewrite len_pkt in L. unfold pkt in *. unfold segs.
  replace (12 + len (enc (body (f_offset f) (f_bpos f) (key_of (f_key f)) (f_data f)))) with (packDataLen f - 8) by lia.
  unfold body. rewrite enc_obj, !flat_map_app. unfold opt. rewrite !wr_htobl, !wr_htobll.
  destruct (f_offset f =? 0), (f_bpos f =? 0), (f_key f); cbn [negb key_of key_member flat_map]; unfold encm; cbn [fst snd enc]; rewrite ?be_s64;
    cbn [List.concat app]; rewrite ?app_nil_r, <- ?app_assoc; reflexivity.
Qed.

Lemma nthz_cons x xs i : 0 < i -> nthz (x :: xs) i = nthz xs (i - 1).
Proof. intros H. change (x :: xs) with ([x] ++ xs). rewrite nthz_app2; [reflexivity |]. change (len [x]) with 1. lia. Qed.
Lemma in_group i b xs : forall o, In (i, b) (group o xs) <-> o <= i < o + len xs /\ b = nthz xs (i - o).
Proof.
  induction xs as [| x xs IH]; intros o; cbn [group In].
  - unfold len. cbn. lia.
  - rewrite IH, len_cons. pose proof (len_nonneg xs). split.
    + intros [[= -> ->] | (H1 & ->)]; [split; [lia |]; now replace (i - i) with 0 by lia |].
      split; [lia |]. rewrite nthz_cons by lia. f_equal. lia.
    + intros (H1 & H2). destruct (Z.eq_dec i o) as [-> | N].
      * left. rewrite H2. now replace (o - o) with 0 by lia.
      * right. split; [lia |]. rewrite H2, nthz_cons by lia. f_equal. lia.
Qed.
Lemma in_layout i b ss : forall o, In (i, b) (List.concat (layout o ss)) <-> o <= i < o + len (List.concat ss) /\ b = nthz (List.concat ss) (i - o).
Proof.
  induction ss as [| s ss IH]; intros o; cbn [layout List.concat].
  - unfold len. cbn. lia.
  - rewrite in_app_iff, in_group, IH, len_app. pose proof (len_nonneg s). pose proof (len_nonneg (List.concat ss)). split.
    + intros [(H1 & ->) | (H1 & ->)]; (split; [lia |]); [rewrite nthz_app1 by lia; reflexivity | rewrite nthz_app2 by lia; f_equal; lia].
    + intros (H1 & H2). destruct (Z.ltb_spec i (o + len s)).
      * left. split; [lia |]. rewrite H2, nthz_app1 by lia. reflexivity.
      * right. split; [lia |]. rewrite H2, nthz_app2 by lia. f_equal. lia.
Qed.

(** Everything but the magic, then the magic. *)
Lemma in_body i b o f : In (i, b) (List.concat (bodyg o f)) <-> o + 4 <= i < o + packDataLen f /\ b = nthz (wire_packet f) (i - o).
Proof.
  destruct (segs_wire f) as (W & L).
  assert (A : In (i, b) (List.concat (bodyg o f)) <-> In (i, b) (List.concat (tl (layout o (segs f))))).
  { unfold bodyg, segs. cbn [layout tl]. rewrite !concat_app. cbn [List.concat]. rewrite !in_app_iff. cbn [In]. tauto. }
  rewrite A. clear A. unfold segs in *. set (rest := htobl (packDataLen f - 8) :: _) in *. cbn [layout tl]. change (len (bs "DTP2")) with 4.
  rewrite in_layout. cbn [List.concat] in W. rewrite <- W, len_app in L. change (len (bs "DTP2")) with 4 in L. split.
  - intros (H1 & ->). split; [lia |]. rewrite <- W, nthz_app2 by (change (len (bs "DTP2")) with 4; lia). change (len (bs "DTP2")) with 4. f_equal. lia.
  - intros (H1 & ->). split; [lia |]. rewrite <- W, nthz_app2 by (change (len (bs "DTP2")) with 4; lia). change (len (bs "DTP2")) with 4. f_equal. lia.
Qed.
Lemma magic f i : 0 <= i < 4 -> nthz (wire_packet f) i = nthz (bs "DTP2") i /\ nthz (wire_packet f) i <> 0.
Proof.
  intros H. assert (E : nthz (wire_packet f) i = nthz (bs "DTP2") i) by (unfold wire_packet; apply nthz_app1; exact H).
  split; [exact E |]. rewrite E. assert (i = 0 \/ i = 1 \/ i = 2 \/ i = 3) as [-> | [-> | [-> | ->]]] by lia; vm_compute; discriminate.
Qed.
Lemma in_magic i b o f : In (i, b) (group o (bs "DTP2")) <-> o <= i < o + 4 /\ b = nthz (wire_packet f) (i - o).
Proof.
  rewrite in_group. change (len (bs "DTP2")) with 4. split; intros (H & ->); (split; [exact H |]); [symmetry |]; apply magic; lia.
Qed.
Lemma wire_min f : 35 <= len (wire_packet f).
Proof. destruct (segs_wire f) as (_ & ->). unfold packDataLen. pose proof (len_nonneg (f_data f)). destruct (f_offset f =? 0), (f_bpos f =? 0), (f_key f); lia. Qed.
Lemma in_stores i b o f : In (i, b) (List.concat (stores o f)) <-> o <= i < o + len (wire_packet f) /\ b = nthz (wire_packet f) (i - o).
Proof.
  destruct (segs_wire f) as (_ & L). rewrite L. pose proof (wire_min f) as M. rewrite L in M.
  rewrite stores_eq, concat_app. cbn [List.concat]. rewrite app_nil_r, in_app_iff, in_body, (in_magic i b o f).
  split; [intros [(H1 & ->) | (H1 & ->)]; (split; [lia | reflexivity]) |].
  intros (H1 & ->). destruct (Z.ltb_spec i (o + 4)); [right | left]; (split; [lia | reflexivity]).
Qed.

(** ** Traces *)
Fixpoint tr (a : Z) (ts : list fields) : list (list store) :=
  match ts with [] => [] | f :: r => stores a f ++ tr (a + len (wire_packet f)) r end.
Lemma used_cons f ts : used (f :: ts) = len (wire_packet f) + used ts.
Proof. unfold used. cbn [flat_map]. apply len_app. Qed.
Lemma used_app a b : used (a ++ b) = used a + used b.
Proof. unfold used. rewrite flat_map_app. apply len_app. Qed.
Lemma used_nonneg a : 0 <= used a. Proof. apply len_nonneg. Qed.
Lemma refused_eq size a f : 0 <= a <= size -> size < 2 ^ 64 -> refused size a f = negb (a + len (wire_packet f) <=? size).
Proof.
  intros H S. unfold refused, u64. destruct (segs_wire f) as (_ & L). rewrite L. change (2 ^ 64) with 18446744073709551616 in S.
  rewrite Z.mod_small by lia. lia.
Qed.
Lemma trace_tr size : size < 2 ^ 64 -> forall fs a, 0 <= a <= size -> trace size a fs = tr a (taken size a fs).
Proof.
  intros S. induction fs as [| f fs IH]; intros a H; cbn [trace taken tr]; [reflexivity |].
  rewrite refused_eq by assumption. pose proof (wire_min f). destruct (Z.leb_spec (a + len (wire_packet f)) size); cbn [negb].
  - destruct (segs_wire f) as (_ & L). rewrite <- L. cbn [tr]. f_equal. apply IH. lia.
  - apply IH. exact H.
Qed.
Lemma taken_used size : forall fs a, 0 <= a <= size -> a + used (taken size a fs) <= size.
Proof.
  induction fs as [| f fs IH]; intros a H; cbn [taken]; [unfold used; cbn; lia |].
  pose proof (wire_min f). destruct (Z.leb_spec (a + len (wire_packet f)) size); [| apply IH; exact H].
  rewrite used_cons. specialize (IH (a + len (wire_packet f)) ltac:(lia)). lia.
Qed.
Lemma in_tr i b ts : forall a, In (i, b) (List.concat (tr a ts)) <-> a <= i < a + used ts /\ b = nthz (flat_map wire_packet ts) (i - a).
Proof.
  induction ts as [| f ts IH]; intros a; cbn [tr flat_map].
  - unfold used. cbn. lia.
  - rewrite concat_app, in_app_iff, in_stores, IH, used_cons. pose proof (wire_min f). pose proof (used_nonneg ts). split.
    + intros [(H1 & ->) | (H1 & ->)]; (split; [lia |]); [rewrite nthz_app1 by lia; reflexivity | rewrite nthz_app2 by lia; f_equal; lia].
    + intros (H1 & H2). destruct (Z.ltb_spec i (a + len (wire_packet f))).
      * left. split; [lia |]. rewrite H2, nthz_app1 by lia. reflexivity.
      * right. split; [lia |]. rewrite H2, nthz_app2 by lia. f_equal. lia.
Qed.
Lemma tr_app a b : forall o, tr o (a ++ b) = tr o a ++ tr (o + used a) b.
Proof.
  induction a as [| f a IH]; intros o; cbn [app tr].
  - unfold used. cbn. now rewrite Z.add_0_r.
  - rewrite IH, used_cons, app_assoc. do 2 f_equal. lia.
Qed.

(** ** Memory after some stores *)
Lemma writes_ok W l : forall m, (forall i b, In (i, b) l -> 0 <= i < len m /\ b = W i) ->
  exists m', writes m l = Some m' /\ len m' = len m /\
    (forall i, 0 <= i < len m -> (In i (map fst l) -> nthz m' i = W i) /\ (~ In i (map fst l) -> nthz m' i = nthz m i)).
Proof.
  induction l as [| (o, x) l IH]; intros m H; cbn [writes map fst In].
  - exists m. split; [reflexivity |]. split; [reflexivity |]. intros i _. split; [intros [] | reflexivity].
  - destruct (H o x (or_introl eq_refl)) as (R & ->).
    destruct (poke m o [W o]) as [m1 |] eqn:E; [| rewrite poke_some in E by (change (len [W o]) with 1; lia); discriminate].
    pose proof (poke_len _ _ _ _ E) as L1.
    destruct (IH m1) as (m' & E' & L' & N'). { intros i b I. rewrite L1. apply H. right. exact I. }
    exists m'. split; [exact E' |]. split; [congruence |]. intros i Hi. rewrite L1 in N'. destruct (N' i Hi) as (N1 & N2).
    assert (P : nthz m1 i = if i =? o then W o else nthz m i).
    { destruct (poke_inv _ _ _ _ E) as (_ & _ & ->). unfold splice. destruct (Z.eqb_spec i o) as [-> | NE].
      - rewrite nthz_app2 by (rewrite len_takez; lia). rewrite len_takez by lia. replace (o - o) with 0 by lia. reflexivity.
      - destruct (Z.ltb_spec i o).
        + rewrite nthz_app1 by (rewrite len_takez; lia). apply nthz_takez. lia.
        + rewrite nthz_app2 by (rewrite len_takez; lia). rewrite len_takez by lia. cbn [app]. rewrite nthz_cons by lia.
          rewrite nthz_dropz by (change (len [W o]) with 1; lia). f_equal. change (len [W o]) with 1. lia. }
    destruct (in_dec Z.eq_dec i (map fst l)) as [I | I].
    + split; [intros _; apply N1, I | intros Q; exfalso; tauto].
    + split; [intros [<- | Q]; [| tauto] | intros Q]; rewrite (N2 I), P.
      * now rewrite Z.eqb_refl.
      * destruct (Z.eqb_spec i o); [exfalso; apply Q; left; congruence | reflexivity].
Qed.

(** ** What a moment looks like *)
Section Moment.
Context (size : Z) (fs : list fields) (S0 : 0 <= size < 2 ^ 64) (OK : Forall fields_ok fs).
Let ts := taken size 0 fs.
Let image := flat_map wire_packet ts.
Lemma room : used ts <= size.
Proof. pose proof (taken_used size fs 0 ltac:(lia)) as H. exact H. Qed.
Lemma nthz_repeat0 n i : nthz (repeat 0 n) i = 0.
Proof. unfold nthz. generalize (Z.to_nat i). induction n; intros [| k]; cbn; auto. Qed.

Definition done_ (k : nat) (some : list store) : list store := List.concat (firstn k (tr 0 ts)) ++ some.
Lemma moment_eq k some m : moment size fs k some m <-> incl some (nth k (tr 0 ts) []) /\ writes (repeat 0 (Z.to_nat size)) (done_ k some) = Some m.
Proof. unfold moment, done_. rewrite (trace_tr size ltac:(lia) fs 0 ltac:(lia)). reflexivity. Qed.
Lemma concat_firstn {A} k (G : list (list A)) x : In x (List.concat (firstn k G)) -> In x (List.concat G).
Proof. intros H. rewrite <- (firstn_skipn k G), concat_app. apply in_or_app. left. exact H. Qed.
Lemma nth_concat {A} k (G : list (list A)) x : In x (nth k G []) -> In x (List.concat G).
Proof.
  intros H. destruct (Nat.ltb_spec k (List.length G)).
  - apply in_concat. exists (nth k G []). split; [now apply nth_In | exact H].
  - rewrite nth_overflow in H by lia. destruct H.
Qed.
Lemma done_in k some i b : incl some (nth k (tr 0 ts) []) -> In (i, b) (done_ k some) -> 0 <= i < used ts /\ b = nthz image i.
Proof.
  intros I H. assert (J : In (i, b) (List.concat (tr 0 ts))).
  { apply in_app_or in H as [H | H]; [apply (concat_firstn _ _ _ H) | apply (nth_concat k), I, H]. }
  apply in_tr in J as (J1 & ->). split; [lia |]. unfold image. f_equal. lia.
Qed.
Lemma moment_bytes k some m : moment size fs k some m -> len m = size /\
  forall i, 0 <= i < size -> (In i (map fst (done_ k some)) -> nthz m i = nthz image i) /\ (~ In i (map fst (done_ k some)) -> nthz m i = 0).
Proof.
  rewrite moment_eq. intros (I & E).
  assert (LZ : len (repeat 0 (Z.to_nat size)) = size) by (unfold len; rewrite repeat_length; lia).
  destruct (writes_ok (nthz image) (done_ k some) (repeat 0 (Z.to_nat size))) as (m' & E' & L' & N').
  { intros i b J. destruct (done_in k some i b I J) as (A & B). pose proof room. rewrite LZ. split; [lia | exact B]. }
  rewrite E in E'. injection E' as <-. rewrite LZ in *. split; [exact L' |]. intros i Hi. destruct (N' i Hi) as (A & B).
  split; [exact A |]. intros Q. rewrite (B Q). apply nthz_repeat0.
Qed.

(** The magic of a packet is only written when the rest of it, and all before it, is there. *)
Lemma order t1 f t3 k some a : ts = t1 ++ f :: t3 -> incl some (nth k (tr 0 ts) []) -> 0 <= a < 4 ->
  In (used t1 + a) (map fst (done_ k some)) -> forall j, used t1 + 4 <= j < used t1 + len (wire_packet f) -> In j (map fst (done_ k some)).
Proof.
  intros E I Ha M j Hj. unfold done_ in *.
  assert (G : tr 0 ts = (tr 0 t1 ++ bodyg (used t1) f) ++ group (used t1) (bs "DTP2") :: tr (used t1 + len (wire_packet f)) t3).
  { rewrite E, tr_app. cbn [tr]. rewrite stores_eq, <- !app_assoc. cbn [app]. reflexivity. }
  set (A := tr 0 t1 ++ bodyg (used t1) f) in *. rewrite G in *. pose proof (used_nonneg t1) as U.
  assert (NA : forall b, ~ In (used t1 + a, b) (List.concat A)).
  { intros b H. unfold A in H. rewrite concat_app in H. apply in_app_or in H as [H | H].
    - apply in_tr in H as (H & _). lia.
    - apply in_body in H as (H & _). lia. }
  destruct (Nat.ltb_spec k (List.length A)) as [L | L].
  - exfalso. apply in_map_iff in M as ((i & b) & Ei & M). cbn [fst] in Ei. subst i. apply (NA b).
    rewrite firstn_app in M. replace (k - List.length A)%nat with O in M by lia. cbn [firstn] in M. rewrite app_nil_r in M.
    apply in_app_or in M as [M | M]; [apply (concat_firstn _ _ _ M) |]. apply I in M. rewrite app_nth1 in M by exact L. apply (nth_concat k), M.
  - rewrite map_app. apply in_or_app. left. rewrite firstn_app, concat_app, map_app. apply in_or_app. left. rewrite firstn_all2 by exact L.
    apply in_map_iff. exists (j, nthz (wire_packet f) (j - used t1)). split; [reflexivity |]. unfold A. rewrite concat_app. apply in_or_app. right.
    apply in_body. destruct (segs_wire f) as (_ & <-). split; [exact Hj | reflexivity].
Qed.
Lemma image_at t1 f t3 i : ts = t1 ++ f :: t3 -> 0 <= i < len (wire_packet f) -> nthz image (used t1 + i) = nthz (wire_packet f) i.
Proof.
  intros E H. unfold image. rewrite E, flat_map_app. cbn [flat_map]. unfold used.
  rewrite nthz_app2 by lia. rewrite nthz_app1 by lia. f_equal. lia.
Qed.
Lemma fits_in t1 f t3 : ts = t1 ++ f :: t3 -> 0 <= used t1 /\ used t1 + len (wire_packet f) <= size.
Proof.
  intros E. pose proof room as R. rewrite E, used_app, used_cons in R. pose proof (used_nonneg t1). pose proof (used_nonneg t3). lia.
Qed.

(** All four magic bytes there: the whole packet is. *)
Lemma shown k some m t1 f t3 : moment size fs k some m -> ts = t1 ++ f :: t3 ->
  (forall a, 0 <= a < 4 -> In (used t1 + a) (map fst (done_ k some))) -> takez (len (wire_packet f)) (dropz (used t1) m) = wire_packet f.
Proof.
  intros Mo E M. destruct (moment_bytes k some m Mo) as (L & N). apply moment_eq in Mo as (I & _).
  destruct (fits_in t1 f t3 E) as (U1 & U2). pose proof (wire_min f) as WM.
  apply list_ext.
  - rewrite len_takez; [reflexivity |]. rewrite len_dropz by lia. lia.
  - rewrite len_takez by (rewrite len_dropz by lia; lia). intros i Hi. rewrite nthz_takez, nthz_dropz by lia.
    rewrite <- (image_at t1 f t3 i E) by lia. apply N; [lia |].
    destruct (Z.ltb_spec i 4); [apply M; lia |]. apply (order t1 f t3 k some 0 E I ltac:(lia)); [apply M; lia | lia].
Qed.
Lemma nonzero_in k some m i : moment size fs k some m -> 0 <= i < size -> nthz m i <> 0 -> In i (map fst (done_ k some)).
Proof.
  intros Mo H N. destruct (moment_bytes k some m Mo) as (_ & B). destruct (in_dec Z.eq_dec i (map fst (done_ k some))) as [Y | Y]; [exact Y |].
  exfalso. apply N, (B i H), Y.
Qed.
Lemma later_in k some k' some' : incl some (nth k (tr 0 ts) []) -> later k some k' some' -> incl (done_ k some) (done_ k' some').
Proof.
  intros I H x X. unfold done_ in *. destruct H as [H | (<- & H)].
  - apply in_or_app. left. apply in_app_or in X.
    assert (Y : In x (List.concat (firstn (S k) (tr 0 ts)))).
    { destruct X as [X | X].
      - rewrite <- (firstn_skipn k (firstn (S k) _)), firstn_firstn, concat_app. apply in_or_app. left. replace (Nat.min k (S k)) with k by lia. exact X.
      - apply I in X. clear - X. revert k X. induction (tr 0 ts) as [| g G IH]; intros [| k] X; cbn [nth] in X; try (destruct X; fail).
        + cbn. rewrite app_nil_r. exact X.
        + rewrite firstn_cons. cbn [List.concat]. apply in_or_app. right. apply IH. exact X. }
    rewrite <- (firstn_skipn (S k) (firstn k' _)), firstn_firstn, concat_app. apply in_or_app. left. replace (Nat.min (S k) k') with (S k) by lia. exact Y.
  - apply in_app_or in X as [X | X]; apply in_or_app; [left; exact X | right; apply H, X].
Qed.
Lemma stable k some m k' some' m' t1 f t3 : moment size fs k some m -> moment size fs k' some' m' -> later k some k' some' ->
  ts = t1 ++ f :: t3 -> (forall a, 0 <= a < 4 -> nthz m (used t1 + a) <> 0) -> takez (len (wire_packet f)) (dropz (used t1) m') = wire_packet f.
Proof.
  intros Mo Mo' La E N. apply (shown k' some' m' t1 f t3 Mo' E). intros a Ha.
  destruct (fits_in t1 f t3 E). pose proof (wire_min f).
  assert (X := nonzero_in k some m (used t1 + a) Mo ltac:(lia) (N a Ha)).
  apply moment_eq in Mo as (I & _). apply in_map_iff in X as (x & <- & X). apply in_map. apply (later_in k some k' some' I La), X.
Qed.
End Moment.
