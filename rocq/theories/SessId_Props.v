(** * Session identity (C29) *)
From Verif Require Import Common CommonFacts SessId_Model SessId_Spec.

Lemma bit_land m k : 0 <= k -> (m .& 2 ^ k =? 0) = negb (Z.testbit m k).
Proof.
  intros K. destruct (Z.testbit m k) eqn:B.
  - destruct (Z.eqb_spec (m .& 2 ^ k) 0) as [E |]; [| reflexivity].
    assert (X : Z.testbit (m .& 2 ^ k) k = false) by (rewrite E; apply Z.testbit_0_l). rewrite Z.land_spec, B, Z.pow2_bits_true in X by lia. discriminate X.
  - destruct (Z.eqb_spec (m .& 2 ^ k) 0) as [E | N]; [reflexivity |]. exfalso. apply N. apply Z.bits_inj'. intros j J. rewrite Z.land_spec, Z.testbit_0_l, Z.pow2_bits_eqb by lia.
    destruct (Z.eqb_spec k j) as [<- |]; [rewrite B; reflexivity | apply andb_false_r].
Qed.
Lemma generate_selected sha r m : generateSession sha r m = sha (List.concat (selected m r)).
Proof.
  unfold generateSession, selected. pose proof (bit_land m 3 ltac:(lia)) as B3. pose proof (bit_land m 2 ltac:(lia)) as B2. pose proof (bit_land m 1 ltac:(lia)) as B1. pose proof (bit_land m 0 ltac:(lia)) as B0.
  change (2 ^ 3) with 8 in B3. change (2 ^ 2) with 4 in B2. change (2 ^ 1) with 2 in B1. change (2 ^ 0) with 1 in B0. rewrite B3, B2, B1, B0. f_equal.
  destruct (Z.testbit m 3), (Z.testbit m 2), (Z.testbit m 1), (Z.testbit m 0); cbn; rewrite ?app_nil_r; reflexivity.
Qed.
Lemma starts_spec (p w : list Z) : (exists x, p = w ++ x) <-> (len w <=? len p) && beqb (takez (len w) p) w = true.
Proof.
  split.
  - intros (x & ->). rewrite len_app, takez_app_exact by reflexivity. apply andb_true_intro. split; [apply Z.leb_le; pose proof (len_nonneg x); lia | apply beqb_refl].
  - intros H. apply andb_prop in H as (H1 & H2). apply beqb_eq in H2. exists (dropz (len w) p). rewrite <- H2 at 1. symmetry. apply takez_dropz.
Qed.
Definition id_of (sha : list Z -> list Z) (m : modes) (r : req) (k : kind) : option (list Z) :=
  match k with
  | Viewer => Some (generateSession sha r (viewerMode m)) | Input => Some (bs "I" ++ generateSession sha r (inputMode m))
  | Output => Some (bs "O" ++ generateSession sha r (outputMode m)) | Unspecified => Some (bs "U" ++ generateSession sha r (unspecifiedMode m))
  | Uncounted => None
  end.
Lemma isin p : (6 <=? len p) && beqb (takez 6 p) (bs "INPUT:") = true <-> exists x, p = bs "INPUT:" ++ x.
Proof. symmetry. exact (starts_spec p (bs "INPUT:")). Qed.
Lemma isout p : (7 <=? len p) && beqb (takez 7 p) (bs "OUTPUT:") = true <-> exists x, p = bs "OUTPUT:" ++ x.
Proof. symmetry. exact (starts_spec p (bs "OUTPUT:")). Qed.
Lemma ishttp p : (len p =? 4) && beqb p (bs "HTTP") = true <-> p = bs "HTTP".
Proof. rewrite andb_true_iff, beqb_eq. split; [tauto |]. intros ->. split; reflexivity. Qed.
Lemma not_true b : b <> true -> b = false.
Proof. destruct b; congruence. Qed.
Lemma id_kind sha m r k : counts_as m r k -> sessionId sha m r = id_of sha m r k.
Proof.
  intros C. unfold sessionId.
  assert (HI : forall x, protocol r = bs "INPUT:" ++ x -> (6 <=? len (protocol r)) && beqb (takez 6 (protocol r)) (bs "INPUT:") = true) by (intros x E; apply isin; exists x; exact E).
  assert (HO : forall x, protocol r = bs "OUTPUT:" ++ x -> (6 <=? len (protocol r)) && beqb (takez 6 (protocol r)) (bs "INPUT:") = false).
  { intros x E. apply not_true. rewrite isin. intros (y & F). rewrite E in F. discriminate F. }
  assert (HO' : forall x, protocol r = bs "OUTPUT:" ++ x -> (7 <=? len (protocol r)) && beqb (takez 7 (protocol r)) (bs "OUTPUT:") = true) by (intros x E; apply isout; exists x; exact E).
  assert (HH : protocol r = bs "HTTP" -> (6 <=? len (protocol r)) && beqb (takez 6 (protocol r)) (bs "INPUT:") = false /\ (7 <=? len (protocol r)) && beqb (takez 7 (protocol r)) (bs "OUTPUT:") = false /\ (len (protocol r) =? 4) && beqb (protocol r) (bs "HTTP") = true) by (intros ->; repeat split).
  destruct C as [x E | x E | E M | E M | E M | E M1 M2 M3 | N1 N2 N3].
  - rewrite (HI _ E). reflexivity.
  - rewrite (HO _ E), (HO' _ E). reflexivity.
  - destruct (HH E) as (-> & -> & ->). rewrite M. reflexivity.
  - destruct (HH E) as (-> & -> & ->). rewrite M. reflexivity.
  - destruct (HH E) as (-> & -> & ->). rewrite M. reflexivity.
  - destruct (HH E) as (-> & -> & ->). destruct (infoMode m =? HTTP_AS_VIEWER); [reflexivity |]. destruct (Z.eqb_spec (infoMode m) HTTP_AS_OUTPUT); [contradiction |].
    destruct (Z.eqb_spec (infoMode m) HTTP_DISABLED); [contradiction |]. destruct (Z.eqb_spec (infoMode m) HTTP_AS_UNSPECIFIED); [contradiction |]. reflexivity.
  - rewrite (not_true ((6 <=? _) && _)) by (rewrite isin; intros (x & E); exact (N2 x E)). rewrite (not_true ((7 <=? _) && _)) by (rewrite isout; intros (x & E); exact (N3 x E)).
    rewrite (not_true ((_ =? 4) && _)) by (rewrite ishttp; exact N1). reflexivity.
Qed.
Lemma app_inv_len (a b c d : list Z) : a ++ b = c ++ d -> List.length a = List.length c -> a = c /\ b = d.
Proof.
  revert c. induction a as [| x a IH]; intros [| y c] E L; cbn in *; try discriminate L; [auto |]. injection E as -> E. destruct (IH c E ltac:(lia)) as (-> & ->). auto.
Qed.
Lemma open_concat l : forall r, one_open l r -> List.concat l = List.concat r -> l = r.
Proof.
  assert (F : forall a b : list (list Z), Forall2 (fun a b => List.length a = List.length b) a b -> List.length (List.concat a) = List.length (List.concat b)).
  { intros a b H. induction H; [reflexivity |]. cbn. rewrite !app_length. lia. }
  assert (G : forall a b : list (list Z), Forall2 (fun a b => List.length a = List.length b) a b -> List.concat a = List.concat b -> a = b).
  { intros a b H. induction H as [| x y a b L H IH]; intros E; [reflexivity |]. cbn in E. apply app_inv_len in E as (-> & E); [| exact L]. rewrite (IH E). reflexivity. }
  intros r H. induction H as [| x y l r H | x y l r L H IH]; intros E; [reflexivity | |].
  - cbn in E. pose proof (F _ _ H) as Lc. assert (Lx : List.length x = List.length y) by (apply (f_equal (@List.length Z)) in E; rewrite !app_length in E; lia).
    apply app_inv_len in E as (-> & E); [| exact Lx]. rewrite (G _ _ H E). reflexivity.
  - cbn in E. apply app_inv_len in E as (-> & E); [| exact L]. rewrite (IH E). reflexivity.
Qed.

(** Every connection counts as exactly one kind. *)
Theorem session_kind m r : exists k, counts_as m r k /\ forall k', counts_as m r k' -> k' = k.
Proof.
  set (hash := fun x : list Z => 0 :: x).
  assert (U : forall k k', counts_as m r k -> counts_as m r k' -> k' = k).
  { intros k k' C C'. pose proof (id_kind hash m r k C) as E. rewrite (id_kind hash m r k' C') in E. destruct k, k'; cbn in E; try discriminate E; reflexivity. }
  enough (X : exists k, counts_as m r k) by (destruct X as (k & C); exists k; split; [exact C | intros k'; apply U; exact C]).
  destruct ((6 <=? len (protocol r)) && beqb (takez 6 (protocol r)) (bs "INPUT:")) eqn:E1; [apply isin in E1 as (x & E); exists Input; econstructor; exact E |].
  destruct ((7 <=? len (protocol r)) && beqb (takez 7 (protocol r)) (bs "OUTPUT:")) eqn:E2; [apply isout in E2 as (x & E); exists Output; econstructor; exact E |].
  destruct ((len (protocol r) =? 4) && beqb (protocol r) (bs "HTTP")) eqn:E3.
  - apply ishttp in E3. destruct (Z.eq_dec (infoMode m) HTTP_AS_OUTPUT); [exists Output; apply as_http_output; assumption |].
    destruct (Z.eq_dec (infoMode m) HTTP_DISABLED); [exists Uncounted; apply as_http_none; assumption |]. destruct (Z.eq_dec (infoMode m) HTTP_AS_UNSPECIFIED); [exists Unspecified; apply as_http_unspecified; assumption |].
    exists Viewer. apply as_http_viewer; assumption.
  - exists Viewer. apply as_viewer.
    + intros E. apply ishttp in E. congruence.
    + intros x E. assert (X : (6 <=? len (protocol r)) && beqb (takez 6 (protocol r)) (bs "INPUT:") = true) by (apply isin; exists x; exact E). congruence.
    + intros x E. assert (X : (7 <=? len (protocol r)) && beqb (takez 7 (protocol r)) (bs "OUTPUT:") = true) by (apply isout; exists x; exact E). congruence.
Qed.
Print Assumptions session_kind.

(** Connections of one kind that agree on what the mode selects get the same id; whatever the digest. *)
Theorem session_same sha m r1 r2 k :
  counts_as m r1 k -> counts_as m r2 k -> selected (mode_of m k) r1 = selected (mode_of m k) r2 -> sessionId sha m r1 = sessionId sha m r2.
Proof.
  intros C1 C2 E. rewrite (id_kind _ _ _ _ C1), (id_kind _ _ _ _ C2). destruct k; cbn [id_of mode_of] in *; rewrite ?generate_selected, ?E; reflexivity.
Qed.
Print Assumptions session_same.

(** With a digest that does not collide, counted connections get the same id exactly if they are of one kind
    and agree on what its mode selects: if at most one selected component differs in length. Addresses are
    always 16 bytes long. Without that condition it is false, see session_ambiguous_refuted. *)
Theorem session_id_partial sha m r1 r2 k1 k2 :
  perfect sha -> counts_as m r1 k1 -> counts_as m r2 k2 -> k1 <> Uncounted -> k2 <> Uncounted ->
  (k1 = k2 -> one_open (selected (mode_of m k1) r1) (selected (mode_of m k1) r2)) ->
  (sessionId sha m r1 = sessionId sha m r2 <-> k1 = k2 /\ selected (mode_of m k1) r1 = selected (mode_of m k1) r2).
Proof.
  intros (Inj & Hex) C1 C2 N1 N2 O. split.
  - intros E. rewrite (id_kind _ _ _ _ C1), (id_kind _ _ _ _ C2) in E.
    assert (Nh : forall c x y, sha x = c :: y -> ~ hexdigit c -> False) by (intros c x y X H; specialize (Hex x); rewrite X in Hex; inversion Hex; contradiction).
    assert (K : k1 = k2).
    { destruct k1, k2; try contradiction; try reflexivity; cbn [id_of] in E; injection E as E; unfold generateSession in E; try discriminate E;
        solve [exfalso; eapply Nh; [exact E | unfold hexdigit; lia] | exfalso; symmetry in E; eapply Nh; [exact E | unfold hexdigit; lia]]. }
    subst k2. split; [reflexivity |]. apply open_concat; [apply O; reflexivity |]. apply Inj.
    destruct k1; try contradiction; cbn [id_of mode_of] in *; rewrite !generate_selected in E; injection E as E; exact E.
  - intros (<- & E). exact (session_same sha m r1 r2 k1 C1 C2 E).
Qed.
Print Assumptions session_id_partial.

(** The hypotheses are met, with the default modes: two viewers of one stream with different tokens, and an
    input. The digest here writes its input in unary. *)
Definition hexed (l : list Z) : list Z := flat_map (fun x => repeat 49 (Z.to_nat x) ++ (if x <? 0 then repeat 50 (Z.to_nat (- x)) else []) ++ [48]) l.
Lemma hexed_perfect : perfect hexed.
Proof.
  assert (Sp : forall c, c <> 48 -> forall a b x y, repeat c a ++ 48 :: x = repeat c b ++ 48 :: y -> a = b /\ x = y).
  { intros c N. induction a as [| a IH]; intros [| b] x y E; cbn in E; try (injection E as E1 E2; congruence).
    - injection E as E. auto.
    - injection E as E. destruct (IH _ _ _ E) as (-> & ->). auto. }
  assert (One : forall z, exists c n, (c = 49 \/ c = 50) /\ (forall t, repeat 49 (Z.to_nat z) ++ (if z <? 0 then repeat 50 (Z.to_nat (- z)) else []) ++ [48] ++ t = repeat c n ++ 48 :: t) /\ (c = 49 -> z = Z.of_nat n) /\ (c = 50 -> z = - Z.of_nat n /\ n <> 0%nat)).
  { intros z. destruct (Z.ltb_spec z 0).
    - exists 50, (Z.to_nat (- z)). split; [auto |]. split; [intros t; replace (Z.to_nat z) with 0%nat by lia; reflexivity |]. split; [discriminate | lia].
    - exists 49, (Z.to_nat z). split; [auto |]. split; [reflexivity |]. split; [lia | discriminate]. }
  split.
  - intros x. induction x as [| a x IH]; intros [| b y] E; [reflexivity | | |].
    + exfalso. cbn in E. destruct (One b) as (c & n & _ & H & _). rewrite <- !app_assoc in E. rewrite H in E. destruct n; discriminate E.
    + exfalso. cbn in E. destruct (One a) as (c & n & _ & H & _). rewrite <- !app_assoc in E. rewrite H in E. destruct n; discriminate E.
    + cbn in E. rewrite <- !app_assoc in E. destruct (One a) as (c & n & Hc & H & P1 & P2). destruct (One b) as (d & k & Hd & G & Q1 & Q2). rewrite H, G in E.
      assert (X : a = b /\ flat_map (fun x => repeat 49 (Z.to_nat x) ++ (if x <? 0 then repeat 50 (Z.to_nat (- x)) else []) ++ [48]) x = flat_map (fun x => repeat 49 (Z.to_nat x) ++ (if x <? 0 then repeat 50 (Z.to_nat (- x)) else []) ++ [48]) y).
      { destruct (Z.eq_dec c d) as [<- | Nc]; [destruct (Sp c ltac:(lia) _ _ _ _ E) as (-> & ->); split; [| reflexivity]; destruct Hc as [-> | ->]; [rewrite (P1 eq_refl), (Q1 eq_refl); reflexivity | destruct (P2 eq_refl) as (-> & _), (Q2 eq_refl) as (-> & _); reflexivity] |].
        exfalso. destruct Hc as [-> | ->], Hd as [-> | ->]; try congruence; [destruct (Q2 eq_refl) as (_ & Nk); destruct k; [congruence |] | destruct (P2 eq_refl) as (_ & Nk); destruct n; [congruence |]]; [destruct n | destruct k]; discriminate E. }
      destruct X as (-> & X). rewrite (IH _ X). reflexivity.
  - intros x. induction x as [| a x IH]; [constructor |]. cbn. apply Forall_app. split; [| exact IH]. apply Forall_app. split; [apply Forall_forall; intros z Hz; apply repeat_spec in Hz; subst; unfold hexdigit; lia |].
    apply Forall_app. split; [| repeat constructor; unfold hexdigit; lia]. destruct (a <? 0); [| constructor]. apply Forall_forall. intros z Hz. apply repeat_spec in Hz. subst. unfold hexdigit. lia.
Qed.
Example session_id_example :
  let v1 := mkreq (bs "live") (repeat 1 16) (bs "abc") (bs "HLS") in let v2 := mkreq (bs "live") (repeat 1 16) (bs "wxyz") (bs "HTTP") in let i := mkreq (bs "live") (repeat 1 16) (bs "abc") (bs "INPUT:TS") in
  perfect hexed /\ counts_as defaults v1 Viewer /\ counts_as defaults v2 Viewer /\ counts_as defaults i Input /\
  one_open (selected (mode_of defaults Viewer) v1) (selected (mode_of defaults Viewer) v2) /\ sessionId hexed defaults v1 <> sessionId hexed defaults v2 /\ sessionId hexed defaults v1 <> sessionId hexed defaults i.
Proof.
  intros v1 v2 i. split; [apply hexed_perfect |]. split; [apply as_viewer; [discriminate | intros x; discriminate | intros x; discriminate] |]. split; [apply as_http_viewer; [reflexivity | discriminate | discriminate | discriminate] |].
  split; [apply (as_input _ _ (bs "TS")); reflexivity |]. split; [cbn; apply open_later; [reflexivity |]; apply open_later; [reflexivity |]; apply open_here; constructor |].
  split; vm_compute; discriminate.
Qed.

(** Components are joined without a separator: with the default mode for viewers, a viewer can choose a token
    that gives it the session of somebody else on another stream, whatever the digest; and likewise a push
    with the default mode for the rest can be taken for another protocol. *)
Theorem session_ambiguous_refuted :
  (exists r1 r2, len (ip r1) = 16 /\ len (ip r2) = 16 /\ counts_as defaults r1 Viewer /\ counts_as defaults r2 Viewer /\
    stream r1 <> stream r2 /\ tkn r1 <> tkn r2 /\ forall sha, sessionId sha defaults r1 = sessionId sha defaults r2) /\
  (exists r1 r2, ip r1 = ip r2 /\ stream r1 = stream r2 /\ counts_as defaults r1 Output /\ counts_as defaults r2 Output /\
    protocol r1 <> protocol r2 /\ tkn r1 <> tkn r2 /\ forall sha, sessionId sha defaults r1 = sessionId sha defaults r2).
Proof.
  split.
  - exists (mkreq (bs "a") (repeat 98 16) (bs "bt") (bs "HLS")), (mkreq (bs "ab") (repeat 98 16) (bs "t") (bs "HLS")).
    repeat split; try discriminate; apply as_viewer; discriminate.
  - exists (mkreq (bs "s") (repeat 0 16) (bs "t") (bs "OUTPUT:OUTPUT:TS")), (mkreq (bs "s") (repeat 0 16) (bs "tOUTPUT:") (bs "OUTPUT:TS")).
    repeat split; try discriminate; [apply (as_output _ _ (bs "OUTPUT:TS")) | apply (as_output _ _ (bs "TS"))]; reflexivity.
Qed.
Print Assumptions session_ambiguous_refuted.
