From Verif Require Import Common CommonFacts Comms_Model Comms_Spec Comms_Proofs.

Fixpoint sumn (n : nat) (F : nat -> Z) : Z := match n with O => 0 | S k => sumn k F + F k end.
Lemma sumn_ext n F G : (forall i, (i < n)%nat -> F i = G i) -> sumn n F = sumn n G.
Proof. induction n as [| n IH]; intros H; [reflexivity |]. cbn. rewrite IH, H by (auto; lia). reflexivity. Qed.
Lemma sumn_at n F G j : (j < n)%nat -> (forall i, i <> j -> F i = G i) -> sumn n G = sumn n F + (G j - F j).
Proof.
  induction n as [| n IH]; intros L H; [lia |]. cbn. destruct (Nat.eq_dec j n) as [-> | N].
  - rewrite (sumn_ext n G F) by (intros i Hi; symmetry; apply H; lia). lia.
  - rewrite IH by (auto; lia). rewrite (H n) by lia. lia.
Qed.
Lemma sumn_0 n F : (forall i, (i < n)%nat -> F i = 0) -> sumn n F = 0.
Proof. induction n as [| n IH]; intros H; [reflexivity |]. cbn. rewrite IH, H by (auto; lia). reflexivity. Qed.
Lemma sumn_nonneg n F : (forall i, (i < n)%nat -> 0 <= F i) -> 0 <= sumn n F.
Proof. induction n as [| n IH]; intros H; [cbn; lia |]. cbn. pose proof (IH ltac:(auto)). pose proof (H n ltac:(lia)). lia. Qed.

Definition total (l : list client) (f : cf) : Z := fold_right (fun c a => cval c f + a) 0 l.
Lemma total_app l r f : total (l ++ r) f = total l f + total r f.
Proof. induction l as [| x l IH]; [reflexivity |]. cbn. fold (total (l ++ r) f). fold (total l f). lia. Qed.
Lemma total_upd l h g f : total (upd l h g) f = total l f + match nth_error l h with Some c => cval (g c) f - cval c f | None => 0 end.
Proof.
  unfold upd. destruct (nth_error l h) as [c |] eqn:E; [| lia]. pose proof (nth_error_split l h E) as (a & b & -> & L).
  assert (F : firstn h (a ++ c :: b) = a) by (rewrite <- L; rewrite firstn_app, Nat.sub_diag, firstn_all; cbn; apply app_nil_r).
  assert (K : skipn (S h) (a ++ c :: b) = b) by (rewrite <- L, skipn_app; rewrite skipn_all2 by lia; replace (S (List.length a) - List.length a)%nat with 1%nat by lia; reflexivity).
  rewrite F, K, !total_app. cbn. fold (total b f). lia.
Qed.
Lemma total_keep l h g f : (forall c, cval (g c) f = cval c f) -> total (upd l h g) f = total l f.
Proof. intros H. rewrite total_upd. destruct (nth_error l h); [rewrite H |]; lia. Qed.

Lemma cf_eqb_spec a b : reflect (a = b) (cf_eqb a b).
Proof. destruct a, b; constructor; congruence. Qed.
Definition cf_in (f : cf) (l : list cf) : bool := existsb (cf_eqb f) l.
Lemma cf_in_spec f l : reflect (In f l) (cf_in f l).
Proof.
  destruct (cf_in f l) eqn:E; constructor; unfold cf_in in E.
  - apply existsb_exists in E as (x & I & E). destruct (cf_eqb_spec f x); [subst; exact I | discriminate E].
  - intros I. assert (X : existsb (cf_eqb f) l = true); [| congruence]. apply existsb_exists. exists f. split; [exact I |]. destruct (cf_eqb_spec f f); congruence.
Qed.
Lemma all_in f : In f all_cf.
Proof. destruct f; cbn; tauto. Qed.
Lemma all_nodup : NoDup all_cf.
Proof. repeat constructor; cbn; intuition discriminate. Qed.

Definition pre (p : cpc) : bool :=
  match p with CIdle | COpen _ | CScan _ _ | CWait _ _ | CRecheck _ _ | CSkip _ _ | CNull _ _ _ | CSet _ _ => true | _ => false end.
(** Counter [f] of record [i] is in the total but not remembered, or the record is about to be freed. *)
Definition window (m : mpc) (i : nat) (f : cf) : bool :=
  match m with
  | MAdd j _ _ fs => (i =? j)%nat && negb (cf_in f fs)
  | MSet j _ _ fs => (i =? j)%nat && cf_in f fs
  | MInv j _ => (i =? j)%nat
  | _ => false
  end.
Definition pend (s : sys) (f : cf) (i : nat) : Z :=
  if status s i =? 0 then 0 else if window (at_m s) i f then 0 else counter s i f - conn s i f.

Record acc (ten : nat -> option nat) (lost : cf -> Z) (s : sys) : Prop := {
  a_ten : forall i, ten i = None <-> status s i = 0;
  a_val : forall i h, ten i = Some h -> exists c, cl s h = Some c /\ pre (at_pc c) = false /\ forall f, counter s i f = cval c f;
  a_inj : forall i j h, ten i = Some h -> ten j = Some h -> i = j;
  a_hold : forall h c i, holder s h c i -> ten i = Some h;
  a_pre : forall h c f, cl s h = Some c -> pre (at_pc c) = true -> cval c f = 0;
  a_claim : forall h c i f, cl s h = Some c -> claims (at_pc c) = Some i -> In (WCnt f) (rest (at_pc c)) \/ counter s i f = 0;
  a_conn : forall i f, status s i <> 0 -> 0 <= conn s i f <= counter s i f;
  a_zero : forall i f, status s i = 0 -> conn s i f = 0;
  a_inv : forall i rc f, at_m s = MInv i rc -> conn s i f = 0;
  a_low : forall i rc v f fs, at_m s <> MLow i rc v f fs;
  a_set : forall i rc v fs f, at_m s = MSet i rc v fs -> has v DISCONNECT = true -> ~ In f fs -> counter s i f = conn s i f;
  a_dup : forall i rc v fs, at_m s = MAdd i rc v fs \/ at_m s = MSet i rc v fs -> NoDup fs;
  a_lost : forall f, 0 <= lost f;
  a_glob : forall f, 0 <= glob s f;
  a_sum : forall f, glob s f + lost f + sumn (List.length (slots s)) (pend s f) = total (clients s) f }.

Lemma pend_nonneg ten lost s f i : acc ten lost s -> 0 <= pend s f i.
Proof.
  intros A. unfold pend. destruct (Z.eqb_spec (status s i) 0); [lia |]. destruct (window _ _ _); [lia |]. pose proof (a_conn _ _ _ A i f). lia.
Qed.
Lemma counter_slot s i g j f : counter (with_slot s i g) j f = if (j =? i)%nat then match nth_error (slots s) j with Some x => scnt (g x) f | None => 0 end else counter s j f.
Proof. unfold counter, with_slot. cbn [slots]. rewrite upd_nth. destruct (j =? i)%nat; [| reflexivity]. destruct (nth_error (slots s) j); reflexivity. Qed.
Lemma counter_keep s i g j f : (forall x, scnt (g x) f = scnt x f) -> counter (with_slot s i g) j f = counter s j f.
Proof. intros F. rewrite counter_slot. destruct (Nat.eqb_spec j i) as [-> |]; [| reflexivity]. unfold counter. destruct (nth_error (slots s) i); [apply F | reflexivity]. Qed.

Lemma fresh_acc n cs : acc (fun _ => None) (fun _ => 0) (fresh n cs).
Proof.
  assert (St : forall i, status (fresh n cs) i = 0).
  { intros i. unfold status. destruct (nth_error _ i) as [x |] eqn:E; [| reflexivity]. cbn in E. apply nth_error_In, repeat_spec in E. subst x. reflexivity. }
  assert (P : forall h c, cl (fresh n cs) h = Some c -> at_pc c = CIdle /\ forall f, cval c f = 0).
  { intros h c E. unfold cl, fresh in E. cbn [clients] in E. apply nth_error_In, in_map_iff in E as (x & <- & I). split; reflexivity. }
  constructor; intros; try discriminate; try (cbn; lia).
  - split; auto.
  - destruct H as (H & _ & X). destruct (P _ _ H) as (E & _). rewrite E in X. discriminate X.
  - apply (P _ _ H).
  - destruct (P _ _ H) as (E & _). rewrite E in H0. discriminate H0.
  - destruct H as [H | H]; discriminate H.
  - rewrite sumn_0 by (intros i _; unfold pend; rewrite St; reflexivity). cbn [fresh glob clients]. clear. unfold total. induction cs as [| x cs IH]; [reflexivity |]. cbn [map fold_right cval]. lia.
Qed.

Lemma acc_quiet ten lost s t : inv s -> acc ten lost s -> at_m t = at_m s -> conn t = conn s -> glob t = glob s -> List.length (slots t) = List.length (slots s) ->
  (forall i, status t i = 0 <-> status s i = 0) -> (forall i f, status s i <> 0 -> counter t i f = counter s i f) ->
  (forall k d, cl t k = Some d -> exists d0, cl s k = Some d0 /\ cval d = cval d0 /\ (pre (at_pc d) = true -> pre (at_pc d0) = true)) ->
  (forall k c, cl s k = Some c -> exists d, cl t k = Some d /\ cval d = cval c /\ (pre (at_pc c) = false -> pre (at_pc d) = false)) ->
  (forall k d i, holder t k d i -> exists d0, holder s k d0 i) ->
  (forall h c i f, cl t h = Some c -> claims (at_pc c) = Some i -> In (WCnt f) (rest (at_pc c)) \/ counter t i f = 0) ->
  (forall f, total (clients t) f = total (clients s) f) -> acc ten lost t.
Proof.
  intros I A Mm Cn Gl Len St Ct C1 C2 Ho Cm To.
  assert (St' : forall i, status t i <> 0 <-> status s i <> 0) by (intros i; rewrite St; reflexivity).
  constructor.
  - intros i. rewrite St. apply (a_ten _ _ _ A).
  - intros i h E. destruct (a_val _ _ _ A i h E) as (c & X & Y & V). destruct (C2 _ _ X) as (d & D & U & W). exists d. split; [exact D |]. split; [auto |]. intros f.
    rewrite U, <- V. apply Ct. intros Z0. apply (a_ten _ _ _ A) in Z0. congruence.
  - apply (a_inj _ _ _ A).
  - intros h c i H. destruct (Ho _ _ _ H) as (d0 & H0). exact (a_hold _ _ _ A _ _ _ H0).
  - intros h c f E P. destruct (C1 _ _ E) as (d0 & X & -> & Y). exact (a_pre _ _ _ A _ _ _ X (Y P)).
  - exact Cm.
  - intros i f N. rewrite Cn, Ct by (apply St'; exact N). apply (a_conn _ _ _ A). apply St'; exact N.
  - intros i f N. rewrite Cn. apply (a_zero _ _ _ A). apply St; exact N.
  - rewrite Mm, Cn. apply (a_inv _ _ _ A).
  - rewrite Mm. apply (a_low _ _ _ A).
  - intros i rc v fs f E D N. rewrite Mm in E. rewrite Cn, Ct; [exact (a_set _ _ _ A _ _ _ _ _ E D N) |]. apply (i_mid _ I). rewrite E. reflexivity.
  - rewrite Mm. apply (a_dup _ _ _ A).
  - apply (a_lost _ _ _ A).
  - rewrite Gl. apply (a_glob _ _ _ A).
  - intros f. rewrite To, Gl, Len, <- (a_sum _ _ _ A f). f_equal. apply sumn_ext. intros i _. unfold pend. rewrite Mm, Cn.
    destruct (Z.eqb_spec (status t i) 0) as [Z0 | Z0]; destruct (Z.eqb_spec (status s i) 0) as [Z1 | Z1]; try (exfalso; rewrite St in Z0; contradiction); [reflexivity |].
    rewrite Ct by exact Z1. reflexivity.
Qed.
(** A client goes from [c] to position [p]; slots keep what matters. *)
Lemma acc_go ten lost s s1 h c p : inv s -> acc ten lost s -> cl s h = Some c -> dead c = false -> clients s1 = clients s ->
  at_m s1 = at_m s -> conn s1 = conn s -> glob s1 = glob s -> List.length (slots s1) = List.length (slots s) ->
  (forall i, status s1 i = 0 <-> status s i = 0) -> (forall i f, status s i <> 0 -> counter s1 i f = counter s i f) ->
  (pre p = true -> pre (at_pc c) = true) -> (forall i, holds p = Some i -> holds (at_pc c) = Some i) ->
  (forall i f, claims p = Some i -> In (WCnt f) (rest p) \/ counter s1 i f = 0) ->
  (forall k d i f, k <> h -> cl s k = Some d -> claims (at_pc d) = Some i -> counter s1 i f = counter s i f) -> acc ten lost (go s1 h p).
Proof.
  intros I A E Dd Cl Mm Cn Gl Len St Ct Pr Ho Cm Cms.
  assert (E1 : cl s1 h = Some c) by (unfold cl in *; congruence).
  assert (K : forall k, cl s1 k = cl s k) by (intros; unfold cl; rewrite Cl; reflexivity).
  apply (acc_quiet _ _ s); try assumption.
  - intros k d X. apply (cl_go _ _ _ _ _ _ E1) in X as [(N & X) | (-> & ->)]; [rewrite K in X; exists d; auto | exists c; cbn; auto].
  - intros k d X. destruct (Nat.eq_dec k h) as [-> | N].
    + unfold go. rewrite cl_client, Nat.eqb_refl, E1. exists (set_pc c p). rewrite E in X. injection X as <-. cbn. split; [reflexivity |]. split; [reflexivity |]. intros X. destruct (pre p); [rewrite Pr in X by reflexivity; exact X | reflexivity].
    + unfold go. rewrite cl_client. destruct (Nat.eqb_spec k h); [contradiction |]. rewrite K. exists d. auto.
  - intros k d i H. apply (live_same _ _ _ _ _ _ _ E1) in H as [(N & (X & Y & W)) | (-> & -> & _ & B)].
    + exists d. rewrite K in X. repeat split; assumption.
    + exists c. repeat split; auto.
  - intros k d i f X B. apply (cl_go _ _ _ _ _ _ E1) in X as [(N & X) | (-> & ->)].
    + rewrite K in X. change (counter (go s1 h p) i f) with (counter s1 i f). rewrite (Cms _ _ _ _ N X B). exact (a_claim _ _ _ A _ _ _ _ X B).
    + exact (Cm _ _ B).
  - intros f. unfold go, with_client. cbn [clients]. rewrite Cl. apply total_keep. reflexivity.
Qed.
Local Opaque Z.lor.
Lemma client_acc ten lost s h c t : inv s -> acc ten lost s -> cl s h = Some c -> dead c = false -> client_step s h c = Some t -> exists ten', acc ten' lost t.
Proof.
  intros I A E Dd S. pose proof (i_mark _ I _ _ E) as Hm. pose proof (i_claim _ I) as Cm. pose proof (i_own _ I) as Ow.
  assert (Cl0 : forall k d i f, k <> h -> cl s k = Some d -> claims (at_pc d) = Some i -> counter s i f = counter s i f) by reflexivity.
  assert (O5 : forall i, claims (at_pc c) = Some i -> (i < List.length (slots s))%nat /\ status s i = 0) by (intros i X; destruct (Cm _ _ _ E X) as (? & ? & _); auto).
  assert (O6 : forall i f, claims (at_pc c) = Some i -> In (WCnt f) (rest (at_pc c)) \/ counter s i f = 0) by (intros i f; exact (a_claim _ _ _ A _ _ _ _ E)).
  assert (O4 : forall i, holds (at_pc c) = Some i -> holder s h c i) by (intros i X; repeat split; assumption).
  pose proof (i_sem _ I _ _ E) as Hs.
  assert (Alone2 : incrit (at_pc c) = true -> forall k d i, k <> h -> cl s k = Some d -> claims (at_pc d) = Some i -> False).
  { intros X k d i N A' B. assert (Y : incrit (at_pc d) = true) by (destruct (at_pc d); cbn in B |- *; congruence). pose proof (i_sem _ I _ _ A' Y) as Q. specialize (Hs X). congruence. }
  unfold client_step in S.
  destruct (at_pc c) as [| g | g i | g i | g i | g i | g i w | g i | g i | g i | g i | i | i b | i b v | i |] eqn:P; try discriminate S;
   cbn [semof incrit seen claims rest holds marks] in Hm, Hs, Alone2, O4, O5, O6.
  Ltac sa E := eexists; eapply acc_go; try eassumption; try reflexivity; try (rewrite E); cbn [pre holds claims rest]; try solve [reflexivity | discriminate | (intros; discriminate) | auto].
  - injection S as <-. sa P.
  - injection S as <-. sa P.
  - destruct (i <? List.length (slots s))%nat; [destruct (status s i =? INVALID); injection S as <-; sa P |]. injection S as <-. sa P.
  - destruct (sems s g); [discriminate S |]. injection S as <-. sa P.
  - destruct (status s i =? INVALID); injection S as <-; sa P. intros j f _. left. destruct f; cbn; tauto.
  - injection S as <-. sa P.
  - destruct w as [| w r]; injection S as <-.
    + sa P.
    + destruct (O5 _ eq_refl) as (L & Z0). sa P.
      * cbn. apply upd_length.
      * intros j. rewrite (status_keep s i) by (intros x; destruct w; reflexivity). reflexivity.
      * intros j f N. rewrite counter_slot. destruct (Nat.eqb_spec j i) as [-> |]; [contradiction | reflexivity].
      * intros j f X. injection X as <-. rewrite counter_slot, Nat.eqb_refl. destruct (O6 i f eq_refl) as [[X | X] | X].
        -- right. subst w. destruct (nth_error (slots s) i); [cbn; unfold setf; destruct (cf_eqb_spec f f); congruence | reflexivity].
        -- left. exact X.
        -- right. unfold counter in X. destruct (nth_error (slots s) i) as [x |]; [| reflexivity]. destruct w; cbn; try exact X. unfold setf. destruct (cf_eqb f f0); [reflexivity | exact X].
      * intros k d j f N X B. exfalso. exact (Alone2 eq_refl _ _ _ N X B).
  - destruct (O5 _ eq_refl) as (L & Z0). injection S as <-.
    assert (Nz : ACTIVE .| cflags c <> 0) by (apply lor_nz; discriminate).
    set (s1 := with_slot s i (fun x => set_st x (ACTIVE .| cflags c))).
    assert (Sa : forall j, status s1 j = if (j =? i)%nat then ACTIVE .| cflags c else status s j) by (intros j; apply status_set; exact L).
    assert (Ca : forall j f, counter s1 j f = counter s j f) by (intros j f; apply counter_keep; reflexivity).
    assert (Zc : forall f, counter s i f = 0) by (intros f; destruct (O6 i f eq_refl) as [[] | X]; exact X).
    assert (Zv : forall f, cval c f = 0) by (intros f; apply (a_pre _ _ _ A _ _ _ E); rewrite P; reflexivity).
    assert (E1 : cl s1 h = Some c) by exact E.
    assert (Ti : ten i = None) by (apply (a_ten _ _ _ A); exact Z0).
    assert (Nt : forall j, ten j <> Some h).
    { intros j X. destruct (a_val _ _ _ A _ _ X) as (c' & X1 & X2 & _). assert (c' = c) by congruence. subst c'. rewrite P in X2. discriminate X2. }
    exists (fun j => if (j =? i)%nat then Some h else ten j). constructor.
    + intros j. change (status (go s1 h (CEndR g i)) j) with (status s1 j). rewrite Sa. destruct (j =? i)%nat; [split; [discriminate | congruence] | apply (a_ten _ _ _ A)].
    + intros j k X. change (counter (go s1 h (CEndR g i))) with (counter s1). destruct (Nat.eqb_spec j i) as [-> | N].
      * injection X as <-. exists (set_pc c (CEndR g i)). unfold go. rewrite cl_client, Nat.eqb_refl, E1. split; [reflexivity |]. split; [reflexivity |]. intros f. rewrite Ca, Zc. symmetry. apply Zv.
      * destruct (a_val _ _ _ A _ _ X) as (d & D1 & D2 & D3). exists d. unfold go. rewrite cl_client. destruct (Nat.eqb_spec k h) as [-> | Nk]; [exfalso; exact (Nt _ X) |]. split; [exact D1 |]. split; [exact D2 |]. intros f. rewrite Ca. apply D3.
    + intros j k h' X Y. destruct (Nat.eqb_spec j i) as [-> | N1]; destruct (Nat.eqb_spec k i) as [-> | N2]; [reflexivity | | | exact (a_inj _ _ _ A _ _ _ X Y)].
      * injection X as <-. contradiction (Nt _ Y).
      * injection Y as <-. contradiction (Nt _ X).
    + intros k d j H. apply (live_same _ _ _ _ _ _ _ E1) in H as [(N & H) | (-> & -> & _ & B)].
      * pose proof (a_hold _ _ _ A _ _ _ H) as T. destruct (Nat.eqb_spec j i) as [-> |]; [congruence | exact T].
      * injection B as <-. rewrite Nat.eqb_refl. reflexivity.
    + intros k d f X Y. apply (cl_go _ _ _ _ _ _ E1) in X as [(N & X) | (-> & ->)]; [exact (a_pre _ _ _ A _ _ _ X Y) | discriminate Y].
    + intros k d j f X Y. apply (cl_go _ _ _ _ _ _ E1) in X as [(N & X) | (-> & ->)]; [exfalso; exact (Alone2 eq_refl _ _ _ N X Y) | discriminate Y].
    + intros j f. change (status (go s1 h (CEndR g i)) j) with (status s1 j). change (counter (go s1 h (CEndR g i)) j f) with (counter s1 j f). rewrite Sa, Ca. intros N. change (conn (go s1 h (CEndR g i)) j f) with (conn s j f).
      destruct (Nat.eqb_spec j i) as [-> |]; [rewrite (a_zero _ _ _ A _ f Z0), Zc; lia | exact (a_conn _ _ _ A _ f N)].
    + intros j f. change (status (go s1 h (CEndR g i)) j) with (status s1 j). rewrite Sa. intros N. destruct (Nat.eqb_spec j i) as [-> |]; [congruence | exact (a_zero _ _ _ A _ f N)].
    + exact (a_inv _ _ _ A).
    + exact (a_low _ _ _ A).
    + intros j rc v fs f X D N. change (counter (go s1 h (CEndR g i)) j f) with (counter s1 j f). rewrite Ca. exact (a_set _ _ _ A _ _ _ _ _ X D N).
    + exact (a_dup _ _ _ A).
    + exact (a_lost _ _ _ A).
    + exact (a_glob _ _ _ A).
    + intros f. unfold go, with_client. cbn [clients slots glob]. rewrite total_keep by reflexivity. change (clients s1) with (clients s). change (glob s1) with (glob s). rewrite <- (a_sum _ _ _ A f). replace (List.length (slots s1)) with (List.length (slots s)) by (symmetry; apply upd_length). f_equal. apply sumn_ext. intros j _.
      change (pend s1 f j = pend s f j). unfold pend. rewrite Sa, Ca. change (at_m s1) with (at_m s). change (conn s1) with (conn s).
      destruct (Nat.eqb_spec j i) as [-> |]; [| reflexivity]. rewrite Z0. cbn [Z.eqb]. destruct (ACTIVE .| cflags c =? 0); [reflexivity |]. destruct (window _ _ _); [reflexivity |]. rewrite Zc, (a_zero _ _ _ A _ f Z0). reflexivity.
  - injection S as <-. destruct (endp s <=? i)%nat; sa P.
  - injection S as <-. sa P.
  - injection S as <-. sa P.
  - injection S as <-. sa P.
  - subst b. destruct (Ow _ _ _ (O4 _ eq_refl)) as (L & Nz0 & _). injection S as <-. assert (Nz : DISCONNECT .| v <> 0) by (apply lor_nz; discriminate). sa P.
    + cbn. apply upd_length.
    + intros j. rewrite (status_set s i _ _ L). destruct (Nat.eqb_spec j i) as [-> |]; [split; congruence | reflexivity].
    + intros j f _. apply counter_keep. reflexivity.
    + intros k d j f N X B. apply counter_keep. reflexivity.
  - discriminate Hm.
Qed.

(** The polling process moves. *)
Lemma acc_m ten lost lost' s s1 m : inv s -> acc ten lost s -> clients s1 = clients s -> List.length (slots s1) = List.length (slots s) ->
  (forall i, status s1 i = 0 <-> status s i = 0) -> (forall i f, counter s1 i f = counter s i f) ->
  (forall i f, status s i <> 0 -> 0 <= conn s1 i f <= counter s i f) -> (forall i f, status s i = 0 -> conn s1 i f = 0) ->
  (forall i rc f, m = MInv i rc -> conn s1 i f = 0) -> (forall i rc v f fs, m <> MLow i rc v f fs) ->
  (forall i rc v fs f, m = MSet i rc v fs -> has v DISCONNECT = true -> ~ In f fs -> counter s i f = conn s1 i f) ->
  (forall i rc v fs, m = MAdd i rc v fs \/ m = MSet i rc v fs -> NoDup fs) ->
  (forall f, 0 <= lost' f) -> (forall f, 0 <= glob s1 f) ->
  (forall f, glob s1 f + lost' f + sumn (List.length (slots s)) (pend (with_m s1 m) f) = glob s f + lost f + sumn (List.length (slots s)) (pend s f)) ->
  acc ten lost' (with_m s1 m).
Proof.
  intros I A Cl Len St Ct Co Zo Iv Lw Se Du Lo Gl Su.
  assert (K : forall k, cl (with_m s1 m) k = cl s k) by (intros k; unfold cl; cbn; rewrite Cl; reflexivity).
  constructor; cbn [with_m at_m].
  - intros i. change (status (with_m s1 m) i) with (status s1 i). rewrite St. apply (a_ten _ _ _ A).
  - intros i h E. destruct (a_val _ _ _ A i h E) as (c & X & Y & V). exists c. rewrite K. split; [exact X |]. split; [exact Y |]. intros f. change (counter (with_m s1 m) i f) with (counter s1 i f). rewrite Ct. apply V.
  - apply (a_inj _ _ _ A).
  - intros h c i (X & Y & W). rewrite K in X. apply (a_hold _ _ _ A h c i). repeat split; assumption.
  - intros h c f E P. rewrite K in E. exact (a_pre _ _ _ A _ _ _ E P).
  - intros h c i f E P. rewrite K in E. change (counter (with_m s1 m) i f) with (counter s1 i f). rewrite Ct. exact (a_claim _ _ _ A _ _ _ _ E P).
  - intros i f N. change (counter (with_m s1 m) i f) with (counter s1 i f). rewrite Ct. apply Co. rewrite <- St. exact N.
  - intros i f N. apply Zo. apply St. exact N.
  - exact Iv.
  - exact Lw.
  - intros i rc v fs f X D N. change (counter (with_m s1 m) i f) with (counter s1 i f). rewrite Ct. exact (Se _ _ _ _ _ X D N).
  - exact Du.
  - exact Lo.
  - exact Gl.
  - intros f. cbn [glob clients slots with_m]. rewrite Len, Cl, <- (a_sum _ _ _ A f). apply Su.
Qed.
Lemma sum_same s s1 m f : (forall i, status s1 i = 0 <-> status s i = 0) -> (forall i f, counter s1 i f = counter s i f) -> conn s1 = conn s ->
  (forall i, window m i f = window (at_m s) i f) -> sumn (List.length (slots s)) (pend (with_m s1 m) f) = sumn (List.length (slots s)) (pend s f).
Proof.
  intros St Ct Cn W. apply sumn_ext. intros i _. unfold pend. change (status (with_m s1 m) i) with (status s1 i). change (counter (with_m s1 m) i f) with (counter s1 i f).
  change (conn (with_m s1 m)) with (conn s1). change (at_m (with_m s1 m)) with m. rewrite Ct, Cn, W. destruct (Z.eqb_spec (status s1 i) 0) as [Z0 | Z0]; destruct (Z.eqb_spec (status s i) 0) as [Z1 | Z1]; try (exfalso; rewrite St in Z0; contradiction); reflexivity.
Qed.
(** A move that does not touch the counts. *)
Lemma acc_same ten lost s s1 m : inv s -> acc ten lost s -> clients s1 = clients s -> List.length (slots s1) = List.length (slots s) ->
  (forall i, status s1 i = 0 <-> status s i = 0) -> (forall i f, counter s1 i f = counter s i f) -> conn s1 = conn s -> glob s1 = glob s ->
  (forall i f, window m i f = window (at_m s) i f) ->
  (forall i rc f, m = MInv i rc -> conn s i f = 0) -> (forall i rc v f fs, m <> MLow i rc v f fs) ->
  (forall i rc v fs f, m = MSet i rc v fs -> has v DISCONNECT = true -> ~ In f fs -> counter s i f = conn s i f) ->
  (forall i rc v fs, m = MAdd i rc v fs \/ m = MSet i rc v fs -> NoDup fs) -> acc ten lost (with_m s1 m).
Proof.
  intros I A Cl Len St Ct Cn Gl W Iv Lw Se Du. eapply acc_m; try eassumption; rewrite ?Cn, ?Gl; try assumption.
  - apply (a_conn _ _ _ A).
  - apply (a_zero _ _ _ A).
  - apply (a_lost _ _ _ A).
  - apply (a_glob _ _ _ A).
  - intros f. rewrite (sum_same s s1 m f); auto.
Qed.
Lemma pend_le ten lost s f : acc ten lost s -> glob s f <= total (clients s) f.
Proof.
  intros A. pose proof (a_sum _ _ _ A f). pose proof (a_lost _ _ _ A f). pose proof (sumn_nonneg (List.length (slots s)) (pend s f) ltac:(intros; eapply pend_nonneg; exact A)). lia.
Qed.
(** The record is done with: [lost] grows by what was not read. *)
Lemma after_acc ten lost s i rc v : inv s -> acc ten lost s -> at_id (at_m s) = Some i -> (forall j f, window (at_m s) j f = false) ->
  exists lost', acc ten lost' (after s i rc v) /\ (forall f, lost f <= lost' f) /\ ((has v DISCONNECT = true -> forall f, counter s i f = conn s i f) -> forall f, lost' f = lost f).
Proof.
  intros I A Mi W. pose proof (i_mid _ I _ Mi) as Nz. pose proof (status_in _ _ Nz) as L. unfold after. destruct (has v DISCONNECT) eqn:D.
  - exists (fun f => lost f + (counter s i f - conn s i f)). split; [| split; [intros f; pose proof (a_conn _ _ _ A i f Nz); lia | intros H f; rewrite (H eq_refl f); lia]].
    eapply acc_m; try eassumption; try reflexivity; try discriminate; cbn [with_conn conn glob].
    + intros j f N. pose proof (a_conn _ _ _ A j f N). destruct (j =? i)%nat; lia.
    + intros j f N. destruct (j =? i)%nat; [reflexivity | exact (a_zero _ _ _ A j f N)].
    + intros j rc' f X. injection X as <- <-. rewrite Nat.eqb_refl. reflexivity.
    + intros j rc' v' fs [X | X]; discriminate X.
    + intros f. pose proof (a_conn _ _ _ A i f Nz). pose proof (a_lost _ _ _ A f). lia.
    + apply (a_glob _ _ _ A).
    + intros f. rewrite (sumn_at _ (pend s f) _ i L).
      * unfold pend at 2 3. change (status (with_m ?a ?b) i) with (status s i). destruct (Z.eqb_spec (status s i) 0); [contradiction |]. rewrite W. cbn [with_m at_m window]. rewrite Nat.eqb_refl. lia.
      * intros j N. unfold pend. change (status (with_m ?a ?b) j) with (status s j). change (counter (with_m ?a ?b) j f) with (counter s j f). rewrite W. cbn [with_m at_m window with_conn conn]. destruct (Nat.eqb_spec j i); [contradiction | reflexivity].
  - exists lost. split; [| split; [lia | reflexivity]]. eapply acc_same; try eassumption; try reflexivity; try discriminate.
    + intros j f. rewrite W. reflexivity.
    + intros j rc' v' fs [X | X]; discriminate X.
Qed.
Lemma window_no m : match m with MAdd _ _ _ _ | MSet _ _ _ _ | MInv _ _ => False | _ => True end -> forall i f, window m i f = false.
Proof. destruct m; intros H; try contradiction H; reflexivity. Qed.
Lemma window_add i rc v j f : window (MAdd i rc v all_cf) j f = false.
Proof. cbn [window]. destruct (cf_in_spec f all_cf) as [_ | N]; [apply andb_false_r | destruct (N (all_in f))]. Qed.
Lemma master_acc input ten lost s b t : inv s -> acc ten lost s -> (forall f, total (clients s) f < 2 ^ 64) -> master_step input s b = Some t ->
  exists ten' lost', acc ten' lost' t /\ (forall f, lost f <= lost' f) /\ (undisturbed input s (Master b) -> forall f, lost' f = lost f).
Proof.
  intros I A Lt S. unfold master_step in S.
  pose proof (i_mid _ I) as Md. pose proof (a_low _ _ _ A) as Lw. pose proof (a_set _ _ _ A) as Se. pose proof (a_dup _ _ _ A) as Du. pose proof (a_inv _ _ _ A) as Iv.
  assert (Stay : forall s1 m, clients s1 = clients s -> List.length (slots s1) = List.length (slots s) ->
    (forall i, status s1 i = 0 <-> status s i = 0) -> (forall i f, counter s1 i f = counter s i f) -> conn s1 = conn s -> glob s1 = glob s ->
    (forall i f, window m i f = false) -> (forall i f, window (at_m s) i f = false) -> match m with MInv _ _ | MLow _ _ _ _ _ => False | MSet _ _ _ l | MAdd _ _ _ l => l = all_cf | _ => True end ->
    exists ten' lost', acc ten' lost' (with_m s1 m) /\ (forall f, lost f <= lost' f) /\ (undisturbed input s (Master b) -> forall f, lost' f = lost f)).
  { intros s1 m H1 H2 H3 H4 H5 H6 W1 W2 Sh. exists ten, lost. split; [| split; [lia | reflexivity]]. eapply acc_same; try eassumption.
    - intros i f. rewrite W1, W2. reflexivity.
    - intros i rc f ->. destruct Sh.
    - intros i rc v f fs ->. destruct Sh.
    - intros i rc v fs f -> _ N. subst fs. destruct (N (all_in f)).
    - intros i rc v fs [-> | ->]; subst fs; apply all_nodup. }
  destruct (at_m s) as [| i rc mr | i rc v | i rc v p | i rc v | i rc v | i rc v fs | i rc v f fs | i rc v fs | i rc v fs | i rc | n rc | n rc | n | | i | i v] eqn:M; try discriminate S; cbn [at_id] in Md.
  Ltac st Stay := apply Stay; try reflexivity; try exact Logic.I; try (apply window_no; exact Logic.I).
  - destruct (i <? rc)%nat; [| destruct (mr + 1 <? rc)%nat; injection S as <-; st Stay]. destruct (status s i =? INVALID); [injection S as <-; st Stay |]. destruct (has (status s i) DISCONNECT); injection S as <-; st Stay.
  - injection S as <-. destruct (_ =? 0); st Stay.
  - destruct b; [injection S as <-; st Stay |]. destruct (existsb _ (clients s)); [discriminate S |]. injection S as <-. st Stay.
  - pose proof (Md _ eq_refl) as Mi. pose proof (status_in _ _ Mi) as L. pose proof (lor_nz DISCONNECT v ltac:(discriminate)) as Nz. injection S as <-. st Stay.
    + apply upd_length.
    + intros j. rewrite (status_set s i _ _ L). destruct (Nat.eqb_spec j i) as [-> |]; [split; intros; contradiction | reflexivity].
    + intros. apply counter_keep. reflexivity.
  - pose proof (Md _ eq_refl) as Mi. destruct (_ && _) eqn:Y; injection S as <-; [| st Stay].
    destruct (after_acc ten lost s i rc v I A) as (lost' & X1 & X2 & X3); [rewrite M; reflexivity | rewrite M; reflexivity |]. exists ten, lost'. split; [exact X1 |]. split; [exact X2 |].
    intros U. apply X3. intros D f. exfalso. cbn [undisturbed] in U. specialize (U _ _ _ M D). destruct U as [-> | U]; [rewrite andb_false_r in Y; discriminate Y |].
    apply andb_prop in Y as (Y & _). apply Z.ltb_lt in Y. destruct (nth_error (slots s) i) as [x |] eqn:E; [specialize (U _ eq_refl); lia |].
    apply Mi. unfold status. rewrite E. reflexivity.
  - destruct fs as [| f fs]; injection S as <-; [st Stay; apply window_add |]. destruct (Z.ltb_spec (counter s i f) (conn s i f)) as [X | X]; [pose proof (a_conn _ _ _ A i f (Md _ eq_refl)); lia | st Stay].
  - destruct (Lw _ _ _ _ _ eq_refl).
  - pose proof (Md _ eq_refl) as Mi. pose proof (status_in _ _ Mi) as L. destruct fs as [| f fs]; injection S as <-.
    + exists ten, lost. split; [| split; [lia | reflexivity]]. eapply acc_same; try eassumption; try reflexivity; try discriminate.
      * intros j f. rewrite M. cbn [window cf_in existsb negb]. destruct (cf_in_spec f all_cf) as [_ | N]; [reflexivity | destruct (N (all_in f))].
      * intros i0 rc0 v0 fs f X _ N. injection X as <- <- <- <-. destruct (N (all_in f)).
      * intros i0 rc0 v0 fs [X | X]; [discriminate X |]. injection X as <- <- <- <-. apply all_nodup.
    + pose proof (Du _ _ _ _ (or_introl eq_refl)) as Nd. assert (Nd1 : NoDup fs) by (inversion Nd; assumption). assert (Nd2 : ~ In f fs) by (inversion Nd; assumption).
      pose proof (a_conn _ _ _ A i f Mi) as Cc. pose proof (a_glob _ _ _ A f) as Gg.
      assert (Pf : pend s f i = counter s i f - conn s i f).
      { unfold pend. destruct (Z.eqb_spec (status s i) 0); [contradiction |]. rewrite M. cbn [window]. rewrite Nat.eqb_refl. cbn [cf_in existsb andb]. destruct (cf_eqb_spec f f); [reflexivity | congruence]. }
      assert (Ps : forall g j, pend (with_m (with_glob s (setf (glob s) f (u64 (glob s f + (counter s i f - conn s i f))))) (MAdd i rc v fs)) g j = if (j =? i)%nat && cf_eqb f g then 0 else pend s g j).
      { intros g j. unfold pend. change (status (with_m ?a ?b) j) with (status s j). change (counter (with_m ?a ?b) j g) with (counter s j g). change (conn (with_m ?a ?b)) with (conn s). cbn [with_m at_m]. rewrite M. cbn [window].
        destruct (Z.eqb_spec (status s j) 0) as [Z0 | Z0]; [destruct (_ && _); reflexivity |]. destruct (Nat.eqb_spec j i) as [-> | Nj]; [| reflexivity]. cbn [andb cf_in existsb]. fold (cf_in g fs). destruct (cf_eqb_spec f g) as [<- | Ng].
        - destruct (cf_in_spec f fs) as [Y | Y]; [contradiction |]. reflexivity.
        - destruct (cf_eqb_spec g f); [congruence |]. reflexivity. }
      assert (Sm : glob s f + (counter s i f - conn s i f) <= total (clients s) f).
      { pose proof (a_sum _ _ _ A f) as E. pose proof (a_lost _ _ _ A f). rewrite (sumn_at _ (fun j => if (j =? i)%nat then 0 else pend s f j) (pend s f) i L) in E by (intros j N; destruct (Nat.eqb_spec j i); [contradiction | reflexivity]).
        rewrite Nat.eqb_refl, Pf in E. match type of E with context [sumn ?n ?F] => assert (0 <= sumn n F) by (apply sumn_nonneg; intros j _; destruct (j =? i)%nat; [lia | eapply pend_nonneg; exact A]) end. lia. }
      assert (Eu : u64 (glob s f + (counter s i f - conn s i f)) = glob s f + (counter s i f - conn s i f)) by (unfold u64; apply Z.mod_small; specialize (Lt f); lia).
      exists ten, lost. split; [| split; [lia | reflexivity]]. eapply acc_m; try eassumption; try reflexivity; try discriminate.
      * apply (a_conn _ _ _ A).
      * apply (a_zero _ _ _ A).
      * intros i0 rc0 v0 l [X | X]; [injection X as <- <- <- <-; exact Nd1 | discriminate X].
      * apply (a_lost _ _ _ A).
      * intros g. cbn [with_glob glob]. unfold setf. rewrite Eu. pose proof (a_glob _ _ _ A g). destruct (cf_eqb g f); lia.
      * intros g. rewrite (sumn_at _ (pend s g) _ i L) by (intros j N; rewrite Ps; destruct (Nat.eqb_spec j i); [contradiction | reflexivity]). rewrite Ps, Nat.eqb_refl. cbn [with_glob glob andb]. unfold setf. rewrite Eu.
        destruct (cf_eqb_spec f g) as [<- | Ng].
        -- destruct (cf_eqb_spec f f); [lia | congruence].
        -- destruct (cf_eqb_spec g f); [congruence | lia].
  - pose proof (Md _ eq_refl) as Mi. pose proof (status_in _ _ Mi) as L. destruct fs as [| f fs]; injection S as <-.
    + destruct (after_acc ten lost s i rc v I A) as (lost' & X1 & X2 & X3); [rewrite M; reflexivity | rewrite M; intros j f; cbn [window cf_in existsb]; apply andb_false_r |]. exists ten, lost'. split; [exact X1 |]. split; [exact X2 |].
      intros U. apply X3. intros D f. exact (Se _ _ _ _ _ eq_refl D (fun x => x)).
    + pose proof (Du _ _ _ _ (or_intror eq_refl)) as Nd. assert (Nd1 : NoDup fs) by (inversion Nd; assumption). assert (Nd2 : ~ In f fs) by (inversion Nd; assumption).
      exists ten, lost. split; [| split; [lia | reflexivity]]. eapply acc_m; try eassumption; try reflexivity; try discriminate; cbn [with_conn conn glob].
      * intros j g N. pose proof (a_conn _ _ _ A j g N). destruct (Nat.eqb_spec j i) as [-> |]; [| lia]. unfold setf. destruct (cf_eqb_spec g f) as [-> |]; lia.
      * intros j g N. destruct (Nat.eqb_spec j i) as [-> |]; [contradiction |]. exact (a_zero _ _ _ A j g N).
      * intros i0 rc0 v0 l g X D N. injection X as <- <- <- <-. rewrite Nat.eqb_refl. unfold setf. destruct (cf_eqb_spec g f) as [-> | Ng]; [reflexivity |]. apply (Se _ _ _ _ _ eq_refl D). intros [X | X]; [congruence | contradiction].
      * intros i0 rc0 v0 l [X | X]; [discriminate X |]. injection X as <- <- <- <-. exact Nd1.
      * apply (a_lost _ _ _ A).
      * apply (a_glob _ _ _ A).
      * intros g. f_equal. apply sumn_ext. intros j _. unfold pend. change (status (with_m ?a ?b) j) with (status s j). change (counter (with_m ?a ?b) j g) with (counter s j g). cbn [with_m at_m conn with_conn]. rewrite M. cbn [window].
        destruct (Z.eqb_spec (status s j) 0) as [Z0 | Z0]; [reflexivity |]. destruct (Nat.eqb_spec j i) as [-> | Nj]; [| reflexivity]. cbn [andb cf_in existsb]. fold (cf_in g fs). unfold setf. destruct (cf_eqb_spec g f) as [-> | Ng]; [| reflexivity].
        cbn [orb]. destruct (cf_in_spec f fs); [contradiction |]. lia.
  - pose proof (Md _ eq_refl) as Mi. pose proof (status_in _ _ Mi) as L. pose proof (i_free _ I i) as Fr. rewrite M in Fr. injection S as <-.
    assert (St : forall j, status (with_m (with_slot s i (fun x => set_st x INVALID)) (MAt (i + 1) rc i)) j = if (j =? i)%nat then 0 else status s j) by (intros j; exact (status_set s i _ _ L)).
    assert (Ct : forall j f, counter (with_m (with_slot s i (fun x => set_st x INVALID)) (MAt (i + 1) rc i)) j f = counter s j f) by (intros j f; apply (counter_keep s); reflexivity).
    exists (fun k => if (k =? i)%nat then None else ten k), lost. split; [| split; [lia | reflexivity]].
    constructor; try discriminate.
    + intros j. rewrite St. destruct (j =? i)%nat; [tauto | apply (a_ten _ _ _ A)].
    + intros j h E. destruct (j =? i)%nat; [discriminate E |]. destruct (a_val _ _ _ A j h E) as (c & X & Y & V). exists c. split; [exact X |]. split; [exact Y |]. intros f. rewrite Ct. apply V.
    + intros j k h E1 E2. destruct (j =? i)%nat; [discriminate E1 |]. destruct (k =? i)%nat; [discriminate E2 |]. exact (a_inj _ _ _ A _ _ _ E1 E2).
    + intros h c j H. destruct (Nat.eqb_spec j i) as [-> |]; [destruct (Fr h c eq_refl H) | exact (a_hold _ _ _ A _ _ _ H)].
    + intros h c f E P. exact (a_pre _ _ _ A _ _ _ E P).
    + intros h c j f E P. rewrite Ct. exact (a_claim _ _ _ A _ _ _ _ E P).
    + intros j f. rewrite St, Ct. destruct (j =? i)%nat; [congruence | apply (a_conn _ _ _ A)].
    + intros j f. rewrite St. cbn [with_m conn with_slot]. destruct (Nat.eqb_spec j i) as [-> |]; [intros _; exact (Iv _ _ _ eq_refl) | apply (a_zero _ _ _ A)].
    + intros j rc' v fs [X | X]; discriminate X.
    + apply (a_lost _ _ _ A).
    + apply (a_glob _ _ _ A).
    + intros f. cbn [with_m glob clients slots with_slot]. rewrite upd_length, <- (a_sum _ _ _ A f). f_equal. apply sumn_ext. intros j _. unfold pend. rewrite St, Ct. cbn [with_m at_m conn with_slot]. rewrite M. cbn [window].
      destruct (j =? i)%nat; [destruct (status s j =? 0); reflexivity | reflexivity].
  - destruct (sems s (gen s)) as [o |]; [discriminate S |]. injection S as <-. st Stay.
  - injection S as <-. destruct (endp s <=? rc)%nat; st Stay.
  - injection S as <-. st Stay.
  - injection S as <-. st Stay.
  - injection S as <-. st Stay.
  - pose proof (Md _ eq_refl) as Mi. pose proof (status_in _ _ Mi) as L. pose proof (lor_nz REQDISCONNECT v ltac:(discriminate)) as Nz. injection S as <-. st Stay.
    + apply upd_length.
    + intros j. rewrite (status_set s i _ _ L). destruct (Nat.eqb_spec j i) as [-> |]; [split; intros; contradiction | reflexivity].
    + intros. apply counter_keep. reflexivity.
Qed.
Lemma cl_refl s k d : cl s k = Some d -> exists d0, cl s k = Some d0 /\ cval d = cval d0 /\ (pre (at_pc d) = true -> pre (at_pc d0) = true).
Proof. intros E. exists d. auto. Qed.
Lemma cl_refl' s k d : cl s k = Some d -> exists d0, cl s k = Some d0 /\ cval d0 = cval d /\ (pre (at_pc d) = false -> pre (at_pc d0) = false).
Proof. intros E. exists d. auto. Qed.
Lemma step_acc input ten lost s l t : inv s -> acc ten lost s -> kept l -> (forall f, total (clients s) f < 2 ^ 64) -> step input s l = Some t ->
  exists ten' lost', acc ten' lost' t /\ (forall f, lost f <= lost' f) /\ (undisturbed input s l -> forall f, lost' f = lost f).
Proof.
  intros I A Ke Lt S.
  assert (Triv : forall ten', acc ten' lost t -> exists ten' lost', acc ten' lost' t /\ (forall f, lost f <= lost' f) /\ (undisturbed input s l -> forall f, lost' f = lost f)).
  { intros ten' X. exists ten', lost. split; [exact X |]. split; [lia | reflexivity]. }
  destruct l as [h | h f v | h n | h v | h | h | h | n | b | i | |]; try contradiction Ke; cbn [step] in S.
  - al S c E Dd. destruct (client_acc ten lost s h c t I A E Dd S) as (ten' & X). exact (Triv _ X).
  - al S c E Dd. destruct (at_pc c) as [| | | | | | | | | | | i | | | |] eqn:P; try discriminate S. destruct (Z.leb_spec (cval c f) v) as [V1 |]; [| discriminate S]. destruct (Z.ltb_spec v (2 ^ 64)) as [V2 |]; [| discriminate S]. cbn [andb] in S.
    assert (Ho : holder s h c i) by (repeat split; [exact E | exact Dd | rewrite P; reflexivity]). pose proof (a_hold _ _ _ A _ _ _ Ho) as Te. destruct (i_own _ I _ _ _ Ho) as (L & Nz & _ & _).
    destruct (a_val _ _ _ A i h Te) as (c' & Ec & _ & V). unfold cl in Ec. rewrite E in Ec. injection Ec as <-.
    remember (with_client (with_slot s i (fun x => set_cnt x f v)) h (fun c => mkc (cpid c) (cflags c) (dead c) (at_pc c) (setf (cval c) f v))) as t' eqn:Et. injection S as <-.
    assert (St : forall j, status t' j = status s j) by (intros j; rewrite Et; apply (status_keep s); reflexivity).
    assert (Ct : forall j g, counter t' j g = if (j =? i)%nat && cf_eqb g f then v else counter s j g).
    { intros j g. rewrite Et. change (counter (with_client ?a ?b ?c) j g) with (counter a j g). rewrite counter_slot. destruct (Nat.eqb_spec j i) as [-> |]; [| reflexivity]. cbn [andb]. unfold counter.
      destruct (nth_error (slots s) i) eqn:X; [| apply nth_error_None in X; lia]. cbn [set_cnt scnt]. unfold setf. reflexivity. }
    assert (Cl : forall k d, cl t' k = Some d -> exists d0, cl s k = Some d0 /\ at_pc d = at_pc d0 /\ dead d = dead d0 /\ cval d = if (k =? h)%nat then setf (cval c) f v else cval d0).
    { intros k d X. rewrite Et, cl_client in X. change (cl (with_slot s i (fun x => set_cnt x f v)) k) with (cl s k) in X. destruct (Nat.eqb_spec k h) as [-> |]; [| exists d; auto]. unfold cl in *. rewrite E in X. injection X as <-. exists c. auto. }
    assert (Mt : at_m t' = at_m s) by (rewrite Et; reflexivity). assert (Cn : conn t' = conn s) by (rewrite Et; reflexivity). assert (Gl : glob t' = glob s) by (rewrite Et; reflexivity).
    exists ten, (fun g => if cf_eqb g f && window (at_m s) i f then lost g + (v - cval c f) else lost g). split; [| split].
    + constructor.
      * intros j. rewrite St. apply (a_ten _ _ _ A).
      * intros j k Ej. destruct (a_val _ _ _ A j k Ej) as (d & X & Y & W). destruct (Nat.eqb_spec k h) as [-> | Nk].
        -- assert (j = i) by exact (a_inj _ _ _ A _ _ _ Ej Te). subst j. unfold cl in X. rewrite E in X. injection X as <-. exists (mkc (cpid c) (cflags c) (dead c) (at_pc c) (setf (cval c) f v)).
           split; [rewrite Et, cl_client, Nat.eqb_refl; change (cl (with_slot s i (fun x => set_cnt x f v)) h) with (cl s h); unfold cl; rewrite E; reflexivity |]. split; [exact Y |]. intros g. rewrite Ct, Nat.eqb_refl. cbn [andb cval]. unfold setf. destruct (cf_eqb g f); [reflexivity | apply W].
        -- exists d. split; [rewrite Et, cl_client; destruct (Nat.eqb_spec k h); [contradiction | exact X] |]. split; [exact Y |]. intros g. rewrite Ct. destruct (Nat.eqb_spec j i) as [-> |]; [congruence | apply W].
      * apply (a_inj _ _ _ A).
      * intros k d j (X & Y & W). destruct (Cl _ _ X) as (d0 & X0 & P0 & D0 & _). apply (a_hold _ _ _ A k d0 j). repeat split; [exact X0 | congruence | congruence].
      * intros k d g X Pr. destruct (Cl _ _ X) as (d0 & X0 & P0 & D0 & W). rewrite W. rewrite P0 in Pr. destruct (Nat.eqb_spec k h) as [-> |]; [| exact (a_pre _ _ _ A _ _ _ X0 Pr)].
        unfold cl in X0. rewrite E in X0. injection X0 as <-. rewrite P in Pr. discriminate Pr.
      * intros k d j g X Pr. destruct (Cl _ _ X) as (d0 & X0 & P0 & D0 & W). rewrite P0 in *. rewrite Ct. destruct (Nat.eqb_spec j i) as [-> |]; [| exact (a_claim _ _ _ A _ _ _ _ X0 Pr)].
        exfalso. destruct (i_claim _ I _ _ _ X0 Pr) as (_ & Z0 & _). contradiction.
      * intros j g N. rewrite St in N. rewrite Cn, Ct. pose proof (a_conn _ _ _ A j g N). destruct (Nat.eqb_spec j i) as [-> |]; [| cbn [andb]; lia]. cbn [andb]. destruct (cf_eqb_spec g f) as [-> |]; [| lia]. rewrite V in H. lia.
      * intros j g N. rewrite St in N. rewrite Cn. exact (a_zero _ _ _ A _ _ N).
      * rewrite Mt, Cn. apply (a_inv _ _ _ A).
      * rewrite Mt. apply (a_low _ _ _ A).
      * intros j rc w fs g X D N. rewrite Mt in X. rewrite Cn, Ct. destruct (Nat.eqb_spec j i) as [-> |]; [| exact (a_set _ _ _ A _ _ _ _ _ X D N)].
        exfalso. refine (i_free _ I i h c _ Ho). rewrite X. cbn [freeing]. rewrite D. reflexivity.
      * rewrite Mt. apply (a_dup _ _ _ A).
      * intros g. pose proof (a_lost _ _ _ A g). destruct (_ && _); lia.
      * rewrite Gl. apply (a_glob _ _ _ A).
      * intros g. rewrite Gl. assert (Le : List.length (slots t') = List.length (slots s)) by (rewrite Et; apply upd_length). rewrite Le.
        assert (To : total (clients t') g = total (clients s) g + if cf_eqb g f then v - cval c f else 0).
        { rewrite Et. cbn [with_client clients with_slot]. rewrite total_upd, E. cbn [cval]. unfold setf. destruct (cf_eqb_spec g f) as [-> |]; lia. }
        rewrite To, <- (a_sum _ _ _ A g). rewrite (sumn_at _ (pend s g) (pend t' g) i L).
        -- unfold pend at 2 3. rewrite St, Mt, Cn, Ct, Nat.eqb_refl. destruct (Z.eqb_spec (status s i) 0); [contradiction |]. cbn [andb]. destruct (cf_eqb_spec g f) as [-> |]; cbn [andb]; [| destruct (window (at_m s) i g); lia]. rewrite (V f). destruct (window (at_m s) i f); lia.
        -- intros j N. unfold pend. rewrite St, Mt, Cn, Ct. destruct (Nat.eqb_spec j i); [contradiction | reflexivity].
    + intros g. destruct (_ && _); lia.
    + intros U g. cbn [undisturbed] in U. specialize (U c i E P). destruct (window (at_m s) i f) eqn:W; [| rewrite andb_false_r; reflexivity]. exfalso.
      destruct (at_m s) as [| | | | | | | | j rc w fs | j rc w fs | j rc | | | | | |] eqn:M; try discriminate W; cbn [window reading] in W, U.
      * apply andb_prop in W as (W & _). apply Nat.eqb_eq in W. contradiction.
      * apply andb_prop in W as (W & _). apply Nat.eqb_eq in W. contradiction.
      * apply Nat.eqb_eq in W. subst j. refine (i_free _ I i h c _ Ho). rewrite M. reflexivity.
  - al S c E Dd. destruct (at_pc c) as [| | | | | | | | | | | i | | | |] eqn:P; try discriminate S. injection S as <-. apply (Triv ten). apply (acc_quiet ten lost s); try reflexivity; try assumption.
    + cbn. apply upd_length.
    + intros j. rewrite (status_keep s) by reflexivity. reflexivity.
    + intros j f _. apply counter_keep. reflexivity.
    + apply (cl_refl s).
    + apply (cl_refl' s).
    + intros k d j H. exists d. exact H.
    + intros k d j f X Y. rewrite (counter_keep s) by reflexivity. exact (a_claim _ _ _ A _ _ _ _ X Y).
  - al S c E Dd. destruct (at_pc c) as [| | | | | | | | | | | i | | | |] eqn:P; try discriminate S. destruct (0 <? v) eqn:V1; [| discriminate S]. destruct (v <? 256) eqn:V2; [| discriminate S].
    destruct (has v DISCONNECT) eqn:V3; [discriminate S |]. injection S as <-. apply Z.ltb_lt in V1.
    assert (Ho : holder s h c i) by (repeat split; [exact E | exact Dd | rewrite P; reflexivity]). destruct (i_own _ I _ _ _ Ho) as (L & Nz & _ & _).
    apply (Triv ten). apply (acc_quiet ten lost s); try reflexivity; try assumption.
    + cbn. apply upd_length.
    + intros j. rewrite (status_set s i _ _ L). destruct (Nat.eqb_spec j i) as [-> |]; [split; intros; lia | reflexivity].
    + intros j f _. apply counter_keep. reflexivity.
    + apply (cl_refl s).
    + apply (cl_refl' s).
    + intros k d j H. exists d. exact H.
    + intros k d j f X Y. rewrite (counter_keep s) by reflexivity. exact (a_claim _ _ _ A _ _ _ _ X Y).
  - al S c E Dd. destruct (at_pc c) as [| | | | | | | | | | | i | | | |] eqn:P; try discriminate S. injection S as <-. apply (Triv ten).
    apply (acc_go ten lost s s h c); try reflexivity; try assumption; try discriminate. intros j X. rewrite P. exact X.
  - injection S as <-. apply (Triv ten). apply (acc_quiet ten lost s); try reflexivity; try assumption.
    + intros k d X. rewrite cl_client in X. destruct (Nat.eqb_spec k h) as [-> |]; [| apply cl_refl; exact X]. destruct (cl s h) as [c |]; [| discriminate X]. injection X as <-. exists c. auto.
    + intros k d X. rewrite cl_client. destruct (Nat.eqb_spec k h) as [-> |]; [| apply cl_refl'; exact X]. rewrite X. eexists. split; [reflexivity |]. auto.
    + intros k d j (X & Y & W). rewrite cl_client in X. destruct (Nat.eqb_spec k h) as [-> |]; [| exists d; repeat split; assumption]. destruct (cl s h) as [c |]; [| discriminate X]. injection X as <-. discriminate Y.
    + intros k d j f X Y. change (counter (with_client ?a ?b ?c) j f) with (counter s j f). rewrite cl_client in X. destruct (Nat.eqb_spec k h) as [-> |]; [| exact (a_claim _ _ _ A _ _ _ _ X Y)]. destruct (cl s h) as [c |] eqn:E; [| discriminate X]. injection X as <-. exact (a_claim _ _ _ A _ _ _ _ E Y).
    + intros f. cbn [with_client clients]. apply total_keep. reflexivity.
  - destruct (at_m s) eqn:M; try discriminate S. injection S as <-. apply (Triv ten). eapply acc_same; try eassumption; try reflexivity; try discriminate.
    + rewrite M. reflexivity.
    + intros i rc v fs [X | X]; discriminate X.
  - exact (master_acc _ _ _ _ _ _ I A Lt S).
  - destruct (at_m s) eqn:M; try discriminate S. injection S as <-. apply (Triv ten). destruct (_ || _); [exact A |]. eapply acc_same; try eassumption; try reflexivity; try discriminate.
    + rewrite M. reflexivity.
    + intros j rc v fs [X | X]; discriminate X.
Qed.

(** ** Histories *)
Lemma master_clients input s b t : master_step input s b = Some t -> clients t = clients s.
Proof.
  unfold master_step. intros S.
  destruct (at_m s) as [| i rc mr | i rc v | i rc v p | i rc v | i rc v | i rc v [| f fs] | i rc v f fs | i rc v [| f fs] | i rc v [| f fs] | i rc | n rc | n rc | n | | i | i v]; try discriminate S;
    repeat match type of S with (if ?b then _ else _) = _ => destruct b | match ?x with Some _ => _ | None => _ end = _ => destruct x end; try discriminate S; injection S as <-; unfold after; try destruct (has _ _); reflexivity.
Qed.
Lemma client_total s h c t f : client_step s h c = Some t -> total (clients t) f = total (clients s) f.
Proof.
  assert (G : forall s1 p, clients s1 = clients s -> total (clients (go s1 h p)) f = total (clients s) f).
  { intros s1 p E. cbn [go with_client clients]. rewrite E. apply total_keep. reflexivity. }
  unfold client_step. intros S.
  destruct (at_pc c) as [| | | | | | g i [| w r] | | | | | | | | |]; try discriminate S;
    repeat match type of S with (if ?b then _ else _) = _ => destruct b | match ?x with Some _ => _ | None => _ end = _ => destruct x end; try discriminate S; injection S as <-; apply G; reflexivity.
Qed.
Lemma step_total input s l t f : kept l -> step input s l = Some t -> total (clients s) f <= total (clients t) f.
Proof.
  intros Ke S. destruct l as [h | h g v | h n | h v | h | h | h | n | b | i | |]; try contradiction Ke; cbn [step] in S.
  - al S c E Dd. rewrite (client_total _ _ _ _ f S). lia.
  - al S c E Dd. destruct (at_pc c); try discriminate S. destruct (Z.leb_spec (cval c g) v) as [V1 |]; [| discriminate S]. destruct (v <? 2 ^ 64); [| discriminate S]. injection S as <-. cbn [with_client clients with_slot]. rewrite total_upd, E. cbn [cval]. unfold setf. destruct (cf_eqb_spec f g) as [-> |]; lia.
  - al S c E Dd. destruct (at_pc c); try discriminate S. injection S as <-. apply Z.le_refl.
  - al S c E Dd. destruct (at_pc c); try discriminate S. destruct (_ && _); [| discriminate S]. injection S as <-. apply Z.le_refl.
  - al S c E Dd. destruct (at_pc c); try discriminate S. injection S as <-. cbn [go with_client clients]. rewrite total_keep by reflexivity. lia.
  - injection S as <-. cbn [with_client clients]. rewrite total_keep by reflexivity. lia.
  - destruct (at_m s); try discriminate S. injection S as <-. apply Z.le_refl.
  - rewrite (master_clients _ _ _ _ S). lia.
  - destruct (at_m s); try discriminate S. injection S as <-. destruct (_ || _); apply Z.le_refl.
Qed.
Lemma run_total input l : forall s t f, Forall kept l -> run input s l = Some t -> total (clients s) f <= total (clients t) f.
Proof.
  induction l as [| a l IH]; intros s t f K R; cbn [run] in R; [injection R as <-; lia |]. destruct (step input s a) as [u |] eqn:S; [| discriminate R].
  inversion K as [| ? ? K1 K2]; subst. pose proof (step_total _ _ _ _ f K1 S). pose proof (IH _ _ f K2 R). lia.
Qed.
Lemma kept_plain l : kept l -> plain l.
Proof. destruct l; cbn; tauto. Qed.
Lemma run_acc input l : forall ten lost s t, inv s -> acc ten lost s -> Forall kept l -> run input s l = Some t -> (forall f, total (clients t) f < 2 ^ 64) ->
  exists ten' lost', acc ten' lost' t /\ (forall f, lost f <= lost' f) /\ (calm input s l -> forall f, lost' f = lost f).
Proof.
  induction l as [| a l IH]; intros ten lost s t I A K R Lt; cbn [run calm] in *; [injection R as <-; exists ten, lost; split; [exact A |]; split; [lia | reflexivity] |].
  destruct (step input s a) as [u |] eqn:S; [| discriminate R]. inversion K as [| ? ? K1 K2]; subst.
  destruct (step_acc input ten lost s a u I A K1) as (ten1 & lost1 & A1 & L1 & U1); [| exact S |].
  { intros f. pose proof (step_total _ _ _ _ f K1 S). pose proof (run_total _ _ _ _ f K2 R). specialize (Lt f). lia. }
  destruct (IH ten1 lost1 u t (step_inv _ _ _ _ I (kept_plain _ K1) S) A1 K2 R Lt) as (ten2 & lost2 & A2 & L2 & U2).
  exists ten2, lost2. split; [exact A2 |]. split; [intros f; specialize (L1 f); specialize (L2 f); lia |]. intros (C1 & C2) f. rewrite U2, U1; auto.
Qed.

(** ** One round without interruption *)
Section Round.
Context (input : bool) (s0 : sys) (now : Z).
Hypothesis Hin : forall i, status s0 i <> 0 -> (i < endp s0)%nat /\ recent input s0 now i.
Definition donep (u : sys) (k : nat) : Prop := forall i f, (i < k)%nat -> status u i <> 0 -> counter u i f = conn u i f.
Definition alldone (u : sys) : Prop := forall i f, status u i <> 0 -> counter u i f = conn u i f.
Definition at_round (u : sys) (m : mpc) : Prop :=
  match m with
  | MAt id rc _ | MPid id rc _ | MRun id rc _ _ | MDisc id rc _ | MAct id rc _ | MChk id rc _ _ | MAdd id rc _ _ | MInv id rc => rc = endp s0 /\ donep u id
  | MSet id rc _ fs => rc = endp s0 /\ donep u id /\ forall f, ~ In f fs -> counter u id f = conn u id f
  | MLow _ _ _ _ _ | MReq _ | MReqW _ _ => False
  | MShrink _ _ | MShrinkR _ _ | MShrinkW _ | MPost | MIdle => alldone u
  end.
Record round (u : sys) : Prop := {
  r_now : mnow u = now;
  r_sn : forall i, match nth_error (slots u) i with Some x => snow x | None => 0 end = match nth_error (slots s0) i with Some x => snow x | None => 0 end;
  r_st : forall i, status u i <> 0 -> status s0 i <> 0;
  r_at : at_round u (at_m u) }.
Lemma snow_set s i v j : match nth_error (slots (with_slot s i (fun x => set_st x v))) j with Some x => snow x | None => 0 end = match nth_error (slots s) j with Some x => snow x | None => 0 end.
Proof. cbn [with_slot slots]. rewrite upd_nth. destruct (j =? i)%nat; [| reflexivity]. destruct (nth_error (slots s) j); reflexivity. Qed.
Lemma after_round u i rc v : round u -> rc = endp s0 -> donep u i -> (forall f, counter u i f = conn u i f) \/ has v DISCONNECT = true -> round (after u i rc v).
Proof.
  intros R E D H. unfold after. destruct (has v DISCONNECT).
  - constructor; try apply R. cbn [with_m at_m at_round]. split; [exact E |]. intros j f L N. change (counter (with_m ?a ?b) j f) with (counter u j f). cbn [with_m conn with_conn]. destruct (Nat.eqb_spec j i); [lia |]. apply D; [exact L | exact N].
  - destruct H as [H | H]; [| discriminate H]. constructor; try apply R. cbn [with_m at_m at_round]. split; [exact E |]. intros j f L N. destruct (Nat.eq_dec j i) as [-> |]; [apply H |]. apply D; [lia | exact N].
Qed.
Lemma master_round ten lost u b t : inv u -> acc ten lost u -> round u -> master_step input u b = Some t -> round t.
Proof.
  intros I A R S. unfold master_step in S. pose proof (i_mid _ I) as Md. pose proof (r_at _ R) as Ra.
  destruct (at_m u) as [| i rc mr | i rc v | i rc v p | i rc v | i rc v | i rc v fs | i rc v f fs | i rc v fs | i rc v fs | i rc | n rc | n rc | n | | i | i v] eqn:M; try discriminate S; cbn [at_id] in Md; cbn [at_round] in Ra; try contradiction Ra.
  Ltac rd R := constructor; try apply R; cbn [with_m at_m at_round]; try assumption.
  - destruct Ra as (-> & D). destruct (Nat.ltb_spec i (endp s0)) as [Li | Li].
    + destruct (Z.eqb_spec (status u i) INVALID) as [Z0 |]; [injection S as <-; rd R; split; [reflexivity |] | destruct (has (status u i) DISCONNECT); injection S as <-; rd R; auto].
      intros j f L N. destruct (Nat.eq_dec j i) as [-> |]; [destruct (N Z0) | apply D; [lia | exact N]].
    + assert (Al : alldone u) by (intros j f N; apply D; [pose proof (proj1 (Hin _ (r_st _ R _ N))); lia | exact N]). destruct (mr + 1 <? endp s0)%nat; injection S as <-; rd R.
  - injection S as <-. destruct (_ =? 0); rd R.
  - destruct b; [injection S as <-; rd R |]. destruct (existsb _ _); [discriminate S |]. injection S as <-. rd R.
  - destruct Ra as (-> & D). pose proof (Md _ eq_refl) as Mi. pose proof (status_in _ _ Mi) as L. injection S as <-. rd R.
    + intros j. change (slots (with_m ?a ?b)) with (slots a). rewrite snow_set. apply R.
    + intros j. change (status (with_m ?a ?b) j) with (status a j). rewrite (status_set u i _ _ L). destruct (Nat.eqb_spec j i) as [-> |]; [intros _; exact (r_st _ R _ Mi) | apply (r_st _ R)].
    + split; [reflexivity |]. intros j f Lj. change (status (with_m ?a ?b) j) with (status a j). change (counter (with_m ?a ?b) j f) with (counter a j f). rewrite (status_set u i _ _ L), (counter_keep u) by reflexivity. destruct (Nat.eqb_spec j i); [lia |]. apply D; exact Lj.
  - destruct Ra as (-> & D). pose proof (Md _ eq_refl) as Mi. destruct (_ && _) eqn:Y; injection S as <-; [| rd R; auto]. exfalso.
    destruct (proj2 (Hin _ (r_st _ R _ Mi))) as [-> | U]; [rewrite andb_false_r in Y; discriminate Y |]. apply andb_prop in Y as (Y & _). apply Z.ltb_lt in Y. rewrite (r_sn _ R), (r_now _ R) in Y.
    pose proof (r_st _ R _ Mi) as Ms. unfold status in Ms. destruct (nth_error (slots s0) i) as [x |]; [specialize (U _ eq_refl); lia | congruence].
  - destruct fs as [| f fs]; injection S as <-; [rd R |]. destruct (Z.ltb_spec (counter u i f) (conn u i f)) as [X | X]; [pose proof (a_conn _ _ _ A i f (Md _ eq_refl)); lia | rd R].
  - destruct fs as [| f fs]; injection S as <-; rd R. destruct Ra as (-> & D). split; [reflexivity |]. split; [exact D |]. intros f N. destruct (N (all_in f)).
  - destruct Ra as (-> & D & F). destruct fs as [| f fs]; injection S as <-; [apply after_round; auto |]. rd R. split; [reflexivity |]. split.
    + intros j g L N. change (counter (with_m ?a ?b) j g) with (counter u j g). cbn [with_m conn with_conn]. destruct (Nat.eqb_spec j i); [lia |]. apply D; [exact L | exact N].
    + intros g N. change (counter (with_m ?a ?b) i g) with (counter u i g). cbn [with_m conn with_conn]. rewrite Nat.eqb_refl. unfold setf. destruct (cf_eqb_spec g f) as [-> | Ng]; [reflexivity |]. apply F. intros [X | X]; [congruence | contradiction].
  - destruct Ra as (-> & D). pose proof (Md _ eq_refl) as Mi. pose proof (status_in _ _ Mi) as L. injection S as <-. rd R.
    + intros j. change (slots (with_m ?a ?b)) with (slots a). rewrite snow_set. apply R.
    + intros j. change (status (with_m ?a ?b) j) with (status a j). rewrite (status_set u i _ _ L). destruct (Nat.eqb_spec j i) as [-> |]; [intros X; destruct (X eq_refl) | apply (r_st _ R)].
    + split; [reflexivity |]. intros j f Lj. change (status (with_m ?a ?b) j) with (status a j). change (counter (with_m ?a ?b) j f) with (counter a j f). rewrite (status_set u i _ _ L), (counter_keep u) by reflexivity. destruct (Nat.eqb_spec j i) as [-> |]; [intros X; destruct (X eq_refl) |]. apply D; lia.
  - destruct (sems u (gen u)) as [o |]; [discriminate S |]. injection S as <-. rd R.
  - injection S as <-. destruct (endp u <=? rc)%nat; rd R.
  - injection S as <-. rd R.
  - injection S as <-. rd R.
Qed.
Lemma run_round l : forall ten lost u t, inv u -> acc ten lost u -> round u -> Forall master l -> run input u l = Some t -> (forall f, total (clients t) f < 2 ^ 64) -> round t.
Proof.
  induction l as [| a l IH]; intros ten lost u t I A R K Ru Lt; cbn [run] in Ru; [injection Ru as <-; exact R |].
  destruct (step input u a) as [w |] eqn:S; [| discriminate Ru]. inversion K as [| ? ? K1 K2]; subst. destruct a; try contradiction K1.
  assert (Kt : kept (Master running)) by exact Logic.I.
  assert (Kl : Forall kept l) by (eapply Forall_impl; [| exact K2]; intros a; destruct a; cbn; tauto).
  destruct (step_acc input ten lost u _ w I A Kt) as (ten1 & lost1 & A1 & L1 & U1); [| exact S |].
  { intros f. pose proof (step_total _ _ _ _ f Kt S). pose proof (run_total _ _ _ _ f Kl Ru). specialize (Lt f). lia. }
  exact (IH ten1 lost1 w t (step_inv _ _ _ _ I (kept_plain _ Kt) S) A1 (master_round _ _ _ _ _ I A R S) K2 Ru Lt).
Qed.
End Round.

(** ** Registration *)
Lemma got {A} (o : option sys) (g : sys -> A) v : option_map g o = Some v -> exists t, o = Some t /\ g t = v.
Proof. destruct o as [t |]; intros E; [| discriminate E]. injection E as E. exists t. auto. Qed.
Lemma client_length s h c t : client_step s h c = Some t -> List.length (slots t) = List.length (slots s).
Proof.
  unfold client_step. intros S.
  destruct (at_pc c) as [| | | | | | g i [| w r] | | | | | | | | |]; try discriminate S;
    repeat match type of S with (if ?b then _ else _) = _ => destruct b | match ?x with Some _ => _ | None => _ end = _ => destruct x end; try discriminate S; injection S as <-; cbn [go with_client slots with_slot with_sem with_end]; try apply upd_length; reflexivity.
Qed.
Lemma master_length input s b t : master_step input s b = Some t -> List.length (slots t) = List.length (slots s).
Proof.
  unfold master_step. intros S.
  destruct (at_m s) as [| i rc mr | i rc v | i rc v p | i rc v | i rc v | i rc v [| f fs] | i rc v f fs | i rc v [| f fs] | i rc v [| f fs] | i rc | n rc | n rc | n | | i | i v]; try discriminate S;
    repeat match type of S with (if ?b then _ else _) = _ => destruct b | match ?x with Some _ => _ | None => _ end = _ => destruct x end; try discriminate S; injection S as <-; unfold after; try destruct (has _ _); try apply upd_length; reflexivity.
Qed.
Lemma step_length input s l t : plain l -> step input s l = Some t -> List.length (slots t) = List.length (slots s).
Proof.
  intros P S. destruct l as [h | h g v | h n | h v | h | h | h | n | b | i | |]; try contradiction P; cbn [step] in S.
  - al S c E Dd. exact (client_length _ _ _ _ S).
  - al S c E Dd. destruct (at_pc c); try discriminate S. destruct (_ && _); [| discriminate S]. injection S as <-. apply upd_length.
  - al S c E Dd. destruct (at_pc c); try discriminate S. injection S as <-. apply upd_length.
  - al S c E Dd. destruct (at_pc c); try discriminate S. destruct (_ && _); [| discriminate S]. injection S as <-. apply upd_length.
  - al S c E Dd. destruct (at_pc c); try discriminate S. injection S as <-. reflexivity.
  - injection S as <-. reflexivity.
  - destruct (at_m s); try discriminate S. injection S as <-. reflexivity.
  - exact (master_length _ _ _ _ S).
  - destruct (at_m s); try discriminate S. injection S as <-. destruct (_ || _); reflexivity.
  - injection S as <-. reflexivity.
Qed.
Lemma run_length input l : forall s t, Forall plain l -> run input s l = Some t -> List.length (slots t) = List.length (slots s).
Proof.
  induction l as [| a l IH]; intros s t K R; cbn [run] in R; [injection R as <-; reflexivity |]. destruct (step input s a) as [u |] eqn:S; [| discriminate R].
  inversion K as [| ? ? K1 K2]; subst. rewrite (IH _ _ K2 R). exact (step_length _ _ _ _ K1 S).
Qed.

Section Register.
Context (input : bool) (h : nat).
Definition here (s : sys) (p : cpc) : Prop := exists c, cl s h = Some c /\ dead c = false /\ at_pc c = p.
Definition reach (s t : sys) : Prop := exists k, run input s (repeat (Client h) k) = Some t.
Lemma run_app l : forall r s t u, run input s l = Some t -> run input t r = Some u -> run input s (l ++ r) = Some u.
Proof.
  induction l as [| a l IH]; intros r s t u R1 R2; cbn [app run] in *; [injection R1 as <-; exact R2 |]. destruct (step input s a) as [w |]; [| discriminate R1]. exact (IH _ _ _ _ R1 R2).
Qed.
Lemma reach_trans s t u : reach s t -> reach t u -> reach s u.
Proof. intros (a & A) (b & B). exists (a + b)%nat. rewrite repeat_app. exact (run_app _ _ _ _ _ A B). Qed.
Lemma reach_step s t p c : cl s h = Some c -> dead c = false -> at_pc c = p -> client_step s h c = Some t -> reach s t.
Proof. intros A D P S. exists 1%nat. cbn [repeat run step]. unfold alive. unfold cl in A. rewrite A, D. cbn. rewrite S. reflexivity. Qed.
Lemma here_go s s1 p : (exists c, cl s h = Some c /\ dead c = false) -> clients s1 = clients s -> here (go s1 h p) p.
Proof.
  intros (c & A & D) E. exists (set_pc c p). split; [| split; [exact D | reflexivity]]. unfold go. rewrite cl_client, Nat.eqb_refl. unfold cl in *. rewrite E, A. reflexivity.
Qed.
(** What the scan needs of the page. *)
Record page (s : sys) (i : nat) (sm : option (option nat)) : Prop := {
  pg_gen : gen s = 0%nat; pg_sem : sems s 0 = sm; pg_len : (i < List.length (slots s))%nat; pg_free : status s i = 0; pg_busy : forall j, (j < i)%nat -> status s j <> 0 }.
Lemma page_go s i sm p : page s i sm -> page (go s h p) i sm.
Proof. intros [A B C D E]. constructor; assumption. Qed.
Lemma reach_to s s1 p q : here s p -> clients s1 = clients s -> (forall c, at_pc c = p -> client_step s h c = Some (go s1 h q)) -> exists t, t = go s1 h q /\ reach s t /\ here t q.
Proof.
  intros (c & A & D & P) E S. exists (go s1 h q). split; [reflexivity |]. split; [eapply reach_step; eauto |]. apply (here_go s); [exists c; auto | exact E].
Qed.
Lemma scan d : forall s i j, (i = j + d)%nat -> here s (CScan 0 j) -> page s i None -> exists t, reach s t /\ here t (CScan 0 i) /\ page t i None.
Proof.
  induction d as [| d IH]; intros s i j E H P; [replace i with j by lia; exists s; split; [exists 0%nat; reflexivity |]; split; [exact H | replace j with i by lia; exact P] |].
  destruct (reach_to s s (CScan 0 j) (CScan 0 (j + 1)) H eq_refl) as (t & -> & R & Ht).
  { intros c Pc. unfold client_step. rewrite Pc. pose proof (pg_len _ _ _ P). destruct (Nat.ltb_spec j (List.length (slots s))); [| lia]. destruct (Z.eqb_spec (status s j) INVALID) as [Z0 |]; [| reflexivity]. destruct (pg_busy _ _ _ P j ltac:(lia) Z0). }
  destruct (IH _ i (j + 1)%nat ltac:(lia) Ht (page_go _ _ _ _ P)) as (t & R2 & H2 & P2). exists t. split; [eapply reach_trans; eassumption | auto].
Qed.
Lemma nulls w : forall s i, here s (CNull 0 i w) -> page s i (Some (Some h)) -> exists t, reach s t /\ here t (CSet 0 i) /\ page t i (Some (Some h)).
Proof.
  induction w as [| x w IH]; intros s i H P.
  - destruct (reach_to s s (CNull 0 i []) (CSet 0 i) H eq_refl) as (t & -> & R & Ht).
    { intros c Pc. unfold client_step. rewrite Pc. reflexivity. }
    exists (go s h (CSet 0 i)). split; [exact R |]. split; [exact Ht | apply page_go; exact P].
  - destruct H as (c & A & D & Pc).
    assert (K : forall j, status (with_slot s i (fun y => write y (cpid c) x)) j = status s j) by (intros j; apply status_keep; intros y; destruct x; reflexivity).
    assert (P1 : page (go (with_slot s i (fun y => write y (cpid c) x)) h (CNull 0 i w)) i (Some (Some h))).
    { apply page_go. constructor; try apply P; [cbn [with_slot slots]; rewrite upd_length; apply P | rewrite K; apply P |]. intros j. rewrite K. apply (pg_busy _ _ _ P). }
    destruct (IH _ i (here_go s (with_slot s i (fun y => write y (cpid c) x)) _ (ex_intro _ c (conj A D)) eq_refl) P1) as (t & R2 & H2 & P2). exists t. split; [| auto]. eapply reach_trans; [| exact R2].
    apply (reach_step _ _ _ c A D Pc). unfold client_step. rewrite Pc. reflexivity.
Qed.
Lemma register s c i : inv s -> cl s h = Some c -> dead c = false -> at_pc c = CIdle -> sems s 0 = None -> (i < List.length (slots s))%nat -> status s i = 0 -> (forall j, (j < i)%nat -> status s j <> 0) ->
  exists k t, run input s (repeat (Client h) k) = Some t /\ owns t h i /\ (i < endp t)%nat.
Proof.
  intros I A D Pc Sm L Z0 B. assert (P : page s i None) by (constructor; [apply (i_gen _ I) | exact Sm | exact L | exact Z0 | exact B]).
  assert (H0 : here s CIdle) by (exists c; auto).
  destruct (reach_to s s CIdle (COpen 0) H0 eq_refl) as (s1 & E1 & R1 & H1). { intros d X. unfold client_step. rewrite X, (i_gen _ I). reflexivity. }
  assert (P1 : page s1 i None) by (rewrite E1; apply page_go; exact P). clear E1.
  destruct (reach_to s1 s1 (COpen 0) (CScan 0 0) H1 eq_refl) as (s2 & E2 & R2 & H2). { intros d X. unfold client_step. rewrite X. reflexivity. }
  assert (P2 : page s2 i None) by (rewrite E2; apply page_go; exact P1). clear E2.
  destruct (scan i s2 i 0%nat eq_refl H2 P2) as (s3 & R3 & H3 & P3).
  destruct (reach_to s3 s3 (CScan 0 i) (CWait 0 i) H3 eq_refl) as (s4 & E4 & R4 & H4).
  { intros d X. unfold client_step. rewrite X. pose proof (pg_len _ _ _ P3). destruct (Nat.ltb_spec i (List.length (slots s3))); [| lia]. rewrite (pg_free _ _ _ P3). reflexivity. }
  assert (P4 : page s4 i None) by (rewrite E4; apply page_go; exact P3). clear E4.
  destruct (reach_to s4 (with_sem s4 0 (Some (Some h))) (CWait 0 i) (CRecheck 0 i) H4 eq_refl) as (s5 & E5 & R5 & H5).
  { intros d X. unfold client_step. rewrite X, (pg_sem _ _ _ P4). reflexivity. }
  assert (P5 : page s5 i (Some (Some h))) by (rewrite E5; apply page_go; constructor; try apply P4; reflexivity). clear E5.
  destruct (reach_to s5 s5 (CRecheck 0 i) (CNull 0 i null_fields) H5 eq_refl) as (s6 & E6 & R6 & H6).
  { intros d X. unfold client_step. rewrite X, (pg_free _ _ _ P5). reflexivity. }
  assert (P6 : page s6 i (Some (Some h))) by (rewrite E6; apply page_go; exact P5). clear E6.
  destruct (nulls null_fields s6 i H6 P6) as (s7 & R7 & (c7 & A7 & D7 & X7) & P7).
  set (s8 := go (with_slot s7 i (fun x => set_st x (ACTIVE .| cflags c7))) h (CEndR 0 i)).
  assert (R8 : reach s7 s8) by (apply (reach_step _ _ _ c7 A7 D7 X7); unfold client_step; rewrite X7; reflexivity).
  assert (H8 : here s8 (CEndR 0 i)) by (apply (here_go s7); [exists c7; auto | reflexivity]).
  assert (Fin : exists u, reach s8 u /\ here u (COwn i) /\ (i < endp u)%nat).
  { destruct (Nat.leb_spec (endp s8) i) as [Le | Le].
    - destruct (reach_to s8 s8 (CEndR 0 i) (CEndW 0 i) H8 eq_refl) as (s9 & E9 & R9 & H9). { intros d X. unfold client_step. rewrite X. destruct (Nat.leb_spec (endp s8) i); [reflexivity | lia]. }
      destruct (reach_to s9 (with_end s9 (i + 1)) (CEndW 0 i) (CPost 0 i) H9 eq_refl) as (sa & Ea & Ra & Ha). { intros d X. unfold client_step. rewrite X. reflexivity. }
      destruct (reach_to sa (with_sem sa 0 None) (CPost 0 i) (COwn i) Ha eq_refl) as (sb & Eb & Rb & Hb). { intros d X. unfold client_step. rewrite X. reflexivity. }
      exists sb. split; [eapply reach_trans; [exact R9 |]; eapply reach_trans; eassumption |]. split; [exact Hb |]. rewrite Eb, Ea. cbn [go with_client endp with_sem with_end]. lia.
    - destruct (reach_to s8 s8 (CEndR 0 i) (CPost 0 i) H8 eq_refl) as (sa & Ea & Ra & Ha). { intros d X. unfold client_step. rewrite X. destruct (Nat.leb_spec (endp s8) i); [lia | reflexivity]. }
      destruct (reach_to sa (with_sem sa 0 None) (CPost 0 i) (COwn i) Ha eq_refl) as (sb & Eb & Rb & Hb). { intros d X. unfold client_step. rewrite X. reflexivity. }
      exists sb. split; [eapply reach_trans; eassumption |]. split; [exact Hb |]. rewrite Eb, Ea. cbn [go with_client endp with_sem]. exact Le. }
  destruct Fin as (u & Ru & Hu & Eu).
  assert (R : reach s u) by (do 8 (eapply reach_trans; [eassumption |]); exact Ru). destruct R as (k & R). exists k, u. split; [exact R |]. split; [exact Hu | exact Eu].
Qed.
End Register.

(** ** A killed client keeps the semaphore *)
Definition outside (p : cpc) : bool := match p with CIdle | COpen _ | CScan _ _ | CWait _ _ | CGone => true | _ => false end.
Record stuck (s : sys) : Prop := {
  k_inv : inv s; k_sem : sems s 0 = Some (Some 0%nat);
  k_dead : forall c, cl s 0 = Some c -> dead c = true;
  k_out : forall c, cl s 1 = Some c -> outside (at_pc c) = true }.
Lemma stuck_step input s l t : stuck s -> plain l -> step input s l = Some t -> stuck t.
Proof.
  intros K P S. pose proof (k_inv _ K) as I. pose proof (k_sem _ K) as Sm.
  assert (Keep : sems t 0 = sems s 0 -> (forall k c, cl t k = Some c -> exists d, cl s k = Some d /\ (dead d = true -> dead c = true) /\ (at_pc c = at_pc d)) -> stuck t).
  { intros E C. constructor; [exact (step_inv _ _ _ _ I P S) | congruence | |].
    - intros c A. destruct (C _ _ A) as (d & B & D & _). apply D. exact (k_dead _ K _ B).
    - intros c A. destruct (C _ _ A) as (d & B & _ & ->). exact (k_out _ K _ B). }
  assert (Same : forall k c, clients t = clients s -> cl t k = Some c -> exists d, cl s k = Some d /\ (dead d = true -> dead c = true) /\ at_pc c = at_pc d).
  { intros k c E A. unfold cl in *. rewrite E in A. exists c. auto. }
  assert (Upd : forall s1 h g, clients s1 = clients s -> (forall c, dead c = true -> dead (g c) = true) -> (forall c, at_pc (g c) = at_pc c) -> forall k c, cl (with_client s1 h g) k = Some c -> exists d, cl s k = Some d /\ (dead d = true -> dead c = true) /\ at_pc c = at_pc d).
  { intros s1 h g E G1 G2 k c A. rewrite cl_client in A. unfold cl in *. rewrite E in A. destruct (k =? h)%nat; [| exists c; auto]. destruct (nth_error (clients s) k) as [d |]; [| discriminate A]. injection A as <-. exists d. auto. }
  destruct l as [h | h g v | h n | h v | h | h | h | n | b | i | |]; try contradiction P; cbn [step] in S.
  - al S c E Dd. assert (N0 : h <> 0%nat) by (intros ->; rewrite (k_dead _ K _ E) in Dd; discriminate Dd).
    assert (Ni : incrit (at_pc c) = false) by (destruct (incrit (at_pc c)) eqn:X; [| reflexivity]; pose proof (i_sem _ I _ _ E X); congruence).
    assert (Fin : forall s1 p, t = go s1 h p -> sems s1 0 = sems s 0 -> clients s1 = clients s -> (outside (at_pc c) = true -> outside p = true) -> stuck t).
    { intros s1 p -> E1 E2 E3. constructor; [exact (step_inv input s (Client h) _ I P ltac:(cbn [step]; unfold alive; rewrite E, Dd; exact S)) | exact (eq_trans E1 Sm) | |].
      - intros d A. unfold go in A. rewrite cl_client in A. destruct (Nat.eqb_spec 0 h); [congruence |]. apply (k_dead _ K). unfold cl in *. rewrite <- E2. exact A.
      - intros d A. unfold go in A. rewrite cl_client in A. unfold cl in *. rewrite E2 in A. destruct (Nat.eqb_spec 1 h) as [<- |]; [| exact (k_out _ K _ A)]. rewrite E in A. injection A as <-. cbn. apply E3. exact (k_out _ K _ E). }
    unfold client_step in S. destruct (at_pc c) as [| g | g i | g i | g i | g i | g i w | g i | g i | g i | g i | i | i b | i b v | i |] eqn:Pc; try discriminate Ni; try discriminate S.
    + injection S as <-. eapply Fin; reflexivity.
    + injection S as <-. eapply Fin; reflexivity.
    + destruct (i <? _)%nat; injection S as <-; [destruct (_ =? INVALID) |]; eapply Fin; reflexivity.
    + assert (g = 0%nat) by (apply (i_g _ I _ _ _ E); rewrite Pc; reflexivity). subst g. rewrite Sm in S. discriminate S.
    + injection S as <-. eapply Fin; try reflexivity. discriminate.
    + injection S as <-. eapply Fin; try reflexivity. discriminate.
    + injection S as <-. eapply Fin; try reflexivity. discriminate.
  - al S c E Dd. destruct (at_pc c); try discriminate S. destruct (_ && _); [| discriminate S]. injection S as <-. apply Keep; [reflexivity |]. apply Upd; reflexivity || auto.
  - al S c E Dd. destruct (at_pc c); try discriminate S. injection S as <-. apply Keep; [reflexivity |]. intros k d A. apply Same; [reflexivity | exact A].
  - al S c E Dd. destruct (at_pc c); try discriminate S. destruct (_ && _); [| discriminate S]. injection S as <-. apply Keep; [reflexivity |]. intros k d A. apply Same; [reflexivity | exact A].
  - al S c E Dd. destruct (at_pc c) eqn:Pc; try discriminate S. injection S as <-. constructor; [exact (step_inv input s (Leave h) _ I P ltac:(cbn [step]; unfold alive; rewrite E, Dd, Pc; reflexivity)) | exact Sm | |].
    + intros d A. unfold go in A. rewrite cl_client in A. destruct (Nat.eqb_spec 0 h) as [<- |]; [| exact (k_dead _ K _ A)]. rewrite (k_dead _ K _ E) in Dd. discriminate Dd.
    + intros d A. unfold go in A. rewrite cl_client in A. destruct (Nat.eqb_spec 1 h) as [<- |]; [| exact (k_out _ K _ A)]. pose proof (k_out _ K _ E) as X. rewrite Pc in X. discriminate X.
  - injection S as <-. apply Keep; [reflexivity |]. apply Upd; reflexivity || auto.
  - destruct (at_m s); try discriminate S. injection S as <-. apply Keep; [reflexivity |]. intros k d A. apply Same; [reflexivity | exact A].
  - apply Keep; [| intros k d A; apply Same; [exact (master_clients _ _ _ _ S) | exact A]]. pose proof (i_msem _ I) as Ms. unfold master_step in S. rewrite (i_gen _ I) in S.
    destruct (at_m s) as [| i rc mr | i rc v | i rc v p | i rc v | i rc v | i rc v [| f fs] | i rc v f fs | i rc v [| f fs] | i rc v [| f fs] | i rc | n rc | n rc | n | | i | i v]; try discriminate S;
    repeat match type of S with (if ?b then _ else _) = _ => destruct b | match ?x with Some _ => _ | None => _ end = _ => destruct x eqn:?Q end; try discriminate S; injection S as <-; unfold after; try destruct (has _ _); try reflexivity; try congruence.
    rewrite Sm in Ms. discriminate (Ms eq_refl).
  - destruct (at_m s); try discriminate S. injection S as <-. apply Keep; [destruct (_ || _); reflexivity |]. intros k d A. apply Same; [destruct (_ || _); reflexivity | exact A].
  - injection S as <-. apply Keep; [reflexivity |]. intros k d A. apply Same; [reflexivity | exact A].
Qed.
Lemma stuck_run input l : forall s t i, stuck s -> Forall plain l -> run input s l = Some t -> ~ owns t 1 i.
Proof.
  induction l as [| a l IH]; intros s t i K P R; cbn [run] in R.
  - injection R as <-. intros (c & A & _ & Pc). pose proof (k_out _ K _ A) as X. rewrite Pc in X. discriminate X.
  - destruct (step input s a) as [u |] eqn:S; [| discriminate R]. inversion P as [| ? ? P1 P2]; subst. exact (IH _ _ _ (stuck_step _ _ _ _ K P1 S) P2 R).
Qed.

(** ** Checking a history *)
Definition readingb (m : mpc) (i : nat) : bool := match m with MAdd j _ _ _ | MSet j _ _ _ => (i =? j)%nat | _ => false end.
Definition undisturbedb (input : bool) (s : sys) (l : label) : bool :=
  match l with
  | Count h _ _ => match nth_error (clients s) h with Some c => match at_pc c with COwn i => negb (readingb (at_m s) i) | _ => true end | None => true end
  | Master _ => match at_m s with MAct i rc v => negb (has v DISCONNECT) || input || match nth_error (slots s) i with Some x => u64 (mnow s - 10) <=? snow x | None => true end | _ => true end
  | _ => true
  end.
Fixpoint calmb (input : bool) (s : sys) (l : list label) : bool :=
  match l with [] => true | a :: r => undisturbedb input s a && match step input s a with Some t => calmb input t r | None => true end end.
Lemma calmb_ok input l : forall s, calmb input s l = true -> calm input s l.
Proof.
  induction l as [| a l IH]; intros s H; cbn [calm calmb] in *; [exact Logic.I |]. apply andb_prop in H as (H1 & H2). split; [| destruct (step input s a); auto].
  destruct a; cbn [undisturbed undisturbedb] in *; try exact Logic.I.
  - intros c i E P. rewrite E, P in H1. intros X. destruct (at_m s); try contradiction X; cbn in X, H1; subst; rewrite Nat.eqb_refl in H1; discriminate H1.
  - intros i rc v E D. rewrite E, D in H1. cbn [negb orb] in H1. destruct input; [left; reflexivity |]. right. intros x X. rewrite X in H1. apply Z.leb_le. exact H1.
Qed.
Lemma run_split input l r s t : run input s l = Some t -> run input s (l ++ r) = run input t r.
Proof.
  revert s. induction l as [| a l IH]; intros s R; cbn [app run] in *; [injection R as <-; reflexivity |]. destruct (step input s a) as [w |]; [| discriminate R]. exact (IH _ R).
Qed.
(** A round in which every record is read disturbs nothing. *)
Lemma round_calm input s0 now : (forall i, status s0 i <> 0 -> (i < endp s0)%nat /\ recent input s0 now i) ->
  forall l ten lost u t, inv u -> acc ten lost u -> round s0 now u -> Forall master l -> run input u l = Some t -> (forall f, total (clients t) f < 2 ^ 64) -> calm input u l.
Proof.
  intros Hin. induction l as [| a l IH]; intros ten lost u t I A R K Ru Lt; cbn [run calm] in *; [exact Logic.I |].
  destruct (step input u a) as [w |] eqn:S; [| discriminate Ru]. inversion K as [| ? ? K1 K2]; subst. destruct a; try contradiction K1.
  assert (Kt : kept (Master running)) by exact Logic.I.
  assert (Kl : Forall kept l) by (eapply Forall_impl; [| exact K2]; intros a; destruct a; cbn; tauto).
  destruct (step_acc input ten lost u _ w I A Kt) as (ten1 & lost1 & A1 & L1 & U1); [| exact S |].
  { intros f. pose proof (step_total _ _ _ _ f Kt S). pose proof (run_total _ _ _ _ f Kl Ru). specialize (Lt f). lia. }
  split.
  - cbn [undisturbed]. intros i rc v M D. assert (Mi : status u i <> 0) by (apply (i_mid _ I); rewrite M; reflexivity). pose proof (r_st _ _ _ R _ Mi) as Ms.
    destruct (proj2 (Hin _ Ms)) as [X | X]; [left; exact X |]. right. intros x Ex. rewrite (r_now _ _ _ R). pose proof (r_sn _ _ _ R i) as Sn. rewrite Ex in Sn. rewrite Sn.
    unfold status in Ms. destruct (nth_error (slots s0) i) as [y |]; [apply X; reflexivity | congruence].
  - exact (IH ten1 lost1 w t (step_inv _ _ _ _ I (kept_plain _ Kt) S) A1 (master_round _ _ _ Hin _ _ _ _ _ I A R S) K2 Ru Lt).
Qed.
