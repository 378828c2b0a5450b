From Verif Require Import Common CommonFacts Comms_Model Comms_Spec.

Lemma upd_nth {A} (l : list A) i f j : nth_error (upd l i f) j = if (j =? i)%nat then option_map f (nth_error l j) else nth_error l j.
Proof.
  unfold upd. destruct (nth_error l i) as [x |] eqn:E.
  - assert (L : (i < List.length l)%nat) by (apply nth_error_Some; congruence).
    destruct (Nat.eqb_spec j i) as [-> | N].
    + rewrite nth_error_app2; rewrite firstn_length_le by lia; [| lia]. rewrite Nat.sub_diag, E. reflexivity.
    + destruct (Nat.lt_ge_cases j i).
      * rewrite nth_error_app1 by (rewrite firstn_length_le; lia).
        rewrite <- (firstn_skipn i l) at 2. rewrite nth_error_app1 by (rewrite firstn_length_le; lia). reflexivity.
      * rewrite nth_error_app2; rewrite firstn_length_le by lia; [| lia].
        replace (j - i)%nat with (S (j - S i)) by lia. cbn [nth_error].
        rewrite <- (firstn_skipn (S i) l) at 2. rewrite nth_error_app2; rewrite firstn_length_le by lia; [reflexivity | lia].
  - destruct (Nat.eqb_spec j i) as [-> | N]; [rewrite E; reflexivity | reflexivity].
Qed.
Lemma upd_length {A} (l : list A) i f : List.length (upd l i f) = List.length l.
Proof.
  unfold upd. destruct (nth_error l i) as [x |] eqn:E; [| reflexivity].
  assert (L : (i < List.length l)%nat) by (apply nth_error_Some; congruence).
  rewrite app_length, firstn_length_le by lia. cbn [List.length]. rewrite skipn_length. lia.
Qed.

Lemma has_bit v : has v DISCONNECT = Z.testbit v 5.
Proof.
  unfold has, DISCONNECT. change 0x20 with (2 ^ 5). destruct (Z.testbit v 5) eqn:B.
  - destruct (Z.eqb_spec (v .& 2 ^ 5) 0) as [E |]; [| reflexivity].
    assert (X : Z.testbit (v .& 2 ^ 5) 5 = false) by (rewrite E; apply Z.testbit_0_l). rewrite Z.land_spec, B in X. discriminate X.
  - destruct (Z.eqb_spec (v .& 2 ^ 5) 0) as [E | N]; [reflexivity |]. exfalso. apply N. apply Z.bits_inj'. intros k K. rewrite Z.land_spec, Z.testbit_0_l, Z.pow2_bits_eqb by lia.
    destruct (Z.eqb_spec 5 k) as [<- |]; [rewrite B; reflexivity | apply andb_false_r].
Qed.
Lemma has_disc v : has (DISCONNECT .| v) DISCONNECT = true.
Proof. rewrite has_bit, Z.lor_spec. reflexivity. Qed.
Lemma has_req v : has (REQDISCONNECT .| v) DISCONNECT = has v DISCONNECT.
Proof. rewrite !has_bit, Z.lor_spec. reflexivity. Qed.
Lemma has_act v : has (ACTIVE .| v) DISCONNECT = has v DISCONNECT.
Proof. rewrite !has_bit, Z.lor_spec. reflexivity. Qed.
Lemma lor_nz a v : a <> 0 -> a .| v <> 0.
Proof. intros N E. apply Z.lor_eq_0_iff in E. tauto. Qed.
Lemma has_nz v : has v DISCONNECT = true -> v <> 0.
Proof. intros H ->. discriminate H. Qed.

(** ** Ownership *)
Definition semof (p : cpc) : option nat :=
  match p with COpen g | CScan g _ | CWait g _ | CRecheck g _ | CSkip g _ | CNull g _ _ | CSet g _ | CEndR g _ | CEndW g _ | CPost g _ => Some g | _ => None end.
Definition incrit (p : cpc) : bool :=
  match p with CRecheck _ _ | CSkip _ _ | CNull _ _ _ | CSet _ _ | CEndR _ _ | CEndW _ _ | CPost _ _ => true | _ => false end.
Definition seen (p : cpc) : option nat := match p with CWait _ i | CRecheck _ i => Some i | _ => None end.
Definition claims (p : cpc) : option nat := match p with CNull _ i _ | CSet _ i => Some i | _ => None end.
Definition rest (p : cpc) : list wr := match p with CNull _ _ w => w | _ => [] end.
Definition holds (p : cpc) : option nat :=
  match p with CEndR _ i | CEndW _ i | CPost _ i | COwn i | CByeR i _ | CByeW i _ _ => Some i | _ => None end.
Definition at_id (m : mpc) : option nat :=
  match m with
  | MPid i _ _ | MRun i _ _ _ | MDisc i _ _ | MAct i _ _ | MChk i _ _ _ | MLow i _ _ _ _ | MAdd i _ _ _ | MSet i _ _ _ | MInv i _ | MReq i | MReqW i _ => Some i
  | _ => None end.
Definition freeing (m : mpc) : option nat :=
  match m with
  | MDisc i _ _ | MInv i _ => Some i
  | MAct i _ v | MChk i _ v _ | MLow i _ v _ _ | MAdd i _ v _ | MSet i _ v _ | MReqW i v => if has v DISCONNECT then Some i else None
  | _ => None end.
Definition early (m : mpc) : option Z := match m with MPid _ _ v | MRun _ _ v _ => Some v | _ => None end.
Definition locks (m : mpc) : bool := match m with MShrinkR _ _ | MShrinkW _ | MPost => true | _ => false end.
Definition marks (p : cpc) : bool := match p with CByeR _ b => b | CByeW _ b _ => b | CMarked _ => true | _ => false end.
Definition pidof (s : sys) i : Z := match nth_error (slots s) i with Some x => spid x | None => 0 end.
Definition cl (s : sys) h : option client := nth_error (clients s) h.
Definition holder (s : sys) h c i : Prop := cl s h = Some c /\ dead c = false /\ holds (at_pc c) = Some i.

Record inv (s : sys) : Prop := {
  i_gen : gen s = 0%nat;
  i_flags : forall h c, cl s h = Some c -> has (cflags c) DISCONNECT = false;
  i_mark : forall h c, cl s h = Some c -> marks (at_pc c) = false;
  i_g : forall h c g, cl s h = Some c -> semof (at_pc c) = Some g -> g = 0%nat;
  i_sem : forall h c, cl s h = Some c -> incrit (at_pc c) = true -> sems s 0 = Some (Some h);
  i_seen : forall h c i, cl s h = Some c -> seen (at_pc c) = Some i -> (i < List.length (slots s))%nat;
  i_claim : forall h c i, cl s h = Some c -> claims (at_pc c) = Some i -> (i < List.length (slots s))%nat /\ status s i = 0 /\ (In WPid (rest (at_pc c)) \/ pidof s i = cpid c);
  i_own : forall h c i, holder s h c i -> (i < List.length (slots s))%nat /\ status s i <> 0 /\ has (status s i) DISCONNECT = false /\ pidof s i = cpid c;
  i_one : forall h1 c1 h2 c2 i, holder s h1 c1 i -> holder s h2 c2 i -> h1 = h2;
  i_mid : forall i, at_id (at_m s) = Some i -> status s i <> 0;
  i_free : forall i h c, freeing (at_m s) = Some i -> ~ holder s h c i;
  i_run : forall i rc v p h c, at_m s = MRun i rc v p -> holder s h c i -> cpid c = p;
  i_v : forall v, early (at_m s) = Some v -> has v DISCONNECT = false;
  i_msem : locks (at_m s) = true -> sems s 0 = Some None }.

Lemma fresh_inv n cs : flags_ok cs -> inv (fresh n cs).
Proof.
  intros F. assert (P : forall h c, cl (fresh n cs) h = Some c -> at_pc c = CIdle /\ has (cflags c) DISCONNECT = false).
  { intros h c E. unfold cl, fresh in E. cbn [clients] in E. apply nth_error_In, in_map_iff in E as (x & <- & I). split; [reflexivity |]. unfold flags_ok in F. rewrite Forall_forall in F. exact (F x I). }
  constructor; try reflexivity; try (intros; discriminate); intros.
  - apply (P _ _ H).
  - destruct (P _ _ H) as (-> & _). reflexivity.
  - destruct (P _ _ H) as (E & _). rewrite E in H0. discriminate H0.
  - destruct (P _ _ H) as (E & _). rewrite E in H0. discriminate H0.
  - destruct (P _ _ H) as (E & _). rewrite E in H0. discriminate H0.
  - destruct (P _ _ H) as (E & _). rewrite E in H0. discriminate H0.
  - destruct H as (H & _ & X). destruct (P _ _ H) as (E & _). rewrite E in X. discriminate X.
  - destruct H as (H & _ & X). destruct (P _ _ H) as (E & _). rewrite E in X. discriminate X.
Qed.

(** Changing slots, clients, semaphores. *)
Lemma status_slot s i f j : status (with_slot s i f) j = if (j =? i)%nat then match nth_error (slots s) j with Some x => st (f x) | None => 0 end else status s j.
Proof. unfold status, with_slot. cbn [slots]. rewrite upd_nth. destruct (j =? i)%nat; [| reflexivity]. destruct (nth_error (slots s) j); reflexivity. Qed.
Lemma pidof_slot s i f j : pidof (with_slot s i f) j = if (j =? i)%nat then match nth_error (slots s) j with Some x => spid (f x) | None => 0 end else pidof s j.
Proof. unfold pidof, with_slot. cbn [slots]. rewrite upd_nth. destruct (j =? i)%nat; [| reflexivity]. destruct (nth_error (slots s) j); reflexivity. Qed.
Lemma cl_client s h f k : cl (with_client s h f) k = if (k =? h)%nat then option_map f (cl s k) else cl s k.
Proof. unfold cl, with_client. cbn [clients]. apply upd_nth. Qed.
Lemma status_set s i v j : (i < List.length (slots s))%nat -> status (with_slot s i (fun x => set_st x v)) j = if (j =? i)%nat then v else status s j.
Proof. intros L. rewrite status_slot. destruct (Nat.eqb_spec j i) as [-> |]; [| reflexivity]. destruct (nth_error (slots s) i) eqn:E; [reflexivity | apply nth_error_None in E; lia]. Qed.
Lemma status_in s i : status s i <> 0 -> (i < List.length (slots s))%nat.
Proof. unfold status. intros H. apply nth_error_Some. destruct (nth_error (slots s) i); congruence. Qed.

(** Writes that leave status and pid of all slots as they are, and all clients. *)
Definition alike (s t : sys) : Prop :=
  gen t = gen s /\ sems t 0 = sems s 0 /\ clients t = clients s /\ List.length (slots t) = List.length (slots s) /\
  (forall i, status t i = status s i) /\ (forall i, pidof t i = pidof s i).
(** A client moves; the slots keep status and pid. *)
Lemma live_same s h c p k d i : cl s h = Some c -> holder (go s h p) k d i -> k <> h /\ holder s k d i \/ k = h /\ d = set_pc c p /\ dead c = false /\ holds p = Some i.
Proof.
  intros E (A & B & D). unfold go in A. rewrite cl_client in A. destruct (Nat.eqb_spec k h) as [-> | N].
  - right. rewrite E in A. injection A as <-. repeat split; assumption.
  - left. split; [exact N |]. repeat split; assumption.
Qed.
Lemma cl_go s h c p k d : cl s h = Some c -> cl (go s h p) k = Some d -> k <> h /\ cl s k = Some d \/ k = h /\ d = set_pc c p.
Proof.
  intros E A. unfold go in A. rewrite cl_client in A. destruct (Nat.eqb_spec k h) as [-> | N]; [right; rewrite E in A; injection A as <-; split; reflexivity | left; split; assumption].
Qed.
Record moves (s s1 : sys) (h : nat) (c : client) (p : cpc) : Prop := {
  m_gen : gen s1 = gen s; m_cl : clients s1 = clients s; m_m : at_m s1 = at_m s; m_len : List.length (slots s1) = List.length (slots s);
  m_mark : marks p = false; m_g : forall g, semof p = Some g -> g = 0%nat;
  m_sem : incrit p = true -> sems s1 0 = Some (Some h);
  m_sems : forall k d, k <> h -> cl s k = Some d -> incrit (at_pc d) = true -> sems s1 0 = Some (Some k);
  m_msem : locks (at_m s) = true -> sems s1 0 = Some None;
  m_seen : forall i, seen p = Some i -> (i < List.length (slots s))%nat;
  m_claim : forall i, claims p = Some i -> (i < List.length (slots s))%nat /\ status s1 i = 0 /\ (In WPid (rest p) \/ pidof s1 i = cpid c);
  m_claims : forall k d i, k <> h -> cl s k = Some d -> claims (at_pc d) = Some i -> status s1 i = 0 /\ pidof s1 i = pidof s i;
  m_own : forall i, holds p = Some i -> (i < List.length (slots s))%nat /\ status s1 i <> 0 /\ has (status s1 i) DISCONNECT = false /\ pidof s1 i = cpid c;
  m_owns : forall k d i, k <> h -> holder s k d i -> status s1 i <> 0 /\ has (status s1 i) DISCONNECT = false /\ pidof s1 i = pidof s i;
  m_one : forall k d i, k <> h -> holder s k d i -> holds p = Some i -> False;
  m_mid : forall i, at_id (at_m s) = Some i -> status s1 i <> 0;
  m_free : forall i, freeing (at_m s) = Some i -> holds p = Some i -> False;
  m_run : forall i rc v q, at_m s = MRun i rc v q -> holds p = Some i -> cpid c = q }.
Lemma moved s s1 h c p : inv s -> cl s h = Some c -> dead c = false -> moves s s1 h c p -> inv (go s1 h p).
Proof.
  intros I E Dd [Gen Cl Mm Len Mk G Sem Sems Msem Seen Claim Claims Own Owns One Mid Free Run].
  assert (E1 : cl s1 h = Some c) by (unfold cl in *; congruence).
  assert (K : forall k d, cl s1 k = Some d -> cl s k = Some d) by (unfold cl in *; intros; congruence).
  assert (KH : forall k d i, holder s1 k d i -> holder s k d i) by (unfold holder; intros k d i (A & B & D); repeat split; auto).
  assert (Sta : forall i, status (go s1 h p) i = status s1 i) by reflexivity.
  assert (Pida : forall i, pidof (go s1 h p) i = pidof s1 i) by reflexivity.
  constructor.
  - cbn. rewrite Gen. apply (i_gen _ I).
  - intros k d A. apply (cl_go _ _ _ _ _ _ E1) in A as [(N & A) | (-> & ->)]; [exact (i_flags _ I _ _ (K _ _ A)) | exact (i_flags _ I _ _ E)].
  - intros k d A. apply (cl_go _ _ _ _ _ _ E1) in A as [(N & A) | (-> & ->)]; [exact (i_mark _ I _ _ (K _ _ A)) | exact Mk].
  - intros k d g A B. apply (cl_go _ _ _ _ _ _ E1) in A as [(N & A) | (-> & ->)]; [exact (i_g _ I _ _ _ (K _ _ A) B) | exact (G _ B)].
  - intros k d A B. change (sems (go s1 h p) 0) with (sems s1 0). apply (cl_go _ _ _ _ _ _ E1) in A as [(N & A) | (-> & ->)]; [exact (Sems _ _ N (K _ _ A) B) | exact (Sem B)].
  - intros k d i A B. change (slots (go s1 h p)) with (slots s1). rewrite Len. apply (cl_go _ _ _ _ _ _ E1) in A as [(N & A) | (-> & ->)]; [exact (i_seen _ I _ _ _ (K _ _ A) B) | exact (Seen _ B)].
  - intros k d i A B. change (slots (go s1 h p)) with (slots s1). rewrite Len, Sta, Pida. apply (cl_go _ _ _ _ _ _ E1) in A as [(N & A) | (-> & ->)]; [| exact (Claim _ B)].
    destruct (i_claim _ I _ _ _ (K _ _ A) B) as (X & Y & Z0). destruct (Claims _ _ _ N (K _ _ A) B) as (U & V). rewrite V. auto.
  - intros k d i A. change (slots (go s1 h p)) with (slots s1). rewrite Len, Sta, Pida. apply (live_same _ _ _ _ _ _ _ E1) in A as [(N & A) | (-> & -> & _ & B)]; [| exact (Own _ B)].
    destruct (i_own _ I _ _ _ (KH _ _ _ A)) as (X & Y & Z0 & W). destruct (Owns _ _ _ N (KH _ _ _ A)) as (U & V & T). rewrite T. auto.
  - intros k1 d1 k2 d2 i A1 A2. apply (live_same _ _ _ _ _ _ _ E1) in A1 as [(N1 & A1) | (-> & -> & _ & B1)]; apply (live_same _ _ _ _ _ _ _ E1) in A2 as [(N2 & A2) | (-> & -> & _ & B2)].
    + exact (i_one _ I _ _ _ _ _ (KH _ _ _ A1) (KH _ _ _ A2)).
    + exfalso. exact (One _ _ _ N1 (KH _ _ _ A1) B2).
    + exfalso. exact (One _ _ _ N2 (KH _ _ _ A2) B1).
    + reflexivity.
  - intros i A. rewrite Sta. cbn in A. rewrite Mm in A. exact (Mid _ A).
  - intros i k d A B. cbn in A. rewrite Mm in A. apply (live_same _ _ _ _ _ _ _ E1) in B as [(N & B) | (-> & -> & _ & B)]; [exact (i_free _ I _ _ _ A (KH _ _ _ B)) | exact (Free _ A B)].
  - intros i rc v q k d A B. cbn in A. rewrite Mm in A. apply (live_same _ _ _ _ _ _ _ E1) in B as [(N & B) | (-> & -> & _ & B)]; [exact (i_run _ I _ _ _ _ _ _ A (KH _ _ _ B)) | exact (Run _ _ _ _ A B)].
  - cbn [go with_client at_m]. rewrite Mm. exact (i_v _ I).
  - cbn [go with_client at_m]. rewrite Mm. exact Msem.
Qed.

Local Opaque Z.lor.
Lemma client_inv s h c t : inv s -> cl s h = Some c -> dead c = false -> client_step s h c = Some t -> inv t.
Proof.
  intros I E Dd S. pose proof (i_sem _ I _ _ E) as Hs. pose proof (fun g => i_g _ I _ _ g E) as Hg. pose proof (i_mark _ I _ _ E) as Hm.
  assert (Alone : incrit (at_pc c) = true -> forall k d, k <> h -> cl s k = Some d -> incrit (at_pc d) = true -> False).
  { intros X k d N A B. specialize (Hs X). rewrite (i_sem _ I _ _ A B) in Hs. congruence. }
  assert (Alone2 : incrit (at_pc c) = true -> forall k d i, k <> h -> cl s k = Some d -> claims (at_pc d) = Some i -> False).
  { intros X k d i N A B. apply (Alone X k d N A). destruct (at_pc d); cbn in B |- *; congruence. }
  pose proof (i_own _ I) as Ow. pose proof (i_claim _ I) as Cm. pose proof (i_mid _ I) as Md. pose proof (i_one _ I) as On. pose proof (i_free _ I) as Fr. pose proof (i_run _ I) as Rn.
  assert (Oth : forall k d i, k <> h -> holder s k d i -> status s i <> 0 /\ has (status s i) DISCONNECT = false /\ pidof s i = pidof s i) by (intros k d i N H; destruct (Ow _ _ _ H) as (? & ? & ? & ?); auto).
  assert (OthC : forall k d i, k <> h -> cl s k = Some d -> claims (at_pc d) = Some i -> status s i = 0 /\ pidof s i = pidof s i) by (intros k d i N H B; destruct (Cm _ _ _ H B) as (? & ? & ?); auto).
  pose proof (fun k d (_ : k <> h) => i_sem _ I k d) as Ss.
  assert (Hold : forall i, holds (at_pc c) = Some i -> holder s h c i) by (intros i X; repeat split; assumption).
  assert (O1 : forall k d i, k <> h -> holder s k d i -> holds (at_pc c) = Some i -> False) by (intros k d i N H X; apply N; exact (On _ _ _ _ _ H (Hold _ X))).
  assert (O2 : forall i, freeing (at_m s) = Some i -> holds (at_pc c) = Some i -> False) by (intros i F X; exact (Fr _ _ _ F (Hold _ X))).
  assert (O3 : forall i rc v q, at_m s = MRun i rc v q -> holds (at_pc c) = Some i -> cpid c = q) by (intros i rc v q A X; exact (Rn _ _ _ _ _ _ A (Hold _ X))).
  assert (O4 : forall i, holds (at_pc c) = Some i -> (i < List.length (slots s))%nat /\ status s i <> 0 /\ has (status s i) DISCONNECT = false /\ pidof s i = cpid c) by (intros i X; exact (Ow _ _ _ (Hold _ X))).
  assert (O5 : forall i, claims (at_pc c) = Some i -> (i < List.length (slots s))%nat /\ status s i = 0 /\ (In WPid (rest (at_pc c)) \/ pidof s i = cpid c)) by (intros i X; exact (Cm _ _ _ E X)).
  assert (O6 : forall i, seen (at_pc c) = Some i -> (i < List.length (slots s))%nat) by (intros i X; exact (i_seen _ I _ _ _ E X)).
  pose proof (i_msem _ I) as Hms.
  unfold client_step in S.
  destruct (at_pc c) as [| g | g i | g i | g i | g i | g i w | g i | g i | g i | g i | i | i b | i b v | i |] eqn:P; try discriminate S;
   cbn [semof incrit seen claims rest holds marks] in Hs, Hg, Hm, Alone, Alone2, O1, O2, O3, O4, O5, O6.
  Ltac mv := first [reflexivity | assumption | discriminate | (intros; discriminate) | (intros; congruence) | auto].
  Ltac st := eapply moved; [eassumption | eassumption | eassumption |]; constructor; cbn [semof incrit seen claims rest holds marks]; try solve [mv].
  - injection S as <-. st. intros g X. injection X as <-. apply (i_gen _ I).
  - injection S as <-. st.
  - destruct (i <? List.length (slots s))%nat eqn:L; [| injection S as <-; st]. apply Nat.ltb_lt in L.
    destruct (status s i =? INVALID); injection S as <-; st.
  - specialize (Hg _ eq_refl) as ->. destruct (sems s 0) as [o |] eqn:Sm; [discriminate S |]. injection S as <-. st.
    + intros k d N A B. discriminate (Ss _ _ N A B).
    + intros X. discriminate (Hms X).
  - destruct (Z.eqb_spec (status s i) INVALID) as [Z0 | Z0]; injection S as <-; st. intros j X. injection X as <-. split; [apply O6; reflexivity |]. split; [exact Z0 |]. left. left. reflexivity.
  - specialize (Hg _ eq_refl) as ->. injection S as <-. st. + intros k d N A B. exfalso. exact (Alone eq_refl _ _ N A B). + intros X. rewrite (Hms X) in Hs. discriminate (Hs eq_refl).
  - destruct w as [| w r]; injection S as <-.
    + st.
    + assert (Sa : forall j, status (with_slot s i (fun x => write x (cpid c) w)) j = status s j).
      { intros j. rewrite status_slot. destruct (Nat.eqb_spec j i) as [-> |]; [| reflexivity]. unfold status. destruct (nth_error (slots s) i) as [x |]; [destruct w; reflexivity | reflexivity]. }
      assert (Pa : forall j, j <> i \/ w <> WPid -> pidof (with_slot s i (fun x => write x (cpid c) w)) j = pidof s j).
      { intros j X. rewrite pidof_slot. destruct (Nat.eqb_spec j i) as [-> |]; [| reflexivity]. unfold pidof. destruct X; [congruence |]. destruct (nth_error (slots s) i) as [x |]; [destruct w; congruence || reflexivity | reflexivity]. }
      destruct (O5 _ eq_refl) as (L & Z0 & W).
      st; intros; rewrite ?Sa.
      * cbn. apply upd_length.
      * injection H as <-. split; [exact L |]. split; [exact Z0 |]. destruct w as [| f |].
        -- right. rewrite pidof_slot, Nat.eqb_refl. destruct (nth_error (slots s) i) as [x |] eqn:En; [reflexivity | apply nth_error_None in En; lia].
        -- destruct W as [[X | X] | X]; [discriminate X | left; exact X | right; rewrite Pa by (right; discriminate); exact X].
        -- destruct W as [[X | X] | X]; [discriminate X | left; exact X | right; rewrite Pa by (right; discriminate); exact X].
      * exfalso. eapply Alone2; eauto.
      * destruct (Ow _ _ _ H0) as (? & U & V & W0). rewrite Pa; [auto |]. left. intros ->. congruence.
      * auto.
  - destruct (O5 _ eq_refl) as (L & Z0 & [[] | W]). injection S as <-.
    assert (Nz : ACTIVE .| cflags c <> 0) by (apply lor_nz; discriminate).
    assert (Pa : forall v j, pidof (with_slot s i (fun x => set_st x v)) j = pidof s j).
    { intros v j. rewrite pidof_slot. destruct (Nat.eqb_spec j i) as [-> |]; [| reflexivity]. unfold pidof. destruct (nth_error (slots s) i) as [x |]; reflexivity. }
    assert (Nh : forall k d, ~ holder s k d i) by (intros k d H; destruct (Ow _ _ _ H) as (_ & U & _); congruence).
    st; intros; rewrite ?Pa, ?(status_set s i _ _ L).
    + cbn. apply upd_length.
    + exfalso. eapply Alone2; eauto.
    + injection H as <-. rewrite ?Pa, ?(status_set s i _ _ L), ?Nat.eqb_refl. split; [exact L |]. split; [exact Nz |]. split; [rewrite has_act; exact (i_flags _ I _ _ E) | exact W].
    + destruct (Ow _ _ _ H0) as (? & U & V & W0). destruct (Nat.eqb_spec i0 i) as [-> |]; [congruence | auto].
    + injection H1 as <-. exact (Nh _ _ H0).
    + specialize (Md _ H). destruct (Nat.eqb_spec i0 i) as [-> |]; [congruence | auto].
    + injection H0 as <-. specialize (Md i). assert (X : at_id (at_m s) = Some i) by (destruct (at_m s); cbn in H |- *; try destruct (has _ _); congruence). exact (Md X Z0).
    + injection H0 as <-. specialize (Md i). rewrite H in Md. exfalso. exact (Md eq_refl Z0).
  - injection S as <-. destruct (endp s <=? i)%nat; st.
  - injection S as <-. st.
  - specialize (Hg _ eq_refl) as ->. injection S as <-. st. + intros k d N A B. exfalso. exact (Alone eq_refl _ _ N A B). + intros X. rewrite (Hms X) in Hs. discriminate (Hs eq_refl).
  - injection S as <-. st.
  - subst b. destruct (O4 _ eq_refl) as (L & Sn & Nd & Pd). injection S as <-.
    assert (Pa : forall v j, pidof (with_slot s i (fun x => set_st x v)) j = pidof s j).
    { intros v' j. rewrite pidof_slot. destruct (Nat.eqb_spec j i) as [-> |]; [| reflexivity]. unfold pidof. destruct (nth_error (slots s) i) as [x |]; reflexivity. }
    assert (Nz : DISCONNECT .| v <> 0) by (apply lor_nz; discriminate).
    st; intros; rewrite ?Pa, ?status_set by exact L.
    + cbn. apply upd_length.
    + destruct (Cm _ _ _ H0 H1) as (? & U & V). destruct (Nat.eqb_spec i0 i) as [-> |]; [congruence | auto].
    + destruct (Ow _ _ _ H0) as (? & U & V & W0). destruct (Nat.eqb_spec i0 i) as [-> |]; [exfalso; exact (O1 _ _ _ H H0 eq_refl) | auto].
    + specialize (Md _ H). destruct (Nat.eqb_spec i0 i) as [-> |]; auto.
  - discriminate Hm.
Qed.

(** The polling process moves; clients stay, slots may change status. *)
Record mmoves (s s1 : sys) (m : mpc) : Prop := {
  n_gen : gen s1 = gen s; n_cl : clients s1 = clients s; n_len : List.length (slots s1) = List.length (slots s); n_pid : forall i, pidof s1 i = pidof s i;
  n_sems : forall k d, cl s k = Some d -> incrit (at_pc d) = true -> sems s1 0 = Some (Some k);
  n_claims : forall k d i, cl s k = Some d -> claims (at_pc d) = Some i -> status s1 i = 0;
  n_owns : forall k d i, holder s k d i -> status s1 i <> 0 /\ has (status s1 i) DISCONNECT = false;
  n_mid : forall i, at_id m = Some i -> status s1 i <> 0;
  n_free : forall i k d, freeing m = Some i -> ~ holder s k d i;
  n_run : forall i rc v q k d, m = MRun i rc v q -> holder s k d i -> cpid d = q;
  n_v : forall v, early m = Some v -> has v DISCONNECT = false;
  n_msem : locks m = true -> sems s1 0 = Some None }.
Lemma mmoved s s1 m : inv s -> mmoves s s1 m -> inv (with_m s1 m).
Proof.
  intros I [Gen Cl Len Pid Sems Claims Owns Mid Free Run V Ms].
  assert (K : forall k, cl (with_m s1 m) k = cl s k) by (intros k; unfold cl; cbn; rewrite Cl; reflexivity).
  assert (KH : forall k d i, holder (with_m s1 m) k d i -> holder s k d i) by (intros k d i (A & B & D); rewrite K in A; repeat split; assumption).
  assert (Sta : forall i, status (with_m s1 m) i = status s1 i) by reflexivity.
  assert (Pida : forall i, pidof (with_m s1 m) i = pidof s i) by exact Pid.
  constructor.
  - cbn. rewrite Gen. apply (i_gen _ I).
  - intros k d A. rewrite K in A. exact (i_flags _ I _ _ A).
  - intros k d A. rewrite K in A. exact (i_mark _ I _ _ A).
  - intros k d g A B. rewrite K in A. exact (i_g _ I _ _ _ A B).
  - intros k d A B. rewrite K in A. exact (Sems _ _ A B).
  - intros k d i A B. rewrite K in A. cbn [with_m slots]. rewrite Len. exact (i_seen _ I _ _ _ A B).
  - intros k d i A B. rewrite K in A. cbn [with_m slots]. rewrite Len, Sta, Pida. destruct (i_claim _ I _ _ _ A B) as (X & Y & W). rewrite (Claims _ _ _ A B). auto.
  - intros k d i A. apply KH in A. cbn [with_m slots]. rewrite Len, Sta, Pida. destruct (i_own _ I _ _ _ A) as (X & Y & Z0 & W). destruct (Owns _ _ _ A). auto.
  - intros k1 d1 k2 d2 i A1 A2. exact (i_one _ I _ _ _ _ _ (KH _ _ _ A1) (KH _ _ _ A2)).
  - intros i A. rewrite Sta. exact (Mid _ A).
  - intros i k d A B. exact (Free _ _ _ A (KH _ _ _ B)).
  - intros i rc v q k d A B. exact (Run _ _ _ _ _ _ A (KH _ _ _ B)).
  - exact V.
  - exact Ms.
Qed.
Lemma nobody s p i : inv s -> existsb (fun c => active c && (cpid c =? p)) (clients s) = false -> (forall k d, holder s k d i -> cpid d = p) -> forall k d, ~ holder s k d i.
Proof.
  intros I X R k d H. specialize (R _ _ H). destruct H as (A & B & D). assert (Y : existsb (fun c => active c && (cpid c =? p)) (clients s) = true); [| congruence].
  apply existsb_exists. exists d. split; [eapply nth_error_In; exact A |]. rewrite R, Z.eqb_refl. unfold active. rewrite B. destruct (at_pc d); cbn in D |- *; congruence.
Qed.
Lemma pid_set s i v j : pidof (with_slot s i (fun x => set_st x v)) j = pidof s j.
Proof. rewrite pidof_slot. destruct (Nat.eqb_spec j i) as [-> |]; [| reflexivity]. unfold pidof. destruct (nth_error (slots s) i) as [x |]; reflexivity. Qed.
Lemma after_inv s i rc v : inv s -> status s i <> 0 -> (has v DISCONNECT = true -> forall k d, ~ holder s k d i) -> inv (after s i rc v).
Proof.
  intros I Z0 Nh. pose proof (fun k d i h => proj2 (i_own s I k d i h)) as Ow. unfold after. destruct (has v DISCONNECT).
  - eapply mmoved; [exact I |]. constructor; try reflexivity; try discriminate.
    + apply (i_sem _ I).
    + intros k d j A B. exact (proj1 (proj2 (i_claim _ I _ _ _ A B))).
    + intros k d j A. destruct (Ow _ _ _ A) as (X & Y & _). split; assumption.
    + intros j X. injection X as <-. exact Z0.
    + intros j k d X. injection X as <-. auto.
  - eapply mmoved; [exact I |]. constructor; try reflexivity; try discriminate.
    + apply (i_sem _ I).
    + intros k d j A B. exact (proj1 (proj2 (i_claim _ I _ _ _ A B))).
    + intros k d j A. destruct (Ow _ _ _ A) as (X & Y & _). split; assumption.
Qed.
Lemma master_inv input s b t : inv s -> master_step input s b = Some t -> inv t.
Proof.
  intros I S. unfold master_step in S.
  assert (Ow : forall k d i, holder s k d i -> status s i <> 0 /\ has (status s i) DISCONNECT = false) by (intros k d i H; destruct (i_own _ I _ _ _ H) as (_ & ? & ? & _); auto).
  assert (Cm : forall k d i, cl s k = Some d -> claims (at_pc d) = Some i -> status s i = 0) by (intros k d i H B; destruct (i_claim _ I _ _ _ H B) as (_ & ? & _); auto).
  pose proof (i_sem _ I) as Ss. pose proof (i_mid _ I) as Md. pose proof (i_free _ I) as Fr. pose proof (i_run _ I) as Rn. pose proof (i_v _ I) as Vv. pose proof (i_msem _ I) as Hms.
  destruct (at_m s) as [| i rc mr | i rc v | i rc v p | i rc v | i rc v | i rc v fs | i rc v f fs | i rc v fs | i rc v fs | i rc | n rc | n rc | n | | i | i v] eqn:M; try discriminate S;
    cbn [at_id freeing early locks] in Md, Fr, Vv, Hms.
  Ltac ms := eapply mmoved; [eassumption |]; constructor; cbn [at_id freeing early locks]; try solve [first [reflexivity | assumption | discriminate | (intros; discriminate) | (intros; congruence) | auto]].
  - destruct (i <? rc)%nat; [| destruct (mr + 1 <? rc)%nat; injection S as <-; ms]. destruct (Z.eqb_spec (status s i) INVALID) as [Z0 | Z0]; [injection S as <-; ms |]. change INVALID with 0 in Z0.
    destruct (has (status s i) DISCONNECT) eqn:D; injection S as <-; ms.
    intros j k d X H. rewrite D in X. injection X as <-. destruct (Ow _ _ _ H). congruence.
  - injection S as <-. change (match nth_error (slots s) i with Some x => spid x | None => 0 end) with (pidof s i). destruct (pidof s i =? 0); ms.
    + intros j k d X. rewrite (Vv _ eq_refl) in X. discriminate X.
    + intros j rc' v' q k d X H. injection X as <- <- <- <-. destruct (i_own _ I _ _ _ H) as (_ & _ & _ & <-). reflexivity.
  - destruct b; [injection S as <-; ms |].
    + intros j k d X. rewrite (Vv _ eq_refl) in X. discriminate X.
    + destruct (existsb _ (clients s)) eqn:X; [discriminate S |]. injection S as <-. ms. intros j k d Y. injection Y as <-. eapply nobody; [exact I | exact X |]. intros k' d'. exact (Rn _ _ _ _ _ _ eq_refl).
  - pose proof (Md _ eq_refl) as Mi. pose proof (status_in _ _ Mi) as L. pose proof (lor_nz DISCONNECT v ltac:(discriminate)) as Nz.
    injection S as <-. ms; intros; rewrite ?(status_set s i _ _ L).
    + apply upd_length.
    + apply pid_set.
    + specialize (Cm _ _ _ H H0). destruct (Nat.eqb_spec i0 i) as [-> |]; congruence.
    + destruct (Nat.eqb_spec i0 i) as [-> |]; [exfalso; exact (Fr _ _ _ eq_refl H) | exact (Ow _ _ _ H)].
    + injection H as <-. rewrite Nat.eqb_refl. exact Nz.
    + destruct (has v DISCONNECT); [| discriminate H]. injection H as <-. exact (Fr _ _ _ eq_refl).
  - pose proof (Md _ eq_refl) as Mi. assert (Nh : has v DISCONNECT = true -> forall k d, ~ holder s k d i) by (intros X k d; apply Fr; rewrite X; reflexivity).
    destruct (_ && _); injection S as <-; [exact (after_inv _ _ rc _ I Mi Nh) | ms].
  - destruct fs as [| f fs]; injection S as <-; [ms |]. destruct (counter s i f <? conn s i f); ms.
  - injection S as <-. ms.
  - destruct fs as [| f fs]; injection S as <-; ms.
  - pose proof (Md _ eq_refl) as Mi. assert (Nh : has v DISCONNECT = true -> forall k d, ~ holder s k d i) by (intros X k d; apply Fr; rewrite X; reflexivity).
    destruct fs as [| f fs]; injection S as <-; [exact (after_inv _ _ rc _ I Mi Nh) | ms].
  - pose proof (Md _ eq_refl) as Mi. pose proof (status_in _ _ Mi) as L. injection S as <-. ms; intros; rewrite ?(status_set s i _ _ L).
    + apply upd_length.
    + apply pid_set.
    + specialize (Cm _ _ _ H H0). destruct (Nat.eqb_spec i0 i) as [-> |]; [reflexivity | exact Cm].
    + destruct (Nat.eqb_spec i0 i) as [-> |]; [exfalso; exact (Fr _ _ _ eq_refl H) | exact (Ow _ _ _ H)].
  - rewrite (i_gen _ I) in S. destruct (sems s 0) as [o |] eqn:Sm; [discriminate S |]. injection S as <-. ms. intros k d A B. discriminate (Ss _ _ A B).
  - injection S as <-. destruct (endp s <=? rc)%nat; ms.
  - injection S as <-. ms.
  - rewrite (i_gen _ I) in S. injection S as <-. ms. intros k d A B. rewrite (Ss _ _ A B) in Hms. discriminate (Hms eq_refl).
  - injection S as <-. ms. intros j k d X H. destruct (has (status s i) DISCONNECT) eqn:D; [| discriminate X]. injection X as <-. destruct (Ow _ _ _ H). congruence.
  - pose proof (Md _ eq_refl) as Mi. pose proof (status_in _ _ Mi) as L. pose proof (lor_nz REQDISCONNECT v ltac:(discriminate)) as Nz. injection S as <-. ms; intros; rewrite ?(status_set s i _ _ L).
    + apply upd_length.
    + apply pid_set.
    + specialize (Cm _ _ _ H H0). destruct (Nat.eqb_spec i0 i) as [-> |]; congruence.
    + destruct (Nat.eqb_spec i0 i) as [-> |]; [| exact (Ow _ _ _ H)]. split; [exact Nz |]. rewrite has_req. destruct (has v DISCONNECT); [exfalso; exact (Fr _ _ _ eq_refl H) | reflexivity].
Qed.

Lemma with_m_same s : with_m s (at_m s) = s.
Proof. destruct s; reflexivity. Qed.
(** Only what clients have counted changes, or clients die. *)
Lemma like_inv s t : inv s -> gen t = gen s -> sems t 0 = sems s 0 -> at_m t = at_m s -> List.length (slots t) = List.length (slots s) ->
  (forall i, status t i = status s i) -> (forall i, pidof t i = pidof s i) ->
  (forall k d, cl t k = Some d -> exists d0, cl s k = Some d0 /\ at_pc d = at_pc d0 /\ cflags d = cflags d0 /\ cpid d = cpid d0 /\ (dead d = false -> dead d0 = false)) -> inv t.
Proof.
  intros I Gen Sm Mm Len St Pid C.
  assert (KH : forall k d i, holder t k d i -> exists d0, holder s k d0 i /\ cpid d = cpid d0).
  { intros k d i (A & B & D). destruct (C _ _ A) as (d0 & A0 & P0 & F0 & I0 & D0). exists d0. split; [| exact I0]. repeat split; [exact A0 | auto | congruence]. }
  constructor.
  - rewrite Gen. apply (i_gen _ I).
  - intros k d A. destruct (C _ _ A) as (d0 & A0 & P0 & -> & I0 & D0). exact (i_flags _ I _ _ A0).
  - intros k d A. destruct (C _ _ A) as (d0 & A0 & -> & F0 & I0 & D0). exact (i_mark _ I _ _ A0).
  - intros k d g A. destruct (C _ _ A) as (d0 & A0 & -> & F0 & I0 & D0). exact (i_g _ I _ _ _ A0).
  - intros k d A. destruct (C _ _ A) as (d0 & A0 & -> & F0 & I0 & D0). rewrite Sm. exact (i_sem _ I _ _ A0).
  - intros k d i A. destruct (C _ _ A) as (d0 & A0 & -> & F0 & I0 & D0). rewrite Len. exact (i_seen _ I _ _ _ A0).
  - intros k d i A. destruct (C _ _ A) as (d0 & A0 & -> & F0 & -> & D0). rewrite Len, St, Pid. exact (i_claim _ I _ _ _ A0).
  - intros k d i A. destruct (KH _ _ _ A) as (d0 & A0 & ->). rewrite Len, St, Pid. exact (i_own _ I _ _ _ A0).
  - intros k1 d1 k2 d2 i A1 A2. destruct (KH _ _ _ A1) as (e1 & B1 & _). destruct (KH _ _ _ A2) as (e2 & B2 & _). exact (i_one _ I _ _ _ _ _ B1 B2).
  - intros i. rewrite Mm, St. apply (i_mid _ I).
  - intros i k d A B. rewrite Mm in A. destruct (KH _ _ _ B) as (e & B0 & _). exact (i_free _ I _ _ _ A B0).
  - intros i rc v p k d A B. rewrite Mm in A. destruct (KH _ _ _ B) as (e & B0 & ->). exact (i_run _ I _ _ _ _ _ _ A B0).
  - rewrite Mm. apply (i_v _ I).
  - rewrite Mm, Sm. apply (i_msem _ I).
Qed.
Lemma status_keep s i f j : (forall x, st (f x) = st x) -> status (with_slot s i f) j = status s j.
Proof. intros F. rewrite status_slot. destruct (Nat.eqb_spec j i) as [-> |]; [| reflexivity]. unfold status. destruct (nth_error (slots s) i); [apply F | reflexivity]. Qed.
Lemma pidof_keep s i f j : (forall x, spid (f x) = spid x) -> pidof (with_slot s i f) j = pidof s j.
Proof. intros F. rewrite pidof_slot. destruct (Nat.eqb_spec j i) as [-> |]; [| reflexivity]. unfold pidof. destruct (nth_error (slots s) i); [apply F | reflexivity]. Qed.
Lemma same_client s k d : cl s k = Some d -> exists d0, cl s k = Some d0 /\ at_pc d = at_pc d0 /\ cflags d = cflags d0 /\ cpid d = cpid d0 /\ (dead d = false -> dead d0 = false).
Proof. intros A. exists d. auto. Qed.
Lemma step_inv input s l t : inv s -> plain l -> step input s l = Some t -> inv t.
Proof.
  intros I Pl S. pose proof (i_own _ I) as Ow. pose proof (i_claim _ I) as Cm. pose proof (i_mid _ I) as Md. pose proof (i_one _ I) as On. pose proof (i_free _ I) as Fr. pose proof (i_run _ I) as Rn.
  destruct l as [h | h f v | h n | h v | h | h | h | n | b | i | |]; cbn [step] in S; try contradiction Pl.
  Ltac al S c E Dd := match type of S with context [alive ?s ?h] => unfold alive in S; destruct (nth_error (clients s) h) as [c |] eqn:E; [| discriminate S]; destruct (dead c) eqn:Dd; [discriminate S |] end.
  - al S c E Dd. exact (client_inv _ _ _ _ I E Dd S).
  - al S c E Dd. destruct (at_pc c) as [| | | | | | | | | | | i | | | |] eqn:P; try discriminate S. destruct (_ && _); [| discriminate S]. injection S as <-.
    apply (like_inv s); try reflexivity; try exact I.
    + cbn. apply upd_length.
    + intros j. apply (status_keep s). reflexivity.
    + intros j. apply (pidof_keep s). reflexivity.
    + intros k d A. rewrite cl_client in A. destruct (Nat.eqb_spec k h) as [-> | N]; [| apply same_client; exact A].
      change (cl (with_slot s i (fun x => set_cnt x f v)) h) with (cl s h) in A. unfold cl in *. rewrite E in A. injection A as <-. exists c. auto.
  - al S c E Dd. destruct (at_pc c) as [| | | | | | | | | | | i | | | |] eqn:P; try discriminate S. injection S as <-.
    apply (like_inv s); try reflexivity; try exact I.
    + cbn. apply upd_length.
    + intros j. apply (status_keep s). reflexivity.
    + intros j. apply (pidof_keep s). reflexivity.
    + exact (same_client s).
  - al S c E Dd. destruct (at_pc c) as [| | | | | | | | | | | i | | | |] eqn:P; try discriminate S. destruct (0 <? v) eqn:V1; [| discriminate S]. destruct (v <? 256) eqn:V2; [| discriminate S].
    destruct (has v DISCONNECT) eqn:V3; [discriminate S |]. injection S as <-. apply Z.ltb_lt in V1.
    assert (H : holder s h c i) by (repeat split; [exact E | exact Dd | rewrite P; reflexivity]). destruct (Ow _ _ _ H) as (L & Nz & _ & _).
    rewrite <- (with_m_same (with_slot s i _)). eapply mmoved; [exact I |]. constructor; try reflexivity; cbn [with_slot at_m]; intros; rewrite ?(status_set s i _ _ L).
    + cbn. apply upd_length.
    + apply pid_set.
    + exact (i_sem _ I _ _ H0 H1).
    + destruct (Cm _ _ _ H0 H1) as (_ & Z0 & _). destruct (Nat.eqb_spec i0 i) as [-> |]; [congruence | exact Z0].
    + destruct (Ow _ _ _ H0) as (_ & U & V & _). destruct (Nat.eqb_spec i0 i) as [-> |]; [split; [lia | exact V3] | split; assumption].
    + specialize (Md _ H0). destruct (Nat.eqb_spec i0 i) as [-> |]; [lia | exact Md].
    + exact (Fr _ _ _ H0).
    + exact (Rn _ _ _ _ _ _ H0 H1).
    + exact (i_v _ I _ H0).
    + exact (i_msem _ I H0).
  - al S c E Dd. destruct (at_pc c) as [| | | | | | | | | | | i | | | |] eqn:P; try discriminate S. injection S as <-.
    assert (H : holder s h c i) by (repeat split; [exact E | exact Dd | rewrite P; reflexivity]). destruct (Ow _ _ _ H) as (L & Nz & Nd & Pd).
    eapply moved; [exact I | exact E | exact Dd |]. constructor; try reflexivity; cbn [semof incrit seen claims rest holds marks]; try discriminate; intros.
    + exact (i_sem _ I _ _ H1 H2).
    + exact (i_msem _ I H0).
    + destruct (Cm _ _ _ H1 H2) as (_ & Z0 & _). auto.
    + injection H0 as <-. auto.
    + destruct (Ow _ _ _ H1) as (_ & U & V & _). auto.
    + injection H2 as <-. exact (H0 (On _ _ _ _ _ H1 H)).
    + exact (Md _ H0).
    + injection H1 as <-. exact (Fr _ _ _ H0 H).
    + injection H1 as <-. exact (Rn _ _ _ _ _ _ H0 H).
  - injection S as <-. apply (like_inv s); try reflexivity; try exact I.
    intros k d A. rewrite cl_client in A. destruct (Nat.eqb_spec k h) as [-> | N]; [| apply same_client; exact A].
    destruct (cl s h) as [c |]; [| discriminate A]. injection A as <-. exists c. cbn. repeat split. discriminate.
  - destruct (at_m s); try discriminate S. injection S as <-. eapply mmoved; [exact I |]. constructor; try reflexivity; try discriminate; intros.
    + exact (i_sem _ I _ _ H H0).
    + destruct (Cm _ _ _ H H0) as (_ & Z0 & _). exact Z0.
    + destruct (Ow _ _ _ H) as (_ & U & V & _). auto.
  - exact (master_inv _ _ _ _ I S).
  - destruct (at_m s); try discriminate S. destruct (Z.eqb_spec (status s i) INVALID) as [Z0 | Z0]; [injection S as <-; exact I |]. destruct (has (status s i) DISCONNECT); injection S as <-; [exact I |].
    eapply mmoved; [exact I |]. constructor; try reflexivity; try discriminate; intros.
    + exact (i_sem _ I _ _ H H0).
    + destruct (Cm _ _ _ H H0) as (_ & Z1 & _). exact Z1.
    + destruct (Ow _ _ _ H) as (_ & U & V & _). auto.
    + injection H as <-. exact Z0.
  - injection S as <-. apply (like_inv (with_m s MIdle)); try reflexivity; [| exact (same_client s)].
    eapply mmoved; [exact I |]. constructor; try reflexivity; try discriminate; intros.
    + exact (i_sem _ I _ _ H H0).
    + destruct (Cm _ _ _ H H0) as (_ & Z1 & _). exact Z1.
    + destruct (Ow _ _ _ H) as (_ & U & V & _). auto.
Qed.
Lemma run_inv input l : forall s t, inv s -> Forall plain l -> run input s l = Some t -> inv t.
Proof.
  induction l as [| a l IH]; intros s t I F R; cbn [run] in R; [injection R as <-; exact I |]. destruct (step input s a) as [u |] eqn:S; [| discriminate R].
  inversion F; subst. eapply IH; [eapply step_inv; eassumption | assumption | exact R].
Qed.
