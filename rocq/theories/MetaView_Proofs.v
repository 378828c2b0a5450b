From Verif Require Import Common CommonFacts Meta_Model Meta_Spec Meta_Proofs MetaUpd_Proofs MetaRun_Proofs MetaFind_Model MetaFind_Spec.

(** * Packets are accepted in order of time *)
Lemma accepted_ge ps : forall l p, In p (accepted l ps) -> l <= p_time p.
Proof.
  induction ps as [| q ps IH]; intros l p H; [destruct H |]. cbn [accepted] in H.
  destruct (Z.ltb_spec (p_time q) l); [apply IH, H |]. destruct H as [<- | H]; [lia |]. specialize (IH _ _ H). lia.
Qed.
Lemma accepted_sorted ps : forall l i j p q, nth_error (accepted l ps) i = Some p -> nth_error (accepted l ps) j = Some q -> (i <= j)%nat -> p_time p <= p_time q.
Proof.
  induction ps as [| x ps IH]; intros l i j p q Hi Hj L. { destruct i; discriminate. }
  cbn [accepted] in *. destruct (Z.ltb_spec (p_time x) l); [eapply IH; eauto |].
  destruct i as [| i], j as [| j]; cbn [nth_error] in *.
  - assert (p = q) by congruence. subst. lia.
  - injection Hi as <-. apply nth_error_In in Hj. apply accepted_ge in Hj. exact Hj.
  - lia.
  - eapply IH; [exact Hi | exact Hj | lia].
Qed.

(** * The tables, as numbers *)
Record view_ (t : track) (ps : list packet) (d : nat) (gs : list (list packet)) (fs : list (list (list packet)))
  (N K M D A : Z) (F G : Z -> Z) : Prop := mkview {
  p_EG : gs = groups (video t) ps; p_EF : fs = fragments gs;
  p_EN : Z.of_nat (List.length ps) = N; p_EK : Z.of_nat (List.length gs) = K; p_EM : Z.of_nat (List.length fs) = M;
  p_ED : Z.of_nat d = D; p_EA : Z.of_nat (expired d fs) = A;
  HF : forall i, before (Z.to_nat i) gs = F i;
  HG : forall i, before (Z.to_nat i) fs = G i;
  p_HFD : before d gs = F D;
  p_F0 : F 0 = 0;
  v_sorted : forall i j, 0 <= i <= j -> j < N -> time_at ps i <= time_at ps j;
  v_range : forall i, 0 <= time_at ps i < 2 ^ 64;
  p_v_small : N < 2 ^ 31;
  p_v_dk : 0 <= D < K;
  v_fmono : forall i j, 0 <= i < j -> j <= K -> F i < F j;
  p_v_f0 : 0 <= F D;
  p_v_fK : F K = N;
  p_v_del : t_del (keys t) = D; p_v_end : t_end (keys t) = K;
  v_ktime : forall i, D <= i < K -> k_time (at_ (keys t) i) = time_at ps (F i);
  v_kfirst : forall i, D <= i < K -> k_firstpart (at_ (keys t) i) = F i;
  v_kparts : forall i, D <= i < K -> k_parts (at_ (keys t) i) = F (i + 1) - F i;
  v_kdur : forall i, D <= i < K -> k_dur (at_ (keys t) i) = (if i + 1 =? K then time_at ps (N - 1) else time_at ps (F (i + 1))) - time_at ps (F i);
  p_v_pstart : t_start (parts t) = F D; p_v_pend : t_end (parts t) = N;
  v_pdur : forall j, F D <= j < N - 1 -> pt_dur (at_ (parts t) j) = time_at ps (j + 1) - time_at ps j;
  p_v_am : 0 <= A < M;
  v_gmono : forall i j, 0 <= i < j -> j <= M -> G i < G j;
  p_v_gM : G M = K;
  p_v_ga : D <= G A;
  p_v_fdel : t_del (frags t) = A; p_v_fend : t_end (frags t) = M;
  v_ffirst : forall i, A <= i < M -> f_first (at_ (frags t) i) = G i;
  v_fdur : forall i, A <= i < M -> f_dur (at_ (frags t) i) = if i + 1 =? M then 0 else time_at ps (F (G (i + 1))) - time_at ps (F (G i));
  p_v_last : lastms t = time_at ps (N - 1);
  v_keytime : forall i, 0 <= i < K -> key_time gs i = time_at ps (F i);
  v_fragtime : forall i, 0 <= i < M -> frag_time fs i = time_at ps (F (G i))
}.
Definition view (t : track) (ps : list packet) (d : nat) : Prop := exists gs fs N K M D A F G, view_ t ps d gs fs N K M D A F G.

Lemma concat_nth {A} (gs : list (list A)) : forall j g x y, nth_error gs j = Some g -> g = x :: y ->
  nth_error (List.concat gs) (Z.to_nat (before j gs)) = Some x.
Proof.
  induction gs as [| h gs IH]; intros [| j] g x y E Eg; try discriminate.
  - cbn [nth_error] in E. injection E as ->. subst g. reflexivity.
  - cbn [nth_error] in E. unfold before. cbn [firstn List.concat]. rewrite app_length.
    rewrite nth_error_app2 by lia. replace (_ - _)%nat with (Z.to_nat (before j gs)) by (unfold before; lia). eapply IH; eauto.
Qed.
Lemma gtime_at v ps j g : nth_error (groups v ps) j = Some g -> gtime g = time_at ps (before j (groups v ps)).
Proof.
  intros E. pose proof (groups_nonempty v ps) as Q. rewrite Forall_forall in Q. pose proof (Q _ (nth_error_In _ _ E)).
  destruct g as [| x y]; [congruence |]. pose proof (concat_nth _ _ _ x y E eq_refl) as C. rewrite groups_concat in C.
  unfold time_at. rewrite C. reflexivity.
Qed.
Lemma ftime_at v ps j f : nth_error (fragments (groups v ps)) j = Some f ->
  exists g, nth_error (groups v ps) (Z.to_nat (before j (fragments (groups v ps)))) = Some g /\ ftime f = gtime g.
Proof.
  intros E. pose proof (fragments_nonempty (groups v ps)) as Q. rewrite Forall_forall in Q. pose proof (Q _ (nth_error_In _ _ E)).
  destruct f as [| x y]; [congruence |]. pose proof (concat_nth _ _ _ x y E eq_refl) as C. rewrite fragments_concat in C. eauto.
Qed.
Lemma lasttime_at ps : ps <> [] -> lasttime ps = time_at ps (Z.of_nat (List.length ps) - 1).
Proof.
  intros H. destruct (rev_case ps) as [-> | (r & x & ->)]; [congruence |]. rewrite lasttime_snoc. unfold time_at.
  rewrite app_length. cbn [List.length]. replace (Z.to_nat _) with (List.length r) by lia. rewrite nth_mid. reflexivity.
Qed.
Lemma before_top {A} (gs : list (list A)) : before (List.length gs) gs = Z.of_nat (List.length (List.concat gs)).
Proof. unfold before. rewrite firstn_all. reflexivity. Qed.

Lemma view_of t ps d : inv t ps d -> Forall packet_ok ps -> (List.length ps < Z.to_nat (2 ^ 31))%nat -> ps <> [] ->
  (forall i j p q, nth_error ps i = Some p -> nth_error ps j = Some q -> (i <= j)%nat -> p_time p <= p_time q) -> view t ps d.
Proof.
  intros (R & T & Kp & O) PO SM NE SO. destruct (tables_of t ps d _ eq_refl T) as (TP & TK & TF & T1 & T2 & T3 & T4).
  set (gs := groups (video t) ps) in *. set (fs := fragments gs) in *.
  assert (GN : Forall (fun g => g <> []) gs) by apply groups_nonempty. assert (FN : Forall (fun g => g <> []) fs) by apply fragments_nonempty.
  assert (GC : List.concat gs = ps) by apply groups_concat. assert (FC : List.concat fs = gs) by apply fragments_concat.
  destruct (kept_key _ _ _ Kp) as [DK | (X & _)]; [| apply groups_nil in X; congruence]. fold gs in DK.
  destruct (kept_frag _ _ _ Kp) as [DF | (X & _)]; [| congruence]. fold gs in DF. fold fs in DF.
  destruct (expired_spec d fs FN) as (_ & X2).
  assert (Sorted : forall i j, 0 <= i <= j -> j < Z.of_nat (List.length ps) -> time_at ps i <= time_at ps j).
  { intros i j H1 H2. unfold time_at. destruct (nth_some ps (Z.to_nat i)) as (p & Ep); [lia |]. destruct (nth_some ps (Z.to_nat j)) as (q & Eq); [lia |].
    rewrite Ep, Eq. eapply SO; [exact Ep | exact Eq | lia]. }
  assert (KT : forall i g, nth_error gs i = Some g -> gtime g = time_at ps (before i gs)) by (intros; apply gtime_at; assumption).
  assert (Kof : forall i, Z.of_nat d <= i < Z.of_nat (List.length gs) -> exists g, nth_error gs (Z.to_nat i) = Some g /\ at_ (keys t) i = key_of gs (Z.to_nat i) g).
  { intros i L. destruct (nth_some gs (Z.to_nat i)) as (g & Eg); [lia |]. exists g. split; [exact Eg |].
    destruct TK as (_ & _ & _ & TK). replace i with (Z.of_nat (Z.to_nat i)) at 1 by lia. apply TK; [exact Eg | lia]. }
  assert (Fof : forall i, Z.of_nat (expired d fs) <= i < Z.of_nat (List.length fs) -> exists f, nth_error fs (Z.to_nat i) = Some f /\ at_ (frags t) i = frag_of fs (Z.to_nat i) f).
  { intros i L. destruct (nth_some fs (Z.to_nat i)) as (g & Eg); [lia |]. exists g. split; [exact Eg |].
    destruct TF as (_ & _ & _ & TF). replace i with (Z.of_nat (Z.to_nat i)) at 1 by lia. apply TF; [exact Eg | lia]. }
  assert (FT : forall i f, nth_error fs i = Some f -> ftime f = time_at ps (before (Z.to_nat (before i fs)) gs)).
  { intros i f E. destruct (ftime_at (video t) ps i f E) as (g & Eg & ->). apply KT. exact Eg. }
  exists gs, fs, (Z.of_nat (List.length ps)), (Z.of_nat (List.length gs)), (Z.of_nat (List.length fs)), (Z.of_nat d), (Z.of_nat (expired d fs)),
    (fun i => before (Z.to_nat i) gs), (fun i => before (Z.to_nat i) fs).
  constructor; try reflexivity; try (rewrite Nat2Z.id; reflexivity).
  - exact Sorted.
  - intros i. unfold time_at. destruct (nth_error ps (Z.to_nat i)) as [p |] eqn:E; [| lia]. rewrite Forall_forall in PO. apply (PO p). eapply nth_error_In; eauto.
  - lia.
  - lia.
  - intros i j H1 H2. apply before_strict; [exact GN | lia].
  - apply before_bound.
  - rewrite Nat2Z.id, before_top, GC. reflexivity.
  - apply TK.
  - apply TK.
  - intros i L. destruct (Kof i L) as (g & Eg & ->). cbn [key_of k_time]. apply KT, Eg.
  - intros i L. destruct (Kof i L) as (g & Eg & ->). reflexivity.
  - intros i L. destruct (Kof i L) as (g & Eg & ->). cbn [key_of k_parts]. replace (Z.to_nat (i + 1)) with (S (Z.to_nat i)) by lia.
    rewrite (before_succ gs _ g Eg). lia.
  - intros i L. destruct (Kof i L) as (g & Eg & ->). cbn [key_of k_dur]. rewrite (KT _ _ Eg). f_equal.
    destruct (Z.eqb_spec (i + 1) (Z.of_nat (List.length gs))) as [Q | Q].
    + assert (nth_error gs (S (Z.to_nat i)) = None) as -> by (apply nth_error_None; lia).
      rewrite <- lasttime_at by exact NE.
      assert (Sp : exists r, gs = r ++ [g]).
      { destruct (rev_case gs) as [Q' | (r & y & Q')]; [rewrite Q' in Eg; destruct (Z.to_nat i); discriminate |].
        exists r. rewrite Q' in Eg. replace (Z.to_nat i) with (List.length r) in Eg by (rewrite Q', app_length in Q; cbn [List.length] in Q; lia).
        rewrite nth_mid in Eg. congruence. }
      destruct Sp as (r & Sp). rewrite <- GC, Sp, concat_app. cbn [List.concat]. rewrite app_nil_r.
      rewrite lasttime_app; [reflexivity |]. rewrite Forall_forall in GN. apply GN. eapply nth_error_In; eauto.
    + destruct (nth_some gs (S (Z.to_nat i))) as (h & Eh); [lia |]. rewrite Eh. rewrite (KT _ _ Eh).
      replace (Z.to_nat (i + 1)) with (S (Z.to_nat i)) by lia. reflexivity.
  - destruct R as ((_ & _ & _ & _ & R & _) & _). rewrite R. destruct TP as (-> & _). rewrite Nat2Z.id. pose proof (before_bound gs d). lia.
  - apply TP.
  - intros j L. rewrite Nat2Z.id in L. pose proof (before_bound gs d).
    destruct (nth_some ps (Z.to_nat j)) as (p & Ep); [lia |]. destruct (nth_some ps (S (Z.to_nat j))) as (q & Eq); [lia |].
    replace j with (Z.of_nat (Z.to_nat j)) at 1 by lia. destruct TP as (_ & _ & _ & TP). rewrite (TP _ _ Ep) by lia.
    cbn [part_of pt_dur]. unfold part_of, time_at. cbn [pt_dur]. replace (Z.to_nat (j + 1)) with (S (Z.to_nat j)) by lia. rewrite Ep, Eq. reflexivity.
  - lia.
  - intros i j H1 H2. apply before_strict; [exact FN | lia].
  - rewrite Nat2Z.id, before_top, FC. reflexivity.
  - rewrite Nat2Z.id. destruct (Z.lt_ge_cases (before (expired d fs) fs) (Z.of_nat d)) as [Q | Q]; [apply X2 in Q; lia | lia].
  - apply TF.
  - apply TF.
  - intros i L. destruct (Fof i L) as (f & Ef & ->). reflexivity.
  - intros i L. destruct (Fof i L) as (f & Ef & ->). unfold frag_of. cbn [f_dur].
    destruct (Z.eqb_spec (i + 1) (Z.of_nat (List.length fs))) as [Q | Q].
    + assert (nth_error fs (S (Z.to_nat i)) = None) as -> by (apply nth_error_None; lia). reflexivity.
    + destruct (nth_some fs (S (Z.to_nat i))) as (h & Eh); [lia |]. rewrite Eh, (FT _ _ Eh), (FT _ _ Ef).
      replace (Z.to_nat (i + 1)) with (S (Z.to_nat i)) by lia. reflexivity.
  - rewrite T2. apply lasttime_at, NE.
  - intros i L. unfold key_time. destruct (nth_some gs (Z.to_nat i)) as (g & Eg); [lia |]. rewrite Eg. apply KT, Eg.
  - intros i L. unfold frag_time. destruct (nth_some fs (Z.to_nat i)) as (g & Eg); [lia |]. rewrite Eg. apply FT, Eg.
Qed.

Lemma reached_inv v ops t : reached v ops t -> inv t (accepted 0 (packets ops)) (evictions ops) /\ video t = v /\
  Forall packet_ok (accepted 0 (packets ops)) /\ (List.length (accepted 0 (packets ops)) < Z.to_nat (2 ^ 31))%nat.
Proof.
  intros (a & b & c & e & Ha & Hb & Hc & F & L & E). destruct (history v a b c e ops t Ha Hb Hc F L E) as (I & V).
  assert (Sm : small v (accepted 0 (packets ops))) by (apply (F _ []); rewrite app_nil_r; reflexivity). destruct Sm as (S1 & S2 & _). auto.
Qed.
Lemma reached_view v ops t : reached v ops t -> accepted 0 (packets ops) <> [] -> view t (accepted 0 (packets ops)) (evictions ops) /\ video t = v.
Proof.
  intros H NE. destruct (reached_inv v ops t H) as (I & V & P & S). split; [| exact V].
  apply view_of; try assumption. intros i j p q. apply accepted_sorted.
Qed.

Arguments HF {t ps d gs fs N K M D A F G} _.
Arguments HG {t ps d gs fs N K M D A F G} _.
Arguments v_sorted {t ps d gs fs N K M D A F G} _.
Arguments v_range {t ps d gs fs N K M D A F G} _.
Arguments v_fmono {t ps d gs fs N K M D A F G} _.
Arguments v_ktime {t ps d gs fs N K M D A F G} _.
Arguments v_kfirst {t ps d gs fs N K M D A F G} _.
Arguments v_kparts {t ps d gs fs N K M D A F G} _.
Arguments v_kdur {t ps d gs fs N K M D A F G} _.
Arguments v_pdur {t ps d gs fs N K M D A F G} _.
Arguments v_gmono {t ps d gs fs N K M D A F G} _.
Arguments v_ffirst {t ps d gs fs N K M D A F G} _.
Arguments v_fdur {t ps d gs fs N K M D A F G} _.
Arguments v_keytime {t ps d gs fs N K M D A F G} _.
Arguments v_fragtime {t ps d gs fs N K M D A F G} _.
Arguments p_EG {t ps d gs fs N K M D A F G} _.
Arguments p_EF {t ps d gs fs N K M D A F G} _.
Arguments p_EN {t ps d gs fs N K M D A F G} _.
Arguments p_EK {t ps d gs fs N K M D A F G} _.
Arguments p_EM {t ps d gs fs N K M D A F G} _.
Arguments p_ED {t ps d gs fs N K M D A F G} _.
Arguments p_EA {t ps d gs fs N K M D A F G} _.
Arguments p_HFD {t ps d gs fs N K M D A F G} _.
Arguments p_F0 {t ps d gs fs N K M D A F G} _.
Arguments p_v_small {t ps d gs fs N K M D A F G} _.
Arguments p_v_dk {t ps d gs fs N K M D A F G} _.
Arguments p_v_f0 {t ps d gs fs N K M D A F G} _.
Arguments p_v_fK {t ps d gs fs N K M D A F G} _.
Arguments p_v_del {t ps d gs fs N K M D A F G} _.
Arguments p_v_end {t ps d gs fs N K M D A F G} _.
Arguments p_v_pstart {t ps d gs fs N K M D A F G} _.
Arguments p_v_pend {t ps d gs fs N K M D A F G} _.
Arguments p_v_am {t ps d gs fs N K M D A F G} _.
Arguments p_v_gM {t ps d gs fs N K M D A F G} _.
Arguments p_v_ga {t ps d gs fs N K M D A F G} _.
Arguments p_v_fdel {t ps d gs fs N K M D A F G} _.
Arguments p_v_fend {t ps d gs fs N K M D A F G} _.
Arguments p_v_last {t ps d gs fs N K M D A F G} _.
Tactic Notation "viewd" ident(W0) ident(W) := destruct W0 as (gs & fs & N & K & M & D & A & F & G & W);
  pose proof (p_EG W) as EG;
  pose proof (p_EF W) as EF;
  pose proof (p_EN W) as EN;
  pose proof (p_EK W) as EK;
  pose proof (p_EM W) as EM;
  pose proof (p_ED W) as ED;
  pose proof (p_EA W) as EA;
  pose proof (p_HFD W) as HFD;
  pose proof (p_F0 W) as F0;
  pose proof (p_v_small W) as v_small;
  pose proof (p_v_dk W) as v_dk;
  pose proof (p_v_f0 W) as v_f0;
  pose proof (p_v_fK W) as v_fK;
  pose proof (p_v_del W) as v_del;
  pose proof (p_v_end W) as v_end;
  pose proof (p_v_pstart W) as v_pstart;
  pose proof (p_v_pend W) as v_pend;
  pose proof (p_v_am W) as v_am;
  pose proof (p_v_gM W) as v_gM;
  pose proof (p_v_ga W) as v_ga;
  pose proof (p_v_fdel W) as v_fdel;
  pose proof (p_v_fend W) as v_fend;
  pose proof (p_v_last W) as v_last.
