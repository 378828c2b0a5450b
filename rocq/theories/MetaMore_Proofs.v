From Verif Require Import Common CommonFacts Meta_Model Meta_Spec Meta_Proofs MetaUpd_Proofs MetaRun_Proofs MetaFind_Model MetaFind_Spec MetaView_Proofs MetaFind_Proofs MetaLim_Proofs.

(** * The live buffer *)
Lemma guarded_app bt : forall a b t, guarded bt t (a ++ b) -> guarded bt t a /\ forall t', run t a = Done t' -> guarded bt t' b.
Proof.
  induction a as [| o a IH]; intros b t H; cbn [app guarded run] in *. { split; [exact I |]. intros t' E. injection E as <-. exact H. }
  destruct H as (H1 & H2). destruct (step t o) as [| | t1] eqn:E.
  - split; [auto |]. intros t' E'. discriminate.
  - split; [auto |]. intros t' E'. discriminate.
  - destruct (IH b t1 H2) as (I1 & I2). auto.
Qed.
Lemma guarded_legal v a b c e bt ops t : 1 <= a < 2 ^ 32 -> 1 <= b < 2 ^ 32 -> 1 <= c < 2 ^ 32 ->
  fits v (accepted 0 (packets ops)) -> guarded bt (newTrack v a b c e) ops -> run (newTrack v a b c e) ops = Done t -> legal v ops.
Proof.
  intros Ha Hb Hc. revert t. induction ops as [| o ops IH] using rev_ind; intros t F Gd E.
  { intros pre post Q. destruct pre; discriminate. }
  rewrite run_app in E. rewrite packets_app in F. destruct (guarded_app _ _ _ _ Gd) as (G1 & G2).
  assert (F' : fits v (accepted 0 (packets ops))) by (destruct (accepted_prefix 0 (packets ops) (packets [o])) as (z & Q); rewrite Q in F; eapply fits_sub; exact F).
  destruct (run (newTrack v a b c e) ops) as [| | t1] eqn:E1; try discriminate.
  specialize (IH t1 F' G1 eq_refl). specialize (G2 t1 eq_refl).
  intros pre post Q. destruct (rev_case post) as [-> | (post' & x & ->)].
  - apply app_inj_tail in Q as (-> & ->). destruct G2 as (G2 & _).
    destruct (history v a b c e pre t1 Ha Hb Hc F' IH E1) as (I1 & V1). rewrite <- V1. eapply removable_kept; [exact I1 | exact G2].
  - rewrite app_comm_cons, app_assoc in Q. apply app_inj_tail in Q as (Q & _). eapply IH. exact Q.
Qed.

(** * A simple way to see that the numbers fit *)
Lemma total_le {A} (f : A -> Z) B l : (forall x, In x l -> f x <= B) -> total f l <= B * Z.of_nat (List.length l).
Proof. induction l as [| a l IH]; intros H; cbn [total fold_right List.length]; [lia |]. specialize (IH ltac:(auto using in_cons)). specialize (H a (or_introl eq_refl)). unfold total in IH. lia. Qed.
Lemma in_concat_len {A} (g : list A) gs : In g gs -> (List.length g <= List.length (List.concat gs))%nat.
Proof. intros I. apply in_split in I as (a & b & ->). rewrite concat_app, app_length. cbn [List.concat]. rewrite app_length. lia. Qed.
Definition easy (p : packet) : Prop := 0 <= p_time p < 65536 /\ -100 < p_off p < 100 /\ 0 <= p_size p < 10000 /\ 0 <= p_bpos p < 2 ^ 64 /\ 0 <= p_send p < 20000 /\ 0 < p_minfrag p < 2 ^ 64.
Lemma start_in {A} (f : A -> Z) g lo hi : (forall x, In x g -> lo <= f x < hi) -> lo <= 0 < hi -> lo <= start f g < hi.
Proof. destruct g as [| x g]; intros H L; [exact L | apply H; left; reflexivity]. Qed.
Lemma lasttime_in g lo hi : (forall x, In x g -> lo <= p_time x < hi) -> lo <= 0 < hi -> lo <= lasttime g < hi.
Proof. intros H L. destruct (rev_case g) as [-> | (r & x & ->)]; [exact L |]. rewrite lasttime_snoc. apply H. apply in_or_app. right. left. reflexivity. Qed.
Lemma fits_easy v ps : Forall easy ps -> (List.length ps < 400)%nat -> fits v ps.
Proof.
  intros H L q r E. assert (Hq : Forall easy q) by (rewrite E in H; apply Forall_app in H; apply H).
  assert (Lq : (List.length q < 400)%nat) by (rewrite E, app_length in L; lia). clear H L E r ps.
  pose proof (groups_concat v q) as GC. pose proof (fragments_concat (groups v q)) as FC. pose proof (groups_len v q) as GL.
  set (gs := groups v q) in *. set (fs := fragments gs) in *. rewrite Forall_forall in Hq.
  assert (Ig : forall g x, In g gs -> In x g -> easy x) by (intros g x H1 H2; apply Hq; rewrite <- GC; apply in_concat; eauto).
  assert (If : forall f g, In f fs -> In g f -> In g gs) by (intros f g H1 H2; rewrite <- FC; apply in_concat; eauto).
  assert (Tg : forall g, In g gs -> 0 <= gtime g < 65536) by (intros g H1; apply start_in; [intros x H2; apply (Ig g x H1 H2) | lia]).
  assert (Tf : forall f, In f fs -> 0 <= ftime f < 65536) by (intros f H1; apply start_in; [intros x H2; apply Tg; eapply If; eauto | lia]).
  unfold small. fold gs. fold fs. split; [lia |]. split; [| split; [| split; [| split; [| split]]]].
  - apply Forall_forall. intros x Hx. destruct (Hq x Hx) as (? & ? & ? & ? & ? & ?). unfold packet_ok. repeat split; lia.
  - intros i p q0 E1 E2. apply nth_error_In in E1, E2. destruct (Hq _ E1). destruct (Hq _ E2). lia.
  - intros i g h E1 E2. apply nth_error_In in E1, E2. pose proof (Tg _ E1). pose proof (Tg _ E2). lia.
  - intros i g h E1 E2. apply nth_error_In in E1, E2. pose proof (Tf _ E1). pose proof (Tf _ E2). lia.
  - apply Forall_forall. intros g Hg. pose proof (Tg g Hg). split.
    + pose proof (lasttime_in g 0 65536 ltac:(intros x Hx; apply (Ig g x Hg Hx)) ltac:(lia)). lia.
    + pose proof (total_le sendSize 20000 g) as B. pose proof (in_concat_len g gs Hg) as B2. rewrite GC in B2.
      assert (forall x, In x g -> sendSize x <= 20000); [| specialize (B H0); lia].
      intros x Hx. destruct (Ig g x Hg Hx) as (? & ? & ? & ? & ? & ?). unfold sendSize. destruct (p_send x =? 0); [| lia].
      destruct (p_off x =? 0), (0 <? p_bpos x), (p_key x); unfold u64; rewrite Z.mod_small; lia.
  - apply Forall_forall. intros f Hf. pose proof (in_concat_len f fs Hf) as B1. rewrite FC in B1. split; [lia |].
    assert (B : forall g, In g f -> total p_size g <= 10000 * 400).
    { intros g Hg. pose proof (total_le p_size 10000 g) as B. pose proof (in_concat_len g gs (If f g Hf Hg)) as B2. rewrite GC in B2.
      assert (forall x, In x g -> p_size x <= 10000); [| specialize (B H); lia]. intros x Hx. destruct (Ig g x (If f g Hf Hg) Hx) as (? & ? & ? & _). lia. }
    pose proof (total_le (total p_size) (10000 * 400) f B). lia.
Qed.

(** * Consequences that do not mention the grouping *)
Fixpoint sum_dur (n : nat) (t : tbl part) (i : Z) : Z := match n with O => 0 | S k => pt_dur (at_ t i) + sum_dur k t (i + 1) end.
Lemma sum_dur_ok t ps d gs fs N K M D A F G (W : view_ t ps d gs fs N K M D A F G) : forall n j, F D <= j -> j + Z.of_nat n < N ->
  sum_dur n (parts t) j = time_at ps (j + Z.of_nat n) - time_at ps j.
Proof.
  pose proof (p_v_f0 W) as P0.
  induction n as [| n IH]; intros j L1 L2; cbn [sum_dur]. { replace (j + Z.of_nat 0) with j by lia. lia. }
  rewrite IH by lia. rewrite (v_pdur W) by lia. replace (j + 1 + Z.of_nat n) with (j + Z.of_nat (S n)) by lia. lia.
Qed.
