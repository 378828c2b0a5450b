From Verif Require Import Common CommonFacts CommonMore RtpSort_Model RtpSort_Spec RtpSort_Proofs RtpSortInv_Proofs.

Section S.
Context {P : Type}.
Variable pk : Z -> P.
Variables drop wait a D : Z.
Hypothesis HD : 0 <= D <= 500.
Hypothesis Hdrop : 2 * D <= drop <= 32000.
Hypothesis Hwait : 0 <= wait <= 32767.

Definition dense (seen : list Z) : Prop := forall m j, In m seen -> a <= j < m - D -> In j seen.
Definition within (seen : list Z) : Prop := forall m, In m seen -> a <= m.

Record live (seen : list Z) (st : sorter P) (outs : list P) (R W : Z) : Prop := mklive {
  l_first : first st = false;
  l_pre : preBuffer st = false;
  l_R : a < R;
  l_W : R <= W <= R + 2 * D + 10;
  l_seq : rtpSeq st = R mod 65536;
  l_wseq : rtpWSeq st = W mod 65536;
  l_got : forall m, a <= m < R -> In m seen;
  l_buf : holds pk (packBuffer st) (fun x => In x seen /\ R <= x);
  l_state : ~ In R seen \/ forall m, In m seen -> m < R + D;
  l_outs : outs = map pk (from a (R - a));
  l_lost : lostTotal st = s32 0;
  l_total : packTotal st = u32 (R - a);
  l_wanted : forall j, R <= j < W -> In j seen \/ In (j mod 65536) (wantedSeqs st) }.

Definition new_wanted (n : Z) (seen : list Z) (old new : list Z) : Prop :=
  forall w, In w new <-> In w old \/ exists j, w = j mod 65536 /\ a <= j < n - wait /\ ~ In j (n :: seen) /\ In w new.

Lemma tail_ok seen outs R W wanted0 buf n :
  dense seen -> within seen -> In a seen -> a <= R -> R <= W <= R + 2 * D + 10 -> (forall m, a <= m < R -> In m seen) ->
  holds pk buf (fun x => In x seen /\ R <= x) -> (forall m, In m seen -> m <= R + D + 5) -> outs = map pk (from a (R - a)) ->
  (forall j, R <= j < W -> In j seen \/ In (j mod 65536) wanted0) ->
  a <= n -> (forall m, a <= m < n - D -> In m seen) -> R - 30001 <= n ->
  exists o st' R' W', sort_in wait (R mod 65536) (W mod 65536) false (s32 0) (u32 (R - a)) wanted0 buf (n mod 65536) (pk n) = (o, st') /\
    live (n :: seen) st' (outs ++ o) R' W' /\ (forall m, (forall j, a <= j <= m -> In j seen) -> m < R') /\ R <= R' /\ n - wait <= W' /\
    new_wanted n seen wanted0 (wantedSeqs st').
Proof.
  intros Hde Hwi Ha HR HW Hgot Hbuf Hmax Houts Hwant Hn Hnd Hnl.
  assert (Nn : n <= R + 2 * D + 6).
  { destruct (Z_le_gt_dec n (R + 2 * D + 6)) as [|G]; [assumption|]. specialize (Hnd (R + D + 6) ltac:(lia)). specialize (Hmax _ Hnd). lia. }
  destruct (rest_ok pk wait (R - 30001) (R + 2 * D + 9) R W false (s32 0) (R - a) wanted0 buf n (fun x => In x seen /\ R <= x)) as (c & wanted & buf' & C0 & E & C1 & C2 & C3 & C4 & C5); try assumption; try lia.
  { intros x [Sx Gx]. specialize (Hmax x Sx). lia. }
  cbv zeta in *. rewrite E. set (R1 := R + c) in *.
  assert (N1 : ~ In R1 seen) by (intros Q; apply C3; split; [assumption|lia]).
  assert (G1 : forall m, a <= m < R1 -> In m seen).
  { intros m Hm. destruct (Z_lt_ge_dec m R) as [L|L]; [apply Hgot; lia|]. apply C2. lia. }
  assert (B1 : forall m, In m seen -> m <= R1 + D).
  { intros m Hm. destruct (Z_le_gt_dec m (R1 + D)) as [|G]; [assumption|]. destruct N1. apply (Hde m R1 Hm). lia. }
  assert (Bn : n <= R1 + D).
  { destruct (Z_le_gt_dec n (R1 + D)) as [|G]; [assumption|]. destruct N1. apply Hnd. lia. }
  assert (Ra : a < R1) by (destruct (Z.eq_dec R1 a) as [Q|Q]; [rewrite Q in N1; contradiction|lia]).
  exists (map pk (from R c ++ (if R1 =? n then [n] else []))). eexists. exists (next R1 n). eexists. split; [reflexivity|].
  assert (NX : (R1 = n /\ next R1 n = R1 + 1) \/ (R1 <> n /\ next R1 n = R1)) by (unfold next; destruct (R1 =? n) eqn:Q; lia).
  assert (LW : forall j, next R1 n <= j < Z.max (Z.max (Z.max W R) (n - wait)) (next R1 n) -> In j (n :: seen) \/ In (j mod 65536) wanted).
  { intros j Hj. destruct (Z_lt_ge_dec j W) as [L|L].
    - destruct (Hwant j ltac:(lia)) as [Q|Q]; [left; now right|right; apply C5; now left].
    - destruct (in_dec Z.eq_dec j seen) as [I|I]; [left; now right|]. right. apply C5. right. exists j. split; [lia|]. split; [tauto|reflexivity]. }
  split; [|split; [|split; [lia|split; [|]]]].
  - constructor; cbn [RtpSort_Model.first RtpSort_Model.rtpSeq RtpSort_Model.rtpWSeq RtpSort_Model.preBuffer RtpSort_Model.packBuffer RtpSort_Model.lostTotal RtpSort_Model.packTotal RtpSort_Model.wantedSeqs]; try reflexivity.
    + lia.
    + lia.
    + intros m Hm. destruct NX as [[<- Q]|[_ Q]]; rewrite Q in Hm.
      * destruct (Z.eq_dec m R1) as [->|]; [now left|right; apply G1; lia].
      * right. apply G1. lia.
    + eapply holds_ext; [exact C1|]. cbn beta. intros x. split.
      * intros [[[Sx Gx] Nx]|[-> L]]; [|split; [now left|lia]]. split; [now right|]. assert (x <> R1) by (intros ->; contradiction). lia.
      * intros [[<-|Sx] Gx]; [right; lia|]. left. split; [split; [assumption|lia]|lia].
    + destruct NX as [[<- ->]|[Q ->]].
      * right. intros m [<-|Hm]; [lia|]. specialize (B1 m Hm). lia.
      * left. intros [<-|Hm]; [now destruct Q|contradiction].
    + rewrite Houts, <- map_app. f_equal. unfold next. destruct (R1 =? n) eqn:Q.
      * assert (R1 = n) by lia. subst n. replace (R1 + 1 - a) with ((R - a) + (c + 1)) by lia. rewrite from_app by lia. replace (a + (R - a)) with R by lia.
        rewrite from_app by lia. fold R1. now rewrite from_1.
      * rewrite app_nil_r. replace (R1 - a) with ((R - a) + c) by lia. rewrite from_app by lia. now replace (a + (R - a)) with R by lia.
    + f_equal. lia.
    + exact LW.
  - intros m Hm. destruct (Z_lt_ge_dec m R1) as [L|L]; [lia|]. destruct N1. apply Hm. lia.
  - lia.
  - cbn [RtpSort_Model.wantedSeqs]. intros w. rewrite C5 at 1. split.
    + intros [Q|(j & A & B & C)]; [now left|right]. exists j. split; [assumption|]. split; [lia|]. split; [|apply C5; right; exists j; now split].
      intros [<-|Q]; [lia|]. apply B. split; [assumption|lia].
    + intros [Q|(j & _ & _ & _ & Q)]; [now left|now apply C5].
Qed.

Lemma live_step seen st outs R W n : live seen st outs R W -> dense seen -> within seen -> In a seen ->
  a <= n -> (forall m, a <= m < n - D -> In m seen) -> (forall m, In m seen -> m < n + 30000) ->
  exists o st' R' W', addPacket drop wait st (n mod 65536) (pk n) = (o, st') /\
    live (n :: seen) st' (outs ++ o) R' W' /\ (forall m, (forall j, a <= j <= m -> In j seen) -> m < R') /\ R <= R' /\ n - wait <= W' /\
    new_wanted n seen (wantedSeqs st) (wantedSeqs st').
Proof.
  intros [A1 A2 A3 A4 A5 A6 A7 A8 A9 A10 A11 A12 A13] Hde Hwi Ha Hn Hnd Hnl.
  unfold addPacket. rewrite A1, A2, A5, A6, A11, A12. cbv zeta.
  assert (B : forall m, In m seen -> m <= R + D).
  { intros m Hm. destruct A9 as [A9|A9]; [|specialize (A9 m Hm); lia]. destruct (Z_le_gt_dec m (R + D)) as [|G]; [assumption|]. destruct A9. apply (Hde m R Hm). lia. }
  assert (N : n <= R + 2 * D).
  { destruct A9 as [A9|A9].
    - destruct (Z_le_gt_dec n (R + D)) as [|G]; [lia|]. destruct A9. apply Hnd. lia.
    - destruct (Z_le_gt_dec n (R + 2 * D)) as [|G]; [assumption|]. specialize (Hnd (R + D) ltac:(lia)). specialize (A9 _ Hnd). lia. }
  assert (N' : R - 30001 <= n). { specialize (Hnl (R - 1) (A7 (R - 1) ltac:(lia))). lia. }
  rewrite give_up_ok by (rewrite ?rounds_Z; lia). replace (Z.max R (n - drop)) with R by lia. rewrite Z.sub_diag, !Z.add_0_r.
  apply tail_ok; try assumption; try lia. intros m Hm. specialize (B m Hm). lia.
Qed.

Record prep (seen : list Z) (st : sorter P) (f W : Z) : Prop := mkprep {
  p_first : first st = false;
  p_pre : preBuffer st = true;
  p_f : a <= f < a + 5;
  p_W : a <= W <= a + D + 10;
  p_seq : rtpSeq st = (f - 5) mod 65536;
  p_wseq : rtpWSeq st = W mod 65536;
  p_buf : holds pk (packBuffer st) (fun x => In x seen);
  p_max : forall m, In m seen -> m <= a + D + 5;
  p_cnt : (List.length (nodup Z.eq_dec seen) <= 5)%nat;
  p_lost : lostTotal st = s32 0;
  p_total : packTotal st = u32 0 }.

Lemma from_nodup x c : NoDup (from x c).
Proof.
  unfold from. apply FinFun.Injective_map_NoDup; [|apply seq_NoDup]. intros i j H. lia.
Qed.
Lemma nodup_bound seen n : (List.length (nodup Z.eq_dec seen) <= 5)%nat -> (forall m, a <= m < n - D -> In m seen) -> n <= a + D + 5.
Proof.
  intros Hc H. destruct (Z_le_gt_dec n (a + D + 5)) as [|G]; [assumption|].
  assert (Q : (List.length (from a 6) <= List.length (nodup Z.eq_dec seen))%nat).
  { apply NoDup_incl_length; [apply from_nodup|]. intros x Hx. apply from_in in Hx. apply nodup_In. apply H. lia. }
  unfold from in Q. rewrite map_length, seq_length in Q. change (Z.to_nat 6) with 6%nat in Q. lia.
Qed.
Lemma nodup_cons_le n seen : (List.length (nodup Z.eq_dec (n :: seen)) <= S (List.length (nodup Z.eq_dec seen)))%nat.
Proof. cbn [nodup]. destruct (in_dec Z.eq_dec n seen); cbn [List.length]; lia. Qed.

(** A packet that is only buffered. *)
Lemma prep_in seen f W wanted0 buf n :
  a <= f < a + 5 -> a <= W <= a + D + 10 -> holds pk buf (fun x => In x seen) -> within seen ->
  (forall m, In m seen -> m <= a + D + 5) -> (List.length (nodup Z.eq_dec seen) <= 4)%nat ->
  a <= n -> (forall m, a <= m < n - D -> In m seen) ->
  exists st' W', sort_in wait ((f - 5) mod 65536) (W mod 65536) true (s32 0) (u32 0) wanted0 buf (n mod 65536) (pk n) = ([], st') /\
    prep (n :: seen) st' f W' /\ new_wanted n seen wanted0 (wantedSeqs st').
Proof.
  intros Hf HW Hbuf Hwi Hmax Hc Hn Hnd. pose proof (nodup_bound seen n ltac:(lia) Hnd) as Nn.
  destruct (rest_ok pk wait (a - 10) (a + D + 10) (f - 5) W true (s32 0) 0 wanted0 buf n (fun x => In x seen)) as (c & wanted & buf' & C0 & E & C1 & C2 & C3 & C4 & C5); try assumption; try lia.
  { intros x Sx. specialize (Hmax x Sx). specialize (Hwi x Sx). lia. }
  cbv zeta in *.
  assert (c = 0). { destruct (Z.eq_dec c 0) as [|N]; [assumption|]. specialize (C2 (f - 5) ltac:(lia)). specialize (Hwi _ C2). lia. }
  subst c. rewrite Z.add_0_r in *. unfold next in E. destruct (f - 5 =? n) eqn:Q; [lia|]. rewrite E, from_0. cbn [app map].
  eexists. eexists. split; [reflexivity|]. split.
  - constructor; cbn [RtpSort_Model.first RtpSort_Model.rtpSeq RtpSort_Model.rtpWSeq RtpSort_Model.preBuffer RtpSort_Model.packBuffer RtpSort_Model.lostTotal RtpSort_Model.packTotal RtpSort_Model.wantedSeqs]; try reflexivity; try lia.
    + eapply holds_ext; [exact C1|]. cbn beta. intros x. split; [intros [[A _]|[-> _]]; [now right|now left]|].
      intros [<-|A]; [right; lia|left; split; [assumption|]]. specialize (Hwi x A). lia.
    + intros m [<-|Hm]; [lia|now apply Hmax].
    + pose proof (nodup_cons_le n seen). lia.
    + f_equal. lia.
  - cbn [RtpSort_Model.wantedSeqs]. intros w. rewrite C5 at 1. split.
    + intros [Q1|(j & A & B & C)]; [now left|right]. exists j. split; [assumption|]. split; [lia|]. split; [|apply C5; right; exists j; now split].
      intros [<-|Q1]; [lia|contradiction].
    + intros [Q1|(j & _ & _ & _ & Q1)]; [now left|now apply C5].
Qed.

Lemma first_step n : a <= n < a + 5 -> (forall m, a <= m < n - D -> In m []) ->
  exists st' W', addPacket drop wait sorter0 (n mod 65536) (pk n) = ([], st') /\ prep [n] st' n W' /\ new_wanted n [] [] (wantedSeqs st').
Proof.
  intros Hn Hd. unfold addPacket, sorter0. cbn [RtpSort_Model.first RtpSort_Model.preBuffer RtpSort_Model.packBuffer RtpSort_Model.lostTotal RtpSort_Model.packTotal RtpSort_Model.wantedSeqs].
  change (5 <=? len (@nil (Z * P))) with false. cbv iota zeta. rewrite u16_sub.
  destruct (prep_in [] n n [] [] n) as (st' & W' & E & I & J); try lia; try (now intros); try assumption.
  - split; [constructor|]. intros k v. split; [discriminate|now intros (x & [] & _)].
  - cbn. lia.
  - change (s32 0) with 0 in E. change (u32 0) with 0 in E. exists st', W'. now split.
Qed.
Lemma prep_step seen st f W n : prep seen st f W -> dense seen -> within seen -> (5 <= List.length seen -> In a seen)%nat -> a mod 65536 + D + 5 < 65536 ->
  a <= n -> (forall m, a <= m < n - D -> In m seen) ->
  exists o st', addPacket drop wait st (n mod 65536) (pk n) = (o, st') /\ new_wanted n seen (wantedSeqs st) (wantedSeqs st') /\
    ((List.length (nodup Z.eq_dec seen) <= 4)%nat /\ o = [] /\ (exists W', prep (n :: seen) st' f W') \/
     In a seen /\ exists R' W', live (n :: seen) st' o R' W' /\ (forall m, (forall j, a <= j <= m -> In j seen) -> m < R') /\ n - wait <= W').
Proof.
  intros [A1 A2 A3 A4 A5 A6 A7 A8 A9 A10 A11] Hde Hwi Ha Hm Hn Hnd. pose proof (nodup_bound seen n A9 Hnd) as Nn.
  assert (LB : List.length (packBuffer st) = List.length (nodup Z.eq_dec seen)).
  { apply (count_ok pk _ _ A7). intros x y Hx Hy. pose proof (A8 x Hx). pose proof (A8 y Hy). pose proof (Hwi x Hx). pose proof (Hwi y Hy). lia. }
  unfold addPacket. rewrite A1, A2, A5, A6, A10, A11. cbv zeta.
  destruct (5 <=? len (packBuffer st)) eqn:E5.
  - assert (Ia : In a seen).
    { apply Ha. pose proof (NoDup_incl_length (NoDup_nodup Z.eq_dec seen) (l' := seen)) as Q. unfold len in E5.
      assert (incl (nodup Z.eq_dec seen) seen) by (intros x Hx; now apply nodup_In in Hx). specialize (Q H). lia. }
    assert (HB : match packBuffer st with (k, _) :: _ => k | [] => 0 end = a mod 65536).
    { destruct (packBuffer st) as [|[k v] buf] eqn:EB; [discriminate E5|]. destruct A7 as [Q1 Q2].
      assert (Fk : mfind k ((k, v) :: buf) = Some v) by (cbn [mfind]; now rewrite Z.eqb_refl). apply Q2 in Fk. destruct Fk as (x & Sx & -> & _).
      assert (M1 : mfind (a mod 65536) ((x mod 65536, v) :: buf) = Some (pk a)) by (apply Q2; now exists a).
      pose proof (head_min _ _ _ (a mod 65536) Q1 ltac:(congruence)). pose proof (A8 x Sx). pose proof (Hwi x Sx). lia. }
    rewrite HB.
    destruct (tail_ok seen [] a a (wantedSeqs st) (packBuffer st) n) as (o & st' & R' & W' & E & I & J1 & J2 & J3 & J4); try assumption; try lia.
    + eapply holds_ext; [exact A7|]. intros x. cbn beta. split; [intros Q; split; [assumption|now apply Hwi]|now intros [Q _]].
    + now rewrite Z.sub_diag.
    + rewrite Z.sub_diag in E. rewrite E. exists o, st'. split; [reflexivity|]. split; [assumption|]. right. split; [assumption|]. exists R', W'. split; [exact I|]. now split.
  - destruct (prep_in seen f W (wantedSeqs st) (packBuffer st) n) as (st' & W' & E & I & J); try assumption.
    { unfold len in E5. lia. }
    rewrite E. exists [], st'. split; [reflexivity|]. split; [assumption|]. left. unfold len in E5. split; [lia|]. split; [reflexivity|]. now exists W'.
Qed.

(** ** All arrivals *)
Lemma orderly_snoc : forall ns seen n, orderly a D seen (ns ++ [n]) <->
  orderly a D seen ns /\ a <= n /\ (forall m, a <= m < n - D -> In m (rev ns ++ seen)) /\ (forall m, In m (rev ns ++ seen) -> m < n + 30000).
Proof.
  induction ns as [|x ns IH]; intros seen n; cbn [app orderly rev].
  - tauto.
  - rewrite IH. replace ((rev ns ++ [x]) ++ seen) with (rev ns ++ x :: seen) by (rewrite <- app_assoc; reflexivity). tauto.
Qed.
Lemma orderly_dense : forall ns, orderly a D [] ns -> dense (rev ns) /\ within (rev ns).
Proof.
  intros ns. induction ns as [|n ns IH] using rev_ind; intros H; [split; [intros m j []|intros m []]|].
  apply orderly_snoc in H. destruct H as (H1 & H2 & H3 & H4). destruct (IH H1) as [I1 I2]. rewrite rev_app_distr. cbn [rev app]. rewrite app_nil_r in *. split.
  - intros m j [<-|Hm] Hj; right; [now apply H3|now apply (I1 m)].
  - intros m [<-|Hm]; [assumption|now apply I2].
Qed.

Definition started (ns : list Z) : Prop := hd a ns < a + 5 /\ ((List.length ns < 5)%nat \/ In a (firstn 5 ns)).
Lemma started_snoc ns n : started (ns ++ [n]) -> ns <> [] -> started ns /\ ((5 <= List.length ns)%nat -> In a ns).
Proof.
  intros [H1 H2] Hne. destruct ns as [|x ns]; [now destruct Hne|]. cbn [app hd] in H1. rewrite app_length in H2. 
  assert (Q : (5 <= List.length (x :: ns))%nat -> In a (firstn 5 (x :: ns))).
  { intros L. destruct H2 as [H2|H2]; [cbn [List.length] in *; lia|]. rewrite firstn_app in H2. replace (5 - List.length (x :: ns))%nat with 0%nat in H2 by lia. cbn [firstn] in H2 |- *. now rewrite app_nil_r in H2. }
  split.
  - split; [assumption|]. destruct (Nat.lt_ge_cases (List.length (x :: ns)) 5) as [L|L]; [now left|right; now apply Q].
  - intros L. specialize (Q L). rewrite <- (firstn_skipn 5 (x :: ns)). apply in_app_iff. now left.
Qed.

Lemma run_ok : forall ns n, orderly a D [] (ns ++ [n]) -> started (ns ++ [n]) -> a mod 65536 + D + 5 < 65536 ->
  exists o st o' st', addPackets drop wait sorter0 (wire pk ns) = (o, st) /\ addPacket drop wait st (n mod 65536) (pk n) = (o', st') /\
    new_wanted n (rev ns) (wantedSeqs st) (wantedSeqs st') /\
    ((List.length (nodup Z.eq_dec (rev ns)) <= 4)%nat /\ o ++ o' = [] /\ (exists f W, prep (rev (ns ++ [n])) st' f W) \/
     In a (rev ns) /\ exists R W, live (rev (ns ++ [n])) st' (o ++ o') R W /\ (forall m, (forall j, a <= j <= m -> In j (rev ns)) -> m < R) /\ n - wait <= W).
Proof.
  intros ns. induction ns as [|x ns IH] using rev_ind; intros n Ho Hs Hm.
  - cbn [app rev orderly wire map addPackets] in *. destruct Ho as (O1 & O2 & _). destruct Hs as [Hs _]. cbn [hd] in Hs.
    destruct (first_step n ltac:(lia) O2) as (st' & W' & E & I & J). exists [], sorter0, [], st'. split; [reflexivity|]. split; [exact E|]. split; [exact J|].
    left. split; [cbn; lia|]. split; [reflexivity|]. now exists n, W'.
  - pose proof (proj1 (orderly_snoc (ns ++ [x]) [] n) Ho) as (O1 & O2 & O3 & O4). rewrite app_nil_r in *.
    destruct (orderly_dense _ O1) as [D1 D2].
    destruct (started_snoc _ _ Hs) as [S1 S2]; [intros Q; destruct ns; discriminate|].
    destruct (IH x O1 S1 Hm) as (o & st & o1 & st1 & E1 & E2 & _ & Hc).
    rewrite addPackets_snoc, E1, E2.
    assert (ER : rev ((ns ++ [x]) ++ [n]) = n :: rev (ns ++ [x])) by apply rev_unit. rewrite ER.
    destruct Hc as [(_ & Q & f & W & I)|(Ia & R & W & I & _)].
    + rewrite Q. destruct (prep_step _ _ _ _ n I D1 D2) as (o' & st' & E' & J & [(K1 & K2 & W' & K3)|(K1 & R' & W' & K2)]); try assumption.
      * intros L. rewrite <- in_rev. apply S2. now rewrite rev_length in L.
      * exists [], st1, o', st'. split; [reflexivity|]. split; [exact E'|]. split; [exact J|]. left. split; [assumption|]. split; [now subst|]. now exists f, W'.
      * exists [], st1, o', st'. split; [reflexivity|]. split; [exact E'|]. split; [exact J|]. right. split; [assumption|]. now exists R', W'.
    + assert (Ia' : In a (rev (ns ++ [x]))) by (rewrite rev_unit; now right).
      destruct (live_step _ _ _ _ _ n I D1 D2 Ia' O2 O3 O4) as (o' & st' & R' & W' & E' & J1 & J2 & J3 & J4 & J5).
      exists (o ++ o1), st1, o', st'. split; [reflexivity|]. split; [exact E'|]. split; [exact J5|]. right. split; [assumption|]. exists R', W'. split; [exact J1|]. now split.
Qed.
End S.
