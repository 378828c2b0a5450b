From Verif Require Import Common CommonFacts Meta_Model Meta_Spec Meta_Proofs MetaUpd_Proofs MetaRun_Proofs MetaFind_Model MetaFind_Spec MetaView_Proofs.

(** * Loops *)
Lemma first_where_spec n : forall a p, match first_where n a p with
  | Some i => a <= i < a + Z.of_nat n /\ p i = true /\ (forall k, a <= k < i -> p k = false)
  | None => forall k, a <= k < a + Z.of_nat n -> p k = false end.
Proof.
  induction n as [| n IH]; intros a p; cbn [first_where]. { intros k L. lia. }
  destruct (p a) eqn:Pa. { split; [lia |]. split; [exact Pa |]. intros k L. lia. }
  specialize (IH (a + 1) p). destruct (first_where n (a + 1) p).
  - destruct IH as (I1 & I2 & I3). split; [lia |]. split; [exact I2 |]. intros k L. destruct (Z.eq_dec k a) as [-> | Q]; [exact Pa | apply I3; lia].
  - intros k L. destruct (Z.eq_dec k a) as [-> | Q]; [exact Pa | apply IH; lia].
Qed.
Definition keyNum_step (t : track) (T i res : Z) : Z :=
  let r := at_ (keys t) i in
  if T <? k_time r then
    if (t_start (parts t) <? k_firstpart r) && (u64 (k_time r - pt_dur (at_ (parts t) (k_firstpart r - 1))) <? T)
    then i else res
  else i.
Lemma keyNum_snoc n : forall t T i res, keyNum_loop (S n) t T i res = keyNum_step t T (i + Z.of_nat n) (keyNum_loop n t T i res).
Proof.
  induction n as [| n IH]; intros t T i res. { cbn [keyNum_loop]. change (Z.of_nat 0) with 0. rewrite Z.add_0_r. reflexivity. }
  cbn [keyNum_loop]. specialize (IH t T (i + 1)). cbn [keyNum_loop] in IH. rewrite IH. f_equal. lia.
Qed.

Lemma view_ne t ps d : view t ps d -> ps <> [].
Proof. intros W E. viewd W W'. rewrite E in EG, EN. cbn in EG. rewrite EG in EK. cbn in EK. lia. Qed.
Lemma key_end_at ps gs K F i : Z.of_nat (List.length gs) = K -> ps <> [] -> (forall i, before (Z.to_nat i) gs = F i) ->
  (forall i, 0 <= i < K -> key_time gs i = time_at ps (F i)) -> 0 <= i < K ->
  key_end gs (lasttime ps) i = if i + 1 =? K then time_at ps (Z.of_nat (List.length ps) - 1) else time_at ps (F (i + 1)).
Proof.
  intros EK NE HF KT L. unfold key_end. destruct (Z.eqb_spec (i + 1) K) as [Q | Q].
  - assert (nth_error gs (Z.to_nat i + 1) = None) as -> by (apply nth_error_None; lia). apply lasttime_at, NE.
  - specialize (KT (i + 1) ltac:(lia)). unfold key_time in KT.
    replace (Z.to_nat i + 1)%nat with (Z.to_nat (i + 1)) by lia.
    destruct (nth_some gs (Z.to_nat (i + 1))) as (g & Eg); [lia |]. rewrite Eg in *. exact KT.
Qed.

Lemma keyNum_ok t ps d T : view t ps d ->
  let gs := groups (video t) ps in let r := getKeyNumForTime t T in
  Z.of_nat d <= r < Z.of_nat (List.length gs) /\
  ((exists j, in_key gs r j /\ next_at gs d ps T j) \/
   (forall k, kept_packet gs d ps k -> time_at ps k < T) /\ r = Z.of_nat (List.length gs) - 1).
Proof.
  intros W. cbv zeta. viewd W W'. rewrite <- EG, EK, ED in *.
  unfold getKeyNumForTime. rewrite v_end, v_del. destruct (Z.eqb_spec K 0) as [? | KN]; [lia |].
  unfold count. rewrite v_end, v_del.
  assert (FM : forall i j, 0 <= i <= j -> j <= K -> F i <= F j). { intros i j L1 L2. destruct (Z.eq_dec i j) as [-> | Q]; [lia |]. specialize ((v_fmono W') i j ltac:(lia) ltac:(lia)). lia. }
  assert (FR : forall i, 0 <= i <= K -> 0 <= F i <= N). { intros i L. pose proof (FM 0 i ltac:(lia) ltac:(lia)). pose proof (FM i K ltac:(lia) ltac:(lia)). lia. }
  pose (P := fun (n : nat) (res : Z) => D <= res < D + Z.of_nat n /\
    (time_at ps (F res) <= T /\ (forall k, res < k < D + Z.of_nat n -> T < time_at ps (F k)) /\ (res + 1 < D + Z.of_nat n -> T <= time_at ps (F (res + 1) - 1)) \/
     D < res /\ T < time_at ps (F res) /\ time_at ps (F res - 1) < T \/
     res = D /\ T < time_at ps (F res))).
  assert (L : forall n, D + Z.of_nat n <= K -> (1 <= n)%nat -> P n (keyNum_loop n t T D D)).
  { induction n as [| n IH]; intros L1 L2; [lia |]. rewrite keyNum_snoc. set (res := keyNum_loop n t T D D) in *.
    assert (I : D <= D + Z.of_nat n < K) by lia. set (i := D + Z.of_nat n) in *.
    unfold keyNum_step. rewrite (v_ktime W'), (v_kfirst W'), v_pstart by exact I. cbv zeta.
    destruct n as [| n].
    - (* the first key *)
      assert (i = D) by lia. subst i. change (Z.of_nat 0) with 0 in *. rewrite Z.add_0_r in *.
      destruct (Z.ltb_spec T (time_at ps (F D))) as [Q | Q].
      + destruct (Z.ltb_spec (F D) (F D)); [lia |]. cbn [andb]. unfold res. cbn [keyNum_loop]. split; [lia |]. right. right. auto.
      + split; [lia |]. left. split; [lia |]. split; [intros k; lia | lia].
    - specialize (IH ltac:(lia) ltac:(lia)). destruct IH as (IH1 & IH2).
      assert (Fi : F D < F i) by (apply (v_fmono W'); lia).
      pose proof (FR i ltac:(lia)) as Fr. pose proof ((v_fmono W') i K ltac:(lia) ltac:(lia)) as Fk.
      assert (EDu : u64 (time_at ps (F i) - pt_dur (at_ (parts t) (F i - 1))) = time_at ps (F i - 1)).
      { rewrite (v_pdur W') by lia. replace (F i - 1 + 1) with (F i) by lia. pose proof ((v_range W') (F i - 1)). unfold u64. rewrite Z.mod_small; lia. }
      rewrite EDu. destruct (Z.ltb_spec (F D) (F i)); [| lia]. cbn [andb].
      destruct (Z.ltb_spec T (time_at ps (F i))) as [Q | Q].
      + destruct (Z.ltb_spec (time_at ps (F i - 1)) T) as [Q2 | Q2].
        * split; [lia |]. right. left. split; [lia |]. auto.
        * split; [lia |]. destruct IH2 as [(J1 & J2 & J3) | [(J1 & J2 & J3) | (J1 & J2)]]; [| right; left; auto | right; right; auto].
          left. split; [exact J1 |]. split.
          -- intros k Lk. destruct (Z.eq_dec k i) as [-> | Qk]; [exact Q | apply J2; lia].
          -- intros L3. destruct (Z.eq_dec (res + 1) i) as [-> | Qk]; [exact Q2 | apply J3; lia].
      + split; [lia |]. left. split; [exact Q |]. split; [intros k; lia | lia]. }
  specialize (L (Z.to_nat (K - D)) ltac:(lia) ltac:(lia)). set (r := keyNum_loop (Z.to_nat (K - D)) t T D D) in *.
  destruct L as (L1 & L2). replace (D + Z.of_nat (Z.to_nat (K - D))) with K in * by lia. split; [exact L1 |].
  assert (FS : before (Z.to_nat r + 1) gs = F (r + 1)) by (rewrite <- (HF W'); f_equal; lia).
  pose proof ((v_fmono W') r (r + 1) ltac:(lia) ltac:(lia)) as S1. pose proof (FM (r + 1) K ltac:(lia) ltac:(lia)) as S2.
  pose proof (FM D r ltac:(lia) ltac:(lia)) as S3.
  unfold in_key, next_at, kept_packet. rewrite EN, FS, HFD, (HF W').
  destruct L2 as [(J1 & J2 & J3) | [(J1 & J2 & J3) | (J1 & J2)]].
  - (* the first packet of key r is not after T *)
    destruct (Z.le_gt_cases T (time_at ps (F (r + 1) - 1))) as [Q | Q].
    + (* the next packet is in key r *)
      left. assert (X : exists j, F r <= j < F (r + 1) /\ T <= time_at ps j /\ forall k, F r <= k < j -> time_at ps k < T).
      { assert (B : forall n, (Z.of_nat n <= F (r + 1) - F r - 1) -> (exists j, F r <= j < F r + Z.of_nat n /\ T <= time_at ps j /\ forall k, F r <= k < j -> time_at ps k < T) \/ (forall k, F r <= k < F r + Z.of_nat n -> time_at ps k < T)).
        { induction n as [| n IH]; intros Ln; [right; intros k; lia |]. destruct (IH ltac:(lia)) as [(j & X1 & X2 & X3) | X]; [left; exists j; repeat split; try lia; auto |].
          destruct (Z.le_gt_cases T (time_at ps (F r + Z.of_nat n))) as [Y | Y].
          - left. exists (F r + Z.of_nat n). split; [lia |]. split; [exact Y | intros k Lk; apply X; lia].
          - right. intros k Lk. destruct (Z.eq_dec k (F r + Z.of_nat n)) as [-> | Z1]; [exact Y | apply X; lia]. }
        destruct (B (Z.to_nat (F (r + 1) - F r - 1)) ltac:(lia)) as [(j & X1 & X2 & X3) | X].
        - exists j. split; [lia |]. auto.
        - exists (F (r + 1) - 1). split; [lia |]. split; [exact Q | intros k Lk; apply X; lia]. }
      destruct X as (j & X1 & X2 & X3). exists j. split; [lia |]. split; [lia |]. split; [exact X2 |].
      intros k Lk Tk. destruct (Z.le_gt_cases j k) as [Y | Y]; [apply (v_sorted W'); lia |].
      destruct (Z.le_gt_cases (F r) k) as [Y2 | Y2]; [specialize (X3 k ltac:(lia)); lia |].
      (* then k is before key r and has time T like its first packet *)
      pose proof ((v_sorted W') k (F r) ltac:(lia) ltac:(lia)). destruct (Z.eq_dec j (F r)) as [-> | Y3]; [lia |]. specialize (X3 (F r) ltac:(lia)). lia.
    + (* T is after the last packet of key r, so it is the last key *)
      right. assert (r + 1 = K) as RK by (destruct (Z.eq_dec (r + 1) K); [assumption | specialize (J3 ltac:(lia)); lia]).
      split; [| lia]. intros k Lk. rewrite RK, v_fK in Q. pose proof ((v_sorted W') k (N - 1) ltac:(lia) ltac:(lia)). lia.
  - left. exists (F r). split; [lia |]. split; [lia |]. split; [lia |]. intros k Lk Tk.
    destruct (Z.le_gt_cases (F r) k) as [Y | Y]; [apply (v_sorted W'); lia |]. pose proof ((v_sorted W') k (F r - 1) ltac:(lia) ltac:(lia)). lia.
  - subst r. rewrite J1 in *. left. exists (F D). split; [lia |]. split; [lia |]. split; [lia |]. intros k Lk Tk. apply (v_sorted W'); lia.
Qed.

Lemma keyIndex_ok t ps d T : view t ps d ->
  let gs := groups (video t) ps in let r := getKeyIndexForTime t T in
  (T < lasttime ps -> Z.of_nat d <= r < Z.of_nat (List.length gs) /\
     (T < key_end gs (lasttime ps) r \/ T = key_time gs r) /\ (key_time gs r <= T \/ r = Z.of_nat d)) /\
  (lasttime ps < T -> r = Z.of_nat (List.length gs)) /\
  (lasttime ps = T -> if key_time gs (Z.of_nat (List.length gs) - 1) =? T then Z.of_nat d <= r < Z.of_nat (List.length gs) /\ key_time gs r = T else r = Z.of_nat (List.length gs)).
Proof.
  intros W. cbv zeta. pose proof (view_ne _ _ _ W) as NE. viewd W W'. rewrite <- EG, EK, ED in *.
  pose proof (fun i => key_end_at ps gs K F i EK NE (HF W') (v_keytime W')) as KE. rewrite (lasttime_at ps NE), EN in *.
  unfold getKeyIndexForTime, count. rewrite v_end, v_del.
  pose proof (first_where_spec (Z.to_nat (K - D)) D (fun i => (k_time (at_ (keys t) i) =? T) || (T <? u64 (k_time (at_ (keys t) i) + k_dur (at_ (keys t) i))))) as S.
  cbv beta in S. replace (D + Z.of_nat (Z.to_nat (K - D))) with K in S by lia.
  assert (E : forall i, D <= i < K -> u64 (k_time (at_ (keys t) i) + k_dur (at_ (keys t) i)) = if i + 1 =? K then time_at ps (N - 1) else time_at ps (F (i + 1))).
  { intros i L. rewrite (v_ktime W'), (v_kdur W') by exact L. destruct (i + 1 =? K).
    - pose proof ((v_range W') (N - 1)). unfold u64. rewrite Z.mod_small; lia.
    - pose proof ((v_range W') (F (i + 1))). unfold u64. rewrite Z.mod_small; lia. }
  assert (KT : forall i, D <= i < K -> k_time (at_ (keys t) i) = key_time gs i) by (intros i L; rewrite (v_ktime W'), (v_keytime W') by lia; reflexivity).
  assert (Last : k_time (at_ (keys t) (K - 1)) = key_time gs (K - 1)) by (apply KT; lia).
  assert (EL : forall i, D <= i < K -> (if i + 1 =? K then time_at ps (N - 1) else time_at ps (F (i + 1))) <= time_at ps (N - 1)).
  { intros i L. destruct (Z.eqb_spec (i + 1) K); [lia |]. apply (v_sorted W'); [| lia]. pose proof ((v_fmono W') (i + 1) K ltac:(lia) ltac:(lia)).
    pose proof ((v_fmono W') 0 (i + 1) ltac:(lia) ltac:(lia)). lia. }
  assert (KL : forall i, D <= i < K -> key_time gs i <= time_at ps (N - 1)).
  { intros i L. rewrite (v_keytime W') by lia. apply (v_sorted W'); [| lia]. pose proof ((v_fmono W') i K ltac:(lia) ltac:(lia)).
    destruct (Z.eq_dec i 0) as [-> | Q]; [lia |]. pose proof ((v_fmono W') 0 i ltac:(lia) ltac:(lia)). lia. }
  destruct (first_where _ _ _) as [r |].
  - destruct S as (S1 & S2 & S3). rewrite (E r S1), (KT r S1) in S2. rewrite (KE r) by lia.
    assert (Ct : key_time gs r <= T \/ r = D).
    { destruct (Z.eq_dec r D) as [| Q]; [right; assumption |]. left. specialize (S3 (r - 1) ltac:(lia)). rewrite E, KT in S3 by lia.
      destruct (Z.eqb_spec (r - 1 + 1) K); [lia |]. replace (r - 1 + 1) with r in S3 by lia. rewrite (v_keytime W') by lia.
      destruct (Z.eqb_spec (key_time gs (r - 1)) T); [discriminate |]. destruct (Z.ltb_spec T (time_at ps (F r))); [discriminate | lia]. }
    pose proof (EL r S1) as ELr. pose proof (KL r S1) as KLr.
    assert (S2' : key_time gs r = T \/ T < (if r + 1 =? K then time_at ps (N - 1) else time_at ps (F (r + 1)))).
    { destruct (Z.eqb_spec (key_time gs r) T); [left; assumption |]. cbn [orb] in S2.
      destruct (Z.ltb_spec T (if r + 1 =? K then time_at ps (N - 1) else time_at ps (F (r + 1)))); [right; assumption | discriminate]. }
    split; [| split].
    + intros L. split; [exact S1 |]. split; [lia | exact Ct].
    + intros L. lia.
    + intros L. destruct (Z.eqb_spec (key_time gs (K - 1)) T) as [Q | Q].
      * split; [exact S1 |]. lia.
      * exfalso. assert (Er : key_time gs r = T) by lia. apply Q.
        assert (key_time gs r <= key_time gs (K - 1)); [| specialize (KL (K - 1) ltac:(lia)); lia]. rewrite !(v_keytime W') by lia.
        destruct (Z.eq_dec r (K - 1)) as [-> | Qr]; [lia |]. pose proof ((v_fmono W') r (K - 1) ltac:(lia) ltac:(lia)).
        pose proof ((v_fmono W') (K - 1) K ltac:(lia) ltac:(lia)).
        apply (v_sorted W'); [| lia]. destruct (Z.eq_dec r 0) as [-> | Q0]; [lia |]. pose proof ((v_fmono W') 0 r ltac:(lia) ltac:(lia)). lia.
  - specialize (S (K - 1) ltac:(lia)). rewrite E, Last in S by lia. destruct (Z.eqb_spec (K - 1 + 1) K); [| lia].
    destruct (Z.eqb_spec (key_time gs (K - 1)) T) as [Q | Q]; [discriminate |]. cbn [orb] in S. destruct (Z.ltb_spec T (time_at ps (N - 1))); [discriminate |].
    split; [lia |]. split; reflexivity.
Qed.

(** * Parts *)
Lemma partIndex_loop_ok t ps d T gs fs N K M D A F G (W : view_ t ps d gs fs N K M D A F G) : forall n j, F D <= j -> Z.of_nat n = N - j -> T <= time_at ps (N - 1) -> j < N ->
  let r := partIndex_loop n t T (time_at ps j) j in j <= r < N /\ T <= time_at ps r /\ (forall k, j <= k < r -> time_at ps k < T).
Proof.
  pose proof (p_v_f0 W) as P0.
  induction n as [| n IH]; intros j L1 L2 L3 L4; [lia |]. cbv zeta. cbn [partIndex_loop].
  destruct (Z.leb_spec T (time_at ps j)) as [Q | Q]. { split; [lia |]. split; [exact Q | intros k; lia]. }
  destruct (Z.eq_dec j (N - 1)) as [-> | E]; [lia |].
  rewrite (v_pdur W) by lia. replace (u64 (time_at ps j + (time_at ps (j + 1) - time_at ps j))) with (time_at ps (j + 1))
    by (pose proof (v_range W (j + 1)); unfold u64; rewrite Z.mod_small; lia).
  destruct (IH (j + 1) ltac:(lia) ltac:(lia) L3 ltac:(lia)) as (I1 & I2 & I3). split; [lia |]. split; [exact I2 |].
  intros k Lk. destruct (Z.eq_dec k j) as [-> | E']; [exact Q | apply I3; lia].
Qed.
Lemma partIndex_ok t ps d T : view t ps d ->
  let gs := groups (video t) ps in
  T < lasttime ps \/ T = lasttime ps /\ key_time gs (Z.of_nat (List.length gs) - 1) = T ->
  next_at gs d ps T (getPartIndex t T).
Proof.
  intros W. cbv zeta. intros H. pose proof (view_ne _ _ _ W) as NE. destruct (keyIndex_ok t ps d T W) as (K1 & _ & K3). cbv zeta in *.
  viewd W W'. rewrite <- EG, EK, ED in *.
  pose proof (fun i => key_end_at ps gs K F i EK NE (HF W') (v_keytime W')) as KE. rewrite (lasttime_at ps NE), EN in *.
  set (r := getKeyIndexForTime t T) in *.
  assert (R : D <= r < K /\ (key_time gs r <= T \/ r = D)).
  { destruct H as [H | (H1 & H2)]; [destruct (K1 H) as (R1 & _ & R2); auto |]. specialize (K3 ltac:(lia)). rewrite H2, Z.eqb_refl in K3. destruct K3. split; [assumption | left; lia]. }
  destruct R as (R1 & R2). rewrite (v_keytime W') in R2 by lia.
  pose proof (v_fmono W' r K ltac:(lia) ltac:(lia)) as B1.
  assert (B2 : F D <= F r) by (destruct (Z.eq_dec D r) as [-> | Q]; [lia | pose proof (v_fmono W' D r ltac:(lia) ltac:(lia)); lia]).
  unfold getPartIndex. fold r. rewrite (v_ktime W'), (v_kfirst W'), v_pend by exact R1.
  replace (u32 (F r)) with (F r) by (unfold u32; rewrite Z.mod_small; lia).
  destruct (partIndex_loop_ok t ps d T _ _ _ _ _ _ _ _ _ W' (Z.to_nat (N - F r)) (F r) ltac:(lia) ltac:(lia) ltac:(lia) ltac:(lia)) as (L1 & L2 & L3).
  set (j := partIndex_loop _ _ _ _ _) in *. unfold next_at, kept_packet. rewrite HFD, EN. split; [lia |]. split; [exact L2 |].
  intros k Lk Tk. destruct (Z.le_gt_cases j k) as [Q | Q]; [apply (v_sorted W'); lia |].
  destruct (Z.le_gt_cases (F r) k) as [Q2 | Q2]; [specialize (L3 k ltac:(lia)); lia |].
  destruct R2 as [R2 | ->]; [| lia]. pose proof (v_sorted W' k (F r) ltac:(lia) ltac:(lia)).
  destruct (Z.eq_dec j (F r)) as [-> | Q3]; [lia |]. specialize (L3 (F r) ltac:(lia)). lia.
Qed.

Lemma partTime_walk_ok t ps d gs fs N K M D A F G (W : view_ t ps d gs fs N K M D A F G) : forall n j, F D <= j -> j + Z.of_nat n < N ->
  partTime_walk n t j (time_at ps j) = time_at ps (j + Z.of_nat n).
Proof.
  pose proof (p_v_f0 W) as P0.
  induction n as [| n IH]; intros j L1 L2; cbn [partTime_walk]. { f_equal. lia. }
  rewrite (v_pdur W) by lia. replace (u64 (time_at ps j + (time_at ps (j + 1) - time_at ps j))) with (time_at ps (j + 1))
    by (pose proof (v_range W (j + 1)); unfold u64; rewrite Z.mod_small; lia).
  rewrite IH by lia. f_equal. lia.
Qed.
Lemma partTime_ok t ps j : view t ps 0 -> 0 <= j < Z.of_nat (List.length ps) -> getPartTime t j = time_at ps j.
Proof.
  intros W L. viewd W W'. rewrite EN in L. change (Z.of_nat 0) with 0 in ED. rewrite <- ED in *. clear D ED.
  unfold getPartTime. rewrite v_end.
  pose proof (first_where_spec (Z.to_nat K) 0 (fun i => j <? u64 (k_firstpart (at_ (keys t) i) + k_parts (at_ (keys t) i)))) as S. cbv beta in S.
  rewrite Z.add_0_l, Z2Nat.id in S by lia.
  assert (E : forall i, 0 <= i < K -> u64 (k_firstpart (at_ (keys t) i) + k_parts (at_ (keys t) i)) = F (i + 1)).
  { intros i Li. rewrite (v_kfirst W'), (v_kparts W') by exact Li. pose proof (v_fmono W' 0 (i + 1) ltac:(lia) ltac:(lia)).
    destruct (Z.eq_dec (i + 1) K) as [Q | Q]; [rewrite Q | pose proof (v_fmono W' (i + 1) K ltac:(lia) ltac:(lia))]; unfold u64; rewrite Z.mod_small; lia. }
  destruct (first_where _ _ _) as [r |].
  - destruct S as (S1 & S2 & S3). rewrite E in S2 by exact S1. destruct (Z.ltb_spec j (F (r + 1))); [| discriminate].
    assert (B : F r <= j).
    { destruct (Z.eq_dec r 0) as [-> | Q]; [lia |]. specialize (S3 (r - 1) ltac:(lia)). rewrite E in S3 by lia. replace (r - 1 + 1) with r in S3 by lia.
      destruct (Z.ltb_spec j (F r)); [discriminate | lia]. }
    rewrite (v_ktime W'), (v_kfirst W') by exact S1.
    assert (0 <= F r) by (destruct (Z.eq_dec r 0) as [-> | Q]; [lia | pose proof (v_fmono W' 0 r ltac:(lia) ltac:(lia)); lia]).
    rewrite (partTime_walk_ok t ps 0 _ _ _ _ _ _ _ _ _ W') by lia. f_equal. lia.
  - specialize (S (K - 1) ltac:(lia)). rewrite E in S by lia. replace (K - 1 + 1) with K in S by lia. rewrite v_fK in S. destruct (Z.ltb_spec j N); [discriminate | lia].
Qed.

(** * Keys, for callers that need a key *)
Lemma indexForTime_ok t ps d T : view t ps d ->
  let gs := groups (video t) ps in let r := getIndexForTime t T in
  Z.of_nat d <= r < Z.of_nat (List.length gs) /\
  (T < key_end gs (lasttime ps) r \/ T <= key_time gs r \/ r = Z.of_nat (List.length gs) - 1) /\
  (key_time gs r <= T \/ r = Z.of_nat d).
Proof.
  intros W. cbv zeta. pose proof (view_ne _ _ _ W) as NE. viewd W W'. rewrite <- EG, EK, ED in *.
  pose proof (fun i => key_end_at ps gs K F i EK NE (HF W') (v_keytime W')) as KE. rewrite (lasttime_at ps NE), EN in *.
  unfold getIndexForTime, count. rewrite v_end, v_del.
  pose proof (first_where_spec (Z.to_nat (K - D)) D (fun i => (T <=? k_time (at_ (keys t) i)) || (T <? u64 (k_time (at_ (keys t) i) + k_dur (at_ (keys t) i))))) as S.
  cbv beta in S. replace (D + Z.of_nat (Z.to_nat (K - D))) with K in S by lia.
  assert (E : forall i, D <= i < K -> u64 (k_time (at_ (keys t) i) + k_dur (at_ (keys t) i)) = if i + 1 =? K then time_at ps (N - 1) else time_at ps (F (i + 1))).
  { intros i L. rewrite (v_ktime W'), (v_kdur W') by exact L. destruct (i + 1 =? K).
    - pose proof (v_range W' (N - 1)). unfold u64. rewrite Z.mod_small; lia.
    - pose proof (v_range W' (F (i + 1))). unfold u64. rewrite Z.mod_small; lia. }
  assert (KT : forall i, D <= i < K -> k_time (at_ (keys t) i) = key_time gs i) by (intros i L; rewrite (v_ktime W'), (v_keytime W') by lia; reflexivity).
  assert (Prev : forall i, D < i < K -> (T <=? k_time (at_ (keys t) (i - 1))) || (T <? u64 (k_time (at_ (keys t) (i - 1)) + k_dur (at_ (keys t) (i - 1)))) = false -> key_time gs i <= T).
  { intros i L H. rewrite E in H by lia. destruct (Z.eqb_spec (i - 1 + 1) K); [lia |]. replace (i - 1 + 1) with i in H by lia. rewrite (v_keytime W') by lia.
    apply orb_false_iff in H as (_ & H). destruct (Z.ltb_spec T (time_at ps (F i))); [discriminate | lia]. }
  destruct (first_where _ _ _) as [r |].
  - destruct S as (S1 & S2 & S3). split; [exact S1 |]. rewrite (E r S1), (KT r S1) in S2. rewrite (KE r) by lia. split.
    + apply orb_true_iff in S2 as [S2 | S2]; [right; left; apply Z.leb_le, S2 | left; apply Z.ltb_lt, S2].
    + destruct (Z.eq_dec r D) as [| Q]; [right; assumption |]. left. apply Prev; [lia |]. apply S3. lia.
  - destruct (Z.eqb_spec K 0); [lia |]. split; [lia |]. split; [right; right; lia |].
    destruct (Z.eq_dec (K - 1) D) as [| Q]; [right; assumption |]. left. apply Prev; [lia |]. apply S. lia.
Qed.

(** * Fragments *)
Lemma frag_end_at ps fs M (F G : Z -> Z) i : Z.of_nat (List.length fs) = M -> ps <> [] ->
  (forall i, 0 <= i < M -> frag_time fs i = time_at ps (F (G i))) -> 0 <= i < M ->
  frag_end fs (lasttime ps) i = if i + 1 =? M then time_at ps (Z.of_nat (List.length ps) - 1) else time_at ps (F (G (i + 1))).
Proof.
  intros EK NE KT L. unfold frag_end. destruct (Z.eqb_spec (i + 1) M) as [Q | Q].
  - assert (nth_error fs (Z.to_nat i + 1) = None) as -> by (apply nth_error_None; lia). apply lasttime_at, NE.
  - specialize (KT (i + 1) ltac:(lia)). unfold frag_time in KT.
    replace (Z.to_nat i + 1)%nat with (Z.to_nat (i + 1)) by lia.
    destruct (nth_some fs (Z.to_nat (i + 1))) as (g & Eg); [lia |]. rewrite Eg in *. exact KT.
Qed.
Lemma fragIndex_ok t ps d T : view t ps d ->
  let fs := fragments (groups (video t) ps) in let r := getFragmentIndexForTime t T in
  (T < lasttime ps -> Z.of_nat (expired d fs) <= r < Z.of_nat (List.length fs) /\
     T < frag_end fs (lasttime ps) r /\ (frag_time fs r <= T \/ r = Z.of_nat (expired d fs))) /\
  (lasttime ps <= T -> r = Z.of_nat (List.length fs)).
Proof.
  intros W. cbv zeta. pose proof (view_ne _ _ _ W) as NE. viewd W W'. rewrite <- EG, <- EF, EM, EA in *.
  pose proof (fun i => frag_end_at ps fs M F G i EM NE (v_fragtime W')) as KE. rewrite (lasttime_at ps NE), EN in *.
  unfold getFragmentIndexForTime, count. rewrite v_fend, v_fdel, v_last.
  pose proof (first_where_spec (Z.to_nat (M - A)) A (fun i => T <? u64 (getTimeForFragmentIndex t i + f_dur (at_ (frags t) i)))) as S.
  cbv beta in S. replace (A + Z.of_nat (Z.to_nat (M - A))) with M in S by lia.
  assert (GR : forall i, A <= i < M -> D <= G i < K).
  { intros i L. pose proof (v_gmono W' i M ltac:(lia) ltac:(lia)). destruct (Z.eq_dec i A) as [-> | Q]; [lia |]. pose proof (v_gmono W' A i ltac:(lia) ltac:(lia)). lia. }
  assert (E : forall i, A <= i < M -> u64 (getTimeForFragmentIndex t i + f_dur (at_ (frags t) i)) = if i + 1 =? M then time_at ps (F (G i)) else time_at ps (F (G (i + 1)))).
  { intros i L. unfold getTimeForFragmentIndex. rewrite (v_ffirst W'), (v_fdur W'), (v_ktime W') by (try apply GR; exact L). destruct (i + 1 =? M).
    - pose proof (v_range W' (F (G i))). unfold u64. rewrite Z.mod_small; lia.
    - pose proof (v_range W' (F (G (i + 1)))). unfold u64. rewrite Z.mod_small; lia. }
  assert (FB : forall i, A <= i < M -> 0 <= F (G i) <= N - 1).
  { intros i L. specialize (GR i L). pose proof (v_fmono W' (G i) K ltac:(lia) ltac:(lia)). destruct (Z.eq_dec 0 (G i)) as [Q | Q]; [rewrite <- Q in *; lia |].
    pose proof (v_fmono W' 0 (G i) ltac:(lia) ltac:(lia)). lia. }
  assert (LB : forall i, A <= i < M -> time_at ps (F (G i)) <= time_at ps (N - 1)). { intros i L. specialize (FB i L). apply (v_sorted W'); lia. }
  assert (Prev : forall i, A < i < M -> (T <? u64 (getTimeForFragmentIndex t (i - 1) + f_dur (at_ (frags t) (i - 1)))) = false -> frag_time fs i <= T).
  { intros i L H. rewrite E in H by lia. destruct (Z.eqb_spec (i - 1 + 1) M); [lia |]. replace (i - 1 + 1) with i in H by lia. rewrite (v_fragtime W') by lia.
    apply Z.ltb_ge in H. lia. }
  destruct (first_where _ _ _) as [r |].
  - destruct S as (S1 & S2 & S3). rewrite E in S2 by exact S1. apply Z.ltb_lt in S2. rewrite KE by lia.
    destruct (Z.eqb_spec (r + 1) M) as [Q | Q].
    + pose proof (LB r S1). split; [| lia]. intros L. split; [exact S1 |]. split; [exact L |].
      destruct (Z.eq_dec r A) as [| Q']; [right; assumption |]. left. apply Prev; [lia |]. apply S3. lia.
    + pose proof (LB (r + 1) ltac:(lia)). split; [| lia]. intros L. split; [exact S1 |]. split; [exact S2 |].
      destruct (Z.eq_dec r A) as [| Q']; [right; assumption |]. left. apply Prev; [lia |]. apply S3. lia.
  - destruct (Z.ltb_spec A M); [| lia]. cbn [andb]. destruct (Z.ltb_spec T (time_at ps (N - 1))) as [Q | Q].
    + split; [| lia]. intros _. split; [lia |]. rewrite KE by lia. destruct (Z.eqb_spec (M - 1 + 1) M); [| lia]. split; [exact Q |].
      destruct (Z.eq_dec (M - 1) A) as [| Q']; [right; assumption |]. left. apply Prev; [lia |]. apply S. lia.
    + split; [lia | reflexivity].
Qed.
