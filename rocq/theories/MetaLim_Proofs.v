From Verif Require Import Common CommonFacts Meta_Model Meta_Spec Meta_Proofs MetaUpd_Proofs MetaRun_Proofs MetaFind_Model MetaFind_Spec MetaView_Proofs MetaFind_Proofs.

(** Facts about all numbers only slow the arithmetic down. *)
Ltac qlia := repeat match goal with H : forall x : Z, @?P x |- _ => clear H end; lia.
Section Lim.
Context {t : track} {ps : list packet} {d : nat} {gs : list (list packet)} {fs : list (list (list packet))} {N K M D A : Z} {F G : Z -> Z}.
Context (W : view_ t ps d gs fs N K M D A F G) (lo hi : Z).
Let kt i := time_at ps (F i).

Lemma lim_keys_ok : forall n i mn, Z.of_nat n = K - i -> D <= i <= K ->
  (mn = D /\ (forall k, D <= k < i -> lo < kt k) \/ D <= mn < i /\ kt mn <= lo /\ (forall k, mn < k < i -> lo < kt k)) ->
  (forall k, D <= k < i -> kt k < hi) ->
  exists mn' mx, lim_keys n t lo hi i mn K = (mn', mx) /\ D <= mn' <= mx /\ mn' < K /\ mx <= K /\
    (forall k, D <= k < mx -> kt k < hi) /\ (mx < K -> hi <= kt mx) /\ (mn' = D \/ kt mn' <= lo) /\
    (forall k, mn' < k <= mx -> k < K -> lo < kt k).
Proof.
  pose proof (p_v_dk W) as DK.
  induction n as [| n IH]; intros i mn L1 L2 P H.
  - cbn [lim_keys]. exists mn, K. split; [reflexivity |]. assert (i = K) by qlia. subst i.
    destruct P as [(-> & P) | (P1 & P2 & P3)]; repeat split; try qlia; auto; try (intros k Lk1 Lk2; first [apply P | apply P3]; qlia).
  - cbn [lim_keys]. destruct (Z.ltb_spec i K); [| qlia]. rewrite (v_ktime W) by qlia. fold (kt i).
    set (mn' := if kt i <=? lo then i else mn).
    assert (P' : mn' = D /\ (forall k, D <= k < i + 1 -> lo < kt k) \/ D <= mn' < i + 1 /\ kt mn' <= lo /\ (forall k, mn' < k < i + 1 -> lo < kt k)).
    { unfold mn'. destruct (Z.leb_spec (kt i) lo) as [Q | Q]. { right. split; [qlia |]. split; [exact Q | intros k; qlia]. }
      destruct P as [(P1 & P2) | (P1 & P2 & P3)]; [left | right]; repeat split; try assumption; try qlia.
      - intros k Lk. destruct (Z.eq_dec k i) as [-> | E]; [exact Q | apply P2; qlia].
      - intros k Lk. destruct (Z.eq_dec k i) as [-> | E]; [exact Q | apply P3; qlia]. }
    destruct (Z.leb_spec hi (kt i)) as [Q | Q].
    + exists mn', i. split; [reflexivity |].
      destruct P' as [(P1 & P2) | (P1 & P2 & P3)]; repeat split; try qlia; auto; try (intros k Lk1 Lk2; first [apply P2 | apply P3]; qlia).
    + apply IH; [qlia | qlia | exact P' |]. intros k Lk. destruct (Z.eq_dec k i) as [-> | E]; [exact Q | apply H; qlia].
Qed.

Lemma step_time j : F D <= j < N - 1 -> u64 (time_at ps j + pt_dur (at_ (parts t) j)) = time_at ps (j + 1).
Proof. intros L. rewrite (v_pdur W) by exact L. pose proof (v_range W (j + 1)). unfold u64. rewrite Z.mod_small; qlia. Qed.
Lemma step_dur a j : F D <= a <= j -> j < N - 1 -> u64 (time_at ps j - time_at ps a + pt_dur (at_ (parts t) j)) = time_at ps (j + 1) - time_at ps a.
Proof.
  intros L1 L2. pose proof (p_v_f0 W). rewrite (v_pdur W) by qlia. pose proof (v_range W (j + 1)). pose proof (v_range W a).
  pose proof (v_sorted W a (j + 1) ltac:(qlia) ltac:(qlia)). unfold u64. rewrite Z.mod_small; qlia.
Qed.

Lemma lim_take : forall n part first cnt dur size, F D <= first -> part = first + cnt -> 0 <= cnt -> part + Z.of_nat n <= N ->
  (n <> 0%nat -> dur = time_at ps part - time_at ps first) -> lo <= time_at ps first ->
  exists c' d' s', lim_single n t lo hi part first (time_at ps first) cnt dur size = (first, time_at ps first, c', d', s') /\
    part <= first + c' <= part + Z.of_nat n /\ (forall k, part <= k < first + c' -> time_at ps k < hi) /\
    (first + c' < part + Z.of_nat n -> hi <= time_at ps (first + c')).
Proof.
  pose proof (p_v_f0 W) as P0. pose proof (p_v_small W) as PS.
  induction n as [| n IH]; intros part first cnt dur size L1 L2 L3 L4 Ed Lo.
  - cbn [lim_single]. exists cnt, dur, size. split; [reflexivity |]. split; [qlia |]. split; [intros k; qlia | qlia].
  - cbn [lim_single]. destruct (Z.leb_spec lo (time_at ps first)); [| qlia].
    specialize (Ed ltac:(discriminate)).
    assert (U : u64 (time_at ps first + dur) = time_at ps part).
    { rewrite Ed. pose proof (v_range W part). unfold u64. rewrite Z.mod_small; qlia. }
    rewrite U. destruct (Z.leb_spec hi (time_at ps part)) as [Q | Q].
    + exists cnt, dur, size. split; [reflexivity |]. split; [qlia |]. split; [intros k; qlia |]. intros _. rewrite <- L2. exact Q.
    + replace (u64 (cnt + 1)) with (cnt + 1) by (unfold u64; rewrite Z.mod_small; qlia).
      destruct (IH (part + 1) first (cnt + 1) (u64 (dur + pt_dur (at_ (parts t) part))) (u64 (size + pt_size (at_ (parts t) part))))
        as (c' & d' & s' & E & B1 & B2 & B3); try qlia.
      { intros Nn. rewrite Ed. apply step_dur; qlia. }
      exists c', d', s'. split; [exact E |]. split; [qlia |]. split.
      * intros k Lk. destruct (Z.eq_dec k part) as [-> | E']; [exact Q | apply B2; qlia].
      * intros Lk. apply B3. qlia.
Qed.
Lemma lim_single_ok : forall n first, F D <= first -> first + Z.of_nat n <= N -> (n <> 0%nat) ->
  exists f T c d' s', lim_single n t lo hi first first (time_at ps first) 0 0 0 = (f, T, c, d', s') /\
    first <= f /\ 0 <= c /\ f + c <= first + Z.of_nat n /\ (forall k, first <= k < f -> time_at ps k < lo) /\
    (f < first + Z.of_nat n -> T = time_at ps f /\ lo <= time_at ps f) /\
    (forall k, f <= k < f + c -> time_at ps k < hi) /\ (f + c < first + Z.of_nat n -> hi <= time_at ps (f + c)).
Proof.
  pose proof (p_v_f0 W) as P0. pose proof (p_v_small W) as PS.
  induction n as [| n IH]; intros first L1 L2 Nn; [congruence |].
  destruct (Z.le_gt_cases lo (time_at ps first)) as [Q | Q].
  - destruct (lim_take (S n) first first 0 0 0 L1 ltac:(qlia) ltac:(qlia) L2 ltac:(qlia) Q) as (c' & d' & s' & E & B1 & B2 & B3).
    exists first, (time_at ps first), c', d', s'. split; [exact E |]. repeat split; try qlia; auto.
  - cbn [lim_single]. destruct (Z.leb_spec lo (time_at ps first)); [qlia |].
    replace (u64 (first + 1)) with (first + 1) by (unfold u64; rewrite Z.mod_small; qlia).
    destruct n as [| n].
    + cbn [lim_single]. exists (first + 1), (u64 (time_at ps first + pt_dur (at_ (parts t) first))), 0, 0, 0. split; [reflexivity |].
      repeat split; try qlia. intros k Lk. assert (k = first) as -> by qlia. exact Q.
    + rewrite step_time by qlia.
      destruct (IH (first + 1) ltac:(qlia) ltac:(qlia) ltac:(discriminate)) as (f & T & c & d' & s' & E & B1 & B2 & B3 & B4 & B5 & B6 & B7).
      exists f, T, c, d', s'. split; [exact E |]. split; [qlia |]. split; [qlia |]. split; [qlia |]. split; [| split; [| split]].
      * intros k Lk. destruct (Z.eq_dec k first) as [-> | E']; [exact Q | apply B4; qlia].
      * intros Lk. apply B5. qlia.
      * exact B6.
      * intros Lk. apply B7. qlia.
Qed.
Lemma lim_first_ok : forall n first cnt dur size, F D <= first -> first + Z.of_nat n <= N -> (n <> 0%nat) -> cnt = Z.of_nat n ->
  exists f T c d' s', lim_first n t lo first first (time_at ps first) cnt dur size = (f, T, c, d', s') /\
    first <= f <= first + Z.of_nat n /\ c = first + Z.of_nat n - f /\ (forall k, first <= k < f -> time_at ps k < lo) /\
    (f < N -> T = time_at ps f) /\ (f < first + Z.of_nat n -> lo <= time_at ps f).
Proof.
  pose proof (p_v_f0 W) as P0. pose proof (p_v_small W) as PS.
  induction n as [| n IH]; intros first cnt dur size L1 L2 Nn C; [congruence |]. cbn [lim_first].
  destruct (Z.leb_spec lo (time_at ps first)) as [Q | Q].
  - exists first, (time_at ps first), cnt, dur, size. split; [reflexivity |]. repeat split; try qlia.
  - replace (u64 (first + 1)) with (first + 1) by (unfold u64; rewrite Z.mod_small; qlia).
    replace (u64 (cnt - 1)) with (cnt - 1) by (unfold u64; rewrite Z.mod_small; qlia).
    destruct n as [| n].
    + cbn [lim_first]. eexists _, _, _, _, _. split; [reflexivity |]. repeat split; try qlia.
      * intros k Lk. assert (k = first) as -> by qlia. exact Q.
      * intros Lk. apply step_time. qlia.
    + rewrite step_time by qlia.
      destruct (IH (first + 1) (cnt - 1) (u64 (dur - pt_dur (at_ (parts t) first))) (u64 (size - pt_size (at_ (parts t) first))) ltac:(qlia) ltac:(qlia) ltac:(discriminate) ltac:(qlia))
        as (f & T & c & d' & s' & E & B1 & B2 & B3 & B4 & B5).
      exists f, T, c, d', s'. split; [exact E |]. split; [qlia |]. split; [qlia |]. split.
      * intros k Lk. destruct (Z.eq_dec k first) as [-> | E']; [exact Q | apply B3; qlia].
      * split; [exact B4 |]. intros Lk. apply B5. qlia.
Qed.
Lemma lim_last_ok : forall n part first cnt dur size, F D <= first -> part = first + cnt -> 0 <= cnt -> part + Z.of_nat n <= N ->
  (n <> 0%nat -> dur = time_at ps part - time_at ps first) ->
  exists c' d' s', lim_last n t hi part (time_at ps first) cnt dur size = (c', d', s') /\
    part <= first + c' <= part + Z.of_nat n /\ (forall k, part <= k < first + c' -> time_at ps k < hi) /\
    (first + c' < part + Z.of_nat n -> hi <= time_at ps (first + c')).
Proof.
  pose proof (p_v_f0 W) as P0. pose proof (p_v_small W) as PS.
  induction n as [| n IH]; intros part first cnt dur size L1 L2 L3 L4 Ed.
  - cbn [lim_last]. exists cnt, dur, size. split; [reflexivity |]. split; [qlia |]. split; [intros k; qlia | qlia].
  - cbn [lim_last]. specialize (Ed ltac:(discriminate)).
    assert (U : u64 (time_at ps first + dur) = time_at ps part).
    { rewrite Ed. pose proof (v_range W part). unfold u64. rewrite Z.mod_small; qlia. }
    rewrite U. destruct (Z.leb_spec hi (time_at ps part)) as [Q | Q].
    + exists cnt, dur, size. split; [reflexivity |]. split; [qlia |]. split; [intros k; qlia |]. intros _. rewrite <- L2. exact Q.
    + replace (u64 (cnt + 1)) with (cnt + 1) by (unfold u64; rewrite Z.mod_small; qlia).
      destruct (IH (part + 1) first (cnt + 1) (u64 (dur + pt_dur (at_ (parts t) part))) (u64 (size + pt_size (at_ (parts t) part))))
        as (c' & d' & s' & E & B1 & B2 & B3); try qlia.
      { intros Nn. rewrite Ed. apply step_dur; qlia. }
      exists c', d', s'. split; [exact E |]. split; [qlia |]. split.
      * intros k Lk. destruct (Z.eq_dec k part) as [-> | E']; [exact Q | apply B2; qlia].
      * intros Lk. apply B3. qlia.
Qed.

Lemma fmono_le i j : 0 <= i <= j -> j <= K -> F i <= F j.
Proof. intros L1 L2. destruct (Z.eq_dec i j) as [-> | Q]; [qlia |]. pose proof (v_fmono W i j ltac:(qlia) ltac:(qlia)). qlia. Qed.

Lemma limiter_ok : (forall i j, 0 <= i < j -> j < N -> time_at ps i < time_at ps j) ->
  let l := applyLimiter t lo hi in
  let a := lv_firstPart t l (l_min l) in let b := lv_firstPart t l (l_max l - 1) + lv_parts t l (l_max l - 1) in
  D <= l_min l < l_max l /\ l_max l <= K /\ F D <= a <= b /\ b <= N /\ lv_totalParts t l = b - a /\
  (forall k, F D <= k < N -> (a <= k < b <-> lo <= time_at ps k < hi)) /\ (a < b -> lv_time t l (l_min l) = time_at ps a).
Proof.
  intros Strict. pose proof (p_v_dk W) as DK. pose proof (p_v_del W) as Vd. pose proof (p_v_end W) as Ve. pose proof (p_v_f0 W) as P0. pose proof (p_v_fK W) as FK.
  unfold applyLimiter, count. rewrite Vd, Ve.
  destruct (lim_keys_ok (Z.to_nat (K - D)) D D) as (mn & mx & E & B1 & B2 & B3 & B4 & B5 & B6 & B7); [qlia | qlia | left; split; [reflexivity | intros k; qlia] | intros k; qlia |].
  rewrite E. set (mx' := if mx <=? mn then mn + 1 else mx).
  assert (Mx : mx' = mn + 1 \/ mn + 1 < mx' /\ mx' = mx) by (unfold mx'; destruct (Z.leb_spec mx mn); qlia).
  assert (MxK : mn < mx' <= K) by (unfold mx'; destruct (Z.leb_spec mx mn); qlia).
  assert (MM : mx <= mx') by (unfold mx'; destruct (Z.leb_spec mx mn); qlia).
  rewrite (v_ktime W mn), (v_kfirst W mn), (v_kparts W mn) by qlia. fold (kt mn).
  pose proof (fmono_le D mn ltac:(qlia) ltac:(qlia)) as F1. pose proof (v_fmono W mn (mn + 1) ltac:(qlia) ltac:(qlia)) as F2. pose proof (fmono_le (mn + 1) K ltac:(qlia) ltac:(qlia)) as F3.
  (* packets before key mn are before lo *)
  assert (Low : forall k, F D <= k < F mn -> time_at ps k < lo).
  { intros k Lk. destruct B6 as [-> | B6]; [qlia |]. pose proof (Strict k (F mn) ltac:(qlia) ltac:(qlia)). unfold kt in B6. qlia. }
  (* packets of key mx and later are at hi or later *)
  assert (High : forall k, F mx <= k < N -> hi <= time_at ps k).
  { intros k Lk. destruct (Z.eq_dec mx K) as [-> | Q]; [qlia |]. specialize (B5 ltac:(qlia)). unfold kt in B5.
    pose proof (fmono_le 0 mx ltac:(qlia) ltac:(qlia)). rewrite (p_F0 W) in *. pose proof (v_sorted W (F mx) k ltac:(qlia) ltac:(qlia)). qlia. }
  destruct (Z.eqb_spec (mn + 1) mx') as [Q | Q].
  - destruct (lim_single_ok (Z.to_nat (F (mn + 1) - F mn)) (F mn) ltac:(qlia) ltac:(qlia) ltac:(qlia)) as (f & T & c & d' & s' & E1 & C1 & C2 & C3 & C4 & C5 & C6 & C7).
    unfold kt. rewrite E1. rewrite <- Q. cbv zeta. unfold lv_totalParts, lv_firstPart, lv_parts, lv_time. cbn [l_min l_max l_first l_time l_minparts l_maxparts].
    replace (mn + 1 - 1) with mn by qlia. rewrite !Z.eqb_refl. rewrite Z2Nat.id in * by qlia. replace (F mn + (F (mn + 1) - F mn)) with (F (mn + 1)) in * by qlia.
    split; [qlia |]. split; [qlia |]. split; [qlia |]. split; [qlia |]. split; [qlia |]. split.
    + intros k Lk. pose proof (Low k) as X1.
      assert (X2 : F (mn + 1) <= k -> hi <= time_at ps k).
      { intros X. apply High. pose proof (fmono_le mx (mn + 1) ltac:(qlia) ltac:(qlia)). qlia. }
      split.
      * intros Lk2. split; [| apply C6; qlia]. destruct (C5 ltac:(qlia)) as (_ & C5'). pose proof (v_sorted W f k ltac:(qlia) ltac:(qlia)). qlia.
      * intros (T1 & T2). destruct (Z.lt_ge_cases k (F mn)) as [Y | Y]; [specialize (X1 ltac:(qlia)); qlia |].
        destruct (Z.lt_ge_cases k f) as [Y2 | Y2]; [specialize (C4 k ltac:(qlia)); qlia |].
        destruct (Z.lt_ge_cases k (f + c)) as [Y3 | Y3]; [qlia |].
        destruct (Z.lt_ge_cases k (F (mn + 1))) as [Y4 | Y4]; [| specialize (X2 Y4); qlia].
        specialize (C7 ltac:(qlia)). pose proof (v_sorted W (f + c) k ltac:(qlia) ltac:(qlia)). qlia.
    + intros Lab. apply C5. qlia.
  - destruct Mx as [Mx | (Mx1 & Mx2)]; [qlia |]. rewrite Mx2 in *. clear Mx2 mx' MM.
    destruct (lim_first_ok (Z.to_nat (F (mn + 1) - F mn)) (F mn) (F (mn + 1) - F mn) (k_dur (at_ (keys t) mn)) (k_size (at_ (keys t) mn)) ltac:(qlia) ltac:(qlia) ltac:(qlia) ltac:(qlia))
      as (f & T & c & d' & s' & E1 & C1 & C2 & C3 & C4 & C5).
    unfold kt. rewrite E1. rewrite (v_ktime W (mx - 1)), (v_kfirst W (mx - 1)), (v_kparts W (mx - 1)) by qlia.
    pose proof (fmono_le (mn + 1) (mx - 1) ltac:(qlia) ltac:(qlia)) as F4. pose proof (v_fmono W (mx - 1) mx ltac:(qlia) ltac:(qlia)) as F5. pose proof (fmono_le mx K ltac:(qlia) ltac:(qlia)) as F6.
    replace (mx - 1 + 1) with mx by qlia.
    destruct (lim_last_ok (Z.to_nat (F mx - F (mx - 1))) (F (mx - 1)) (F (mx - 1)) 0 0 0 ltac:(qlia) ltac:(qlia) ltac:(qlia) ltac:(qlia) ltac:(qlia))
      as (c' & d2 & s2 & E2 & G1 & G2 & G3).
    rewrite E2. cbv zeta. unfold lv_totalParts, lv_firstPart, lv_parts, lv_time. cbn [l_min l_max l_first l_time l_minparts l_maxparts].
    rewrite Z.eqb_refl. destruct (Z.eqb_spec (mx - 1) mn); [qlia |]. destruct (Z.eqb_spec (mx - 1 + 1) mx); [| qlia]. rewrite (v_kfirst W (mx - 1)) by qlia.
    rewrite Z2Nat.id in * by qlia. replace (F mn + (F (mn + 1) - F mn)) with (F (mn + 1)) in * by qlia. replace (F (mx - 1) + (F mx - F (mx - 1))) with (F mx) in * by qlia.
    split; [qlia |]. split; [qlia |]. split; [qlia |]. split; [qlia |]. split; [qlia |].
    assert (Mid : lo < time_at ps (F (mn + 1))) by (apply (B7 (mn + 1)); qlia).
    split.
    + intros k Lk. split.
      * intros Lk2. split.
        -- destruct (Z.lt_ge_cases k (F (mn + 1))) as [Y | Y].
           ++ specialize (C5 ltac:(qlia)). pose proof (v_sorted W f k ltac:(qlia) ltac:(qlia)). qlia.
           ++ pose proof (v_sorted W (F (mn + 1)) k ltac:(qlia) ltac:(qlia)). qlia.
        -- destruct (Z.lt_ge_cases k (F (mx - 1))) as [Y | Y]; [| apply G2; qlia].
           pose proof (v_sorted W k (F (mx - 1)) ltac:(qlia) ltac:(qlia)). specialize (B4 (mx - 1) ltac:(qlia)). unfold kt in B4. qlia.
      * intros (T1 & T2). destruct (Z.lt_ge_cases k (F mn)) as [Y | Y]; [specialize (Low k ltac:(qlia)); qlia |].
        destruct (Z.lt_ge_cases k f) as [Y2 | Y2]; [specialize (C3 k ltac:(qlia)); qlia |].
        destruct (Z.lt_ge_cases k (F (mx - 1) + c')) as [Y3 | Y3]; [qlia |].
        destruct (Z.lt_ge_cases k (F mx)) as [Y4 | Y4]; [| specialize (High k ltac:(qlia)); qlia].
        specialize (G3 ltac:(qlia)). pose proof (v_sorted W (F (mx - 1) + c') k ltac:(qlia) ltac:(qlia)). qlia.
    + intros Lab. apply C4. qlia.
Qed.
End Lim.
