(** Proofs about the growable buffer. *)
From Verif Require Import Common CommonFacts CommonMore Mem_Model Mem_Proofs RPtr_Model RPtr_Spec.

Definition rp_inv (s : rptr) : Prop := 0 <= rp_size s <= rp_max s.
Definition grow_ok (grow : Z -> option (list Z)) : Prop := forall n j, 0 <= n -> grow n = Some j -> len j = n.

Section Facts.
Variable grow : Z -> option (list Z).
Hypothesis Hgrow : grow_ok grow.

Lemma data_len s : rp_inv s -> len (rp_data s) = rp_size s.
Proof. unfold rp_inv, rp_max, rp_data. intros H. apply len_takez. lia. Qed.

Lemma allocate_ok s l : rp_inv s -> 0 <= l < 4294967296 ->
  let '(ok, s1) := allocate grow s l in
  rp_inv s1 /\ rp_data s1 = rp_data s /\ rp_size s1 = rp_size s /\ (ok = true -> l <= rp_max s1) /\ (ok = false -> s1 = s)
  /\ rp_max s <= rp_max s1
  /\ (ok = false -> rp_ro s = true \/ exists n, grow n = None).
Proof.
  intros [H1 H2] Hl. unfold allocate. rewrite u32_id by lia.
  destruct (rp_max s <? l) eqn:E.
  - destruct (rp_ro s) eqn:Er; [repeat split; auto; try discriminate; lia|].
    destruct (grow (l - rp_max s)) as [j|] eqn:Eg; [|repeat split; auto; try discriminate; try lia; intros _; right; eauto].
    pose proof (Hgrow (l - rp_max s) j ltac:(lia) Eg) as Hj. unfold rp_inv, rp_data, rp_setmem, rp_max in *. cbn.
    rewrite len_app. repeat split; try lia; try discriminate.
    now rewrite takez_app by lia.
  - repeat split; auto; try discriminate; lia.
Qed.

Lemma poke_at (m : list Z) o p : 0 <= o -> o + len p <= len m ->
  exists m', poke m o p = Some m' /\ len m' = len m /\ takez o m' = takez o m /\ takez (o + len p) m' = takez o m ++ p.
Proof.
  intros Ho Hl. unfold poke. pose proof (len_nonneg p).
  replace ((0 <=? o) && (o + len p <=? len m)) with true by lia.
  eexists; split; [reflexivity|]. split; [apply len_splice; lia|]. unfold splice. split.
  - rewrite takez_app_exact; [reflexivity|]. rewrite len_takez; lia.
  - rewrite app_assoc, takez_app_exact; [reflexivity|]. rewrite len_app, len_takez; lia.
Qed.

Lemma step_ok s o : rp_inv s -> arg_ok o -> rp_size s + arg_size o < 4294967296 ->
  match o with OAllocate l => 0 <= l < 4294967296 | _ => True end ->
  exists b s', rp_step grow s o = Some (b, s') /\ rp_inv s' /\
    rp_data s' = (if b then effect o (rp_data s) else effect_failed o (rp_data s)) /\
    rp_size s' <= rp_size s + arg_size o.
Proof.
  intros Hi Ha Hs Hall. pose proof Hi as [Hi1 Hi2]. pose proof (data_len s Hi) as Hd.
  assert (App : forall s p, rp_inv s -> rp_size s + len p < 4294967296 ->
    exists b s', append grow s p = Some (b, s') /\ rp_inv s' /\
    rp_data s' = (if b then rp_data s ++ p else rp_data s) /\ rp_size s' <= rp_size s + len p).
  { clear s Hi Ha Hs Hi1 Hi2 Hd. intros s p Hi Hs. pose proof Hi as [Hi1 Hi2]. pose proof (len_nonneg p). unfold append.
    pose proof (allocate_ok s (len p + rp_size s) Hi ltac:(lia)) as HA.
    destruct (allocate grow s (len p + rp_size s)) as [ok s1]. destruct HA as ([A1 A1'] & A2 & A3 & A4 & A5 & _ & _).
    destruct ok; cbn [negb].
    - specialize (A4 eq_refl). destruct (poke_at (rp_mem s1) (rp_size s1) p) as (m & -> & M1 & M2 & M3); [lia|unfold rp_max in A4; lia|].
      exists true, (rp_setsize (rp_setmem s1 m) (rp_size s1 + len p)). split; auto.
      unfold rp_inv, rp_data, rp_max in *. cbn. rewrite M1, M3. rewrite A2. repeat split; lia.
    - exists false, s1. rewrite (A5 eq_refl). repeat split; auto; lia. }
  destruct o as [p|p|p|l|l|n|n|p]; cbn [rp_step effect effect_failed arg_size arg_ok] in *.
  - (* assign *) pose proof (len_nonneg p). unfold assign. pose proof (allocate_ok s (len p) Hi ltac:(lia)) as HA.
    destruct (allocate grow s (len p)) as [ok s1]. destruct HA as ([A1 A1'] & A2 & A3 & A4 & A5 & _ & _).
    destruct ok; cbn [negb].
    + specialize (A4 eq_refl). destruct (poke_at (rp_mem s1) 0 p) as (m & -> & M1 & M2 & M3); [lia|unfold rp_max in A4; lia|].
      exists true, (rp_setsize (rp_setmem s1 m) (len p)). split; auto.
      unfold rp_inv, rp_data, rp_max in *. cbn. cbn [Z.add] in M3. rewrite M1, M3, takez_0. cbn. repeat split; lia.
    + exists false, s1. rewrite (A5 eq_refl). repeat split; auto; lia.
  - apply App; auto.
  - (* append_written *) pose proof (len_nonneg p). unfold append_written. destruct (rp_max s <? rp_size s + len p) eqn:E.
    + exists false, s. repeat split; auto; lia.
    + destruct (poke_at (rp_mem s) (rp_size s) p) as (m & -> & M1 & M2 & M3); [lia|unfold rp_max in E; lia|].
      exists true, (rp_setsize (rp_setmem s m) (rp_size s + len p)). split; auto.
      unfold rp_inv, rp_data, rp_max in *. cbn. rewrite M1, M3. repeat split; lia.
  - (* appendNull *) unfold appendNull. pose proof (allocate_ok s (l + rp_size s) Hi ltac:(lia)) as HA.
    destruct (allocate grow s (l + rp_size s)) as [ok s1]. destruct HA as ([A1 A1'] & A2 & A3 & A4 & A5 & _ & _).
    destruct ok; cbn [negb].
    + specialize (A4 eq_refl). assert (Hr : len (repeat 0 (Z.to_nat l)) = l) by (rewrite len_repeat; lia).
      destruct (poke_at (rp_mem s1) (rp_size s1) (repeat 0 (Z.to_nat l))) as (m & -> & M1 & M2 & M3); [lia|unfold rp_max in A4; lia|].
      rewrite Hr in M3. exists true, (rp_setsize (rp_setmem s1 m) (rp_size s1 + l)). split; auto.
      unfold rp_inv, rp_data, rp_max in *. cbn. rewrite M1, M3, A2. repeat split; lia.
    + exists false, s1. rewrite (A5 eq_refl). repeat split; auto; lia.
  - (* allocate *) pose proof (allocate_ok s l Hi Hall) as HA.
    destruct (allocate grow s l) as [ok s1]. destruct HA as (A1 & A2 & A3 & _).
    exists ok, s1. rewrite A2. repeat split; try apply A1; try lia. now destruct ok.
  - (* shift *) unfold shift. destruct (rp_size s <=? n) eqn:E.
    + exists true, (rp_setsize s 0). split; auto. unfold rp_inv, rp_data, rp_max in *. cbn.
      rewrite dropz_all by lia. repeat split; lia.
    + unfold peek. replace ((0 <=? n) && (0 <=? rp_size s - n) && (n + (rp_size s - n) <=? len (rp_mem s))) with true by (unfold rp_max in *; lia).
      set (d := takez (rp_size s - n) (dropz n (rp_mem s))).
      assert (Ld : len d = rp_size s - n) by (unfold d, rp_max in *; rewrite len_takez; [lia|rewrite len_dropz; lia]).
      destruct (poke_at (rp_mem s) 0 d) as (m & -> & M1 & M2 & M3); [lia|unfold rp_max in *; lia|].
      exists true, (rp_setsize (rp_setmem s m) (rp_size s - n)). split; auto.
      unfold rp_inv, rp_data, rp_max in *. cbn. cbn [Z.add] in M3. rewrite Ld in M3. rewrite M1, M3, takez_0. cbn.
      repeat split; try lia. unfold d. clear -Hi1 Hi2 E Ha. unfold takez, dropz.
      rewrite skipn_firstn_comm. f_equal. lia.
  - (* truncate *) unfold truncate. destruct (n <? rp_size s) eqn:E.
    + exists true, (rp_setsize s n). split; auto. unfold rp_inv, rp_data, rp_max in *. cbn.
      rewrite takez_takez. rewrite Z.min_l by lia. repeat split; lia.
    + exists true, s. split; auto. rewrite takez_all by lia. repeat split; auto; lia.
  - (* copy *) unfold copy_from, truncate. destruct (0 <? rp_size s) eqn:E.
    + assert (Hi0 : rp_inv (rp_setsize s 0)) by (unfold rp_inv, rp_max in *; cbn; lia).
      destruct (App (rp_setsize s 0) p Hi0) as (b & s' & -> & B1 & B2 & B3); [cbn; lia|].
      exists b, s'. split; auto. split; auto. cbn in B3. split; [|lia]. rewrite B2. unfold rp_data. cbn. reflexivity.
    + destruct (App s p Hi) as (b & s' & -> & B1 & B2 & B3); [lia|].
      exists b, s'. split; auto. split; auto. split; [|lia]. rewrite B2.
      assert (rp_data s = []) by (apply len_zero; lia). now rewrite H.
Qed.

Definition alloc_ok (o : rop) : Prop := match o with OAllocate l => 0 <= l < 4294967296 | _ => True end.

Lemma run_ok os : forall s, rp_inv s -> Forall arg_ok os -> Forall alloc_ok os ->
  rp_size s + written os < 4294967296 ->
  exists bs s', rp_run grow s os = Some (bs, s') /\ rp_inv s' /\ rp_data s' = effects os bs (rp_data s) /\ List.length bs = List.length os.
Proof.
  induction os as [|o os IH]; intros s Hi Ha Hall Hw; cbn [rp_run].
  - exists [], s. auto.
  - inversion Ha as [|? ? Ha1 Ha2]; inversion Hall as [|? ? Hl1 Hl2]; subst. cbn [written] in Hw.
    assert (Hn : forall os, Forall arg_ok os -> 0 <= written os).
    { clear. induction 1 as [|o os H Ho IH]; cbn; [lia|].
      destruct o as [p|p|p|l|l|n|n|p]; cbn in *; try (pose proof (len_nonneg p)); lia. }
    specialize (Hn os Ha2).
    destruct (step_ok s o Hi Ha1) as (b & s1 & -> & I1 & D1 & S1); [lia|exact Hl1|].
    destruct (IH s1 I1 Ha2 Hl2) as (bs & s2 & E & I2 & D2 & L2); [lia|].
    cbn [snd fst]. rewrite E. exists (b :: bs), s2. split; auto. split; auto. cbn [effects]. rewrite D2, D1. cbn. auto.
Qed.

(** An operation can only fail when the memory is read-only or the heap is exhausted, or, for
    data written by the caller, when it did not fit. *)
Lemma step_fails s o s' : rp_inv s -> arg_ok o -> alloc_ok o -> rp_size s + arg_size o < 4294967296 ->
  rp_step grow s o = Some (false, s') ->
  rp_ro s = true \/ (exists n, grow n = None) \/ exists p, o = OAppendWritten p /\ rp_max s < rp_size s + len p.
Proof.
  intros Hi Ha Hall Hs E. pose proof Hi as [Hi1 Hi2].
  assert (App : forall s p s', rp_inv s -> rp_size s + len p < 4294967296 -> append grow s p = Some (false, s') ->
    rp_ro s = true \/ (exists n, grow n = None)).
  { clear s s' Hi Ha Hs Hi1 Hi2 E. intros s p s' Hi Hs E. pose proof Hi as [Hi1 Hi2]. pose proof (len_nonneg p). unfold append in E.
    pose proof (allocate_ok s (len p + rp_size s) Hi ltac:(lia)) as HA.
    destruct (allocate grow s (len p + rp_size s)) as [ok s1]. destruct HA as (_ & _ & _ & _ & _ & _ & A).
    destruct ok; cbn [negb] in E; [|auto]. destruct (poke (rp_mem s1) (rp_size s1) p); discriminate. }
  destruct o as [p|p|p|l|l|n|n|p]; cbn [rp_step arg_size arg_ok alloc_ok] in *.
  - pose proof (len_nonneg p). unfold assign in E. pose proof (allocate_ok s (len p) Hi ltac:(lia)) as HA.
    destruct (allocate grow s (len p)) as [ok s1]. destruct HA as (_ & _ & _ & _ & _ & _ & A).
    destruct ok; cbn [negb] in E; [destruct (poke (rp_mem s1) 0 p); discriminate|]. destruct (A eq_refl); auto.
  - destruct (App s p s' Hi ltac:(lia) E); auto.
  - unfold append_written in E. destruct (rp_max s <? rp_size s + len p) eqn:E2; [|destruct (poke (rp_mem s) (rp_size s) p); discriminate].
    right. right. exists p. split; auto. lia.
  - unfold appendNull in E. pose proof (allocate_ok s (l + rp_size s) Hi ltac:(lia)) as HA.
    destruct (allocate grow s (l + rp_size s)) as [ok s1]. destruct HA as (_ & _ & _ & _ & _ & _ & A).
    destruct ok; cbn [negb] in E; [destruct (poke (rp_mem s1) (rp_size s1) (repeat 0 (Z.to_nat l))); discriminate|]. destruct (A eq_refl); auto.
  - pose proof (allocate_ok s l Hi Hall) as HA. injection E as E. rewrite E in HA.
    destruct HA as (_ & _ & _ & _ & _ & _ & A). destruct (A eq_refl); auto.
  - destruct (shift s n); discriminate.
  - discriminate.
  - unfold copy_from in E. assert (Ht : rp_inv (truncate s 0) /\ rp_size (truncate s 0) = 0 /\ rp_ro (truncate s 0) = rp_ro s).
    { unfold truncate, rp_inv, rp_max in *. destruct (0 <? rp_size s) eqn:E0; cbn; repeat split; lia. }
    destruct Ht as (T1 & T2 & T3). apply App in E; auto; [|lia]. rewrite T3 in E. destruct E; auto.
Qed.
End Facts.

(** ** Comparison *)
Lemma memcmp_zero a : forall b, List.length a = List.length b -> (memcmp a b =? 0) = true <-> a = b.
Proof.
  induction a as [|x a IH]; intros [|y b] H; cbn in *; try lia; [tauto|].
  destruct (x =? y) eqn:E.
  - apply Z.eqb_eq in E. subst. rewrite IH by lia. split; [now intros ->|]. intros H2. now injection H2.
  - split; [lia|]. intros H2. injection H2 as -> _. lia.
Qed.
Lemma memcmp_anti a : forall b, List.length a = List.length b -> memcmp a b = - memcmp b a.
Proof.
  induction a as [|x a IH]; intros [|y b] H; cbn in *; try lia.
  rewrite (Z.eqb_sym y x). destruct (x =? y); [apply IH; lia|lia].
Qed.
Lemma memcmp_trans a : forall b c, List.length a = List.length b -> List.length b = List.length c ->
  memcmp a b < 0 -> memcmp b c < 0 -> memcmp a c < 0.
Proof.
  induction a as [|x a IH]; intros [|y b] [|z c] H1 H2; cbn in *; try lia.
  intros M1 M2. destruct (x =? y) eqn:E1; destruct (y =? z) eqn:E2; destruct (x =? z) eqn:E3; try lia.
  apply (IH b c); lia.
Qed.
