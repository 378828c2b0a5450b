From Verif Require Import Common CommonFacts Meta_Model Meta_Spec.

Ltac zcmp := repeat match goal with
  | |- context [?a <=? ?b] => destruct (Z.leb_spec a b)
  | |- context [?a <? ?b] => destruct (Z.ltb_spec a b)
  | |- context [?a =? ?b] => destruct (Z.eqb_spec a b)
  end; cbn [andb orb negb].

(** * Rings *)
Definition ringok {A} (t : tbl A) : Prop :=
  1 <= t_rc t < 2 ^ 32 /\ 0 <= t_del t <= t_end t /\ t_end t < 2 ^ 31 /\ t_end t - t_del t <= t_rc t /\
  t_start t = t_del t /\ t_pres t = t_end t - t_del t.

Lemma slot_eq {A} (t : tbl A) r : 1 <= t_rc t -> slot t r = r mod t_rc t.
Proof. intros H. unfold slot. destruct (Z.eqb_spec (t_rc t) 0); lia. Qed.
Lemma mod_close a b n : 0 < n -> a mod n = b mod n -> - n < a - b < n -> a = b.
Proof.
  intros H E L. pose proof (Z.div_mod a n ltac:(lia)). pose proof (Z.div_mod b n ltac:(lia)).
  assert (a - b = n * (a / n - b / n)) by (rewrite Z.mul_sub_distr_l; lia).
  assert (a / n - b / n = 0) by nia. nia.
Qed.
Lemma at_put {A} (t : tbl A) r a i : 1 <= t_rc t -> - t_rc t < i - r < t_rc t ->
  at_ (put t r a) i = if i =? r then a else at_ t i.
Proof.
  intros H L. change (at_ (put t r a) i) with (if slot t i =? slot t r then a else t_cell t (slot t i)).
  unfold at_. rewrite !slot_eq by lia.
  destruct (Z.eqb_spec i r) as [-> | N]. { rewrite Z.eqb_refl. reflexivity. }
  destruct (Z.eqb_spec (i mod t_rc t) (r mod t_rc t)) as [E | E]; [| reflexivity].
  apply mod_close in E; lia.
Qed.
Lemma at_upd {A} (t : tbl A) r f i : 1 <= t_rc t -> - t_rc t < i - r < t_rc t ->
  at_ (upd t r f) i = if i =? r then f (at_ t r) else at_ t i.
Proof. intros H L. unfold upd. apply at_put; assumption. Qed.

Definition agree {A} (t t' : tbl A) : Prop :=
  t_start t' = t_start t /\ t_del t' = t_del t /\ t_pres t' = t_pres t /\ t_end t' = t_end t /\
  (forall i, t_del t <= i < t_end t -> at_ t' i = at_ t i).
Lemma agree_refl {A} (t : tbl A) : agree t t.
Proof. repeat split; reflexivity. Qed.
Lemma copy_header {A} n : forall (old new : tbl A) i,
  t_rc (copy_cells n old new i) = t_rc new /\ t_start (copy_cells n old new i) = t_start new /\
  t_del (copy_cells n old new i) = t_del new /\ t_pres (copy_cells n old new i) = t_pres new /\
  t_end (copy_cells n old new i) = t_end new.
Proof.
  induction n as [| n IH]; intros old new i; cbn [copy_cells]. { auto. }
  destruct (IH old (put new i (at_ old i)) (i + 1)) as (a & b & c & d & e).
  rewrite a, b, c, d, e. auto.
Qed.
Lemma copy_at {A} n : forall (old new : tbl A) i j, 1 <= t_rc new ->
  i + Z.of_nat n - t_rc new <= j < i + t_rc new ->
  at_ (copy_cells n old new i) j = if (i <=? j) && (j <? i + Z.of_nat n) then at_ old j else at_ new j.
Proof.
  induction n as [| n IH]; intros old new i j H L2; cbn [copy_cells].
  - zcmp; try reflexivity; lia.
  - assert (E : t_rc (put new i (at_ old i)) = t_rc new) by reflexivity.
    rewrite IH by (rewrite ?E; lia). rewrite at_put by lia.
    zcmp; subst; try reflexivity; try lia.
Qed.
Lemma resize_agree {A} (z : A) t rc : ringok t -> t_end t - t_del t <= rc < 2 ^ 32 -> 1 <= rc ->
  agree t (resizeTbl z t rc) /\ t_rc (resizeTbl z t rc) = rc /\ ringok (resizeTbl z t rc).
Proof.
  intros (R1 & R2 & R3 & R4 & R5 & R6) L1 L2. unfold resizeTbl.
  set (new := mktbl (u32 rc) (t_start t) (t_del t) (t_pres t) (t_end t) (fun _ => z)).
  assert (E : t_rc new = rc) by (unfold new; cbn [t_rc]; unfold u32; lia).
  destruct (copy_header (Z.to_nat (t_end t - t_start t)) t new (t_start t)) as (a & b & c & d & e).
  split; [| split].
  - split; [rewrite b; reflexivity |]. split; [rewrite c; reflexivity |]. split; [rewrite d; reflexivity |].
    split; [rewrite e; reflexivity |]. intros i Hi. rewrite copy_at by lia.
    zcmp; try reflexivity; lia.
  - rewrite a. exact E.
  - unfold ringok. rewrite a, b, c, d, e, E. unfold new; cbn [t_start t_del t_pres t_end]. lia.
Qed.

(** * Lists of groups *)
Lemma rev_case {A} (l : list A) : l = [] \/ exists r a, l = r ++ [a].
Proof. destruct (rev l) as [| a r] eqn:E.
  - left. rewrite <- (rev_involutive l), E. reflexivity.
  - right. exists (rev r), a. rewrite <- (rev_involutive l), E. reflexivity.
Qed.
Lemma join_snoc {A} op (r : list (list A)) g a :
  join op (r ++ [g]) a = if op g a then (r ++ [g]) ++ [[a]] else r ++ [g ++ [a]].
Proof. unfold join. rewrite rev_app_distr. cbn [rev app]. rewrite rev_involutive. reflexivity. Qed.
Lemma groups_snoc v ps p : groups v (ps ++ [p]) = join (key_opens v) (groups v ps) p.
Proof. unfold groups. rewrite fold_left_app. reflexivity. Qed.
Lemma fragments_snoc gs g : fragments (gs ++ [g]) = join frag_opens (fragments gs) g.
Proof. unfold fragments. rewrite fold_left_app. reflexivity. Qed.
Lemma join_concat {A} op (gs : list (list A)) a : List.concat (join op gs a) = List.concat gs ++ [a].
Proof.
  destruct (rev_case gs) as [-> | (r & g & ->)]; [reflexivity |]. rewrite join_snoc.
  destruct (op g a); rewrite !concat_app; cbn [List.concat app]; rewrite ?app_nil_r, ?app_assoc; reflexivity.
Qed.
Lemma join_nonempty {A} op (gs : list (list A)) a : Forall (fun g => g <> []) gs -> Forall (fun g => g <> []) (join op gs a).
Proof.
  destruct (rev_case gs) as [-> | (r & g & ->)]; intros H. { repeat constructor. discriminate. }
  rewrite join_snoc. destruct (op g a).
  - apply Forall_app. split; [exact H |]. repeat constructor. discriminate.
  - apply Forall_app in H as (H & _). apply Forall_app. split; [exact H |]. repeat constructor.
    destruct g; discriminate.
Qed.
Lemma fold_join {A} op (l : list A) : List.concat (fold_left (join op) l []) = l /\ Forall (fun g => g <> []) (fold_left (join op) l []).
Proof.
  induction l as [| a l IH] using rev_ind. { split; [reflexivity | constructor]. }
  rewrite fold_left_app. cbn [fold_left]. destruct IH as (C & N). split.
  - rewrite join_concat, C. reflexivity.
  - apply join_nonempty, N.
Qed.
Lemma groups_concat v ps : List.concat (groups v ps) = ps.
Proof. apply fold_join. Qed.
Lemma groups_nonempty v ps : Forall (fun g => g <> []) (groups v ps).
Proof. apply fold_join. Qed.
Lemma fragments_concat gs : List.concat (fragments gs) = gs.
Proof. apply fold_join. Qed.
Lemma fragments_nonempty gs : Forall (fun g => g <> []) (fragments gs).
Proof. apply fold_join. Qed.

Lemma before_app {A} j (a b : list (list A)) : (j <= List.length a)%nat -> before j (a ++ b) = before j a.
Proof. intros H. unfold before. rewrite firstn_app. replace (j - List.length a)%nat with O by lia. cbn [firstn]. rewrite app_nil_r. reflexivity. Qed.
Lemma before_all {A} (a b : list (list A)) : before (List.length a) (a ++ b) = Z.of_nat (List.length (List.concat a)).
Proof. unfold before. rewrite firstn_app, Nat.sub_diag, firstn_all. cbn [firstn]. rewrite app_nil_r. reflexivity. Qed.
Lemma before_succ {A} (gs : list (list A)) : forall j g, nth_error gs j = Some g ->
  before (S j) gs = before j gs + Z.of_nat (List.length g).
Proof.
  unfold before. induction gs as [| h gs IH]; intros [| j] g E; try discriminate.
  - injection E as ->. cbn [firstn List.concat]. rewrite app_nil_r. cbn [List.length]. lia.
  - cbn [nth_error] in E. specialize (IH _ _ E).
    change (firstn (S (S j)) (h :: gs)) with (h :: firstn (S j) gs).
    change (firstn (S j) (h :: gs)) with (h :: firstn j gs).
    cbn [List.concat]. rewrite !app_length. lia.
Qed.
Lemma before_mono {A} (gs : list (list A)) i j : (i <= j)%nat -> before i gs <= before j gs.
Proof.
  unfold before. revert i j. induction gs as [| h gs IH]; intros i j H. { rewrite !firstn_nil. lia. }
  destruct i as [| i]. { cbn [firstn List.concat List.length]. lia. }
  destruct j as [| j]; [lia |]. cbn [firstn List.concat]. rewrite !app_length.
  specialize (IH i j ltac:(lia)). lia.
Qed.
Lemma before_strict {A} (gs : list (list A)) i j : Forall (fun g => g <> []) gs -> (i < j <= List.length gs)%nat -> before i gs < before j gs.
Proof.
  intros N H. destruct (nth_error gs i) as [g |] eqn:E.
  2: { apply nth_error_None in E. lia. }
  pose proof (before_succ _ _ _ E). pose proof (before_mono gs (S i) j ltac:(lia)).
  apply nth_error_In in E. rewrite Forall_forall in N. specialize (N _ E). destruct g; [congruence |]. cbn [List.length] in *. lia.
Qed.
Lemma before_bound {A} (gs : list (list A)) j : 0 <= before j gs <= Z.of_nat (List.length (List.concat gs)).
Proof.
  split; [unfold before; lia |]. replace (Z.of_nat (List.length (List.concat gs))) with (before (Nat.max j (List.length gs)) gs).
  - apply before_mono. lia.
  - unfold before. rewrite firstn_all2 by lia. reflexivity.
Qed.

Lemma filter_len_le {A} (f : A -> bool) l : (List.length (filter f l) <= List.length l)%nat.
Proof. induction l as [| a l IH]; cbn [filter List.length]; [lia |]. destruct (f a); cbn [List.length]; lia. Qed.
Lemma filter_seq_cut (f : nat -> bool) n k : (k <= n)%nat -> (forall j, (j < k)%nat -> f j = true) -> (forall j, (k <= j < n)%nat -> f j = false) ->
  List.length (filter f (seq 0 n)) = k.
Proof.
  revert k. induction n as [| n IH]; intros k H T F. { cbn. lia. }
  rewrite seq_S, filter_app, app_length, Nat.add_0_l. cbn [filter].
  destruct (Nat.eq_dec k (S n)) as [-> | N].
  - rewrite (T n) by lia. rewrite (IH n); [cbn [List.length]; lia | lia | |]; intros; [apply T; lia | lia].
  - rewrite (F n) by lia. rewrite (IH k); [cbn [List.length]; lia | lia | |]; intros; [apply T; lia | apply F; lia].
Qed.
(** The number of expired groups, characterised. *)
Lemma expired_spec {A} d (gs : list (list A)) : Forall (fun g => g <> []) gs ->
  (expired d gs <= List.length gs)%nat /\ (forall j, (j < List.length gs)%nat -> ((j < expired d gs)%nat <-> before j gs < Z.of_nat d)).
Proof.
  intros N.
  assert (E : exists k, (k <= List.length gs)%nat /\ (forall j, (j < k)%nat -> before j gs < Z.of_nat d) /\
             (forall j, (k <= j < List.length gs)%nat -> Z.of_nat d <= before j gs)).
  { generalize (Nat.le_refl (List.length gs)). generalize (List.length gs) at 1 3 4 as n.
    induction n as [| n IH]; intros H. { exists O. split; [lia |]. split; intros; lia. }
    destruct (IH ltac:(lia)) as (k & K1 & K2 & K3).
    destruct (Nat.eq_dec k n) as [-> | NE].
    - destruct (Z_lt_le_dec (before n gs) (Z.of_nat d)) as [G | G].
      + exists (S n). split; [lia |]. split; [| intros; lia]. intros j Hj. pose proof (before_mono gs j n ltac:(lia)). lia.
      + exists n. split; [lia |]. split; [exact K2 |]. intros j Hj. replace j with n by lia. exact G.
    - exists k. split; [lia |]. split; [exact K2 |]. intros j Hj.
      pose proof (K3 k ltac:(lia)). pose proof (before_mono gs k j ltac:(lia)). lia. }
  destruct E as (k & K1 & K2 & K3).
  assert (X : expired d gs = k).
  { unfold expired. apply filter_seq_cut; [exact K1 | |]; intros j Hj.
    - specialize (K2 j Hj). zcmp; [reflexivity | lia].
    - specialize (K3 j Hj). zcmp; [lia | reflexivity]. }
  rewrite X. split; [exact K1 |]. intros j Hj. split; [apply K2 |]. intros L.
  destruct (Nat.lt_ge_cases j k) as [G | G]; [exact G |]. specialize (K3 j ltac:(lia)). lia.
Qed.
Lemma expired_unique {A} d (gs : list (list A)) k : Forall (fun g => g <> []) gs -> (k <= List.length gs)%nat ->
  (forall j, (j < List.length gs)%nat -> ((j < k)%nat <-> before j gs < Z.of_nat d)) -> expired d gs = k.
Proof.
  intros N H S. destruct (expired_spec d gs N) as (E1 & E2).
  destruct (Nat.lt_trichotomy (expired d gs) k) as [L | [L | L]]; [| exact L |].
  - specialize (S (expired d gs) ltac:(lia)). specialize (E2 (expired d gs) ltac:(lia)). lia.
  - specialize (S k ltac:(lia)). specialize (E2 k ltac:(lia)). lia.
Qed.

(** * Times *)
Definition ordered (ps : list packet) : Prop := forall i p q, nth_error ps i = Some p -> nth_error ps (S i) = Some q -> p_time p <= p_time q.
Lemma lasttime_snoc ps p : lasttime (ps ++ [p]) = p_time p.
Proof. unfold lasttime. rewrite rev_app_distr. reflexivity. Qed.
Lemma accepted_snoc ps p : forall l,
  accepted l (ps ++ [p]) = accepted l ps ++ (if p_time p <? match accepted l ps with [] => l | _ => lasttime (accepted l ps) end then [] else [p]).
Proof.
  induction ps as [| q ps IH]; intros l; cbn [app accepted].
  - destruct (p_time p <? l); reflexivity.
  - destruct (Z.ltb_spec (p_time q) l) as [L | L]; [apply IH |].
    rewrite IH. cbn [app]. f_equal. f_equal.
    destruct (accepted (p_time q) ps) as [| x r]; [reflexivity |].
    replace (lasttime (q :: x :: r)) with (lasttime (x :: r)); [reflexivity |].
    unfold lasttime. cbn [rev]. destruct (rev r ++ [x]) eqn:E; [destruct (rev r); discriminate | reflexivity].
Qed.
Lemma accepted_snoc0 ps p : accepted 0 (ps ++ [p]) = accepted 0 ps ++ (if p_time p <? lasttime (accepted 0 ps) then [] else [p]).
Proof. rewrite accepted_snoc. destruct (accepted 0 ps); reflexivity. Qed.
