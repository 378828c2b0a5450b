(** C50: the growable buffer. *)
From Verif Require Import Common CommonFacts CommonMore Mem_Model Mem_Proofs RPtr_Model RPtr_Spec RPtr_Proofs.

(** Whatever the heap does (fail, return any junk), a history of operations on a new buffer or
    on a read-only view never leaves the allocated block and yields exactly the bytes of the
    corresponding operations on byte strings, as long as less than 2^32 bytes are written. *)
Theorem buffer_history_partial : forall grow, (forall n j, 0 <= n -> grow n = Some j -> len j = n) ->
  forall s, s = rp_new \/ (exists d, s = rp_view d) ->
  forall os, Forall arg_ok os -> Forall (fun o => match o with OAllocate l => 0 <= l < 4294967296 | _ => True end) os ->
  rp_size s + written os < 4294967296 ->
  exists bs s', rp_run grow s os = Some (bs, s') /\ rp_data s' = effects os bs (rp_data s) /\ rp_size s' = len (rp_data s')
    /\ List.length bs = List.length os.
Proof.
  intros grow Hg s Hs os Ha Hl Hw.
  assert (Hi : rp_inv s).
  { destruct Hs as [-> |(d & ->)]; unfold rp_inv, rp_max; cbn; [lia|]. pose proof (len_nonneg d). lia. }
  destruct (run_ok grow Hg os s Hi Ha Hl Hw) as (bs & s' & E & I & D & L). exists bs, s'.
  split; auto. split; auto. split; auto. symmetry. now apply data_len.
Qed.

(** Operations fail only for want of memory (or on a read-only view, or for data that was
    written beyond the reserved space). *)
Theorem buffer_failures : forall grow, (forall n j, 0 <= n -> grow n = Some j -> len j = n) ->
  forall s o s', 0 <= rp_size s <= rp_max s -> arg_ok o ->
  match o with OAllocate l => 0 <= l < 4294967296 | _ => True end -> rp_size s + arg_size o < 4294967296 ->
  rp_step grow s o = Some (false, s') ->
  rp_ro s = true \/ (exists n, grow n = None) \/ exists p, o = OAppendWritten p /\ rp_max s < rp_size s + len p.
Proof. intros grow Hg s o s' Hi Ha Hl Hs E. eapply step_fails; eauto. Qed.

Definition good_heap (n : Z) : option (list Z) := Some (repeat 170 (Z.to_nat n)).
Example buffer_case :
  exists s, rp_run good_heap rp_new [OAppend [1; 2; 3]; OAllocate 10; OAppendWritten [4; 5]; OShift 2; OAppendNull 2; OTruncate 4; OAssign [9]] = Some ([true; true; true; true; true; true; true], s)
  /\ rp_data s = [9] /\ rp_max s = 10.
Proof. eexists. split; [vm_compute; reflexivity|]. split; reflexivity. Qed.
Example buffer_case_heap : forall n j, 0 <= n -> good_heap n = Some j -> len j = n.
Proof. intros n j Hn H. injection H as <-. rewrite len_repeat. lia. Qed.

(** F42: appending so that the size passes 2^32 requests the size modulo 2^32 and then writes
    outside the block. *)
Theorem buffer_4gib_refuted : forall grow s p, rp_size s = rp_max s -> 0 < rp_size s < 4294967296 ->
  rp_size s + len p = 4294967296 -> append grow s p = None.
Proof.
  intros grow s p Hs Hr He. unfold append, allocate.
  replace (len p + rp_size s) with 4294967296 by lia. change (u32 4294967296) with 0.
  replace (rp_max s <? 0) with false by lia. cbn [negb]. unfold poke.
  replace ((0 <=? rp_size s) && (rp_size s + len p <=? len (rp_mem s))) with false by (unfold rp_max in Hs; lia).
  reflexivity.
Qed.
(** F43: appending a full buffer to itself reads through the pointer that realloc freed. *)
Theorem buffer_self_refuted : forall grow s, rp_size s = rp_max s -> 0 < rp_size s < 2147483648 -> rp_ro s = false ->
  (forall n j, 0 <= n -> grow n = Some j -> len j = n) -> (forall n, grow n <> None) -> append_self grow s = None.
Proof.
  intros grow s Hs Hr Hro Hg Hn. unfold append_self, allocate. rewrite u32_id by lia.
  replace (rp_max s <? rp_size s + rp_size s) with true by lia. rewrite Hro.
  destruct (grow (rp_size s + rp_size s - rp_max s)) as [j|] eqn:E; [|exfalso; eapply Hn; eauto].
  cbn [negb]. pose proof (fun H => Hg _ _ H E) as Hj; specialize (Hj ltac:(lia)). unfold rp_max in *. cbn. rewrite len_app.
  now replace (len (rp_mem s) + len j =? len (rp_mem s)) with false by lia.
Qed.

(** Ordering: a strict total order on contents (shorter first, then byte by byte). *)
Theorem buffer_order : forall a b c,
  rp_size a = len (rp_data a) -> rp_size b = len (rp_data b) -> rp_size c = len (rp_data c) ->
  rp_lt a a = false /\
  (rp_lt a b = true -> rp_lt b c = true -> rp_lt a c = true) /\
  (rp_lt a b = false -> rp_lt b a = false -> rp_data a = rp_data b) /\
  (rp_lt a b = true -> rp_data a <> rp_data b).
Proof.
  intros a b c Ha Hb Hc. unfold rp_lt.
  assert (L : forall x y : rptr, rp_size x = len (rp_data x) -> rp_size y = len (rp_data y) -> rp_size x = rp_size y -> List.length (rp_data x) = List.length (rp_data y)) by (unfold len; intros; lia).
  assert (Irr : forall x, memcmp x x = 0) by (induction x as [|h t IH]; cbn; auto; now rewrite Z.eqb_refl).
  split; [|split; [|split]].
  - rewrite Z.eqb_refl. cbn. rewrite Irr. now destruct (rp_size a =? 0).
  - destruct (rp_size a =? rp_size b) eqn:E1; destruct (rp_size b =? rp_size c) eqn:E2; destruct (rp_size a =? rp_size c) eqn:E3; cbn [negb]; try lia.
    destruct (rp_size a =? 0) eqn:Z1; [discriminate|]. destruct (rp_size b =? 0) eqn:Z2; [discriminate|].
    intros H1 H2. apply Z.ltb_lt. apply (memcmp_trans _ (rp_data b)); try (apply L; auto; lia); lia.
  - rewrite (Z.eqb_sym (rp_size b)). destruct (rp_size a =? rp_size b) eqn:E1; cbn [negb]; [|lia].
    apply Z.eqb_eq in E1. rewrite <- E1. destruct (rp_size a =? 0) eqn:Z1.
    + intros _ _. apply Z.eqb_eq in Z1. transitivity (@nil Z); [|symmetry]; apply len_zero; lia.
    + intros H1 H2. apply memcmp_zero; [apply L; auto|]. rewrite (memcmp_anti (rp_data b)) in H2 by (symmetry; apply L; auto). lia.
  - destruct (rp_size a =? rp_size b) eqn:E1; cbn [negb].
    + destruct (rp_size a =? 0); [discriminate|]. intros H1 H2. rewrite H2, Irr in H1. discriminate.
    + intros _ H2. apply Z.eqb_neq in E1. apply E1. rewrite Ha, Hb, H2. reflexivity.
Qed.

(** F44: equality is inverted: two non-empty buffers of the same size compare equal exactly if
    their contents differ. *)
Theorem buffer_equal_refuted : forall a b,
  rp_size a = len (rp_data a) -> rp_size b = len (rp_data b) -> rp_size a = rp_size b -> 0 < rp_size a ->
  (rp_eq a b = true <-> rp_data a <> rp_data b).
Proof.
  intros a b Ha Hb Hs H0. unfold rp_eq. rewrite Hs, Z.eqb_refl. cbn [negb]. replace (rp_size b =? 0) with false by lia.
  assert (L : List.length (rp_data a) = List.length (rp_data b)) by (unfold len in *; lia).
  pose proof (memcmp_zero _ _ L) as M. destruct (memcmp (rp_data a) (rp_data b) =? 0); cbn.
  - split; [discriminate|]. intros H. exfalso. apply H. now apply M.
  - split; auto. intros _ H. apply M in H. discriminate.
Qed.
Example buffer_equal_case : rp_eq (rp_view [1; 2]) (rp_view [1; 2]) = false /\ rp_eq (rp_view [1; 2]) (rp_view [1; 3]) = true
  /\ rp_lt (rp_view [1; 2]) (rp_view [1; 3]) = true.
Proof. repeat split. Qed.

Print Assumptions buffer_history_partial.
Print Assumptions buffer_failures.
Print Assumptions buffer_4gib_refuted.
Print Assumptions buffer_self_refuted.
Print Assumptions buffer_order.
Print Assumptions buffer_equal_refuted.
