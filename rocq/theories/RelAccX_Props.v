(** C26, C27: records of named fields in shared memory. *)
From Verif Require Import Common CommonFacts CommonMore Mem_Model RelAccX_Model RelAccX_Spec RelAccX_Proofs RelAccX_Hist_Proofs.

(** For every layout, record count and history within capacity, on a page of zeroes that is large
    enough: nothing is accessed outside the page; another process that opens the page finds the
    same fields; the counters say how many records were deleted and added; a record is available
    exactly if it was added and not deleted; and every field of every record in the window holds
    what was written to it last, whatever else was written. Signed integers of 3 bytes and integers
    of 5 to 7 and 9 to 16 bytes are not covered (refuted below). *)
Theorem rax_history_partial : forall l cnt size ops,
  fits l cnt size -> NoDup (map d_name l) -> history l cnt (0, 0) ops ->
  let w := fold_left slide ops (0, 0) in
  exists s, (s0 <- build (repeat 0 (Z.to_nat size)) l cnt;; do_ops s0 ops) = Some s /\
    open (page s) = Some (Some s) /\
    getRCount (page s) = Some cnt /\ getRSize (page s) = Some (record_size l) /\
    getDeleted (page s) = Some (fst w) /\ getEndPos (page s) = Some (snd w) /\
    getPresent (page s) = Some (snd w - fst w) /\ getStartPos (page s) = Some (fst w mod 2 ^ 32) /\
    (forall r, isRecordAvailable (page s) r = Some ((fst w <=? r) && (r <? snd w))) /\
    (forall d r v, In d l -> fst w <= r < fst w + cnt -> last_written (d_name d) r ops None = Some v -> reads s d r v) /\
    (forall d r v, In d l -> fst w <= r < snd w -> last_written (d_name d) r ops None = Some (VString v) ->
       kind_of (d_type d) = KString -> getSize s (d_name d) r = Some (len (before_zero (takez (d_size d - 1) v)))).
Proof.
  intros l cnt size ops F N H. cbv zeta. destruct (build_ok l cnt size F) as (s0 & E0 & I0). rewrite E0.
  assert (W0 : okw cnt (0, 0)) by (unfold okw; cbn; destruct F as (_ & _ & _ & _ & Hc & _); lia).
  destruct (ops_ok l cnt size F N ops (0, 0) s0 (fun _ _ => None) I0 W0 (holds_start _ _ _ _) H) as (s & E & I & W & Hh).
  exists s. conjs.
  - exact E.
  - eapply open_ok; [exact F|reflexivity|exact I].
  - apply (i_cnt _ _ _ _ _ _ I).
  - apply (i_rs _ _ _ _ _ _ I).
  - apply (i_del _ _ _ _ _ _ I).
  - apply (i_end _ _ _ _ _ _ I).
  - apply (i_pres _ _ _ _ _ _ I).
  - apply (i_start _ _ _ _ _ _ I).
  - intros r. eapply available_ok. exact I.
  - intros d r v Hd Hr Hv. exact (reads_ok l cnt size F N _ s _ d r v I Hh Hd Hr Hv).
  - intros d r v Hd Hr Hv K. exact (size_ok l cnt size F N _ s _ d r v I Hh W Hd Hr Hv K).
Qed.

Ltac decl_tac := split; [vm_compute; split; congruence|split; [apply all_bytes_ok; reflexivity|split; [vm_compute; split; congruence|split; [vm_compute; split; congruence|vm_compute; discriminate]]]].
Ltac fits_tac := split; [repeat (apply Forall_cons; [decl_tac|]); apply Forall_nil|conjs; [discriminate|vm_compute; reflexivity..|vm_compute; congruence|vm_compute; reflexivity]].
Definition demo_decls : list decl := [(bs "pid", 0x13, 0); (bs "host", 0x30, 10); (bs "ofs", 0x27, 0); (bs "bin", 0x40, 5); (bs "s", 0x10, 0)].
Definition demo_ops : list op :=
  [SetInt (bs "pid") 0 0x1122334455; Add 1; SetString (bs "host") 0 (bs "localhost.local"); SetInt (bs "ofs") 1 (2 ^ 64 - 5); SetInt (bs "s") 1 511;
   Add 1; SetString (bs "bin") 1 (bs "xyz"); Delete 1; SetInt (bs "pid") 2 7; Add 1; SetInt (bs "pid") 1 8].
Example history_case : fits demo_decls 2 1000 /\ NoDup (map d_name demo_decls) /\ history demo_decls 2 (0, 0) demo_ops /\
  match s0 <- build (repeat 0 1000) demo_decls 2;; do_ops s0 demo_ops with
  | Some s => getInt s (bs "pid") 2 = Some 7 /\ getInt s (bs "pid") 1 = Some 8 /\ getInt s (bs "ofs") 1 = Some (2 ^ 64 - 5) /\ getInt s (bs "s") 1 = Some 255 /\
              getString s (bs "host") 2 = Some (bs "localhost") /\ isRecordAvailable (page s) 0 = Some false
  | None => False
  end.
Proof.
  conjs.
  - fits_tac.
  - repeat constructor; vm_compute; intros X; repeat (destruct X as [X|X]; [discriminate X|]); exact X.
  - cbn [history demo_ops allowed slide fst snd]. conjs; try lia; try exact I; try (vm_compute; split; congruence); try (vm_compute; congruence).
    all: match goal with |- exists d, In d demo_decls /\ d_name d = ?n /\ _ =>
      let r := eval vm_compute in (find (fun d => beqb (d_name d) n) demo_decls) in match r with Some ?d => exists d end end.
    all: conjs; [vm_compute; tauto|reflexivity|].
    all: first [left; split; [reflexivity|vm_compute; tauto] | right; split; [reflexivity|vm_compute; tauto] | unfold string_ok; conjs; [first [left; reflexivity | right; reflexivity]|apply all_bytes_ok; reflexivity|reflexivity]].
  - vm_compute. conjs; reflexivity.
Qed.

(** Different fields, and different records of the window, never share a byte; and none of them
    reaches into the header or beyond the page. *)
Theorem rax_separate : forall l cnt size ops, fits l cnt size -> NoDup (map d_name l) -> history l cnt (0, 0) ops ->
  let w := fold_left slide ops (0, 0) in
  exists s, (s0 <- build (repeat 0 (Z.to_nat size)) l cnt;; do_ops s0 ops) = Some s /\
  forall d1 d2 r1 r2, In d1 l -> In d2 l -> fst w <= r1 < fst w + cnt -> fst w <= r2 < fst w + cnt -> d1 <> d2 \/ r1 <> r2 ->
  exists p1 p2 first, getPointer s (d_name d1) r1 = Some p1 /\ getPointer s (d_name d2) r2 = Some p2 /\ getOffset (page s) = Some first /\
    36 <= first <= p1 /\ p1 + d_size d1 <= size /\ (p1 + d_size d1 <= p2 \/ p2 + d_size d2 <= p1).
Proof.
  intros l cnt size ops F N H. cbv zeta. destruct (build_ok l cnt size F) as (s0 & E0 & I0). rewrite E0.
  assert (W0 : okw cnt (0, 0)) by (unfold okw; cbn; destruct F as (_ & _ & _ & _ & Hc & _); lia).
  destruct (ops_ok l cnt size F N ops (0, 0) s0 (fun _ _ => None) I0 W0 (holds_start _ _ _ _) H) as (s & E & I & W & _).
  exists s. split; [exact E|]. intros d1 d2 r1 r2 H1 H2 R1 R2 Hne.
  destruct (layout_in l 0 d1 H1) as (f1 & F1 & _ & S1). destruct (layout_in l 0 d2 H2) as (f2 & F2 & _ & S2).
  destruct (page_facts l cnt size F) as (A & B & C & D & E' & G).
  pose proof (addr_range l cnt size F r1 _ _ F1) as (Q1 & Q2). pose proof (layout_range _ _ _ _ G F1) as (L1 & L2 & L3).
  unfold getPointer. rewrite (i_fields _ _ _ _ _ _ I). rewrite (lookup_layout l _ _ N F1), (lookup_layout l _ _ N F2).
  rewrite !(pointer_ok l cnt size F _ _ _ _ I). do 3 eexists. conjs; [reflexivity|reflexivity|exact (i_off _ _ _ _ _ _ I)| | | |].
  - lia.
  - unfold addr. pose proof (Z.mod_pos_bound r1 cnt ltac:(lia)). nia.
  - lia.
  - rewrite <- S1, <- S2. apply (addr_disjoint l cnt size F _ _ _ _ _ _ F1 F2).
    destruct (Z.eq_dec r1 r2) as [-> |Hr].
    + right. intros En. destruct Hne as [Hne|Hne]; [|congruence]. apply Hne. eapply same_decl; eassumption.
    + left. intros Em. apply Hr. eapply (mod_inj r1 r2 cnt); [lia|exact R1|exact R2|exact Em].
Qed.

(** C27. After every history of additions and deletions within capacity, with any writes among
    them, a record is available exactly if it was added and not deleted, and two available records
    are never in the same place. *)
Theorem rax_window : forall l cnt size ops, fits l cnt size -> NoDup (map d_name l) -> history l cnt (0, 0) ops ->
  let w := fold_left slide ops (0, 0) in
  exists s, (s0 <- build (repeat 0 (Z.to_nat size)) l cnt;; do_ops s0 ops) = Some s /\
    (forall r, isRecordAvailable (page s) r = Some true <-> fst w <= r < snd w) /\
    (forall d r1 r2 p1 p2, In d l -> isRecordAvailable (page s) r1 = Some true -> isRecordAvailable (page s) r2 = Some true -> r1 <> r2 ->
       getPointer s (d_name d) r1 = Some p1 -> getPointer s (d_name d) r2 = Some p2 -> p1 + d_size d <= p2 \/ p2 + d_size d <= p1).
Proof.
  intros l cnt size ops F N H. cbv zeta.
  destruct (rax_history_partial l cnt size ops F N H) as (s & E & _ & _ & _ & Ed & Ee & _ & _ & Ha & _).
  destruct (rax_separate l cnt size ops F N H) as (s' & E' & Hsep). rewrite E in E'. injection E' as <-.
  destruct (build_ok l cnt size F) as (s0 & E0 & I0).
  assert (W0 : okw cnt (0, 0)) by (unfold okw; cbn; destruct F as (_ & _ & _ & _ & Hc & _); lia).
  destruct (ops_ok l cnt size F N ops (0, 0) s0 (fun _ _ => None) I0 W0 (holds_start _ _ _ _) H) as (_ & _ & _ & (W1 & W2 & _) & _).
  assert (Hav : forall r, isRecordAvailable (page s) r = Some true <-> fst (fold_left slide ops (0, 0)) <= r < snd (fold_left slide ops (0, 0))).
  { intros r. rewrite Ha. split; [intros [= X]; lia|]. intros X. f_equal. lia. }
  exists s. conjs; [exact E|exact Hav|].
  intros d r1 r2 p1 p2 Hd A1 A2 Hn P1 P2. apply Hav in A1. apply Hav in A2.
  destruct (Hsep d d r1 r2 Hd Hd ltac:(lia) ltac:(lia) ltac:(right; exact Hn)) as (q1 & q2 & first & Q1 & Q2 & _ & _ & _ & Q). rewrite P1 in Q1. rewrite P2 in Q2. injection Q1 as <-. injection Q2 as <-. exact Q.
Qed.

(** Capacity matters: adding beyond it is only warned about. Two available records then share a
    slot, and the present counter says 0. *)
Example beyond_capacity : match s0 <- build (repeat 0 100) [(bs "a", 0x10, 0)] 2;; do_ops s0 [Add 2; SetInt (bs "a") 0 5; Add 1; SetInt (bs "a") 2 6] with
  | Some s => isRecordAvailable (page s) 0 = Some true /\ getInt s (bs "a") 0 = Some 6 /\ getPresent (page s) = Some 0
  | None => False
  end.
Proof. vm_compute. conjs; reflexivity. Qed.

(** F31: a negative number in a signed field of 3 bytes reads back positive. *)
Theorem rax_signed24_refuted : exists l, fits l 1 100 /\
  (s <- build (repeat 0 100) l 1;; s <- setInt s (bs "a") (2 ^ 64 - 1) 0;; getInt s (bs "a") 0) = Some (2 ^ 24 - 1).
Proof.
  exists [(bs "a", 0x22, 0)]. split; [|vm_compute; reflexivity].
  fits_tac.
Qed.
(** F32: integer fields of 5 bytes can be declared, but writes to them are lost. *)
Theorem rax_int40_refuted : exists l, fits l 1 100 /\
  (s <- build (repeat 0 100) l 1;; s <- setInt s (bs "a") 1 0;; getInt s (bs "a") 0) = Some 0.
Proof.
  exists [(bs "a", 0x14, 0)]. split; [|vm_compute; reflexivity].
  fits_tac.
Qed.

Print Assumptions rax_history_partial.
Print Assumptions rax_separate.
Print Assumptions rax_window.
Print Assumptions rax_signed24_refuted.
Print Assumptions rax_int40_refuted.
