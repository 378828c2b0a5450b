(** C22: the data pages of a live track hold what was buffered, and their records say so. *)
From Verif Require Import Common CommonFacts CommonMore Mem_Model Outcome_Model Dtsc_Model Dtsc_Spec Dtsc_Props Page_Model Page_Spec Page_Proofs PageRead_Proofs Page_Props Meta_Model Meta_Spec Meta_Proofs MetaUpd_Proofs MetaRun_Proofs MetaFind_Model MetaView_Proofs MetaFind_Proofs MetaMore_Proofs Live_Model Live_Spec Live_Proofs LiveRun_Proofs LiveHist_Proofs LiveLook_Proofs.

Lemma reached_linv SIZE FLIP DURATION v ops s : SIZE < 2 ^ 32 -> 0 <= FLIP -> lreached SIZE FLIP DURATION v ops s ->
  exists pgs a gl, linv SIZE FLIP v s (all_stored v ops) (levictions ops) pgs a gl /\ (List.length (map pk (all_stored v ops)) < Z.to_nat (2 ^ 31))%nat.
Proof.
  intros HS HF (a & b & c & e & H1 & H2 & H3 & H4 & Fi & Lg & E). destruct (live_all SIZE FLIP DURATION HS HF v ops a b c e H1 H2 H3 H4 Fi Lg) as (s' & pgs & k & gl & E' & I).
  rewrite E in E'. injection E' as <-. exists pgs, k, gl. split; [exact I |]. destruct Fi as (Fi & _). destruct (Fi (map pk (all_stored v ops)) []) as (S1 & _); [symmetry; apply app_nil_r | exact S1].
Qed.

(** *** C22 *)
(** At every moment of every history of packets, evictions and page closures the pages together hold, in order,
    exactly the keys that were buffered; a page takes the packets that fit and never more bytes than it
    has; the record of each page tells its first key, the number of its keys, its size, the bytes in use
    and its first and last times; pages are there exactly as long as one of their keys is. *)
Theorem live_pages_partial : forall SIZE FLIP DURATION v ops s, SIZE < 2 ^ 32 -> 0 <= FLIP -> lreached SIZE FLIP DURATION v ops s ->
  exists pgs a, layout SIZE FLIP v s (all_stored v ops) (levictions ops) pgs a /\ key_lookups (tk s) pgs a /\ (pgs <> [] -> forall T, time_lookup (tk s) pgs a T).
Proof.
  intros SIZE FLIP DURATION v ops s HS HF R. destruct (reached_linv _ _ _ _ _ _ HS HF R) as (pgs & a & gl & I & Sm). exists pgs, a.
  split; [eapply linv_layout; exact I |]. split; [| intros N T; eapply look_time; eassumption].
  split; [| split].
  - intros i k L K. destruct (look_in _ _ _ _ _ _ _ _ _ I Sm i k L K) as (A & B). split; [exact A |]. split; [exact B | eapply look_forKey; eassumption].
  - intros k K. eapply look_out; eassumption.
  - intros i L. eapply look_next; eassumption.
Qed.
(** Whatever the table holds, even between the moment a page is added and the first packet on it: a page said to
    be available has data. *)
Theorem live_next_page : forall t n, nextPageAvailable t n = true ->
  exists i, t_del (pages t) <= i /\ i + 1 < t_end (pages t) /\ g_first (at_ (pages t) i) = n /\ g_avail (at_ (pages t) (i + 1)) <> 0.
Proof.
  intros t n. unfold nextPageAvailable.
  pose proof (first_where_spec (count (pages t) - 1) (t_del (pages t)) (fun i => g_first (at_ (pages t) i) =? n)) as F.
  destruct (first_where _ _ _) as [i |]; [| discriminate]. destruct F as (F1 & F2 & F3). intros E. exists i.
  apply Z.eqb_eq in F2. destruct (Z.eqb_spec (g_avail (at_ (pages t) (i + 1))) 0); [discriminate E |].
  unfold count in F1. repeat split; [lia .. | exact F2 | assumption].
Qed.
(** The tables of parts, keys and fragments describe the same packets. *)
Theorem live_tables : forall SIZE FLIP DURATION v ops s, SIZE < 2 ^ 32 -> 0 <= FLIP -> lreached SIZE FLIP DURATION v ops s ->
  tables (tk s) (map pk (all_stored v ops)) (levictions ops).
Proof. intros SIZE FLIP DURATION v ops s HS HF R. destruct (reached_linv _ _ _ _ _ _ HS HF R) as (pgs & a & gl & I & Sm). apply (l_inv _ _ _ _ _ _ _ _ _ I). Qed.
(** A reader of a page gets the packets it holds. *)
Theorem live_read : forall SIZE FLIP DURATION v ops s, SIZE < 2 ^ 32 -> 0 <= FLIP -> lreached SIZE FLIP DURATION v ops s ->
  exists pgs a, layout SIZE FLIP v s (all_stored v ops) (levictions ops) pgs a /\
    forall j p, nth_error pgs j = Some p -> (a <= j)%nat -> exists m seen, shm s (before j pgs) = Some m /\
      follow (repeat m (List.length (held SIZE p))) 0 pnew = Ok seen /\ Forall2 reports seen (held SIZE p).
Proof.
  intros SIZE FLIP DURATION v ops s HS HF R. destruct (reached_linv _ _ _ _ _ _ HS HF R) as (pgs & a & gl & I & Sm). exists pgs, a.
  split; [eapply linv_layout; exact I |]. intros j p Ep L. eapply held_read; eassumption.
Qed.
(** If no key exceeds what is left of a page with [FLIP] bytes in use, no packet is missing on the pages. *)
Theorem live_nothing_dropped : forall SIZE FLIP DURATION v ops s, SIZE < 2 ^ 32 -> 0 <= FLIP -> lreached SIZE FLIP DURATION v ops s ->
  roomy SIZE FLIP v (map pk (all_stored v ops)) ->
  exists pgs a, layout SIZE FLIP v s (all_stored v ops) (levictions ops) pgs a /\
    flat_map (held SIZE) pgs = map fst (all_stored v ops).
Proof.
  intros SIZE FLIP DURATION v ops s HS HF R Ro. destruct (reached_linv _ _ _ _ _ _ HS HF R) as (pgs & a & gl & I & Sm). exists pgs, a.
  split; [eapply linv_layout; exact I |]. pose proof (all_held _ _ _ _ _ _ _ _ _ I Sm Ro) as H. rewrite <- (l_cat _ _ _ _ _ _ _ _ _ I). clear - H.
  induction pgs as [| p pgs IH]; [reflexivity |]. cbn [flat_map List.concat]. rewrite concat_app, map_app, IH by (intros q Hq; apply H; right; exact Hq). rewrite (H p (or_introl eq_refl)). reflexivity.
Qed.
(** Neither a packet nor an eviction ever fails. *)
Theorem live_total : forall SIZE FLIP DURATION v ops a b c e, SIZE < 2 ^ 32 -> 0 <= FLIP ->
  1 <= a < 2 ^ 32 -> 1 <= b < 2 ^ 32 -> 1 <= c < 2 ^ 32 -> 1 <= e < 2 ^ 32 -> lfits SIZE v (all_stored v ops) -> llegal v ops ->
  exists s, lrun SIZE FLIP DURATION (newLive v a b c e) ops = Done s.
Proof.
  intros SIZE FLIP DURATION v ops a b c e HS HF H1 H2 H3 H4 Fi Lg. destruct (live_all SIZE FLIP DURATION HS HF v ops a b c e H1 H2 H3 H4 Fi Lg) as (s & pgs & k & gl & E & I).
  exists s. exact E.
Qed.

(** ** Cases *)
Definition keptb (v : bool) (ps : list Meta_Model.packet) (d : nat) : bool :=
  let fs := fragments (groups v ps) in existsb (fun j => Z.of_nat d <? before j fs) (seq 0 (List.length fs)).
Definition legalb (v : bool) (l : list lop) : bool :=
  forallb (fun n => match nth_error l n with Some LEvict => keptb v (map pk (all_stored v (firstn n l))) (levictions (firstn n l)) | _ => true end) (seq 0 (List.length l)).
Lemma legalb_ok v l : legalb v l = true -> llegal v l.
Proof.
  intros H pre post E. unfold legalb in H. rewrite forallb_forall in H. specialize (H (List.length pre)). rewrite E in H.
  rewrite nth_error_app2, Nat.sub_diag in H by lia. cbn [nth_error] in H. rewrite firstn_app, Nat.sub_diag, firstn_all in H. cbn [firstn] in H. rewrite app_nil_r in H.
  specialize (H ltac:(apply in_seq; rewrite app_length; cbn; lia)). unfold keptb in H. apply existsb_exists in H as (j & Hj & Lt). apply Z.ltb_lt in Lt. apply in_seq in Hj.
  destruct (nth_some (fragments (groups v (map pk (all_stored v pre)))) j ltac:(lia)) as (f & Ef). exists j, f. split; [exact Ef | exact Lt].
Qed.
Definition reachedb (SIZE : Z) (v : bool) (ops : list lop) : Prop :=
  Forall (fun x => easy (pk x) /\ fields_ok (fst x) /\ len (wire_packet (fst x)) <= SIZE) (all_stored v ops) /\ (List.length (all_stored v ops) < 400)%nat /\ legalb v ops = true.
Lemma reachedb_ok SIZE FLIP DURATION v ops s : reachedb SIZE v ops -> lrun SIZE FLIP DURATION (newLive v 4 4 4 4) ops = Done s -> lreached SIZE FLIP DURATION v ops s.
Proof.
  intros (A & B & C) E. exists 4, 4, 4, 4. repeat (split; [lia |]). split; [| split; [apply legalb_ok; exact C | exact E]].
  split; [apply fits_easy; [apply Forall_map | rewrite map_length; exact B] |]; (eapply Forall_impl; [| exact A]); cbv beta; tauto.
Qed.

Definition roomyb (SIZE FLIP : Z) (v : bool) (ps : list Meta_Model.packet) : bool := forallb (fun g => FLIP + total sendSize g <=? SIZE) (groups v ps).
Lemma roomyb_ok SIZE FLIP v ps : roomyb SIZE FLIP v ps = true -> roomy SIZE FLIP v ps.
Proof. unfold roomyb, roomy. rewrite forallb_forall, Forall_forall. intros H g Hg. apply Z.leb_le, H, Hg. Qed.
Definition kp (t : Z) (k : bool) (n : nat) : lop := LPacket (mkF t 0 1 (repeat 7 n) 0 k) 1.
(** Pages of 200 bytes; a new one is due when more than 60 are in use. *)
Definition ops1 : list lop := [kp 0 false 5; kp 1000 true 5; kp 1500 false 5; kp 1200 false 9; kp 2000 true 3; kp 2500 false 4; kp 3000 true 3; kp 4000 true 3;
  LEvict; kp 5000 true 3; LEvict; LClose; kp 6000 false 2; kp 7000 true 2; kp 7500 false 9].
Definition shape (s : live) : list (Z * Z * Z * Z * Z * Z) :=
  map (fun i => let g := at_ (pages (tk s)) i in (g_first g, g_count g, g_avail g, g_ftime g, g_ltime g, g_parts g))
    (map (fun n => t_del (pages (tk s)) + Z.of_nat n) (seq 0 (count (pages (tk s))))).
Definition ask (s : live) := (shape s, (bufferedOnPage (tk s) 3, getPageNumberForKey (tk s) 4, getPageNumbersForTime (tk s) 4500, nextPageAvailable (tk s) 4)).
Lemma lgot {A} (o : out live) (f : live -> A) d x : match o with Done u => f u | _ => d end = x -> d <> x -> exists s, o = Done s /\ f s = x.
Proof. destruct o; intros H N; try congruence. eauto. Qed.
Lemma ops1_ok : reachedb 200 true ops1.
Proof.
  split; [| split; [vm_compute; lia | vm_compute; reflexivity]]. set (l := all_stored true ops1). vm_compute in l. unfold l.
  repeat (constructor; [repeat split; cbn; try lia; repeat constructor; lia |]). constructor.
Qed.
Example live_example : exists s, lrun 200 60 1000000 (newLive true 4 4 4 4) ops1 = Done s /\ lreached 200 60 1000000 true ops1 s /\
  roomy 200 60 true (map pk (all_stored true ops1)) /\
  ask s = ([(2, 2, 114, 3000, 4000, 2); (4, 1, 57, 5000, 5000, 0); (5, 1, 100, 7000, 7000, 2)], (2, 4, (2, Some 4), true)).
Proof.
  destruct (lgot (lrun 200 60 1000000 (newLive true 4 4 4 4) ops1) ask ([], (0, 0, (0, None), false)) 
     ([(2, 2, 114, 3000, 4000, 2); (4, 1, 57, 5000, 5000, 0); (5, 1, 100, 7000, 7000, 2)], (2, 4, (2, Some 4), true))) as (s & E & X); [vm_compute; reflexivity | discriminate |].
  exists s. split; [exact E |]. split; [apply reachedb_ok; [exact ops1_ok | exact E] |]. split; [| exact X].
  apply roomyb_ok. vm_compute. reflexivity.
Qed.
(** The record of a page also has its number of packets. It is set when the next page is started while this
    one is open; after the page was closed it is not: page 4 above holds one packet. *)
Theorem live_parts_refuted : exists ops s pgs a j p, lreached 200 60 1000000 true ops s /\
  layout 200 60 true s (all_stored true ops) (levictions ops) pgs a /\ (a <= j)%nat /\ nth_error pgs j = Some p /\ (j + 1 < List.length pgs)%nat /\
  held 200 p <> [] /\ g_parts (at_ (pages (tk s)) (Z.of_nat j)) = 0.
Proof.
  set (ops := [kp 1000 true 5; LClose; kp 2000 true 3]).
  destruct (lgot (lrun 200 60 1000000 (newLive true 4 4 4 4) ops) (fun s => (t_del (pages (tk s)), t_end (pages (tk s)), g_parts (at_ (pages (tk s)) 0))) (7, 7, 7) (0, 2, 0)) as (s & E & X); [vm_compute; reflexivity | discriminate |].
  injection X as X1 X2 X3.
  assert (R : lreached 200 60 1000000 true ops s).
  { apply reachedb_ok; [| exact E]. split; [| split; [vm_compute; lia | vm_compute; reflexivity]].
    repeat (constructor; [repeat split; cbn; try lia; repeat constructor; lia |]). constructor. }
  destruct (live_pages_partial 200 60 1000000 true ops s ltac:(lia) ltac:(lia) R) as (pgs & a & L & _). pose proof L as (_ & _ & _ & D & N & H & _).
  destruct (nth_some pgs 0 ltac:(lia)) as (p & Ep). exists ops, s, pgs, a, 0%nat, p.
  split; [exact R |]. split; [exact L |]. split; [lia |]. split; [exact Ep |]. split; [lia |]. split; [| exact X3].
  destruct (H 0%nat p Ep ltac:(lia)) as (_ & _ & _ & _ & _ & _ & _ & Po & _). intros Z0. unfold wire_page in Po. rewrite Z0 in Po. cbn in Po. lia.
Qed.
(** A key that does not fit on what is left of its page: the tables list a packet that no page holds. *)
Theorem live_dropped_refuted : exists ops s pgs a, lreached 200 60 1000000 true ops s /\
  layout 200 60 true s (all_stored true ops) (levictions ops) pgs a /\ a = 0%nat /\
  tables (tk s) (map pk (all_stored true ops)) 0 /\ List.length (all_stored true ops) = 4%nat /\ List.length (flat_map (held 200) pgs) = 3%nat.
Proof.
  set (ops := [kp 1000 true 5; kp 1500 false 50; kp 1600 false 50; kp 1700 false 1]).
  destruct (lgot (lrun 200 60 1000000 (newLive true 4 4 4 4) ops) (fun s => (t_del (pages (tk s)), t_end (pages (tk s)))) (7, 7) (0, 1)) as (s & E & X); [vm_compute; reflexivity | discriminate |].
  injection X as X1 X2.
  assert (R : lreached 200 60 1000000 true ops s).
  { apply reachedb_ok; [| exact E]. split; [| split; [vm_compute; lia | vm_compute; reflexivity]].
    repeat (constructor; [repeat split; cbn; try lia; repeat constructor; lia |]). constructor. }
  destruct (live_pages_partial 200 60 1000000 true ops s ltac:(lia) ltac:(lia) R) as (pgs & a & L & _). pose proof L as (C & _ & _ & D & N & H & _).
  exists ops, s, pgs, a. split; [exact R |]. split; [exact L |]. split; [lia |]. split; [exact (live_tables 200 60 1000000 true ops s ltac:(lia) ltac:(lia) R) |]. split; [reflexivity |].
  destruct pgs as [| p [| q pgs]]; cbn [List.length] in N; try lia. cbn [List.concat] in C. rewrite app_nil_r in C. cbn [flat_map]. rewrite app_nil_r. unfold held. rewrite C. vm_compute. reflexivity.
Qed.


Print Assumptions live_pages_partial.
Print Assumptions live_next_page.
Print Assumptions live_tables.
Print Assumptions live_read.
Print Assumptions live_nothing_dropped.
Print Assumptions live_total.
Print Assumptions live_parts_refuted.
Print Assumptions live_dropped_refuted.
