(** C31: the RTP sorter. *)
From Verif Require Import Common CommonFacts RtpSort_Model RtpSort_Spec RtpSort_Proofs RtpSortInv_Proofs RtpSortLive_Proofs.

(** Whatever arrives, in whatever order, lost or repeated: packets whose numbers lie within a
    window of 32000 are handed over in increasing order, so never twice; only packets that
    arrived are handed over; and the counters add up. *)
Theorem rtp_sorter_in_order : forall (P : Type) (pk : Z -> P) drop wait w ns,
  0 <= drop <= 32000 -> 0 <= wait <= 32767 -> Forall (fun n => w <= n < w + 32000) ns ->
  exists os lost, fst (addPackets drop wait sorter0 (wire pk ns)) = map pk os /\
    increasing os /\ incl os ns /\
    lostTotal (snd (addPackets drop wait sorter0 (wire pk ns))) = s32 lost /\
    packTotal (snd (addPackets drop wait sorter0 (wire pk ns))) = u32 (len os + lost).
Proof.
  intros P pk drop wait w ns Hd Hw Hn.
  destruct (runA pk drop wait Hd Hw w ns [] sorter0 [] _ _ _ _ (startA pk drop wait Hd Hw w) Hn) as (o & st' & R' & W' & L' & S' & -> & I).
  exists o, L'. cbn [fst snd]. destruct I as [_ _ _ _ _ _ _ _ I1 I2 I3 I4]. split; [reflexivity|]. split; [now apply sorted_increasing|]. split; [|now split].
  intros x Hx. specialize (I2 x Hx). rewrite app_nil_r in I2. now apply in_rev.
Qed.
Example rtp_sorter_in_order_example :
  fst (addPackets 30 5 sorter0 (wire (fun n => n) [65534; 65533; 65536; 65535; 65537; 65533; 65540; 65600])) = [65536; 65537].
Proof. vm_compute. reflexivity. Qed.

(** A stream of any length, starting at [a], in which every packet arrives, possibly more than
    once, and no packet overtakes one that is more than [dist] before it: if the waiting limit is
    at least twice [dist], the first arrival is among the first five numbers, [a] among the first
    five arrivals, and the 16 bit number does not wrap at once, then what is handed over is exactly
    the packets a, a+1, a+2, ... without gap, nothing is counted as lost, and once five different
    packets have arrived a packet waits only for missing ones before it, and at most until the
    next arrival. *)
Theorem rtp_sorter_complete : forall (P : Type) (pk : Z -> P) drop wait a dist ns n,
  0 <= dist <= 500 -> 2 * dist <= drop <= 32000 -> 0 <= wait <= 32767 ->
  orderly a dist [] (ns ++ [n]) -> hd a (ns ++ [n]) < a + 5 -> ((List.length (ns ++ [n]) < 5)%nat \/ In a (firstn 5 (ns ++ [n]))) ->
  a mod 65536 + dist + 5 < 65536 ->
  exists R, a <= R /\
    fst (addPackets drop wait sorter0 (wire pk (ns ++ [n]))) = map pk (from a (R - a)) /\
    (forall m, a <= m < R -> In m (ns ++ [n])) /\
    lostTotal (snd (addPackets drop wait sorter0 (wire pk (ns ++ [n])))) = 0 /\
    packTotal (snd (addPackets drop wait sorter0 (wire pk (ns ++ [n])))) = u32 (R - a) /\
    ((5 <= List.length (nodup Z.eq_dec ns))%nat -> forall m, (forall j, a <= j <= m -> In j ns) -> m < R).
Proof.
  intros P pk drop wait a dist ns n HD Hd Hw Ho Hh Hs Hm.
  destruct (run_ok pk drop wait a dist HD Hd Hw ns n Ho (conj Hh Hs) Hm) as (o & st & o' & st' & E1 & E2 & _ & Hc).
  rewrite addPackets_snoc, E1, E2. cbn [fst snd].
  destruct Hc as [(C1 & -> & f & W & I)|(Ia & R & W & I & J & _)].
  - exists a. rewrite Z.sub_diag. destruct I as [_ _ _ _ _ _ _ _ _ I1 I2]. rewrite I1, I2. repeat (split; [reflexivity || lia|]).
    intros L. assert (Q : List.length (nodup Z.eq_dec ns) = List.length (nodup Z.eq_dec (rev ns))).
    { apply Permutation.Permutation_length. apply Permutation.NoDup_Permutation; try apply NoDup_nodup. intros x. rewrite !nodup_In. apply in_rev. }
    lia.
  - exists R. pose proof (l_R _ _ _ _ _ _ _ _ I). split; [lia|]. split; [exact (l_outs _ _ _ _ _ _ _ _ I)|].
    split. { intros m Hm'. apply in_rev. now apply (l_got _ _ _ _ _ _ _ _ I). }
    split; [exact (l_lost _ _ _ _ _ _ _ _ I)|]. split; [exact (l_total _ _ _ _ _ _ _ _ I)|].
    intros _ m Hj. apply J. intros j Hj'. rewrite <- in_rev. now apply Hj.
Qed.
(** What it asks to be sent again: numbers at least [wait] before the arrived packet that have not
    arrived, only those, and - once five different packets have arrived - all those that are still
    to be handed over. *)
Theorem rtp_sorter_requests : forall (P : Type) (pk : Z -> P) drop wait a dist ns n w,
  0 <= dist <= 500 -> 2 * dist <= drop <= 32000 -> 0 <= wait <= 32767 ->
  orderly a dist [] (ns ++ [n]) -> hd a (ns ++ [n]) < a + 5 -> ((List.length (ns ++ [n]) < 5)%nat \/ In a (firstn 5 (ns ++ [n]))) ->
  a mod 65536 + dist + 5 < 65536 ->
  let before := wantedSeqs (snd (addPackets drop wait sorter0 (wire pk ns))) in
  let after := wantedSeqs (snd (addPackets drop wait sorter0 (wire pk (ns ++ [n])))) in
  (In w before -> In w after) /\
  (In w after -> In w before \/ exists j, w = j mod 65536 /\ a <= j < n - wait /\ ~ In j (ns ++ [n])) /\
  ((5 <= List.length (nodup Z.eq_dec ns))%nat ->
    forall j, a <= j < n - wait -> ~ In j (ns ++ [n]) -> In (j mod 65536) after).
Proof.
  intros P pk drop wait a dist ns n w HD Hd Hw Ho Hh Hs Hm before after. subst before after.
  destruct (run_ok pk drop wait a dist HD Hd Hw ns n Ho (conj Hh Hs) Hm) as (o & st & o' & st' & E1 & E2 & NW & Hc).
  rewrite addPackets_snoc, E1, E2. cbn [fst snd].
  split; [intros H; apply NW; now left|]. split.
  - intros H. apply NW in H. destruct H as [H|(j & J1 & J2 & J3 & _)]; [now left|right]. exists j. split; [assumption|]. split; [assumption|].
    intros Q. apply J3. apply in_app_iff in Q. destruct Q as [Q|[<-|[]]]; [right; now apply in_rev in Q|now left].
  - intros L j Hj Hnj.
    assert (Q : List.length (nodup Z.eq_dec ns) = List.length (nodup Z.eq_dec (rev ns))).
    { apply Permutation.Permutation_length. apply Permutation.NoDup_Permutation; try apply NoDup_nodup. intros x. rewrite !nodup_In. apply in_rev. }
    destruct Hc as [(C1 & _)|(Ia & R & W & I & _ & C2)]; [lia|].
    destruct (Z_lt_ge_dec j R) as [LR|LR].
    + destruct Hnj. apply in_rev. apply (l_got _ _ _ _ _ _ _ _ I). lia.
    + destruct (l_wanted _ _ _ _ _ _ _ _ I j ltac:(lia)) as [Q1|Q1]; [|assumption]. destruct Hnj. now apply in_rev.
Qed.

(** A stream over a wrap of the 16 bit number, reordered and with repeats. *)
Definition reordered : list Z := [65516; 65515; 65517; 65520; 65518; 65519; 65522; 65521] ++ from 65524 13 ++ [65523; 65536; 65538; 65537].
Ltac ord := cbn [orderly]; repeat (split; [lia|split; [intros m Hm; cbn [In]; lia|split; [intros m Hm; cbn [In] in Hm; lia|]]]); exact I.
Lemma reordered_orderly : orderly 65515 15 [] reordered.
Proof.
  let l := eval vm_compute in reordered in change reordered with l. ord.
Qed.
Example rtp_sorter_complete_example :
  fst (addPackets 30 5 sorter0 (wire (fun n => n) reordered)) = from 65515 23 /\
  wantedSeqs (snd (addPackets 30 5 sorter0 (wire (fun n => n) reordered))) = [65523].
Proof. vm_compute. split; reflexivity. Qed.

(** The limit of half the waiting time is sharp: with the default of 30, packets that overtake by
    16 can be lost although everything arrives. *)
Theorem rtp_sorter_distance_refuted :
  exists ns, orderly 0 16 [] ns /\ hd 0 ns = 0 /\ incl [11; 12] ns /\
    fst (addPackets 30 5 sorter0 (wire (fun n => n) ns)) = from 0 11 ++ from 13 14 /\
    lostTotal (snd (addPackets 30 5 sorter0 (wire (fun n => n) ns))) = 2.
Proof.
  exists ([0; 1; 2; 3; 4; 5; 6; 7; 8; 9] ++ [11; 12; 13; 14; 15; 16; 17; 18; 19; 20; 21; 22; 23; 24; 25; 26] ++ [10; 43]).
  cbn [app]. split; [ord|]. split; [reflexivity|]. split; [intros x; cbn [In]; lia|]. vm_compute. split; reflexivity.
Qed.
(** When the number wraps among the first five packets, those before the wrap are lost, though
    all arrive and in order ... *)
Theorem rtp_sorter_start_refuted :
  fst (addPackets 30 5 sorter0 (wire (fun n => n) (from 65534 10))) = from 65536 8.
Proof. vm_compute. reflexivity. Qed.
(** ... and they are handed over 65536 packets later, out of order.  The same happens to packets
    that were buffered when their number was given up. *)
Theorem rtp_sorter_stale_refuted :
  exists ns, (forall i, (S i < List.length ns)%nat -> Z.abs (nth (S i) ns 0 - nth i ns 0) < 30000) /\
    fst (addPackets 30 5 sorter0 (wire (fun n => n) ns)) = from 0 6 ++ [10; 8].
Proof.
  exists [0; 1; 2; 3; 4; 5; 8; 40; 10; 29000; 58000; 65536 + 38]. split.
  - intros i Hi. do 11 (destruct i as [|i]; [cbn; lia|]). cbn in Hi. lia.
  - vm_compute. reflexivity.
Qed.

Print Assumptions rtp_sorter_in_order.
Print Assumptions rtp_sorter_complete.
Print Assumptions rtp_sorter_requests.
Print Assumptions rtp_sorter_distance_refuted.
Print Assumptions rtp_sorter_start_refuted.
Print Assumptions rtp_sorter_stale_refuted.
