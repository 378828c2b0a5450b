(** C21: a reader of a live data page sees whole packets only. *)
From Verif Require Import Common CommonFacts CommonMore Mem_Model Mem_Proofs Outcome_Model Scan_Model Dtmi_Spec Dtmi_Proofs Dtsc_Model Dtsc_Spec Dtsc_Proofs Dtsc_Props Page_Model Page_Spec Page_Proofs PageRead_Proofs.

(** *** C21 *)
(** Whatever the states of the page at the times it looks, a reader gets packets that were appended, in
    order and without a gap, each with the fields it was appended with. *)
Theorem page_reader_partial : forall size fs ms, 0 <= size < 2 ^ 64 -> Forall fields_ok fs -> used (taken size 0 fs) < size ->
  Forall (fun m => exists k some, moment size fs k some m) ms ->
  exists seen n, follow ms 0 pnew = Ok seen /\ Forall2 reports seen (firstn n (taken size 0 fs)).
Proof.
  intros size fs ms S0 OK R M. destruct (follow_ok size fs S0 OK R ms [] (taken size 0 fs) pnew eq_refl) as (seen & n & H1 & H2 & _); [constructor | exact M |].
  now exists seen, n.
Qed.

(** Once a reader can tell that a packet is there it never changes again: the reader works on the shared
    bytes in place, without copying. *)
Theorem page_stable : forall size fs k some m k' some' m' before f after, 0 <= size < 2 ^ 64 ->
  moment size fs k some m -> moment size fs k' some' m' -> later k some k' some' ->
  taken size 0 fs = before ++ f :: after -> (forall a, 0 <= a < 4 -> nthz m (used before + a) <> 0) ->
  takez (len (wire_packet f)) (dropz (used before) m') = wire_packet f.
Proof. intros size fs k some m k' some' m' t1 f t3 S0. apply stable. exact S0. Qed.

(** Looking ahead: as soon as any byte of the next packet's magic is there its time is, too, and it is the
    time of the packet that follows. *)
Theorem page_next_time : forall size fs k some m before g rest, 0 <= size < 2 ^ 64 -> Forall fields_ok fs ->
  moment size fs k some m -> taken size 0 fs = before ++ g :: rest ->
  nextTime m (used before) (len (wire_packet g)) =
  Ok (match rest with
      | f :: _ => if beqb (takez 4 (dropz (used (before ++ [g])) m)) [0; 0; 0; 0] then None else Some (f_time f)
      | [] => None end).
Proof.
  intros size fs k some m t1 g rest S0 OK Mo E. rewrite used_app, used_cons. replace (used []) with 0 by reflexivity. rewrite Z.add_0_r.
  exact (next_ok size fs S0 OK k some m t1 g rest Mo E).
Qed.

(** The writer stays on its page, stores every packet that fits and no other, and a reader of the finished
    page gets them all. *)
Theorem page_finished : forall size fs, 0 <= size < 2 ^ 64 -> Forall fields_ok fs ->
  exists m seen, bufferAll size (repeat 0 (Z.to_nat size), 0) fs = Some (m, used (taken size 0 fs)) /\ used (taken size 0 fs) <= size /\ len m = size /\
    takez (used (taken size 0 fs)) m = flat_map wire_packet (taken size 0 fs) /\
    follow (repeat m (List.length (taken size 0 fs))) 0 pnew = Ok seen /\ Forall2 reports seen (taken size 0 fs).
Proof.
  intros size fs S0 OK. destruct (final_ex size fs S0) as (m & Mo & E). exists m.
  destruct (follow_final size fs S0 OK m Mo (taken size 0 fs) [] pnew eq_refl) as (seen & F1 & F2); [constructor |].
  destruct (moment_bytes size fs S0 _ _ m Mo) as (L & N). pose proof (room size fs S0) as R. pose proof (used_nonneg (taken size 0 fs)).
  exists seen. split; [exact E |]. split; [exact R |]. split; [exact L |]. split; [| split; assumption].
  change m with (dropz 0 m) at 1. apply slice_ext; try lia; [reflexivity |]. intros i Hi. apply N; [lia |].
  unfold done_. rewrite app_nil_r, (trace_tr size ltac:(lia) fs 0 ltac:(lia)), firstn_all.
  apply in_map_iff. exists (0 + i, nthz (flat_map wire_packet (taken size 0 fs)) i). split; [reflexivity |]. apply in_tr. split; [lia | f_equal; lia].
Qed.

Definition small : list fields := [mkF 1000 0 3 [1; 2; 3] 0 true; mkF 1040 (-40) 3 (repeat 9 40) 0 false; mkF 1080 0 3 [5] 7 false].
Lemma small_ok : Forall fields_ok small.
Proof. repeat constructor; cbn; try lia. Qed.
(** A page of 120 bytes takes the first and the third; the writer may stop in the middle of the latter. *)
Example page_case : taken 120 0 small = [nth 0 small sample; nth 2 small sample] /\ used (taken 120 0 small) = 108 /\
  exists m, moment 120 small 20 [(59, 80)] m /\ nthz m 57 = 0 /\ nthz m 59 = 80.
Proof. split; [reflexivity |]. split; [reflexivity |]. eexists. split; [split; [| vm_compute; reflexivity] | split; reflexivity]. intros x [<- | []]. vm_compute. tauto. Qed.

(** A page may be filled to its last byte, and the loop that searches a page for a time
    (output.cpp:1028-1056) then looks at the four bytes behind it. *)
Theorem page_full_refuted : exists fs m, Forall fields_ok fs /\ bufferAll 57 (repeat 0 57, 0) fs = Some (m, 57) /\ follow [m; m] 0 pnew = Ub.
Proof.
  exists [mkF 1000 0 3 [1; 2; 3] 0 true]. eexists. split; [repeat constructor; cbn; lia |]. split; [vm_compute; reflexivity |]. vm_compute. reflexivity.
Qed.
(** A packet that does not fit is dropped while later, smaller ones are kept. *)
Theorem page_gap_refuted : exists fs, Forall fields_ok fs /\ bufferAll 120 (repeat 0 120, 0) fs <> None /\
  exists a b c, fs = [a; b; c] /\ taken 120 0 fs = [a; c].
Proof.
  exists small. split; [exact small_ok |]. split; [vm_compute; discriminate |]. do 3 eexists. split; reflexivity.
Qed.

Print Assumptions page_reader_partial.
Print Assumptions page_stable.
Print Assumptions page_next_time.
Print Assumptions page_finished.
Print Assumptions page_full_refuted.
Print Assumptions page_gap_refuted.
