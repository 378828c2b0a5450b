(** C11, C12: NAL units. *)
From Verif Require Import Common CommonFacts CommonMore Nal_Model Nal_Spec Nal_Proofs.
Import List.

(** Every sequence of units, with whichever start codes, converts to the length prefixed form. *)
Theorem from_start_codes us : Forall (fun x => nal_ok (snd x)) us -> len (annexb us) < 2 ^ 31 ->
  fromAnnexB (annexb us) = length_prefixed (map snd us).
Proof. exact (fromAnnexB_ok us). Qed.
(** The other way round, for any units at all. *)
Theorem to_start_codes us : Forall bytesP us -> len (length_prefixed us) < 2 ^ 31 ->
  toAnnexB (length_prefixed us) = Some (annexb (map (fun u => (true, u)) us)).
Proof. exact (toAnnexB_ok us). Qed.
Lemma lens_equal us : len (annexb (map (fun u => (true, u)) us)) = len (length_prefixed us).
Proof. induction us as [|u r IH]; [reflexivity|]. unfold annexb, length_prefixed in *. cbn [map flat_map fst snd start_code]. lens. lia. Qed.
(** C11: there and back again. *)
Theorem nal_framing_roundtrip us : Forall nal_ok us -> len (length_prefixed us) < 2 ^ 31 ->
  exists a, toAnnexB (length_prefixed us) = Some a /\ fromAnnexB a = length_prefixed us.
Proof.
  intros H L. eexists. split.
  - apply to_start_codes; [|exact L]. eapply Forall_impl; [|exact H]. now intros u [Hb _].
  - rewrite from_start_codes.
    + now rewrite map_map, map_id.
    + apply Forall_map. exact H.
    + now rewrite lens_equal.
Qed.
Example nal_case : let us := [[0x67; 0x42; 0; 0; 3; 1]; [0x68; 0xCE]; [0x65; 0; 0; 0; 5]] in
  toAnnexB (length_prefixed us) = Some ([0; 0; 0; 1; 0x67; 0x42; 0; 0; 3; 1] ++ [0; 0; 0; 1; 0x68; 0xCE] ++ [0; 0; 0; 1; 0x65; 0; 0; 0; 5]) /\
  fromAnnexB (annexb (combine [true; false; false] us)) = length_prefixed us.
Proof. split; reflexivity. Qed.
Example nal_ok_case : nal_ok [0x65; 0; 0; 0; 5].
Proof.
  split; [apply all_bytes_ok; reflexivity|]. split; [discriminate|]. split; [|discriminate].
  intros [a [b E]]. destruct a as [|? [|? [|? [|? [|? a]]]]]; cbn in E; try discriminate. injection E; intros. destruct a; discriminate.
Qed.

(** The search for a start code finds the first one, exactly when there is one. *)
Theorem scan_finds_first_start d : bytesP d ->
  match scanAnnexB d with Some i => first_start d i | None => forall j, ~ occurs_at d j end.
Proof.
  intros H. apply scan_loop_ok; [exact H|lia|unfold len; lia|]. intros j [Hj _]. exact Hj.
Qed.
Example scan_case : scanAnnexB [9; 0; 0; 0; 0; 1; 7] = Some 3 /\ scanAnnexB [0; 1; 0; 2; 0; 0] = None.
Proof. split; reflexivity. Qed.

(** The end of a unit leaves out the zero bytes behind it, and nothing else. *)
Theorem nal_end_strips_zeros d : let e := nalEndPosition d in 0 <= e <= len d /\
  (exists z, d = takez e d ++ repeat 0 z) /\ (takez e d = [] \/ last (takez e d) 0 <> 0).
Proof.
  destruct (nalEnd_ok (List.length d) d (len d)) as [H1 [H2 H3]]; [pose proof (len_nonneg d); lia|unfold len; lia|].
  fold (nalEndPosition d) in *. set (e := nalEndPosition d) in *. cbv zeta. split; [exact H1|]. split.
  - exists (Z.to_nat (len d - e)). rewrite <- (takez_dropz e d) at 1. f_equal.
    apply nthz_ext.
    + rewrite len_dropz by lia. unfold len at 2. rewrite repeat_length. lia.
    + intros i Hi. rewrite len_dropz in Hi by lia. rewrite nthz_dropz by lia. rewrite H2 by lia.
      symmetry. unfold nthz. apply nth_repeat.
  - destruct H3 as [->|H3]; [now left|]. destruct (Z.eq_dec e 0) as [->|Hne]; [now left|]. right.
    rewrite <- last_nthz.
    + rewrite len_takez by lia. rewrite nthz_takez by lia. exact H3.
    + intros E. apply (f_equal len) in E. rewrite len_takez in E by lia. revert E. lnil. lia.
Qed.
Example nal_end_case : nalEndPosition [1; 0; 2; 0; 0] = 3.
Proof. reflexivity. Qed.

(** C12: removal inverts insertion. Missing from the property: payloads with fewer than two
    bytes, those that begin with zero, and those whose second and third byte are zero. *)
Theorem emulation_prevention_roundtrip_partial h0 h1 l : bytesP (h0 :: h1 :: l) -> h0 <> 0 -> (h1 <> 0 \/ hd 1 l <> 0) ->
  removeEmulationPrevention (insert_ep 0 (h0 :: h1 :: l)) = Some (h0 :: h1 :: l).
Proof. intros H0 H1 H2. apply removeEP_ok; [exact H0|exact H1|]. destruct H2 as [H2|H2]; [now left|]. right. destruct l; [exact I|exact H2]. Qed.
(** For those the added byte stays: an IDR slice 65 00 00 01. And nothing may be empty. *)
Theorem emulation_prevention_roundtrip_refuted :
  (exists l, bytesP l /\ l <> [] /\ removeEmulationPrevention (insert_ep 0 l) <> Some l) /\ removeEmulationPrevention [] = None.
Proof. split; [|reflexivity]. exists [0x65; 0; 0; 1]. split; [apply all_bytes_ok; reflexivity|]. split; discriminate. Qed.
(** What insertion yields has no start code in it, so the framing theorems cover it. *)
Theorem emulation_prevention_no_start l : bytesP l -> ~ contains001 (insert_ep 0 l).
Proof. intros H. now apply insert_no_start. Qed.
(** Data without the pattern is returned as it is. *)
Theorem emulation_prevention_identity d : d <> [] -> (forall a b, d <> a ++ [0; 0; 3] ++ b) -> removeEmulationPrevention d = Some d.
Proof.
  intros Hne H. destruct d as [|a [|b l]]; [congruence|reflexivity|]. cbn [removeEmulationPrevention].
  rewrite rep_loop_id; [reflexivity|]. intros x y E. apply (H (a :: b :: x) y). cbn [app]. now rewrite E.
Qed.
Example ep_case : insert_ep 0 [0x67; 0x42; 0; 0; 0; 0; 1; 0; 0; 4; 0; 0; 3] = [0x67; 0x42; 0; 0; 3; 0; 0; 3; 1; 0; 0; 4; 0; 0; 3; 3] /\
  removeEmulationPrevention [0x67; 0x42; 0; 0; 3; 0; 0; 3; 1; 0; 0; 4; 0; 0; 3; 3] = Some [0x67; 0x42; 0; 0; 0; 0; 1; 0; 0; 4; 0; 0; 3].
Proof. split; reflexivity. Qed.

(** Found on the way: input without a start code becomes one empty unit, and so does a start code
    at the very end. *)
Theorem from_start_codes_bogus_refuted : fromAnnexB [1; 2; 3; 4] = [0; 0; 0; 0] /\ fromAnnexB [0; 0; 1; 9; 0; 0; 1] = [0; 0; 0; 1; 9; 0; 0; 0; 0].
Proof. split; reflexivity. Qed.

Print Assumptions nal_framing_roundtrip.
Print Assumptions scan_finds_first_start.

Print Assumptions from_start_codes.
Print Assumptions to_start_codes.
Print Assumptions nal_end_strips_zeros.
Print Assumptions emulation_prevention_roundtrip_partial.
Print Assumptions emulation_prevention_roundtrip_refuted.
Print Assumptions emulation_prevention_no_start.
Print Assumptions emulation_prevention_identity.
Print Assumptions from_start_codes_bogus_refuted.
