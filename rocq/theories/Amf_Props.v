(** Properties C14 and C15: AMF0 values. *)
From Verif Require Import Common CommonFacts CommonMore Mem_Model Mem_Proofs Outcome_Model Dtmi_Spec Dtmi_Proofs Amf_Model Amf_Spec Amf_Proofs AmfAny_Proofs.

(** C14: objects packed one behind the other decode to a container of objects that show the same values,
    in order; the run is over the encoded bytes alone, so nothing else is read. Missing: typed objects, members
    without a name, types the decoder does not know (refuted below). *)
Theorem amf_round_trip_partial os vs : Forall2 shows os vs -> Forall fits vs -> len (flat_map Pack os) < 2 ^ 32 - 16 ->
  exists os', returns (fun f => parse (flat_map Pack os) (len (flat_map Pack os)) f) (AO (bs "returned") 255 0 [] os') /\
    Forall2 (fun o v => shows o v /\ aname o = []) os' vs.
Proof. apply round_trip. Qed.
(** The same for values in a container, which is how RTMP messages are sent: packing the container gives no
    bytes of its own, so what is decoded has the same values in the same order. *)
Theorem amf_container_partial nm d s os vs : Forall2 shows os vs -> Forall fits vs -> len (Pack (AO nm 255 d s os)) < 2 ^ 32 - 16 ->
  exists os', returns (fun f => parse (Pack (AO nm 255 d s os)) (len (Pack (AO nm 255 d s os))) f) (AO (bs "returned") 255 0 [] os') /\
    Forall2 (fun o v => shows o v /\ aname o = []) os' vs.
Proof. exact (round_trip os vs). Qed.
Print Assumptions amf_container_partial.
(** Exactly the encoded bytes are consumed: decoding at the start of an encoding, wherever it stands, ends behind it. *)
Theorem amf_consumes_partial o v a b name : shows o v -> fits v -> len (a ++ Pack o ++ b) < 2 ^ 32 - 16 ->
  exists o', returns (fun f => parseOne (a ++ Pack o ++ b) (len (a ++ Pack o ++ b)) f (len a) name) (o', len a + len (Pack o)) /\ shows o' v /\ aname o' = name.
Proof.
  intros S F L. destruct (reads_all (a ++ Pack o ++ b) _ L v o (len a) name S F) as (_ & o' & R & S' & N').
  - now apply has_mid.
  - rewrite !len_app. pose proof (len_nonneg b). lia.
  - exists o'. tauto.
Qed.

(** C15, the part on progress: decoding ends on every input, whatever stands behind it in memory. *)
Theorem amf_ends data behind : bytesP data -> bytesP behind -> len (data ++ behind) <= 2 ^ 28 ->
  exists n r, r <> Stuck /\ forall k, (n <= k)%nat -> parse (data ++ behind) (len data) k = r.
Proof.
  intros B1 B2 L. apply parse_settles; [now apply bytesP_app|rewrite len_app; pose proof (len_nonneg data); pose proof (len_nonneg behind); lia|exact L].
Qed.

(** It reads outside the input: a string cut off before its length makes it copy four gigabytes. *)
Theorem amf_string_overread_refuted behind : bytesP behind -> len behind < 2 ^ 31 -> undefined (parse ([2] ++ behind) 1).
Proof.
  intros B L. exists 2%nat. intros k K. replace k with (S (S (k - 2))) by lia. set (f := (k - 2)%nat). unfold parse. cbn [parse_loop]. change (0 <? 1) with true. cbv iota.
  cbn [parseOne]. change (1 <=? 0) with false. change (getb ([2] ++ behind) 0) with (Ok 2). cbv iota. cbn [Z.eqb Pos.eqb orb].
  assert (Bm : bytesP ([2] ++ behind)) by (apply bytesP_app; split; [repeat constructor; unfold byteP; lia|exact B]).
  pose proof (get16_any ([2] ++ behind) Bm (0 + 1)) as Q. destruct (get16 ([2] ++ behind) (0 + 1)) as [| |t]; [contradiction|reflexivity|].
  unfold clamp. rewrite u32_id by lia. replace (1 <=? t + 0 + 3) with true by lia. change (u32 (1 - 0 - 3)) with 4294967294.
  unfold getn. destruct (peek ([2] ++ behind) (0 + 3) 4294967294) eqn:E; [|reflexivity].
  apply peek_inv in E. rewrite len_app in E. change (len [2]) with 1 in E. lia.
Qed.
(** So do a boolean, a reference, a long string, an array and a typed object that end behind the tag. *)
Theorem amf_tag_overread_refuted t : In t [1; 7; 10; 12; 15; 16] -> undefined (parse [t] 1).
Proof. intros I. exists 3%nat. intros k K. replace k with (S (S (S (k - 3)))) by lia. cbn [In] in I. repeat (destruct I as [<-|I]; [reflexivity|]). destruct I. Qed.
(** A first length byte of 128 and more overflows a signed number, even if the value is complete. *)
Theorem amf_length_overflow_refuted : undefined (parse ([12; 128; 0; 0; 0] ++ bs "text") 9).
Proof. exists 3%nat. intros k K. replace k with (S (S (S (k - 3)))) by lia. reflexivity. Qed.

(** Five bytes become two billion objects. *)
Lemma elems_S m n f t i acc : elems m n (S f) t i acc = if t =? 0 then Ok (acc, i) else x <~ parseOne m n f i (bs "arrVal");; elems m n f (t - 1) (snd x) (acc ++ [fst x]).
Proof. reflexivity. Qed.
Lemma elems_behind m n t : forall i acc, n <= i -> returns (fun f => elems m n f (Z.of_nat t) i acc) (acc ++ repeat empty_obj t, i).
Proof.
  induction t as [|t IH]; intros i acc N.
  - cbn [repeat]. rewrite app_nil_r. exact (returns_step _ _ _ (fun f => eq_refl) (returns_ok _)).
  - replace (acc ++ repeat empty_obj (S t)) with ((acc ++ [empty_obj]) ++ repeat empty_obj t) by (now rewrite <- app_assoc).
    destruct (IH i (acc ++ [empty_obj]) N) as [k K]. exists (S (S k)). intros j J. destruct j as [|[|j]]; [lia|lia|].
    rewrite <- (K (S j)) by lia. rewrite elems_S. replace (Z.of_nat (S t) =? 0) with false by lia.
    replace (parseOne m n (S j) i (bs "arrVal")) with (Ok (empty_obj, i)) by (cbn [parseOne]; now replace (n <=? i) with true by lia).
    cbn [fst snd]. now replace (Z.of_nat (S t) - 1) with (Z.of_nat t) by lia.
Qed.
Theorem amf_amplifies : exists l, returns (parse [10; 127; 255; 255; 255] 5) (AO (bs "returned") 255 0 [] [AO [] 10 0 [] l]) /\ len l = 2 ^ 31 - 1.
Proof.
  exists (repeat empty_obj (Z.to_nat (2 ^ 31 - 1))). split; [|rewrite len_repeat; lia].
  refine (returns_bind (fun f => parse_loop [10; 127; 255; 255; 255] 5 f 0 0 []) (fun l _ => Ok (AO (bs "returned") 255 0 [] l)) _ _ _ (returns_ok _)).
  pose proof (elems_behind [10; 127; 255; 255; 255] 5 (Z.to_nat (2 ^ 31 - 1)) 5 [] ltac:(lia)) as R. rewrite Z2Nat.id in R by lia. cbn [app] in R.
  destruct R as [k R]. exists (S (S (S k))). intros j J. destruct j as [|[|[|j]]]; [lia|lia|lia|]. cbn [parse_loop]. change (0 <? 5) with true. cbv iota.
  replace (parseOne [10; 127; 255; 255; 255] 5 (S (S j)) 0 []) with (Ok (AO [] 10 0 [] (repeat empty_obj (Z.to_nat (2 ^ 31 - 1))), 5)).
  - cbn [fst snd app]. change (0 <? 5) with true. cbv iota. destruct j; reflexivity.
  - change (parseOne [10; 127; 255; 255; 255] 5 (S (S j)) 0 []) with (x <~ elems [10; 127; 255; 255; 255] 5 (S j) (2 ^ 31 - 1) 5 [];; Ok (AO [] 10 0 [] (fst x), snd x)).
    now rewrite R by lia.
Qed.

(** Typed objects do not come back: the class name is read again as the name of the first member. *)
Definition typed : aobj := AO (bs "A") 16 0 [] [AO (bs "x") 5 0 [] []].
Theorem amf_typed_refuted : returns (parse (Pack typed) (len (Pack typed))) (AO (bs "returned") 255 0 [] [AO (bs "A") 16 0 [] [AO (bs "A") 0 0 [] []]]).
Proof. exists 9%nat. intros k K. replace k with (9 + (k - 9))%nat by lia. reflexivity. Qed.
(** A member without a name ends its object; what follows is read as further values. *)
Definition nameless : aobj := AO [] 3 0 [] [AO [] 5 0 [] []].
Theorem amf_nameless_refuted : returns (parse (Pack nameless) (len (Pack nameless))) (AO (bs "returned") 255 0 [] [AO [] 3 0 [] []; AO [] 0 0 [] []]).
Proof. exists 9%nat. intros k K. replace k with (9 + (k - 9))%nat by lia. reflexivity. Qed.
(** A movie clip, packed as its tag, makes the decoder drop everything behind it. *)
Theorem amf_movieclip_refuted : returns (parse (flat_map Pack [AO [] 4 0 [] []; AO [] 5 0 [] []]) 2) (AO (bs "returned") 255 0 [] [AO (bs "error") 255 0 [] []]).
Proof. exists 9%nat. intros k K. replace k with (9 + (k - 9))%nat by lia. reflexivity. Qed.

(** A case for the round trip: a command with an object that holds all kinds of members. *)
Definition call : list val :=
  [VText (bs "connect"); VNum 0x3FF0000000000000; VObj [(bs "app", VText (bs "live")); (bs "on", VBool true); (bs "off", VBool false); (bs "list", VArr [VRef 513; VNull; VXml (bs "<a/>")])]; VEcma [(bs "d", VDate 77)]].
Definition call_objects : list aobj :=
  [AO [] 2 0 (bs "connect") []; AO [] 0 0x3FF0000000000000 [] [];
   AO [] 3 0 [] [AO (bs "app") 2 0 (bs "live") []; AO (bs "on") 1 0x3FF0000000000000 [] []; AO (bs "off") 1 0 [] []; AO (bs "list") 10 0 [] [AO [] 7 (z2d 513) [] []; AO [] 5 0 [] []; AO [] 15 0 (bs "<a/>") []]];
   AO [] 8 0 [] [AO (bs "d") 11 77 [] []]].
Example call_shows : Forall2 shows call_objects call.
Proof. repeat (constructor; try (split; [reflexivity|])). Qed.
Example call_fits : Forall fits call.
Proof.
  unfold call. repeat match goal with
  | |- fits (snd _) => cbn [snd]
  | |- Forall _ [] => constructor
  | |- Forall _ (_ :: _) => constructor
  | |- fits _ => constructor
  | |- _ /\ _ => split
  | |- bytesP _ => apply all_bytes_ok; vm_compute; reflexivity
  | |- _ < _ => vm_compute; reflexivity
  | |- _ <= _ => vm_compute; discriminate
  end.
Qed.

Print Assumptions amf_round_trip_partial.
Print Assumptions amf_consumes_partial.
Print Assumptions amf_ends.
Print Assumptions amf_string_overread_refuted.
Print Assumptions amf_tag_overread_refuted.
Print Assumptions amf_length_overflow_refuted.
Print Assumptions amf_amplifies.
Print Assumptions amf_typed_refuted.
Print Assumptions amf_nameless_refuted.
Print Assumptions amf_movieclip_refuted.
