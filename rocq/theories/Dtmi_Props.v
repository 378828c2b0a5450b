(** C18: the binary form of JSON values. *)
From Verif Require Import Common CommonFacts CommonMore Mem_Model Outcome_Model JsonVal_Model Dtmi_Model Scan_Model Dtmi_Spec Dtmi_Proofs DtmiScan_Proofs DtmiDec_Proofs ScanAny_Proofs.

(** What is packed is decoded again. Missing from the full property: doubles, booleans, unset values,
    empty arrays and objects and members without a name, for which it is false (below). *)
Theorem dtmi_round_trip_partial : forall v, packable v -> len (toPacked v) < 2 ^ 32 -> returns (fun f => fromDTMI f (toPacked v)) v.
Proof. exact pack_then_decode. Qed.
Definition tree : jv := JObj [(bs "list", JArr [JInt (-7); JNull; JStr (bs "x")]); (bs "n", JInt (2 ^ 62))].
Lemma tree_ok : packable tree.
Proof.
  assert (B : forall s, forallb (fun x => (0 <=? x) && (x <? 256)) s = true -> bytesP s) by (intros s; apply all_bytes_ok).
  constructor; [discriminate|vm_compute; auto|].
  repeat (constructor; [cbn [fst snd]; (split; [vm_compute; split; reflexivity|]); (split; [now apply B|])|]).
  - constructor; [discriminate|]. repeat constructor; change (2 ^ 63) with 9223372036854775808; try lia; try (vm_compute; reflexivity).
  - constructor. change (2 ^ 63) with 9223372036854775808. change (2 ^ 62) with 4611686018427387904. lia.
  - constructor.
Qed.
Example round_trip_case : returns (fun f => fromDTMI f (toPacked tree)) tree.
Proof. apply dtmi_round_trip_partial; [apply tree_ok|reflexivity]. Qed.

(** The announced size. *)
Theorem dtmi_size_partial : forall v, no_double v -> packedSize v = len (toPacked v).
Proof. exact packedSize_ok. Qed.
Example size_case : no_double tree /\ packedSize tree = 42.
Proof. split; [|reflexivity]. repeat constructor. Qed.

(** Scanning what was packed, wherever it lies in memory, reports the packed value: types, numbers,
    texts, sizes, names, elements by index, members by name, and nothing beyond. *)
Theorem dtmi_scan_partial : forall v before behind l, packable v -> bytesP before -> bytesP behind -> len (toPacked v) <= l ->
  reads (before ++ toPacked v ++ behind) (Some (mkScan (len before) l)) (wire v).
Proof.
  intros v a b l P Ba Bb L. rewrite (toPacked_wire v P) in *.
  apply reads_enc; [rewrite !bytesP_app; auto using enc_bytes|now apply wok_wire|now apply has_mid|assumption].
Qed.
Example scan_case : exists s, returns (fun f => getMember (toPacked tree ++ []) f (bs "list") (Some (mkScan 0 42))) (Some s) /\
  returns (fun f => getSize (toPacked tree ++ []) f (Some s)) 3.
Proof.
  pose proof (dtmi_scan_partial tree [] [] 42 tree_ok ltac:(constructor) ltac:(constructor) ltac:(vm_compute; discriminate)) as R.
  inversion R as [| | | | |s t l R1 R2 R3 R4 R5 R6]; subst. clear R.
  destruct (R5 (bs "list") (WArr [WInt (-7); WNull; WStr (bs "x")])) as (s & S1 & S2); [intros I; repeat (destruct I as [I|I]; [discriminate|]); destruct I|reflexivity|].
  exists s. split; [exact S1|]. inversion S2; subst. assumption.
Qed.

(** Every sequence of bytes of this grammar, whoever wrote it, is scanned like this (members in any
    order, doubles included). *)
Theorem dtmi_scan_wire : forall v before behind l, wok v -> bytesP (enc v) -> bytesP before -> bytesP behind -> len (enc v) <= l ->
  reads (before ++ enc v ++ behind) (Some (mkScan (len before) l)) v.
Proof.
  intros v a b l W Be Ba Bb L. apply reads_enc; [rewrite !bytesP_app; auto|assumption|now apply has_mid|assumption].
Qed.
Example wire_case : wok (WObj 255 [(bs "z", WDbl 4607182418800017408); (bs "a", WArr [])]).
Proof.
  constructor; [now right|]. constructor; [|constructor; [|constructor]]; cbn [fst snd];
  (split; [vm_compute; split; reflexivity|]); (split; [now apply all_bytes_ok|]).
  - constructor. change (2 ^ 64) with 18446744073709551616. lia.
  - constructor. constructor.
Qed.

(** A double is packed in ten bytes, announced as nine, and what follows it is misread. *)
Theorem dtmi_double_size_refuted : exists v, packedSize v <> len (toPacked v).
Proof. exists (JDbl 0). discriminate. Qed.
Theorem dtmi_double_refuted : exists v w, v <> w /\ returns (fun f => fromDTMI f (toPacked v)) w.
Proof.
  exists (JArr [JDbl 4607182418800017408; JInt 1]), (JArr [JDbl 4607182418800017408; JUnset; JInt 1]).
  split; [discriminate|]. exists 20%nat. intros k K. replace k with (20 + (k - 20))%nat by lia. reflexivity.
Qed.
(** An empty array or object comes back unset, a boolean as a number, a member without name not at all. *)
Theorem dtmi_empty_refuted : returns (fun f => fromDTMI f (toPacked (JArr []))) JUnset /\ returns (fun f => fromDTMI f (toPacked (JObj []))) JUnset.
Proof. split; exists 5%nat; intros k K; replace k with (5 + (k - 5))%nat by lia; reflexivity. Qed.
Theorem dtmi_bool_refuted : returns (fun f => fromDTMI f (toPacked (JBool 1))) (JInt 1).
Proof. exists 5%nat; intros k K; replace k with (5 + (k - 5))%nat by lia; reflexivity. Qed.
Theorem dtmi_name_refuted : toPacked (JObj [([], JInt 5)]) = toPacked (JObj []).
Proof. reflexivity. Qed.

(** Decoding foreign bytes: a truncated number in an array is decoded again and again, for ever; the
    text of a string is copied before its length is compared with the end. *)
Theorem dtmi_decode_endless_refuted : never_returns (fun f => fromDTMI f [10; 1; 0]).
Proof.
  assert (L : forall f r, dec_arr ([10; 1; 0] ++ [0]) (len [10; 1; 0]) f r 1 = Stuck).
  { induction f as [|f IH]; intros r; [reflexivity|].
    change (dec_arr ([10; 1; 0] ++ [0]) (len [10; 1; 0]) (S f) r 1) with (x <~ dec ([10; 1; 0] ++ [0]) (len [10; 1; 0]) f 1;; dec_arr ([10; 1; 0] ++ [0]) (len [10; 1; 0]) f (jappend r (fst x)) (snd x)).
    destruct f as [|f]; [reflexivity|].
    change (dec ([10; 1; 0] ++ [0]) (len [10; 1; 0]) (S f) 1) with (Ok (JUnset, 1)). cbn [fst snd]. apply IH. }
  intros [|k]; [reflexivity|]. unfold fromDTMI.
  change (dec ([10; 1; 0] ++ [0]) (len [10; 1; 0]) (S k) 0) with (dec_arr ([10; 1; 0] ++ [0]) (len [10; 1; 0]) k JUnset 1).
  now rewrite L.
Qed.
Theorem dtmi_decode_overread_refuted : undefined (fun f => fromDTMI f [2; 0; 0; 0; 9]).
Proof. exists 1%nat. intros k K. replace k with (1 + (k - 1))%nat by lia. reflexivity. Qed.

Print Assumptions dtmi_round_trip_partial.
Print Assumptions dtmi_size_partial.
Print Assumptions dtmi_scan_partial.
Print Assumptions dtmi_scan_wire.
Print Assumptions dtmi_double_size_refuted.
Print Assumptions dtmi_double_refuted.
Print Assumptions dtmi_empty_refuted.
Print Assumptions dtmi_bool_refuted.
Print Assumptions dtmi_name_refuted.
Print Assumptions dtmi_decode_endless_refuted.
Print Assumptions dtmi_decode_overread_refuted.
