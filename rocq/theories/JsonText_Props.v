(** Properties C16 and C17: the text form of JSON values. *)
From Verif Require Import Common CommonFacts Outcome_Model JsonVal_Model JsonText_Model Dtmi_Spec JsonText_Spec JsonText_Proofs JsonTextAny_Proofs.

(** Whatever doubles are, however they are printed and whatever an uninitialised char holds. *)
Section Props.
Context (dshow : Z -> list Z) (junk : Z) (D : Type) (dint : Z -> D) (dstep : D -> D -> Z -> D * D) (dbits : D -> Z).
Notation toString := (toString dshow).
Notation from := (fun s f => fromString junk D dint dstep dbits f s).

(** C16: printing a value and parsing the text gives the value back. Missing: doubles, the smallest 64 bit
    integer, characters of three bytes in UTF-8 and bytes that are no UTF-8, values with unset parts (refuted below). *)
Theorem json_text_round_trip_partial v : printable v -> returns (from (toString v)) v.
Proof. apply fromString_ok. Qed.

(** C17: parsing ends on every text ... *)
Theorem json_parse_ends s : exists n r, r <> Stuck /\ forall k, (n <= k)%nat -> from s k = r.
Proof. apply fromString_settles. Qed.
(** ... and returns a value if it has at most eighteen digits. Missing: more digits may overflow (refuted below). *)
Theorem json_parse_returns_partial s : (List.length (filter (fun c => (48 <=? c)%Z && (c <=? 57)%Z) s) <= 18)%nat ->
  exists v, returns (from s) v.
Proof. apply fromString_returns. Qed.

(** A run with enough steps settles the outcome. *)
Lemma run_returns n s v : from s n = Ok v -> returns (from s) v.
Proof.
  intros E. exists n. intros k K. rewrite <- E. unfold fromString in *. rewrite (parse_mono junk D dint dstep dbits n k); [reflexivity|exact K|].
  intros X. now rewrite X in E.
Qed.
Lemma run_undefined n s : from s n = Ub -> undefined (from s).
Proof.
  intros E. exists n. intros k K. rewrite <- E. unfold fromString in *. rewrite (parse_mono junk D dint dstep dbits n k); [reflexivity|exact K|].
  intros X. now rewrite X in E.
Qed.

(** The euro sign, three bytes in UTF-8, comes back as four other bytes. *)
Theorem json_three_bytes_refuted : returns (from (toString (JStr [0xE2; 0x82; 0xAC]))) (JStr [0xF0; 0x90; 0x82; 0xAC]).
Proof. apply (run_returns 30). reflexivity. Qed.
(** A byte that is no UTF-8 comes back as two. *)
Theorem json_lone_byte_refuted : returns (from (toString (JStr [0xFF]))) (JStr [0xC3; 0xBF]).
Proof. apply (run_returns 30). reflexivity. Qed.
(** The smallest integer, printed by the code itself, overflows in the parser. *)
Theorem json_min_int_refuted : toString (JInt (- 2 ^ 63)) = bs "-9223372036854775808" /\ undefined (from (bs "-9223372036854775808")).
Proof. split; [reflexivity|]. apply (run_undefined 30). reflexivity. Qed.
(** So does any number of twenty digits. *)
Theorem json_overflow_refuted : undefined (from (bs "[10000000000000000000]")).
Proof. apply (run_undefined 40). reflexivity. Qed.
(** Exponents, which operator<< prints for large and small doubles, become further digits. *)
Theorem json_exponent_refuted : returns (from (bs "1e+20")) (JInt 120).
Proof. apply (run_returns 30). reflexivity. Qed.
(** An unset value in an array comes back as null. *)
Theorem json_unset_refuted : returns (from (toString (JArr [JInt 1; JUnset]))) (JArr [JInt 1; JNull]).
Proof. apply (run_returns 30). reflexivity. Qed.
(** Two numbers without a comma become one; a sign may stand anywhere. *)
Theorem json_lenient : returns (from (bs "[1 2,3-]")) (JArr [JInt 12; JInt (-3)]).
Proof. apply (run_returns 30). reflexivity. Qed.
End Props.

(** The value of an unterminated string depends on memory that was never written. *)
Theorem json_unterminated_refuted : exists s x y, forall D dint dstep dbits, exists a b,
  returns (fun f => fromString x D dint dstep dbits f s) a /\ returns (fun f => fromString y D dint dstep dbits f s) b /\ a <> b.
Proof.
  exists [34], 65, 66. intros. exists (JStr [65]), (JStr [66]).
  split; [apply (run_returns 65 D dint dstep dbits 9); reflexivity|]. split; [apply (run_returns 66 D dint dstep dbits 9); reflexivity|discriminate].
Qed.

(** A case for the round trip. *)
Definition sample : jv := JObj [(bs "a", JArr [JInt (-120); JBool 1; JNull; JArr []]); (bs "b", JStr ([34; 10; 7; 92; 0x7F] ++ [0xC3; 0xA9] ++ [0xF0; 0x9F; 0x98; 0x80])); (bs "c", JObj [])].
Ltac texts := cbn; repeat first [apply t_nil | apply t_ascii; [lia|] | apply t_two; [lia|unfold trail; lia|] | apply t_four; [lia|lia|lia|unfold trail; lia|unfold trail; lia|unfold trail; lia|]].
Example sample_printable : printable sample.
Proof.
  apply pr_obj; [cbn; tauto|]. apply Forall_cons; [split; [texts|]|apply Forall_cons; [split; [texts|]|apply Forall_cons; [split; [texts|]|constructor]]]; cbn [fst snd].
  - apply pr_arr. repeat (apply Forall_cons; [first [apply pr_int; lia|apply pr_bool; lia|apply pr_null|apply pr_arr; constructor]|]). constructor.
  - apply pr_str. texts.
  - apply pr_obj; [exact I|constructor].
Qed.
Example sample_text : toString (fun _ => []) sample = bs "{""a"":[-120,true,null,[]],""b"":""\""\n\u0007\\\u007F\u00E9\uD83D\uDE00"",""c"":{}}".
Proof. reflexivity. Qed.
Example sample_digits : (List.length (filter (fun c => (48 <=? c)%Z && (c <=? 57)%Z) (bs "{""a"":[-120,[[tr,""\u00")) <= 18)%nat.
Proof. cbn. lia. Qed.

Print Assumptions json_text_round_trip_partial.
Print Assumptions json_parse_ends.
Print Assumptions json_parse_returns_partial.
Print Assumptions json_three_bytes_refuted.
Print Assumptions json_lone_byte_refuted.
Print Assumptions json_min_int_refuted.
Print Assumptions json_overflow_refuted.
Print Assumptions json_exponent_refuted.
Print Assumptions json_unset_refuted.
Print Assumptions json_lenient.
Print Assumptions json_unterminated_refuted.
