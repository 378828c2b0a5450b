(** C01, C02, C03: Base64, hex and percent encodings (lib/encode.cpp). *)
From Verif Require Import Common Encode_Model Encode_Spec Encode_Proofs.

(** C01. Decoding inverts encoding for both alphabets. *)
Theorem base64_roundtrip : forall (url : bool) (l : list Z),
  bytesP l -> b64_decode (b64_encode l url) = l.
Proof. exact b64_roundtrip_lem. Qed.
Print Assumptions base64_roundtrip.

(** C01. The encoder is RFC 4648, stated on the bit string of the input. *)
Theorem base64_is_rfc4648 : forall (url : bool) (l : list Z),
  bytesP l -> b64_encode l url = rfc4648 url l.
Proof. exact b64_encode_rfc_lem. Qed.
Print Assumptions base64_is_rfc4648.

(** C01. Length of the padded form. *)
Theorem base64_length : forall l, bytesP l -> len (b64_encode l false) = 4 * ((len l + 2) / 3).
Proof. exact b64_len_lem. Qed.
Print Assumptions base64_length.

(** C01. Text shape: alphabet characters, then at most two '='; none for base64url. *)
Theorem base64_text : forall url l, bytesP l -> exists body k,
  b64_encode l url = body ++ repeat (ch "=") k /\ (k <= 2)%nat /\ Forall (b64_alpha url) body
  /\ (url = true -> k = O).
Proof. exact b64_text_lem. Qed.
Print Assumptions base64_text.

Example base64_nonvacuous :
  bytesP (bs "Mist!") /\ b64_encode (bs "Mist!") false = bs "TWlzdCE=" /\
  b64_encode [255; 254; 253; 0] true = bs "__79AA" /\ b64_decode (bs "__79AA") = [255; 254; 253; 0].
Proof. repeat split; try reflexivity. repeat constructor; vm_compute; congruence. Qed.

(** C02. *)
Theorem hex_roundtrip : forall l, bytesP l -> hex_decode (hex_encode l) = Some l.
Proof. exact hex_roundtrip_lem. Qed.
Print Assumptions hex_roundtrip.

Theorem hex_roundtrip_uppercase : forall l, bytesP l -> hex_decode (map upper (hex_encode l)) = Some l.
Proof. exact hex_roundtrip_upper_lem. Qed.
Print Assumptions hex_roundtrip_uppercase.

(** C02. The text is the standard one: high nibble first, lower case digits. *)
Theorem hex_text : forall l, bytesP l ->
  hex_encode l = flat_map (fun b => [nthz (bs "0123456789abcdef") (b / 16);
                                     nthz (bs "0123456789abcdef") (b mod 16)]) l.
Proof. exact hex_text_lem. Qed.
Print Assumptions hex_text.

Theorem hex_length : forall l, len (hex_encode l) = 2 * len l.
Proof. exact hex_encode_len. Qed.
Print Assumptions hex_length.

(** C02. Decoding stays inside its result exactly for texts of even length... *)
Theorem hex_decode_in_bounds_iff_even : forall l, hex_decode l = None <-> len l mod 2 = 1.
Proof. exact hex_decode_safe_lem. Qed.
Print Assumptions hex_decode_in_bounds_iff_even.

(** ... so "decoding never writes outside the result" is false: finding F01. *)
Theorem hex_decode_always_safe_refuted : exists l, bytesP l /\ hex_decode l = None.
Proof. exists (bs "abc"). split; [repeat constructor; vm_compute; congruence|reflexivity]. Qed.
Print Assumptions hex_decode_always_safe_refuted.

Example hex_nonvacuous : hex_encode [0; 171; 255] = bs "00abff" /\ hex_decode (bs "00ABff") = Some [0; 171; 255].
Proof. split; reflexivity. Qed.

(** C03. *)
Theorem url_roundtrip : forall l ign q,
  bytesP l -> ~ In (ch "%") ign -> (q = true -> ~ In (ch "+") ign) ->
  url_decode (url_encode l ign q) q = l.
Proof. exact url_roundtrip_lem. Qed.
Print Assumptions url_roundtrip.

Theorem url_encode_text : forall l ign q, bytesP l -> pct_text ign q (url_encode l ign q).
Proof. exact url_encode_grammar_lem. Qed.
Print Assumptions url_encode_text.

(** Decoding never grows the text. *)
Theorem url_decode_shrinks : forall l q, len (url_decode l q) <= len l.
Proof. exact url_decode_len. Qed.
Print Assumptions url_decode_shrinks.

Example url_nonvacuous :
  ~ In (ch "%") (bs "/:") /\ ~ In (ch "+") (bs "/:") /\
  url_encode (bs "a b/%+") (bs "/:") true = bs "a+b/%25%2b".
Proof. repeat split; try reflexivity; vm_compute; intuition congruence. Qed.
