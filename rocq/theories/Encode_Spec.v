(** Independent description of RFC 4648 Base64: the input seen as a bit string. *)
From Verif Require Import Common.
From Verif Require Export Bits.

(** RFC 4648: cut the bit string in groups of six, the last one filled up with zero bits. *)
Fixpoint sextets (l : list bool) : list Z :=
  match l with
  | [] => []
  | a :: b :: c :: d :: e :: f :: r => bits_val [a; b; c; d; e; f] :: sextets r
  | short => [bits_val (short ++ repeat false (6 - List.length short))]
  end.

Definition rfc_char (isURL : bool) (v : Z) : Z :=
  if v <? 26 then 65 + v              (* A-Z *)
  else if v <? 52 then 97 + (v - 26)  (* a-z *)
  else if v <? 62 then 48 + (v - 52)  (* 0-9 *)
  else if v =? 62 then (if isURL then 45 else 43)   (* - or + *)
  else (if isURL then 95 else 47).                  (* _ or / *)

(** RFC 4648 section 4 (with padding to a multiple of four characters) and 5 (without). *)
Definition rfc4648 (isURL : bool) (l : list Z) : list Z :=
  let body := map (rfc_char isURL) (sextets (bits l)) in
  if isURL then body else body ++ repeat 61 (Z.to_nat ((- len body) mod 4)).

(** Characters Base64 text may contain, besides padding. *)
Definition b64_alpha (url : bool) (c : Z) : Prop :=
  65 <= c <= 90 \/ 97 <= c <= 122 \/ 48 <= c <= 57 \/ (if url then c = 45 \/ c = 95 else c = 43 \/ c = 47).

(** Upper case of an ASCII letter. *)
Definition upper (c : Z) : Z := if (97 <=? c) && (c <=? 122) then c - 32 else c.

(** Percent-encoded text: a grammar. Plain characters are the listed ones, those exempted by the
    caller and (in query strings) '+'; everything else is '%' with two lower case hex digits. *)
Definition url_unreserved : list Z :=
  39 :: bs "ABCDEFGHIJKLMNOPQRSTUVWXYZabcdefghijklmnopqrstuvwxyz0123456789$-_.,!~;*()".
Inductive pct_text (ign : list Z) (q : bool) : list Z -> Prop :=
| pct_nil : pct_text ign q []
| pct_plain c r : In c url_unreserved \/ In c ign \/ (q = true /\ c = ch "+") ->
    pct_text ign q r -> pct_text ign q (c :: r)
| pct_esc a b r : In a (bs "0123456789abcdef") -> In b (bs "0123456789abcdef") ->
    pct_text ign q r -> pct_text ign q (ch "%" :: a :: b :: r).
