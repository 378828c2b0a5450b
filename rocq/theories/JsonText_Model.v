(** Model of the text form of JSON values, lib/json.cpp: toString, string_escape and the parser. *)
From Verif Require Import Common Outcome_Model JsonVal_Model.

(** lib/json.cpp:145-155 c2hex, hex2c. *)
Definition c2hex (c : Z) : Z :=
  if (48 <=? c) && (c <=? 57) then c - 48 else if (97 <=? c) && (c <=? 102) then c - 97 + 10
  else if (65 <=? c) && (c <=? 70) then c - 65 + 10 else 0.
Definition hex2c (c : Z) : Z := if c <? 10 then 48 + c else if c <? 16 then 65 + (c - 10) else 48.

(** lib/json.cpp:157-184 UTF8. The second test for 0x7FF repeats the first and is never true. *)
Definition UTF8 (c : Z) : list Z :=
  if c <=? 0x7F then [c]
  else if c <=? 0x7FF then [0xC0 .| (c >> 6); 0x80 .| (c .& 0x3F)]
  else
    let c := (((c >> 16) .& 0x3FF) << 10) + ((c .& 0xFFFF) .& 0x3FF) + 0x10000 in
    [0xF0 .| ((c >> 18) .& 0x07); 0x80 .| ((c >> 12) .& 0x3F); 0x80 .| ((c >> 6) .& 0x3F); 0x80 .| (c .& 0x3F)].

(** lib/json.cpp:257-272 UTF16; the recursion is one level deep. *)
Definition u16esc (c : Z) : list Z :=
  bs "\u" ++ [hex2c ((c >> 12) .& 15); hex2c ((c >> 8) .& 15); hex2c ((c >> 4) .& 15); hex2c (c .& 15)].
Definition UTF16 (c : Z) : list Z :=
  if 0xFFFF <? c then let c := c - 0x10000 in u16esc (0xD800 + ((c >> 10) .& 0x3FF)) ++ u16esc (0xDC00 + (c .& 0x3FF))
  else u16esc c.

(** lib/json.cpp:274-328 string_escape between the quotes. *)
Definition cont (b : Z) : bool := (b .& 0xC0) =? 0x80.
Definition esc1 (c : Z) : list Z := bs "\u00" ++ [hex2c ((c >> 4) .& 15); hex2c (c .& 15)].
Fixpoint esc (s : list Z) : list Z :=
  match s with
  | [] => []
  | c :: r =>
    if c =? 34 then 92 :: 34 :: esc r else if c =? 92 then 92 :: 92 :: esc r
    else if c =? 10 then 92 :: ch "n" :: esc r else if c =? 8 then 92 :: ch "b" :: esc r
    else if c =? 12 then 92 :: ch "f" :: esc r else if c =? 13 then 92 :: ch "r" :: esc r
    else if c =? 9 then 92 :: ch "t" :: esc r
    else if (c <? 32) || (126 <? c) then
      if (c .& 0xC0) =? 0xC0 then
        match r with
        | c1 :: r1 =>
          if ((c .& 0xE0) =? 0xC0) && cont c1 then UTF16 (((c .& 0x1F) << 6) .| (c1 .& 0x3F)) ++ esc r1 else
          match r1 with
          | c2 :: r2 =>
            if ((c .& 0xF0) =? 0xE0) && cont c1 && cont c2 then
              UTF16 ((((c .& 0x1F) << 12) .| ((c1 .& 0x3F) << 6)) .| (c2 .& 0x3F)) ++ esc r2 else
            match r2 with
            | c3 :: r3 =>
              if ((c .& 0xF8) =? 0xF0) && cont c1 && cont c2 && cont c3 then
                UTF16 (((((c .& 0x1F) << 18) .| ((c1 .& 0x3F) << 12)) .| ((c2 .& 0x3F) << 6)) .| (c3 .& 0x3F)) ++ esc r3
              else esc1 c ++ esc r
            | [] => esc1 c ++ esc r
            end
          | [] => esc1 c ++ esc r
          end
        | [] => esc1 c ++ esc r
        end
      else esc1 c ++ esc r
    else c :: esc r
  end.
Definition string_escape (s : list Z) : list Z := [34] ++ esc s ++ [34].

(** operator<< of a long long; 64 bit numbers have at most 19 digits. *)
Fixpoint digits (fuel : nat) (n : Z) : list Z :=
  match fuel with O => [] | S f => (if n <? 10 then [] else digits f (n / 10)) ++ [48 + n mod 10] end.
Definition show_int (n : Z) : list Z := if n <? 0 then 45 :: digits 20 (- n) else digits 20 n.

Fixpoint commas (l : list (list Z)) : list Z :=
  match l with [] => [] | [x] => x | x :: r => x ++ [ch ","] ++ commas r end.

(** lib/json.cpp:1107-1162 toString. The text of a double is the parameter [dshow]. *)
Section Show.
Context (dshow : Z -> list Z).
Definition or_null (s : list Z) : list Z := match s with [] => bs "null" | _ => s end.
Fixpoint toString (v : jv) : list Z :=
  match v with
  | JInt n => show_int n
  | JDbl d => dshow d
  | JBool b => if negb (b =? 0) then bs "true" else bs "false"
  | JStr s => string_escape s
  | JArr l => [ch "["] ++ commas (map (fun x => or_null (toString x)) l) ++ [ch "]"]
  | JObj l => [ch "{"] ++ commas (map (fun e => string_escape (fst e) ++ [ch ":"] ++ or_null (toString (snd e))) l) ++ [ch "}"]
  | JUnset => []
  | JNull => bs "null"
  end.
End Show.

(** A std::istream over a string: what is left, and good(). A read at the end clears good. *)
Definition stream := (list Z * bool)%type.

(** lib/json.cpp:331-339 skipToEnd. *)
Fixpoint skipToEnd (s : list Z) : stream :=
  match s with
  | [] => ([], false)
  | c :: r => if (c =? ch ",") || (c =? ch "]") || (c =? ch "}") then (s, true) else skipToEnd r
  end.

Section Parse.
(** A failed fromstream.get(c) leaves c as it was: not initialised. [junk] is what such a char holds. *)
Context (junk : Z).
Definition get1 (st : stream) : Z * stream :=
  match st with (c :: r, true) => (c, (r, true)) | (r, _) => (junk, (r, false)) end.

(** lib/json.cpp:186-255 read_string; [full] is fullChar. *)
Definition flushc (full : Z) : list Z := if full =? 0 then [] else UTF8 (full >> 16).
Fixpoint read_string (fuel : nat) (sep : Z) (st : stream) (escaped : bool) (full : Z) (out : list Z) : res (list Z * stream) :=
  match fuel with
  | O => Stuck
  | S f =>
    if negb (snd st) then Ok (out ++ flushc full, st) else
    let '(c, st) := get1 st in
    if negb escaped && (c =? 92) then read_string f sep st true full out else
    if escaped then
      let '(out, full) := if negb (full =? 0) && negb (c =? ch "u") then (out ++ UTF8 (full >> 16), 0) else (out, full) in
      if c =? ch "b" then read_string f sep st false full (out ++ [8]) else
      if c =? 92 then read_string f sep st false full (out ++ [92]) else
      if c =? ch "f" then read_string f sep st false full (out ++ [12]) else
      if c =? ch "n" then read_string f sep st false full (out ++ [10]) else
      if c =? ch "r" then read_string f sep st false full (out ++ [13]) else
      if c =? ch "t" then read_string f sep st false full (out ++ [9]) else
      if c =? ch "x" then
        let '(d1, st) := get1 st in let '(d2, st) := get1 st in
        read_string f sep st false full (out ++ [u8 (c2hex d2 + (c2hex d1 << 4))])
      else if c =? ch "u" then
        let '(d1, st) := get1 st in if d1 =? sep then Ok (out ++ flushc full, st) else
        let '(d2, st) := get1 st in if d2 =? sep then Ok (out ++ flushc full, st) else
        let '(d3, st) := get1 st in if d3 =? sep then Ok (out ++ flushc full, st) else
        let '(d4, st) := get1 st in if d4 =? sep then Ok (out ++ flushc full, st) else
        let tmp := c2hex d4 + (c2hex d3 << 4) + (c2hex d2 << 8) + (c2hex d1 << 12) in
        let '(out, full) := if negb (full =? 0) && ((tmp <? 0xDC00) || (0xDFFF <? tmp)) then (out ++ UTF8 (full >> 16), 0) else (out, full) in
        let full := full .| tmp in
        if (0xD800 <=? full) && (full <=? 0xDBFF) then read_string f sep st false (u32 (full << 16)) out
        else read_string f sep st false 0 (out ++ UTF8 full)
      else read_string f sep st false full (out ++ [c])
    else
      let out := out ++ flushc full in
      if c =? sep then Ok (out, st) else read_string f sep st false 0 (out ++ [c])
  end.

(** Doubles: of an integer, the step of one digit behind the point, the bit pattern. *)
Context (D : Type) (dint : Z -> D) (dstep : D -> D -> Z -> D * D) (dbits : D -> Z).

(** The value under construction, lib/json.h:28-34, with the local flags of the constructor. *)
Inductive jty := TEmpty | TBool | TInt | TDouble | TString | TArray | TObject | TUnset.
Record pst := mkPst { ty : jty; iv : Z; dv : D; dd : D; sv : list Z; av : list jv; ov : list (list Z * jv);
  ro : bool; ra : bool; neg : bool }.
Definition pst0 : pst := mkPst TUnset 0 (dint 0) (dint 1) [] [] [] false false false.
Definition with_ty (t : jty) (p : pst) : pst := mkPst t (iv p) (dv p) (dd p) (sv p) (av p) (ov p) (ro p) (ra p) (neg p).
(** null() followed by setting the type. *)
Definition nulled (t : jty) (p : pst) : pst := mkPst t 0 (dint 0) (dint 1) [] [] [] (ro p) (ra p) (neg p).
Definition p_append (v : jv) (p : pst) : pst :=
  let p := match ty p with TArray => p | _ => nulled TArray p end in
  mkPst (ty p) (iv p) (dv p) (dd p) (sv p) (av p ++ [v]) (ov p) (ro p) (ra p) (neg p).
Definition p_member (k : list Z) (v : jv) (p : pst) : pst :=
  let p := match ty p with TObject => p | _ => nulled TObject p end in
  mkPst (ty p) (iv p) (dv p) (dd p) (sv p) (av p) (oset k v (ov p)) (ro p) (ra p) (neg p).
(** What a copy of the finished value holds (operator=, lib/json.cpp:676-690). *)
Definition value_of (p : pst) : jv :=
  match ty p with
  | TEmpty => JNull | TUnset => JUnset
  | TBool => JBool (if neg p then - iv p else iv p)
  | TInt => JInt (if neg p then - iv p else iv p)
  | TDouble => JDbl (dbits (dv p)) | TString => JStr (sv p) | TArray => JArr (av p) | TObject => JObj (ov p)
  end.
Definition is_digit (c : Z) : bool := (48 <=? c) && (c <=? 57).

(** lib/json.cpp:358-470 Value(std::istream &). intVal is a signed 64 bit number: overflow is undefined. *)
Fixpoint parse (fuel : nat) (p : pst) (st : stream) : res (jv * stream) :=
  match fuel with
  | O => Stuck
  | S f =>
    if negb (snd st) then Ok (value_of p, st) else
    match fst st with
    | [] => parse f p ([], false)
    | c :: r =>
      if c =? ch "{" then parse f (mkPst TObject (iv p) (dv p) (dd p) (sv p) (av p) (ov p) true (ra p) (neg p)) (r, true) else
      if c =? ch "[" then
        let p := mkPst TArray (iv p) (dv p) (dd p) (sv p) (av p) (ov p) (ro p) true (neg p) in
        x <~ parse f pst0 (r, true);;
        parse f (match fst x with JUnset => p | v => p_append v p end) (snd x)
      else if (c =? 39) || (c =? 34) then
        x <~ read_string f c (r, true) false 0 [];;
        if negb (ro p) then
          Ok (value_of (mkPst TString (iv p) (dv p) (dd p) (fst x) (av p) (ov p) (ro p) (ra p) (neg p)), snd x)
        else y <~ parse f pst0 (snd x);; parse f (p_member (fst x) (fst y) p) (snd y)
      else if c =? ch "-" then parse f (mkPst (ty p) (iv p) (dv p) (dd p) (sv p) (av p) (ov p) (ro p) (ra p) true) (r, true)
      else if is_digit c then
        match ty p with
        | TDouble => let '(v, d) := dstep (dv p) (dd p) (c - 48) in
          parse f (mkPst TDouble (iv p) v d (sv p) (av p) (ov p) (ro p) (ra p) (neg p)) (r, true)
        | _ =>
          let n := iv p * 10 + (c - 48) in
          if n <? 2 ^ 63 then parse f (mkPst TInt n (dv p) (dd p) (sv p) (av p) (ov p) (ro p) (ra p) (neg p)) (r, true) else Ub
        end
      else if c =? ch "." then
        let '(v, d) := if neg p then (dint (- iv p), dint (-1)) else (dint (iv p), dint 1) in
        parse f (mkPst TDouble (iv p) v d (sv p) (av p) (ov p) (ro p) (ra p) (neg p)) (r, true)
      else if c =? ch "," then
        if negb (ro p) && negb (ra p) then Ok (value_of p, st) else
        if ra p then x <~ parse f pst0 (r, true);; parse f (p_append (fst x) p) (snd x) else parse f p (r, true)
      else if c =? ch "}" then Ok (value_of p, if ro p then (r, true) else st)
      else if c =? ch "]" then Ok (value_of p, if ra p then (r, true) else st)
      else if (c =? ch "t") || (c =? ch "T") then
        Ok (value_of (mkPst TBool 1 (dv p) (dd p) (sv p) (av p) (ov p) (ro p) (ra p) (neg p)), skipToEnd (c :: r))
      else if (c =? ch "f") || (c =? ch "F") then
        Ok (value_of (mkPst TBool 0 (dv p) (dd p) (sv p) (av p) (ov p) (ro p) (ra p) (neg p)), skipToEnd (c :: r))
      else if (c =? ch "n") || (c =? ch "N") then Ok (value_of (with_ty TEmpty p), skipToEnd (c :: r))
      else parse f p (r, true)
    end
  end.
(** lib/json.cpp:1382-1385 fromString. *)
Definition fromString (fuel : nat) (s : list Z) : res jv := x <~ parse fuel pst0 (s, true);; Ok (fst x).
End Parse.
