(** Model of /repo/lib/encode.cpp and /repo/lib/encode.h: Base64, Hex and URL encodings. *)
From Verif Require Import Common.

(** lib/encode.cpp:7-8: the two alphabets, selected by isBase64URL. *)
Definition b64_chars (isURL : bool) : list Z :=
  if isURL then bs "ABCDEFGHIJKLMNOPQRSTUVWXYZabcdefghijklmnopqrstuvwxyz0123456789-_"
  else bs "ABCDEFGHIJKLMNOPQRSTUVWXYZabcdefghijklmnopqrstuvwxyz0123456789+/".

(** lib/encode.cpp:18-23: one quad from one triple of which [n] bytes come from the input. *)
Definition b64_quad (chars : list Z) (n t0 t1 t2 : Z) : list Z :=
  let q0 := nthz chars (Z.shiftr (Z.land t0 252) 2) in
  let q1 := nthz chars (Z.lor (Z.shiftl (Z.land t0 3) 4) (Z.shiftr (Z.land t1 240) 4)) in
  let q2 := nthz chars (Z.lor (Z.shiftl (Z.land t1 15) 2) (Z.shiftr (Z.land t2 192) 6)) in
  let q3 := nthz chars (Z.land t2 63) in
  let q3' := if n <? 3 then ch "=" else q3 in
  let q2' := if n <? 2 then ch "=" else q2 in
  [q0; q1; q2'; q3'].

(** lib/encode.cpp:14-25: the loop over x in steps of three; the three cases are
    (in_len - x) / 3 > 0 (n = 3) and the remainders n = 2 and n = 1, with the missing
    entries of [triple] left at 0 (line 16).
    Simplification: the 32 bit counters in_len and x do not wrap (inputs below 2^31 bytes). *)
Fixpoint b64_enc_loop (chars : list Z) (input : list Z) : list Z :=
  match input with
  | [] => []
  | [a] => b64_quad chars 1 a 0 0
  | [a; b] => b64_quad chars 2 a b 0
  | a :: b :: c :: r => b64_quad chars 3 a b c ++ b64_enc_loop chars r
  end.

(** std::string::erase(find_last_not_of('=') + 1), lib/encode.cpp:26. *)
Fixpoint strip_eq_front (l : list Z) : list Z :=
  match l with
  | [] => []
  | c :: r => if c =? ch "=" then strip_eq_front r else l
  end.
Definition strip_eq (l : list Z) : list Z := rev (strip_eq_front (rev l)).

(** lib/encode.cpp:6-28 Base64::encode. *)
Definition b64_encode (input : list Z) (isURL : bool) : list Z :=
  let ret := b64_enc_loop (b64_chars isURL) input in
  if isURL then strip_eq ret else ret.

(** lib/encode.cpp:30-37 b64CharVal. *)
Definition b64CharVal (c : Z) : Z :=
  if (ch "A" <=? c) && (c <=? ch "Z") then c - ch "A"
  else if (ch "a" <=? c) && (c <=? ch "z") then c - ch "a" + 26
  else if (ch "0" <=? c) && (c <=? ch "9") then c - ch "0" + 52
  else if (c =? ch "+") || (c =? ch "-") then 62
  else if (c =? ch "/") || (c =? ch "_") then 63
  else 64.

(** lib/encode.cpp:53-56 (and 63-66): three bytes from four character values, truncated to
    unsigned char. *)
Definition b64_triple (v0 v1 v2 v3 : Z) : list Z :=
  [ u8 (Z.shiftl v0 2 + Z.shiftr (Z.land v1 48) 4);
    u8 (Z.shiftl (Z.land v1 15) 4 + Z.shiftr (Z.land v2 60) 2);
    u8 (Z.shiftl (Z.land v2 3) 6 + v3) ].

(** lib/encode.cpp:61-68: the tail. Unused entries are set to character 0 *before* the value
    lookup, so they carry value b64CharVal(0) = 64. *)
Definition b64_finish (arr ret : list Z) : list Z :=
  let i := len arr in
  if i =? 0 then ret
  else
    let v j := b64CharVal (if j <? i then nthz arr j else 0) in
    ret ++ takez (i - 1) (b64_triple (v 0) (v 1) (v 2) (v 3)).

(** lib/encode.cpp:49-60: the loop; [arr] holds char_array_4[0..i). *)
Fixpoint b64_dec_loop (l arr ret : list Z) : list Z :=
  match l with
  | [] => b64_finish arr ret
  | c :: r =>
      if (c =? ch "=") || (b64CharVal c =? 64) then b64_finish arr ret
      else
        let arr' := arr ++ [c] in
        if len arr' =? 4 then
          b64_dec_loop r []
            (ret ++ b64_triple (b64CharVal (nthz arr' 0)) (b64CharVal (nthz arr' 1))
                               (b64CharVal (nthz arr' 2)) (b64CharVal (nthz arr' 3)))
        else b64_dec_loop r arr' ret
  end.

(** lib/encode.cpp:42-70 Base64::decode. *)
Definition b64_decode (s : list Z) : list Z := b64_dec_loop s [] [].

(** lib/encode.cpp:73-84 Hex::chr. The two ifs run in sequence: a digit 0..9 becomes 48..57,
    which fails the second test. *)
Definition hex_digit (d : Z) : Z :=
  let d1 := if d <=? 9 then d + 48 else d in
  if (10 <=? d1) && (d1 <=? 15) then d1 + (97 - 10) else d1.
Definition hex_chr (dec : Z) : list Z :=
  [hex_digit (Z.shiftr (Z.land dec 240) 4); hex_digit (Z.land dec 15)].

(** lib/encode.cpp:86-90 Hex::encode. *)
Definition hex_encode (l : list Z) : list Z := flat_map hex_chr l.

(** lib/encode.h:30 Hex::ord. *)
Definition hex_ord (c : Z) : Z :=
  Z.land c 15 + Z.lor (Z.shiftr (Z.land c 64) 6) (Z.shiftr (Z.land c 64) 3).

(** lib/encode.cpp:95-98: the loop of Hex::decode at index [i]. [None]: write outside of [ret]
    (std::string::operator[] at size(), undefined behaviour when something else than 0 is stored). *)
Fixpoint hex_dec_loop (l : list Z) (i : Z) (ret : list Z) : option (list Z) :=
  match l with
  | [] => Some ret
  | c :: r =>
      let k := Z.shiftr i 1 in
      if k <? len ret then
        let sh := if Z.land i 1 =? 0 then 4 else 0 in
        hex_dec_loop r (i + 1)
          (splice ret k [u8 (Z.lor (nthz ret k) (Z.shiftl (hex_ord c) sh))])
      else None
  end.

(** lib/encode.cpp:93-100 Hex::decode. *)
Definition hex_decode (l : list Z) : option (list Z) :=
  hex_dec_loop l 0 (repeat 0 (Z.to_nat (len l / 2))).

(** lib/encode.cpp:107-110: characters left alone. *)
Definition url_safe (c : Z) : bool :=
  ((ch "0" <=? c) && (c <=? ch "9")) || ((ch "a" <=? c) && (c <=? ch "z"))
  || ((ch "A" <=? c) && (c <=? ch "Z"))
  || ((c =? ch "$") || (c =? ch "-") || (c =? ch "_") || (c =? ch ".") || (c =? ch ",")
      || (c =? ch "!") || (c =? ch "~") || (c =? ch ";") || (c =? ch "*") || (c =? ch "(")
      || (c =? ch ")") || (c =? 39)).
Definition url_exempt (ign : list Z) (c : Z) : bool := existsb (fun x => x =? c) ign.

(** lib/encode.cpp:103-122 URL::encode. *)
Definition url_enc_char (ign : list Z) (queryStr : bool) (c : Z) : list Z :=
  if url_safe c || url_exempt ign c then [c]
  else if (c =? ch " ") && queryStr then [ch "+"]
  else ch "%" :: hex_chr c.
Definition url_encode (l ign : list Z) (queryStr : bool) : list Z :=
  flat_map (url_enc_char ign queryStr) l.

(** lib/encode.cpp:125-144 URL::decode. *)
Fixpoint url_decode (l : list Z) (queryStr : bool) : list Z :=
  match l with
  | [] => []
  | c :: r =>
      if c =? ch "%" then
        match r with
        | [] => [0]
        | [a] => [u8 (Z.shiftl (hex_ord a) 4)]
        | a :: b :: r' => u8 (u8 (Z.shiftl (hex_ord a) 4) + hex_ord b) :: url_decode r' queryStr
        end
      else if (c =? ch "+") && queryStr then ch " " :: url_decode r queryStr
      else c :: url_decode r queryStr
  end.
