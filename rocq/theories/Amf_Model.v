(** Model of AMF0 values, lib/amf.cpp. *)
From Verif Require Import Common Mem_Model Outcome_Model.

(** Doubles are their 64 bit pattern. [d2z]: conversion of a double to an integer type, towards zero, for
    values that are not negative; [z2d]: conversion of an unsigned int (every 32 bit number is exact). *)
Definition d2z (d : Z) : Z :=
  let e := d / 2 ^ 52 in let f := d mod 2 ^ 52 in
  if e <? 1023 then 0 else if e <=? 1075 then (2 ^ 52 + f) / 2 ^ (1075 - e) else (2 ^ 52 + f) * 2 ^ (e - 1075).
Definition z2d (n : Z) : Z := if n =? 0 then 0 else let k := Z.log2 n in (1023 + k) * 2 ^ 52 + (n - 2 ^ k) * 2 ^ (52 - k).

(** lib/amf.h:94-128 Object: myIndice, myType, numval, strval, contents. *)
Inductive aobj := AO (name : list Z) (ty : Z) (num : Z) (str : list Z) (cont : list aobj).
Definition aname (o : aobj) : list Z := let '(AO n _ _ _ _) := o in n.
Definition aty (o : aobj) : Z := let '(AO _ t _ _ _) := o in t.
Definition anum (o : aobj) : Z := let '(AO _ _ n _ _) := o in n.
Definition astr (o : aobj) : list Z := let '(AO _ _ _ s _) := o in s.
Definition acont (o : aobj) : list aobj := let '(AO _ _ _ _ c) := o in c.

Definition len16 (s : list Z) : list Z := [u8 (len s / 256); u8 (len s mod 256)].
Definition len32 (n : Z) : list Z := [u8 (n / (256 * 256 * 256)); u8 (n / (256 * 256)); u8 (n / 256); u8 (n mod 256)].

(** lib/amf.cpp:265-385 Pack: the bytes; the change of myType of long strings is inside. Conversions of
    numval to char and int are modelled for values that fit. *)
Fixpoint Pack (o : aobj) : list Z :=
  let '(AO name ty num str cont) := o in
  let ty := if (ty =? 2) && (0xFFFF <? len str) then 12 else ty in
  let members := flat_map (fun x => len16 (aname x) ++ aname x ++ Pack x) cont in
  (if ty =? 0xFF then [] else [u8 ty]) ++
  if ty =? 0 then be 8 num
  else if ty =? 11 then be 8 num ++ [0; 0]
  else if ty =? 1 then [u8 (d2z num)]
  else if ty =? 2 then len16 str ++ str
  else if (ty =? 12) || (ty =? 15) then len32 (len str) ++ str
  else if ty =? 16 then len16 name ++ name ++ members ++ [0; 0; 9]
  else if ty =? 3 then members ++ [0; 0; 9]
  else if ty =? 7 then [u8 (d2z num / 256); u8 (d2z num mod 256)]
  else if ty =? 8 then len32 (len cont) ++ members ++ [0; 0; 9]
  else if ty =? 10 then len32 (len cont) ++ flat_map Pack cont
  else if ty =? 0xFF then flat_map Pack cont
  else [].

Section Parse.
(** The memory that starts at [data], and the length that was passed. Positions are unsigned int. *)
Context (m : list Z) (n : Z).
Definition at_ (i k : Z) : res Z := getb m (u32 (i + k)).
(** [data[i] * 256 + data[i + 1]] *)
Definition get16 (i : Z) : res Z := a <~ at_ i 0;; b <~ at_ i 1;; Ok (a * 256 + b).
(** [data[i] * 256 * 256 * 256 + ...] in int: overflows for a first byte of 128 and more. *)
Definition get32 (i : Z) : res Z :=
  a <~ at_ i 0;; b <~ at_ i 1;; c <~ at_ i 2;; d <~ at_ i 3;;
  if a <? 128 then Ok (a * 256 * 256 * 256 + b * 256 * 256 + c * 256 + d) else Ub.
(** [if (tmpi + i + k >= len){tmpi = len - i - k;}] *)
Definition clamp (t i k : Z) : Z := if n <=? u32 (t + i + k) then u32 (n - i - k) else t.
Definition number (i : Z) : res Z := if u32 (i + 8) <? n then x <~ getn m (i + 1) 8;; Ok (unbe x) else Ok 0.
Definition empty_obj : aobj := AO [] 0xFF 0 [] [].

(** lib/amf.cpp:394-543 parseOne; the loops over named members (448-459, 464-480, 482-499) and over
    the elements of a strict array (500-509). Class names are not stepped over, as in the code. *)
Fixpoint parseOne (fuel : nat) (i : Z) (name : list Z) : res (aobj * Z) :=
  match fuel with
  | O => Stuck
  | S f =>
    if n <=? i then Ok (empty_obj, i) else
    c <~ getb m i;;
    if c =? 0 then d <~ number i;; Ok (AO name 0 d [] [], u32 (i + 9))
    else if c =? 11 then d <~ number i;; Ok (AO name 11 d [] [], u32 (i + 11))
    else if c =? 1 then b <~ at_ i 1;; Ok (AO name 1 (if b =? 0 then z2d 0 else z2d 1) [] [], u32 (i + 2))
    else if c =? 7 then t <~ get16 (i + 1);; Ok (AO name 7 (z2d t) [] [], u32 (i + 3))
    else if (c =? 15) || (c =? 12) then
      t <~ get32 (i + 1);; let t := clamp t i 5 in
      s <~ getn m (i + 5) t;; Ok (AO name c 0 s [], u32 (i + t + 5))
    else if c =? 2 then
      t <~ get16 (i + 1);; let t := clamp t i 3 in
      s <~ getn m (i + 3) t;; Ok (AO name 2 0 s [], u32 (i + t + 3))
    else if (c =? 5) || (c =? 6) || (c =? 13) then Ok (AO name c 0 [] [], u32 (i + 1))
    else if c =? 3 then x <~ members f true (u32 (i + 1)) [];; Ok (AO name 3 0 [] (fst x), u32 (snd x + 3))
    else if c =? 16 then
      t <~ get16 (u32 (i + 1));; s <~ getn m (u32 (i + 1) + 2) (clamp t (u32 (i + 1)) 2);;
      x <~ members f false (u32 (i + 1)) [];; Ok (AO s 16 0 [] (fst x), u32 (snd x + 3))
    else if c =? 8 then x <~ members f true (u32 (i + 5)) [];; Ok (AO name 8 0 [] (fst x), u32 (snd x + 3))
    else if c =? 10 then t <~ get32 (i + 1);; x <~ elems f t (u32 (i + 5)) [];; Ok (AO name 10 0 [] (fst x), snd x)
    else Ok (AO (bs "error") 0xFF 0 [] [], n)
  end
with members (fuel : nat) (clamped : bool) (i : Z) (acc : list aobj) : res (list aobj * Z) :=
  match fuel with
  | O => Stuck
  | S f =>
    if u32 (i + 1) <? n then
      t <~ get16 i;;
      if t =? 0 then Ok (acc, i) else
      let t := if clamped then clamp t i 2 else t in
      s <~ getn m (i + 2) t;;
      x <~ parseOne f (u32 (i + t + 2)) s;;
      members f clamped (snd x) (acc ++ [fst x])
    else Ok (acc, i)
  end
with elems (fuel : nat) (t i : Z) (acc : list aobj) : res (list aobj * Z) :=
  match fuel with
  | O => Stuck
  | S f => if t =? 0 then Ok (acc, i) else x <~ parseOne f i (bs "arrVal");; elems f (t - 1) (snd x) (acc ++ [fst x])
  end.

(** lib/amf.cpp:548-560 parse; [j] is the last position. *)
Fixpoint parse_loop (fuel : nat) (i j : Z) (acc : list aobj) : res (list aobj) :=
  match fuel with
  | O => Stuck
  | S f =>
    if i <? n then
      x <~ parseOne f i [];;
      if j <? snd x then parse_loop f (snd x) (snd x) (acc ++ [fst x]) else Ok (acc ++ [fst x])
    else Ok acc
  end.
Definition parse (fuel : nat) : res aobj := l <~ parse_loop fuel 0 0 [];; Ok (AO (bs "returned") 0xFF 0 [] l).
End Parse.
