(** Model of the binary form of JSON values: lib/json.cpp toPacked, packedSize, sendTo, fromDTMI. *)
From Verif Require Import Common Mem_Model Outcome_Model JsonVal_Model.

(** lib/json.cpp:815-866 JSON::Value::toPacked. A name length is written as two chars of its quotient
    and remainder, so it is reduced modulo 65536; a string length modulo 2^32 (Bit::htobl). The
    placeholder for a double is ten bytes: an escape and the nine characters 012345678 (829). *)
Fixpoint toPacked (v : jv) : list Z :=
  match v with
  | JInt n => 1 :: be 8 n
  | JBool b => 1 :: be 8 b
  | JStr s => 2 :: be 4 (len s) ++ s
  | JDbl d => 4 :: be 8 d ++ [ch "8"]
  | JNull | JUnset => [3]
  | JObj l =>
    224 :: flat_map (fun m => let '(k, x) := m in
                     match k with [] => [] | _ => [u8 (len k / 256); len k mod 256] ++ k ++ toPacked x end) l
        ++ [0; 0; 238]
  | JArr l => 10 :: flat_map toPacked l ++ [0; 0; 238]
  end.

(** lib/json.cpp:1011-1029 packedSize (64 bit sums, not reduced). *)
Fixpoint packedSize (v : jv) : Z :=
  match v with
  | JInt _ | JBool _ => 9
  | JNull | JUnset => 1
  | JDbl _ => 9
  | JStr s => 5 + len s
  | JObj l => fold_left (fun r m => let '(k, x) := m in
                match k with [] => r | _ => r + (2 + len k + packedSize x) end) l 4
  | JArr l => fold_left (fun r x => r + packedSize x) l 4
  end.

(** lib/json.cpp:870-1008 sendTo: the bytes given to the socket, one after the other. asInt of the
    members trackid and time is the parameter [num] (lib/json.cpp:688-693). *)
Section Send.
Context (num : jv -> Z).
Definition k_trackid := bs "trackid". Definition k_time := bs "time".
Definition k_datatype := bs "datatype". Definition k_tracks := bs "tracks".
Definition plain_name (k : list Z) : bool :=
  negb (beqb k []) && negb (beqb k k_trackid) && negb (beqb k k_time) && negb (beqb k k_datatype).
Fixpoint sendTo (v : jv) : list Z :=
  match v with
  | JObj l =>
    match oget k_trackid l, oget k_time l with
    | Some t, Some tm =>
      bs "DTP2"
      ++ be 4 (fold_left (fun r m => let '(k, x) := m in
                 if plain_name k then u32 (r + (2 + len k + packedSize x)) else r) l 16)
      ++ be 4 (num t) ++ be 8 (num tm)
      ++ 224 :: flat_map (fun m => let '(k, x) := m in
                  if plain_name k then [(len k / 256) mod 256; len k mod 256] ++ k ++ sendTo x else []) l
      ++ [0; 0; 238]
    | _, _ =>
      (match oget k_tracks l with Some _ => bs "DTSC" ++ be 4 (packedSize v) | None => [] end)
      ++ 224 :: flat_map (fun m => let '(k, x) := m in
                  match k with [] => [] | _ => [(len k / 256) mod 256; len k mod 256] ++ k ++ sendTo x end) l
      ++ [0; 0; 238]
    end
  | JArr l => 10 :: flat_map sendTo l ++ [0; 0; 238]
  | _ => toPacked v
  end.
End Send.

(** lib/json.cpp:1424-1494 fromDTMI: one value at index [i] (32 bits) of [len_] bytes; [m] is the block
    the bytes are in. The result is the value and the index after it. *)
Section Dec.
Context (m : list Z) (len_ : Z).
Fixpoint dec (fuel : nat) (i : Z) : res (jv * Z) :=
  match fuel with
  | O => Stuck
  | S f =>
    if len_ <=? i then Ok (JUnset, i) else
    c <~ getb m i;;
    if c =? 1 then
      if len_ <=? u32 (i + 8) then Ok (JUnset, i) else
      n <~ getbe m (i + 1) 8;; Ok (JInt (s64 n), u32 (i + 9))
    else if c =? 2 then
      if len_ <=? u32 (i + 4) then Ok (JUnset, i) else
      n <~ getbe m (i + 1) 4;;
      s <~ getn m (i + 5) n;;
      if len_ <=? u32 (i + 4 + n) then Ok (JUnset, i) else
      Ok (JStr s, u32 (i + n + 5))
    else if c =? 3 then Ok (JNull, u32 (i + 1))
    else if c =? 4 then
      if len_ <=? u32 (i + 8) then Ok (JUnset, i) else
      n <~ getbe m (i + 1) 8;; Ok (JDbl n, u32 (i + 9))
    else if (c =? 255) || (c =? 224) then dec_obj f JUnset (u32 (i + 1))
    else if c =? 10 then dec_arr f JUnset (u32 (i + 1))
    else Ok (JUnset, u32 (i + 1))
  end
with dec_obj (fuel : nat) (ret : jv) (i : Z) : res (jv * Z) :=
  match fuel with
  | O => Stuck
  | S f =>
    a <~ getb m i;; b <~ getb m (u32 (i + 1));;
    if negb (a + b =? 0) && (i <? len_) then
      if len_ <=? u32 (i + 2) then Ok (ret, i) else
      n <~ getbe m i 2;;
      k <~ getn m (i + 2) n;;
      r <~ dec f (u32 (i + n + 2));;
      dec_obj f (jset k (fst r) ret) (snd r)
    else Ok (ret, u32 (i + 3))
  end
with dec_arr (fuel : nat) (ret : jv) (i : Z) : res (jv * Z) :=
  match fuel with
  | O => Stuck
  | S f =>
    a <~ getb m i;; b <~ getb m (u32 (i + 1));;
    if negb (a + b =? 0) && (i <? len_) then
      r <~ dec f i;;
      dec_arr f (jappend ret (fst r)) (snd r)
    else Ok (ret, u32 (i + 3))
  end.
End Dec.

(** lib/json.cpp:1498-1509 fromDTMI(const std::string &): a string is followed by a readable zero. *)
Definition fromDTMI (fuel : nat) (d : list Z) : res jv :=
  r <~ dec (d ++ [0]) (len d) fuel 0;; Ok (fst r).
