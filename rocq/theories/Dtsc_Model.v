(** Model of lib/dtsc.cpp DTSC::Packet: building media packets and reading their fields. *)
From Verif Require Import Common Mem_Model Outcome_Model Scan_Model.

Definition put (m : list Z) (o : Z) (xs : list Z) : res (list Z) := match poke m o xs with Some x => Ok x | None => Ub end.

(** enum packType, lib/dtsc.h:59. *)
Definition V_INVALID := 0. Definition V_HEAD := 1. Definition V_1 := 2. Definition V_2 := 3. Definition V_CMD := 4.

(** lib/dtsc.h:107-170 Packet. [pdata] is the block behind the data pointer, None a null pointer;
    bufferLen is the size of that block while [own] (master) is set and 0 otherwise. *)
Record packet := mkP { pdata : option (list Z); own : bool; dlen : Z; ver : Z; nal : Z }.
Definition pnew : packet := mkP None false 0 V_INVALID 0.
(** lib/dtsc.cpp:108-116 null. prevNalSize is left alone. *)
Definition pnull (p : packet) : packet := mkP None false 0 V_INVALID (nal p).

Section Packet.
(** Contents of newly allocated memory. *)
Context (junk : Z).

(** lib/dtsc.cpp:120-131 resize, for a packet that owns its data (realloc keeps the old bytes). *)
Definition grow (b : list Z) (n : Z) : list Z := if len b <? n then b ++ repeat junk (Z.to_nat (n - len b)) else b.
Definition resize (p : packet) (n : Z) : packet :=
  if own p then
    mkP (Some (grow (match pdata p with Some b => b | None => [] end) n)) true (dlen p) (ver p) (nal p)
  else p.

Definition with_data {A} (p : packet) (f : list Z -> res A) : res A :=
  match pdata p with Some b => f b | None => Ub end.

(** lib/dtsc.cpp:206-214: the header type. *)
Definition version_of (h : list Z) : Z :=
  if beqb h (bs "DTCM") then V_CMD else if beqb h (bs "DTSC") then V_HEAD
  else if beqb h (bs "DTPD") then V_1 else if beqb h (bs "DTP2") then V_2 else V_INVALID.

(** lib/dtsc.cpp:172-216 reInit from [ext], the readable bytes at the given pointer. A packet that
    refers to foreign data (not own) and is asked to copy hands that pointer to realloc: undefined. *)
Definition reInit (ext : list Z) (n : Z) (noCopy : bool) (p : packet) : res packet :=
  b0 <~ getb ext 0;; if b0 =? 0 then Ok (pnull p) else
  b1 <~ getb ext 1;; if b1 =? 0 then Ok (pnull p) else
  b2 <~ getb ext 2;; if b2 =? 0 then Ok (pnull p) else
  b3 <~ getb ext 3;; if b3 =? 0 then Ok (pnull p) else
  if negb (b0 =? ch "D") || negb (b1 =? ch "T") then Ok (pnull p) else
  n <~ (if n =? 0 then x <~ getbe ext 4 4;; Ok (u32 (x + 8)) else Ok n);;
  let p := if own p && noCopy then pnull p else p in
  d <~ (if noCopy then Ok ext
        else if negb (own p) && (match pdata p with Some _ => true | None => false end) && (0 <? n) then Ub
        else src <~ getn ext 0 n;; put (grow (match pdata p with Some b => b | None => [] end) n) 0 src);;
  v <~ (if n <? 4 then Ok V_INVALID else h <~ getn d 0 4;; Ok (version_of h));;
  Ok (mkP (Some d) (negb noCopy) n v (nal p)).

(** lib/dtsc.cpp:86-104 operator bool. *)
Definition valid (p : packet) : res bool :=
  match pdata p with
  | None => Ok false
  | Some d =>
    if dlen p <? 8 then Ok false else if ver p =? V_INVALID then Ok false else
    x <~ getbe d 4 4;; Ok (u32 (x + 8) <=? dlen p)
  end.

(** lib/dtsc.cpp:519-525 getPayloadLen (32 bit arithmetic). *)
Definition getPayloadLen (p : packet) : Z := u32 (dlen p - (if ver p =? V_2 then 20 else 8)).
(** lib/dtsc.cpp:529-534 getScan. *)
Definition getScan (p : packet) : res mscan :=
  v <~ valid p;;
  if negb v || (dlen p =? 0) || (getPayloadLen p =? 0) || (dlen p <=? getPayloadLen p) then Ok None
  else Ok (Some (mkScan (dlen p - getPayloadLen p) (getPayloadLen p))).

(** lib/dtsc.cpp:415-448 getInt, getFlag, and 395-409 getString, for a packet with data. *)
Section Read.
Context (dbl : Z -> Z) (txt : list Z -> Z).
Definition member (fuel : nat) (name : list Z) (p : packet) : res mscan :=
  s <~ getScan p;; match pdata p with Some d => getMember d fuel name s | None => Ok None end.
Definition getInt (fuel : nat) (name : list Z) (p : packet) : res Z :=
  s <~ member fuel name p;;
  x <~ match pdata p with Some d => asInt d dbl txt s | None => Ok 0 end;; Ok (u64 x).
Definition getFlag (fuel : nat) (name : list Z) (p : packet) : res bool :=
  x <~ getInt fuel name p;; Ok (negb (x =? 0)).
Definition getStr (fuel : nat) (name : list Z) (p : packet) : res (list Z) :=
  s <~ member fuel name p;;
  match pdata p with Some d => getText d s | None => Ok [] end.
(** lib/dtsc.cpp:453-456 hasMember. *)
Definition hasMember (fuel : nat) (name : list Z) (p : packet) : res bool :=
  s <~ member fuel name p;;
  x <~ match pdata p with Some d => getType d s | None => Ok 0 end;; Ok (0 <? x).
(** lib/dtsc.cpp:460-466 getTime and 488-491 getTrackId. *)
Definition getTime (fuel : nat) (p : packet) : res Z :=
  if negb (ver p =? V_2) then
    match pdata p with None => Ok 0 | Some _ => getInt fuel (bs "time") p end
  else with_data p (fun d => getbe d 12 8).
Definition getTrackId (fuel : nat) (p : packet) : res Z :=
  if negb (ver p =? V_2) then getInt fuel (bs "trackid") p
  else with_data p (fun d => getbe d 8 4).
End Read.

(** lib/dtsc.cpp:220-267 genericFill. [payload] None is a null pointer; memcpy from it is undefined
    unless it copies nothing. Lengths are 32 bit. *)
Definition genericFill (time offset track : Z) (payload : option (list Z)) (size bpos : Z) (key : bool) (p : packet) : res packet :=
  let p0 := mkP None true 0 V_INVALID (nal p) in
  if (match payload with Some _ => true | None => false end) && (size <? 1) then Ok p0 else
  let sendLen := u32 (24 + (if negb (offset =? 0) then 17 else 0) + (if negb (bpos =? 0) then 15 else 0) + (if key then 19 else 0) + size + 11) in
  let d := grow [] sendLen in
  d <~ put d 0 (bs "DTP2");;
  d <~ put d 4 (be 4 (sendLen - 8));;
  d <~ put d 8 (be 4 track);;
  d <~ put d 12 (be 8 time);;
  d <~ put d 20 [224];;
  let o := 21 in
  r <~ (if negb (offset =? 0) then
          d <~ put d o ([0; 6] ++ bs "offset" ++ [1]);; d <~ put d (o + 9) (be 8 offset);; Ok (d, o + 17)
        else Ok (d, o));;
  let '(d, o) := r in
  r <~ (if negb (bpos =? 0) then
          d <~ put d o ([0; 4] ++ bs "bpos" ++ [1]);; d <~ put d (o + 7) (be 8 bpos);; Ok (d, o + 15)
        else Ok (d, o));;
  let '(d, o) := r in
  r <~ (if key then
          d <~ put d o ([0; 8] ++ bs "keyframe" ++ [1; 0; 0; 0; 0; 0; 0; 0; 1]);; Ok (d, o + 19)
        else Ok (d, o));;
  let '(d, o) := r in
  d <~ put d o ([0; 4] ++ bs "data" ++ [2]);;
  d <~ put d (o + 7) (be 4 size);;
  src <~ (match payload with
          | Some x => getn x 0 size
          | None => if size =? 0 then Ok [] else Ub end);;
  d <~ put d (o + 11) src;;
  d <~ put d (o + 11 + size) [0; 0; 238];;
  Ok (mkP (Some d) true sendLen V_2 (nal p)).

(** lib/dtsc.cpp:270-286 setKeyFrame. An unknown field is reported again and again: no end. *)
Fixpoint key_offset (fuel : nat) (d : list Z) (o : Z) : res Z :=
  match fuel with
  | O => Stuck
  | S f =>
    c <~ getb d o;;
    if (c =? ch "d") || (c =? ch "k") || (c =? ch "K") then Ok o else
    key_offset f d (if c =? ch "o" then o + 17 else if c =? ch "b" then o + 15 else o)
  end.
Definition setKeyFrame (fuel : nat) (kf : bool) (p : packet) : res packet :=
  with_data p (fun d =>
    o <~ key_offset fuel d 23;;
    c <~ getb d o;;
    if (c =? ch "k") || (c =? ch "K") then
      d <~ put d o [if kf then ch "k" else ch "K"];;
      d <~ put d (o + 16) [if kf then 1 else 0];;
      Ok (mkP (Some d) (own p) (dlen p) (ver p) (nal p))
    else Ok p).

(** lib/dtsc.cpp:333-347 getDataStringLenOffset; -1 becomes 4294967295 in the callers' uint32_t. *)
Fixpoint data_len_offset (fuel : nat) (d : list Z) (o : Z) : res Z :=
  match fuel with
  | O => Stuck
  | S f =>
    c <~ getb d o;;
    if c =? ch "d" then Ok (o + 5) else
    if c =? ch "o" then data_len_offset f d (o + 17) else
    if c =? ch "b" then data_len_offset f d (o + 15) else
    if (c =? ch "k") || (c =? ch "K") then data_len_offset f d (o + 19) else Ok 4294967295
  end.
(** lib/dtsc.cpp:295-297 and its copies: both length fields are raised by [n]. *)
Definition add_lens (fuel : nat) (d : list Z) (n : Z) : res (list Z) :=
  x <~ getbe d 4 4;; d <~ put d 4 (be 4 (x + n));;
  o <~ data_len_offset fuel d 23;;
  y <~ getbe d o 4;; put d o (be 4 (y + n)).

(** lib/dtsc.cpp:288-298 appendData. *)
Definition appendData (fuel : nat) (a : list Z) (p : packet) : res packet :=
  let p := resize p (u32 (dlen p + len a)) in
  with_data p (fun d =>
    d <~ put d (dlen p - 3) a;;
    d <~ put d (dlen p - 3 + len a) [0; 0; 238];;
    d <~ add_lens fuel d (len a);;
    Ok (mkP (Some d) (own p) (u32 (dlen p + len a)) (ver p) (nal p))).
(** lib/dtsc.cpp:300-313 appendNal. *)
Definition appendNal (fuel : nat) (a : list Z) (p : packet) : res packet :=
  if len a =? 0 then Ok p else
  let p := resize p (u32 (dlen p + len a + 4)) in
  with_data p (fun d =>
    d <~ put d (dlen p - 3) (be 4 (len a));;
    d <~ put d (dlen p - 3 + 4) a;;
    d <~ put d (dlen p - 3 + 4 + len a) [0; 0; 238];;
    d <~ add_lens fuel d (len a + 4);;
    Ok (mkP (Some d) (own p) (u32 (dlen p + len a + 4)) (ver p) (len a))).
(** lib/dtsc.cpp:315-331 upgradeNal. *)
Definition upgradeNal (fuel : nat) (a : list Z) (p : packet) : res packet :=
  if len a =? 0 then Ok p else
  with_data p (fun d =>
    let so := dlen p - 3 - 4 - nal p in
    x <~ getbe d so 4;;
    if negb (x =? nal p) then Ok p else
    let p := resize p (u32 (dlen p + len a)) in
    with_data p (fun d =>
      d <~ put d so (be 4 (nal p + len a));;
      d <~ put d (dlen p - 3) a;;
      d <~ put d (dlen p - 3 + len a) [0; 0; 238];;
      d <~ add_lens fuel d (len a);;
      Ok (mkP (Some d) (own p) (u32 (dlen p + len a)) (ver p) (nal p + len a)))).
(** lib/dtsc.cpp:468-474 setTime. *)
Definition setTime (t : Z) (p : packet) : res packet :=
  if own p then with_data p (fun d => d <~ put d 12 (be 8 t);; Ok (mkP (Some d) (own p) (dlen p) (ver p) (nal p))) else Ok p.
End Packet.
