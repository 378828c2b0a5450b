(** Model of Util::RelAccX (/repo/lib/util.cpp:28-41 and 840-1345, /repo/lib/util.h:160-330): records of
    named fields in a block of shared memory. Messages to the log are left out. *)
From Verif Require Import Common Bitfields_Model Mem_Model.

(** util.h:164-180 *)
Record fd := mkfd { f_type : Z; f_size : Z; f_off : Z }.
(** An object: the memory p points to and its map of fields, the latest assignment first. *)
Record rax := mkrax { page : list Z; fields : list (list Z * fd) }.
Fixpoint lookup (l : list (list Z * fd)) (name : list Z) : option fd :=
  match l with
  | [] => None
  | (n, f) :: r => if beqb n name then Some f else lookup r name
  end.

(** util.cpp:872-878, 934-957: the header. *)
Definition getRCount (m : list Z) : option Z := ld 4 m 2.
Definition getRSize (m : list Z) : option Z := ld 4 m 6.
Definition getStartPos (m : list Z) : option Z := ld 4 m 10.
Definition getDeleted (m : list Z) : option Z := ld 8 m 14.
Definition getPresent (m : list Z) : option Z := ld 4 m 22.
Definition getOffset (m : list Z) : option Z := ld 2 m 26.
Definition getEndPos (m : list Z) : option Z := ld 8 m 28.
(** util.cpp:959-967 *)
Definition isReady (m : list Z) : option bool := b <- ld 1 m 0;; Some (negb ((b .& 1) =? 0)).
Definition isExit (m : list Z) : option bool := b <- ld 1 m 0;; Some (negb ((b .& 2) =? 0)).
Definition isReload (m : list Z) : option bool := b <- ld 1 m 0;; Some (negb ((b .& 4) =? 0)).
(** util.cpp:970-976 *)
Definition isRecordAvailable (m : list Z) (r : Z) : option bool :=
  d <- getDeleted m;; e <- getEndPos m;; Some (if r <? d then false else if e <=? r then false else true).

(** util.cpp:1134-1142 *)
Definition default_size (ty : Z) : Z :=
  if ((ty .& 0xF0) =? 0x20) || ((ty .& 0xF0) =? 0x10) then (ty .& 0x0F) + 1
  else if ((ty .& 0xF0) =? 0x30) || ((ty .& 0xF0) =? 0x40) then 16 << (ty .& 0x0F)
  else 0.

(** util.cpp:864-931, the constructor on memory that is ready: Some None leaves the object without
    memory (p = 0), and None is undefined behaviour or a loop that does not end. *)
Fixpoint read_fields (fuel : nat) (m : list Z) (last off doff : Z) (acc : list (list Z * fd)) : option (list (list Z * fd)) :=
  if last <=? off then Some acc
  else match fuel with
  | O => None
  | S k =>
    sb <- ld 1 m off;;
    let nl := sb >> 3 in
    let tl := sb .& 7 in
    ty <- ld 1 m (off + 1 + nl);;
    name <- peek m (off + 1) nl;;
    size <- (if tl =? 1 then
               Some (if ((ty .& 0xF0) =? 0x10) || ((ty .& 0xF0) =? 0x20) then (ty .& 0x0F) + 1
                     else if ((ty .& 0xF0) =? 0x30) || ((ty .& 0xF0) =? 0x40) then 16 << (ty .& 0x0F) else 0)
             else if tl =? 2 then ld 1 m (off + 1 + nl + 1)
             else if tl =? 3 then ld 2 m (off + 1 + nl + 1)
             else if tl =? 4 then x <- peek m (off + 1 + nl + 1) 3;; Some (btoh24 x)
             else if tl =? 5 then ld 4 m (off + 1 + nl + 1)
             else Some 0);;
    read_fields k m last (u16 (off + nl + tl + 1)) (u64 (doff + size)) ((name, mkfd ty size (u32 doff)) :: acc)
  end.
Definition open (m : list Z) : option (option rax) :=
  off <- ld 1 m 1;;
  last <- getOffset m;;
  if (off <? 11) || (last <=? off) then Some None
  else fs <- read_fields (Z.to_nat 65536) m last off 0 [];; Some (Some (mkrax m fs)).

(** util.cpp:1148-1206 *)
Definition addField (s : rax) (name : list Z) (ty flen : Z) : option rax :=
  let m := page s in
  a <- isExit m;; b <- isReload m;; c <- isReady m;;
  if a || b || c then Some s
  else if (len name =? 0) || (31 <? len name) then Some s
  else
    let flen := if flen =? 0 then default_size ty else flen in
    if flen =? 0 then Some s
    else
      m <- (match fields s with
            | [] => m1 <- st 4 m 6 0;; m2 <- st 2 m1 26 36;; o <- getOffset m2;; st 1 m2 1 o
            | _ => Some m
            end);;
      let tl := if default_size ty =? flen then 1 else if flen <? 0x100 then 2 else if flen <? 0x10000 then 3 else 5 in
      rs <- getRSize m;;
      o <- getOffset m;;
      m <- st 1 m o (u8 ((len name << 3) .| (tl .& 7)));;
      m <- poke m (o + 1) name;;
      m <- st 1 m (o + 1 + len name) ty;;
      m <- (if tl =? 2 then st 1 m (o + 2 + len name) flen
            else if tl =? 3 then st 2 m (o + 2 + len name) flen
            else if tl =? 5 then st 4 m (o + 2 + len name) flen
            else Some m);;
      m <- st 2 m 26 (u16 (o + 1 + len name + tl));;
      m <- st 4 m 6 (u32 (rs + flen));;
      Some (mkrax m ((name, mkfd ty flen rs) :: fields s)).
(** util.cpp:1209 *)
Definition setRCount (s : rax) (n : Z) : option rax := m <- st 4 (page s) 2 n;; Some (mkrax m (fields s)).
(** util.cpp:1228-1234 *)
Definition setReady (s : rax) : option rax :=
  let m := page s in
  a <- isExit m;; b <- isReload m;; c <- isReady m;;
  if a || b || c then Some s
  else x <- ld 1 m 0;; m <- st 1 m 0 (x .| 1);; Some (mkrax m (fields s)).

(** util.cpp:41 RECORD_POINTER, as the offset from p. *)
Definition record_pointer (m : list Z) (f : fd) (r : Z) : option Z :=
  o <- getOffset m;; c <- getRCount m;; s <- getRSize m;;
  Some (o + u64 ((if c =? 0 then r else r mod c) * s) + f_off f).
(** util.cpp:996-1004; None is also the null pointer of a missing field. *)
Definition getPointer (s : rax) (name : list Z) (r : Z) : option Z :=
  f <- lookup (fields s) name;; record_pointer (page s) f r.
(** Sign extension of an [n] byte integer to 64 bits. *)
Definition signed (n v : Z) : Z := u64 (if v <? 2 ^ (8 * n - 1) then v else v - 2 ^ (8 * n)).
(** util.cpp:1014-1037 *)
Definition get_int (m : list Z) (f : fd) (r : Z) : option Z :=
  q <- record_pointer m f r;;
  if (f_type f .& 0xF0) =? 0x10 then
    if f_size f =? 1 then ld 1 m q
    else if f_size f =? 2 then ld 2 m q
    else if f_size f =? 3 then x <- peek m q 3;; Some (btoh24 x)
    else if f_size f =? 4 then ld 4 m q
    else if f_size f =? 8 then ld 8 m q
    else Some 0
  else if (f_type f .& 0xF0) =? 0x20 then
    if f_size f =? 1 then x <- ld 1 m q;; Some (signed 1 x)
    else if f_size f =? 2 then x <- ld 2 m q;; Some (signed 2 x)
    else if f_size f =? 3 then x <- peek m q 3;; Some (btoh24 x)
    else if f_size f =? 4 then x <- ld 4 m q;; Some (signed 4 x)
    else if f_size f =? 8 then ld 8 m q
    else Some 0
  else Some 0.
(** util.cpp:1008-1012; a missing field reads 0. *)
Definition getInt (s : rax) (name : list Z) (r : Z) : option Z :=
  match lookup (fields s) name with None => Some 0 | Some f => get_int (page s) f r end.
(** util.cpp:1276-1300. A value of any other type is not stored. *)
Definition set_int (m : list Z) (f : fd) (v r : Z) : option (list Z) :=
  q <- record_pointer m f r;;
  if ((f_type f .& 0xF0) =? 0x10) || ((f_type f .& 0xF0) =? 0x20) then
    if f_size f =? 1 then st 1 m q v
    else if f_size f =? 2 then st 2 m q v
    else if f_size f =? 3 then poke m q (htob24 v)
    else if f_size f =? 4 then st 4 m q v
    else if f_size f =? 8 then st 8 m q v
    else Some m
  else Some m.
(** util.cpp:1266-1274 *)
Definition setInt (s : rax) (name : list Z) (v r : Z) : option rax :=
  match lookup (fields s) name with
  | None => Some s
  | Some f => m <- set_int (page s) f v r;; Some (mkrax m (fields s))
  end.
(** util.cpp:1254-1262 *)
Definition set_string (m : list Z) (f : fd) (v : list Z) (r : Z) : option (list Z) :=
  if negb ((f_type f .& 0xF0) =? 0x30) && negb ((f_type f .& 0xF0) =? 0x40) then Some m
  else
    q <- record_pointer m f r;;
    m <- poke m q (takez (Z.min (u32 (len v)) (f_size f)) v);;
    if (f_type f .& 0xF0) =? 0x30 then st 1 m (q + Z.min (u32 (len v)) (u32 (f_size f - 1))) 0 else Some m.
(** util.cpp:1245-1252 *)
Definition setString (s : rax) (name v : list Z) (r : Z) : option rax :=
  match lookup (fields s) name with
  | None => Some s
  | Some f => m <- set_string (page s) f v r;; Some (mkrax m (fields s))
  end.
(** A C string at offset [q]: the bytes up to the first zero. *)
Fixpoint cstr (m : list Z) : option (list Z) :=
  match m with
  | [] => None
  | b :: r => if b =? 0 then Some [] else x <- cstr r;; Some (b :: x)
  end.
(** util.cpp:846-848 FieldAccX::string, also std::string(getPointer(..)) *)
Definition getString (s : rax) (name : list Z) (r : Z) : option (list Z) :=
  q <- getPointer s name r;; if (0 <=? q) && (q <=? len (page s)) then cstr (dropz q (page s)) else None.
(** util.cpp:984-992; strnlen looks at no more than the field. *)
Fixpoint strnlen (l : list Z) : Z := match l with [] => 0 | b :: r => if b =? 0 then 0 else 1 + strnlen r end.
Definition getSize (s : rax) (name : list Z) (r : Z) : option Z :=
  a <- isRecordAvailable (page s) r;;
  if negb a then Some 0
  else match lookup (fields s) name with
       | None => Some 0
       | Some f => if (f_type f .& 0xF0) =? 0x30
                   then q <- record_pointer (page s) f r;; x <- peek (page s) q (f_size f);; Some (strnlen x)
                   else Some (f_size f)
       end.
(** Bytes of a raw field, read through getPointer and getSize. *)
Definition getRaw (s : rax) (name : list Z) (r : Z) : option (list Z) :=
  f <- lookup (fields s) name;; q <- record_pointer (page s) f r;; peek (page s) q (f_size f).

(** util.cpp:1318-1329; None also when it ends the program. *)
Definition deleteRecords (s : rax) (n : Z) : option rax :=
  let m := page s in
  a <- getStartPos m;; m <- st 4 m 10 (u32 (a + n));;
  d <- getDeleted m;; m <- st 8 m 14 (u64 (d + n));;
  p <- getPresent m;;
  if n <=? p then m <- st 4 m 22 (u32 (p - n));; Some (mkrax m (fields s)) else None.
(** util.cpp:1333-1342 *)
Definition addRecords (s : rax) (n : Z) : option rax :=
  let m := page s in
  e <- getEndPos m;; d <- getDeleted m;; c <- getRCount m;;
  m <- (if c <? u64 (e + n - d) then st 4 m 22 0 else p <- getPresent m;; st 4 m 22 (u32 (p + n)));;
  m <- st 8 m 28 (u64 (e + n));;
  Some (mkrax m (fields s)).

(** Use of a page: any number of declarations, the record count, ready; then operations. *)
Fixpoint addFields (s : rax) (l : list (list Z * Z * Z)) : option rax :=
  match l with
  | [] => Some s
  | (n, ty, sz) :: r => s <- addField s n ty sz;; addFields s r
  end.
Definition build (m : list Z) (l : list (list Z * Z * Z)) (cnt : Z) : option rax :=
  s <- addFields (mkrax m []) l;; s <- setRCount s cnt;; setReady s.
Inductive op := Add (n : Z) | Delete (n : Z) | SetInt (name : list Z) (r v : Z) | SetString (name : list Z) (r : Z) (v : list Z).
Definition do_op (s : rax) (o : op) : option rax :=
  match o with
  | Add n => addRecords s n
  | Delete n => deleteRecords s n
  | SetInt name r v => setInt s name v r
  | SetString name r v => setString s name v r
  end.
Fixpoint do_ops (s : rax) (l : list op) : option rax :=
  match l with
  | [] => Some s
  | o :: r => s <- do_op s o;; do_ops s r
  end.
