(** Model of appending packets to a shared data page and of reading it (/repo/src/io.cpp, /repo/src/output/output.cpp). *)
From Verif Require Import Common Bitfields_Model Mem_Model Outcome_Model Scan_Model Dtsc_Model Dtmi_Spec Dtsc_Spec.

(** One store of one byte. A memcpy or Bit:: write is a group of stores. *)
Notation store := (Z * Z)%type.
Fixpoint group (o : Z) (xs : list Z) : list store :=
  match xs with [] => [] | x :: r => (o, x) :: group (o + 1) r end.

(** src/io.cpp:256-257 *)
Definition packDataLen (f : fields) : Z :=
  24 + (if f_offset f =? 0 then 0 else 17) + (if f_bpos f =? 0 then 0 else 15) + (if f_key f then 19 else 0) + len (f_data f) + 11.

(** src/io.cpp:302-338: the stores of bufferNext in program order, for the page offset [o]. *)
Definition stores (o : Z) (f : fields) : list (list store) :=
  let g1 := [group (o + 20) [0xE0]] in
  let p := 21 in
  let '(g2, p) := if f_offset f =? 0 then ([], p) else ([group (o + p) ([0; 6] ++ bs "offset" ++ [1]); group (o + p + 9) (htobll (f_offset f))], p + 17) in
  let '(g3, p) := if f_bpos f =? 0 then ([], p) else ([group (o + p) ([0; 4] ++ bs "bpos" ++ [1]); group (o + p + 7) (htobll (f_bpos f))], p + 15) in
  let '(g4, p) := if f_key f then ([group (o + p) ([0; 8] ++ bs "keyframe" ++ [1; 0; 0; 0; 0; 0; 0; 0; 1])], p + 19) else ([], p) in
  g1 ++ g2 ++ g3 ++ g4 ++
  [group (o + p) ([0; 4] ++ bs "data" ++ [2]); group (o + p + 7) (htobl (len (f_data f))); group (o + p + 11) (f_data f);
   group (o + p + 11 + len (f_data f)) [0; 0; 0xEE];
   group (o + 12) (htobll (f_time f)); group (o + 8) (htobl (f_track f)); group (o + 4) (htobl (packDataLen f - 8)); group o (bs "DTP2")].

Fixpoint writes (m : list Z) (l : list store) : option (list Z) :=
  match l with [] => Some m | (o, b) :: r => m' <- poke m o [b];; writes m' r end.

(** src/io.cpp:289-300, 342: a page with [avail] bytes in use; a packet that does not fit is ignored. The
    page's record is assumed found (278-288) and packets in order (266-271). *)
Definition refused (size avail : Z) (f : fields) : bool := u64 (size - avail) <? packDataLen f.
Definition bufferNext (size : Z) (s : list Z * Z) (f : fields) : option (list Z * Z) :=
  let '(m, avail) := s in
  if refused size avail f then Some (m, avail)
  else m' <- writes m (List.concat (stores avail f));; Some (m', avail + packDataLen f).
Fixpoint bufferAll (size : Z) (s : list Z * Z) (fs : list fields) : option (list Z * Z) :=
  match fs with [] => Some s | f :: r => s' <- bufferNext size s f;; bufferAll size s' r end.

(** output.cpp:1028-1056, 2500-2511, 2677, 2696: a reader tries the packet at its offset, without copying,
    in whatever state the page is at that time; if it is valid the offset moves on by its length. *)
Fixpoint follow (ms : list (list Z)) (off : Z) (p : packet) : res (list packet) :=
  match ms with
  | [] => Ok []
  | m :: r =>
    q <~ reInit 0 (dropz off m) 0 true p;;
    v <~ valid q;;
    if v then qs <~ follow r (off + dlen q) q;; Ok (q :: qs) else follow r off q
  end.
(** output.cpp:38, 2559-2560: the time of the packet behind the one of [n] bytes at [off]; None if nothing
    is there yet. [memcmp] looks at four bytes. *)
Definition nextTime (m : list Z) (off n : Z) : res (option Z) :=
  if off + n + 20 <? len m
  then h <~ getn m (off + n) 4;;
       if beqb h [0; 0; 0; 0] then Ok None else t <~ getbe m (off + n + 12) 8;; Ok (Some t)
  else Ok None.
