(** Model of Socket::Buffer (/repo/lib/socket.h:108-132, /repo/lib/socket.cpp:646-928).
    The deque of strings is a list of byte strings, oldest (back of the deque) first. *)
From Verif Require Import Common.

Record sbuf := mksb { segs : list (list Z); splitter : list Z }.
(** lib/socket.cpp:646-648 *)
Definition sb_new : sbuf := mksb [] [10].
(** lib/socket.cpp:35 BUFFER_BLOCKSIZE *)
Definition BLOCKSIZE : Z := 4096.

(** lib/socket.cpp:653-656 size(): pops empty strings off the back, returns the number of parts. *)
Fixpoint drop_empty (d : list (list Z)) : list (list Z) :=
  match d with
  | [] :: r => drop_empty r
  | _ => d
  end.
Definition sb_size (b : sbuf) : Z * sbuf :=
  let d := drop_empty (segs b) in (u32 (len d), mksb d (splitter b)).

(** lib/socket.cpp:659-666 bytes(max): iterates from the front (newest), 32 bit counter. *)
Fixpoint bytes_loop (d : list (list Z)) (i max : Z) : Z :=
  match d with
  | [] => i
  | s :: r => let i := u32 (i + len s) in if i >=? max then max else bytes_loop r i max
  end.
Definition sb_bytes (b : sbuf) (max : Z) : Z := bytes_loop (rev (segs b)) 0 max.

(** lib/socket.cpp:669-678 bytesToSplit(): iterates from the back (oldest). *)
Fixpoint split_loop (sp : list Z) (d : list (list Z)) (i : Z) : Z :=
  match d with
  | [] => 0
  | s :: r =>
      let i := u32 (i + len s) in
      if (len s >=? len sp) && beqb (dropz (len s - len sp) s) sp then i else split_loop sp r i
  end.
Definition sb_bytesToSplit (b : sbuf) : Z := split_loop (splitter b) (segs b) 0.

(** lib/socket.cpp:709-716: the inner loop of append over the data [l] not stored yet;
    string_compare (689-694) is byte equality. At most min(len l, BLOCKSIZE) iterations. *)
Fixpoint scan_loop (fuel : nat) (sp l : list Z) (j : Z) : Z :=
  match fuel with
  | O => j
  | S k =>
      if (j <? len l) && (j <? BLOCKSIZE) then
        let j := j + 1 in
        if (j >=? len sp) && beqb (takez (len sp) (dropz (j - len sp) l)) sp then j
        else scan_loop k sp l j
      else j
  end.
(** lib/socket.cpp:702-717: how many bytes go into the next part. *)
Definition next_part (sp l : list Z) : Z :=
  if len sp =? 0 then (if len l >? BLOCKSIZE then BLOCKSIZE else len l)
  else scan_loop (List.length l) sp l 0.
(** lib/socket.cpp:698-731 append: parts of [l] in order of arrival. The lengths are 32 bit;
    callers pass at most 2^32 - 1 bytes. Logging is left out. *)
Fixpoint cut (fuel : nat) (sp l : list Z) : list (list Z) :=
  match fuel with
  | O => []
  | S k =>
      if 0 <? len l then
        let j := next_part sp l in
        if j =? 0 then [] else takez j l :: cut k sp (dropz j l)
      else []
  end.
Definition sb_append (b : sbuf) (l : list Z) : sbuf :=
  mksb (segs b ++ cut (List.length l) (splitter b) l) (splitter b).
(** lib/socket.cpp:735-743 prepend. *)
Definition sb_prepend (b : sbuf) (l : list Z) : sbuf := mksb (l :: segs b) (splitter b).

(** lib/socket.cpp:756-763 (loop of available): from the newest, 32 bit counter. *)
Fixpoint avail_loop (d : list (list Z)) (i count : Z) : bool :=
  match d with
  | [] => false
  | s :: r => let i := u32 (i + len s) in if i >=? count then true else avail_loop r i count
  end.
(** lib/socket.cpp:746-754 available(count). *)
Definition sb_available (b : sbuf) (count : Z) : bool * sbuf :=
  let b := snd (sb_size b) in (avail_loop (rev (segs b)) 0 (u32 count), b).
(** lib/socket.cpp:757-764 available(count) const. *)
Definition sb_available_const (b : sbuf) (count : Z) : bool := avail_loop (rev (segs b)) 0 (u32 count).

(** lib/socket.cpp:767-778 skip. *)
Fixpoint skip_loop (d : list (list Z)) (i count : Z) : list (list Z) :=
  match d with
  | [] => []
  | s :: r => if i + len s <=? count then skip_loop r (i + len s) count else dropz (count - i) s :: r
  end.
Definition sb_skip (b : sbuf) (count : Z) : sbuf := mksb (skip_loop (segs b) 0 count) (splitter b).

(** lib/socket.cpp:788-798: the loop of remove; returns what was taken and what is left. *)
Fixpoint remove_loop (d : list (list Z)) (i count : Z) : list Z * list (list Z) :=
  match d with
  | [] => ([], [])
  | s :: r =>
      if i + len s <? count then
        let (ret, d') := remove_loop r (i + len s) count in (s ++ ret, [] :: d')
      else (takez (count - i) s, dropz (count - i) s :: r)
  end.
(** lib/socket.cpp:782-800 remove(count); 804-818, the variant that appends to a pointer, does
    the same with the result appended. *)
Definition sb_remove (b : sbuf) (count : Z) : list Z * sbuf :=
  let b := snd (sb_size b) in
  let (a, b) := sb_available b count in
  if negb a then ([], b)
  else let (ret, d) := remove_loop (segs b) 0 count in (ret, mksb d (splitter b)).

(** lib/socket.cpp:829-838 (loop of copy). *)
Fixpoint copy_loop (d : list (list Z)) (i count : Z) : list Z :=
  match d with
  | [] => []
  | s :: r => if i + len s <? count then s ++ copy_loop r (u32 (i + len s)) count else takez (count - i) s
  end.
(** lib/socket.cpp:822-840 copy(count). *)
Definition sb_copy (b : sbuf) (count : Z) : list Z * sbuf :=
  let b := snd (sb_size b) in
  let (a, b) := sb_available b count in
  if negb a then ([], b) else (copy_loop (segs b) 0 count, b).

(** lib/socket.cpp:844-855 copy(ptr, count): the bytes appended to ptr (their number is returned). *)
Fixpoint copyp_loop (d : list (list Z)) (i count : Z) : list Z :=
  match d with
  | [] => []
  | s :: r =>
      let n := if i + len s >? count then count - i else len s in
      takez n s ++ (if i + n >=? count then [] else copyp_loop r (i + n) count)
  end.
Definition sb_copyp (b : sbuf) (count : Z) : list Z := copyp_loop (segs b) 0 count.

(** lib/socket.cpp:860-868 get(): the oldest part. *)
Definition sb_get (b : sbuf) : list Z * sbuf :=
  let b := snd (sb_size b) in (hd [] (segs b), b).
(** get().clear() / get().erase(): what callers do to consume a part. *)
Definition sb_get_clear (b : sbuf) : list Z * sbuf :=
  let (s, b) := sb_get b in
  (s, match segs b with [] => b | _ :: r => mksb ([] :: r) (splitter b) end).
(** lib/socket.cpp:871-873 clear. *)
Definition sb_clear (b : sbuf) : sbuf := mksb [] (splitter b).

(** lib/socket.cpp:878-892: chunk size, [None] when more than 256 MiB are buffered. *)
Definition compactSize (preBytes : Z) : option Z :=
  if preBytes >? 4194304 then
    if preBytes >? 16777216 then
      if preBytes >? 33554432 then (if preBytes >? 268435456 then None else Some 32768)
      else Some 16384
    else Some 8192
  else Some 4096.
(** lib/socket.cpp:901-906: the inner loop: absorbs parts into [cur] until it is big enough.
    Returns cur, the number of parts cleared, and the rest; [true] when the loop ended because the
    deque was exhausted. *)
Fixpoint absorb (cs : Z) (cur : list Z) (d : list (list Z)) (cleared : nat) : list Z * nat * list (list Z) :=
  match d with
  | [] => (cur, cleared, [])
  | s :: r =>
      let cur := cur ++ s in
      if len cur >=? cs then (cur, S cleared, r) else absorb cs cur r (S cleared)
  end.
(** lib/socket.cpp:895-909: the outer loop; parts cleared stay as empty strings. Fuel: the number
    of parts. The result says whether anything changed. *)
Fixpoint compact_loop (fuel : nat) (cs : Z) (d : list (list Z)) : list (list Z) * bool :=
  match fuel, d with
  | O, _ => (d, false)
  | _, [] => ([], false)
  | S k, s :: r =>
      if len s <? cs then
        let '(cur, cleared, rest) := absorb cs s r 0 in
        let (d', ch) := compact_loop k cs rest in
        (cur :: repeat [] cleared ++ d', (negb (Nat.eqb cleared 0)) || ch)
      else let (d', ch) := compact_loop k cs r in (s :: d', ch)
  end.
(** lib/socket.cpp:875-928 compact. The loop at 914-923 erases all empty parts. *)
Definition sb_compact (b : sbuf) : bool * sbuf :=
  let b := snd (sb_size b) in
  match compactSize (sb_bytes b 4294967295) with
  | None => (false, b)
  | Some cs =>
      let (d, ch) := compact_loop (List.length (segs b)) cs (segs b) in
      if negb ch then (false, mksb d (splitter b))
      else (true, mksb (filter (fun s => negb (len s =? 0)) d) (splitter b))
  end.
