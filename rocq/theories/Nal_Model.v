(** Model of /repo/lib/nal.cpp. Memory is the byte list handed over; pointers are indices. *)
From Verif Require Import Common Bitfields_Model.

(** Test for 00 00 01 at index [i]. *)
Definition sc (d : list Z) (i : Z) : bool := (nthz d i =? 0) && (nthz d (i + 1) =? 0) && (nthz d (i + 2) =? 1).

(** lib/nal.cpp:28-48 removeEmulationPrevention, the loops from index 2 (35-46) on the bytes that
    are left; the result string is the list of bytes stored. *)
Fixpoint rep_loop (d : list Z) : list Z :=
  match d with
  | a :: r =>
      match r with
      | b :: r' =>
          match r' with
          | c :: r'' => if (a =? 0) && (b =? 0) && (c =? 3) then a :: b :: rep_loop r'' else a :: rep_loop r
          | [] => a :: rep_loop r
          end
      | [] => a :: rep_loop r
      end
  | [] => []
  end.
(** lib/nal.cpp:28-48. [None]: data[1] of an empty string is undefined. For one byte, the
    terminating NUL is copied and cut off again by substr. *)
Definition removeEmulationPrevention (d : list Z) : option (list Z) :=
  match d with
  | [] => None
  | [a] => Some [a]
  | a :: b :: r => Some (a :: b :: rep_loop r)
  end.

(** lib/nal.cpp:50-66 toAnnexB, the loop; [None] is an access beyond the data. The offset is an
    int: sizes from 2^31 are out of the model. *)
Fixpoint to_loop (fuel : nat) (d : list Z) (offset : Z) (result : list Z) : option (list Z) :=
  match fuel with
  | O => Some result
  | S k =>
      if offset <? len d then
        if len d <? offset + 4 then None
        else
          let unitSize := btohl (dropz offset d) in
          if len d <? offset + 4 + unitSize then None
          else to_loop k d (offset + 4 + unitSize) (result ++ [0; 0; 0; 1] ++ takez unitSize (dropz (offset + 4) d))
      else Some result
  end.
Definition toAnnexB (d : list Z) : option (list Z) := to_loop (List.length d) d 0 [].

(** lib/nal.cpp:69-72 nalEndPosition, as offset. *)
Fixpoint nalEnd_loop (fuel : nat) (d : list Z) (dataSize : Z) : Z :=
  match fuel with
  | O => dataSize
  | S k => if negb (dataSize =? 0) && (nthz d (dataSize - 1) =? 0) then nalEnd_loop k d (dataSize - 1) else dataSize
  end.
Definition nalEndPosition (d : list Z) : Z := nalEnd_loop (List.length d) d (len d).

(** lib/nal.cpp:75-96 scanAnnexB; the index found. *)
Fixpoint scan_loop (fuel : nat) (d : list Z) (offset : Z) : option Z :=
  match fuel with
  | O => None
  | S k =>
      if offset <? len d - 2 then
        if nthz d (offset + 2) >? 1 then scan_loop k d (offset + 3)
        else if nthz d (offset + 2) =? 0 then scan_loop k d (offset + 1)
        else if (nthz d offset =? 0) && (nthz d (offset + 1) =? 0) then Some offset
        else scan_loop k d (offset + 3)
      else None
  end.
Definition scanAnnexB (d : list Z) : option Z := scan_loop (List.length d) d 0.

(** lib/nal.cpp:108-111: the search for the start code from [begin]. *)
Fixpoint seek_begin (fuel : nat) (d : list Z) (begin : Z) : Z :=
  match fuel with
  | O => begin
  | S k =>
      let lastCheck := len d - 3 in
      if (begin <? lastCheck) && negb (sc d begin) then
        let begin := begin + 1 in
        seek_begin k d (if (begin <? lastCheck) && negb (nthz d begin =? 0) then begin + 1 else begin)
      else begin
  end.
(** memmem(begin, dataSize - (begin - data), "\0\0\1", 3), lib/nal.cpp:117. *)
Fixpoint memmem001 (fuel : nat) (d : list Z) (i : Z) : option Z :=
  match fuel with
  | O => None
  | S k => if i + 3 <=? len d then if sc d i then Some i else memmem001 k d (i + 1) else None
  end.
(** lib/nal.cpp:106-127: the loop of fromAnnexB. *)
Fixpoint from_loop (fuel : nat) (d : list Z) (offset : Z) (result : list Z) : list Z :=
  match fuel with
  | O => result
  | S k =>
      if offset <? len d then
        let begin := seek_begin (List.length d) d offset + 3 in
        if begin >? len d then from_loop k d (len d) result
        else
          let end_ := match memmem001 (List.length d) d begin with Some e => e | None => len d end in
          let end_ := if (end_ >? begin) && negb (end_ =? len d) && (nthz d (end_ - 1) =? 0) then end_ - 1 else end_ in
          let nalSize := u32 (end_ - begin) in
          from_loop k d end_ (result ++ htobl nalSize ++ takez nalSize (dropz begin d))
      else result
  end.
(** lib/nal.cpp:98-129 fromAnnexB, with a result buffer that is large enough. *)
Definition fromAnnexB (d : list Z) : list Z := from_loop (List.length d) d 0 [].
