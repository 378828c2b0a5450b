(** Model of Util::ResizeablePointer, lib/util.cpp:475-614 and lib/util.h.
    [rp_mem] is the allocated block (its length is maxSize), [rp_size] is currSize.
    [None] is an access outside the block or through a stale pointer. *)
From Verif Require Import Common Mem_Model.

Record rptr := { rp_mem : list Z; rp_size : Z; rp_ro : bool }.
Definition rp_max (s : rptr) : Z := len (rp_mem s).
Definition rp_setsize (s : rptr) (n : Z) : rptr := {| rp_mem := rp_mem s; rp_size := n; rp_ro := rp_ro s |}.
Definition rp_setmem (s : rptr) (m : list Z) : rptr := {| rp_mem := m; rp_size := rp_size s; rp_ro := rp_ro s |}.

(** util.cpp:475-480. *)
Definition rp_new : rptr := {| rp_mem := []; rp_size := 0; rp_ro := false |}.
(** util.cpp:483-484: a read-only view of existing memory. *)
Definition rp_view (data : list Z) : rptr := {| rp_mem := data; rp_size := len data; rp_ro := true |}.
(** The readable bytes: what a caller sees through the pointer and size(). *)
Definition rp_data (s : rptr) : list Z := takez (rp_size s) (rp_mem s).

Section Heap.
(** The heap: for a request to grow by [n] bytes, the (arbitrary) contents of the new part, or
    [None] if realloc fails. *)
Variable grow : Z -> option (list Z).

(** util.cpp:567-583, allocate(uint32_t l). *)
Definition allocate (s : rptr) (l0 : Z) : bool * rptr :=
  let l := u32 l0 in
  if rp_max s <? l then
    if rp_ro s then (false, s)
    else match grow (l - rp_max s) with
         | None => (false, s)
         | Some junk => (true, rp_setmem s (rp_mem s ++ junk))
         end
  else (true, s).

(** util.cpp:535-540, assign. *)
Definition assign (s : rptr) (p : list Z) : option (bool * rptr) :=
  let '(ok, s1) := allocate s (len p) in
  if negb ok then Some (false, s1)
  else m <- poke (rp_mem s1) 0 p ;; Some (true, rp_setsize (rp_setmem s1 m) (len p)).
(** util.cpp:546-561, append with a non-null source outside this buffer. *)
Definition append (s : rptr) (p : list Z) : option (bool * rptr) :=
  let '(ok, s1) := allocate s (len p + rp_size s) in
  if negb ok then Some (false, s1)
  else m <- poke (rp_mem s1) (rp_size s1) p ;; Some (true, rp_setsize (rp_setmem s1 m) (rp_size s1 + len p)).
(** util.cpp:548-556, append with a null source: the caller has already written [p] behind the
    current data, the size is adjusted. *)
Definition append_written (s : rptr) (p : list Z) : option (bool * rptr) :=
  if rp_max s <? rp_size s + len p then Some (false, s)
  else m <- poke (rp_mem s) (rp_size s) p ;; Some (true, rp_setsize (rp_setmem s m) (rp_size s + len p)).
(** util.cpp:567-569 with itself as argument: the source pointer is stale after a reallocation. *)
Definition append_self (s : rptr) : option (bool * rptr) :=
  let '(ok, s1) := allocate s (rp_size s + rp_size s) in
  if negb ok then Some (false, s1)
  else if negb (rp_max s1 =? rp_max s) then None
  else m <- poke (rp_mem s1) (rp_size s1) (rp_data s) ;; Some (true, rp_setsize (rp_setmem s1 m) (rp_size s1 + rp_size s1)).
(** util.cpp:571-576, appendNull. *)
Definition appendNull (s : rptr) (l : Z) : option (bool * rptr) :=
  let '(ok, s1) := allocate s (l + rp_size s) in
  if negb ok then Some (false, s1)
  else m <- poke (rp_mem s1) (rp_size s1) (repeat 0 (Z.to_nat l)) ;; Some (true, rp_setsize (rp_setmem s1 m) (rp_size s1 + l)).
(** util.cpp:511-520, shift. *)
Definition shift (s : rptr) (n : Z) : option rptr :=
  if rp_size s <=? n then Some (rp_setsize s 0)
  else d <- peek (rp_mem s) n (rp_size s - n) ;;
       m <- poke (rp_mem s) 0 d ;; Some (rp_setsize (rp_setmem s m) (rp_size s - n)).
(** util.cpp:588-590, truncate. *)
Definition truncate (s : rptr) (n : Z) : rptr := if n <? rp_size s then rp_setsize s n else s.
(** util.cpp:503-508, assignment from another buffer holding [p]. *)
Definition copy_from (s : rptr) (p : list Z) : option (bool * rptr) := append (truncate s 0) p.

Inductive rop :=
| OAssign (p : list Z) | OAppend (p : list Z) | OAppendWritten (p : list Z) | OAppendNull (l : Z)
| OAllocate (l : Z) | OShift (n : Z) | OTruncate (n : Z) | OCopy (p : list Z).
Definition rp_step (s : rptr) (o : rop) : option (bool * rptr) :=
  match o with
  | OAssign p => assign s p
  | OAppend p => append s p
  | OAppendWritten p => append_written s p
  | OAppendNull l => appendNull s l
  | OAllocate l => Some (allocate s l)
  | OShift n => s' <- shift s n ;; Some (true, s')
  | OTruncate n => Some (true, truncate s n)
  | OCopy p => copy_from s p
  end.
Fixpoint rp_run (s : rptr) (os : list rop) : option (list bool * rptr) :=
  match os with
  | [] => Some ([], s)
  | o :: r => bs <- rp_step s o ;; rest <- rp_run (snd bs) r ;; Some (fst bs :: fst rest, snd rest)
  end.
End Heap.

(** memcmp of two strings of equal length: sign of the first difference. *)
Fixpoint memcmp (a b : list Z) : Z :=
  match a, b with
  | x :: a', y :: b' => if x =? y then memcmp a' b' else x - y
  | _, _ => 0
  end.
(** util.cpp:592-596, operator==; the memcmp result is converted to bool. *)
Definition rp_eq (a b : rptr) : bool :=
  if negb (rp_size a =? rp_size b) then false
  else if rp_size a =? 0 then true
  else negb (memcmp (rp_data a) (rp_data b) =? 0).
(** util.cpp:598-602, operator<. *)
Definition rp_lt (a b : rptr) : bool :=
  if negb (rp_size a =? rp_size b) then rp_size a <? rp_size b
  else if rp_size a =? 0 then false
  else memcmp (rp_data a) (rp_data b) <? 0.
