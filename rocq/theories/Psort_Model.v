(** Model of the playback packet sorter, lib/stream.cpp:273-425 and lib/stream.h:61-95. *)
From Verif Require Import Common.

(** stream.h:62-73, sortedPageInfo. *)
Record ent := { e_tid : Z; e_time : Z; e_offset : Z; e_part : Z; e_ghost : bool; e_unavail : bool }.
(** stream.h:63-66, operator<. *)
Definition ent_lt (a b : ent) : bool :=
  if e_time a <? e_time b then true else (e_time a =? e_time b) && (e_tid a <? e_tid b).

(** stream.h:76-95; the std::set is the list of its entries in iteration order. *)
Record sorter := { dequeMode : bool; dequeBuffer : list ent; setBuffer : list ent }.

(** std::set::insert: entries equivalent under operator< are not inserted. *)
Fixpoint set_insert (e : ent) (l : list ent) : list ent :=
  match l with
  | [] => [e]
  | x :: r => if ent_lt e x then e :: l
              else if ent_lt x e then x :: set_insert e r
              else l
  end.

(** stream.cpp:274-276. *)
Definition sorter_new : sorter := {| dequeMode := false; dequeBuffer := []; setBuffer := [] |}.
(** stream.cpp:340-346, insert. *)
Definition ps_insert (s : sorter) (e : ent) : sorter :=
  if dequeMode s
  then {| dequeMode := dequeMode s; dequeBuffer := dequeBuffer s ++ [e]; setBuffer := setBuffer s |}
  else {| dequeMode := dequeMode s; dequeBuffer := dequeBuffer s; setBuffer := set_insert e (setBuffer s) |}.
(** stream.cpp:279-297, setSyncMode. *)
Definition ps_setSync (s : sorter) (synced : bool) : sorter :=
  if Bool.eqb (dequeMode s) (negb synced) then s
  else if synced then
    let s1 := fold_left ps_insert (dequeBuffer s) {| dequeMode := false; dequeBuffer := dequeBuffer s; setBuffer := setBuffer s |} in
    {| dequeMode := false; dequeBuffer := []; setBuffer := setBuffer s1 |}
  else
    let s1 := fold_left ps_insert (setBuffer s) {| dequeMode := true; dequeBuffer := dequeBuffer s; setBuffer := setBuffer s |} in
    {| dequeMode := true; dequeBuffer := dequeBuffer s1; setBuffer := [] |}.
(** stream.cpp:300. *)
Definition ps_getSync (s : sorter) : bool := negb (dequeMode s).
(** The entries in iteration order of the active container. *)
Definition ps_all (s : sorter) : list ent := if dequeMode s then dequeBuffer s else setBuffer s.
(** stream.cpp:303-305, size. *)
Definition ps_size (s : sorter) : Z := len (ps_all s).
(** stream.cpp:308-311, clear. *)
Definition ps_clear (s : sorter) : sorter := {| dequeMode := dequeMode s; dequeBuffer := []; setBuffer := [] |}.
(** stream.cpp:314-320, begin: undefined on an empty sorter. *)
Definition ps_begin (s : sorter) : option ent := match ps_all s with [] => None | e :: _ => Some e end.
(** stream.cpp:323-337, nonGhost. *)
Fixpoint first_real (l : list ent) : Z :=
  match l with [] => 0 | e :: r => if negb (e_ghost e) && negb (e_unavail e) then e_time e else first_real r end.
Definition ps_nonGhost (s : sorter) : Z := first_real (ps_all s).
(** stream.cpp:349-367, dropTrack: removes at most one entry. *)
Fixpoint drop_one (tid : Z) (l : list ent) : list ent :=
  match l with [] => [] | e :: r => if e_tid e =? tid then r else e :: drop_one tid r end.
Definition ps_drop (s : sorter) (tid : Z) : sorter :=
  if dequeMode s
  then {| dequeMode := true; dequeBuffer := drop_one tid (dequeBuffer s); setBuffer := setBuffer s |}
  else {| dequeMode := false; dequeBuffer := dequeBuffer s; setBuffer := drop_one tid (setBuffer s) |}.
(** stream.cpp:370-380, replaceFirst: undefined on an empty sorter. *)
Definition ps_replaceFirst (s : sorter) (e : ent) : option sorter :=
  if dequeMode s then
    match dequeBuffer s with
    | [] => None
    | _ :: r => Some {| dequeMode := true; dequeBuffer := r ++ [e]; setBuffer := setBuffer s |}
    end
  else
    match setBuffer s with
    | [] => None
    | _ :: r => Some {| dequeMode := false; dequeBuffer := dequeBuffer s; setBuffer := set_insert e r |}
    end.
(** stream.cpp:383-390, moveFirstToEnd: undefined on an empty sorter in async mode. *)
Definition mark (e : ent) : ent :=
  {| e_tid := e_tid e; e_time := e_time e; e_offset := e_offset e; e_part := e_part e; e_ghost := e_ghost e; e_unavail := true |}.
Definition ps_moveFirst (s : sorter) : option sorter :=
  if dequeMode s then
    match dequeBuffer s with
    | [] => None
    | x :: r => Some {| dequeMode := true; dequeBuffer := r ++ [mark x]; setBuffer := setBuffer s |}
    end
  else Some s.
(** stream.cpp:393-404, hasEntry. *)
Definition ps_hasEntry (s : sorter) (tid : Z) : bool := existsb (fun e => e_tid e =? tid) (ps_all s).

Inductive psop :=
| PInsert (e : ent) | PDrop (tid : Z) | PReplace (e : ent) | PMove | PSync (b : bool) | PClear.
Definition ps_step (s : sorter) (o : psop) : option sorter :=
  match o with
  | PInsert e => Some (ps_insert s e)
  | PDrop t => Some (ps_drop s t)
  | PReplace e => ps_replaceFirst s e
  | PMove => ps_moveFirst s
  | PSync b => Some (ps_setSync s b)
  | PClear => Some (ps_clear s)
  end.
Fixpoint ps_run (s : sorter) (os : list psop) : option sorter :=
  match os with [] => Some s | o :: r => s' <- ps_step s o ;; ps_run s' r end.
