(** The value type of lib/json.h: JSON::Value. *)
From Verif Require Import Common.

(** lib/json.h:22-47. The type tag and the member of the class it selects. A 64 bit integer is a [Z]; a
    boolean is stored in intVal and only compared with 0; a double is its 64 bit pattern; an object is
    std::map, the list of its members in increasing order of their names. *)
Inductive jv :=
| JUnset | JNull
| JBool (b : Z) | JInt (n : Z) | JDbl (bits : Z) | JStr (s : list Z)
| JArr (l : list jv) | JObj (l : list (list Z * jv)).

(** std::string::operator<: bytes compared as unsigned (char_traits<char>::lt), then length. *)
Fixpoint sltb (a b : list Z) : bool :=
  match a, b with
  | _, [] => false
  | [], _ :: _ => true
  | x :: a', y :: b' => (x <? y) || ((x =? y) && sltb a' b')
  end.

(** std::map: insert or overwrite, and look up. *)
Fixpoint oset (k : list Z) (v : jv) (l : list (list Z * jv)) : list (list Z * jv) :=
  match l with
  | [] => [(k, v)]
  | (k', v') :: r => if sltb k k' then (k, v) :: l else if beqb k k' then (k, v) :: r else (k', v') :: oset k v r
  end.
Fixpoint oget (k : list Z) (l : list (list Z * jv)) : option jv :=
  match l with [] => None | (k', v') :: r => if beqb k k' then Some v' else oget k r end.

(** lib/json.cpp:736-748 [operator[](name)] used as the target of an assignment: a value that is no
    object becomes an empty one. *)
Definition jset (k : list Z) (v : jv) (o : jv) : jv :=
  match o with JObj l => JObj (oset k v l) | _ => JObj [(k, v)] end.
(** lib/json.cpp:1237-1243 append. *)
Definition jappend (o v : jv) : jv :=
  match o with JArr l => JArr (l ++ [v]) | _ => JArr [v] end.
