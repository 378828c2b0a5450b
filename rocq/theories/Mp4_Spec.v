(** What boxes are (ISO 14496-12, 4.2), independently of how they are kept in memory. *)
From Verif Require Import Common Outcome_Model Mp4_Model.

(** A box: its size, its type of four bytes, its payload. *)
Definition iso (ty pl : list Z) : list Z := be 4 (8 + len pl) ++ ty ++ pl.
(** The same with a size of 64 bits. *)
Definition iso_large (ty pl : list Z) : list Z := be 4 1 ++ ty ++ be 8 (16 + len pl) ++ pl.
(** Box [b] is one of type [ty] with payload [pl]; behind it there may be unused memory. *)
Definition is_box (b : box) (ty pl : list Z) : Prop :=
  len ty = 4 /\ b_managed b = true /\ b_off b = 8 /\ exists slack, b_data b = iso ty pl ++ slack /\ len (b_data b) < 2 ^ 31.
(** The boxes in a container, one after the other. *)
Definition children (l : list (list Z * list Z)) : list Z := List.concat (map (fun c => iso (fst c) (snd c)) l).
Definition child_ok (c : list Z * list Z) : Prop := len (fst c) = 4.
(** Where child number [n] begins, from the start of the box. *)
Definition child_at (l : list (list Z * list Z)) (n : nat) : Z := 8 + len (children (firstn n l)).
(** Room for [n] more bytes. *)
Definition room (b : box) (n : Z) : Prop := len (b_data b) + n < 2 ^ 31.
(** The last box of a container is not empty. *)
Definition last_full (l : list (list Z * list Z)) : Prop := forall k c, l = k ++ [c] -> snd c <> [].
(** Where the boxes of type [ty] begin, when the first box begins at [o]. *)
Fixpoint of_type (ty : list Z) (o : Z) (l : list (list Z * list Z)) : list Z :=
  match l with [] => [] | c :: r => (if beqb ty (fst c) then [o] else []) ++ of_type ty (o + 8 + len (snd c)) r end.
(** Boxes put into a container one after the other, from number [k]. *)
Fixpoint fill (es : list box) (k : Z) (b : box) : res box :=
  match es with [] => Ok b | e :: r => b <~ setContent e k b;; fill r (k + 1) b end.
