(** What a reader of a data page relies on. *)
From Verif Require Import Common Dtsc_Spec Page_Model.

(** A page of [size] zero bytes takes the packets that still fit. *)
Fixpoint taken (size used : Z) (fs : list fields) : list fields :=
  match fs with
  | [] => []
  | f :: r => let n := len (wire_packet f) in
    if used + n <=? size then f :: taken size (used + n) r else taken size used r
  end.
Definition used (fs : list fields) : Z := len (flat_map wire_packet fs).

(** All groups of stores, in order, that a history of packets makes. *)
Fixpoint trace (size avail : Z) (fs : list fields) : list (list store) :=
  match fs with
  | [] => []
  | f :: r => if refused size avail f then trace size avail r else stores avail f ++ trace size (avail + packDataLen f) r
  end.

(** The page at some moment: the first [k] groups are done, and of the next any of its stores, in any
    order. This is also what a crash of the writer at that moment leaves behind. *)
Definition moment (size : Z) (fs : list fields) (k : nat) (some : list store) (m : list Z) : Prop :=
  incl some (nth k (trace size 0 fs) []) /\
  writes (repeat 0 (Z.to_nat size)) (List.concat (firstn k (trace size 0 fs)) ++ some) = Some m.
Definition later (k : nat) (some : list store) (k' : nat) (some' : list store) : Prop :=
  (k < k')%nat \/ k = k' /\ incl some some'.
