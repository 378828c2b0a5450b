(** Outcomes of a run: [Ok] with a result, [Ub] undefined behaviour (an access outside the block, an
    overflow of a signed number), [Stuck] not finished within the given number of steps. *)
From Verif Require Import Common Mem_Model.

Inductive res (A : Type) := Stuck | Ub | Ok (a : A).
Arguments Stuck {A}. Arguments Ub {A}. Arguments Ok {A} a.

Notation "x <~ a ;; b" := (match a with Stuck => Stuck | Ub => Ub | Ok x => b end)
  (at level 100, a at next level, right associativity, only parsing).

(** Byte and byte string at an address of a block. *)
Definition getb (m : list Z) (i : Z) : res Z := match rd m i with Some b => Ok b | None => Ub end.
Definition getn (m : list Z) (i n : Z) : res (list Z) := match peek m i n with Some x => Ok x | None => Ub end.
(** Bit::btohs, btohl, btohll (lib/bitfields.h, modelled in Bitfields_Model): big endian integers. *)
Definition getbe (m : list Z) (i n : Z) : res Z := x <~ getn m i n;; Ok (unbe x).
