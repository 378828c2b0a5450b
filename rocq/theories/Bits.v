(** Byte strings seen as bit strings, most significant bit first. Specification vocabulary. *)
From Verif Require Import Common.

(** The [n] low bits of [x], most significant first. *)
Fixpoint bits_of (n : nat) (x : Z) : list bool :=
  match n with
  | O => []
  | S k => Z.testbit x (Z.of_nat k) :: bits_of k x
  end.
Definition bits (l : list Z) : list bool := flat_map (bits_of 8) l.

(** Value of a bit string, most significant first. *)
Definition bits_val (l : list bool) : Z := fold_left (fun acc (b : bool) => 2 * acc + (if b then 1 else 0)) l 0.

