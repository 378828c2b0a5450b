(** Bounds checked access to a block of memory; None is an access outside the block. Integers are
    stored in host byte order, little endian on the supported targets. *)
From Verif Require Import Common.

Definition peek (m : list Z) (o n : Z) : option (list Z) :=
  if (0 <=? o) && (0 <=? n) && (o + n <=? len m) then Some (takez n (dropz o m)) else None.
Definition poke (m : list Z) (o : Z) (xs : list Z) : option (list Z) :=
  if (0 <=? o) && (o + len xs <=? len m) then Some (splice m o xs) else None.
Definition ld (n : nat) (m : list Z) (o : Z) : option Z := x <- peek m o (Z.of_nat n);; Some (unle x).
Definition st (n : nat) (m : list Z) (o v : Z) : option (list Z) := poke m o (le n v).
