(** Cyclic redundancy checks as division of polynomials over GF(2), one bit at a time.
    The register holds the remainder so far; [P] is the generator without its leading term. *)
From Verif Require Import Common.

(** Most significant bit first: the register moves up one place, and if the bit falling out differs
    from the incoming bit the generator is subtracted. *)
Definition msb_step (w P reg : Z) (b : bool) : Z :=
  Z.lxor ((2 * reg) mod 2 ^ w) (if xorb (Z.testbit reg (w - 1)) b then P else 0).
(** Least significant bit first: the mirror image ([P] is mirrored too). *)
Definition lsb_step (P reg : Z) (b : bool) : Z :=
  Z.lxor (reg / 2) (if xorb (Z.odd reg) b then P else 0).
Definition bits_msb (b : Z) : list bool := map (fun i => Z.testbit b (7 - i)) [0; 1; 2; 3; 4; 5; 6; 7].
Definition bits_lsb (b : Z) : list bool := map (Z.testbit b) [0; 1; 2; 3; 4; 5; 6; 7].
Definition crc_msb (w P init : Z) (data : list Z) : Z := fold_left (msb_step w P) (flat_map bits_msb data) init.
Definition crc_lsb (P init : Z) (data : list Z) : Z := fold_left (lsb_step P) (flat_map bits_lsb data) init.
(** A register with its four bytes in the other order. *)
Definition swap32 (x : Z) : Z := unle (be 4 x).
