(** What a fixed width field accessor should do, independent of the code. *)
From Verif Require Import Common Bits.

(** Writing a [w] byte field at any place of any buffer: reading it back gives the value modulo
    2^(8w), the size is unchanged, and so is every byte outside of the field. *)
Definition faithful_field (w : Z) (read : list Z -> Z) (write : Z -> list Z) : Prop :=
  forall buf off v, bytesP buf -> 0 <= off -> off + w <= len buf ->
    let buf' := splice buf off (write v) in
    len buf' = len buf /\ bytesP buf' /\
    read (dropz off buf') = v mod 2 ^ (8 * w) /\
    forall j, 0 <= j < off \/ off + w <= j < len buf -> nthz buf' j = nthz buf j.

(** Positional value of the first [w] bytes, first byte most (resp. least) significant. *)
Definition big_endian (w : nat) (read : list Z -> Z) : Prop :=
  forall p, bytesP p -> Z.of_nat w <= len p -> read p = unbe (firstn w p).
Definition little_endian (w : nat) (read : list Z -> Z) : Prop :=
  forall p, bytesP p -> Z.of_nat w <= len p -> read p = unle (firstn w p).

(** The bit field [n] bits long at bit [off] of [p] (most significant bit first). *)
Definition bitfield (p : list Z) (off n : Z) : Z := bits_val (takez n (dropz off (bits p))).
