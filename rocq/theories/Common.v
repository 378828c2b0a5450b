(** Shared vocabulary: bytes, byte strings, fixed width arithmetic.
    Bytes are [Z] values in 0..255; /repo/meson.build:2 compiles with -funsigned-char,
    so a C++ [char] is unsigned. *)
From Coq Require Export ZArith List Bool Lia String Ascii.
From Coq Require Export ZifyBool ZifyNat.
Export ListNotations.
Open Scope Z_scope.

Ltac Zify.zify_post_hook ::= Z.div_mod_to_equations.

Definition byteP (b : Z) : Prop := 0 <= b < 256.
Definition bytesP (l : list Z) : Prop := Forall byteP l.

(** Length of a byte string as an integer. *)
Definition len {A} (l : list A) : Z := Z.of_nat (List.length l).

(** Reduction to a fixed width unsigned type. *)
Definition u8 (x : Z) : Z := x mod 256.
Definition u16 (x : Z) : Z := x mod 65536.
Definition u32 (x : Z) : Z := x mod 4294967296.
Definition u64 (x : Z) : Z := x mod 18446744073709551616.
(** Reinterpretation of an unsigned value as two's complement. *)
Definition s16 (x : Z) : Z := let y := u16 x in if y <? 32768 then y else y - 65536.
Definition s32 (x : Z) : Z := let y := u32 x in if y <? 2147483648 then y else y - 4294967296.
Definition s64 (x : Z) : Z :=
  let y := u64 x in if y <? 9223372036854775808 then y else y - 18446744073709551616.

(** C operators (always used with explicit parentheses). *)
Notation "x '<<' n" := (Z.shiftl x n) (at level 37, left associativity) : Z_scope.
Notation "x '>>' n" := (Z.shiftr x n) (at level 37, left associativity) : Z_scope.
Notation "x '.|' y" := (Z.lor x y) (at level 52, left associativity) : Z_scope.
Notation "x '.&' y" := (Z.land x y) (at level 42, left associativity) : Z_scope.

(** Sequencing of computations that may be undefined. *)
Notation "x <- a ;; b" := (match a with None => None | Some x => b end)
  (at level 100, a at next level, right associativity, only parsing).

(** Readable byte string literals. *)
Fixpoint bs (s : string) : list Z :=
  match s with
  | EmptyString => []
  | String a r => Z.of_N (N_of_ascii a) :: bs r
  end.
Definition ch (s : string) : Z := hd 0 (bs s).

(** Bounds checked read: [None] is the undefined outcome of an out of range access. *)
Definition rd (l : list Z) (i : Z) : option Z :=
  if (0 <=? i) && (i <? len l) then nth_error l (Z.to_nat i) else None.

(** Total read used where the index is in range by construction. *)
Definition nthz (l : list Z) (i : Z) : Z := nth (Z.to_nat i) l 0.

Definition takez {A} (n : Z) (l : list A) : list A := firstn (Z.to_nat n) l.
Definition dropz {A} (n : Z) (l : list A) : list A := skipn (Z.to_nat n) l.

(** Overwrite of [xs] at index [i] of [l] (index in range by construction). *)
Definition splice (l : list Z) (i : Z) (xs : list Z) : list Z :=
  takez i l ++ xs ++ dropz (i + len xs) l.

(** Big endian encoding of the low [n] bytes of [v]. *)
Fixpoint be (n : nat) (v : Z) : list Z :=
  match n with
  | O => []
  | S k => (v / 256 ^ Z.of_nat k) mod 256 :: be k v
  end.
Fixpoint unbe_acc (acc : Z) (l : list Z) : Z :=
  match l with [] => acc | b :: r => unbe_acc (acc * 256 + b) r end.
Definition unbe (l : list Z) : Z := unbe_acc 0 l.
Definition le (n : nat) (v : Z) : list Z := rev (be n v).
Definition unle (l : list Z) : Z := unbe (rev l).

(** Equality of byte strings. *)
Fixpoint beqb (a b : list Z) : bool :=
  match a, b with
  | [], [] => true
  | x :: a', y :: b' => (x =? y) && beqb a' b'
  | _, _ => false
  end.

Definition all_bytes : list Z := map Z.of_nat (seq 0 256).

(** Case split on every conditional of the goal, then arithmetic. *)
Ltac dif := repeat match goal with |- context [if ?b then _ else _] => destruct b eqn:? end.
