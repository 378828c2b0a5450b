(** The growable buffer as a byte string. *)
From Verif Require Import Common RPtr_Model.

(** What a successful operation does to the contents. *)
Definition effect (o : rop) (c : list Z) : list Z :=
  match o with
  | OAssign p => p
  | OAppend p => c ++ p
  | OAppendWritten p => c ++ p
  | OAppendNull l => c ++ repeat 0 (Z.to_nat l)
  | OAllocate _ => c
  | OShift n => dropz n c
  | OTruncate n => takez n c
  | OCopy p => p
  end.
(** What a failed operation leaves: the old contents (an assignment from another buffer has
    already emptied the target). *)
Definition effect_failed (o : rop) (c : list Z) : list Z :=
  match o with OCopy _ => [] | _ => c end.
Fixpoint effects (os : list rop) (bs : list bool) (c : list Z) : list Z :=
  match os, bs with
  | o :: os', b :: bs' => effects os' bs' (if b then effect o c else effect_failed o c)
  | _, _ => c
  end.
(** Arguments a caller may pass: sizes are not negative, and what is written fits in 32 bits. *)
Definition arg_size (o : rop) : Z :=
  match o with
  | OAssign p | OAppend p | OAppendWritten p | OCopy p => len p
  | OAppendNull l => l
  | OAllocate _ | OShift _ | OTruncate _ => 0
  end.
Definition arg_ok (o : rop) : Prop :=
  match o with OAppendNull l => 0 <= l | OShift n | OTruncate n => 0 <= n | _ => True end.
Fixpoint written (os : list rop) : Z := match os with [] => 0 | o :: r => arg_size o + written r end.
