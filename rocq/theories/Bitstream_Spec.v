(** Specification of bit level coding, after ITU-T H.264 section 9.1 (Exp-Golomb codes). *)
From Verif Require Import Common Bits Bitstream_Model.

(** ue(v): k zero bits, then the k+1 bit binary form of v+1, with 2^k <= v+1 < 2^(k+1). *)
Definition ue_code (v : Z) : list bool :=
  let k := Z.to_nat (Z.log2 (v + 1)) in repeat false k ++ bits_of (S k) (v + 1).
(** se(v): v > 0 is ue(2v-1), v <= 0 is ue(-2v). *)
Definition se_code (v : Z) : list bool := ue_code (if v >? 0 then 2 * v - 1 else - 2 * v).

(** One element of a bit stream. *)
Inductive item :=
| Fixed (val width : Z)
| UE (v : Z)
| SE (v : Z).

(** The values an element may take. *)
Definition item_ok (x : item) : Prop :=
  match x with
  | Fixed val width => 1 <= width <= 64 /\ 0 <= val < 2 ^ width
  | UE v => 0 <= v < 2 ^ 32 - 1
  | SE v => - 2 ^ 31 < v < 2 ^ 31
  end.
Definition item_code (x : item) : list bool :=
  match x with
  | Fixed val width => bits_of (Z.to_nat width) val
  | UE v => ue_code v
  | SE v => se_code v
  end.
Definition item_value (x : item) : Z :=
  match x with Fixed val _ => val | UE v => v | SE v => v end.

(** The bits of a sequence of elements. *)
Definition code (l : list item) : list bool := flat_map item_code l.

(** A client program that writes a sequence of elements ([None]: undefined behaviour). *)
Definition bw_item (w : bw) (x : item) : option bw :=
  match x with
  | Fixed val width => bw_append w val width
  | UE v => bw_append_ue w v
  | SE v => bw_append_se w v
  end.
Fixpoint bw_items (w : bw) (l : list item) : option bw :=
  match l with
  | [] => Some w
  | x :: r => match bw_item w x with None => None | Some w' => bw_items w' r end
  end.
(** A client program that reads elements of the kinds of [l] (not looking at their values). *)
Definition br_item (r : br) (x : item) : Z * br :=
  match x with
  | Fixed _ width => br_get r width
  | UE _ => br_get_ue r
  | SE _ => br_get_se r
  end.
Fixpoint br_items (r : br) (l : list item) : list Z * br :=
  match l with
  | [] => ([], r)
  | x :: rest => let (v, r1) := br_item r x in let (vs, r2) := br_items r1 rest in (v :: vs, r2)
  end.
(** The bits a reader has not consumed yet. *)
Definition unread (r : br) : list bool := dropz (roff r) (bits (rdat r)).
(** A reader over a byte string, positioned inside it. *)
Definition reader (r : br) : Prop := bytesP (rdat r) /\ 0 <= roff r <= 8 * len (rdat r).
