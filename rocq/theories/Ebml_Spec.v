(** EBML as specified by RFC 8794 and Matroska (RFC 9559) lacing. *)
From Verif Require Import Common.

(** RFC 8794 section 4: a VINT of [n] octets is n-1 zero bits, a one bit, and 7n data bits. *)
Definition vint (n : nat) (v : Z) : list Z := be n (2 ^ (7 * Z.of_nat n) + v).
(** The fewest octets that can hold [v] (all data bits one is reserved), 0 if none. *)
Fixpoint width_from (n fuel : nat) (v : Z) : nat :=
  match fuel with
  | O => 0
  | S k => if v <? 2 ^ (7 * Z.of_nat n) - 1 then n else width_from (S n) k v
  end.
Definition width (v : Z) : nat := width_from 1 8 v.
Definition svint (v : Z) : list Z := vint (width v) v.
Definition vint_max : Z := 2 ^ 56 - 2.

(** An element: identifier, size, payload. The size may be written in more octets than needed. *)
Definition elemw (w : nat) (id : Z) (payload : list Z) : list Z := svint id ++ vint w (len payload) ++ payload.
Definition elem (id : Z) (payload : list Z) : list Z := elemw (width (len payload)) id payload.
Definition elem_ok (w : nat) (id : Z) (payload : list Z) : Prop :=
  0 <= id < 2 ^ 28 - 1 /\ (1 <= w <= 8)%nat /\ len payload < 2 ^ (7 * Z.of_nat w) - 1 /\ bytesP payload.

(** Trees of elements, with the number of octets of each size. *)
Inductive tree := Leaf (w : nat) (id : Z) (payload : list Z) | Node (w : nat) (id : Z) (kids : list tree).
Fixpoint enc (t : tree) : list Z :=
  match t with
  | Leaf w id p => elemw w id p
  | Node w id kids => elemw w id (flat_map enc kids)
  end.
Definition tree_id (t : tree) : Z := match t with Leaf _ id _ | Node _ id _ => id end.
(** Identifiers for which [master] holds have children, the others have a payload. *)
Fixpoint tree_ok (master : Z -> bool) (t : tree) : Prop :=
  match t with
  | Leaf w id p => elem_ok w id p /\ master id = false
  | Node w id kids => elem_ok w id (flat_map enc kids) /\ master id = true /\
      fold_right (fun t P => tree_ok master t /\ P) True kids
  end.
(** First element with the given identifier, in document order. *)
Fixpoint tree_find (id : Z) (t : tree) : option tree :=
  if tree_id t =? id then Some t
  else match t with
       | Leaf _ _ _ => None
       | Node _ _ kids => fold_right (fun t r => match tree_find id t with Some x => Some x | None => r end) None kids
       end.

(** Blocks (RFC 9559 section 10): track number, relative timestamp, flags, and, if laced, the
    number of frames minus one and the sizes of all frames but the last. *)
Definition block (track tc flags : Z) (lace : list Z) (frames : list (list Z)) : list Z :=
  svint track ++ be 2 tc ++ [flags] ++ lace ++ List.concat frames.
(** Xiph lacing: a size is a sum of octets, ended by one that is not 255. *)
Definition xiph_code (s : Z) : list Z := repeat 255 (Z.to_nat (s / 255)) ++ [s mod 255].
Definition xiph_lace (frames : list (list Z)) : list Z :=
  (len frames - 1) :: flat_map (fun f => xiph_code (len f)) (removelast frames).
(** EBML lacing: the first size as VINT, the others as difference to the one before, in signed
    form (biased by 2^(7n-1)-1), in any width that can hold it. *)
Inductive ebml_diffs : Z -> list Z -> list Z -> Prop :=
| ed_nil prev : ebml_diffs prev [] []
| ed_cons prev s r (n : nat) code : (1 <= n <= 8)%nat ->
    0 <= s - prev + (2 ^ (7 * Z.of_nat n - 1) - 1) < 2 ^ (7 * Z.of_nat n) - 1 ->
    ebml_diffs s r code ->
    ebml_diffs prev (s :: r) (vint n (s - prev + (2 ^ (7 * Z.of_nat n - 1) - 1)) ++ code).
Inductive ebml_lace : list (list Z) -> list Z -> Prop :=
| el_one f : ebml_lace [f] [0]
| el_more f g r code : ebml_diffs (len f) (map len (removelast (g :: r))) code ->
    ebml_lace (f :: g :: r) ((1 + len r) :: svint (len f) ++ code).
(** Fixed size lacing: only the count. *)
Definition fixed_lace (frames : list (list Z)) : list Z := [len frames - 1].

(** The [k]-th frame. *)
Definition frame (F : list (list Z)) (k : Z) : list Z := nth (Z.to_nat k) F [].
