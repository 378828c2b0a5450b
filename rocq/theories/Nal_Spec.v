(** NAL unit framing (ISO/IEC 14496-10 annex B and 7.3.1, ISO/IEC 14496-15). *)
From Verif Require Import Common.

Definition contains001 (u : list Z) : Prop := exists a b, u = a ++ [0; 0; 1] ++ b.
(** A unit as the standard guarantees: not empty, no start code inside, last byte not zero. *)
Definition nal_ok (u : list Z) : Prop := bytesP u /\ u <> [] /\ ~ contains001 u /\ last u 0 <> 0.

(** Length prefixed form. *)
Definition length_prefixed (us : list (list Z)) : list Z := flat_map (fun u => be 4 (len u) ++ u) us.
(** Start code form; each unit comes with a three or (true) four byte start code. *)
Definition start_code (four : bool) : list Z := if four then [0; 0; 0; 1] else [0; 0; 1].
Definition annexb (us : list (bool * list Z)) : list Z := flat_map (fun x => start_code (fst x) ++ snd x) us.

(** Index [i] is the first place where 00 00 01 occurs. *)
Definition occurs_at (d : list Z) (i : Z) : Prop := 0 <= i /\ exists r, dropz i d = [0; 0; 1] ++ r.
Definition first_start (d : list Z) (i : Z) : Prop := occurs_at d i /\ forall j, occurs_at d j -> i <= j.

(** Insertion of emulation prevention bytes: whenever two zero bytes have been written and the
    next byte is at most 3, a 3 goes first. [z]: number of zero bytes written just before. *)
Fixpoint insert_ep (z : nat) (l : list Z) : list Z :=
  match l with
  | [] => []
  | x :: r =>
      if (2 <=? z)%nat && (x <=? 3) then 3 :: x :: insert_ep (if x =? 0 then 1 else 0) r
      else x :: insert_ep (if x =? 0 then S z else 0) r
  end.
