(** What the users of the list of tracks rely on. *)
From Verif Require Import Common Tracks_Model.

(** Process [h] has been given track [i] and has not abandoned it; it may have crashed since. *)
Definition owns (s : sys) (h i : nat) : Prop := In i (mine (procs s h)).
(** Different processes have different process ids, none of which is 0. *)
Definition pids (pid : nat -> Z) : Prop := (forall h, pid h <> 0) /\ (forall a b, pid a = pid b -> a = b).
(** Nobody is a real time input, which ignores whether it got the track. *)
Definition asks (e : event) : Prop := match e with Call _ (RealTime _) => False | _ => True end.
(** Whoever is about to look at a record in claimTrack has mapped the current list. *)
Definition up_to_date (s : sys) : Prop := forall h i, at_pc (procs s h) = CRead i -> view (procs s h) = cur s.
(** In all states of a history. *)
Fixpoint always (P : sys -> Prop) (pid : nat -> Z) (s : sys) (l : list event) : Prop :=
  P s /\ match l with [] => True | e :: r => match happen pid s e with Some t => always P pid t r | None => True end end.
