(** What the users of a communication page rely on. *)
From Verif Require Import Common Comms_Model.

(** A running client that has registered at record [i] and has not left. *)
Definition owns (s : sys) (h i : nat) : Prop :=
  exists c, nth_error (clients s) h = Some c /\ dead c = false /\ at_pc c = COwn i.
(** Histories in which the page and its semaphore stay the same and nobody marks a record without forgetting it. *)
Definition plain (l : label) : Prop := match l with Anew | Mark _ => False | _ => True end.
(** Flags that are set on every record of a process: not the one that says it is gone. *)
Definition flags_ok (cs : list (Z * Z)) : Prop := Forall (fun c => has (snd c) DISCONNECT = false) cs.

(** What all clients together have counted. *)
Definition counted (s : sys) (f : cf) : Z := fold_right (fun c a => cval c f + a) 0 (clients s).
(** Histories in which the session process keeps running. *)
Definition kept (l : label) : Prop := match l with Anew | Mark _ | MCrash => False | _ => True end.
(** The session is reading the counters of record [i]. *)
Definition reading (m : mpc) (i : nat) : Prop :=
  match m with MAdd j _ _ _ | MSet j _ _ _ => i = j | _ => False end.
(** A record is not looked at if its time is more than ten seconds ago. *)
Definition recent (input : bool) (s : sys) (now : Z) (i : nat) : Prop :=
  input = true \/ forall x, nth_error (slots s) i = Some x -> u64 (now - 10) <= snow x.
(** Nobody counts while the session reads the same record; a record is looked at before it is freed. *)
Definition undisturbed (input : bool) (s : sys) (l : label) : Prop :=
  match l with
  | Count h _ _ => forall c i, nth_error (clients s) h = Some c -> at_pc c = COwn i -> ~ reading (at_m s) i
  | Master _ => forall i rc v, at_m s = MAct i rc v -> has v DISCONNECT = true -> recent input s (mnow s) i
  | _ => True
  end.
Fixpoint calm (input : bool) (s : sys) (l : list label) : Prop :=
  match l with
  | [] => True
  | a :: r => undisturbed input s a /\ match step input s a with Some t => calm input t r | None => True end
  end.
Definition master (l : label) : Prop := match l with Master _ => True | _ => False end.
