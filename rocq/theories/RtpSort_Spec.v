(** What a user of the RTP sorter relies on.  Packets have true numbers, which are not limited to
    16 bits; the packet numbered [n] is [pk n] and carries [n mod 65536]. *)
From Verif Require Import Common.

Definition wire {P : Type} (pk : Z -> P) (ns : list Z) : list (Z * P) := map (fun n => (n mod 65536, pk n)) ns.
Definition increasing (l : list Z) : Prop := forall i j, (i < j < List.length l)%nat -> nth i l 0 < nth j l 0.
(** [n] numbers from [a]. *)
Definition from (a : Z) (n : Z) : list Z := map (fun i => a + Z.of_nat i) (seq 0 (Z.to_nat n)).

(** Arrivals [ns], after [seen], of a stream that starts at [a]: no packet overtakes one that is
    more than [dist] before it, and a repeated packet is not ancient. *)
Fixpoint orderly (a dist : Z) (seen ns : list Z) : Prop :=
  match ns with
  | [] => True
  | n :: r => a <= n /\ (forall m, a <= m < n - dist -> In m seen) /\ (forall m, In m seen -> m < n + 30000) /\ orderly a dist (n :: seen) r
  end.
