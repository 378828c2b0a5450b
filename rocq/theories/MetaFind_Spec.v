(** What lookups by time must answer, in terms of the packets of a track. *)
From Verif Require Import Common Meta_Model Meta_Spec.

(** Track [t] after the history [ops]. *)
Definition reached (v : bool) (ops : list op) (t : track) : Prop :=
  exists a b c e, 1 <= a < 2 ^ 32 /\ 1 <= b < 2 ^ 32 /\ 1 <= c < 2 ^ 32 /\
  fits v (accepted 0 (packets ops)) /\ legal v ops /\ run (newTrack v a b c e) ops = Done t.

(** The time of packet number [j]. *)
Definition time_at (ps : list packet) (j : Z) : Z :=
  match nth_error ps (Z.to_nat j) with Some p => p_time p | None => 0 end.
(** Packets of key [i], and the first packet still kept when [d] keys are gone. *)
Definition in_key (gs : list (list packet)) (i j : Z) : Prop := before (Z.to_nat i) gs <= j < before (Z.to_nat i + 1) gs.
Definition kept_packet (gs : list (list packet)) (d : nat) (ps : list packet) (j : Z) : Prop :=
  before d gs <= j < Z.of_nat (List.length ps).
(** Packet [j] is a kept packet of the earliest time not before [T]. *)
Definition next_at (gs : list (list packet)) (d : nat) (ps : list packet) (T j : Z) : Prop :=
  kept_packet gs d ps j /\ T <= time_at ps j /\
  forall k, kept_packet gs d ps k -> T <= time_at ps k -> time_at ps j <= time_at ps k.
(** The time a group (a key) begins, and the time it ends: when the next begins or at the newest packet. *)
Definition key_time (gs : list (list packet)) (i : Z) : Z := match nth_error gs (Z.to_nat i) with Some g => gtime g | None => 0 end.
Definition key_end (gs : list (list packet)) (last i : Z) : Z := match nth_error gs (Z.to_nat i + 1) with Some g => gtime g | None => last end.
Definition frag_time (fs : list (list (list packet))) (i : Z) : Z := match nth_error fs (Z.to_nat i) with Some f => ftime f | None => 0 end.
Definition frag_end (fs : list (list (list packet))) (last i : Z) : Z := match nth_error fs (Z.to_nat i + 1) with Some f => ftime f | None => last end.
