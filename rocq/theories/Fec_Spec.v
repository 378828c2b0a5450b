(** Specification of forward error correction of transport streams over RTP, after SMPTE 2022-1. *)
From Verif Require Import Common.

(** A media packet: 33 is the payload type of transport streams (RFC 3551). *)
Definition media (ssrc seq ts : Z) (payload : list Z) : list Z := [0x80; 33] ++ be 2 seq ++ be 4 ts ++ be 4 ssrc ++ payload.

(** The fields of an error correction packet: number of the first packet protected, distance of and number of packets. *)
Definition base (f : list Z) : Z := unbe (takez 2 (dropz 12 f)).
Definition distance (f : list Z) : Z := nthz f 25.
Definition count (f : list Z) : Z := nthz f 26.
(** The numbers of the packets it protects. *)
Definition protects (f : list Z) : list Z := map (fun j => u16 (base f + Z.of_nat j * distance f)) (seq 0 (Z.to_nat (count f))).

Definition xor (a b : list Z) : list Z := map (fun x => Z.lxor (fst x) (snd x)) (combine a b).
Definition xors (a : list Z) (l : list (list Z)) : list Z := fold_left xor l a.
(** What a receiver makes of an error correction packet and the other packets it protects, for a missing packet [seq] of a
    stream [ssrc]: padding, extension and sources, marker, payload type, time stamp, length and payload. *)
Definition recover (ssrc : Z) (f : list Z) (others : list (list Z)) (seq : Z) : list Z :=
  let x0 := xors [nthz f 0] (map (takez 1) others) in
  let marker := xors [nthz f 1] (map (fun m => [nthz m 1]) others) in
  let type := xors [nthz f 16] (map (fun m => [nthz m 1]) others) in
  let ts := xors (takez 4 (dropz 20 f)) (map (fun m => takez 4 (dropz 4 m)) others) in
  let size := xors (takez 2 (dropz 14 f)) (map (fun m => be 2 (len m - 12)) others) in
  let body := xors (dropz 28 f) (map (dropz 12) others) in
  [0x80 .| (nthz x0 0 .& 0x3f); (nthz marker 0 .& 0x80) .| (nthz type 0 .& 0x7f)] ++ be 2 seq ++ ts ++ be 4 ssrc ++ takez (unbe size) body.

(** Packets are sent row by row, [cols] to a row, [rows] rows to a block.  Packets of row [j], and of column [i], columns
    being counted through the blocks. *)
Definition row_of (cols j : nat) : list nat := seq (j * cols) cols.
Definition column_of (rows cols i : nat) : list nat := map (fun r => i / cols * (rows * cols) + r * cols + i mod cols)%nat (seq 0 rows).
(** How many are complete after [k] packets: a row when the next one begins. *)
Definition rows_done (cols k : nat) : nat := ((k - 1) / cols)%nat.
Definition columns_done (rows cols k : nat) : nat := (k / (rows * cols) * cols + (k mod (rows * cols) - (rows - 1) * cols))%nat.
Definition pick (l : list (list Z)) (is : list nat) : list (list Z) := map (fun i => nth i l []) is.
Definition without {A} (j : nat) (l : list A) : list A := firstn j l ++ skipn (S j) l.
(** [f] is a packet for the media packets [ms]: it says which they are, and whichever of them is lost comes back. *)
Definition corrects (ssrc : Z) (f : list Z) (ms : list (list Z)) : Prop :=
  protects f = map (fun m => unbe (takez 2 (dropz 2 m))) ms /\
  forall j, (j < List.length ms)%nat -> recover ssrc f (without j ms) (unbe (takez 2 (dropz 2 (nth j ms [])))) = nth j ms [].
(** The header of an error correction packet: RTP of type 96, its own number, extended header, row or column. *)
Definition proper (column : bool) (number : Z) (f : list Z) : Prop :=
  takez 2 f = [0x80; 96] /\ unbe (takez 2 (dropz 2 f)) = u16 number /\ 0x80 <= nthz f 16 /\ nthz f 24 = (if column then 0 else 0x40).
