(** Transport stream packets and PES headers as ISO/IEC 13818-1 describes them (2.4.3.2,
    2.4.3.4, 2.4.3.6), in plain arithmetic. *)
From Verif Require Import Common.

(** 2.4.3.2: the 4 header bytes of a packet, field by field, and the 184 bytes behind them. *)
Record packet := mkp {
  sync : Z; error : Z; unit_start : Z; priority : Z; pid_ : Z;
  scrambling : Z; afc : Z; counter : Z; body : list Z }.
Definition view (b : list Z) : packet :=
  mkp (nthz b 0) (nthz b 1 / 128) (nthz b 1 / 64 mod 2) (nthz b 1 / 32 mod 2) (nthz b 1 mod 32 * 256 + nthz b 2)
      (nthz b 3 / 64) (nthz b 3 / 16 mod 4) (nthz b 3 mod 16) (dropz 4 b).
Definition with_pid v p := mkp (sync p) (error p) (unit_start p) (priority p) v (scrambling p) (afc p) (counter p) (body p).
Definition with_counter v p := mkp (sync p) (error p) (unit_start p) (priority p) (pid_ p) (scrambling p) (afc p) v (body p).
Definition with_unit_start v p := mkp (sync p) (error p) v (priority p) (pid_ p) (scrambling p) (afc p) (counter p) (body p).
Definition with_afc v p := mkp (sync p) (error p) (unit_start p) (priority p) (pid_ p) (scrambling p) v (counter p) (body p).
Definition with_body v p := mkp (sync p) (error p) (unit_start p) (priority p) (pid_ p) (scrambling p) (afc p) (counter p) v.

(** 2.4.3.4: the adaptation field: length byte, eight flags, the rest. *)
(** Bit numbers of the flags in their byte. *)
Definition DISCONTINUITY := 7. Definition RANDOM_ACCESS := 6. Definition ES_PRIORITY := 5. Definition PCR_FLAG := 4.
Definition af_bit (b : list Z) (k : Z) : Z := nthz (body (view b)) 1 / 2 ^ k mod 2.

(** The payload of a packet: with adaptation_field_control 1 all 184 bytes, with 3 what follows
    the adaptation field (whose length is then 0..182), with 2 nothing (length 183). *)
Definition payload (b : list Z) : option (list Z) :=
  let p := view b in
  let n := nthz (body p) 0 in
  if afc p =? 1 then Some (body p)
  else if (afc p =? 3) && (n <=? 182) then Some (dropz (1 + n) (body p))
  else if (afc p =? 2) && (n =? 183) then Some []
  else None.
Definition valid (b : list Z) : Prop := bytesP b /\ len b = 188 /\ sync (view b) = 0x47 /\ exists x, payload b = Some x.
Fixpoint payloads (l : list (list Z)) : option (list Z) :=
  match l with
  | [] => Some []
  | b :: r => match payload b, payloads r with Some x, Some y => Some (x ++ y) | _, _ => None end
  end.

(** The program clock reference of a packet, 33 bit base and 9 bit extension. *)
Definition pcr (b : list Z) : option Z :=
  let d := body (view b) in
  if (2 <=? afc (view b)) && (7 <=? nthz d 0) && (af_bit b PCR_FLAG =? 1)
  then Some ((unbe (takez 4 (dropz 2 d)) * 2 + nthz d 6 / 128) * 300 + (nthz d 6 mod 2 * 256 + nthz d 7))
  else None.

(** 2.4.3.6: a 33 bit time stamp in 5 bytes, with its 4 bit prefix and three marker bits. *)
Definition stamp (prefix t : Z) : list Z :=
  [prefix * 16 + (t / 2 ^ 30) mod 8 * 2 + 1; (t / 2 ^ 22) mod 256; (t / 2 ^ 15) mod 128 * 2 + 1;
   (t / 2 ^ 7) mod 256; t mod 128 * 2 + 1].

(** One media frame as sent on one PID, starting after counter value [c]. *)
Definition counters (c : Z) (n : nat) : list Z := map (fun i => (c + 1 + Z.of_nat i) mod 16) (seq 0 n).
Definition starts (n : nat) : list Z := match n with O => [] | S k => 1 :: repeat 0 k end.
Record carries (pid c : Z) (data : list Z) (packets : list (list Z)) : Prop := {
  c_valid : Forall valid packets;
  c_pid : Forall (fun b => pid_ (view b) = pid /\ error (view b) = 0 /\ scrambling (view b) = 0 /\ priority (view b) = 0) packets;
  c_counter : map (fun b => counter (view b)) packets = counters c (List.length packets);
  c_start : map (fun b => unit_start (view b)) packets = starts (List.length packets);
  c_data : payloads packets = Some data }.

(** 2.4.3.7: a PES packet: start code, stream id, number of bytes that follow the length field (0
    for "until the next unit start", allowed for video), marker bits 10 with the alignment flag,
    the PTS/DTS and ES rate flags, the number of optional header bytes, time stamps (90 kHz units, the
    decoding time only when it differs), ES rate, data. *)
Definition pes (sid : Z) (bounded aligned : bool) (pts : Z) (dts : option Z) (rate data : list Z) : list Z :=
  let stamps := match dts with None => stamp 2 pts | Some d => stamp 3 pts ++ stamp 1 d end in
  let opt := stamps ++ rate in
  [0; 0; 1; sid] ++ be 2 (if bounded then 3 + len opt + len data else 0) ++
  [128 + (if aligned then 4 else 0);
   128 + (match dts with None => 0 | Some _ => 64 end) + (match rate with [] => 0 | _ => 16 end); len opt] ++
  opt ++ data.
(** The ES_rate field: marker bit, 22 bits in units of 50 bytes per second, marker bit. *)
Definition es_rate (r : list Z) : Z := unbe r / 2 mod 2 ^ 22.

(** Millisecond time [t] after a trip through a 33 bit 90 kHz time stamp that wrapped [90 t / 2^33]
    times: exact before the first wrap, ahead by less than one millisecond per wrap afterwards. *)
Definition about (t t' : Z) : Prop := t <= t' <= t + 90 * t / 2 ^ 33.

(** Frame times in ms that never go back and never jump more than a tenth of the 26.5 hour wrap
    ahead. *)
Fixpoint steady (prev : Z) (l : list Z) : Prop :=
  match l with [] => True | t :: r => prev <= t /\ t - prev <= 9544370 /\ steady t r end.
Definition steady_times (l : list Z) : Prop :=
  match l with [] => True | t :: r => 0 <= t /\ 90 * t < 2 ^ 33 /\ steady t r end.
