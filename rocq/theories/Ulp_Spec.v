(** Specification of redundant packets and error correction packets of WebRTC, after RFC 2198 and RFC 5109. *)
From Verif Require Import Common Fec_Spec.

(** An RTP packet: first byte, marker and type, number, time stamp, source, then contributing sources, extension and payload. *)
Definition rtp (b0 b1 seq ts ssrc : Z) (rest : list Z) : list Z := [b0; b1] ++ be 2 seq ++ be 4 ts ++ be 4 ssrc ++ rest.

(** The bits of a mask, the first bit being the highest one, and the numbers it stands for. *)
Definition mask_bits (m : Z) : list bool := map (fun j => Z.testbit m (7 - Z.of_nat j)) (List.seq 0 8).
Definition protected (b : Z) (mask : list Z) : list Z :=
  let bits := flat_map mask_bits mask in
  map (fun i => u16 (b + Z.of_nat i)) (filter (fun i => nth i bits false) (List.seq 0 (List.length bits))).

(** The error correction data for packets [ms], the numbers of which are [mask] from [b] on: RFC 5109, 7.3-7.4 and 8. *)
Definition padded (n : Z) (x : list Z) : list Z := x ++ repeat 0 (Z.to_nat (n - len x)).
Definition ulpfec (b : Z) (mask : list Z) (ms : list (list Z)) : list Z :=
  let n := fold_right (fun m a => Z.max (len m - 12) a) 0 ms in
  let all (f : list Z -> list Z) := match ms with [] => [] | m :: r => xors (f m) (map f r) end in
  map (fun x => x .& 0x3F) (all (takez 1)) ++ all (fun m => takez 1 (dropz 1 m)) ++ be 2 b ++ all (fun m => takez 4 (dropz 4 m)) ++
  all (fun m => be 2 (len m - 12)) ++ be 2 n ++ mask ++ all (fun m => padded n (dropz 12 m)).
(** A redundant packet: the payload, of type [pt], after a byte that says the type. *)
Definition redundant (b0 marker seq ts ssrc red pt : Z) (payload : list Z) : list Z := rtp b0 (marker .| red) seq ts ssrc (pt :: payload).
