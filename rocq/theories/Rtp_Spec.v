(** What RTP users rely on, independent of the code. *)
From Verif Require Import Common.

(** RFC 3550 section 5.1: the fixed header is a 96 bit number; [field d o n] is its [n] bits
    after the first [o], most significant first. *)
Definition field (d : list Z) (o n : Z) : Z := (unbe (takez 12 d) / 2 ^ (96 - o - n)) mod 2 ^ n.
Definition rfc_version d := field d 0 2.
Definition rfc_padding d := field d 2 1.
Definition rfc_extension d := field d 3 1.
Definition rfc_csrc_count d := field d 4 4.
Definition rfc_marker d := field d 8 1.
Definition rfc_payload_type d := field d 9 7.
Definition rfc_sequence d := field d 16 16.
Definition rfc_timestamp d := field d 32 32.
Definition rfc_ssrc d := field d 64 32.

(** RFC 3550 sections 5.1 and 5.3.1: size of the header with contributing sources and extension,
    amount of padding, and the payload in between. *)
Definition rfc_csrc_end d := 12 + 4 * rfc_csrc_count d.
Definition rfc_header_size d :=
  if rfc_extension d =? 0 then rfc_csrc_end d
  else rfc_csrc_end d + 4 + 4 * unbe (takez 2 (dropz (rfc_csrc_end d + 2) d)).
Definition rfc_padding_size d := if rfc_padding d =? 0 then 0 else nthz d (len d - 1).
Definition rfc_payload d := takez (len d - rfc_header_size d - rfc_padding_size d) (dropz (rfc_header_size d) d).

(** A packet buffer from which media is sent: no padding, no extension, an even number of
    contributing sources, a payload type that is not taken for RTCP, room for at least one byte. *)
Record sendable (d : list Z) (hs : Z) : Prop := mksendable {
  sd_bytes : bytesP d;
  sd_size : hs + 4 <= len d < 2 ^ 31;
  sd_hs : hs = 12 + 4 * rfc_csrc_count d;
  sd_even : Z.even (rfc_csrc_count d) = true;
  sd_pad : rfc_padding d = 0;
  sd_ext : rfc_extension d = 0;
  sd_pt : ~ 72 <= rfc_payload_type d <= 76 }.

(** Packets numbered consecutively, modulo 2^16, from [n]. *)
Fixpoint numbered (n : Z) (pkts : list (list Z)) : Prop :=
  match pkts with
  | [] => True
  | p :: r => rfc_sequence p = n mod 65536 /\ numbered (n + 1) r
  end.
(** The marker bit is set on no packet but the last, and there as given. *)
Definition marked_last (m : Z) (pkts : list (list Z)) : Prop :=
  map rfc_marker pkts = repeat 0 (List.length pkts - 1) ++ [m].
(** [d'] differs from [d] at most in the [n] bytes at [o]. *)
Definition same_outside (d d' : list Z) (o n : Z) : Prop :=
  len d' = len d /\ forall i, 0 <= i < o \/ o + n <= i -> nthz d' i = nthz d i.

(** Units with four byte lengths, as in a frame of H.264 (ISO/IEC 14496-15). *)
Definition prefixed (u : list Z) : list Z := be 4 (len u) ++ u.
Definition frame_of (us : list (list Z)) : list Z := flat_map prefixed us.
(** The units that are not filler data (type 12). *)
Definition not_filler (us : list (list Z)) : list (list Z) := filter (fun u => negb (nthz u 0 mod 32 =? 12)) us.
(** The marker of the last packet of a frame whose last unit is [u]: set if that is a coded slice. *)
Definition frame_marker (u : list Z) : Z := if nthz u 0 mod 32 <=? 5 then 1 else 0.
(** The units inside an aggregation packet: each after its size in two bytes. *)
Definition aggregated (us : list (list Z)) : list Z := flat_map (fun u => be 2 (len u) ++ u) us.
