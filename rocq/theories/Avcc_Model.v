(** Model of the parameter sets kept for H264 and HEVC tracks: MP4::AVCC and MP4::HVCC (lib/mp4_generic.cpp) as boxes in
    memory (Mp4_Model).  getInt16 returns a short, getInt8 an unsigned char (built with -funsigned-char). *)
From Verif Require Import Common Outcome_Model Mp4_Model.

(** lib/mp4_generic.cpp:372-375: an avcC box begins with five bytes, the last of them 0xFF; 643: an hvcC box is empty. *)
Definition newAVCC : res box := setInt 1 0xFF 4 (newBox (bs "avcC")).
Definition newHVCC : res box := Ok (newBox (bs "hvcC")).
(** lib/mp4_generic.cpp:552-561 AVCC::setPayload and 810-816 HVCC::setPayload: room is made from the start of the box, not
    of its payload, which shifts bytes that are then overwritten. *)
Definition setPayload (x : list Z) (b : box) : res box :=
  cur <~ payloadSize b;;
  r <~ reserve b 0 cur (len x);; if snd r then putn (fst r) 8 x else Ok (fst r).

Definition get16 (i : Z) (b : box) : res (box * Z) := r <~ getInt 2 i b;; Ok (fst r, s16 (snd r)).
(** lib/mp4_generic.cpp:397 getSPSCount. *)
Definition getSPSCount (b : box) : res (box * Z) := r <~ getInt 1 5 b;; Ok (fst r, snd r .& 0x1F).
(** The loops over the entries before the wanted one: lib/mp4_generic.cpp:419 and 430 while offset + 1 < plSize, 439 while
    offset + 1 <= plSize; offset is a size_t. *)
Fixpoint seek (slack : Z) (n : nat) (plSize off : Z) (b : box) : res (box * Z) :=
  match n with
  | O => Ok (b, off)
  | S k => if off + 1 <? plSize + slack then r <~ get16 off b;; seek slack k plSize (u64 (off + snd r + 2)) (fst r) else Ok (b, off)
  end.
(** lib/mp4_generic.cpp:415-424 getSPSLen. *)
Definition getSPSLen (index : nat) (b : box) : res (box * Z) :=
  r <~ getSPSCount b;; let '(b, c) := r in
  if c <=? Z.of_nat index then Ok (b, 0) else
  pl <~ payloadSize b;;
  r <~ seek 0 index pl 6 b;; let '(b, off) := r in
  if pl <=? off + 1 then Ok (b, 0) else
  r <~ get16 off b;; let '(b, v) := r in
  let ret := u32 v in if pl <? u64 (ret + off + 2) then Ok (b, 0) else Ok (b, ret).
(** lib/mp4_generic.cpp:426-433 getSPS, as offset in the payload; None is a null pointer. *)
Definition getSPS (index : nat) (b : box) : res (box * option Z) :=
  r <~ getSPSCount b;; let '(b, c) := r in
  if c <=? Z.of_nat index then Ok (b, None) else
  pl <~ payloadSize b;;
  r <~ seek 0 index pl 6 b;; let '(b, off) := r in
  if pl <=? off then Ok (b, None) else Ok (b, Some (off + 2)).
(** lib/mp4_generic.cpp:435-442 PPSCountOffset. *)
Definition PPSCountOffset (b : box) : res (box * Z) :=
  r <~ getSPSCount b;; let '(b, c) := r in
  pl <~ payloadSize b;;
  r <~ seek 1 (Z.to_nat c) pl 6 b;; let '(b, off) := r in
  if pl <? off then Ok (b, 0) else Ok (b, off).
(** lib/mp4_generic.cpp:446-450 getPPSCount. *)
Definition getPPSCount (b : box) : res (box * Z) :=
  r <~ PPSCountOffset b;; let '(b, o) := r in if o =? 0 then Ok (b, 0) else getInt 1 o b.
(** The loops of lib/mp4_generic.cpp:474 and 486: offset is an int, compared as an unsigned 64 bit number. *)
Fixpoint seekP (n : nat) (plSize off : Z) (b : box) : res (box * Z) :=
  match n with
  | O => Ok (b, off)
  | S k => if u64 (off + 1) <=? plSize then r <~ get16 (u64 off) b;; seekP k plSize (s32 (off + snd r + 2)) (fst r) else Ok (b, off)
  end.
(** lib/mp4_generic.cpp:466-479 getPPSLen. *)
Definition getPPSLen (index : nat) (b : box) : res (box * Z) :=
  r <~ getPPSCount b;; let '(b, c) := r in
  if c <=? Z.of_nat index then Ok (b, 0) else
  r <~ PPSCountOffset b;; let '(b, o) := r in
  pl <~ payloadSize b;;
  r <~ seekP index pl (s32 (o + 1)) b;; let '(b, off) := r in
  if pl <=? u64 (off + 1) then Ok (b, 0) else
  r <~ get16 (u64 off) b;; let '(b, v) := r in
  let ret := u32 v in if pl <? u32 (off + 2 + ret) then Ok (b, 0) else Ok (b, ret).
(** lib/mp4_generic.cpp:481-488 getPPS. *)
Definition getPPS (index : nat) (b : box) : res (box * option Z) :=
  r <~ getPPSCount b;; let '(b, c) := r in
  if c <=? Z.of_nat index then Ok (b, None) else
  r <~ PPSCountOffset b;; let '(b, o) := r in
  pl <~ payloadSize b;;
  r <~ seekP index pl (s32 (o + 1)) b;; let '(b, off) := r in
  if pl <=? u64 (off + 1) then Ok (b, None) else Ok (b, Some (off + 2)).

(** r.write(pointer, length) of lib/mp4_generic.cpp:542 and 547: nothing is read for length 0. *)
Definition written (b : box) (o : option Z) (n : Z) : res (list Z) :=
  if n =? 0 then Ok [] else match o with Some o => getn (b_data b) (8 + o) n | None => Ub end.
Fixpoint units (get : nat -> box -> res (box * option Z)) (size : nat -> box -> res (box * Z)) (n i : nat) (b : box) : res (box * list Z) :=
  match n with
  | O => Ok (b, [])
  | S k =>
    r <~ size i b;; let '(b, n) := r in
    r <~ get i b;; let '(b, o) := r in
    x <~ written b o n;;
    r <~ units get size k (S i) b;; let '(b, rest) := r in Ok (b, [0; 0; 0; 1] ++ x ++ rest)
  end.
(** lib/mp4_generic.cpp:537-550 AVCC::asAnnexB. *)
Definition avccAnnexB (b : box) : res (list Z) :=
  r <~ getSPSCount b;; let '(b, c) := r in
  r <~ units getSPS getSPSLen (Z.to_nat c) 0 b;; let '(b, x) := r in
  r <~ getPPSCount b;; let '(b, c) := r in
  r <~ units getPPS getPPSLen (Z.to_nat c) 0 b;; Ok (x ++ snd r).
(** output_ts_base.cpp:126-128 and 157-159. *)
Definition avccInit (init : list Z) : res (list Z) := b <~ newAVCC;; b <~ setPayload init b;; avccAnnexB b.

(** lib/mp4_generic.cpp:716-738 HVCC::getArrays and 818-827 HVCC::asAnnexB: the bytes of a unit are got one by one, counts
    and sizes are shorts; offset is an int that does not overflow here. *)
Fixpoint bytes_loop (n : nat) (off : Z) (b : box) : res (box * list Z) :=
  match n with
  | O => Ok (b, [])
  | S k => r <~ getInt 1 off b;; let '(b, v) := r in r <~ bytes_loop k (off + 1) b;; let '(b, x) := r in Ok (b, v :: x)
  end.
Fixpoint nalu_loop (n : nat) (off : Z) (b : box) : res (box * Z * list (list Z)) :=
  match n with
  | O => Ok (b, off, [])
  | S k =>
    r <~ get16 off b;; let '(b, size) := r in
    r <~ bytes_loop (Z.to_nat size) (off + 2) b;; let '(b, x) := r in
    r <~ nalu_loop k (off + 2 + Z.max 0 size) b;; let '(b, off, rest) := r in Ok (b, off, x :: rest)
  end.
Fixpoint array_loop (n : nat) (off : Z) (b : box) : res (box * list (Z * Z * list (list Z))) :=
  match n with
  | O => Ok (b, [])
  | S k =>
    r <~ getInt 1 off b;; let '(b, h) := r in
    r <~ get16 (off + 1) b;; let '(b, count) := r in
    r <~ nalu_loop (Z.to_nat count) (off + 3) b;; let '(b, off, us) := r in
    r <~ array_loop k off b;; let '(b, rest) := r in Ok (b, ((h >> 7) .& 1, h .& 0x3F, us) :: rest)
  end.
Definition getArrays (b : box) : res (box * list (Z * Z * list (list Z))) :=
  r <~ getInt 1 22 b;; array_loop (Z.to_nat (snd r)) 23 (fst r).
Definition hvccAnnexB (b : box) : res (list Z) :=
  r <~ getArrays b;; Ok (flat_map (fun a => flat_map (fun u => [0; 0; 0; 1] ++ u) (snd a)) (snd r)).
(** output_ts_base.cpp:132-134 and 164-166. *)
Definition hvccInit (init : list Z) : res (list Z) := b <~ newHVCC;; b <~ setPayload init b;; hvccAnnexB b.

(** ** The record a receiver makes *)
(** lib/mp4_generic.cpp:399-413 setSPS(0) and 452-464 setPPS(0), the bytes one by one. *)
Fixpoint set_bytes (x : list Z) (i : Z) (b : box) : res box :=
  match x with [] => Ok b | v :: r => b <~ setInt 1 v i b;; set_bytes r (i + 1) b end.
Definition setSPS (x : list Z) (b : box) : res box :=
  r <~ getSPSCount b;; b <~ setInt 2 (len x) 6 (fst r);; set_bytes x 8 b.
Definition setPPSCount (n : Z) (b : box) : res box := r <~ PPSCountOffset b;; setInt 1 n (snd r) (fst r).
Definition setPPS (x : list Z) (b : box) : res box :=
  r <~ getPPSCount b;; r <~ PPSCountOffset (fst r);; let '(b, o) := r in
  let off := o + 1 in b <~ setInt 2 (len x) off b;; set_bytes x (off + 2) b.
(** lib/ts_stream.cpp:1094-1102 and 1113: std::string[i] of a string shorter than i is undefined, at i it is 0. *)
Definition at_string (s : list Z) (i : Z) : res Z := if i <? len s then getb s i else if i =? len s then Ok 0 else Ub.
Definition makeInit (sps pps : list Z) : res (list Z) :=
  b <~ newAVCC;; b <~ setInt 1 1 0 b;;
  p <~ at_string sps 1;; b <~ setInt 1 p 1 b;;
  p <~ at_string sps 2;; b <~ setInt 1 p 2 b;;
  p <~ at_string sps 3;; b <~ setInt 1 p 3 b;;
  b <~ setInt 1 (1 .| 0xE0) 5 b;; b <~ setSPS sps b;;
  b <~ setPPSCount 1 b;; b <~ setPPS pps b;;
  n <~ payloadSize b;; getn (b_data b) 8 n.
