(** Audio framing, said independently of the model. *)
From Verif Require Import Common Bits.

(** ** An ADTS frame (ISO/IEC 13818-7, 6.2): its fields, in the order in which they are sent. *)
Record frame := mkframe {
  f_id : Z; f_layer : Z; f_crc : option (list Z);       (** 1 bit, 2 bits, none or two bytes *)
  f_profile : Z; f_rate : Z; f_private : Z; f_channels : Z; (** 2 bits, 4 bits, 1 bit, 3 bits *)
  f_flags : Z; f_fullness : Z; f_blocks : Z;            (** 4 bits, 11 bits, 2 bits: number of blocks less one *)
  f_data : list Z }.
Definition header_length (f : frame) : Z := match f_crc f with None => 7 | Some _ => 9 end.
Definition frame_length (f : frame) : Z := header_length f + len (f_data f).
Definition frame_bytes (f : frame) : list Z :=
  let n := frame_length f in
  [255;
   240 + f_id f * 8 + f_layer f * 2 + (match f_crc f with None => 1 | Some _ => 0 end);
   f_profile f * 64 + f_rate f * 4 + f_private f * 2 + f_channels f / 4;
   (f_channels f mod 4) * 64 + f_flags f * 4 + n / 2048;
   (n / 8) mod 256;
   (n mod 8) * 32 + f_fullness f / 64;
   (f_fullness f mod 64) * 4 + f_blocks f]
  ++ (match f_crc f with None => [] | Some c => c end) ++ f_data f.
(** The fields fit; the sampling rate and the number of channels are ones of the table; there is data. *)
Definition good (f : frame) : Prop :=
  0 <= f_id f < 2 /\ 0 <= f_layer f < 4 /\ (match f_crc f with None => True | Some c => len c = 2 end) /\
  0 <= f_profile f < 4 /\ 0 <= f_rate f < 13 /\ 0 <= f_private f < 2 /\ 0 < f_channels f < 8 /\
  0 <= f_flags f < 16 /\ 0 <= f_fullness f < 2048 /\ 0 <= f_blocks f < 4 /\
  f_data f <> [] /\ frame_length f < 8192.
(** Sampling rates (table 35 there). *)
Definition rates : list Z := [96000; 88200; 64000; 48000; 44100; 32000; 24000; 22050; 16000; 12000; 11025; 8000; 7350].
Definition hertz (f : frame) : Z := nthz rates (f_rate f).
Definition channels (f : frame) : Z := if f_channels f =? 7 then 8 else f_channels f.
Definition samples (f : frame) : Z := (f_blocks f + 1) * 1024.
(** Whole milliseconds a frame lasts. *)
Definition lasts (f : frame) : Z := samples f * 1000 / hertz f.

(** ** Frames in PES packets.  The frames of one PES packet: each begins where the one before ends. *)
Fixpoint timed (ts bpos : Z) (l : list frame) : list (Z * Z * frame) :=
  match l with [] => [] | f :: l => (ts, bpos, f) :: timed (ts + lasts f) bpos l end.
(** A frame of which a part was sent: the frame, the position of its PES packet, what was sent and what was not. *)
Definition open : Type := option (frame * Z * list Z * list Z).
(** The frame at the end of a packet: none, or one with its whole header and not all of its data. *)
Inductive ends (bpos : Z) : list Z -> open -> Prop :=
| ends_whole : ends bpos [] None
| ends_in f sent unsent : good f -> frame_bytes f = sent ++ unsent -> unsent <> [] -> header_length f <= len sent ->
    ends bpos sent (Some (f, bpos, sent, unsent)).
(** [sent o l out o']: the PES packets [l] (time, position, bytes), beginning with the open frame [o], carry the frames [out],
    each with the time at which it is to be put out, and leave the frame [o'] open.  The time of a packet is that of the first
    frame that begins in it: a frame that ends in it lasted until then. *)
Inductive sent : open -> list (Z * Z * list Z) -> list (Z * Z * frame) -> open -> Prop :=
| sent_none o : sent o [] [] o
| sent_middle f b0 x y z ts bpos l out o : z <> [] -> sent (Some (f, b0, x ++ y, z)) l out o ->
    sent (Some (f, b0, x, y ++ z)) ((ts, bpos, y) :: l) out o
| sent_frames l1 tail o1 ts bpos l out o : Forall good l1 -> ends bpos tail o1 -> sent o1 l out o ->
    sent None ((ts, bpos, List.concat (map frame_bytes l1) ++ tail) :: l) (timed ts bpos l1 ++ out) o
| sent_end f b0 x y l1 tail o1 ts bpos l out o : y <> [] -> Forall good l1 -> ends bpos tail o1 -> sent o1 l out o ->
    sent (Some (f, b0, x, y)) ((ts, bpos, y ++ List.concat (map frame_bytes l1) ++ tail) :: l)
      ((ts - lasts f, b0, f) :: timed ts bpos l1 ++ out) o.

(** ** The init data of AAC (ISO/IEC 14496-3, AudioSpecificConfig), without extensions: five bits of object type, four of rate,
    four of channels, three flags. *)
Definition specific_config (objtype rate chan flags : Z) : list Z := [objtype * 8 + rate / 2; (rate mod 2) * 128 + chan * 8 + flags].

(** ** Opus in a transport stream (ETSI TS 103 491 annex): control header, size, trimming, extension, data. *)
Record unit_ := mkunit { u_start : option (list Z); u_end : option (list Z); u_ext : option (list Z); u_data : list Z }.
Definition unit_good (u : unit_) : Prop :=
  (match u_start u with None => True | Some x => len x = 2 end) /\ (match u_end u with None => True | Some x => len x = 2 end) /\
  (match u_ext u with None => True | Some x => len x < 256 end) /\ bytesP (u_data u) /\
  (match u_data u with [] => False | b :: r => b mod 4 = 3 -> r <> [] end).
Definition given {A} (o : option A) : Z := match o with None => 0 | Some _ => 1 end.
Definition trim (o : option (list Z)) : list Z := match o with None => [] | Some x => x end.
Definition unit_bytes (u : unit_) : list Z :=
  [127; 224 + given (u_start u) * 16 + given (u_end u) * 8 + given (u_ext u) * 4] ++
  repeat 255 (Z.to_nat (len (u_data u) / 255)) ++ [len (u_data u) mod 255] ++
  trim (u_start u) ++ trim (u_end u) ++ (match u_ext u with None => [] | Some x => len x :: x end) ++ u_data u.
(** RFC 6716, 3.1, table 2: how long a frame lasts, in tenths of milliseconds, by the number of its configuration. *)
Definition opus_table : list Z :=
  [100; 200; 400; 600; 100; 200; 400; 600; 100; 200; 400; 600; 100; 200; 100; 200;
   25; 50; 100; 200; 25; 50; 100; 200; 25; 50; 100; 200; 25; 50; 100; 200].
(** RFC 6716, 3.1 and 3.2: how many frames are in a packet. *)
Definition opus_count (p : list Z) : Z :=
  if nthz p 0 mod 4 =? 0 then 1 else if nthz p 0 mod 4 <? 3 then 2 else nthz p 1 mod 64.
Definition opus_lasts (p : list Z) : Z := nthz opus_table (nthz p 0 / 8) * opus_count p.
Fixpoint opus_timed (ts bpos : Z) (l : list unit_) : list (Z * Z * list Z) :=
  match l with [] => [] | u :: l => (ts, bpos, u_data u) :: opus_timed (ts + opus_lasts (u_data u) / 10) bpos l end.
(** AudioSpecificConfig (ISO/IEC 14496-3, 1.6.2.1), bit by bit: object type (five bits, or 31 and six more), rate (index, or 15
    and the rate itself), channels, the flag for frames of 960 samples; more may follow. *)
Definition conf_bits (objtype : Z) (rate : Z + Z) (chan flag : Z) : list bool :=
  (if objtype <? 31 then bits_of 5 objtype else bits_of 5 31 ++ bits_of 6 (objtype - 32)) ++
  (match rate with inl i => bits_of 4 i | inr hz => bits_of 4 15 ++ bits_of 24 hz end) ++ bits_of 4 chan ++ bits_of 1 flag.
Definition conf_good (objtype : Z) (rate : Z + Z) (chan flag : Z) : Prop :=
  (0 <= objtype < 31 \/ 32 <= objtype < 96) /\ (match rate with inl i => 0 <= i < 13 | inr hz => 0 <= hz < 2 ^ 24 end) /\ 0 <= chan < 16 /\ 0 <= flag < 2.
