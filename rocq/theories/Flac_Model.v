(** Model of FLAC frames and stream information: /repo/lib/flac.cpp:19-122, 150-208, /repo/src/input/input_flac.cpp:158-171, 273-285.
    Simplified throughout: what is read is all there (a byte past the end is 0). *)
From Verif Require Import Common Bitfields_Model.

(** flac.cpp:19-28 utfBytes *)
Definition utfBytes (p : Z) : Z :=
  if p .& 0x80 =? 0 then 1 else if p .& 0xE0 =? 0xC0 then 2 else if p .& 0xF0 =? 0xE0 then 3 else if p .& 0xF8 =? 0xF0 then 4 else
  if p .& 0xFC =? 0xF8 then 5 else if p .& 0xFE =? 0xFC then 6 else if p .& 0xFF =? 0xFE then 7 else 9.
(** flac.cpp:30-51 utfVal; no value here reaches 32 bits *)
Definition utfVal (p : list Z) : Z :=
  let bytes := utfBytes (nthz p 0) in
  if bytes =? 1 then nthz p 0 else
  if bytes =? 2 then ((nthz p 0 .& 0x1F) << 6) .| (nthz p 1 .& 0x3F) else
  if bytes =? 3 then ((((nthz p 0 .& 0x1F) << 6) .| (nthz p 1 .& 0x3F)) << 6) .| (nthz p 2 .& 0x3F) else
  if bytes =? 4 then ((((((nthz p 0 .& 0x1F) << 6) .| (nthz p 1 .& 0x3F)) << 6) .| (nthz p 2 .& 0x3F)) << 6) .| (nthz p 3 .& 0x3F) else 0.
(** flac.cpp:53-60 Frame: is it one? *)
Definition valid (d : list Z) : bool := (nthz d 0 =? 0xFF) && (nthz d 1 .& 0xFC =? 0xF8).
(** flac.cpp:62-75 samples *)
Definition samples (d : list Z) : Z :=
  if negb (valid d) then 0 else
  let c := (nthz d 2 .& 0xF0) >> 4 in
  if c <? 8 then nthz [0; 192; 576; 1152; 2304; 4608; 1; 2] c else u16 (256 << (c - 8)).
(** flac.cpp:76-97 rate *)
Definition rate (d : list Z) : Z :=
  if negb (valid d) then 0 else nthz [0; 88200; 176400; 192000; 8000; 16000; 22050; 24000; 32000; 44100; 48000; 96000; 1; 2; 3; 0] (nthz d 2 .& 0x0F).
(** flac.cpp:99-104 channels *)
Definition channels (d : list Z) : Z :=
  if negb (valid d) then 0 else
  let ret := ((nthz d 3 .& 0xF0) >> 4) + 1 in
  if (8 <? ret) && (ret <? 12) then 2 else ret.
(** flac.cpp:105-118 size *)
Definition size (d : list Z) : Z :=
  if negb (valid d) then 0 else
  let c := nthz d 3 .& 0x0E in
  if c <? 8 then nthz [0; 8; 12; 0; 16; 20; 24; 0] c else 0.
(** flac.cpp:120-122 Frame::utfVal *)
Definition number (d : list Z) : Z := utfVal (dropz 4 d).

(** flac.cpp:150-158 MetaBlock: getSize, getLast *)
Definition getSize (p : list Z) : Z := if len p <? 4 then 0 else btoh24 (dropz 1 p).
Definition getLast (p : list Z) : bool := if len p =? 0 then false else negb (nthz p 0 .& 0x80 =? 0).
(** flac.cpp:173-208 StreamInfo *)
Definition getMinBlockSize (p : list Z) : Z := btohs (dropz 4 p).
Definition getMaxBlockSize (p : list Z) : Z := btohs (dropz 6 p).
Definition getMinFrameSize (p : list Z) : Z := btoh24 (dropz 8 p).
Definition getMaxFrameSize (p : list Z) : Z := btoh24 (dropz 11 p).
Definition getSampleRate (p : list Z) : Z := u32 ((nthz p 14 << 12) + (nthz p 15 << 4) + ((nthz p 16 .& 0xF0) >> 4)).
Definition getChannels (p : list Z) : Z := ((nthz p 16 .& 0x0E) >> 1) + 1.
Definition getBits (p : list Z) : Z := ((nthz p 17 .& 0xF0) >> 4) + (nthz p 16 .& 1) * 16 + 1.
Definition getSamples (p : list Z) : Z :=
  ((nthz p 17 .& 0x0F) << 32) + (nthz p 18 << 24) + (nthz p 19 << 16) + (nthz p 20 << 8) + nthz p 21.
(** before it is written as hexadecimal digits *)
Definition getMD5 (p : list Z) : list Z := takez 16 (dropz 19 p).

(** input_flac.cpp:158-171 readHeader: block size, rate and channels from the content [m] of a stream information block; [None]: blocks vary in size *)
Definition readInfo (m : list Z) : option (Z * Z * Z) :=
  let blockSize := (nthz m 0 << 8) .| nthz m 1 in
  if negb ((nthz m 2 << 8) .| nthz m 3 =? blockSize) then None else
  Some (blockSize, (nthz m 10 << 12) .| (nthz m 11 << 4) .| ((nthz m 12 .& 0xF0) >> 4), ((nthz m 12 .& 0xE) >> 1) + 1).
(** input_flac.cpp:273-285 getNext: is what begins at [a], with the right checksum, taken for the frame after the one at [start]? *)
Definition follows (start a : list Z) : bool :=
  let utfv := utfVal (dropz 4 start) in
  negb (negb (utfv + 1 =? utfVal (dropz 4 a)) && negb (utfv =? 0)).
