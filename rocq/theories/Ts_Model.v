(** Model of /repo/lib/ts_packet.cpp (TS::Packet), of the packetizer in
    /repo/src/output/output_ts_base.cpp and of the PES part of /repo/lib/ts_stream.cpp.
    The packet buffer is the 188 bytes of strBuf; strBuf has one spare byte (ts_packet.h:91)
    that no modelled function touches. *)
From Verif Require Import Common Bitfields_Model.

Record pkt := mkpkt { pbuf : list Z; ppos : Z }.
Definition wr (b : list Z) (i v : Z) : list Z := splice b i [v].

(** ts_packet.cpp:128-134 FromPointer, the buffer part (pos becomes 188). *)
Definition fromPointer (data : list Z) : pkt := mkpkt (takez 188 data) 188.
(** ts_packet.cpp:138-140 *)
Definition updPos (p : pkt) (n : Z) : pkt := if ppos p <? n then mkpkt (pbuf p) n else p.
(** ts_packet.cpp:144-148 *)
Definition setPID (p : pkt) (pid : Z) : pkt :=
  let b := wr (pbuf p) 1 ((nthz (pbuf p) 1 .& 0xE0) + ((pid .& 0x1F00) >> 8)) in
  let b := wr b 2 (pid .& 0xFF) in
  updPos (mkpkt b (ppos p)) 2.
(** ts_packet.cpp:152-154 *)
Definition getPID (b : list Z) : Z := ((nthz b 1 .& 0x1F) << 8) + nthz b 2.
(** ts_packet.cpp:158-161 *)
Definition setContinuityCounter (p : pkt) (c : Z) : pkt :=
  updPos (mkpkt (wr (pbuf p) 3 ((nthz (pbuf p) 3 .& 0xF0) .| (c .& 0x0F))) (ppos p)) 3.
(** ts_packet.cpp:165 *)
Definition getContinuityCounter (b : list Z) : Z := nthz b 3 .& 0x0F.
(** ts_packet.cpp:169-175; a position past the end is answered by a write to address 0. *)
Definition getBytesFree (p : pkt) : option Z := if 188 <? ppos p then None else Some (188 - ppos p).
(** ts_packet.cpp:178-185 *)
Definition clear : pkt := mkpkt ([0x47; 0; 0; 0x10] ++ repeat 0 184) 4.
(** ts_packet.cpp:192-201 *)
Definition setAdaptationField (p : pkt) (sel : Z) : pkt :=
  let b := wr (pbuf p) 3 ((nthz (pbuf p) 3 .& 0xCF) + ((sel .& 3) << 4)) in
  if (sel .& 2) =? 0 then mkpkt b 4 else mkpkt (wr b 4 0) (ppos p).
(** ts_packet.cpp:205 *)
Definition getAdaptationField (b : list Z) : Z := (nthz b 3 .& 0x30) >> 4.
(** ts_packet.cpp:209-222 *)
Definition setPCR (p : pkt) (v : Z) : pkt :=
  let p := setAdaptationField (updPos p 12) 3 in
  let b := wr (pbuf p) 4 7 in
  let b := wr b 5 (nthz b 5 .| 0x10) in
  let t := Z.quot v 300 in
  let b := wr b 6 (((t >> 1) >> 24) .& 0xFF) in
  let b := wr b 7 (((t >> 1) >> 16) .& 0xFF) in
  let b := wr b 8 (((t >> 1) >> 8) .& 0xFF) in
  let b := wr b 9 ((t >> 1) .& 0xFF) in
  let r := Z.rem v 300 in
  let b := wr b 10 (0x7E + ((t .& 1) << 7) + ((r .& 0x100) >> 8)) in
  let b := wr b 11 (r .& 0xFF) in
  mkpkt b (ppos p).
(** ts_packet.cpp:226-234. The int shifts are reduced to 32 bit two's complement, as compilers
    do (formally they overflow when strBuf[6] >= 128). *)
Definition getPCR (b : list Z) : Z :=
  if getAdaptationField b =? 0 then -1
  else if (nthz b 5 .& 0x10) =? 0 then -1
  else
    let hi := s32 (nthz b 6 << 24) .| (nthz b 7 << 16) .| (nthz b 8 << 8) .| nthz b 9 in
    let r := s32 (hi << 1) .| (nthz b 10 >> 7) in
    (r * 300) .| (((nthz b 10 .& 1) << 8) + nthz b 11).
(** ts_packet.cpp:251 *)
Definition hasTransportError (b : list Z) : bool := negb ((nthz b 1 .& 0x80) =? 0).
(** ts_packet.cpp:255 *)
Definition getUnitStart (b : list Z) : bool := negb ((nthz b 1 .& 0x40) =? 0).
(** ts_packet.cpp:259 *)
Definition hasPriority (b : list Z) : bool := negb ((nthz b 1 .& 0x20) =? 0).
(** ts_packet.cpp:263-265 *)
Definition getTransportScramblingControl (b : list Z) : Z := (nthz b 3 >> 6) .& 3.
(** ts_packet.cpp:269-274 *)
Definition getAdaptationFieldLen (b : list Z) : Z := if getAdaptationField b =? 0 then -1 else nthz b 4.
(** ts_packet.cpp:363-369 *)
Definition setUnitStart (p : pkt) (v : bool) : pkt :=
  mkpkt (wr (pbuf p) 1 (if v then nthz (pbuf p) 1 .| 0x40 else nthz (pbuf p) 1 .& 0xBF)) (ppos p).
(** Common shape of setDiscontinuity (373-391, bit 0x80), setRandomAccess (421-439, 0x40) and
    setESPriority (443-461, 0x20). *)
Definition set_flag (mask inv : Z) (p : pkt) (v : bool) : pkt :=
  let p := updPos p 6 in
  if getAdaptationField (pbuf p) =? 3 then
    let b := if nthz (pbuf p) 4 =? 0 then wr (pbuf p) 4 1 else pbuf p in
    mkpkt (wr b 5 (if v then nthz b 5 .| mask else nthz b 5 .& inv)) (ppos p)
  else
    let p := setAdaptationField p 3 in
    let b := wr (pbuf p) 4 1 in
    mkpkt (wr b 5 (if v then mask else 0)) (ppos p).
Definition setDiscontinuity := set_flag 0x80 0x7F.
Definition setRandomAccess := set_flag 0x40 0xBF.
Definition setESPriority := set_flag 0x20 0xDF.
(** ts_packet.cpp:371 *)
Definition hasDiscontinuity (b : list Z) : bool := negb ((nthz b 5 .& 0x80) =? 0).
(** ts_packet.cpp:395-398 *)
Definition getRandomAccess (b : list Z) : bool := if getAdaptationField b <? 2 then false else negb ((nthz b 5 .& 0x40) =? 0).
(** ts_packet.cpp:402-405 *)
Definition getESPriority (b : list Z) : bool := if getAdaptationField b <? 2 then false else negb ((nthz b 5 .& 0x20) =? 0).
(** ts_packet.cpp:409 *)
Definition hasPCR (b : list Z) : bool := negb ((nthz b 5 .& 0x10) =? 0).

(** ts_packet.cpp:752-760 getPayload (offset) and getPayloadLength. *)
Definition payload_start (b : list Z) : Z := 4 + (if 1 <? getAdaptationField b then getAdaptationFieldLen b + 1 else 0).
Definition getPayloadLength (b : list Z) : Z := 184 - (if 1 <? getAdaptationField b then getAdaptationFieldLen b + 1 else 0).

(** ts_packet.cpp:685-690. [data] is what NewVal points to and maxLen is its length converted
    to int; a negative memcpy length is undefined. *)
Definition fillFree (p : pkt) (data : list Z) : option (Z * pkt) :=
  free <- getBytesFree p;;
  let n := Z.min free (s32 (len data)) in
  if n <? 0 then None else Some (n, mkpkt (splice (pbuf p) (ppos p) (takez n data)) (ppos p + n)).

(** ts_packet.cpp:14-29, the first 184 characters (the index never exceeds 183). *)
Definition filler : list Z := bs "Lorem ipsum dolor sit amet, consectetur adipiscing elit. Praesent commodo vulputate urna eu commodo. Cras tempor velit nec nulla placerat volutpat. Proin eleifend blandit quam sit amet".
(** memmove and memset inside the 188 byte buffer; anything else is undefined. *)
Definition mm (b : list Z) (dst src n : Z) : option (list Z) :=
  if (n <? 0) || (188 <? dst + n) || (188 <? src + n) then None else Some (splice b dst (takez n (dropz src b))).
Definition ms (b : list Z) (dst : Z) (xs : list Z) : option (list Z) :=
  if (dst <? 0) || (188 <? dst + len xs) then None else Some (splice b dst xs).

(** ts_packet.cpp:695-742 *)
Definition addStuffing (p : pkt) : option pkt :=
  n <- getBytesFree p;;
  if n =? 0 then Some p
  else if getAdaptationField (pbuf p) =? 2 then Some p
  else
    p <- (if getAdaptationField (pbuf p) =? 1 then
            p <- (if n =? 184 then Some (mkpkt (wr (pbuf p) (ppos p) 0) (ppos p + 1))
                  else b <- mm (pbuf p) 5 4 183;; Some (mkpkt b (ppos p + 1)));;
            Some (setAdaptationField p 3)
          else Some p);;
    n <- getBytesFree p;;
    p <- (if (getAdaptationField (pbuf p) =? 3) && negb (n =? 0) then
            let s := nthz (pbuf p) 4 in
            b <- mm (pbuf p) (5 + s + n) (5 + s) (188 - 5 - s - n);;
            b <- ms b (5 + s) (repeat (ch "$") (Z.to_nat n));;
            Some (mkpkt (wr b 4 (u8 (nthz b 4 + n))) (ppos p + n))
          else Some p);;
    if n =? 0 then Some p
    else
      let '(b, n) := if n =? nthz (pbuf p) 4 then (wr (pbuf p) 5 0, n - 1) else (pbuf p, n) in
      b <- ms b (5 + (nthz b 4 - n)) (takez n filler);;
      Some (mkpkt b (ppos p)).

(** src/output/output_ts_base.cpp:15-63 TSOutput::fillPacket. The repeating PAT/PMT/SDT
    headers (19-36), which go out on other PIDs between packets, are left out. *)
Record mux := mkmux { mpk : pkt; mfirst : bool; mcont : Z; msent : list (list Z) }.
Record meta := mkmeta { video : bool; keyframe : bool; pid : Z; time : Z }.
Definition start_packet (f : meta) (m : mux) : mux :=
  let p := setPID clear (pid f) in
  let c := u16 (mcont m + 1) in
  let p := setContinuityCounter p c in
  let p := if mfirst m then
      let p := setUnitStart p true in
      if video f then
        let p := if keyframe f then setESPriority (setRandomAccess p true) true else p in
        setPCR p (s64 (u64 (time f * 27000)))
      else p
    else p in
  mkmux p false c (msent m).
Fixpoint fill_loop (fuel : nat) (f : meta) (data : list Z) (m : mux) : option mux :=
  match fuel with
  | O => None
  | S k =>
    free <- getBytesFree (mpk m);;
    let m := if free =? 0 then mkmux clear (mfirst m) (mcont m) (msent m ++ [pbuf (mpk m)]) else m in
    if len data =? 0 then Some m else
    free <- getBytesFree (mpk m);;
    let m := if free =? 184 then start_packet f m else m in
    r <- fillFree (mpk m) data;;
    let (n, p) := r : Z * pkt in
    let m := mkmux p (mfirst m) (mcont m) (msent m) in
    let data := dropz n data in
    if len data =? 0 then Some m else fill_loop k f data m
  end.
Definition fillPacket (f : meta) (data : list Z) (m : mux) : option mux := fill_loop (S (List.length data)) f data m.
(** The calls made by sendNext (output_ts_base.cpp:65-264) for one media frame: firstPack is
    set, each piece goes through fillPacket, and a partly filled packet is stuffed and sent. *)
Fixpoint fill_all (f : meta) (chunks : list (list Z)) (m : mux) : option mux :=
  match chunks with
  | [] => Some m
  | c :: r => m <- fillPacket f c m;; fill_all f r m
  end.
Definition send_frame (f : meta) (chunks : list (list Z)) (m : mux) : option mux :=
  m <- fill_all f chunks (mkmux (mpk m) true (mcont m) (msent m));;
  free <- getBytesFree (mpk m);;
  if free <? 184 then
    p <- addStuffing (mpk m);; fillPacket f [] (mkmux p (mfirst m) (mcont m) (msent m))
  else Some m.

(** ts_packet.cpp:485-496 *)
Definition encodePESTimestamp (lead t : Z) : list Z :=
  [u8 (lead .| ((t .& 0x1C0000000) >> 29) .| 1);
   u8 ((t .& 0x03FC00000) >> 22);
   u8 (((t .& 0x0003F8000) >> 14) .| 1);
   u8 ((t .& 0x000007F80) >> 7);
   u8 (((t .& 0x00000007F) << 1) .| 1)].
(** ts_packet.cpp:502-528 and 535-565; len is unsigned int, PTS, offset and bps are 64 bit. *)
Definition getPESVideoLeadIn (n pts off : Z) (aligned : bool) (bps : Z) : list Z :=
  let n := if n =? 0 then n else u32 (n + (if off =? 0 then 8 else 13)) in
  let rate := 50 <=? bps in
  let n := if rate then (if n =? 0 then n else u32 (n + 3)) else n in
  let bps := if rate then bps else 0 in
  [0; 0; 1; 0xE0; (n >> 8) .& 0xFF; n .& 0xFF; if aligned then 0x84 else 0x80;
   (if off =? 0 then 0x80 else 0xC0) .| (if bps =? 0 then 0 else 0x10);
   (if off =? 0 then 5 else 10) + (if bps =? 0 then 0 else 3)] ++
  encodePESTimestamp (if off =? 0 then 0x20 else 0x30) (u64 (pts + off)) ++
  (if off =? 0 then [] else encodePESTimestamp 0x10 pts) ++
  (if bps =? 0 then [] else htob24 ((bps / 50) .| 0x800001)).
(** ts_packet.cpp:570-592 and 596-621 (stream id 0xC0), 625-650 (0xFC), 654-679 (0xBD). *)
Definition getPESLeadIn (sid n pts bps : Z) : list Z :=
  let rate := 50 <=? bps in
  let n := if rate then u32 (n + 3) else n in
  let bps := if rate then bps else 0 in
  let n := u32 (n + 8) in
  [0; 0; 1; sid; (n .& 0xFF00) >> 8; n .& 0xFF; 0x84;
   0x80 .| (if bps =? 0 then 0 else 0x10); 5 + (if bps =? 0 then 0 else 3)] ++
  encodePESTimestamp 0x20 pts ++
  (if bps =? 0 then [] else htob24 ((bps / 50) .| 0x800001)).

(** lib/ts_stream.cpp:398-407 on 5 readable bytes. *)
Definition decodePTS (d : list Z) : Z :=
  let t := (nthz d 0 >> 1) .& 7 in
  let t := (t << 15) .| (nthz d 1 << 7) .| ((nthz d 2 >> 1) .& 0x7F) in
  let t := (t << 15) .| (nthz d 3 << 7) .| ((nthz d 4 >> 1) .& 0x7F) in
  t / 90.

(** Outcome of the demuxer: a result, an access outside the payload buffer, or no end. *)
Inductive out (A : Type) := Ok (a : A) | Oob | Hang.
Arguments Ok {A} a. Arguments Oob {A}. Arguments Hang {A}.

(** One data PID of TS::Stream (ts_stream.h): the packet queue, the unit starts in it, the
    last timestamp and rollover count, and the produced (timestamp, offset, data) packets. The codec is
    one of ID3, AC3, MP2 and META, for which a PES payload is one packet (ts_stream.cpp:669-675). *)
Record demux := mkdmx { cache : list (list Z); seen : Z; lastms : Z; rollover : Z; outp : list (Z * Z * list Z) }.

(** ts_stream.h:8 *)
Definition TS_PTS_ROLLOVER : Z := 95443718.
(** ts_stream.cpp:560-566. Comparing an integer with 0.1 * 95443718 = 9544371.8 and with
    0.9 * 95443718 = 85899346.2 in double arithmetic is comparing it with 9544371 and 85899347. *)
Definition unroll (t last roll : Z) : Z * Z :=
  let t := u64 (t + roll * TS_PTS_ROLLOVER) in
  if (t <? last) && (t mod TS_PTS_ROLLOVER <=? 9544371) && (85899347 <=? last mod TS_PTS_ROLLOVER)
  then (u64 (t + TS_PTS_ROLLOVER), roll + 1) else (t, roll).

(** ts_stream.cpp:508-599, the loop over the PES headers in [pay]; uint32_t offset, uint64_t sizes. *)
Fixpoint pes_loop (fuel : nat) (pay : list Z) (offset : Z) (d : demux) : out demux :=
  match fuel with
  | O => Hang
  | S k =>
    if offset <? len pay then
      let left := len pay - offset in
      let h := dropz offset pay in
      if left <? 9 then Ok d
      else let h8 := nthz h 8 in
      if left <? 9 + h8 then Ok d
      else if negb ((nthz h 0 =? 0) && (nthz h 1 =? 0) && (nthz h 2 =? 1)) then Ok d
      else
        let size := btohs (dropz 4 h) in
        let size := if size =? 0 then len pay else size + 6 in
        let size := u64 (size - (9 + h8)) in
        let flags := nthz h 7 in
        let pts := negb (((flags >> 6) .& 2) =? 0) in
        let dts := pts && negb ((((flags .& 0xC0) >> 6) .& 1) =? 0) in
        let po := 9 + (if pts then 5 else 0) + (if dts then 5 else 0) in
        if left <? po then Oob
        else
          let t1 := if pts then decodePTS (dropz 9 h) else 0 in
          let t2 := if dts then decodePTS (dropz 14 h) else 0 in
          let '(ts, off) := if dts then (if t1 <? t2 then (t1, t1) else (t2, t1 - t2)) else (t1, 0) in
          let '(ts, roll) := unroll ts (lastms d) (rollover d) in
          let po := po + (if (flags .& 0x20) =? 0 then 0 else 6) + (if (flags .& 0x10) =? 0 then 0 else 3)
                       + (if (flags .& 0x08) =? 0 then 0 else 1) + (if (flags .& 0x04) =? 0 then 0 else 1)
                       + (if (flags .& 0x02) =? 0 then 0 else 2) in
          if negb (u64 (left - po) =? size) then
            pes_loop k pay (u32 (offset + u64 (left - po) + (9 + h8))) (mkdmx (cache d) (seen d) (lastms d) roll (outp d))
          else if left <? po + size then Oob
          else pes_loop k pay (u32 (offset + size + (9 + h8)))
                 (mkdmx (cache d) (seen d) ts roll (outp d ++ [(ts, off, takez size (dropz po h))]))
    else Ok d
  end.

(** ts_stream.cpp:459-500: concatenated payloads, skipping packets that repeat the previous
    counter. A negative payload length is added to a uint32_t and given to memcpy. *)
Fixpoint pes_collect (packs : list (list Z)) (lastCtr : Z) : option (list Z) :=
  match packs with
  | [] => Some []
  | b :: r =>
    if getContinuityCounter b =? lastCtr then pes_collect r lastCtr
    else if getPayloadLength b <? 0 then None
    else rest <- pes_collect r (getContinuityCounter b);;
         Some (takez (getPayloadLength b) (dropz (payload_start b) b) ++ rest)
  end.
Fixpoint until_start (packs : list (list Z)) : nat :=
  match packs with
  | [] => O
  | b :: r => if getUnitStart b then O else S (until_start r)
  end.
(** ts_stream.cpp:409-605 (bPos, SCTE35 and the H264/H265 tail left out). Fuel [fuel] bounds pes_loop only. *)
Definition parsePES (fuel : nat) (finished : bool) (d : demux) : out demux :=
  let n := List.length (cache d) in
  let stop := Ok (mkdmx (cache d) 0 (lastms d) (rollover d) (outp d)) in
  match cache d with
  | [] => stop
  | b :: rest =>
    if negb finished && (Z.of_nat n <=? 1) then stop
    else
      let packNum :=
        if (seen d =? 2) && getUnitStart b && getUnitStart (last (cache d) []) then (n - 1)%nat
        else S (until_start rest) in
      if negb finished && (packNum =? n)%nat then stop
      else
        match pes_collect (firstn packNum (cache d)) (getContinuityCounter b - 1) with
        | None => Oob
        | Some pay => pes_loop fuel pay 0 (mkdmx (skipn packNum (cache d)) (seen d - 1) (lastms d) (rollover d) (outp d))
        end
  end.
(** ts_stream.cpp:326 *)
Fixpoint parse_tid (k : nat) (fuel : nat) (d : demux) : out demux :=
  match k with
  | O => Hang
  | S k' => if 1 <? seen d then
      match parsePES fuel false d with Ok d' => parse_tid k' fuel d' | Oob => Oob | Hang => Hang end
    else Ok d
  end.
(** ts_stream.cpp:217-241 and 329-333 for a packet of the data PID. *)
Definition parse_packet (fuel : nat) (b : list Z) (d : demux) : out demux :=
  let d := if getUnitStart b || negb (Z.of_nat (List.length (cache d)) =? 0)
           then mkdmx (cache d ++ [b]) (if getUnitStart b then seen d + 1 else seen d) (lastms d) (rollover d) (outp d)
           else d in
  if getUnitStart b then parse_tid (S (Z.to_nat (seen d))) fuel d else Ok d.
Fixpoint parse_all (fuel : nat) (l : list (list Z)) (d : demux) : out demux :=
  match l with
  | [] => Ok d
  | b :: r => match parse_packet fuel b d with Ok d' => parse_all fuel r d' | Oob => Oob | Hang => Hang end
  end.
(** ts_stream.cpp:201-207 *)
Definition finish (fuel : nat) (d : demux) : out demux := parsePES fuel true d.
Definition demux0 : demux := mkdmx [] 0 0 0 [].

(** Frames of several tracks through one output: the continuity counters are kept per PID
    (output_ts_base.cpp:81-87, contCounters), the packet under construction is shared. *)
Fixpoint send_all (frames : list (meta * list (list Z))) (conts : Z -> Z) (m : mux) : option mux :=
  match frames with
  | [] => Some m
  | (f, chunks) :: r =>
    m <- send_frame f chunks (mkmux (mpk m) (mfirst m) (conts (pid f)) (msent m));;
    send_all r (fun q => if q =? pid f then mcont m else conts q) m
  end.
Definition mux0 : mux := mkmux clear true 0 [].

(** The pieces sendNext hands to fillPacket for codecs whose data goes out unchanged:
    output_ts_base.cpp:193-200 for video other than H264 and HEVC (composition offset in ms),
    219-229 for audio other than AAC and opus, 243-257 for metadata other than SCTE35 and JSON. *)
Inductive kind := Video (off : Z) | Other (sid : Z).
Record media := mkmedia { mmeta : meta; mkind : kind; mbps : Z; mdata : list Z }.
Definition sendNext_chunks (x : media) : list (list Z) :=
  let packTime := u64 (time (mmeta x) * 90) in
  match mkind x with
  | Video off => [getPESVideoLeadIn 0 packTime (u64 (off * 90)) true (mbps x); mdata x]
  | Other sid => [getPESLeadIn sid (u32 (len (mdata x))) packTime (mbps x); mdata x]
  end.
Definition sendNext_all (l : list media) (conts : Z -> Z) (m : mux) : option mux :=
  send_all (map (fun x => (mmeta x, sendNext_chunks x)) l) conts m.
