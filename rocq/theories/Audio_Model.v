(** Model of audio framing: ADTS headers (/repo/lib/adts.cpp, adts.h, ts_packet.h), AAC and Opus in transport streams
    (/repo/lib/ts_stream.cpp, opus.cpp, /repo/src/output/output_ts_base.cpp) and AAC files (/repo/src/input/input_aac.cpp). *)
From Verif Require Import Common Mem_Model Outcome_Model Bitstream_Model.

(** ** aac::adts: [d] is the copy made by the constructor (lib/adts.cpp:15-19).  The object without data (data == NULL) only
    occurs as a fresh entry of a map and is [None] below. *)

(** lib/adts.cpp:44-47 *)
Definition getAACProfile (d : list Z) : res Z := if len d =? 0 then Ok 0 else b <~ getb d 2;; Ok (((b >> 6) .& 3) + 1).
(** lib/adts.cpp:49-52 *)
Definition getFrequencyIndex (d : list Z) : res Z := if len d =? 0 then Ok 0 else b <~ getb d 2;; Ok ((b >> 2) .& 15).
(** lib/adts.cpp:56-71, adts.h:45-58: the table of sampling rates. *)
Definition rate_of (i : Z) : Z :=
  if i =? 0 then 96000 else if i =? 1 then 88200 else if i =? 2 then 64000 else if i =? 3 then 48000 else if i =? 4 then 44100
  else if i =? 5 then 32000 else if i =? 6 then 24000 else if i =? 7 then 22050 else if i =? 8 then 16000 else if i =? 9 then 12000
  else if i =? 10 then 11025 else if i =? 11 then 8000 else if i =? 12 then 7350 else 0.
(** lib/adts.cpp:54-72 *)
Definition getFrequency (d : list Z) : res Z := if len d <? 3 then Ok 0 else i <~ getFrequencyIndex d;; Ok (rate_of i).
(** lib/adts.cpp:74-77 *)
Definition getChannelConfig (d : list Z) : res Z :=
  if len d =? 0 then Ok 0 else a <~ getb d 2;; b <~ getb d 3;; Ok (((a .& 1) << 2) .| ((b >> 6) .& 3)).
(** lib/adts.cpp:79-82 *)
Definition getChannelCount (d : list Z) : res Z :=
  if len d =? 0 then Ok 0 else c <~ getChannelConfig d;; Ok (if c =? 7 then 8 else c).
(** lib/adts.cpp:84-87 *)
Definition getHeaderSize (d : list Z) : res Z := if len d =? 0 then Ok 0 else b <~ getb d 1;; Ok (if negb ((b .& 1) =? 0) then 7 else 9).
(** lib/adts.cpp:89-92 *)
Definition getCompleteSize (d : list Z) : res Z :=
  if len d <? 6 then Ok 0 else
  a <~ getb d 3;; b <~ getb d 4;; c <~ getb d 5;; Ok (((a .& 3) << 11) .| (b << 3) .| ((c >> 5) .& 7)).
(** lib/adts.cpp:94-103 *)
Definition getPayloadSize (d : list Z) : res Z :=
  r <~ getCompleteSize d;; if r =? 0 then Ok 0 else h <~ getHeaderSize d;; Ok (if h <=? r then r - h else 0).
(** lib/adts.cpp:105-108 *)
Definition getSampleCount (d : list Z) : res Z := if len d <? 7 then Ok 0 else b <~ getb d 6;; Ok (((b .& 3) + 1) * 1024).
(** lib/adts.cpp:110-113 and the copy of getPayloadSize bytes from there by genericFill. *)
Definition getPayload (d : list Z) : res (list Z) := h <~ getHeaderSize d;; n <~ getPayloadSize d;; getn d h n.
(** lib/adts.cpp:151-153: with one byte the second is read all the same. *)
Definition hasSync (d : list Z) : res bool :=
  if len d =? 0 then Ok false else a <~ getb d 0;; b <~ getb d 1;; Ok (((a << 4) .| ((b >> 4) .& 15)) =? 4095).
(** lib/adts.cpp:147-150 operator bool. *)
Definition valid (d : list Z) : res bool :=
  s <~ hasSync d;; if negb s then Ok false else
  if len d =? 0 then Ok false else
  h <~ getHeaderSize d;; if len d <? h then Ok false else
  f <~ getFrequency d;; if f =? 0 then Ok false else
  c <~ getChannelCount d;; if c =? 0 then Ok false else
  n <~ getSampleCount d;; Ok (negb (n =? 0)).
(** lib/adts.cpp:21-25 *)
Definition sameHeader (d e : list Z) : res bool :=
  v <~ valid e;; if negb v then Ok false else
  w <~ valid d;; if negb w then Ok false else
  p <~ getAACProfile d;; q <~ getAACProfile e;; if negb (p =? q) then Ok false else
  p <~ getFrequencyIndex d;; q <~ getFrequencyIndex e;; if negb (p =? q) then Ok false else
  p <~ getChannelConfig d;; q <~ getChannelConfig e;; Ok (p =? q).
(** lib/adts.cpp:135-145 *)
Definition getInit (d : list Z) : res (list Z) :=
  p <~ getAACProfile d;; f <~ getFrequencyIndex d;; c <~ getChannelConfig d;;
  Ok [u8 (((p .& 31) << 3) .| ((f .& 14) >> 1)); u8 (((f .& 1) << 7) .| ((c .& 15) << 3))].

(** ** aac::AudSpecConf (lib/adts.h:38-110): reading the init data with the bit reader of Bitstream_Model. *)
Definition skip_type (b : br) : br := let (t, b) := br_get b 5 in if t =? 31 then br_skip b 6 else b.
Definition asc_rate (conf : list Z) : Z :=
  let b := skip_type (br_append (mkbr [] 0) conf) in
  let (i, b) := br_get b 4 in if i =? 15 then u32 (fst (br_get b 24)) else rate_of i.
Definition asc_channels (conf : list Z) : Z :=
  let b := skip_type (br_append (mkbr [] 0) conf) in
  let (i, b) := br_get b 4 in let b := if i =? 15 then br_skip b 24 else b in
  let c := fst (br_get b 4) in if c =? 0 then 8 else if 7 <? c then 8 else if c =? 7 then 8 else c.
Definition asc_objtype (conf : list Z) : Z :=
  let (t, b) := br_get (br_append (mkbr [] 0) conf) 5 in if t =? 31 then u8 (fst (br_get b 6) + 32) else t.
Definition asc_samples (conf : list Z) : Z :=
  let b := skip_type (br_append (mkbr [] 0) conf) in
  let (i, b) := br_get b 4 in let b := if i =? 15 then br_skip b 24 else b in
  let b := br_skip b 4 in if negb (fst (br_get b 1) =? 0) then 960 else 1024.

(** ** Writing: TS::getAudioHeader (lib/ts_packet.h:254-271).  FrameLen is an int; frames below 2^31 - 7 bytes. *)
Definition getAudioHeader (frameLen : Z) (init : list Z) : list Z :=
  let n := frameLen + 7 in
  let i0 := nthz init 0 in let i1 := nthz init 1 in
  let h2 := if 0 <? len init then ((((i0 >> 3) - 1) << 6) .& 192) else 0 in
  let h2 := if 1 <? len init then u8 (h2 .| ((((i0 .& 7) << 1) .| ((i1 >> 7) .& 1)) << 2) .| ((i1 .& 32) >> 5)) else h2 in
  let h3 := if 1 <? len init then u8 ((i1 .& 24) << 3) else 0 in
  [255; 241; h2; u8 (h3 .| ((n .& 6144) >> 11)); u8 ((n .& 2040) >> 3); u8 (31 .| ((n .& 7) << 5)); 252].
(** src/output/output_ts_base.cpp:200-211: the time, in ninety thousandths of a second, moved to a whole number of frames. *)
Definition align (packTime freq : Z) : Z :=
  if freq =? 0 then packTime else
  let s := u64 (packTime * freq) / 90000 in
  let s := u64 (s + 256) in
  let s := s - s mod 1024 in
  u64 (s * 90000) / freq.

(** ** Reading AAC from a transport stream (lib/ts_stream.cpp).
    TS::ADTSRemainder (91-150): the bytes so far, the wanted number (0: none) and the position.  Memory is granted, so max
    always suffices; PES packets are shorter than 2^32 bytes, so the lengths do not wrap. *)
Record remainder := mkrem { r_data : list Z; r_len : Z; r_bpos : Z }.
Definition rem_none : remainder := mkrem [] 0 0.
(** 91-108 setRemainder *)
Definition setRemainder (r : remainder) (d : list Z) (bpos : Z) : res remainder :=
  n <~ getCompleteSize d;; if n =? 0 then Ok r else if n <? len d then Ub else Ok (mkrem d n bpos).
(** 110-118 append *)
Definition rem_append (r : remainder) (p : list Z) : remainder :=
  if r_len r <? len (r_data r) + len p then r else mkrem (r_data r ++ p) (r_len r) (r_bpos r).

(** What is put out: a packet with time, position in the file and data, or the packet without any content. *)
Inductive packet := Frame (time bpos : Z) (data : list Z) | Nothing.
(** remainders[tid] and adtsInfo[tid]. *)
Record track := mktrk { t_rem : remainder; t_info : option (list Z) }.
Definition track0 : track := mktrk rem_none None.

(** 628-631, 643-646: the header of the track. *)
Definition learn (info : option (list Z)) (d : list Z) : res (option (list Z)) :=
  match info with
  | None => Ok (Some d)
  | Some e => s <~ sameHeader e d;; Ok (if s then info else Some d)
  end.
Definition duration (d : list Z) : res Z := n <~ getSampleCount d;; f <~ getFrequency d;; Ok (n * 1000 / f).

(** 640-668: the loop over one PES packet, from offset [o]; [ms] is msRead. *)
Fixpoint aac_loop (fuel : nat) (t : track) (p : list Z) (ts bpos o ms : Z) : res (list packet * track) :=
  if o <? len p then
    match fuel with
    | O => Stuck
    | S k =>
        let d := dropz o p in
        v <~ valid d;;
        n <~ (if v then getCompleteSize d else Ok 0);;
        if v && (n + o <=? len p) then
          info <~ learn (t_info t) d;;
          let t := mktrk (t_rem t) info in
          m <~ getPayloadSize d;;
          if negb (m =? 0) then
            x <~ getPayload d;; dur <~ duration d;;
            r <~ aac_loop k t p ts bpos (o + n) (ms + dur);;
            Ok (Frame (u64 (ts + ms)) bpos x :: fst r, snd r)
          else
            r <~ aac_loop k t p ts bpos (o + 1) ms;; Ok (Nothing :: fst r, snd r)
        else if negb v then aac_loop k t p ts bpos (o + 1) ms
        else rm <~ setRemainder (t_rem t) d bpos;; Ok ([], mktrk rm (t_info t))
    end
  else Ok ([], t).
(** 615-669: parseBitstream for AAC. *)
Definition parse_aac (t : track) (ts bpos : Z) (p : list Z) : res (list packet * track) :=
  if negb (r_len (t_rem t) =? 0) then
    let o := Z.min (r_len (t_rem t) - len (r_data (t_rem t))) (len p) in
    let rm := rem_append (t_rem t) (takez o p) in
    a <~ (if r_len rm =? len (r_data rm) then
            let d := r_data rm in
            v <~ valid d;;
            if v then
              info <~ learn (t_info t) d;; x <~ getPayload d;; dur <~ duration d;;
              Ok ([Frame (u64 (ts - dur)) (r_bpos rm) x], mktrk rem_none info)
            else Ok ([], mktrk rem_none (t_info t))
          else Ok ([], mktrk rm (t_info t)));;
    r <~ aac_loop (List.length p) (snd a) p ts bpos o 0;; Ok (fst a ++ fst r, snd r)
  else aac_loop (List.length p) t p ts bpos 0 0.
(** PES packets one after the other: time, position and payload. *)
Fixpoint parse_all_aac (t : track) (l : list (Z * Z * list Z)) : res (list packet * track) :=
  match l with
  | [] => Ok ([], t)
  | (ts, bpos, p) :: l => a <~ parse_aac t ts bpos p;; r <~ parse_all_aac (snd a) l;; Ok (fst a ++ fst r, snd r)
  end.

(** ** AAC files (src/input/input_aac.cpp).  The file is [f]; readSome delivers what the file has, up to the wanted number of
    bytes, and nothing behind them is to be read.  The position given to packets starts at 1 (line 81). *)
Inductive next := End | Got (time bpos : Z) (data : list Z) (pos : Z).
(** 214-298 getNext, at position [pos] of the file and time [ts]. *)
Definition getNext (f : list Z) (pos ts : Z) : res next :=
  if len f <=? pos then Ok End else
  let h := takez 6 (dropz pos f) in
  if len h <? 6 then Ok End else
  if negb (nthz h 0 =? 255) || negb ((nthz h 1 .& 240) =? 240) then Ok End else
  let n := ((nthz h 3 .& 3) << 11) .| (nthz h 4 << 3) .| ((nthz h 5 >> 5) .& 7) in
  if n <? 6 then Ub else
  let x := takez (n - 6) (dropz (pos + 6) f) in
  if len x <? n - 6 then Ub else
  let d := h ++ x in
  v <~ valid d;; if negb v then Ok End else
  y <~ getPayload d;; dur <~ duration d;; Ok (Got ts (pos + 1) y (pos + n)).
Definition file_step (f : list Z) (pos ts : Z) : res (option ((Z * Z * list Z) * Z * Z)) :=
  r <~ getNext f pos ts;;
  match r with
  | End => Ok None
  | Got t b y pos' => dur <~ duration (takez (pos' - pos) (dropz pos f));; Ok (Some ((t, b, y), pos', ts + dur))
  end.
Fixpoint file_loop (fuel : nat) (f : list Z) (pos ts : Z) : res (list (Z * Z * list Z)) :=
  match fuel with
  | O => Stuck
  | S k => r <~ file_step f pos ts;;
      match r with None => Ok [] | Some (x, pos, ts) => l <~ file_loop k f pos ts;; Ok (x :: l) end
  end.
(** 140-210 readHeader and what follows: all packets of the file. *)
Definition aac_file (f : list Z) : res (list (Z * Z * list Z)) := file_loop (S (List.length f)) f 0 0.

(** ** Opus in a transport stream. *)
(** lib/opus.cpp:8-36 Opus_getDuration.  The double only takes multiples of one half: [h] is twice its value. *)
Definition opus_frame2 (config : Z) : Z :=
  if config <? 14 then
    (if config mod 4 =? 0 then 20 else if config mod 4 =? 1 then 40 else if config mod 4 =? 2 then 80 else 120)
  else if config <? 16 then (if config mod 2 =? 0 then 20 else 40)
  else (if config mod 4 =? 0 then 5 else if config mod 4 =? 1 then 10 else if config mod 4 =? 2 then 20 else 40).
Definition opus_duration (p : list Z) (o : Z) : res Z :=
  b <~ getb p o;;
  let h := opus_frame2 (b >> 3) in let code := b .& 3 in
  if code =? 0 then Ok (h / 2) else if code <? 3 then Ok (h * 2 / 2) else
  c <~ getb p (o + 1);; Ok (h * (c .& 63) / 2).
(** lib/ts_stream.cpp:694-698: the size, byte by byte from [o]. *)
Fixpoint opus_size (fuel : nat) (p : list Z) (o n : Z) : res (Z * Z) :=
  match fuel with
  | O => Stuck
  | S k => b <~ getb p (o + 2);; if b =? 255 then opus_size k p (o + 1) (n + 255) else Ok (o, n + b)
  end.
(** lib/ts_stream.cpp:684-712 *)
Fixpoint opus_loop (fuel : nat) (p : list Z) (ts bpos o : Z) : res (list (Z * Z * list Z)) :=
  if o + 1 <? len p then
    match fuel with
    | O => Stuck
    | S k =>
        b <~ getb p (o + 1);;
        let head := 2 + (if negb ((b .& 16) =? 0) then 2 else 0) + (if negb ((b .& 8) =? 0) then 2 else 0) in
        s <~ opus_size (S (List.length p)) p o 0;;
        let o := fst s + 1 + head in let n := snd s in
        o <~ (if negb ((b .& 4) =? 0) then c <~ getb p o;; Ok (o + c + 1) else Ok o);;
        if len p <? o + n then Ok [] else
        x <~ getn p o n;; dur <~ opus_duration p o;;
        r <~ opus_loop k p (u64 (ts + dur)) bpos (o + n);; Ok ((ts, bpos, x) :: r)
    end
  else Ok [].
Definition parse_opus (ts bpos : Z) (p : list Z) : res (list (Z * Z * list Z)) := opus_loop (List.length p) p ts bpos 0.
(** src/output/output_ts_base.cpp:217-219: what is put before a packet. *)
Definition opus_lead (n : Z) : list Z := [127; 224] ++ repeat 255 (Z.to_nat (n / 255)) ++ [u8 (n - 255 * (n / 255))].
