(** Model of FLV tags: /repo/lib/flv_tag.cpp, and of the headers of RTMP media messages: /repo/src/output/output_rtmp.cpp.
    A tag is the list of its [len] bytes; [None] is a read past its end. *)
From Verif Require Import Common Mem_Model.

(** *** Reading files: flv_tag.cpp:35-57, 1021-1099.  The state is the bytes read so far of the tag ([sofar] of them), and the
    length once the header of the tag was read ([done] is false then). *)
Record loader := mkloader { l_data : list Z; l_len : option Z }.
Definition fresh : loader := mkloader [] None.
Inductive loaded := LNone | LTag (t : list Z) | LError.
Definition at_ (d : list Z) (i : Z) : Z := nth (Z.to_nat i) d 0.
Definition is_header (d : list Z) : bool := (at_ d 0 =? 70) && (at_ d 1 =? 76) && (at_ d 2 =? 86).
Definition check_header (d : list Z) : bool :=
  is_header d && (at_ d 5 =? 0) && (at_ d 6 =? 0) && (at_ d 7 =? 0) && (at_ d 8 =? 9) && (at_ d 9 =? 0) && (at_ d 10 =? 0) && (at_ d 11 =? 0) && (at_ d 12 =? 0).
(** FileReadUntil: what can be read now is [avail]. *)
Definition until (d : list Z) (count : Z) (avail : list Z) : list Z * list Z :=
  (d ++ takez (count - len d) avail, dropz (count - len d) avail).
(** One call of FileLoader: the state, what is not read, the result. *)
Definition load (s : loader) (avail : list Z) : loader * list Z * loaded :=
  match l_len s with
  | None =>
    let '(d, rest) := until (l_data s) 11 avail in
    if len d <? 11 then (mkloader d None, rest, LNone) else
    if is_header d then
      let '(d, rest) := until d 13 rest in
      if len d <? 13 then (mkloader d None, rest, LNone) else
      if check_header d then (fresh, rest, LNone) else (mkloader d None, rest, LError)
    else
      let n := at_ d 3 + 15 + (at_ d 2 << 8) + (at_ d 1 << 16) in
      if 0x12 <? at_ d 0 then (mkloader d None, rest, LError) else (mkloader d (Some n), rest, LNone)
  | Some n =>
    let '(d, rest) := until (l_data s) n avail in
    if len d <? n then (mkloader d (Some n), rest, LNone) else (fresh, rest, LTag d)
  end.
(** input_flv.cpp:101-113, 134-141: calls while there is something; nothing after an error.  Given are the tags, and whether
    there was an error. *)
Fixpoint loads (fuel : nat) (s : loader) (avail : list Z) : loader * list (list Z) * bool :=
  match avail, fuel with
  | [], _ | _, O => (s, [], false)
  | _, S k =>
    let '(s, rest, r) := load s avail in
    match r with
    | LError => (s, [], true)
    | LNone => loads k s rest
    | LTag t => let '(s, ts, e) := loads k s rest in (s, t :: ts, e)
    end
  end.
Fixpoint reads (s : loader) (chunks : list (list Z)) : loader * list (list Z) * bool :=
  match chunks with
  | [] => (s, [], false)
  | c :: chunks =>
    let '(s, ts, e) := loads (List.length c) s c in
    if e then (s, ts, true) else let '(s, ts2, e) := reads s chunks in (s, ts ++ ts2, e)
  end.

(** *** Making tags.  Every byte of a tag is written, so the writes to the buffer are given as the list. *)
(** tagTime (474-479), setLen (652-662), and the bytes that all makers write. *)
Definition time_bytes (t : Z) : list Z := [u8 (t >> 16); u8 (t >> 8); u8 t; u8 (t >> 24)].
Definition tag (type time : Z) (body : list Z) : list Z :=
  let n := len body + 15 in
  [type; u8 ((n - 15) >> 16); u8 ((n - 15) >> 8); u8 (n - 15)] ++ time_bytes time ++ [0; 0; 0] ++ body ++ be 4 (n - 4).
Definition code (codec : list Z) (l : list (list Z * Z)) : Z := fold_right (fun x a => if beqb codec (fst x) then snd x .| a else a) 0 l.
(** 551-596 DTSCLoader, video; offset (462-467) *)
Definition video_flags (codec : list Z) (key disposable : bool) : Z :=
  (code codec [(bs "H264", 7); (bs "ScreenVideo2", 6); (bs "VP6Alpha", 5); (bs "VP6", 4); (bs "ScreenVideo1", 3); (bs "H263", 2); (bs "JPEG", 1)]
   .| (if key then 0x10 else 0x20)) .| (if disposable then 0x30 else 0).
Definition dtsc_video (codec data : list Z) (offset time : Z) (key disposable : bool) : list Z :=
  tag 9 time ([video_flags codec key disposable] ++
    (if beqb codec (bs "H264") then [1; u8 (offset >> 16); u8 (offset >> 8); u8 offset] else []) ++ data).
(** 597-636 DTSCLoader, audio *)
Definition audio_flags (codec : list Z) (rate size channels : Z) : Z :=
  code codec [(bs "AAC", 0xA0); (bs "MP3", if rate =? 8000 then 0xE0 else 0x20); (bs "ADPCM", 0x10); (bs "PCM", 0x30);
    (bs "Nellymoser", if rate =? 8000 then 0x50 else if rate =? 16000 then 0x40 else 0x60); (bs "ALAW", 0x70); (bs "ULAW", 0x80); (bs "Speex", 0xB0)]
  .| ((if 44100 <=? rate then 0x0C else if 22050 <=? rate then 0x08 else if 11025 <=? rate then 0x04 else 0)
  .| ((if size =? 8 then 0 else 2) .| (if 1 <? channels then 1 else 0))).
Definition dtsc_audio (codec data : list Z) (rate size channels time : Z) : list Z :=
  tag 8 time ([audio_flags codec rate size channels] ++ (if beqb codec (bs "AAC") then [1] else []) ++ data).
(** 665-736 DTSCVideoInit; [track] is multiTrack, if it is not negative *)
Definition fourcc_video (codec : list Z) : option (list Z) :=
  if beqb codec (bs "AV1") then Some (bs "av01") else if beqb codec (bs "VP8") then Some (bs "vp08") else if beqb codec (bs "VP9") then Some (bs "vp09") else
  if beqb codec (bs "HEVC") then Some (bs "hvc1") else if beqb codec (bs "H264") then Some (bs "avc1") else None.
Definition video_init (codec init : list Z) (track : option Z) : option (list Z) :=
  match track with
  | Some k => f <- fourcc_video codec;; Some (tag 9 0 ([0x96; 0] ++ f ++ [u8 k] ++ init))
  | None => if beqb codec (bs "H264") then Some (tag 9 0 ([0x17; 0; 0; 0; 0] ++ init)) else f <- fourcc_video codec;; Some (tag 9 0 ([0x90] ++ f ++ init))
  end.
(** 739-815 DTSCAudioInit *)
Definition fourcc_audio (codec : list Z) : option (list Z) :=
  if beqb codec (bs "opus") then Some (bs "Opus") else if beqb codec (bs "AC3") then Some (bs "ac-3") else
  if beqb codec (bs "FLAC") then Some (bs "fLaC") else if beqb codec (bs "AAC") then Some (bs "mp4a") else None.
Definition audio_init (codec init : list Z) (rate size channels : Z) (track : option Z) : option (list Z) :=
  match track with
  | Some k => f <- fourcc_audio codec;; Some (tag 8 0 ([0x95; 0] ++ f ++ [u8 k] ++ init))
  | None =>
    if beqb codec (bs "AAC") then Some (tag 8 0 ([audio_flags codec rate size channels; 0] ++ init)) else f <- fourcc_audio codec;; Some (tag 8 0 ([0x90] ++ f ++ init))
  end.
(** 916-931 ChunkLoader; the bytes 8 to 10 keep what they were, which nobody reads: they are zeros here. *)
Definition chunk_tag (type time : Z) (data : list Z) : list Z := tag type time data.

(** *** Reading tags *)
(** 187-200 skipModEx *)
Fixpoint skip (fuel : nat) (t : list Z) (o : Z) : option Z :=
  match fuel with
  | O => None
  | S k =>
    b <- rd t o;;
    if b .& 15 =? 7 then
      d <- rd t (o + 1);;
      if d + 1 =? 256 then h <- rd t (o + 2);; l <- rd t (o + 3);; skip k t (o + 3 + (h * 256 + l + 1) + 1)
      else skip k t (o + 1 + (d + 1) + 1)
    else Some o
  end.
Definition skipModEx (t : list Z) (o : Z) : option Z := skip (S (List.length t)) t o.
(** 202-234 getVideoCodec *)
Definition getVideoCodec (t : list Z) : option (list Z) :=
  b <- rd t 11;;
  if b .& 0x80 =? 0x80 then
    o <- skipModEx t 11;; x <- rd t o;;
    m <- (if x .& 15 =? 6 then y <- rd t (o + 1);; Some (y .& 0xF0 =? 0x20, o + 1) else Some (false, o));;
    if fst m then Some (bs "Multitrack") else
    y <- rd t (snd m);;
    if y .& 15 =? 4 then Some (bs "Metadata") else
    f <- peek t (snd m + 1) 4;;
    Some (if beqb f (bs "av01") then bs "AV1" else if beqb f (bs "avc1") then bs "H264" else if beqb f (bs "hvc1") then bs "HEVC" else
          if beqb f (bs "vp08") then bs "VP8" else if beqb f (bs "vp09") then bs "VP9" else bs "unknown")
  else
    let c := b .& 15 in
    Some (if c =? 1 then bs "JPEG" else if c =? 2 then bs "H263" else if c =? 3 then bs "ScreenVideo1" else if c =? 4 then bs "VP6" else
          if c =? 5 then bs "VP6Alpha" else if c =? 6 then bs "ScreenVideo2" else if c =? 7 then bs "H264" else bs "unknown").
(** 236-285 getAudioCodec *)
Definition getAudioCodec (t : list Z) : option (list Z) :=
  b <- rd t 11;;
  let c := b .& 0xF0 in
  if c =? 0x90 then
    o <- skipModEx t 11;; x <- rd t o;;
    m <- (if x .& 15 =? 5 then y <- rd t (o + 1);; Some (y .& 0xF0 =? 0x20, o + 1) else Some (false, o));;
    if fst m then Some (bs "Multitrack") else
    f <- peek t (snd m + 1) 4;;
    Some (if beqb f (bs "ac-3") then bs "AC3" else if beqb f (bs "ec-3") then bs "EAC-3" else if beqb f (bs "Opus") then bs "opus" else
          if beqb f (bs ".mp3") then bs "MP3" else if beqb f (bs "fLaC") then bs "FLAC" else if beqb f (bs "mp4a") then bs "AAC" else bs "unknown")
  else
    Some (if c =? 0 then (if b .& 2 =? 0 then bs "PCM" else bs "PCMPE") else if c =? 0x10 then bs "ADPCM" else if c =? 0x20 then bs "MP3" else
          if c =? 0x30 then bs "PCM" else if (c =? 0x40) || (c =? 0x50) || (c =? 0x60) then bs "Nellymoser" else if c =? 0x70 then bs "ALAW" else
          if c =? 0x80 then bs "ULAW" else if c =? 0xA0 then bs "AAC" else if c =? 0xB0 then bs "Speex" else if c =? 0xE0 then bs "MP3" else
          if c =? 0xF0 then bs "DeviceSpecific" else bs "unknown").
(** 96-150 needsInitData *)
Definition needsInitData (t : list Z) : option bool :=
  a <- rd t 0;;
  if a =? 9 then
    b <- rd t 11;;
    if b .& 0x80 =? 0 then Some ((b .& 15 =? 2) || (b .& 15 =? 7)) else
    o <- skipModEx t 11;; x <- rd t o;;
    m <- (if x .& 15 =? 6 then y <- rd t (o + 1);; Some (y .& 0xF0 =? 0x20, o + 1) else Some (false, o));;
    if fst m then Some false else y <- rd t (snd m);; Some (negb (y .& 15 =? 4))
  else if a =? 8 then
    b <- rd t 11;;
    if b .& 0xF0 =? 0xA0 then Some true else if negb (b .& 0xF0 =? 0x90) then Some false else
    o <- skipModEx t 11;; x <- rd t o;;
    m <- (if x .& 15 =? 5 then y <- rd t (o + 1);; Some (y .& 0xF0 =? 0x20, o + 1) else Some (false, o));;
    if fst m then Some false else f <- peek t (snd m + 1) 4;; Some (beqb f (bs "Opus") || beqb f (bs "fLaC") || beqb f (bs "mp4a"))
  else Some false.
(** 153-184 isInitData *)
Definition isInitData (t : list Z) : option bool :=
  a <- rd t 0;;
  if a =? 9 then
    b <- rd t 11;;
    if negb (b .& 0x80 =? 0) then
      o <- skipModEx t 11;; x <- rd t o;; y <- (if x .& 15 =? 6 then rd t (o + 1) else Some x);; Some ((y .& 15 =? 0) || (y .& 15 =? 5))
    else if b .& 0xF0 =? 0x50 then Some true else if b .& 15 =? 7 then c <- rd t 12;; Some (c =? 0) else Some false
  else if a =? 8 then
    b <- rd t 11;;
    if b .& 0xF0 =? 0x90 then
      o <- skipModEx t 11;; x <- rd t o;; y <- (if x .& 15 =? 5 then rd t (o + 1) else Some x);; Some (y .& 15 =? 0)
    else if b .& 0xF0 =? 0xA0 then c <- rd t 12;; Some (c =? 0) else Some false
  else Some false.
(** 436-460 offset; bitfields.h btoh24, the sign from the shifts *)
Definition s24 (x : Z) : Z := if x <? 2 ^ 23 then x else x - 2 ^ 24.
Definition offset (t : list Z) : option Z :=
  b <- rd t 11;;
  if b .& 0x80 =? 0x80 then
    o <- skipModEx t 11;; x <- rd t o;;
    if negb (x .& 15 =? 1) && negb (x .& 15 =? 6) then Some 0 else
    m <- (if x .& 15 =? 6 then y <- rd t (o + 1);; Some (negb (y .& 15 =? 1), o + 1) else Some (false, o));;
    if fst m then Some 0 else
    f <- peek t (snd m + 1) 4;;
    if beqb f (bs "avc1") || beqb f (bs "hvc1") then x <- peek t (snd m + 6) 3;; Some (s24 (unbe x)) else Some 0
  else if negb (b .& 15 =? 7) then Some 0 else x <- peek t 13 3;; Some (s24 (unbe x)).
(** 469-471 tagTime *)
Definition tagTime (t : list Z) : option Z :=
  a <- rd t 4;; b <- rd t 5;; c <- rd t 6;; d <- rd t 7;; Some ((a << 16) + (b << 8) + c + (d << 24)).
(** 1299-1308 calcKeyframe *)
Definition keyframe (t : list Z) : option bool := a <- rd t 0;; if a =? 9 then b <- rd t 11;; Some (b .& 0x70 =? 0x10) else Some false.
(** 1101-1124 getTrackID; [None] in it is INVALID_TRACK_ID *)
Definition getTrackID (t : list Z) : option (option Z) :=
  a <- rd t 0;;
  if a =? 8 then
    b <- rd t 11;;
    if b .& 0xF0 =? 0x90 then
      o <- skipModEx t 11;; x <- rd t o;;
      if x .& 15 =? 5 then y <- rd t (o + 1);; if y .& 0xF0 =? 0x20 then Some (Some 0) else z <- rd t (o + 6);; Some (Some (100 + z)) else Some (Some 2)
    else Some (Some 2)
  else if a =? 9 then
    b <- rd t 11;;
    if b .& 0x80 =? 0x80 then
      o <- skipModEx t 11;; x <- rd t o;;
      if x .& 15 =? 6 then y <- rd t (o + 1);; if y .& 0xF0 =? 0x20 then Some (Some 0) else z <- rd t (o + 6);; Some (Some (400 + z)) else Some (Some 1)
    else Some (Some 1)
  else if a =? 18 then Some (Some 3) else Some None.
(** 1138-1179 getDataOffset *)
Definition getDataOffset (t : list Z) : option Z :=
  a <- rd t 0;; b <- rd t 11;;
  if (a =? 9) && (b .& 0x80 =? 0x80) then
    o <- skipModEx t 11;; x <- rd t o;;
    let k := x .& 15 in
    if (k =? 4) || (k =? 0) || (k =? 5) || (k =? 2) || (k =? 3) then Some (o + 5) else
    if k =? 6 then
      y <- rd t (o + 1);;
      if y .& 0xF0 =? 0x20 then Some (o + 1) else
      if y .& 15 =? 1 then f <- peek t (o + 2) 4;; Some (if beqb f (bs "hvc1") || beqb f (bs "avc1") then o + 10 else o + 7) else Some (o + 7)
    else if k =? 1 then f <- peek t (o + 1) 4;; Some (if beqb f (bs "hvc1") || beqb f (bs "avc1") then o + 8 else o + 5)
    else Some (o + 1)
  else if (a =? 8) && (b .& 0xF0 =? 0xA0) then Some 13
  else if (a =? 8) && (b .& 0xF0 =? 0x90) then
    o <- skipModEx t 11;; x <- rd t o;;
    if x .& 15 =? 5 then y <- rd t (o + 1);; Some (if y .& 0xF0 =? 0x20 then o + 5 else o + 7) else Some (o + 5)
  else if (a =? 9) && (b .& 15 =? 7) then Some 16 else Some 12.
(** 1127-1136 getData, getDataLen *)
Definition getData (t : list Z) : option (list Z) :=
  o <- getDataOffset t;; if len t <? o + 4 then Some [] else peek t o (len t - 4 - o).

(** *** RTMP: output_rtmp.cpp:976-1032, the header of the body of a video message; [track] is in vidMultiMap. *)
Definition rtmp_video (codec : list Z) (offset : Z) (key disposable : bool) (track : option Z) : list Z :=
  let o3 := [u8 (offset >> 16); u8 (offset >> 8); u8 offset] in
  let f := match fourcc_video codec with Some f => f | None => [0; 0; 0; 0] end in
  let kind := (if key then 0x10 else 0x20) .| (if disposable then 0x30 else 0) in
  match track with
  | Some k => [0x86 .| kind; if offset =? 0 then 3 else 1] ++ f ++ [u8 k] ++ (if offset =? 0 then [] else o3)
  | None =>
    if beqb codec (bs "H264") then [7 .| kind; 1] ++ (if offset =? 0 then [0; 0; 0] else o3) else
    match fourcc_video codec with
    | Some f => [(0x80 .| (if offset =? 0 then 3 else 1)) .| kind] ++ f ++ (if offset =? 0 then [] else o3)
    | None => [(if beqb codec (bs "H263") then 2 else 0) .| kind]
    end
  end.
(** output_rtmp.cpp:1036-1047: the same for audio, of a track in audMultiMap *)
Definition rtmp_audio_multi (codec : list Z) (track : Z) : list Z :=
  [0x95; 5] ++ match fourcc_audio codec with Some f => f | None => [0; 0; 0; 0] end ++ [u8 track].
