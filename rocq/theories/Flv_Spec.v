(** Specification of FLV tags (Adobe, Video File Format 10.1, annex E) and of enhanced RTMP version 2. *)
From Verif Require Import Common.

(** E.4.1: type, size of the body, time (24 bits, then the upper 8), stream 0, the body; E.3: the size of the tag after it. *)
Definition flv_tag (type time : Z) (body : list Z) : list Z :=
  [type] ++ be 3 (len body) ++ be 3 time ++ [time / 2 ^ 24 mod 256] ++ [0; 0; 0] ++ body ++ be 4 (11 + len body).
(** A tag in a file. *)
Definition file_tag (t : list Z) : Prop :=
  exists type others body size, t = [type] ++ be 3 (len body) ++ others ++ body ++ size /\ 0 <= type <= 18 /\ len body < 2 ^ 24 /\ len others = 7 /\ len size = 4.
(** E.2: the header of a file, with the size of no tag after it. *)
Definition file_header (h : list Z) : Prop := exists version flags, h = bs "FLV" ++ [version; flags] ++ be 4 9 ++ be 4 0.

(** E.4.3.1: kinds of frames and the ids of codecs. *)
Definition video_ids : list (list Z * Z) :=
  [(bs "JPEG", 1); (bs "H263", 2); (bs "ScreenVideo1", 3); (bs "VP6", 4); (bs "VP6Alpha", 5); (bs "ScreenVideo2", 6); (bs "H264", 7)].
Definition frame_kind (key disposable : bool) : Z := if disposable then 3 else if key then 1 else 2.
Definition video_body (id kind offset : Z) (data : list Z) : list Z := [kind * 16 + id] ++ (if id =? 7 then [1] ++ be 3 offset else []) ++ data.
(** E.4.2.1: formats, rates of sound. *)
Definition audio_ids : list (list Z * list Z) :=
  [(bs "ADPCM", [1]); (bs "MP3", [2; 14]); (bs "PCM", [3]); (bs "Nellymoser", [4; 5; 6]); (bs "ALAW", [7]); (bs "ULAW", [8]); (bs "AAC", [10]); (bs "Speex", [11])].
Definition rate_class (rate : Z) : Z := if rate <? 11025 then 0 else if rate <? 22050 then 1 else if rate <? 44100 then 2 else 3.
Definition audio_body (id rate size channels : Z) (data : list Z) : list Z :=
  [id * 16 + rate_class rate * 4 + (if size =? 8 then 0 else 2) + (if channels <=? 1 then 0 else 1)] ++ (if id =? 10 then [1] else []) ++ data.

(** Enhanced RTMP: the codecs of video and audio, and a coded frame: with a track, it is one track of many; time offsets are
    there for AVC and HEVC only, in frames of type 1; frames of type 3 have the offset 0. *)
Definition enhanced_codecs : list (list Z * list Z) :=
  [(bs "AV1", bs "av01"); (bs "VP8", bs "vp08"); (bs "VP9", bs "vp09"); (bs "HEVC", bs "hvc1"); (bs "H264", bs "avc1")].
Definition enhanced_audio : list (list Z * list Z) := [(bs "opus", bs "Opus"); (bs "FLAC", bs "fLaC"); (bs "AAC", bs "mp4a")].
Definition enhanced_frame (fourcc : list Z) (kind : Z) (track : option Z) (offset : Z) (data : list Z) : list Z :=
  match track with
  | None => [0x80 + kind * 16 + 1] ++ fourcc ++ be 3 offset ++ data
  | Some k => [0x80 + kind * 16 + 6; 1] ++ fourcc ++ [k] ++ be 3 offset ++ data
  end.
Definition enhanced_frame_x (fourcc : list Z) (kind : Z) (track : option Z) (data : list Z) : list Z :=
  match track with
  | None => [0x80 + kind * 16 + 3] ++ fourcc ++ data
  | Some k => [0x80 + kind * 16 + 6; 3] ++ fourcc ++ [k] ++ data
  end.
(** A video message: AVC alone has the older form. *)
Definition video_message (codec fourcc : list Z) (kind : Z) (track : option Z) (offset : Z) (data : list Z) : list Z :=
  match track with
  | None => if beqb codec (bs "H264") then video_body 7 kind offset data else if offset =? 0 then enhanced_frame_x fourcc kind None data else enhanced_frame fourcc kind None offset data
  | Some k => if offset =? 0 then enhanced_frame_x fourcc kind (Some k) data else enhanced_frame fourcc kind (Some k) offset data
  end.
(** The type of coded frames of audio, which a header of one track has in its lower bits. *)
Definition coded_frames : Z := 1.
