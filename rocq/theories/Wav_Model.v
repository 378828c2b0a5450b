(** Model of WAV output and of RIFF chunks: /repo/src/output/output_wav.cpp, /repo/lib/riff.cpp, /repo/lib/riff.h. *)
From Verif Require Import Common Mem_Model.

(** What the header takes from the stream: codec, channels, rate, bytes per second, bits per sample, times in ms, sizes of keys. *)
Record wav := mkwav { w_live : bool; w_codec : list Z; w_channels : Z; w_rate : Z; w_bps : Z; w_size : Z; w_first : Z; w_last : Z; w_keys : list Z }.
(** riff.cpp:131-143 fmt::generate: every byte is written, so the writes are given as the list; [le] cuts to the size of the field,
    as the types of the parameters do. *)
Definition fmt_generate (format channels hz bps blocksize size : Z) : list Z :=
  bs "fmt " ++ [18; 0; 0; 0] ++ le 2 format ++ le 2 channels ++ le 4 hz ++ le 4 bps ++ le 2 blocksize ++ le 2 size ++ [0; 0].
(** riff.cpp:154-158 fact::generate *)
Definition fact_generate (samples : Z) : list Z := bs "fact" ++ [4; 0; 0; 0] ++ le 4 samples.
(** output_wav.cpp:88-92 *)
Definition format (codec : list Z) : Z :=
  if beqb codec (bs "MP3") then 85 else if beqb codec (bs "FLOAT") then 3 else if beqb codec (bs "PCM") then 1 else
  if beqb codec (bs "ULAW") then 7 else if beqb codec (bs "ALAW") then 6 else 0.
(** output_wav.cpp:77-83: uint32_t *)
Definition total_data (w : wav) : Z := if w_live w then 0xFFFFFFFF - 80 else fold_left (fun a k => u32 (a + k)) (w_keys w) 0.
(** output_wav.cpp:66-111 sendHeader, without the HTTP header *)
Definition sendHeader (w : wav) : list Z :=
  let f := format (w_codec w) in
  bs "RIFF" ++ le 4 (80 + total_data w) ++ bs "WAVE" ++
  fmt_generate f (w_channels w) (w_rate w) (w_bps w) (w_channels w * (w_size w << 3)) (w_size w) ++
  (if f =? 1 then [] else if w_live w then fact_generate 0xFFFFFFFF else fact_generate ((w_last w - w_first w) * w_rate w / 1000)) ++
  bs "LIST" ++ [22; 0; 0; 0] ++ bs "info" ++ bs "ISFT" ++ [10; 0; 0; 0] ++ bs "MistServer" ++
  bs "data" ++ le 4 (total_data w).
(** output_wav.cpp:45-57: the loops; [None] is a read past the data of the packet (and, if the buffer is not larger, a write past it). *)
Fixpoint swap2 (d : list Z) : option (list Z) :=
  match d with
  | [] => Some []
  | a :: b :: r => s <- swap2 r;; Some (b :: a :: s)
  | _ => None
  end.
Fixpoint swap3 (d : list Z) : option (list Z) :=
  match d with
  | [] => Some []
  | a :: b :: c :: r => s <- swap3 r;; Some (c :: b :: a :: s)
  | _ => None
  end.
(** output_wav.cpp:36-64 sendNext; [old] is what is in the buffer, which has at least the size of the packet. *)
Definition sendNext (codec : list Z) (size : Z) (old d : list Z) : option (list Z) :=
  if beqb codec (bs "PCM") && (8 <? size) then
    if size =? 16 then swap2 d else if size =? 24 then swap3 d else Some (takez (len d) old)
  else Some d.

(** *** Reading chunks: riff.h:20-23, riff.cpp:6-13.  A chunk is the bytes from its begin on; [None] is a read past what there is. *)
Definition payloadSize (p : list Z) : option Z := x <- peek p 4 4;; Some (unle x).
(** Is it taken as a chunk of a buffer of [n] bytes (uint32_t)? *)
Definition chunk_ok (p : list Z) (n : Z) : option bool := s <- payloadSize p;; Some (negb (negb (n =? 0) && (n <? u32 (s + 8)))).
(** riff.cpp:43-56 ListChunk::toPrettyString: the positions of chunks in a list that starts at the begin of [p]; [WEnd] with the
    positions, or no end within the fuel, or a read past the end. *)
Inductive walked := WEnd (l : list Z) | WMore | WOut.
Fixpoint walk (fuel : nat) (p : list Z) (n i : Z) : walked :=
  match fuel with
  | O => WMore
  | S k =>
    if u32 (i + 8) <=? n then
      match payloadSize (dropz i p) with
      | None => WOut
      | Some s => match walk k p n (u32 (i + u32 (s + 8))) with WEnd l => WEnd (i :: l) | r => r end
      end
    else WEnd []
  end.
Definition list_chunks (fuel : nat) (p : list Z) : walked :=
  match payloadSize p with None => WOut | Some s => walk fuel p (u32 (s + 8)) 12 end.
(** riff.cpp:58-116: the fields of a format chunk *)
Definition field (p : list Z) (at_ : Z) (n : Z) : option Z := x <- peek p at_ n;; Some (unle x).
Definition getFormat (p : list Z) := field p 8 2.
Definition getChannels (p : list Z) := field p 10 2.
Definition getHz (p : list Z) := field p 12 4.
Definition getBPS (p : list Z) := field p 16 4.
Definition getBlockSize (p : list Z) := field p 20 2.
Definition getSize (p : list Z) := field p 22 2.
Definition getExtLen (p : list Z) : option Z := s <- payloadSize p;; if s <? 18 then Some 0 else field p 24 2.
Definition getSamplesPerChannel (p : list Z) := field p 8 4.
