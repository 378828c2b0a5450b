(** Specification of RIFF and WAVE files (Microsoft, Multimedia Programming Interface and Data Specifications 1.0). *)
From Verif Require Import Common.

(** A chunk: its id, the size of what is in it, that, and a byte more if the size is odd. *)
Definition chunk (id payload : list Z) : list Z := id ++ le 4 (len payload) ++ payload ++ (if Z.odd (len payload) then [0] else []).
(** Formats of sound. *)
Definition wav_formats : list (list Z * Z) := [(bs "PCM", 1); (bs "FLOAT", 3); (bs "ALAW", 6); (bs "ULAW", 7); (bs "MP3", 85)].
(** What a format chunk says: format, channels, rate, bytes per second, bytes per sample of all channels, bits per sample. *)
Definition wav_format (f channels rate bps block bits : Z) : list Z :=
  chunk (bs "fmt ") (le 2 f ++ le 2 channels ++ le 4 rate ++ le 4 bps ++ le 2 block ++ le 2 bits ++ le 2 0).
Definition block_size (channels bits : Z) : Z := channels * bits / 8.
(** What is in a file, from its form type on; [fact]: samples per channel, that formats other than PCM must have. *)
Definition wave (fmt : list Z) (fact : option Z) (info data : list Z) : list Z :=
  bs "WAVE" ++ fmt ++ (match fact with None => [] | Some n => chunk (bs "fact") (le 4 n) end) ++ info ++ chunk (bs "data") data.
Definition info_list (type software : list Z) : list Z := chunk (bs "LIST") (type ++ chunk (bs "ISFT") software).
(** A list of chunks, one after the other, with the positions where they begin. *)
Fixpoint positions (i : Z) (l : list (list Z)) : list Z := match l with [] => [] | c :: l => i :: positions (i + len c) l end.
