(** Specification of FLAC frame headers (RFC 9639, 9.1) and stream information (8.2). *)
From Verif Require Import Common.

(** Numbers of up to 36 bits are coded like UTF-8: how many bytes follow the first one, and their 6 bits each. *)
Definition following (n : Z) : nat :=
  if n <? 2 ^ 7 then 0 else if n <? 2 ^ 11 then 1 else if n <? 2 ^ 16 then 2 else if n <? 2 ^ 21 then 3 else if n <? 2 ^ 26 then 4 else if n <? 2 ^ 31 then 5 else 6.
Fixpoint sixes (k : nat) (n : Z) : list Z := match k with O => [] | S j => (128 + n / 64 ^ Z.of_nat j mod 64) :: sixes j n end.
Definition coded (n : Z) : list Z :=
  match following n with O => [n] | k => (256 - 2 ^ (7 - Z.of_nat k) + n / 64 ^ Z.of_nat k) :: sixes k n end.
(** A frame header: do blocks vary in size; codes of block size, rate, channels, sample size; the frame number. *)
Record header := mkheader { varies : bool; h_block : Z; h_rate : Z; h_channels : Z; h_size : Z; h_number : Z }.
Definition header_ok (h : header) : Prop :=
  0 <= h_block h < 16 /\ 0 <= h_rate h < 16 /\ 0 <= h_channels h < 16 /\ 0 <= h_size h < 8 /\ 0 <= h_number h < 2 ^ 36.
Definition bytes (h : header) : list Z :=
  [255; 248 + (if varies h then 1 else 0); h_block h * 16 + h_rate h; h_channels h * 16 + h_size h * 2] ++ coded (h_number h).
(** What the codes mean; [None]: reserved, or to be found elsewhere. *)
Definition block_size (c : Z) : option Z :=
  if c =? 1 then Some 192 else if (2 <=? c) && (c <=? 5) then Some (144 * 2 ^ c) else if (8 <=? c) && (c <=? 15) then Some (2 ^ c) else None.
Definition sample_rate (c : Z) : option Z :=
  match c with
  | 1 => Some 88200 | 2 => Some 176400 | 3 => Some 192000 | 4 => Some 8000 | 5 => Some 16000 | 6 => Some 22050 | 7 => Some 24000
  | 8 => Some 32000 | 9 => Some 44100 | 10 => Some 48000 | 11 => Some 96000 | _ => None
  end.
Definition channel_count (c : Z) : option Z := if (0 <=? c) && (c <=? 7) then Some (c + 1) else if (8 <=? c) && (c <=? 10) then Some 2 else None.
Definition sample_size (c : Z) : option Z := match c with 1 => Some 8 | 2 => Some 12 | 4 => Some 16 | 5 => Some 20 | 6 => Some 24 | 7 => Some 32 | _ => None end.

(** Stream information: rate, channels, sample size and number of samples have 20, 3, 5 and 36 bits. *)
Record info := mkinfo { min_block : Z; max_block : Z; min_frame : Z; max_frame : Z; i_rate : Z; i_channels : Z; i_bits : Z; i_samples : Z; md5 : list Z }.
Definition info_ok (i : info) : Prop :=
  0 <= min_block i < 2 ^ 16 /\ 0 <= max_block i < 2 ^ 16 /\ 0 <= min_frame i < 2 ^ 24 /\ 0 <= max_frame i < 2 ^ 24 /\
  0 <= i_rate i < 2 ^ 20 /\ 1 <= i_channels i <= 8 /\ 1 <= i_bits i <= 32 /\ 0 <= i_samples i < 2 ^ 36 /\ len (md5 i) = 16.
Definition content (i : info) : list Z :=
  be 2 (min_block i) ++ be 2 (max_block i) ++ be 3 (min_frame i) ++ be 3 (max_frame i) ++
  be 8 (((i_rate i * 2 ^ 3 + (i_channels i - 1)) * 2 ^ 5 + (i_bits i - 1)) * 2 ^ 36 + i_samples i) ++ md5 i.
(** A block: is it the last one, its type (0), its size. *)
Definition block (last : bool) (i : info) : list Z := [if last then 128 else 0] ++ be 3 (len (content i)) ++ content i.
