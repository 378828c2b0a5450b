(** A small reader of fragmented files (ISO 14496-12, 8.8), independent of the writer: what a player makes of a segment. *)
From Verif Require Import Common Meta_Model Meta_Spec MetaFind_Spec.

(** Boxes one after the other: type and payload. *)
Fixpoint boxes (fuel : nat) (l : list Z) : option (list (list Z * list Z)) :=
  match fuel with
  | O => None
  | S k =>
      if len l =? 0 then Some [] else
      let n := unbe (takez 4 l) in
      if (len l <? 8) || (n <? 8) || (len l <? n) then None else
      r <- boxes k (dropz n l);; Some ((takez 4 (dropz 4 l), takez (n - 8) (dropz 8 l)) :: r)
  end.
Definition inside (l : list Z) : option (list (list Z * list Z)) := boxes (S (List.length l)) l.
Fixpoint find (ty : list Z) (l : list (list Z * list Z)) : option (list Z) :=
  match l with [] => None | (t, p) :: r => if beqb t ty then Some p else find ty r end.
(** The number of [n] bytes at [i]. *)
Definition num (l : list Z) (i n : Z) : option Z := if i + n <=? len l then Some (unbe (takez n (dropz i l))) else None.
Definition flag (f m : Z) : bool := negb (Z.land f m =? 0).
(** A number of four bytes that is only there if the flag is set. *)
Definition opt (f m : Z) (l : list Z) (default : Z) : option (Z * list Z) :=
  if flag f m then v <- num l 0 4;; Some (v, dropz 4 l) else Some (default, l).
(** The table of a run: duration, size, flags, offset of each sample. *)
Fixpoint table (n : nat) (f : Z) (first later : Z) (l : list Z) : option (list (Z * Z * Z * Z)) :=
  match n with
  | O => Some []
  | S k =>
      d <- opt f 0x100 l 0;; s <- opt f 0x200 (snd d) 0;; g <- opt f 0x400 (snd s) first;; o <- opt f 0x800 (snd g) 0;;
      r <- table k f later later (snd o);; Some ((fst d, fst s, fst g, fst o) :: r)
  end.
(** A sample as played: decoding time, duration, composition offset, whether one can start with it, its bytes. *)
Record sample := mksample { sm_time : Z; sm_dur : Z; sm_cts : Z; sm_sync : bool; sm_data : list Z }.
Fixpoint place (time pos : Z) (file : list Z) (l : list (Z * Z * Z * Z)) : option (list sample) :=
  match l with
  | [] => Some []
  | (d, s, g, o) :: r =>
      if (pos <? 0) || (len file <? pos + s) then None else
      q <- place (time + d) (pos + s) file r;; Some (mksample time d o (negb (flag g 0x10000)) (takez s (dropz pos file)) :: q)
  end.
(** A segment: one moof with one track and one run, and the data.  Offsets count from the start of the moof; durations and
    sizes are in the run; composition offsets are not negative (version 0 of the run). *)
Definition play (file : list Z) : option (Z * list sample) :=
  top <- inside file;; moof <- find (bs "moof") top;; _ <- find (bs "mdat") top;;
  m <- inside moof;; traf <- find (bs "traf") m;; t <- inside traf;;
  hd <- find (bs "tfhd") t;; dt <- find (bs "tfdt") t;; run <- find (bs "trun") t;;
  hf <- num hd 1 3;; id <- num hd 4 4;;
  if negb (flag hf 0x020000) then None else
  base <- opt hf 1 (dropz 8 hd) 0;; desc <- opt hf 2 (snd base) 0;; dd <- opt hf 8 (snd desc) 0;; ds <- opt hf 16 (snd dd) 0;; df <- opt hf 32 (snd ds) 0;;
  ver <- num dt 0 1;; time <- (if ver =? 1 then num dt 4 8 else num dt 4 4);;
  rv <- num run 0 1;; f <- num run 1 3;; n <- num run 4 4;;
  off <- opt f 1 (dropz 8 run) 0;; ff <- opt f 4 (snd off) (fst df);;
  if negb (rv =? 0) || negb (flag f 0x100) || negb (flag f 0x200) then None else
  l <- table (Z.to_nat n) f (fst ff) (fst df) (snd ff);;
  s <- place time (fst off) file l;; Some (id, s).

(** What should be played: the packets with their data, the first at [base], each until the next begins, the last until
    [until]; on video one can start with the first only. *)
Fixpoint shown (video first : bool) (base from until : Z) (l : list (packet * list Z)) : list sample :=
  match l with
  | [] => []
  | (p, d) :: r =>
      mksample (base + (p_time p - from)) (match r with (q, _) :: _ => p_time q - p_time p | [] => until - p_time p end) (p_off p) (first || negb video) d
      :: shown video false base from until r
  end.
(** No two packets have the same time. *)
Definition distinct (ps : list packet) : Prop := forall i j, 0 <= i < j -> j < len ps -> time_at ps i < time_at ps j.
