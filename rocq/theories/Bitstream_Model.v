(** Model of /repo/lib/bitstream.cpp and bitstream.h: bitWriter and bitstream (MSB first), and
    bitstreamLSBF. *)
From Verif Require Import Common Bitfields_Model.

(** ** Utils::bitWriter (lib/bitstream.h:53-70): [wp] is the ResizeablePointer p. *)
Record bw := mkbw { wp : list Z; wn : Z (* bitSize *) }.
(** lib/bitstream.cpp:146 *)
Definition bw_new : bw := mkbw [] 0.

(** lib/bitstream.cpp:172: p[bitSize / 8 + i] |= buf[i] for i < adjustableBytes. *)
Fixpoint or_loop (p : list Z) (k : Z) (buf : list Z) : list Z :=
  match buf with
  | [] => p
  | b :: r => or_loop (splice p k [nthz p k .| b]) (k + 1) r
  end.

(** lib/bitstream.cpp:154-175 bitWriter::append(val, bitLength). [None]: undefined behaviour, that
    is a shift by 64 (bitLength 0 at a byte boundary) or by a negative amount and reads beyond
    buf[9] (more than 72 bits from the start of the first touched byte).
    buf[8] is only used, and then freshly written, if bitShift < 0. *)
Definition bw_append (w : bw) (val bitLength : Z) : option bw :=
  let val := u64 val in
  let off := wn w mod 8 in
  let byteLength := u32 ((wn w + bitLength) / 8 + 1) in
  let p := wp w ++ repeat 0 (Z.to_nat (byteLength - len (wp w))) in
  let bitShift := (64 - bitLength) - off in
  if (64 <=? bitShift) || (bitShift <? -8) then None
  else
    let buf := if 0 <=? bitShift then htobll (val << bitShift)
               else htobll (val >> (- bitShift)) ++ [(val << (8 + bitShift)) .& 255] in
    let adjustableBits := off + bitLength in
    let adjustableBytes := adjustableBits / 8 + (if adjustableBits mod 8 =? 0 then 0 else 1) in
    Some (mkbw (or_loop p (wn w / 8) (takez adjustableBytes buf)) (wn w + bitLength)).

(** lib/bitstream.h:62 str(). *)
Definition bw_str (w : bw) : list Z :=
  takez (wn w / 8 + (if wn w mod 8 =? 0 then 0 else 1)) (wp w).

(** lib/bitstream.cpp:186-189: the loop; it ends because maxVal doubles up to 2^64 - 1. *)
Fixpoint ue_size_loop (fuel : nat) (value maxVal res : Z) : Z :=
  match fuel with
  | O => res
  | S k => if value >? maxVal then ue_size_loop k value (u64 ((maxVal << 1) .| 1)) (res + 1) else res
  end.
(** lib/bitstream.cpp:182-191 UExpGolombEncodedSize. *)
Definition ue_size (value : Z) : Z := 2 * ue_size_loop 64 (u64 (value + 1)) 1 1 - 1.
(** lib/bitstream.cpp:202-204 appendUExpGolomb. *)
Definition bw_append_ue (w : bw) (value : Z) : option bw := bw_append w (u64 (value + 1)) (ue_size value).
(** lib/bitstream.cpp:193-200 appendExpGolomb. Signed overflow (|value| >= 2^62) is not modelled. *)
Definition bw_append_se (w : bw) (value : Z) : option bw :=
  let value := if value <? 0 then value * -2 else if value >? 0 then value * 2 - 1 else value in
  bw_append_ue w (u64 value).

(** ** Utils::bitstream (lib/bitstream.h:7-51): [rdat] is data[0..dataSize), [roff] the offset. *)
Record br := mkbr { rdat : list Z; roff : Z }.
(** lib/bitstream.cpp:105 size(). *)
Definition br_size (r : br) : Z := len (rdat r) * 8 - roff r.
(** lib/bitstream.cpp:34-39 append (allocation succeeds). *)
Definition br_append (r : br) (l : list Z) : br := mkbr (rdat r ++ l) (roff r).
(** lib/bitstream.cpp:43-46 peekOffset (callers check the range). *)
Definition br_peekOffset (r : br) (o : Z) : bool :=
  let o := o + roff r in negb (((nthz (rdat r) (o >> 3) >> (7 - (o .& 7))) .& 1) =? 0).
(** lib/bitstream.cpp:62-82: the loop of peek; every iteration reads at least one bit. *)
Fixpoint br_peek_loop (fuel : nat) (r : br) (count curPlace retval : Z) : Z :=
  match fuel with
  | O => retval
  | S k =>
      if curPlace <? count then
        let readBuff := nthz (rdat r) ((roff r + curPlace) / 8) in
        let readOff := (roff r + curPlace) mod 8 in
        let readSize := if readOff =? 0 then 8 else 8 - readOff in
        let readBuff := if readOff =? 0 then readBuff else readBuff .& ((1 << readSize) - 1) in
        let cut := count - curPlace <? readSize in
        let readSize' := if cut then count - curPlace else readSize in
        let readBuff' := if cut then readBuff >> (8 - readSize' - readOff) else readBuff in
        br_peek_loop k r count (curPlace + readSize') (u64 (u64 (retval << readSize') + readBuff'))
      else retval
  end.
(** lib/bitstream.cpp:48-84 peek. *)
Definition br_peek (r : br) (count : Z) : Z :=
  if count >? br_size r then 0 else br_peek_loop (Z.to_nat count) r count 0 0.
(** lib/bitstream.cpp:97-103 skip. *)
Definition br_skip (r : br) (count : Z) : br :=
  if count <=? br_size r then mkbr (rdat r) (roff r + count) else mkbr (rdat r) (len (rdat r) * 8).
(** lib/bitstream.cpp:86-95 get. *)
Definition br_get (r : br) (count : Z) : Z * br :=
  if count <=? br_size r then (br_peek r count, br_skip r count) else (0, r).
(** lib/bitstream.cpp:112-116 flush. *)
Definition br_flush (r : br) : br := mkbr (dropz (roff r / 8) (rdat r)) (roff r mod 8).
(** lib/bitstream.cpp:125-130 golombGetter: i counts from 0 while i < 64 && i < size(). *)
Fixpoint golomb_loop (fuel : nat) (r : br) (i : Z) : Z * br :=
  match fuel with
  | O => (0, r)
  | S k =>
      if i <? br_size r then
        if br_peekOffset r i then br_get r (i * 2 + 1) else golomb_loop k r (i + 1)
      else (0, r)
  end.
Definition golombGetter (r : br) : Z * br := golomb_loop 64 r 0.
(** lib/bitstream.cpp:137 getUExpGolomb. *)
Definition br_get_ue (r : br) : Z * br := let (t, r') := golombGetter r in (u64 (t - 1), r').
(** lib/bitstream.cpp:132-135 getExpGolomb: unsigned arithmetic, then conversion to signed. *)
Definition br_get_se (r : br) : Z * br :=
  let (t, r') := golombGetter r in (s64 ((t >> 1) * (1 - ((t .& 1) << 1))), r').

(** ** Utils::bitstreamLSBF (lib/bitstream.h:72-92). *)
Record lsb := mklsb { ldat : list Z; lbuf : Z; loff : Z }.
(** lib/bitstream.cpp:254-262 fixData. The loop tests data.size() != 0, which does not change in
    the loop, and reads data[pos]: [None] when pos passes the end (reading data[size()] gives the
    terminating 0 and is still defined; beyond that is undefined). *)
Fixpoint lsb_fix_loop (fuel : nat) (dat : list Z) (pos buf off : Z) : option (Z * Z * Z) :=
  match fuel with
  | O => Some (pos, buf, off)
  | S k =>
      if (off <=? 32) && negb (len dat =? 0) then
        if pos <=? len dat then
          lsb_fix_loop k dat (pos + 1) (u64 (buf .| u64 ((if pos =? len dat then 0 else nthz dat pos) << off))) (off + 8)
        else None
      else Some (pos, buf, off)
  end.
Definition lsb_fix (s : lsb) : option lsb :=
  match lsb_fix_loop 5 (ldat s) 0 (lbuf s) (loff s) with
  | None => None
  | Some (pos, buf, off) => Some (mklsb (dropz pos (ldat s)) buf off)
  end.
(** lib/bitstream.cpp:212-220 append. *)
Definition lsb_append (s : lsb) (l : list Z) : option lsb := lsb_fix (mklsb (ldat s ++ l) (lbuf s) (loff s)).
(** lib/bitstream.cpp:222 size(). *)
Definition lsb_size (s : lsb) : Z := len (ldat s) * 8 + loff s.
