(** Model of /repo/lib/ebml.cpp (UniInt, Element, Block) and /repo/lib/ebml_socketglue.cpp.
    A [const char*] is the list of bytes from the pointer to the end of the memory it points
    into; [None] is a read beyond that end. *)
From Verif Require Import Common Bitfields_Model.

(** ** EBML::UniInt *)
(** lib/ebml.cpp:11-21 readSize, on the first byte. *)
Definition readSizeB (b : Z) : Z :=
  if negb ((b .& 128) =? 0) then 1 else if negb ((b .& 64) =? 0) then 2
  else if negb ((b .& 32) =? 0) then 3 else if negb ((b .& 16) =? 0) then 4
  else if negb ((b .& 8) =? 0) then 5 else if negb ((b .& 4) =? 0) then 6
  else if negb ((b .& 2) =? 0) then 7 else if negb ((b .& 1) =? 0) then 8 else 1.
Definition readSize (p : list Z) : option Z := b <- rd p 0;; Some (readSizeB b).
(** lib/ebml.cpp:24-34 writeSize. *)
Definition writeSize (val : Z) : Z :=
  if val <=? 0x7E then 1 else if val <=? 0x3FFE then 2 else if val <=? 0x1FFFFE then 3
  else if val <=? 0xFFFFFFE then 4 else if val <=? 0x7FFFFFFFE then 5
  else if val <=? 0x3FFFFFFFFFE then 6 else if val <=? 0x1FFFFFFFFFFFE then 7
  else if val <=? 0xFFFFFFFFFFFFFE then 8 else 0.
(** All ones: the value returned for an unknown size. *)
Definition UNKNOWN : Z := 18446744073709551615.
(** lib/ebml.cpp:38-53 readInt. *)
Definition readInt (p : list Z) : option Z :=
  n <- readSize p;;
  if len p <? n then None
  else Some (
    if n =? 1 then (if nthz p 0 =? 255 then UNKNOWN else nthz p 0 .& 127)
    else if n =? 2 then btohs p .& 0x3FFF
    else if n =? 3 then btoh24 p .& 0x1FFFFF
    else if n =? 4 then btohl p .& 0xFFFFFFF
    else if n =? 5 then btoh40 p .& 0x7FFFFFFFF
    else if n =? 6 then btoh48 p .& 0x3FFFFFFFFFF
    else if n =? 7 then btoh56 p .& 0x1FFFFFFFFFFFF
    else btohll p .& 0xFFFFFFFFFFFFFF).
(** lib/ebml.cpp:55-66 writeInt: the bytes stored. *)
Definition writeInt (val : Z) : list Z :=
  let n := writeSize val in
  if n =? 1 then [u8 (val .| 0x80)]
  else if n =? 2 then htobs (val .| 0x4000)
  else if n =? 3 then htob24 (val .| 0x200000)
  else if n =? 4 then htobl (val .| 0x10000000)
  else if n =? 5 then htob40 (val .| 0x800000000)
  else if n =? 6 then htob48 (val .| 0x40000000000)
  else if n =? 7 then htob56 (val .| 0x2000000000000)
  else if n =? 8 then htobll (val .| 0x100000000000000)
  else [].
(** lib/ebml.cpp:70-82 readSInt. *)
Definition readSInt (p : list Z) : option Z :=
  n <- readSize p;; v <- readInt p;;
  let v := s64 v in
  Some (if n =? 1 then v - 0x3F else if n =? 2 then v - 0x1FFF else if n =? 3 then v - 0xFFFFF
        else if n =? 4 then v - 0x7FFFFFF else if n =? 5 then v - 0x3FFFFFFFF
        else if n =? 6 then v - 0x1FFFFFFFFFF else if n =? 7 then v - 0xFFFFFFFFFFFF
        else v - 0x7FFFFFFFFFFFFF).

(** ** EBML::Element (the data pointer) *)
(** lib/ebml.cpp:231 *)
Definition getID (d : list Z) : option Z := v <- readInt d;; Some (u32 v).
(** lib/ebml.cpp:233-236 *)
Definition getPayloadLen (d : list Z) : option Z := n <- readSize d;; readInt (dropz n d).
(** lib/ebml.cpp:238-241 *)
Definition getHeaderLen (d : list Z) : option Z :=
  n <- readSize d;; m <- readSize (dropz n d);; Some (n + m).
(** lib/ebml.cpp:243 *)
Definition getPayload (d : list Z) : option (list Z) := h <- getHeaderLen d;; Some (dropz h d).
(** lib/ebml.cpp:245-252; [minimal] is minimalMode. 64 bit arithmetic. *)
Definition getOuterLen (minimal : bool) (d : list Z) : option Z :=
  n <- readSize d;; m <- readSize (dropz n d);; v <- readInt (dropz n d);;
  Some (if minimal && (v =? UNKNOWN) then n + m else u64 (v + n + m)).
(** lib/ebml.cpp:254-281: the identifiers of type ELEM_MASTER. *)
Definition masters : list Z :=
  [0x0A45DFA3; 0x08538067; 0x0F43B675; 0x014D9B74; 0x0549A966; 0x0654AE6B; 0xC53BB6B; 0xDBB; 0x2E;
   0x60; 0x61; 0x20; 0x3B; 0x37; 0x15B0; 0x254c367; 0x3373; 0x23C0; 0x43a770; 0x3a770; 0x941a469;
   0x21A7; 0x5B9; 0x36; 0x0; 0x27C8].
Definition is_master (id : Z) : bool := existsb (Z.eqb id) masters.
(** lib/ebml.cpp:90-102 needBytes(p, availBytes, minimal). *)
Definition needBytes (p : list Z) (avail : Z) (minimal : bool) : option Z :=
  if avail <? 2 then Some 2
  else
    n <- readSize p;;
    if avail <? n + 1 then Some (n + 1)
    else
      m <- readSize (dropz n p);;
      let needed := n + m in
      if avail <? needed then Some needed
      else
        id <- getID p;;
        if minimal && is_master id then Some needed
        else
          v <- readInt (dropz n p);;
          Some (if v =? UNKNOWN then needed else u64 (needed + v)).

(** Result of findChild: the element found, none, or undefined behaviour; [Fuel] is only there to
    make the recursion structural. *)
Inductive found := Found (d : list Z) | NotFound | Oob | Fuel.
(** lib/ebml.cpp:358-379 findChild (elements made by it are never minimal). *)
Fixpoint findChild (fuel : nat) (minimal : bool) (d : list Z) (id : Z) {struct fuel} : found :=
  match fuel with
  | O => Fuel
  | S k =>
      match getID d with
      | None => Oob
      | Some i =>
          if i =? id then Found d
          else if negb (is_master i) then NotFound
          else if minimal then NotFound
          else
            match getPayloadLen d, getPayload d with
            | Some payLen, Some payDat => find_loop k payDat payLen 0 id
            | _, _ => Oob
            end
      end
  end
(** lib/ebml.cpp:367-378: the loop. *)
with find_loop (fuel : nat) (payDat : list Z) (payLen offset id : Z) {struct fuel} : found :=
  match fuel with
  | O => Fuel
  | S k =>
      if offset <? payLen then
        match needBytes (dropz offset payDat) (payLen - offset) false with
        | None => Oob
        | Some nb =>
            if nb >? payLen - offset then NotFound
            else
              match findChild k false (dropz offset payDat) id with
              | NotFound =>
                  match getOuterLen false (dropz offset payDat) with
                  | None => Oob
                  | Some o => find_loop k payDat payLen (u64 (offset + o)) id
                  end
              | r => r
              end
        end
      else NotFound
  end.

(** lib/ebml.cpp:468-484 getValUInt. *)
Definition getValUInt (d : list Z) : option Z :=
  p <- getPayload d;; n <- getPayloadLen d;;
  if 8 <? n then Some 0
  else if len p <? n then None
  else Some (if n =? 0 then 0 else if n =? 1 then nthz p 0 else if n =? 2 then btohs p
             else if n =? 3 then btoh24 p else if n =? 4 then btohl p else if n =? 5 then btoh40 p
             else if n =? 6 then btoh48 p else if n =? 7 then btoh56 p else btohll p).
(** (x << k) >> k on a 64 bit signed integer, with [n] = 64 - k significant bits: sign extension. *)
Definition sext (n v : Z) : Z := if v <? 2 ^ (n - 1) then v else v - 2 ^ n.
(** lib/ebml.cpp:486-502 getValInt. *)
Definition getValInt (d : list Z) : option Z :=
  p <- getPayload d;; n <- getPayloadLen d;;
  if 8 <? n then Some 0
  else if len p <? n then None
  else Some (if n =? 0 then 0 else if n =? 1 then sext 8 (nthz p 0) else if n =? 2 then sext 16 (btohs p)
             else if n =? 3 then sext 24 (btoh24 p) else if n =? 4 then sext 32 (btohl p)
             else if n =? 5 then sext 40 (btoh40 p) else if n =? 6 then sext 48 (btoh48 p)
             else if n =? 7 then sext 56 (btoh56 p) else sext 64 (btohll p)).
(** lib/ebml.cpp:525: strips trailing NUL bytes (head of the reversed list). *)
Fixpoint strip0 (l : list Z) : list Z :=
  match l with x :: r => if x =? 0 then strip0 r else l | [] => [] end.
(** lib/ebml.cpp:528-532 getValStringUntrimmed and 521-526 getValString. *)
Definition getValStringUntrimmed (d : list Z) : option (list Z) :=
  p <- getPayload d;; n <- getPayloadLen d;;
  if len p <? n then None else Some (takez n p).
Definition getValString (d : list Z) : option (list Z) :=
  s <- getValStringUntrimmed d;; Some (rev (strip0 (rev s))).

(** ** EBML::Block *)
(** lib/ebml.cpp:534 *)
Definition getTrackNum (d : list Z) : option Z := p <- getPayload d;; readInt p.
(** lib/ebml.cpp:536-538 *)
Definition getTimecode (d : list Z) : option Z :=
  p <- getPayload d;; n <- readSize p;;
  if len p <? n + 2 then None else Some (s16 (btohs (dropz n p))).
(** the flags byte, lib/ebml.cpp:540-552 *)
Definition flags (d : list Z) : option Z := p <- getPayload d;; n <- readSize p;; rd p (n + 2).
Definition isKeyframe (d : list Z) : option bool := f <- flags d;; Some (negb ((f .& 128) =? 0)).
Definition getLacing (d : list Z) : option Z := f <- flags d;; Some ((f .& 6) >> 1).
(** lib/ebml.cpp:554-557 getFrameCount, uint8_t. *)
Definition getFrameCount (d : list Z) : option Z :=
  l <- getLacing d;;
  if l =? 0 then Some 1
  else p <- getPayload d;; n <- readSize p;; b <- rd p (n + 3);; Some (u8 (b + 1)).

(** lib/ebml.cpp:571-581: Xiph size loop over the payload [p], from [offset]. Result: Left = the
    size found, Right = (offset, totSize) at the end of the loop. The fuel is the payload size. *)
Fixpoint xiph_size (fuel : nat) (p : list Z) (payLen frames no offset laceNo currSize totSize : Z) : option (Z + Z * Z) :=
  match fuel with
  | O => Some (inr (offset, totSize))
  | S k =>
      if (laceNo <=? no) && (laceNo <? frames - 1) && (offset <? payLen) then
        b <- rd p offset;;
        let currSize := u32 (currSize + b) in
        if negb (b =? 255) then
          let totSize := u32 (totSize + currSize) in
          if laceNo =? no then Some (inl currSize)
          else xiph_size k p payLen frames no (offset + 1) (laceNo + 1) 0 totSize
        else xiph_size k p payLen frames no (offset + 1) laceNo currSize totSize
      else Some (inr (offset, totSize))
  end.
(** lib/ebml.cpp:593-603: EBML size loop. *)
Fixpoint ebml_size (fuel : nat) (p : list Z) (payLen frames no offset laceNo currSize totSize : Z) : option (Z + Z * Z) :=
  match fuel with
  | O => Some (inr (offset, totSize))
  | S k =>
      if (laceNo <=? no) && (laceNo <? frames - 1) && (offset <? payLen) then
        v <- (if laceNo =? 0 then readInt (dropz offset p) else readSInt (dropz offset p));;
        let currSize := u32 (if laceNo =? 0 then v else currSize + v) in
        let totSize := u32 (totSize + currSize) in
        if laceNo =? no then Some (inl currSize)
        else
          n <- readSize (dropz offset p);;
          ebml_size k p payLen frames no (offset + n) (laceNo + 1) currSize totSize
      else Some (inr (offset, totSize))
  end.
(** What getFrameSize does after the loops, uint32_t. *)
Definition finish_size (payLen : Z) (r : Z + Z * Z) : Z :=
  match r with inl s => s | inr (offset, tot) => u32 (payLen - offset - tot) end.
(** lib/ebml.cpp:559-611 getFrameSize(no). [None] also stands for the division by zero at 608. *)
Definition getFrameSize (d : list Z) (no : Z) : option Z :=
  l <- getLacing d;; payLen <- getPayloadLen d;; p <- getPayload d;; n <- readSize p;;
  if l =? 0 then Some (u32 (payLen - (n + 3)))
  else
    frames <- getFrameCount d;;
    if l =? 1 then
      if no >? frames - 1 then Some 0
      else r <- xiph_size (Z.to_nat payLen) p payLen frames no (n + 3 + 1) 0 0 0;; Some (finish_size payLen r)
    else if l =? 3 then
      if no >? frames - 1 then Some 0
      else r <- ebml_size (Z.to_nat payLen) p payLen frames no (n + 3 + 1) 0 0 0;; Some (finish_size payLen r)
    else if frames =? 0 then None
    else Some (u32 ((payLen - (n + 3)) / frames)).

(** lib/ebml.cpp:625-629: Xiph data loop; result: offset and currSize. *)
Fixpoint xiph_data (fuel : nat) (p : list Z) (payLen frames no offset laceNo currSize : Z) : option (Z * Z) :=
  match fuel with
  | O => Some (offset, currSize)
  | S k =>
      if (laceNo <? frames - 1) && (offset <? payLen) then
        b <- rd p offset;;
        let currSize := if laceNo <? no then u32 (currSize + b) else currSize in
        let laceNo := if negb (b =? 255) then laceNo + 1 else laceNo in
        xiph_data k p payLen frames no (offset + 1) laceNo currSize
      else Some (offset, currSize)
  end.
(** lib/ebml.cpp:640-649: EBML data loop; result: offset and totSize. *)
Fixpoint ebml_data (fuel : nat) (p : list Z) (payLen frames no offset laceNo currSize totSize : Z) : option (Z * Z) :=
  match fuel with
  | O => Some (offset, totSize)
  | S k =>
      if (laceNo <? frames - 1) && (offset <? payLen) then
        v <- (if laceNo =? 0 then readInt (dropz offset p) else readSInt (dropz offset p));;
        let currSize := u32 (if laceNo =? 0 then v else currSize + v) in
        let totSize := if laceNo <? no then u32 (totSize + currSize) else totSize in
        n <- readSize (dropz offset p);;
        ebml_data k p payLen frames no (offset + n) (laceNo + 1) currSize totSize
      else Some (offset, totSize)
  end.
(** lib/ebml.cpp:613-657 getFrameData(no): the offset of the frame in the payload (the code
    returns payload + offset; the null pointer for an out of range number is offset 0 here). *)
Definition getFrameData (d : list Z) (no : Z) : option Z :=
  l <- getLacing d;; payLen <- getPayloadLen d;; p <- getPayload d;; n <- readSize p;;
  if l =? 0 then Some (n + 3)
  else
    frames <- getFrameCount d;;
    if l =? 1 then
      if no >? frames - 1 then Some 0
      else r <- xiph_data (Z.to_nat payLen) p payLen frames no (n + 3 + 1) 0 0;; Some (fst r + snd r)
    else if l =? 3 then
      if no >? frames - 1 then Some 0
      else r <- ebml_data (Z.to_nat payLen) p payLen frames no (n + 3 + 1) 0 0 0;; Some (fst r + snd r)
    else s <- getFrameSize d no;; Some (n + 3 + 1 + no * s).

(** ** Writers (lib/ebml_socketglue.cpp): the bytes sent *)
(** lines 7-16 *)
Definition sendUniInt (val : Z) : list Z := if writeSize val =? 0 then [255] else writeInt val.
(** lines 18-21 *)
Definition sizeElemHead (id size : Z) : Z :=
  let sLen := writeSize size in u32 (writeSize id + (if sLen =? 0 then 1 else sLen)).
(** lines 23-40 *)
Definition sizeUInt (val : Z) : Z :=
  if val >=? 0x100000000000000 then 8 else if val >=? 0x1000000000000 then 7
  else if val >=? 0x10000000000 then 6 else if val >=? 0x100000000 then 5
  else if val >=? 0x1000000 then 4 else if val >=? 0x10000 then 3
  else if val >=? 0x100 then 2 else 1.
(** lines 47-64 *)
Definition sizeInt (val : Z) : Z :=
  if (val >=? 0x100000000000000) || (val <=? -0x100000000000000) then 8
  else if (val >=? 0x1000000000000) || (val <=? -0x1000000000000) then 7
  else if (val >=? 0x10000000000) || (val <=? -0x10000000000) then 6
  else if (val >=? 0x100000000) || (val <=? -0x100000000) then 5
  else if (val >=? 0x1000000) || (val <=? -0x1000000) then 4
  else if (val >=? 0x10000) || (val <=? -0x10000) then 3
  else if (val >=? 0x100) || (val <=? -0x100) then 2 else 1.
(** lines 42-45, 66-74, 81-83 *)
Definition sizeElemUInt (id val : Z) : Z := let i := sizeUInt val in u32 (sizeElemHead id i + i).
Definition sizeElemInt (id val : Z) : Z := let i := sizeInt val in u32 (sizeElemHead id i + i).
Definition sizeElemID (id val : Z) : Z := let i := writeSize val in u32 (sizeElemHead id i + i).
Definition sizeElemStr (id : Z) (val : list Z) : Z := u32 (sizeElemHead id (len val) + len val).
(** lines 85-88 *)
Definition sendElemHead (id size : Z) : list Z := sendUniInt id ++ sendUniInt size.
(** lines 92-101 and 109-118: the same switch; a negative value is stored in two's complement. *)
Definition int_bytes (wSize val : Z) : list Z :=
  if wSize =? 8 then htobll val else if wSize =? 7 then htob56 val else if wSize =? 6 then htob48 val
  else if wSize =? 5 then htob40 val else if wSize =? 4 then htobl val else if wSize =? 3 then htob24 val
  else if wSize =? 2 then htobs val else [u8 val].
(** lines 90-105 *)
Definition sendElemUInt (id val : Z) : list Z :=
  let w := sizeUInt val in sendElemHead id w ++ int_bytes w val.
(** lines 107-122 *)
Definition sendElemInt (id val : Z) : list Z :=
  let w := sizeInt val in sendElemHead id w ++ int_bytes w val.
(** lines 124-128 *)
Definition sendElemID (id val : Z) : list Z := sendElemHead id (writeSize val) ++ sendUniInt val.
(** lines 141-144 *)
Definition sendElemStr (id : Z) (val : list Z) : list Z := sendElemHead id (len val) ++ val.
(** lines 76-79 and 130-139. A double is given as the bit pattern to send: [inl] if the value is
    exactly representable as a 32 bit float. *)
Definition sizeElemDbl (id : Z) (val : Z + Z) : Z :=
  let i := match val with inl _ => 4 | inr _ => 8 end in u32 (sizeElemHead id i + i).
Definition sendElemDbl (id : Z) (val : Z + Z) : list Z :=
  match val with
  | inl f => sendElemHead id 4 ++ htobf f
  | inr dbl => sendElemHead id 8 ++ htobd dbl
  end.
(** lines 146-160 *)
Definition sendElemEBML (doctype : list Z) : list Z :=
  sendElemHead 0x0A45DFA3 (27 + len doctype) ++
  sendElemUInt 0x286 1 ++ sendElemUInt 0x2F7 1 ++ sendElemUInt 0x2F2 4 ++ sendElemUInt 0x2F3 8 ++
  sendElemStr 0x282 doctype ++
  (if beqb doctype (bs "matroska") then sendElemUInt 0x287 4 ++ sendElemUInt 0x285 1
   else sendElemUInt 0x287 1 ++ sendElemUInt 0x285 1).
(** lines 182-184 *)
Definition sizeElemEBML (doctype : list Z) : Z :=
  u32 (27 + len doctype + sizeElemHead 0x0A45DFA3 (27 + len doctype)).
(** lines 162-180. [duration]: None if not positive. [date]: None if 0; overflow of the 64 bit
    multiplication is left out. After date -= ..., the second test "if (date)" looks at the
    converted date. *)
Definition info_len (appName : list Z) (duration : option (Z + Z)) (date : Z) : Z :=
  let contentLen := 13 + 2 * len appName in
  let contentLen := match duration with None => contentLen | Some v => contentLen + sizeElemDbl 0x489 v end in
  if date =? 0 then contentLen else contentLen + sizeElemInt 0x461 ((date - 978307200000) * 1000000).
Definition sendElemInfo (appName : list Z) (duration : option (Z + Z)) (date : Z) : list Z :=
  let date' := if date =? 0 then 0 else (date - 978307200000) * 1000000 in
  sendElemHead 0x0549A966 (info_len appName duration date) ++
  sendElemUInt 0xAD7B1 1000000 ++
  match duration with None => [] | Some v => sendElemDbl 0x489 v end ++
  (if date' =? 0 then [] else sendElemInt 0x461 date') ++
  sendElemStr 0xD80 appName ++ sendElemStr 0x1741 appName.
(** lines 186-197 *)
Definition sizeElemInfo (appName : list Z) (duration : option (Z + Z)) (date : Z) : Z :=
  let c := info_len appName duration date in u32 (c + sizeElemHead 0x0549A966 c).
(** lines 199-209 *)
Definition sendSimpleBlock (dat : list Z) (trackId time : Z) (keyFrame : bool) (clusterTime : Z) : list Z :=
  let blockSize := u32 (writeSize trackId + 3 + len dat) in
  sendElemHead 0x23 blockSize ++ sendUniInt trackId ++
  htobs (s16 (time - clusterTime)) ++ [if keyFrame then 0x80 else 0] ++ dat.
(** lines 211-214 *)
Definition sizeSimpleBlock (trackId dataSize : Z) : Z :=
  let ret := u32 (writeSize trackId + 3 + dataSize) in u32 (ret + sizeElemHead 0x23 ret).
(** lines 216-221 *)
Definition sendElemSeek (id bytePos : Z) : list Z :=
  let elems := u32 (sizeElemUInt 0x13AB id + sizeElemUInt 0x13AC bytePos) in
  sendElemHead 0xDBB elems ++ sendElemID 0x13AB id ++ sendElemUInt 0x13AC bytePos.
(** lines 223-226 *)
Definition sizeElemSeek (id bytePos : Z) : Z :=
  let elems := u32 (sizeElemID 0x13AB id + sizeElemUInt 0x13AC bytePos) in
  u32 (sizeElemHead 0xDBB elems + elems).
(** lines 228-242 *)
Definition sendElemCuePoint (time track clusterPos relaPos : Z) : list Z :=
  let elemsA := u32 (sizeElemUInt 0x77 track + sizeElemUInt 0x71 clusterPos + sizeElemUInt 0x70 relaPos) in
  let elemsB := u32 (elemsA + sizeElemUInt 0x33 time + sizeElemHead 0x37 elemsA) in
  sendElemHead 0x3B elemsB ++ sendElemUInt 0x33 time ++ sendElemHead 0x37 elemsA ++
  sendElemUInt 0x77 track ++ sendElemUInt 0x71 clusterPos ++ sendElemUInt 0x70 relaPos.
(** lines 244-252 *)
Definition sizeElemCuePoint (time track clusterPos relaPos : Z) : Z :=
  let elems := u32 (sizeElemUInt 0x77 track + sizeElemUInt 0x71 clusterPos + sizeElemUInt 0x70 relaPos) in
  let elems := u32 (elems + sizeElemHead 0x37 elems) in
  let elems := u32 (elems + sizeElemUInt 0x33 time) in
  u32 (sizeElemHead 0x3B elems + elems).
