(** Model of the RTP packets of /repo/lib/rtp.cpp: header fields, the H.264 and H.265 senders and
    the corresponding receivers.  A packet is the list of its bytes, [len] being maxDataLen.
    [None] is an access outside a buffer, or a loop that does not end. *)
From Verif Require Import Common Bitfields_Model Mem_Model.

(** ** Header fields, rtp.cpp:35-61 *)
Definition getVersion (d : list Z) : option Z := b <- rd d 0;; Some ((b >> 6) .& 0x3).
Definition getPadding (d : list Z) : option Z := b <- rd d 0;; Some ((b >> 5) .& 0x1).
Definition getExtension (d : list Z) : option Z := b <- rd d 0;; Some ((b >> 4) .& 0x1).
Definition getContribCount (d : list Z) : option Z := b <- rd d 0;; Some (b .& 0xE).
Definition getMarker (d : list Z) : option Z := b <- rd d 1;; Some ((b >> 7) .& 0x1).
Definition getPayloadType (d : list Z) : option Z := b <- rd d 1;; Some (b .& 0x7F).
Definition getSequence (d : list Z) : option Z := x <- peek d 2 2;; Some (btohs x).
Definition getTimeStamp (d : list Z) : option Z := x <- peek d 4 4;; Some (btohl x).
Definition getSSRC (d : list Z) : option Z := x <- peek d 8 4;; Some (btohl x).
Definition setTimestamp (d : list Z) (v : Z) : option (list Z) := poke d 4 (htobl v).
Definition setSequence (d : list Z) (v : Z) : option (list Z) := poke d 2 (htobs v).
Definition setSSRC (d : list Z) (v : Z) : option (list Z) := poke d 8 (htobl v).
Definition increaseSequence (d : list Z) : option (list Z) := s <- getSequence d;; setSequence d (s + 1).

(** rtp.cpp:20-24, getHsize. *)
Definition getHsize (d : list Z) : option Z :=
  cc <- getContribCount d;;
  x <- getExtension d;;
  let r := 12 + 4 * cc in
  if x =? 0 then Some r else l <- peek d (r + 2) 2;; Some (r + (1 + btohs l) * 4).
(** rtp.cpp:26-33, getPayloadSize, and 35, getPayload: the offset. *)
Definition getPayloadSize (d : list Z) : option Z :=
  h <- getHsize d;;
  p <- getPadding d;;
  pad <- (if p =? 0 then Some 0 else rd d (len d - 1));;
  if len d <=? h + pad then Some 0 else Some (len d - h - pad).
(** The payload as the receiver uses it. *)
Definition payload (d : list Z) : option (list Z) :=
  h <- getHsize d;; n <- getPayloadSize d;; if n =? 0 then Some [] else peek d h n.

(** rtp.cpp:713-732, the constructor for sending: [junk] is the uninitialised allocation, of
    12 + 4 * csrcCount + 2 + MAX_SEND bytes. *)
Definition MAX_SEND : Z := 1500 - 28.
Definition newPacket (junk : list Z) (pt seq ts ssrc csrcCount : Z) : option (list Z) :=
  d <- poke junk 0 [u8 ((2 << 6) .| (csrcCount .& 15)); u8 (pt .& 0x7F)];;
  d <- setSequence d (seq - 1);;
  d <- setTimestamp d ts;;
  setSSRC d ssrc.

(** ** Sending *)
(** The sender object: packet buffer and the two statistics. *)
Record sender := mksnd { sdata : list Z; sentPackets : Z; sentBytes : Z }.
(** Setting one byte of the buffer. *)
Definition setb (d : list Z) (i : Z) (f : Z -> Z) : option (list Z) := b <- rd d i;; poke d i [f b].
(** memcpy to data + [at_], callback with the first [at_ + n] bytes, then the statistics and
    increaseSequence (rtp.cpp:296-300 and 319-325). *)
Definition emit (s : sender) (d : list Z) (at_ : Z) (body : list Z) : option (list Z * sender) :=
  d <- poke d at_ body;;
  pkt <- peek d 0 (at_ + len body);;
  d' <- increaseSequence d;;
  Some (pkt, mksnd d' (u32 (sentPackets s + 1)) (u32 (sentBytes s + len pkt))).

(** rtp.cpp:307-326 (and 496-514 for H.265): the fragment loop; [skip] is the number of payload
    bytes that go into the fragment header (1 or 2), [hs] the header size, [mark] whether the
    last fragment gets the marker.  The fragment header ends at hs + skip + 1. *)
Fixpoint frag_loop (fuel : nat) (s : sender) (mem : list Z) (off hs skip sent plen sending ser : Z) (mark : bool)
  : option (list (list Z) * sender) :=
  if plen <=? sent then Some ([], s)
  else match fuel with
  | O => None
  | S k =>
    let ser := if sent =? 0 then ser .| 0x80 else ser .& 0x7F in
    let last := plen <=? u32 (sent + sending) in
    let ser := if last then ser .| 0x40 else ser in
    let sending := if last then plen - sent else sending in
    d <- (if last && mark then setb (sdata s) 1 (fun b => b .| 0x80) else Some (sdata s));;
    d <- poke d (hs + skip) [ser];;
    body <- peek mem (off + skip + sent) sending;;
    r <- emit s d (hs + skip + 1) body;;
    q <- frag_loop k (snd r) mem off hs skip (sent + sending) plen sending ser mark;;
    Some (fst r :: fst q, snd q)
  end.

(** rtp.cpp:281-328, sendH264: the NAL unit is the [plen] bytes at [off] of [mem].  getHsize is
    the same throughout: the first byte and a header extension are not written. *)
Definition sendH264 (s : sender) (mem : list Z) (off plen : Z) (lastOfAU : bool) : option (list (list Z) * sender) :=
  hs <- getHsize (sdata s);;
  p0 <- rd mem off;;
  if u32 (plen + hs + 2) <=? len (sdata s) then
    d <- setb (sdata s) 1 (fun b => b .& 0x7F);;
    d <- (if lastOfAU then setb d 1 (fun b => b .| 0x80) else Some d);;
    let ty := p0 .& 0x1F in
    d <- (if (ty <? 1) || (5 <? ty) then setb d 1 (fun b => b .& 0x7F) else Some d);;
    body <- peek mem off plen;;
    r <- emit s d hs body;;
    Some ([fst r], snd r)
  else
    d <- setb (sdata s) 1 (fun b => b .& 0x7F);;
    d <- poke d hs [(p0 .& 0xE0) .| 0x1C];;
    frag_loop (S (Z.to_nat plen)) (mksnd d (sentPackets s) (sentBytes s)) mem off hs 1 0 plen
              (u32 (len (sdata s) - hs - 2)) (p0 .& 0x1F) lastOfAU.
(** rtp.cpp:478-517, sendH265. *)
Definition sendH265 (s : sender) (mem : list Z) (off plen : Z) : option (list (list Z) * sender) :=
  hs <- getHsize (sdata s);;
  if u32 (plen + hs + 3) <=? len (sdata s) then
    d <- setb (sdata s) 1 (fun b => b .| 0x80);;
    body <- peek mem off plen;;
    r <- emit s d hs body;;
    Some ([fst r], snd r)
  else
    p0 <- rd mem off;;
    p1 <- rd mem (off + 1);;
    d <- setb (sdata s) 1 (fun b => b .& 0x7F);;
    d <- poke d hs [(p0 .& 0x81) .| 0x62; p1];;
    frag_loop (S (Z.to_nat plen)) (mksnd d (sentPackets s) (sentBytes s)) mem off hs 2 0 plen
              (u32 (len (sdata s) - hs - 3)) ((p0 .& 0x7E) >> 1) true.

(** rtp.cpp:568-592, sendData for H.264: [pl] is the frame, NAL units with four byte lengths.
    The length is read through a pointer to unsigned long, that is eight bytes are read.  [prev]
    is the delayed unit (lastPtr, lastLen). *)
Fixpoint h264_frame (fuel : nat) (s : sender) (pl : list Z) (sent : Z) (prev : option (Z * Z)) : option (list (list Z) * sender) :=
  match fuel with
  | O => None
  | S k =>
    if sent <? len pl then
      w <- peek pl sent 8;;
      let n := btohl w in
      t <- rd pl (sent + 4);;
      if negb ((t .& 0x1F) =? 12) then
        r <- match prev with
             | Some (o, l) => sendH264 s pl o l false
             | None => Some ([], s)
             end;;
        q <- h264_frame k (snd r) pl (sent + n + 4) (Some (sent + 4, n));;
        Some (fst r ++ fst q, snd q)
      else h264_frame k s pl (sent + n + 4) prev
    else
      match prev with
      | Some (o, l) => sendH264 s pl o l true
      | None => Some ([], s)
      end
  end.
Definition sendData_H264 (s : sender) (pl : list Z) : option (list (list Z) * sender) :=
  h264_frame (S (List.length pl)) s pl 0 None.

(** ** Receiving *)
(** rtp.cpp:1288-1373, handleH264 without padding.  [fua] is fuaBuffer; the result lists the
    buffers handed to handleH264Single (with their length prefix), the key frame flag and the time
    being left out. *)
(** rtp.cpp:1316-1328: the units of an aggregation packet. *)
Fixpoint stap_loop (fuel : nat) (pl : list Z) (pos : Z) : option (list (list Z)) :=
  match fuel with
  | O => None
  | S k =>
    if pos + 1 <? len pl then
      w <- peek pl pos 2;;
      let n := btohs w in
      body <- peek pl (pos + 2) n;;
      r <- stap_loop k pl (pos + 2 + n);;
      Some ((htobl n ++ body) :: r)
    else Some []
  end.
(** rtp.cpp:1504-1521, handleH264Multi. [i] counts up; [buf] is modified by the length prefixes. *)
Fixpoint multi_loop (n : nat) (buf : list Z) (i lastStart : Z) : option (list (list Z)) :=
  match n with
  | O =>
    b <- poke buf lastStart (htobl (len buf - lastStart - 4));;
    x <- peek b lastStart (len buf - lastStart);;
    Some [x]
  | S k =>
    w <- peek buf i 4;;
    if beqb w [0; 0; 0; 1] then
      b <- poke buf lastStart (htobl (i - lastStart - 1 - 4));;
      x <- peek b lastStart (i - lastStart - 1);;
      r <- multi_loop k b (i + 1) i;;
      Some (x :: r)
    else multi_loop k buf (i + 1) lastStart
  end.
Definition handleH264Multi (buf : list Z) : option (list (list Z)) :=
  multi_loop (Z.to_nat (len buf - 4)) buf 0 0.
Definition handleH264 (fua pl : list Z) (missed : bool) : option (list (list Z) * list Z) :=
  if len pl =? 0 then Some ([], fua)
  else
    p0 <- rd pl 0;;
    let ty := p0 .& 0x1F in
    if ty =? 0 then Some ([], fua)
    else if ty <? 24 then Some ([htobl (len pl) ++ pl], fua)
    else if ty =? 24 then r <- stap_loop (S (List.length pl)) pl 1;; Some (r, fua)
    else if ty =? 28 then
      p1 <- rd pl 1;;
      if (len fua =? 0) && ((p1 .& 0x80) =? 0) then Some ([], fua)
      else if negb (len fua =? 0) && (negb ((p1 .& 0x80) =? 0) || missed) then Some ([], [])
      else
        let fua :=
          if len fua =? 0 then [0; 0; 0; 0; (p1 .& 0x1F) .| (p0 .& 0xE0)] ++ dropz 2 pl
          else fua ++ dropz 2 pl in
        if negb ((p1 .& 0x40) =? 0) then
          h <- rd fua 4;;
          let nt := h .& 0x1F in
          if (nt =? 7) || (nt =? 8) then r <- handleH264Multi fua;; Some (r, [])
          else b <- poke fua 0 (htobl (len fua - 4));; Some ([b], [])
        else Some ([], fua)
    else Some ([], fua).
(** rtp.cpp:1156-1222, handleHEVC. *)
Fixpoint ap_loop (fuel : nat) (pl : list Z) (pos : Z) : option (list (list Z)) :=
  match fuel with
  | O => None
  | S k =>
    if pos + 2 <? len pl then
      w <- peek pl pos 2;;
      let n := btohs w in
      body <- peek pl (pos + 2) n;;
      r <- ap_loop k pl (pos + 2 + n);;
      Some ((htobl n ++ body) :: r)
    else Some []
  end.
Definition handleHEVC (fua pl : list Z) (missed : bool) : option (list (list Z) * list Z) :=
  if len pl <? 2 then Some ([], fua)
  else
    p0 <- rd pl 0;;
    p1 <- rd pl 1;;
    let ty := (p0 .& 0x7E) >> 1 in
    if ty =? 48 then r <- ap_loop (S (List.length pl)) pl 2;; Some (r, fua)
    else if ty =? 49 then
      p2 <- rd pl 2;;
      if (len fua =? 0) && ((p2 .& 0x80) =? 0) then Some ([], fua)
      else if negb (len fua =? 0) && (negb ((p2 .& 0x80) =? 0) || missed) then
        b <- poke fua 0 (htobl (len fua - 4));;
        b <- setb b 4 (fun x => x .| 0x80);;
        Some ([b], [])
      else
        let fua :=
          if len fua =? 0 then [0; 0; 0; 0; ((p2 .& 0x3F) << 1) .| (p0 .& 0x81); p1] ++ dropz 3 pl
          else fua ++ dropz 3 pl in
        if negb ((p2 .& 0x40) =? 0) then b <- poke fua 0 (htobl (len fua - 4));; Some ([b], [])
        else Some ([], fua)
    else if ty =? 50 then Some ([], fua)
    else Some ([htobl (len pl) ++ pl], fua).

(** rtp.cpp:1004-1050, addRTP: the sequence check and the dispatch.  The comparison is between
    unsigned int and int.  RTCP packets (payload types 72-76) are ignored.  The time computation
    is in RtpTime_Model.v. *)
Record rtprecv := mkrecv { fuaBuffer : list Z; lastSeq : Z }.
Definition addRTP (hevc : bool) (r : rtprecv) (pkt : list Z) : option (list (list Z) * rtprecv) :=
  pt <- getPayloadType pkt;;
  if (72 <=? pt) && (pt <=? 76) then Some ([], r)
  else
    seq <- getSequence pkt;;
    pl <- payload pkt;;
    let missed := negb (lastSeq r =? u32 (seq - 1)) in
    x <- (if hevc then handleHEVC else handleH264) (fuaBuffer r) pl missed;;
    Some (fst x, mkrecv (snd x) seq).
Fixpoint addRTPs (hevc : bool) (r : rtprecv) (pkts : list (list Z)) : option (list (list Z) * rtprecv) :=
  match pkts with
  | [] => Some ([], r)
  | p :: t => a <- addRTP hevc r p;; b <- addRTPs hevc (snd a) t;; Some (fst a ++ fst b, snd b)
  end.
