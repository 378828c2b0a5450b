(** Model of the forward error correction of transport streams over RTP (Pro-MPEG), /repo/lib/rtp.cpp:65-279.
    [None] is an access outside a buffer or of a null pointer. *)
From Verif Require Import Common Bitfields_Model Mem_Model Rtp_Model.

(** rtp.h:22-27 FecData.  The bitstring has four more bytes that are never used. *)
Record fecdata := mkfd { fd_seq : Z; fd_ts : Z; fd_bits : list Z }.
(** rtp.h:29-47 FEC; [f_len] is lengthRecovery, None while needsInit. *)
Record fec := mkfec { f_rows : Z; f_cols : Z; f_len : option Z; f_first : bool; f_index : Z; f_colSN : Z; f_rowSN : Z;
                      f_row : option fecdata; f_col : Z -> option fecdata }.
(** rtp.cpp:65-84 configureFEC: rows and columns are uint8_t. *)
Definition configureFEC (rows columns : Z) : option fec :=
  if (rows <? 4) || (20 <? rows) then None else if (columns <? 1) || (20 <? columns) then None
  else if 100 <? rows * columns then None else Some (mkfec rows columns None false 0 0 0 None (fun _ => None)).
(** rtp.cpp:86-100 initFEC *)
Definition initFEC (f : fec) (bufSize : Z) : fec :=
  mkfec (f_rows f) (f_cols f) (Some (u16 (bufSize - 12))) true 0 0 0 None (fun _ => None).
(** rtp.cpp:103-116 generateBitstring: [d] is the RTP packet's buffer, [n] lengthRecovery. *)
Definition generateBitstring (d payload : list Z) (n : Z) : option (list Z) :=
  a <- rd d 0;; b <- rd d 1;; t <- peek d 4 4;; p <- peek payload 0 n;;
  Some ([a .& 0x3f; b] ++ t ++ [u8 (n >> 8); u8 n] ++ p).
(** rtp.cpp:118-123 applyXOR *)
Definition applyXOR (a b : list Z) : list Z := map (fun x => Z.lxor (fst x) (snd x)) (combine a b).
(** rtp.cpp:129-178 sendFec: the packet sent, for data with sequence number [sn] of its own. *)
Definition fecPacket (f : fec) (x : fecdata) (sn n : Z) (column : bool) : option (list Z) :=
  let b := nthz (fd_bits x) in
  p <- peek (fd_bits x) 8 n;;
  Some ([0x80 .| (b 0 .& 0x3f); (b 1 .& 0x80) .| 0x60; u8 (sn >> 8); u8 sn] ++ be 4 (fd_ts x) ++ [0; 0; 0; 0] ++
        be 2 (fd_seq x) ++ [b 6; b 7; u8 (0x80 .| b 1); 0; 0; 0; b 2; b 3; b 4; b 5; if column then 0 else 0x40;
        if column then f_cols f else 1; if column then f_rows f else f_cols f; 0] ++ p).

(** rtp.cpp:181-256 parseFEC, for the packet that was just sent (its header is in [d]); the row packets and column packets
    that are sent. *)
Definition parseFEC (f : fec) (d payload : list Z) : option (fec * list (list Z) * list (list Z)) :=
  let f := match f_len f with None => initFEC f (len payload + 12) | Some _ => f end in
  n <- f_len f;;
  if negb (len payload =? n) then Some (f, [], []) else
  bits <- generateBitstring d payload n;;
  let column := f_index f mod f_cols f in
  let row := (f_index f / f_cols f) mod f_rows f in
  seq <- getSequence d;; ts <- getTimeStamp d;;
  let fresh := mkfd (u16 (seq - 1)) ts bits in
  (* rtp.cpp:205-224 *)
  a <- (if column =? 0 then
          let sends := negb (f_first f) || (0 <? f_index f) in
          let sn := if sends then u16 (f_rowSN f + 1) else f_rowSN f in
          out <- (if sends then x <- f_row f;; p <- fecPacket f x sn n false;; Some [p] else Some []);;
          Some (sn, out, fresh)
        else x <- f_row f;; Some (f_rowSN f, [], mkfd (fd_seq x) (fd_ts x) (applyXOR (fd_bits x) bits)));;
  let '(rowSN, rowout, rowbuf) := a in
  (* rtp.cpp:226-241 *)
  colbuf <- (if row =? 0 then Some fresh else x <- f_col f column;; Some (mkfd (fd_seq x) (fd_ts x) (applyXOR (fd_bits x) bits)));;
  (* rtp.cpp:244-249; the bitstring is freed *)
  let sends := row =? f_rows f - 1 in
  let colSN := if sends then u16 (f_colSN f + 1) else f_colSN f in
  colout <- (if sends then p <- fecPacket f colbuf colSN n true;; Some [p] else Some []);;
  let cols := fun c => if c =? column then (if sends then None else Some colbuf) else f_col f c in
  (* rtp.cpp:252-256 *)
  let wraps := f_rows f * f_cols f <=? f_index f + 1 in
  Some (mkfec (f_rows f) (f_cols f) (Some n) (if wraps then false else f_first f) (if wraps then 0 else f_index f + 1) colSN rowSN (Some rowbuf) cols, rowout, colout).

(** rtp.cpp:267-279 sendTS at time [ms] of the clock: the packet sent and the new buffer. *)
Definition sendTS (d payload : list Z) (ms : Z) : option (list Z * list Z) :=
  h <- getHsize d;;
  d <- poke d h payload;; d <- setTimestamp d (u32 (ms * 90));;
  p <- peek d 0 (h + len payload);; d <- increaseSequence d;; Some (p, d).
(** output_ts.cpp:197-211: packets (time and payload) sent with error correction; the media packets, row packets and column
    packets. *)
Fixpoint sendAll (f : fec) (d : list Z) (l : list (Z * list Z)) : option (list (list Z) * list (list Z) * list (list Z)) :=
  match l with
  | [] => Some ([], [], [])
  | (ms, payload) :: l =>
    a <- sendTS d payload ms;;
    b <- parseFEC f (snd a) payload;;
    let '(f, rows, cols) := b in
    c <- sendAll f (snd a) l;;
    let '(ms, rs, cs) := c in Some (fst a :: ms, rows ++ rs, cols ++ cs)
  end.
