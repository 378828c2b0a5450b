(** Model of the receiver of redundant packets and error correction packets of WebRTC, /repo/lib/rtp_fec.cpp:63-518.
    [None] is an access outside a packet or buffer, or of a null pointer. *)
From Verif Require Import Common Bitfields_Model Mem_Model Rtp_Model.

(** rtp_fec.h:77-78, the packet history: a map from numbers to packets, in order of numbers. *)
Definition history := list (Z * list Z).
Fixpoint put (k : Z) (v : list Z) (h : history) : history :=
  match h with
  | [] => [(k, v)]
  | (k', v') :: h' => if k <? k' then (k, v) :: h else if k =? k' then (k, v) :: h' else (k', v') :: put k v h'
  end.
Definition get (k : Z) (h : history) : option (list Z) := match List.find (fun x => fst x =? k) h with Some x => Some (snd x) | None => None end.
(** rtp_fec.cpp:422-424 *)
Fixpoint forget (h : history) (limit : Z) : history :=
  match h with (k, v) :: h' => if k <? limit then forget h' limit else h | [] => [] end.
(** rtp_fec.cpp:419-427 addPacket, with error correction agreed on; what the sorter then does is in RtpSort_Model. *)
Definition addPacket (h : history) (p : list Z) : option history :=
  s <- getSequence p;; Some (forget (put s p h) (s - 500)).

(** rtp_fec.cpp:238-274 extractCoveringSequenceNumbers: the numbers found, in the order they are found; [None] inside is a
    packet without data.  The set sorts them: [asc]. *)
Definition covered (fd : list Z) : option (option (list Z)) :=
  if len fd =? 0 then Some None else
  b0 <- rd fd 0;;
  let n := if ((b0 .& 0x40) >> 6) =? 0 then 2 else 6 in
  b2 <- rd fd 2;; b3 <- rd fd 3;;
  let base := (u16 (b2 << 8)) .| b3 in
  mask <- peek fd 12 n;;
  Some (Some (flat_map (fun i => flat_map (fun bit => if (nthz mask (Z.of_nat i)) .& ((1 << 7) - Z.of_nat bit) =? 0 then [] else [u16 (base + (Z.of_nat i << 3) + Z.of_nat bit)]) (List.seq 0 8)) (List.seq 0 (Z.to_nat n)))).
Fixpoint ins (k : Z) (l : list Z) : list Z := match l with [] => [k] | x :: r => if k <? x then k :: l else if k =? x then l else x :: ins k r end.
Definition asc (l : list Z) : list Z := List.fold_left (fun a k => ins k a) l [].

(** rtp_fec.cpp:63-115 initWithREDPacket: the data after the headers and the numbers covered; [None] inside is "false". *)
Definition initWithRED (d : list Z) : option (option (list Z * list Z)) :=
  if len d <? 23 then Some None else
  h <- getHsize d;;
  _ <- rd d h;; (* moreBlocks is 0 or 0x80, never 1 *)
  if len d <? h + 1 then Some None else
  fd <- peek d (h + 1) (len d - (h + 1));;
  c <- covered fd;;
  match c with None => Some None | Some c => Some (Some (fd, asc c)) end.

(** [a] with [b] XORed into it from [o] on; rtp_fec.cpp:409 *)
Definition xor_into (a : list Z) (o : Z) (b : list Z) : option (list Z) :=
  x <- peek a o (len b);; poke a o (map (fun y => Z.lxor (fst y) (snd y)) (combine x b)).
(** rtp_fec.cpp:363-395: headers and length. *)
Fixpoint xor_heads (r : list Z) (size : Z) (l : list (list Z)) : option (list Z * Z) :=
  match l with
  | [] => Some (r, size)
  | m :: l =>
    n <- getPayloadSize m;; a <- peek m 0 2;; t <- peek m 4 4;;
    r <- xor_into r 0 a;; r <- xor_into r 4 t;; xor_heads r (Z.lxor size (u16 n)) l
  end.
(** rtp_fec.cpp:399-411 *)
Fixpoint xor_bodies (r : list Z) (size : Z) (l : list (list Z)) : option (list Z) :=
  match l with
  | [] => Some r
  | m :: l => h <- getHsize m;; b <- peek m h size;; r <- xor_into r 12 b;; xor_bodies r size l
  end.
Fixpoint gets (h : history) (l : list Z) : option (list (list Z)) :=
  match l with [] => Some [] | k :: l => m <- get k h;; r <- gets h l;; Some (m :: r) end.
(** rtp_fec.cpp:302-417 tryToRecoverMissingPacket; [None] inside is that nothing was made.  [fd] and [cov] are of initWithRED.
    rtp.cpp:744-765: a packet of no bytes is copied as MAX_SEND + 14 zeros. *)
Definition tryToRecover (fd cov : list Z) (h : history) : option (option (list Z)) :=
  match filter (fun k => match get k h with Some _ => false | None => true end) cov with
  | [missing] =>
    head <- peek fd 0 12;;
    b0 <- rd fd 0;;
    let o := 10 + 2 + (if ((b0 .& 0x40) >> 6) =? 0 then 2 else 6) in
    lp <- peek fd 10 2;;
    if unbe lp =? 0 then Some None else
    body <- peek fd o (unbe lp);;
    lr <- peek fd 8 2;;
    others <- gets h (filter (fun k => negb (k =? missing)) cov);;
    x <- xor_heads (head ++ body) (unbe lr) others;;
    let '(r, size) := x in
    r <- xor_bodies r size others;;
    p <- (if size =? 0 then Some (repeat 0 (Z.to_nat (14 + MAX_SEND))) else peek r 0 size);;
    p <- setSequence p missing;; Some (Some p)
  | _ => Some None
  end.

(** rtp_fec.cpp:451-518 addREDPacket: the history and the packets given to the sorter.  The error correction packets kept
    (fecPackets) are never used. *)
Definition addRED (h : history) (d : list Z) (codec red ulp : Z) : option (history * list (list Z)) :=
  pt <- getPayloadType d;;
  if negb (pt =? red) then Some (h, []) else
  hs <- getHsize d;; rh <- rd d hs;;
  let block := rh .& 0x7F in
  if block =? codec then
    rest <- peek d (hs + 1) (len d - hs - 1);; d' <- poke d hs rest;;
    m <- rd d' 1;; d' <- poke d' 1 [u8 ((m .& 0x80) .| codec)];;
    let p := takez (len d - 1) d' in
    h' <- addPacket h p;; Some (h', [p])
  else if block =? ulp then
    i <- initWithRED d;;
    match i with
    | None => None (* fec is null *)
    | Some (fd, cov) =>
      r <- tryToRecover fd cov h;;
      match r with None => Some (h, []) | Some p => h' <- addPacket h p;; Some (h', [p]) end
    end
  else Some (h, []).
