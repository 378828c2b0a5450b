(** Model of /repo/lib/websocket.cpp: frames of an established connection. *)
From Verif Require Import Common Bitfields_Model SockBuf_Model.

(** HTTP::Websocket (lib/websocket.h) with what it uses of the connection: the receive buffer, the
    data that reads from the socket will still yield, one element per read, whether the connection
    was closed and the bytes sent. *)
Record ws := mkws { wbuf : sbuf; pending : list (list Z); frameType : Z; wdata : list Z; wclosed : bool; wsent : list Z; maskOut : bool }.

(** C.spool(true), lib/socket.cpp:1461-1472: appends what one read yields. Simplified: errors and
    end of file are the same as no data. *)
Definition ws_spool (w : ws) : bool * ws :=
  match pending w with
  | [] => (false, w)
  | c :: r => (true, mkws (sb_append (wbuf w) c) r (frameType w) (wdata w) (wclosed w) (wsent w) (maskOut w))
  end.

(** lib/websocket.cpp:206-231 sendFrameHead and 233-241: the bytes of one frame. *)
Definition sendFrameHead (maskOut : bool) (n frameType : Z) : list Z :=
  let h0 := u8 (0x80 + frameType) in
  let '(h1, ext) := if n <? 126 then (n, []) else if n <=? 0xFFFF then (126, htobs n) else (127, htobll n) in
  if maskOut then h0 :: (h1 .| 128) :: ext ++ [0; 0; 0; 0] else h0 :: h1 :: ext.
Definition sendFrame (maskOut : bool) (data : list Z) (frameType : Z) : list Z :=
  sendFrameHead maskOut (u32 (len data)) frameType ++ takez (u32 (len data)) data.

(** lib/websocket.cpp:128-165: header, its size and the payload length if the whole frame is in
    the buffer, else [None]. *)
Definition frame_ready (b : sbuf) : option (list Z * Z * Z) * sbuf :=
  let (a, b) := sb_available b 2 in
  if negb a then (None, b)
  else
    let (head, b) := sb_copy b 2 in
    let masked := negb ((nthz head 1 .& 0x80) =? 0) in
    let payLen := nthz head 1 .& 0x7F in
    let headSize := 2 + (if masked then 4 else 0) + (if payLen =? 126 then 2 else 0) + (if payLen =? 127 then 8 else 0) in
    let (a, b) := if headSize >? 2 then sb_available b headSize else (true, b) in
    if negb a then (None, b)
    else
      let (head, b) := if headSize >? 2 then sb_copy b headSize else (head, b) in
      let payLen := if payLen =? 126 then btohs (dropz 2 head) else if payLen =? 127 then btohll (dropz 2 head) else payLen in
      let (a, b) := sb_available b (headSize + payLen) in
      if negb a then (None, b) else (Some (head, headSize, payLen), b).

(** lib/websocket.cpp:176: data[i + preSize] ^= mask[i % 4], for the bytes from index [i] on. *)
Fixpoint xor_mask (mask : list Z) (i : Z) (l : list Z) : list Z :=
  match l with
  | [] => []
  | x :: r => Z.lxor x (nthz mask (i mod 4)) :: xor_mask mask (i + 1) r
  end.
(** lib/websocket.cpp:166-177: take the frame out of the buffer. [None]: the loop writes beyond
    the data. *)
Definition take_frame (w : ws) (head : list Z) (headSize payLen : Z) : option ws :=
  let (_, b) := sb_remove (wbuf w) headSize in
  let '(t, data) := if negb ((nthz head 0 .& 0xF) =? 0) then (nthz head 0 .& 0xF, []) else (frameType w, wdata w) in
  let preSize := len data in
  let (p, b) := sb_remove b payLen in
  let data := data ++ p in
  if negb ((nthz head 1 .& 0x80) =? 0) then
    if len data <? preSize + payLen then None
    else Some (mkws b (pending w) t (takez preSize data ++ xor_mask (dropz (headSize - 4) head) 0 (dropz preSize data)) (wclosed w) (wsent w) (maskOut w))
  else Some (mkws b (pending w) t data (wclosed w) (wsent w) (maskOut w)).
(** lib/websocket.cpp:180-199: a frame with FIN. *)
Definition finish_frame (w : ws) : bool * ws :=
  if frameType w =? 0 then (false, w)
  else if frameType w =? 8 then (false, mkws (wbuf w) (pending w) (frameType w) (wdata w) true (wsent w) (maskOut w))
  else if frameType w =? 9 then
    (false, mkws (wbuf w) (pending w) (frameType w) (wdata w) (wclosed w) (wsent w ++ sendFrame (maskOut w) (wdata w) 0xA) (maskOut w))
  else if frameType w =? 0xA then (false, w)
  else (true, w).
(** lib/websocket.cpp:126-204 readFrame. *)
Fixpoint readFrame_loop (fuel : nat) (readable : bool) (w : ws) : option (bool * ws) :=
  match fuel with
  | O => Some (false, w)
  | S k =>
      let (r, b) := frame_ready (wbuf w) in
      let w := mkws b (pending w) (frameType w) (wdata w) (wclosed w) (wsent w) (maskOut w) in
      match r with
      | None =>
          if readable then
            let (ok, w) := ws_spool w in if ok then readFrame_loop k false w else Some (false, w)
          else Some (false, w)
      | Some (head, headSize, payLen) =>
          match take_frame w head headSize payLen with
          | None => None
          | Some w => if negb ((nthz head 0 .& 0x80) =? 0) then Some (finish_frame w) else readFrame_loop k readable w
          end
      end
  end.
(** Each round takes at least two bytes or reads from the socket, so the bytes there are bound the
    number of rounds. *)
Definition readFrame (w : ws) : option (bool * ws) :=
  readFrame_loop (S (S (List.length (List.concat (segs (wbuf w)) ++ List.concat (pending w))))) true w.

(** A client that calls readFrame [n] times (lib/websocket.cpp:117-123 readLoop and its callers) and
    takes note of type and payload whenever it answers true. *)
Fixpoint drive (n : nat) (w : ws) : option (list (Z * list Z) * ws) :=
  match n with
  | O => Some ([], w)
  | S k =>
      if wclosed w then Some ([], w)
      else
        match readFrame w with
        | None => None
        | Some (true, w) => match drive k w with Some (l, w') => Some ((frameType w, wdata w) :: l, w') | None => None end
        | Some (false, w) => drive k w
        end
  end.
