(** Model of /repo/lib/rtmpchunks.cpp (RTMPStream::Chunk::Pack and Parse) and of the two places
    in /repo/src/output/output_rtmp.cpp that write chunks directly and that loop over Parse.
    The input buffer is the byte sequence it stands for (SockBuf_Props.v buffer_is_fifo). *)
From Verif Require Import Common Bitfields_Model.

(** rtmpchunks.h:51-73. headertype, real_len and inData are only used inside one call. *)
Record chunk := mkch { cs : Z; ts : Z; delta : Z; tsh : Z; mlen : Z; left : Z; mtype : Z; msid : Z; cdata : list Z }.
(** rtmpchunks.cpp:188-199 *)
Definition chunk0 : chunk := mkch 0 0 0 0 0 0 0 0 [].

(** rtmpchunks.cpp:101-112 *)
Definition basic (chtype id : Z) : list Z :=
  if id <=? 63 then [u8 (chtype .| id)]
  else if id <=? 255 + 64 then [u8 (chtype .| 0); u8 (id - 64)]
  else [u8 (chtype .| 1); u8 ((id - 64) mod 256); u8 ((id - 64) / 256)].
(** rtmpchunks.cpp:163-173 *)
Definition basic_more (id : Z) : list Z :=
  if id <=? 63 then [u8 (0xC0 + id)]
  else if id <=? 255 + 64 then [0xC0; u8 (id - 64)]
  else [0xC1; u8 ((id - 64) mod 256); u8 ((id - 64) / 256)].
(** rtmpchunks.cpp:120-122 and the like: the low 24 bits; 149-152: the low 32 bits. *)
Definition out24 (v : Z) : list Z := [(v >> 16) .& 0xff; (v >> 8) .& 0xff; v .& 0xff].
Definition out32 (v : Z) : list Z := [(v >> 24) .& 0xff; (v >> 16) .& 0xff; (v >> 8) .& 0xff; v .& 0xff].

(** rtmpchunks.cpp:82-100 *)
Definition chtype_of (prev : option chunk) (c : chunk) : Z :=
  match prev with
  | None => 0x00
  | Some p =>
    if cs p =? cs c then
      let t := if msid c =? msid p then
                 if mlen c =? mlen p then
                   if mtype c =? mtype p then
                     if u64 (ts c - ts p) =? delta p then 0xC0 else 0x80
                   else 0x40
                 else 0x40
               else 0x00 in
      if ts c <? ts p then 0x00 else t
    else 0x00
  end.
(** rtmpchunks.cpp:154-181; None is the endless loop for a chunk size of 0. *)
Fixpoint pack_data (fuel : nat) (maxc id : Z) (ext d : list Z) : option (list Z) :=
  if len d =? 0 then Some []
  else match fuel with
  | O => None
  | S k =>
    let n := if maxc <? len d then maxc else len d in
    let rest := dropz n d in
    r <- pack_data k maxc id ext rest;;
    Some (takez n d ++ (if 0 <? len rest then basic_more id ++ ext else []) ++ r)
  end.
(** rtmpchunks.cpp:76-185. The result is the output and the new lastsend entry. The object's
    length field is that of its data, as for every caller. Callers that erase the entry first
    (268, 288, 308, 330) pass None for it. *)
Definition pack (maxc : Z) (prev : option chunk) (c : chunk) : option (list Z * chunk) :=
  let t := chtype_of prev c in
  let p := match prev with Some p => p | None => chunk0 end in
  let '(hdr, dl, th, ntime) :=
    if negb (t =? 0xC0) then
      let v := if t =? 0x00 then ts c else u64 (ts c - ts p) in
      let w := if 0xffffff <=? v then 0xffffff else v in
      (out24 w ++
       (if negb (t =? 0x80) then
          out24 (mlen c) ++ [u8 (mtype c)] ++
          (if negb (t =? 0x40) then
             [u8 (msid c mod 256); u8 (msid c / 256); u8 (msid c / 65536); u8 (msid c / 16777216)]
           else [])
        else []),
       u32 v, w, if 0xffffff <=? v then v else 0)
    else ([], delta c, tsh p, if tsh p =? 0xffffff then ts c else 0) in
  let ext := if ntime =? 0 then [] else out32 ntime in
  body <- pack_data (List.length (cdata c)) maxc (cs c) ext (cdata c);;
  Some (basic t (cs c) ++ hdr ++ ext ++ body,
        mkch (cs c) (ts c) dl th (mlen c) (left c) (mtype c) (msid c) (cdata c)).

(** The media part of output_rtmp.cpp:1127-1224 (OutRTMP::sendNext): [data] is the codec header
    followed by the media data, [dh] the length of the codec header. prev is lastsend[4].
    If the chunk size were below the header length, to_send would wrap; None then. *)
Definition rtmp_header (prev : option chunk) (ty tm : Z) (dlen : Z) : Z * Z * bool :=
  match prev with
  | Some p =>
    if (cs p =? 4) && (msid p =? 1) then
      let t := if (dlen =? mlen p) && (ty =? mtype p) then (if tm =? ts p then 0xC0 else 0x80) else 0x40 in
      if tm <? ts p then (0x00, tm, false) else (t, u64 (tm - ts p), true)
    else (0x00, tm, false)
  | None => (0x00, tm, false)
  end.
Fixpoint send_data (fuel : nat) (maxc : Z) (first : bool) (dh : Z) (ext d : list Z) : option (list Z) :=
  if len d =? 0 then Some []
  else match fuel with
  | O => None
  | S k =>
    let n := Z.min (len d) maxc in
    if first && (n <? dh) then None else
    let rest := dropz n d in
    r <- send_data k maxc false dh ext rest;;
    Some (takez n d ++ (if 0 <? len rest then [0xC4] ++ ext else []) ++ r)
  end.
Definition send_media (maxc : Z) (prev : option chunk) (ty tm dh : Z) (data : list Z) : option (list Z * chunk) :=
  let '(t, tm', diff) := rtmp_header prev ty tm (len data) in
  let p := match prev with Some p => p | None => chunk0 end in
  let w := if 0xffffff <=? tm' then 0xffffff else tm' in
  let ext := if 0xffffff <=? tm' then out32 tm' else [] in
  body <- send_data (List.length data) maxc true dh ext data;;
  Some ([t .| 4] ++
        (if t =? 0xC0 then [] else out24 w ++ (if t =? 0x80 then [] else out24 (len data) ++ [ty] ++ (if t =? 0x40 then [] else [1; 0; 0; 0]))) ++
        ext ++ body,
        mkch 4 (if diff then u64 (ts p + tm') else tm') (delta p) (tsh p) (len data) (left p) ty 1 (cdata p)).

(** Outcome of one round of the loop in Parse: not enough bytes yet (return false), a part of a
    message (next round), or a complete one (return true). lastrecv is a total map, an absent
    entry being chunk0; the parse error counter is left out. *)
Inductive outcome := Wait | More (st : Z -> chunk) (buf : list Z) | Done (c : chunk) (st : Z -> chunk) (buf : list Z).

(** rtmpchunks.cpp:371-380: chunk stream id and the position after it. *)
Definition read_id (d : list Z) : Z * Z :=
  let t := nthz d 0 in
  if (t .& 0x3F) =? 0 then (nthz d 1 + 64, 2)
  else if (t .& 0x3F) =? 1 then (nthz d 1 + 64 + nthz d 2 * 256, 3)
  else (t .& 0x3F, 1).
Definition in24 (d : list Z) (i : Z) : Z := (nthz d i << 16) .| (nthz d (i + 1) << 8) .| nthz d (i + 2).
(** rtmpchunks.cpp:389-480: the header fields; None if more bytes are needed. *)
Definition read_header (d : list Z) (p : chunk) (id i : Z) : option (chunk * Z) :=
  let ht := nthz d 0 .& 0xC0 in
  let n := len d in
  if ht =? 0x00 then
    if n <? i + 11 then None
    else let t := in24 d i in
         Some (mkch id t t t (in24 d (i + 3)) 0 (nthz d (i + 6))
                 (u32 (nthz d (i + 7) .| (nthz d (i + 8) << 8) .| (nthz d (i + 9) << 16) .| (nthz d (i + 10) << 24))) [],
               i + 11)
  else if ht =? 0x40 then
    if n <? i + 7 then None
    else let t := in24 d i in
         let '(tm, dl) := if t =? 0xffffff then (t, delta p) else (u64 (ts p + t), t) in
         Some (mkch id tm dl t (in24 d (i + 3)) 0 (nthz d (i + 6)) (msid p) [], i + 7)
  else if ht =? 0x80 then
    if n <? i + 3 then None
    else let t := in24 d i in
         let '(tm, dl) := if t =? 0xffffff then (t, delta p) else (u64 (ts p + t), t) in
         Some (mkch id tm dl t (mlen p) (left p) (mtype p) (msid p) [], i + 3)
  else
    Some (mkch id (if 0 <? left p then ts p else u64 (ts p + delta p)) (delta p) (tsh p) (mlen p) (left p) (mtype p) (msid p) [], i).
(** rtmpchunks.cpp:495-512: the int shifted by 24 is sign extended to 64 bits. *)
Definition read_ext (d : list Z) (p : chunk) (i : Z) : Z * Z :=
  let t := u64 (s32 (nthz d i << 24)) .| (nthz d (i + 1) << 16) .| (nthz d (i + 2) << 8) .| nthz d (i + 3) in
  let dl := u32 t in
  if (0xFFFF8000 <? t) && ((ts p .& 0xFFFFFFFF) <? 0xFFFF0000) then (u64 (ts p + s32 dl), dl) else (t, dl).
Definition upd (st : Z -> chunk) (id : Z) (c : chunk) : Z -> chunk := fun j => if j =? id then c else st j.
(** rtmpchunks.cpp:362-540. In the 0x40 and 0x80 cases ts_delta keeps the object's own old value when the
    header says 0xffffff; it is overwritten by the extended timestamp before any use. *)
Definition parse_chunk (maxc : Z) (st : Z -> chunk) (buf : list Z) : outcome :=
  let d := takez 18 buf in
  let n := len d in
  if n <? 3 then Wait
  else
    let '(id, i) := read_id d in
    let p := st id in
    match read_header d p id i with
    | None => Wait
    | Some (c, i) =>
      let real := if 0 <? left c then left c else mlen c in
      let '(real, lft) := if maxc <? real then (maxc, u32 (real - maxc)) else (real, 0) in
      if (tsh c =? 0xffffff) && (n <? i + 4) then Wait
      else
        let '(tm, dl, i) := if tsh c =? 0xffffff then let '(t, dl) := read_ext d p i in (t, dl, i + 4) else (ts c, delta c, i) in
        if len buf <? i + real then Wait
        else
          let swapped := negb (real =? 0) && negb (left p =? 0) in
          let data := if real =? 0 then [] else (if swapped then cdata p else []) ++ takez real (dropz i buf) in
          let pdata := if swapped then [] else cdata p in
          let '(data, pdata) := if lft =? 0 then (data, pdata) else (pdata, data) in
          let mk := mkch id tm dl (tsh c) (mlen c) lft (mtype c) (msid c) in
          let st := upd st id (mk pdata) in
          let buf := dropz (i + real) buf in
          if (real =? 0) || (lft =? 0) then Done (mk data) st buf else More st buf
    end.
(** rtmpchunks.cpp:361-541, one call. *)
Fixpoint parse (fuel : nat) (maxc : Z) (st : Z -> chunk) (buf : list Z) : option chunk * (Z -> chunk) * list Z :=
  match fuel with
  | O => (None, st, buf)
  | S k => match parse_chunk maxc st buf with
           | Wait => (None, st, buf)
           | More st' buf' => parse k maxc st' buf'
           | Done c st' buf' => (Some c, st', buf')
           end
  end.
(** output_rtmp.cpp:2361: message type 1 sets the chunk size (4 bytes of data present). *)
Definition on_message (maxc : Z) (c : chunk) : Z :=
  if (mtype c =? 1) && negb (len (cdata c) =? 0) then btohl (cdata c) else maxc.
(** output_rtmp.cpp:2337: the loop over Parse, collecting the messages. *)
Record receiver := mkrcv { rmax : Z; rst : Z -> chunk; rbuf : list Z }.
Fixpoint receive_loop (fuel : nat) (r : receiver) : list chunk * receiver :=
  match fuel with
  | O => ([], r)
  | S k => match parse (S (List.length (rbuf r))) (rmax r) (rst r) (rbuf r) with
           | (None, st, buf) => ([], mkrcv (rmax r) st buf)
           | (Some c, st, buf) =>
             let (l, r') := receive_loop k (mkrcv (on_message (rmax r) c) st buf) in (c :: l, r')
           end
  end.
(** Bytes arrive and the loop runs. *)
Definition arrive (r : receiver) (bytes : list Z) : list chunk * receiver :=
  let buf := rbuf r ++ bytes in receive_loop (S (List.length buf)) (mkrcv (rmax r) (rst r) buf).
Fixpoint arrivals (r : receiver) (l : list (list Z)) : list chunk * receiver :=
  match l with
  | [] => ([], r)
  | b :: t => let (a, r1) := arrive r b in let (a2, r2) := arrivals r1 t in (a ++ a2, r2)
  end.
Definition receiver0 (maxc : Z) : receiver := mkrcv maxc (fun _ => chunk0) [].

(** A run of the senders (SendChunk 216-228, SendMedia 234-265, SendCTL and SendUSR 268-334): each entry has the
    chunk size in force, whether lastsend is erased first, and the message fields. One Chunk
    object serves a chunk stream, so that its ts_delta field is the one of the last Pack on it. *)
Record outgoing := mkout { o_size : Z; o_erase : bool; o_cs : Z; o_ts : Z; o_type : Z; o_sid : Z; o_data : list Z }.
Definition pack_one (prev : option chunk) (o : outgoing) : option (list Z * chunk) :=
  let d := match prev with Some p => delta p | None => 0 end in
  pack (o_size o) (if o_erase o then None else prev)
    (mkch (o_cs o) (o_ts o) d 0 (u32 (len (o_data o))) 0 (o_type o) (o_sid o) (o_data o)).
Fixpoint pack_all (prev : Z -> option chunk) (l : list outgoing) : option (list Z * (Z -> option chunk)) :=
  match l with
  | [] => Some ([], prev)
  | o :: r =>
    x <- pack_one (prev (o_cs o)) o;;
    y <- pack_all (fun j => if j =? o_cs o then Some (snd x) else prev j) r;;
    Some (fst x ++ fst y, snd y)
  end.
(** A run of sendNext for media; all of it goes out on chunk stream 4. *)
Record media := mkmedia { md_size : Z; md_ts : Z; md_type : Z; md_head : Z; md_data : list Z }.
Fixpoint send_media_all (prev : option chunk) (l : list media) : option (list Z) :=
  match l with
  | [] => Some []
  | o :: r =>
    x <- send_media (md_size o) prev (md_type o) (md_ts o) (md_head o) (md_data o);;
    b <- send_media_all (Some (snd x)) r;;
    Some (fst x ++ b)
  end.
