(** Model of H264 and HEVC video in transport streams: how frames go out (src/output/output_ts_base.cpp) and how they come
    back (lib/ts_stream.cpp).  Frames are units behind their lengths; on the wire units are behind start codes. *)
From Verif Require Import Common Mem_Model Nal_Model Bitstream_Model Ts_Model Outcome_Model Scan_Model Dtsc_Model Avcc_Model.

(** ** Sending *)
(** output_ts_base.cpp:105-121: the first five units, taking their lengths to be four bytes; [ptr] is the offset of the
    pointer.  Result: whether no parameter set and whether no delimiter is among them. *)
Fixpoint look (n : nat) (d : list Z) (ptr : Z) (noSets noAud : bool) : res (bool * bool) :=
  match n with
  | O => Ok (noSets, noAud)
  | S k =>
    if ptr + 4 <? len d then
      c <~ getb d (ptr + 4);;
      let t := c .& 0x1f in
      size <~ getbe d ptr 4;;
      look k d (ptr + u32 (size + 4)) (noSets && negb ((t =? 7) || (t =? 8))) (noAud && negb (t =? 9))
    else Ok (noSets, noAud)
  end.
(** output_ts_base.cpp:176-192: [i] and ThisNaluSize are uint32_t, so their sum is too. *)
Fixpoint nal_chunks (fuel : nat) (lenSize : Z) (d : list Z) (i : Z) : res (list (list Z)) :=
  match fuel with
  | O => Stuck
  | S k =>
    if i + lenSize <? len d then
      size <~ (if lenSize =? 4 then getbe d i 4 else if lenSize =? 2 then getbe d i 2 else getb d i);;
      if len d <? u32 (size + i) + lenSize then Ok []
      else x <~ getn d (i + lenSize) size;; r <~ nal_chunks k lenSize d (u32 (i + size + lenSize));; Ok ([0; 0; 0; 1] :: x :: r)
    else Ok []
  end.
Definition MAX_PES_SIZE : Z := 65490 - 13.
(** output_ts_base.cpp:100-192: what fillPacket gets for a frame [d] of dataLen < 2^32 bytes of an H264 or HEVC track with
    init data [init], at [packTime] (90 kHz), with a composition offset of [off] ms. *)
Definition video_chunks (hevc keyframe : bool) (init : list Z) (packTime off bps : Z) (d : list Z) : res (list (list Z)) :=
  r <~ (if hevc then Ok (true, true) else look 5 d 0 true true);;
  let addInit := keyframe && fst r in
  let aud := if negb hevc && snd r then [[0; 0; 0; 1; 9; 0xF0]] else [] in
  sets <~ (if addInit then x <~ (if hevc then hvccInit init else avccInit init);; Ok [x] else Ok []);;
  let extraSize := u32 (len (List.concat aud) + len (List.concat sets)) in
  let lead := getPESVideoLeadIn (if MAX_PES_SIZE <? len d + extraSize then 0 else len d + extraSize) packTime (u64 (off * 90)) true bps in
  let lenSize := if negb hevc && (4 <? len init) then (nthz init 4 .& 3) + 1 else 4 in
  units <~ nal_chunks (S (List.length d)) lenSize d 0;;
  Ok (lead :: aud ++ sets ++ units).
(** A frame of such a track, as in [media] of Ts_Model. *)
Record frame := mkframe { fmeta : meta; finit : list Z; foffset : Z; fbps : Z; fdat : list Z }.
Definition sendVideo (hevc : bool) (x : frame) : res (meta * list (list Z)) :=
  c <~ video_chunks hevc (keyframe (fmeta x)) (finit x) (u64 (time (fmeta x) * 90)) (foffset x) (fbps x) (fdat x);; Ok (fmeta x, c).
Fixpoint sendVideos (hevc : bool) (l : list frame) : res (list (meta * list (list Z))) :=
  match l with [] => Ok [] | x :: r => c <~ sendVideo hevc x;; rest <~ sendVideos hevc r;; Ok (c :: rest) end.

(** ** Receiving *)
(** ts_stream.cpp:953-960: up to nine bytes behind the first one, without emulation prevention. *)
Fixpoint slice_loop (fuel : nat) (u : list Z) (i : Z) (b : br) : br :=
  match fuel with
  | O => b
  | S k =>
    if (i <? 10) && (i <? len u) then
      if (i + 2 <? len u) && beqb (takez 3 (dropz i u)) [0; 0; 3] then slice_loop k u (i + 3) (br_append b (takez 2 (dropz i u)))
      else slice_loop k u (i + 1) (br_append b (takez 1 (dropz i u)))
    else b
  end.
(** ts_stream.cpp:961-965 *)
Definition key_slice (u : list Z) : bool :=
  let b := slice_loop 10 u 1 (mkbr [] 0) in
  let b := snd (br_get_se b) in
  let t := fst (br_get_ue b) in
  (t =? 2) || (t =? 4) || (t =? 7) || (t =? 9).
(** The receiver's state for one track: the packet being built, the packets made, the last parameter sets (H264 only;
    the sets of an HEVC track go to h265::initData, which is not modelled). *)
Record rcv := mkrcv { r_bp : option packet; r_out : list packet; r_sps : option (list Z); r_pps : option (list Z) }.
Definition rcv0 : rcv := mkrcv None [] None None.
(** ts_stream.cpp:944-1020 parseNal for H264 and HEVC: whether the unit makes a key frame, and the parameter sets. *)
Definition parseNal (hevc : bool) (u : list Z) (s : rcv) : res (bool * rcv) :=
  c <~ getb u 0;;
  if hevc then let t := (c .& 0x7E) >> 1 in Ok ((16 <=? t) && (t <=? 21), s)
  else
    let t := c .& 0x1F in
    Ok (if t =? 1 then key_slice u else t =? 5,
        if t =? 7 then mkrcv (r_bp s) (r_out s) (Some u) (r_pps s)
        else if t =? 8 then mkrcv (r_bp s) (r_out s) (r_sps s) (Some u) else s).

Section Receive.
(** Contents of new memory; steps for looking for a field in a packet; the track; what asInt makes of fields that are no numbers. *)
Context (junk : Z) (fuel : nat) (tid : Z) (hevc : bool).
Let getTime := getTime (fun _ => 0) (fun _ => 0).
(** ts_stream.cpp:829-830, 844-846, 803-806: an empty packet with a key frame field that says no. *)
Definition blank (ts off bpos : Z) (p : packet) : res packet :=
  p <~ genericFill junk ts off tid None 0 bpos true p;; setKeyFrame fuel false p.
(** ts_stream.cpp:818-858, for the rest [d] of the payload, the next start code being at [next]. *)
Fixpoint nal_loop (k : nat) (ts off bpos : Z) (d : list Z) (next : option Z) (s : rcv) : res rcv :=
  match k with
  | O => Stuck
  | S k' =>
    let e := match next with Some i => i | None => len d end in
    let nalSize := u32 (nalEndPosition (takez e d)) in
    s <~ (if nalSize =? 0 then Ok s else
      bp <~ match r_bp s with Some p => Ok p | None => blank ts off bpos pnew end;;
      let u := takez nalSize d in
      r <~ parseNal hevc u s;;
      let '(isKey, s) := r in
      bp <~ (if isKey then setKeyFrame fuel true bp else Ok bp);;
      t <~ getTime fuel bp;;
      if t =? ts then bp <~ appendNal junk fuel u bp;; Ok (mkrcv (Some bp) (r_out s) (r_sps s) (r_pps s))
      else
        nb <~ blank ts off bpos (pnull bp);;
        nb <~ appendNal junk fuel u nb;; Ok (mkrcv (Some nb) (r_out s ++ [bp]) (r_sps s) (r_pps s)));;
    if len d <=? e + 3 then Ok s
    else let d := dropz (e + 3) d in nal_loop k' ts off bpos d (scanAnnexB d) s
  end.
(** ts_stream.cpp:773-859: parseBitstream for H264 and HEVC. *)
Definition parseVideo (ts off bpos : Z) (aligned : bool) (d : list Z) (s : rcv) : res rcv :=
  match scanAnnexB d with
  | Some i => nal_loop (S (List.length d)) ts off bpos d (Some i) s
  | None =>
    differs <~ match r_bp s with Some p => t <~ getTime fuel p;; Ok (negb (t =? ts)) | None => Ok false end;;
    if negb aligned && negb (ts =? 0) && differs then Ok s
    else
      let bp := match r_bp s with Some p => p | None => pnew end in
      if aligned then
        t <~ getTime fuel bp;;
        x <~ (if t =? ts then Ok (bp, r_out s) else nb <~ blank ts off bpos (pnull bp);; Ok (nb, r_out s ++ [bp]));;
        r <~ parseNal hevc d s;;
        let '(isKey, s') := r in
        bp <~ (if isKey then setKeyFrame fuel true (fst x) else Ok (fst x));;
        bp <~ appendNal junk fuel d bp;; Ok (mkrcv (Some bp) (snd x) (r_sps s') (r_pps s'))
      else bp <~ upgradeNal junk fuel d bp;; Ok (mkrcv (Some bp) (r_out s) (r_sps s) (r_pps s))
  end.
(** The payloads of consecutive PES packets: time, offset, bytes.  [bpos]: position of the PES in the input. *)
Fixpoint parseVideos (aligned : bool) (l : list (Z * Z * Z * list Z)) (s : rcv) : res rcv :=
  match l with
  | [] => Ok s
  | (ts, off, bpos, d) :: r => s <~ parseVideo ts off bpos aligned d s;; parseVideos aligned r s
  end.
(** ts_stream.cpp:598-603: at the end the packet being built is handed out when it has data. *)
Definition flush (s : rcv) : res rcv :=
  match r_bp s with
  | None => Ok s
  | Some p =>
    n <~ with_data p (fun d => o <~ data_len_offset fuel d 23;; getbe d o 4);;
    if n =? 0 then Ok s else Ok (mkrcv None (r_out s ++ [p]) (r_sps s) (r_pps s))
  end.
End Receive.
