(** Model of the tables of a transport stream (/repo/lib/ts_packet.cpp: PAT, PMT, SDT), of what TS::Stream learns from them
    (/repo/lib/ts_stream.cpp), and of TS::Assembler, which finds the packets in received data. *)
From Verif Require Import Common Mem_Model Crc_Model Ts_Model Outcome_Model.

(** ** TS::Assembler (lib/ts_stream.cpp:22-93).  A packet handed on is given with the position it is handed on with. *)

(** lib/ts_stream.cpp:65-89: the loop over the data from some offset on; the new leftData, if it is assigned. *)
Fixpoint scan (fuel : nat) (d : list Z) (bytePos : Z) : list (Z * list Z) * option (list Z) :=
  match fuel, d with
  | O, _ | _, [] => ([], None)
  | S k, x :: r =>
      if (x =? 0x47) && ((len d <=? 188) || (nthz d 188 =? 0x47)) then
        let a := scan k (dropz 188 d) (u64 (bytePos + 188)) in
        if 188 <=? len d then ((bytePos, takez 188 d) :: fst a, snd a)
        else (fst a, match snd a with Some l => Some l | None => Some d end)
      else scan k r (u64 (bytePos + 1))
  end.
Definition scan_all (left d : list Z) (bytePos : Z) : list (Z * list Z) * list Z :=
  let a := scan (List.length d) d bytePos in (fst a, match snd a with Some l => l | None => left end).
(** lib/ts_stream.cpp:30-90 assemble, with leftData [left]; the packets and the new leftData.  Memory is granted, so append
    always succeeds. *)
Definition assemble (left d : list Z) (bytePos : Z) : list (Z * list Z) * list Z :=
  let amount := 188 - len left in
  if negb (len left =? 0) then
    if amount <=? len d then
      if (len d =? amount) || (nthz d amount =? 0x47) then
        let b := u64 (bytePos - len left) in
        let a := scan_all [] (dropz amount d) (u64 (b + 188)) in
        ((b, left ++ takez amount d) :: fst a, snd a)
      else scan_all left d bytePos
    else ([], left ++ d)
  else scan_all left d bytePos.
(** The value it returns: whether a packet that starts a unit was seen. *)
Definition assemble_ret (left d : list Z) : bool := existsb (fun p => getUnitStart (snd p)) (fst (assemble left d 0)).
(** Data received piece by piece, the first at position [bytePos] of the stream (as src/input/input_ts.cpp:417 counts it). *)
Fixpoint assemble_all (left : list Z) (ds : list (list Z)) (bytePos : Z) : list (Z * list Z) * list Z :=
  match ds with
  | [] => ([], left)
  | d :: ds => let a := assemble left d bytePos in let r := assemble_all (snd a) ds (bytePos + len d) in (fst a ++ fst r, snd r)
  end.

(** ** Reading tables.  A packet [b] has 188 bytes; the code has one more behind them that nothing is written to, which is
    counted as outside. *)

(** lib/ts_packet.cpp:768-771, 953-956: 4, the adaptation field, and the pointer. *)
Definition table (b : list Z) : res Z := x <~ getb b (payload_start b);; Ok (payload_start b + x).
(** lib/ts_packet.cpp:780-783, 980-983 getSectionLength *)
Definition getSectionLength (b : list Z) : res Z :=
  o <~ table b;; x <~ getb b (o + 2);; y <~ getb b (o + 3);; Ok (((x .& 0x0F) << 8) .| y).
(** lib/ts_packet.cpp:816-819 getProgramCount: the division is that of C. *)
Definition getProgramCount (b : list Z) : res Z := n <~ getSectionLength b;; Ok (Z.quot (n - 8) 4).
(** lib/ts_packet.cpp:827-831 getProgramPID *)
Definition getProgramPID (b : list Z) (index : Z) : res Z :=
  n <~ getProgramCount b;; if n <? index then Ok 0 else
  o <~ table b;; x <~ getb b (o + 9 + index * 4 + 2);; y <~ getb b (o + 9 + index * 4 + 3);; Ok (((x << 8) .| y) .& 0x1FFF).
(** lib/ts_packet.cpp:840-842 parsePIDs: the PIDs of the set are a list here. *)
Fixpoint pids_from (k : nat) (b : list Z) (i : Z) (pids : list Z) : res (list Z) :=
  match k with O => Ok pids | S k => p <~ getProgramPID b i;; pids_from k b (i + 1) (p :: pids) end.
Definition parsePIDs (b : list Z) (pids : list Z) : res (list Z) := n <~ getProgramCount b;; pids_from (Z.to_nat n) b 0 pids.

(** lib/ts_packet.cpp:1071-1074 getProgramInfoLength *)
Definition getProgramInfoLength (b : list Z) : res Z :=
  o <~ table b;; x <~ getb b (o + 11);; y <~ getb b (o + 12);; Ok (((x .& 0x0F) << 8) .| y).
(** lib/ts_packet.cpp:1193-1206 ProgramDescriptors::getTag *)
Fixpoint tag_loop (fuel : nat) (d : list Z) (p tag : Z) : res (list Z) :=
  match fuel with
  | O => Stuck
  | S k =>
      if p + 1 <? len d then
        t <~ getb d p;; n <~ getb d (p + 1);;
        if t =? tag then getn d (p + 2) n else tag_loop k d (p + n + 2) tag
      else Ok []
  end.
Definition getTag (d : list Z) (tag : Z) : res (list Z) := tag_loop (S (List.length d)) d 0 tag.

(** lib/ts_stream.h:11-24: what a PID is parsed as. *)
Definition H264 := 0x1B. Definition AAC := 0x0F. Definition AC3 := 0x81. Definition SCTE35 := 0x86. Definition MP2 := 0x03.
Definition H265 := 0x24. Definition ID3 := 0x15. Definition MPEG2 := 0x02. Definition META := 0x06.
Definition NONE := 0x060000. Definition OPUS := 0x060001. Definition JSON := 0x060002. Definition AV1 := 0x060003.
(** pmtTracks, pidToCodec and metaInit of TS::Stream. *)
Record known := mkknown { k_pmt : list Z; k_codec : Z -> option Z; k_init : Z -> option (list Z) }.
Definition known0 : known := mkknown [] (fun _ => None) (fun _ => None).
Definition set {A} (m : Z -> option A) (k : Z) (v : option A) : Z -> option A := fun x => if x =? k then v else m x.

(** lib/ts_stream.cpp:277-311, one entry; [raw] is rParser. *)
Definition learn_entry (raw : Z) (s : known) (type pid : Z) (es : res (list Z)) : res known :=
  if existsb (Z.eqb type) [H264; AAC; H265; AC3; SCTE35; ID3; MP2; MPEG2; OPUS; AV1; META] then
    es <~ es;;
    c <~ (if type =? META then
            reg <~ getTag es 0x05;;
            Ok (if beqb reg (bs "Opus") then Some OPUS else if beqb reg (bs "JSON") then Some JSON else if raw =? JSON then Some JSON
                else if beqb reg (bs "AV01") then Some AV1 else if raw =? AV1 then Some AV1 else if raw =? OPUS then Some OPUS else None)
          else Ok (Some type));;
    Ok (mkknown (k_pmt s) (set (k_codec s) pid c) (set (k_init s) pid (Some es)))
  else Ok s.
(** lib/ts_stream.cpp:273-314 with ProgramMappingEntry (lib/ts_packet.cpp:879-941): from entry [p] to boundary [e]. *)
Fixpoint entries (fuel : nat) (raw : Z) (b : list Z) (p e : Z) (s : known) : res known :=
  if p <? e then
    match fuel with
    | O => Stuck
    | S k =>
        x <~ getb b (p + 1);; y <~ getb b (p + 2);; t <~ getb b p;;
        u <~ getb b (p + 3);; v <~ getb b (p + 4);; let n := ((u << 8) .| v) .& 0x0FFF in
        s <~ learn_entry raw s t (((x << 8) .| y) .& 0x1FFF) (getn b (p + 5) n);;
        entries k raw b (p + 5 + n) e s
    end
  else Ok s.
(** lib/ts_packet.cpp:1084-1090 getEntry *)
Definition parsePMT (raw : Z) (b : list Z) (s : known) : res known :=
  o <~ table b;; i <~ getProgramInfoLength b;; n <~ getSectionLength b;; entries (List.length b) raw b (o + 13 + i) (o + n) s.
(** lib/ts_stream.cpp:217-241, 251-320, 329-333 for packets with tables: only a packet that starts a unit is put into the empty
    queue and then parsed; other packets of these PIDs are dropped. *)
Definition learn (raw : Z) (s : known) (b : list Z) : res known :=
  let pid := getPID b in
  if pid =? 0 then
    if getUnitStart b then l <~ parsePIDs b (k_pmt s);; Ok (mkknown l (k_codec s) (k_init s)) else Ok s
  else if pid =? 1 then Ok s
  else if existsb (Z.eqb pid) (k_pmt s) then if getUnitStart b then parsePMT raw b s else Ok s
  else Ok s.

(** ** Writing tables.  The buffer has 189 bytes and is static: it still has what the call before left in it. *)
Definition put (d : list Z) (i : Z) (xs : list Z) : res (list Z) := match poke d i xs with Some d => Ok d | None => Ub end.
(** lib/ts_packet.cpp:58-61, 178-185, 939-945: a new table, and the byte behind it. *)
Definition new_table : list Z := [0x47; 0x50; 0; 0x10] ++ repeat 0 185.
(** lib/ts_packet.cpp:49-63 *)
Definition PAT : list Z :=
  [0x47; 0x40; 0x00; 0x10; 0x00; 0x00; 0xB0; 0x0D; 0x00; 0x01; 0xC1; 0x00; 0x00; 0x00; 0x01; 0xF0; 0x00; 0x2A; 0xB1; 0x04; 0xB2] ++ repeat 0xFF 167.
(** src/output/output_ts_base.cpp:27-30 *)
Definition createPAT (cont : Z) : list Z := pbuf (setContinuityCounter (fromPointer PAT) cont).

(** lib/ts_packet.cpp:144-149 setPID and 158-161 setContinuityCounter, on the buffer. *)
Definition b_setPID (b : list Z) (pid : Z) : list Z := pbuf (setPID (mkpkt b 188) pid).
Definition b_setCC (b : list Z) (c : Z) : list Z := pbuf (setContinuityCounter (mkpkt b 188) c).
(** lib/ts_packet.cpp:968-1069: one or two bytes at offset [k] of the table. *)
Definition set1 (b : list Z) (k : Z) (f : Z -> Z) : res (list Z) := o <~ table b;; x <~ getb b (o + k);; put b (o + k) [u8 (f x)].
Definition set2 (b : list Z) (k v : Z) : res (list Z) := o <~ table b;; put b (o + k) (be 2 v).
(** lib/ts_packet.cpp:1076-1082 setProgramInfo *)
Definition setProgramInfo (b info : list Z) : res (list Z) :=
  b <~ set2 b 11 (((((len info >> 8) .& 0x0F) .| 0xF0) << 8) .| u8 (len info));; o <~ table b;; put b (o + 13) info.
(** lib/ts_packet.cpp:931-935 setESInfo, at entry [p] *)
Definition setESInfo (b : list Z) (p : Z) (info : list Z) : res (list Z) :=
  b <~ put b (p + 3) [((len info >> 8) .& 0x0F) .| 0xF0; len info .& 0xFF];; put b (p + 5) info.
(** lib/ts_packet.cpp:1099-1115 calcCRC, the same at 1648-1664 *)
Definition calcCRC (b : list Z) : res (list Z) :=
  o <~ table b;; n <~ getSectionLength b;; let loc := o + n in
  x <~ getn b (o + 1) (loc - (o + 1));;
  b <~ put b loc (le 4 (crc32 0xFFFFFFFF x));;
  if 184 <? loc then Ub else put b (loc + 4) (repeat 0xFF (Z.to_nat (184 - loc))).

(** What createPMT asks of a track. *)
Record ptrack := mkpt { pt_idx : Z; pt_codec : list Z; pt_video : bool; pt_init : list Z; pt_lang : list Z; pt_channels : Z }.
(** lib/ts_packet.cpp:1356-1357 *)
Definition getUniqTrackID (idx : Z) : Z := idx + 255.
Definition is (t : ptrack) (c : list Z) : bool := beqb (pt_codec t) c.
Definition has_lang (t : ptrack) : bool := (len (pt_lang t) =? 3) && negb (beqb (pt_lang t) (bs "und")).
(** lib/ts_packet.cpp:1375-1393: what one track adds to the length. *)
Definition add_len (t : ptrack) : Z :=
  5 + (if is t (bs "ID3") || is t (bs "RAW") then len (pt_init t) else 0) + (if is t (bs "AAC") then 4 else 0) +
  (if is t (bs "opus") then 10 else 0) + (if is t (bs "JSON") then 6 else 0) + (if is t (bs "AV1") then 12 else 0) +
  (if is t (bs "SCTE35") then 15 else 0) + (if has_lang t then 6 else 0).
(** lib/ts_packet.cpp:1420-1461: the stream type, if one is set, and the descriptors. *)
Definition entry_type (t : ptrack) : option Z :=
  if is t (bs "H264") then Some 0x1B else if is t (bs "HEVC") then Some 0x24 else if is t (bs "MPEG2") then Some 0x02
  else if is t (bs "AAC") then Some 0x0F else if is t (bs "MP3") || is t (bs "MP2") then Some 0x03
  else if is t (bs "opus") then Some 0x06 else if is t (bs "JSON") then Some 0x06 else if is t (bs "AV1") then Some 0x06
  else if is t (bs "SCTE35") then Some 0x86 else if is t (bs "AC3") then Some 0x81 else if is t (bs "ID3") then Some 0x15
  else if is t (bs "RAW") then Some 0x06 else None.
Definition es_info (t : ptrack) : list Z :=
  (if is t (bs "AAC") then [124; 2; 81; 0] else if is t (bs "opus") then [5; 4] ++ bs "Opus" ++ [127; 2; 128; u8 (pt_channels t)]
   else if is t (bs "JSON") then [5; 4] ++ bs "JSON"
   else if is t (bs "AV1") then [5; 4] ++ bs "AV01" ++ [128; 4] ++ takez 4 (pt_init t ++ [0; 0; 0; 0])
   else if is t (bs "SCTE35") then [0; 1; 0] ++ [5; 4] ++ bs "CUEI" else []) ++
  (if has_lang t then [10; 4] ++ pt_lang t ++ [0] else []).
(** lib/ts_packet.cpp:1416-1471: one entry at [p], and where the next one goes ([e] is the boundary). *)
Definition write_entry (b : list Z) (p e : Z) (t : ptrack) : res (list Z * Z) :=
  b <~ put b (p + 1) [((getUniqTrackID (pt_idx t) >> 8) .& 0x1F) .| 0xE0; getUniqTrackID (pt_idx t) .& 0xFF];;
  b <~ match entry_type t with Some x => put b p [x] | None => Ok b end;;
  b <~ (if is t (bs "ID3") || is t (bs "RAW") then setESInfo b p (pt_init t) else Ok b);;
  b <~ setESInfo b p (es_info t);;
  if p <? e then u <~ getb b (p + 3);; v <~ getb b (p + 4);; Ok (b, p + 5 + (((u << 8) .| v) .& 0x0FFF)) else Ok (b, p).
Fixpoint write_entries (b : list Z) (p e : Z) (ts : list ptrack) : res (list Z) :=
  match ts with [] => Ok b | t :: ts => a <~ write_entry b p e t;; write_entries (fst a) (snd a) e ts end.
(** lib/ts_packet.cpp:1399-1407: the clock is that of the first video track, or of the first track. *)
Fixpoint first_video (ts : list ptrack) : option ptrack :=
  match ts with [] => None | t :: r => if pt_video t then Some t else first_video r end.
Definition clock_track (ts : list ptrack) : res Z :=
  match first_video ts, ts with Some t, _ => Ok (pt_idx t) | None, t :: _ => Ok (pt_idx t) | None, [] => Ub end.
(** lib/ts_packet.cpp:1369-1474 createPMT, with the static buffer [b]; the new buffer, of which 188 bytes are sent. *)
Definition createPMT (b : list Z) (ts : list ptrack) (cont : Z) : res (list Z) :=
  let b := b_setPID b 4096 in
  b <~ set1 b 1 (fun _ => 2);;
  let sectionLen := fold_right (fun t n => add_len t + n) 0 ts in
  b <~ set2 b 2 (0xB00D + sectionLen);; b <~ set2 b 4 1;;
  b <~ set1 b 6 (fun x => x .& 0xC1);; b <~ set1 b 6 (fun x => 1 .| (x .& 0xFE));;
  b <~ set1 b 7 (fun _ => 0);; b <~ set1 b 8 (fun _ => 0);;
  let b := b_setCC b cont in
  v <~ clock_track ts;; let v := getUniqTrackID v in
  b <~ set2 b 9 (((((v >> 8) .& 0x1F) .| 0xE0) << 8) .| u8 v);;
  b <~ setProgramInfo b (if existsb (fun t => is t (bs "SCTE35")) ts then [5; 4] ++ bs "CUEI" else []);;
  o <~ table b;; i <~ getProgramInfoLength b;; n <~ getSectionLength b;;
  b <~ write_entries b (o + 13 + i) (o + n) ts;; calcCRC b.

(** meson_options.txt:14 *)
Definition APPNAME := bs "MistServer".
(** lib/ts_packet.cpp:1933-1940 *)
Definition sdt_info (name : list Z) : list Z :=
  [0x48; u8 (4 + len APPNAME + len name); 1; len APPNAME] ++ APPNAME ++ [u8 (len name)] ++ name.
(** lib/ts_packet.cpp:1918-1945 createSDT; entry setters 1482-1517, getEntry 1623-1629. *)
Definition createSDT (b name : list Z) (cont : Z) : res (list Z) :=
  let b := b_setPID b 0x11 in
  b <~ set1 b 1 (fun _ => 0x42);; b <~ set2 b 2 (0x8020 + len name);; b <~ set2 b 4 1;;
  b <~ set1 b 6 (fun x => x .& 0xC1);; b <~ set1 b 6 (fun x => 1 .| (x .& 0xFE));;
  b <~ set1 b 7 (fun _ => 0);; b <~ set1 b 8 (fun _ => 0);; b <~ set2 b 9 0xE001;;
  o <~ table b;; let p := o + 12 in
  b <~ put b p (be 2 1);;
  x <~ getb b (p + 3);; b <~ put b (p + 3) [(x .& 0x1F) .| 128];; x <~ getb b (p + 3);; b <~ put b (p + 3) [(x .& 0xEF) .| 16];;
  x <~ getb b (p + 3);; b <~ put b (p + 3) [((len (sdt_info name) >> 8) .& 0x0F) .| (x .& 0xF0); len (sdt_info name) .& 0xFF];;
  b <~ put b (p + 5) (sdt_info name);;
  calcCRC (b_setCC b cont).

(** ** A whole receiver: the tables, and the packets of each PID that is known to be parsed when they come
    (lib/ts_stream.cpp:217-241: others are not kept), into the demuxers of Ts_Model. *)
Record receiver := mkrcv { r_known : known; r_demux : Z -> demux }.
Definition receiver0 : receiver := mkrcv known0 (fun _ => demux0).
Definition receive1 (raw : Z) (fuel : nat) (s : receiver) (b : list Z) : res receiver :=
  let pid := getPID b in
  k <~ learn raw (r_known s) b;;
  match k_codec (r_known s) pid with
  | Some _ =>
      if (pid =? 0) || (pid =? 1) || existsb (Z.eqb pid) (k_pmt (r_known s)) then Ok (mkrcv k (r_demux s)) else
      match parse_packet fuel b (r_demux s pid) with
      | Ts_Model.Ok d => Ok (mkrcv k (fun q => if q =? pid then d else r_demux s q))
      | Ts_Model.Oob => Ub
      | Ts_Model.Hang => Stuck
      end
  | None => Ok (mkrcv k (r_demux s))
  end.
Fixpoint receive (raw : Z) (fuel : nat) (s : receiver) (l : list (list Z)) : res receiver :=
  match l with [] => Ok s | b :: l => s <~ receive1 raw fuel s b;; receive raw fuel s l end.
