(** Model of the header of a CMAF segment (lib/cmaf.cpp, and the boxes it is made of in lib/mp4_generic.cpp and
    lib/mp4_dash.cpp), on the tables of a track (Meta_Model) and the boxes of Mp4_Model. *)
From Verif Require Import Common Outcome_Model Mp4_Model Meta_Model MetaFind_Model.

Definition has (flags m : Z) : bool := negb ((flags .& m) =? 0).

(** lib/mp4_generic.cpp:7-13 MFHD *)
Definition mfhd (seq : Z) : res box := b <~ setInt 4 0 0 (newBox (bs "mfhd"));; setInt 4 (u32 seq) 4 b.

(** lib/mp4_generic.h:42-50 *)
Definition tfhdBaseOffset := 1.
Definition tfhdSampleDesc := 2.
Definition tfhdSampleDura := 8.
Definition tfhdSampleSize := 16.
Definition tfhdSampleFlag := 32.
Definition tfhdBaseIsMoof := 131072.
(** lib/mp4_generic.cpp:238-345 TFHD.  The setters of optional fields: nothing without their flag; else behind the fields
    whose flags are set before them. *)
Definition tfhd_set (m : Z) (earlier : list (Z * Z)) (v : Z) (b : box) : res box :=
  r <~ getInt 3 1 b;;
  if has (snd r) m then setInt 4 v (fold_left (fun o e => if has (snd r) (fst e) then o + snd e else o) earlier 8) (fst r) else Ok (fst r).
Definition setSampleDescriptionIndex := tfhd_set tfhdSampleDesc [(tfhdBaseOffset, 8)].
Definition setDefaultSampleDuration := tfhd_set tfhdSampleDura [(tfhdBaseOffset, 8); (tfhdSampleDesc, 4)].
Definition setDefaultSampleSize := tfhd_set tfhdSampleSize [(tfhdBaseOffset, 8); (tfhdSampleDesc, 4); (tfhdSampleDura, 4)].
Definition setDefaultSampleFlags := tfhd_set tfhdSampleFlag [(tfhdBaseOffset, 8); (tfhdSampleDesc, 4); (tfhdSampleDura, 4); (tfhdSampleSize, 4)].

(** lib/mp4_dash.cpp:101-115 TFDT *)
Definition setBaseMediaDecodeTime (v : Z) (b : box) : res box :=
  ver <~ getIntC 1 0 b;; if ver =? 1 then setInt 8 v 4 b else setInt 4 v 4 b.
Definition tfdt : res box :=
  b <~ setInt 1 1 0 (newBox (bs "tfdt"));; b <~ setInt 3 0 1 b;; setBaseMediaDecodeTime 0 b.

(** lib/mp4_generic.h:95-112 *)
Definition trundataOffset := 1.
Definition trunfirstSampleFlags := 4.
Definition trunsampleDuration := 256.
Definition trunsampleSize := 512.
Definition trunsampleFlags := 1024.
Definition trunsampleOffsets := 2048.
Definition noIPicture := 16777216.
Definition isIPicture := 33554432.
Definition noKeySample := 65536.
Definition isKeySample := 0.
(** lib/mp4_generic.cpp:63-89 *)
Definition setDataOffset (v : Z) (b : box) : res box := f <~ getIntC 3 1 b;; if has f trundataOffset then setInt 4 v 8 b else Ok b.
Definition setFirstSampleFlags (v : Z) (b : box) : res box :=
  f <~ getIntC 3 1 b;;
  if negb (has f trunfirstSampleFlags) then Ok b else if has f trundataOffset then setInt 4 v 12 b else setInt 4 v 8 b.
(** lib/mp4_generic.cpp:103-134.  A sample: duration, size, flags, offset. *)
Definition setSampleInformation (dur size flg off : Z) (no : Z) (b : box) : res box :=
  f <~ getIntC 3 1 b;;
  let w := 4 * ((if has f trunsampleDuration then 1 else 0) + (if has f trunsampleSize then 1 else 0) + (if has f trunsampleFlags then 1 else 0) + (if has f trunsampleOffsets then 1 else 0)) in
  let o := 8 + (if has f trundataOffset then 4 else 0) + (if has f trunfirstSampleFlags then 4 else 0) in
  let at_ i := u32 (o + no * w + i) in
  let put (s : res (box * Z)) (m v : Z) := s <~ s;; if has f m then b <~ setInt 4 v (at_ (snd s)) (fst s);; Ok (b, snd s + 4) else Ok s in
  s <~ put (put (put (put (Ok (b, 0)) trunsampleDuration dur) trunsampleSize size) trunsampleFlags flg) trunsampleOffsets off;;
  c <~ getIntC 4 4 (fst s);;
  if c <? u32 (no + 1) then setInt 4 (u32 (no + 1)) 4 (fst s) else Ok (fst s).

(** lib/cmaf.cpp:9-16 payloadSize *)
Fixpoint sum_sizes (n : nat) (t : track) (i acc : Z) : Z :=
  match n with O => acc | S k => sum_sizes k t (i + 1) (u64 (acc + pt_size (Meta_Model.at_ (parts t) i))) end.
Definition segmentSize (t : track) (from until : Z) : Z :=
  let a := getPartIndex t from in let e := getPartIndex t until in sum_sizes (Z.to_nat (e - a)) t a 0.
(** lib/cmaf.cpp:196-204 keyHeaderSize *)
Definition keyHeaderSize (t : track) (from until : Z) : Z := u64 (76 + (24 + u64 (u64 (getPartIndex t until - getPartIndex t from) * 12))).

(** lib/cmaf.cpp:167-174 sortPart: time, partIndex, bytePos; std::set keeps them by time, one for each time. *)
Definition sortPart : Type := Z * Z * Z.
Definition s_time (x : sortPart) : Z := fst (fst x).
Definition s_part (x : sortPart) : Z := snd (fst x).
Definition s_pos (x : sortPart) : Z := snd x.
Fixpoint insert (x : sortPart) (l : list sortPart) : list sortPart :=
  match l with
  | [] => [x]
  | y :: r => if s_time x <? s_time y then x :: l else if s_time y <? s_time x then y :: insert x r else l
  end.
(** lib/cmaf.cpp:219-232 *)
Fixpoint order_loop (n : nat) (t : track) (p : Z) (temp : sortPart) (l : list sortPart) : list sortPart :=
  match n with
  | O => l
  | S k =>
      order_loop k t (p + 1) (u64 (s_time temp + pt_dur (Meta_Model.at_ (parts t) p)), s_part temp + 1, u64 (s_pos temp + pt_size (Meta_Model.at_ (parts t) p))) (insert temp l)
  end.
Definition trunOrder (t : track) (from until : Z) : list sortPart :=
  let a := getPartIndex t from in let e := getPartIndex t until in
  order_loop (Z.to_nat (e - a)) t a (from, a, u64 (keyHeaderSize t from until + 8)) [].

(** lib/cmaf.cpp:237-246: the track's header, its numbers from zero up. *)
Definition tfhdOf (t : track) (track : Z) : res box :=
  b <~ setInt 3 (tfhdSampleFlag .| tfhdBaseIsMoof .| tfhdSampleDesc) 1 (newBox (bs "tfhd"));;
  b <~ setInt 4 (u32 (track + 1)) 4 b;;
  b <~ setDefaultSampleDuration 444 b;;
  b <~ setDefaultSampleSize 444 b;;
  b <~ setDefaultSampleFlags (if video t then noIPicture .| noKeySample else isIPicture .| isKeySample) b;;
  setSampleDescriptionIndex 1 b.
(** lib/cmaf.cpp:249-255: [utc] is the time of boot when the times are to be those of the day. *)
Definition baseTime (t : track) (vod : bool) (utc : option Z) (from : Z) : Z :=
  if vod then u64 (from - firstms t) else match utc with Some z => u64 (from + z) | None => from end.
(** lib/cmaf.cpp:258-281 *)
Fixpoint trun_loop (t : track) (until : Z) (l : list sortPart) (k : Z) (b : box) : res box :=
  match l with
  | [] => Ok b
  | x :: r =>
      let q := Meta_Model.at_ (parts t) (s_part x) in
      b <~ setSampleInformation (u32 (match r with [] => u64 (until - s_time x) | _ => pt_dur q end)) (pt_size q) 0 (u32 (pt_off q)) k b;;
      trun_loop t until r (k + 1) b
  end.
Definition trunOf (t : track) (until : Z) (l : list sortPart) : res box :=
  b <~ setInt 3 (trundataOffset .| trunfirstSampleFlags .| trunsampleSize .| trunsampleDuration .| trunsampleOffsets) 1 (newBox (bs "trun"));;
  match l with
  | [] => Ub (* trunOrder.begin()-> of an empty set *)
  | x :: _ => b <~ setDataOffset (u32 (s_pos x)) b;; b <~ setFirstSampleFlags (isIPicture .| isKeySample) b;; trun_loop t until l 0 b
  end.
(** lib/cmaf.cpp:207-291 keyHeader *)
Definition keyHeader (t : track) (track : Z) (vod : bool) (utc : option Z) (from until segmentNum : Z) : res (list Z) :=
  m <~ mfhd segmentNum;; moof <~ setContent m 0 (newBox (bs "moof"));;
  h <~ tfhdOf t track;; traf <~ setContent h 0 (newBox (bs "traf"));;
  d <~ tfdt;; d <~ setBaseMediaDecodeTime (baseTime t vod utc from) d;; traf <~ setContent d 1 traf;;
  r <~ trunOf t until (trunOrder t from until);; traf <~ setContent r 2 traf;;
  moof <~ setContent traf 1 moof;;
  n <~ boxedSize moof;; getn (b_data moof) 0 n.
(** src/output/output_cmaf.cpp:445-450: what precedes the packets of a segment. *)
Definition segmentStart (t : track) (track : Z) (vod : bool) (utc : option Z) (from until segmentNum : Z) : res (list Z) :=
  h <~ keyHeader t track vod utc from until segmentNum;; Ok (h ++ be 4 (8 + segmentSize t from until) ++ bs "mdat").
