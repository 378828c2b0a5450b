(** Tables of a transport stream as ISO/IEC 13818-1 describes them (2.4.4), and the cutting of a stream of packets into pieces. *)
From Verif Require Import Common Crc_Spec Ts_Spec.

(** ** Streams of packets. *)
(** A packet: 188 bytes, the first of them the sync byte. *)
Definition ts_packet (b : list Z) : Prop := len b = 188 /\ nthz b 0 = 0x47.
(** Packets with their positions, the first of them at [pos]. *)
Fixpoint placed (pos : Z) (ps : list (list Z)) : list (Z * list Z) :=
  match ps with [] => [] | p :: r => (pos, p) :: placed (pos + 188) r end.

(** ** 2.4.4.1: a packet that begins a table has the pointer byte first, then as many bytes of something else, then the section. *)
Definition holds (b section : list Z) : Prop :=
  valid b /\ unit_start (view b) = 1 /\ exists skip rest, payload b = Some (len skip :: skip ++ section ++ rest).

(** 2.4.4.3: the section of a PAT.  Program numbers with the PIDs of their tables. *)
Definition pat_section (id version : Z) (programs : list (Z * Z)) (crc : list Z) : list Z :=
  [0] ++ be 2 (0xB000 + (9 + 4 * len programs)) ++ be 2 id ++ [version; 0; 0] ++
  List.concat (map (fun x => be 2 (fst x) ++ be 2 (0xE000 + snd x)) programs) ++ crc.

(** 2.6: descriptors, a tag and some bytes each. *)
Definition desc := (Z * list Z)%type.
Definition desc_bytes (ds : list desc) : list Z := List.concat (map (fun d => fst d :: len (snd d) :: snd d) ds).
Definition desc_ok (d : desc) : Prop := byteP (fst d) /\ bytesP (snd d) /\ len (snd d) < 256.
(** The format identifier in a registration descriptor (2.6.8). *)
Fixpoint registration (ds : list desc) : list Z :=
  match ds with [] => [] | d :: r => if fst d =? 5 then snd d else registration r end.
(** 2.4.4.8: elementary streams and the section of a PMT. *)
Record stream := mkes { es_type : Z; es_pid : Z; es_desc : list desc }.
Definition stream_ok (e : stream) : Prop := byteP (es_type e) /\ 0 <= es_pid e < 8192 /\ Forall desc_ok (es_desc e).
Definition es_bytes (e : stream) : list Z :=
  [es_type e] ++ be 2 (0xE000 + es_pid e) ++ be 2 (0xF000 + len (desc_bytes (es_desc e))) ++ desc_bytes (es_desc e).
Definition pmt_section (program version clock : Z) (info : list desc) (es : list stream) (crc : list Z) : list Z :=
  let body := List.concat (map es_bytes es) in
  [2] ++ be 2 (0xB000 + (13 + len (desc_bytes info) + len body)) ++ be 2 program ++ [version; 0; 0] ++ be 2 (0xE000 + clock) ++
  be 2 (0xF000 + len (desc_bytes info)) ++ desc_bytes info ++ body ++ crc.
(** 2.4.4.9: the last four bytes make the MPEG-2 checksum of the whole section zero. *)
Definition checked (section : list Z) : Prop := crc_msb 32 0x04C11DB7 0xFFFFFFFF section = 0.

(** ** What the receiver is to make of a stream: nothing, or note its codec (possibly none).  Private data (type 6) is told by its
    registration; without a known one it is what the user said raw data is ([raw]: 0x060001 Opus, 0x060002 JSON, 0x060003 AV1). *)
Inductive sense := Ignored | Codec (c : option Z).
Definition sense_of (raw : Z) (e : stream) : sense :=
  if es_type e =? 6 then
    let r := registration (es_desc e) in
    Codec (if beqb r (bs "Opus") then Some 0x060001 else if beqb r (bs "JSON") then Some 0x060002
           else if raw =? 0x060002 then Some 0x060002 else if beqb r (bs "AV01") then Some 0x060003
           else if raw =? 0x060003 then Some 0x060003 else if raw =? 0x060001 then Some 0x060001 else None)
  else if existsb (Z.eqb (es_type e)) [0x1B; 0x0F; 0x24; 0x81; 0x86; 0x15; 0x03; 0x02] then Codec (Some (es_type e))
  else Ignored.
(** The codec of a PID after a table: the last entry for it that is not ignored counts. *)
Definition codec_after (raw : Z) (es : list stream) (pid : Z) (old : option Z) : option Z :=
  fold_left (fun c e => if es_pid e =? pid then match sense_of raw e with Ignored => c | Codec x => x end else c) es old.
Definition init_after (raw : Z) (es : list stream) (pid : Z) (old : option (list Z)) : option (list Z) :=
  fold_left (fun c e => if es_pid e =? pid then match sense_of raw e with Ignored => c | Codec _ => Some (desc_bytes (es_desc e)) end else c) es old.

(** ** What the sender is to announce for a track of some codec: the stream type and descriptors, and what the receiver then
    parses it as. *)
Record announcement := mkann { a_type : Z; a_desc : list desc; a_codec : Z }.
(** [init]: the first four bytes of it, filled up with zeroes. *)
Definition announce (codec init : list Z) (channels : Z) : option announcement :=
  if beqb codec (bs "H264") then Some (mkann 0x1B [] 0x1B)
  else if beqb codec (bs "HEVC") then Some (mkann 0x24 [] 0x24)
  else if beqb codec (bs "MPEG2") then Some (mkann 0x02 [] 0x02)
  else if beqb codec (bs "AAC") then Some (mkann 0x0F [(0x7C, [0x51; 0])] 0x0F)
  else if beqb codec (bs "MP3") then Some (mkann 0x03 [] 0x03)
  else if beqb codec (bs "MP2") then Some (mkann 0x03 [] 0x03)
  else if beqb codec (bs "opus") then Some (mkann 0x06 [(5, bs "Opus"); (0x7F, [0x80; channels mod 256])] 0x060001)
  else if beqb codec (bs "JSON") then Some (mkann 0x06 [(5, bs "JSON")] 0x060002)
  else if beqb codec (bs "AV1") then Some (mkann 0x06 [(5, bs "AV01"); (0x80, takez 4 (init ++ [0; 0; 0; 0]))] 0x060003)
  else if beqb codec (bs "SCTE35") then Some (mkann 0x86 [(0, [0]); (5, bs "CUEI")] 0x86)
  else if beqb codec (bs "AC3") then Some (mkann 0x81 [] 0x81)
  else if beqb codec (bs "ID3") then Some (mkann 0x15 [] 0x15)
  else None.
(** A language of three letters is told, unless undefined. *)
Definition language (lang : list Z) : list desc := if (len lang =? 3) && negb (beqb lang (bs "und")) then [(0x0A, lang ++ [0])] else [].

(** 2.6.18, ETSI EN 300 468 5.2.3, 6.2.33: the section of a service description table with one running service (number 1, not
    scrambled; the bit is set as the code does) of a provider and a name. *)
Definition service (provider name : list Z) (length : Z) : list Z :=
  [0x48; length; 1; len provider] ++ provider ++ [len name] ++ name.
Definition sdt_section (version reserved flags : Z) (info crc : list Z) : list Z :=
  [0x42] ++ be 2 (0x8000 + (8 + 5 + len info + 4)) ++ be 2 1 ++ [version; 0; 0] ++ be 2 0xE001 ++ [reserved] ++
  be 2 1 ++ [flags] ++ be 2 (0x9000 + len info) ++ info ++ crc.
