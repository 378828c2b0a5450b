(** Specification of H264 and HEVC video in transport streams. *)
From Verif Require Import Common Bits Nal_Spec Bitstream_Model Bitstream_Spec Dtsc_Spec Avcc_Spec.

(** The type of a unit, in its first byte. *)
Definition avc_type (u : list Z) : Z := hd 0 u mod 32.
Definition hevc_type (u : list Z) : Z := (hd 0 u / 2) mod 64.
Definition is_set (u : list Z) : bool := (avc_type u =? 7) || (avc_type u =? 8).
Definition is_delimiter (u : list Z) : bool := avc_type u =? 9.
Definition delimiter : list Z := [9; 0xF0].

(** The units sent for a frame: with H264 a delimiter goes first unless one of the first five units is one; a key frame
    gets the parameter sets of the track, with H264 unless one of the first five units is one. *)
Definition sent_units (hevc key : bool) (sets us : list (list Z)) : list (list Z) :=
  (if hevc || existsb is_delimiter (firstn 5 us) then [] else [delimiter]) ++
  (if key && (hevc || negb (existsb is_set (firstn 5 us))) then sets else []) ++ us.

(** [k]: whether [u] makes its frame a key frame.  HEVC: types 16 to 21.  H264: an IDR slice, or another slice that is an I
    or SI slice: its payload starts with the codes of the number of its first macroblock and of its type; these are within
    the first 48 bits. *)
Definition key_unit (hevc : bool) (u : list Z) (k : bool) : Prop :=
  if hevc then k = (16 <=? hevc_type u) && (hevc_type u <=? 21)
  else avc_type u <> 1 /\ k = (avc_type u =? 5) \/
       avc_type u = 1 /\ exists h payload mb t rest,
         u = h :: insert_ep 0 payload /\ bytesP payload /\ bits payload = ue_code mb ++ ue_code t ++ rest /\
         0 <= mb < 2 ^ 31 /\ 0 <= t <= 9 /\ len (ue_code mb ++ ue_code t) <= 48 /\
         k = ((t mod 5 =? 2) || (t mod 5 =? 4)).

(** [init] is a well-formed init data of a track with these parameter sets: lengths of frames take four bytes. *)
Definition init_for (hevc : bool) (init : list Z) (sets : list (list Z)) : Prop :=
  if hevc then exists general arrays, len general = 22 /\ Forall array_ok arrays /\ len arrays < 256 /\ len (hevc_record general arrays) + 8 < 2 ^ 31 /\
    init = hevc_record general arrays /\ sets = flat_map snd arrays
  else exists profile compat level spss ppss more, small spss /\ small ppss /\ len spss <= 31 /\ len ppss <= 255 /\
    len (avc_record profile compat level 4 spss ppss more) + 8 < 2 ^ 31 /\ init = avc_record profile compat level 4 spss ppss more /\ sets = spss ++ ppss.

(** A frame as it arrives: time, composition offset and place of its PES packet, its units behind start codes of three or
    (true) four bytes, and for each of them whether it makes a key frame. *)
Record arrival := mkA { a_time : Z; a_off : Z; a_pos : Z; a_units : list (bool * list Z); a_keys : list bool }.
Definition arrival_ok (hevc : bool) (tid : Z) (x : arrival) : Prop :=
  0 <= a_time x < 2 ^ 64 /\ - 2 ^ 63 <= a_off x < 2 ^ 63 /\ 0 <= tid < 2 ^ 32 /\ 0 <= a_pos x < 2 ^ 64 /\ a_units x <> [] /\
  Forall2 (fun u k => nal_ok (snd u) /\ key_unit hevc (snd u) k) (a_units x) (a_keys x) /\ len (annexb (a_units x)) < 2 ^ 30.
(** The packet of a frame. *)
Definition arrived (tid : Z) (key : bool) (x : arrival) : fields :=
  mkF (a_time x) (a_off x) tid (length_prefixed (map snd (a_units x))) (a_pos x) key.
Definition has_key (x : arrival) : bool := existsb (fun k => k) (a_keys x).
(** Times of consecutive frames differ. *)
Fixpoint apart (l : list arrival) : Prop :=
  match l with x :: r => match r with y :: _ => a_time x <> a_time y | [] => True end /\ apart r | [] => True end.
(** Which packets the receiver says are key frames: the first unit of a frame counts for the packet before it, except in
    the first frame. *)
Definition first_key (x : arrival) : bool := hd false (a_keys x).
Definition other_key (x : arrival) : bool := existsb (fun k => k) (tl (a_keys x)).
Fixpoint flagged (tid : Z) (mine : bool) (l : list arrival) : list fields :=
  match l with
  | [] => []
  | x :: r => arrived tid (mine || other_key x || match r with y :: _ => first_key y | [] => false end) x :: flagged tid false r
  end.
(** The last unit of a type. *)
Definition last_of (ty : Z) (us : list (list Z)) : option (list Z) :=
  fold_left (fun old u => if avc_type u =? ty then Some u else old) us None.

(** A frame on its way: at a time with a composition offset (ms), the parameter sets of its track, its units, for each unit
    that is sent whether it makes a key frame, and the place where the receiver finds it. *)
Record travel := mkT { t_time : Z; t_off : Z; t_key : bool; t_sets : list (list Z); t_units : list (list Z); t_keys : list bool; t_pos : Z }.
Definition t_sent (hevc : bool) (x : travel) : list (list Z) := sent_units hevc (t_key x) (t_sets x) (t_units x).
Definition travel_ok (hevc : bool) (x : travel) : Prop :=
  0 <= t_time x /\ t_time x * 27000 < 2 ^ 63 /\ 0 <= t_off x /\ 90 * t_time x mod 2 ^ 33 + 90 * t_off x < 2 ^ 33 /\ 0 <= t_pos x < 2 ^ 64 /\
  t_units x <> [] /\ Forall bytesP (t_sets x) /\ Forall2 (fun u k => nal_ok u /\ key_unit hevc u k) (t_sent hevc x) (t_keys x) /\
  len (started (t_units x)) + len (started (t_sets x)) + 6 < 2 ^ 30.
Definition at_time (hevc : bool) (x : travel) (t : Z) : arrival := mkA t (t_off x) (t_pos x) (map (pair true) (t_sent hevc x)) (t_keys x).
(** Payloads of PES packets with the places where they were found. *)
Fixpoint placed (l : list (Z * Z * list Z)) (pos : list Z) : list (Z * Z * Z * list Z) :=
  match l, pos with (t, o, d) :: r, p :: q => (t, o, p, d) :: placed r q | _, _ => [] end.
Fixpoint rising (l : list Z) : Prop := match l with x :: r => match r with y :: _ => x < y | [] => True end /\ rising r | [] => True end.
