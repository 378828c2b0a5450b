(** Specification of DTSC packets: the fields a reader sees. *)
From Verif Require Import Common Outcome_Model Scan_Model Dtsc_Model Dtmi_Spec.

(** A packet reports these fields: the time, offset, track, payload, byte position and key flag, and
    its announced length is the number of its bytes. *)
Record fields := mkF { f_time : Z; f_offset : Z; f_track : Z; f_data : list Z; f_bpos : Z; f_key : bool }.
Definition reports (p : packet) (f : fields) : Prop :=
  valid p = Ok true /\
  returns (fun n => getTime (fun _ => 0) (fun _ => 0) n p) (f_time f) /\
  returns (fun n => getTrackId (fun _ => 0) (fun _ => 0) n p) (f_track f) /\
  (forall d t, returns (fun n => getInt d t n (bs "offset") p) (u64 (f_offset f))) /\
  (forall d t, returns (fun n => getInt d t n (bs "bpos") p) (f_bpos f)) /\
  (forall d t, returns (fun n => getFlag d t n (bs "keyframe") p) (f_key f)) /\
  returns (fun n => getStr n (bs "data") p) (f_data f) /\
  exists b, pdata p = Some b /\ dlen p <= len b /\ getbe b 4 4 = Ok (dlen p - 8).

(** Fields that fit their types and leave room for the 32 bit length. *)
Definition fields_ok (f : fields) : Prop :=
  0 <= f_time f < 2 ^ 64 /\ - 2 ^ 63 <= f_offset f < 2 ^ 63 /\ 0 <= f_track f < 2 ^ 32 /\
  0 <= f_bpos f < 2 ^ 64 /\ bytesP (f_data f) /\ len (f_data f) + 86 < 2 ^ 32.

(** Bytes on the wire: the magic, the length of the rest, track and time, then one object. *)
Definition opt {A} (b : bool) (x : A) : list A := if b then [x] else [].
Definition object_of (f : fields) : wv :=
  WObj 224 (opt (negb (f_offset f =? 0)) (bs "offset", WInt (f_offset f))
    ++ opt (negb (f_bpos f =? 0)) (bs "bpos", WInt (s64 (f_bpos f)))
    ++ opt (f_key f) (bs "keyframe", WInt 1)
    ++ [(bs "data", WStr (f_data f))]).
Definition wire_packet (f : fields) : list Z :=
  bs "DTP2" ++ be 4 (12 + len (enc (object_of f))) ++ be 4 (f_track f) ++ be 8 (f_time f) ++ enc (object_of f).

(** Changes to a packet that owns its data. [s_nal] holds, while the payload ends in a NAL unit put
    there by appendNal, the payload before that unit and the unit itself. *)
Inductive op := AppendData (a : list Z) | AppendNal (a : list Z) | UpgradeNal (a : list Z) | SetKeyFrame (b : bool) | SetTime (t : Z).
Record pst := mkS { s_f : fields; s_keyed : bool; s_nal : option (list Z * list Z) }.
Definition with_payload (f : fields) (d : list Z) : fields := mkF (f_time f) (f_offset f) (f_track f) d (f_bpos f) (f_key f).
Definition effect (o : op) (s : pst) : option pst :=
  let f := s_f s in
  match o with
  | AppendData a => Some (mkS (with_payload f (f_data f ++ a)) (s_keyed s) None)
  | AppendNal [] => Some s
  | AppendNal a => Some (mkS (with_payload f (f_data f ++ be 4 (len a) ++ a)) (s_keyed s) (Some (f_data f, a)))
  | UpgradeNal [] => Some s
  | UpgradeNal a =>
    match s_nal s with
    | Some (d, n) => Some (mkS (with_payload f (d ++ be 4 (len n + len a) ++ n ++ a)) (s_keyed s) (Some (d, n ++ a)))
    | None => None
    end
  | SetKeyFrame b => Some (mkS (mkF (f_time f) (f_offset f) (f_track f) (f_data f) (f_bpos f) (s_keyed s && b)) (s_keyed s) (s_nal s))
  | SetTime t => Some (mkS (mkF t (f_offset f) (f_track f) (f_data f) (f_bpos f) (f_key f)) (s_keyed s) (s_nal s))
  end.
Fixpoint effects (os : list op) (s : pst) : option pst :=
  match os with [] => Some s | o :: r => match effect o s with Some s' => effects r s' | None => None end end.
(** A packet as built: only a packet built as a key frame has the field setKeyFrame changes. *)
Definition built (f : fields) : pst := mkS f (f_key f) None.

(** The same calls on the model. *)
Section Run.
Context (junk : Z).
Definition do_op (n : nat) (o : op) (p : packet) : res packet :=
  match o with
  | AppendData a => appendData junk n a p
  | AppendNal a => appendNal junk n a p
  | UpgradeNal a => upgradeNal junk n a p
  | SetKeyFrame b => setKeyFrame n b p
  | SetTime t => setTime t p
  end.
Fixpoint do_ops (n : nat) (os : list op) (p : packet) : res packet :=
  match os with [] => Ok p | o :: r => p' <~ do_op n o p;; do_ops n r p' end.
End Run.
