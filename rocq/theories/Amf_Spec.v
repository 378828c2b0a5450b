(** Specification of AMF0 values. *)
From Verif Require Import Common Amf_Model.

(** Values as users of the API see them. Doubles are bit patterns. *)
Inductive val :=
| VNum (d : Z) | VBool (b : bool) | VText (s : list Z) | VXml (s : list Z) | VDate (d : Z) | VRef (n : Z)
| VNull | VUndefined | VUnsupported
| VObj (l : list (list Z * val)) | VEcma (l : list (list Z * val)) | VArr (l : list val).

(** An object of the library shows a value: GetType, NumValue, StrValue, the contents in order and the
    Indice of members. A text is a short or a long string. *)
Inductive shows : aobj -> val -> Prop :=
| sh_num nm d s c : shows (AO nm 0 d s c) (VNum d)
| sh_true nm s c : shows (AO nm 1 0x3FF0000000000000 s c) (VBool true)
| sh_false nm s c : shows (AO nm 1 0 s c) (VBool false)
| sh_str nm d s c : shows (AO nm 2 d s c) (VText s)
| sh_long nm d s c : shows (AO nm 12 d s c) (VText s)
| sh_xml nm d s c : shows (AO nm 15 d s c) (VXml s)
| sh_date nm d s c : shows (AO nm 11 d s c) (VDate d)
| sh_ref nm n s c : shows (AO nm 7 (z2d n) s c) (VRef n)
| sh_null nm d s c : shows (AO nm 5 d s c) VNull
| sh_undef nm d s c : shows (AO nm 6 d s c) VUndefined
| sh_unsup nm d s c : shows (AO nm 13 d s c) VUnsupported
| sh_obj nm d s c l : Forall2 (fun o e => aname o = fst e /\ shows o (snd e)) c l -> shows (AO nm 3 d s c) (VObj l)
| sh_ecma nm d s c l : Forall2 (fun o e => aname o = fst e /\ shows o (snd e)) c l -> shows (AO nm 8 d s c) (VEcma l)
| sh_arr nm d s c l : Forall2 shows c l -> shows (AO nm 10 d s c) (VArr l).

(** Values within the limits of the format: names of members are not empty and shorter than 64 KiB. *)
Inductive fits : val -> Prop :=
| f_num d : 0 <= d < 2 ^ 64 -> fits (VNum d)
| f_bool b : fits (VBool b)
| f_text s : bytesP s -> len s < 2 ^ 31 -> fits (VText s)
| f_xml s : bytesP s -> len s < 2 ^ 31 -> fits (VXml s)
| f_date d : 0 <= d < 2 ^ 64 -> fits (VDate d)
| f_ref n : 0 <= n < 65536 -> fits (VRef n)
| f_null : fits VNull | f_undef : fits VUndefined | f_unsup : fits VUnsupported
| f_obj l : Forall (fun e => bytesP (fst e) /\ 0 < len (fst e) < 65536 /\ fits (snd e)) l -> fits (VObj l)
| f_ecma l : len l < 2 ^ 31 -> Forall (fun e => bytesP (fst e) /\ 0 < len (fst e) < 65536 /\ fits (snd e)) l -> fits (VEcma l)
| f_arr l : len l < 2 ^ 31 -> Forall fits l -> fits (VArr l).
