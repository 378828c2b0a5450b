(** Decoder configuration records (ISO/IEC 14496-15, 5.3.3.1 and 8.3.3.1). *)
From Verif Require Import Common.

Definition sized (u : list Z) : list Z := be 2 (len u) ++ u.
(** AVCDecoderConfigurationRecord: version 1, profile, compatibility, level, six set bits and the size of the lengths less
    one, three set bits and the number of sequence parameter sets, these, the number of picture parameter sets, these,
    whatever a profile adds. *)
Definition avc_record (profile compat level lensize : Z) (spss ppss : list (list Z)) (more : list Z) : list Z :=
  [1; profile; compat; level; 0xFC + (lensize - 1); 0xE0 + len spss] ++ flat_map sized spss ++ [len ppss] ++ flat_map sized ppss ++ more.
(** HEVCDecoderConfigurationRecord: 22 bytes, the number of arrays, and for each of them its type byte, the number of
    units, these. *)
Definition hevc_array (a : Z * list (list Z)) : list Z := [fst a] ++ be 2 (len (snd a)) ++ flat_map sized (snd a).
Definition hevc_record (general : list Z) (arrays : list (Z * list (list Z))) : list Z :=
  general ++ [len arrays] ++ flat_map hevc_array arrays.
(** Units behind start codes of four bytes. *)
Definition started (us : list (list Z)) : list Z := flat_map (fun u => [0; 0; 0; 1] ++ u) us.
(** Parameter sets whose lengths, and HEVC arrays whose counts, a signed 16 bit number holds. *)
Definition small (us : list (list Z)) : Prop := Forall (fun u => len u < 2 ^ 15) us.
Definition array_ok (a : Z * list (list Z)) : Prop := byteP (fst a) /\ small (snd a) /\ len (snd a) < 2 ^ 15.
