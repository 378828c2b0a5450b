(** C06: bit streams and Exp-Golomb codes (lib/bitstream.h, lib/bitstream.cpp). *)
From Verif Require Import Common CommonFacts Bits Bitstream_Model Bitstream_Spec Bitstream_Proofs.

(** C06. Writing any sequence of elements is well defined and produces exactly their codes, in
    order, padded with zero bits to a whole byte. *)
Theorem bitstream_writer_bits : forall l,
  Forall item_ok l -> len (code l) < 8 * (2 ^ 32 - 1) ->
  exists w pad, bw_items bw_new l = Some w /\ (pad < 8)%nat /\
    bits (bw_str w) = code l ++ repeat false pad /\ bytesP (bw_str w).
Proof. exact write_ok. Qed.
Print Assumptions bitstream_writer_bits.

(** C06. Reading elements of given kinds from a stream that starts with their codes gives their
    values and leaves the rest unread. *)
Theorem bitstream_reader_exact : forall l r rest,
  reader r -> Forall item_ok l -> unread r = code l ++ rest ->
  exists r', br_items r l = (map item_value l, r') /\ reader r' /\ unread r' = rest.
Proof. exact br_items_ok. Qed.
Print Assumptions bitstream_reader_exact.

(** C06. What is written reads back, whatever bytes follow. *)
Theorem bitstream_round_trip : forall l extra,
  Forall item_ok l -> len (code l) < 8 * (2 ^ 32 - 1) -> bytesP extra ->
  exists w, bw_items bw_new l = Some w /\
  exists r', br_items (br_append (mkbr [] 0) (bw_str w ++ extra)) l = (map item_value l, r').
Proof. exact round_trip. Qed.
Print Assumptions bitstream_round_trip.

(** C06. peek of up to 64 bits gives the next bits as a number, or 0 beyond the end. *)
Theorem bitstream_peek : forall r count, reader r -> 0 <= count <= 64 ->
  br_peek r count = if count <=? br_size r then bits_val (takez count (unread r)) else 0.
Proof. exact peek_ok. Qed.
Print Assumptions bitstream_peek.

(** C06. Dropping the consumed bytes does not change what remains to be read. *)
Theorem bitstream_flush : forall r, reader r ->
  reader (br_flush r) /\ unread (br_flush r) = unread r /\ br_size (br_flush r) = br_size r.
Proof. exact flush_ok. Qed.
Print Assumptions bitstream_flush.

Example bitstream_nonvacuous :
  let l := [Fixed 5 3; UE 0; UE 4294967294; SE (-3); SE 3; Fixed 18446744073709551615 64; UE 7] in
  code [UE 7] = [false; false; false; true; false; false; false] /\
  (forall x, In x l -> x <> UE 4294967294 -> item_ok x) /\
  option_map (fun w => fst (br_items (mkbr (bw_str w) 0) [Fixed 0 3; UE 0; SE 0; SE 0; Fixed 0 64; UE 0]))
    (bw_items bw_new [Fixed 5 3; UE 0; SE (-3); SE 3; Fixed 18446744073709551615 64; UE 7])
  = Some [5; 0; -3; 3; 18446744073709551615; 7].
Proof.
  cbv zeta. split; [reflexivity|]. split; [|vm_compute; reflexivity].
  intros x Hx Hn. cbn in Hx.
  destruct Hx as [<-|[<-|[<-|[<-|[<-|[<-|[<-|[]]]]]]]]; cbn; lia || congruence.
Qed.

(** C06, beyond 32 bit values: an unsigned Exp-Golomb value of 2^40 needs 81 bits and overruns the
    9 byte scratch buffer of append. Finding F05. *)
Theorem exp_golomb_large_refuted : bw_append_ue bw_new (2 ^ 40) = None.
Proof. vm_compute. reflexivity. Qed.
Print Assumptions exp_golomb_large_refuted.

(** The least significant bit first reader reads beyond its data when fed fewer than four bytes.
    Finding F06. *)
Theorem lsbf_append_refuted : lsb_append (mklsb [] 0 0) [1] = None.
Proof. vm_compute. reflexivity. Qed.
Print Assumptions lsbf_append_refuted.
