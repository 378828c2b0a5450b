(** Specification of Ogg streams, after RFC 3533. *)
From Verif Require Import Common Crc_Spec.

Record opage := mkopage { o_flags : Z; o_granule : Z; o_serial : Z; o_number : Z; o_crc : Z; o_table : list Z; o_body : list Z }.
Definition encode_with (crc : Z) (p : opage) : list Z :=
  bs "OggS" ++ [0; o_flags p] ++ le 8 (o_granule p) ++ le 4 (o_serial p) ++ le 4 (o_number p) ++ le 4 crc ++ [len (o_table p)] ++ o_table p ++ o_body p.
Definition encode (p : opage) : list Z := encode_with (o_crc p) p.
Definition well_formed (p : opage) : Prop :=
  len (o_table p) <= 255 /\ Forall byteP (o_table p) /\ len (o_body p) = fold_right Z.add 0 (o_table p).
(** The checksum is that of the page with zeros in place of the checksum. *)
Definition checksum_right (p : opage) : Prop := o_crc p = crc_msb 32 0x04C11DB7 0 (encode_with 0 p).

(** Packets of a page: a table entry of 255 means that the packet goes on.  [open] is what there is of a packet from pages
    before; given are the packets that end on the page, and what is open then. *)
Fixpoint unlace (open : list Z) (table body : list Z) : list (list Z) * list Z :=
  match table with
  | [] => ([], open)
  | v :: table =>
    let x := open ++ takez v body in
    if v <? 255 then let r := unlace [] table (dropz v body) in (x :: fst r, snd r) else unlace x table (dropz v body)
  end.
(** Pages from number [n] on carry the packets of [todo] (data and granule position), as far as they are in them: from a
    state with a packet open to another one.  A page has the granule position of the last packet that ends on it, or -1; its flags tell
    whether it begins with the rest of a packet (1), and whether it is the first of the stream (2). *)
Definition no_granule : Z := 2 ^ 64 - 1.
Inductive carries (serial : Z) : Z -> list Z -> list (list Z * Z) -> list opage -> Z -> list Z -> list (list Z * Z) -> Prop :=
| c_nil n open todo : carries serial n open todo [] n open todo
| c_page n open p ps ended todo open' n2 open2 todo2 :
    well_formed p -> o_serial p = serial -> o_number p = u32 n -> o_flags p = (match open with [] => 0 | _ => 1 end) + (if n =? 0 then 2 else 0) ->
    unlace open (o_table p) (o_body p) = (map fst ended, open') -> o_granule p = List.last (map snd ended) no_granule ->
    carries serial (n + 1) open' todo ps n2 open2 todo2 -> carries serial n open (ended ++ todo) (p :: ps) n2 open2 todo2.

(** Sizes that need no special case: a packet of a multiple of 255 bytes ends with an entry of 0 in the table. *)
Definition ordinary (n : Z) : Prop := n mod 255 <> 0 \/ n = 0.
(** The entries of the table that a packet needs. *)
Definition entries (packets : list (list Z)) : Z := fold_right (fun d a => len d / 255 + 1 + a) 0 packets.

(** RFC 7845 5.2: the vendor of the second Opus packet, its length in little endian. *)
Definition opus_vendor (d : list Z) : option (list Z) :=
  if beqb (takez 8 d) (bs "OpusTags") then
    let n := unle (takez 4 (dropz 8 d)) in if n + 16 <=? len d then Some (takez n (dropz 12 d)) else None
  else None.
