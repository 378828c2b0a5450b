(** Model of AV1 over RTP: /repo/lib/av1.cpp:9-89, /repo/lib/rtp.cpp:330-409 (sendAV1). *)
From Verif Require Import Common.

(** av1.cpp:9-19 leb128; a size_t has at most 10 groups of 7 bits. *)
Fixpoint leb (fuel : nat) (i : Z) : list Z :=
  match fuel with
  | O => []
  | S k => if 0x80 <=? i then ((i .& 0x7F) .| 0x80) :: leb k (i >> 7) else [i]
  end.
Definition leb128 (i : Z) : list Z := leb 10 i.
(** av1.cpp:21-68 OBU::init (simplified: a byte with the extension flag, alone, is read one byte past its end there): invalid (its size is 0), or the size [l] and the size of the header; [OUndef] is an int shifted too
    far.  [d] is all that there is, of [len d] bytes. *)
Inductive obu := OInvalid | OUndef | OValid (l hdr : Z).
Fixpoint size_field (fuel : nat) (d : list Z) (i pl h : Z) : option (Z * Z) + unit :=
  match fuel with
  | O => inl None
  | S k =>
    if len d <? h + 1 then inl None else
    let b := nth (Z.to_nat h) d 0 in
    let x := b .& 0x7F in
    if (5 <=? i) || ((i =? 4) && (8 <=? x)) then inr tt else
    let pl := pl .| (x << (i * 7)) in
    if b .& 0x80 =? 0 then inl (Some (pl, h + 1)) else size_field k d (i + 1) pl (h + 1)
  end.
Definition init (d : list Z) : obu :=
  match d with
  | [] => OInvalid
  | b :: _ =>
    let h := if b .& 4 =? 0 then 1 else 2 in
    let finish pl h l := if ((b .& 0x78) >> 3 =? 2) && negb (pl =? 0) then OValid h h else OValid l h in
    if b .& 2 =? 0 then finish (u64 (len d - h)) h (len d) else
    match size_field 7 d 0 0 h with
    | inl None => OInvalid
    | inr tt => OUndef
    | inl (Some (pl, h)) => if len d <? pl + h then OInvalid else finish pl h (pl + h)
    end
  end.
(** av1.cpp:70-89 isKeyframe, of what was found to be valid *)
Definition isKeyframe (d : list Z) (l hdr : Z) : bool :=
  let p0 := nth 0 d 0 in let ph := nth (Z.to_nat hdr) d 0 in let type := (p0 .& 0x78) >> 3 in
  if negb (p0 .& 4 =? 0) && (1 <? l) && negb (nth 1 d 0 .& 0xE0 =? 0) then false else
  if (type =? 1) && (hdr <? l) && negb (ph .& 8 =? 0) then true else
  ((type =? 3) || (type =? 6) || (type =? 7)) && (hdr <? l) && (ph .& 0xF0 =? 0x10).

(** *** Sending.  A packet is its aggregation header and what follows it; [hs] is the size of the RTP header, [max] is maxDataLen. *)
Record pk := mkpk { agg : Z; els : list Z }.
Definition size (hs : Z) (p : pk) : Z := hs + 1 + len (els p).
Inductive sent (A : Type) := Sent (a : A) | Hangs | Wild.
Arguments Sent {A}. Arguments Hangs {A}. Arguments Wild {A}.
(** rtp.cpp:339-343: is one of the units a keyframe?  A unit of size 0 is tried again for ever. *)
Fixpoint keyframe (fuel : nat) (payload : list Z) : sent bool :=
  match payload, fuel with
  | [], _ => Sent false
  | _, O => Hangs
  | _, S k =>
    match init payload with
    | OInvalid => Hangs
    | OUndef => Wild
    | OValid l h => if isKeyframe payload l h then Sent true else if l =? 0 then Hangs else keyframe k (dropz l payload)
    end
  end.
(** rtp.cpp:374-402: the packets sent while a unit is written, and the packet begun.  A length below 0 is a size_t of almost 2^64 to memcpy. *)
Fixpoint write (fuel : nat) (hs max : Z) (p : pk) (o : list Z) : sent (list pk * pk) :=
  match o, fuel with
  | [], _ => Sent ([], p)
  | _, O => Hangs
  | _, S k =>
    let w := if max <? size hs p + len o + 4 then max - size hs p - 4 else len o in
    if w <? 0 then Wild else
    let e := els p ++ leb128 w ++ takez w o in
    if w =? len o then Sent ([], mkpk (agg p) e) else
    match write k hs max (mkpk 0x80 []) (dropz w o) with
    | Sent (out, q) => Sent (mkpk (agg p .| 0x40) e :: out, q)
    | r => r
    end
  end.
(** rtp.cpp:353-403 *)
Fixpoint sendUnits (fuel : nat) (hs max : Z) (p : pk) (payload : list Z) : sent (list pk * pk) :=
  match payload, fuel with
  | [], _ => Sent ([], p)
  | _, O => Hangs
  | _, S k =>
    match init payload with
    | OInvalid => Hangs
    | OUndef => Wild
    | OValid l _ =>
      if l =? 0 then Hangs else
      let flush := (max <? size hs p + max / 3) && (max <? size hs p + l) in
      let '(out1, p) := if flush then ([p], mkpk 0 []) else ([], p) in
      match write (S (S (Z.to_nat l))) hs max p (takez l payload) with
      | Sent (out2, p) =>
        match sendUnits k hs max p (dropz l payload) with
        | Sent (out3, p) => Sent (out1 ++ out2 ++ out3, p)
        | r => r
        end
      | r => r
      end
    end
  end.
(** rtp.cpp:330-409 sendAV1: the packets, each with its marker bit and what follows the RTP header. *)
Definition sendAV1 (hs max : Z) (payload : list Z) : sent (list (bool * list Z)) :=
  match keyframe (S (List.length payload)) payload with
  | Sent key =>
    match sendUnits (S (List.length payload)) hs max (mkpk (if key then 8 else 0) []) payload with
    | Sent (out, p) => Sent (map (fun p => (false, agg p :: els p)) out ++ [(true, agg p :: els p)])
    | Hangs => Hangs | Wild => Wild
    end
  | Hangs => Hangs | Wild => Wild
  end.
