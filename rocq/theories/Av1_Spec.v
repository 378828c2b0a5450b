(** Specification of AV1 units (AV1 bitstream specification, 4.10.5 and 5.3) and of AV1 in RTP (RTP payload format for AV1, 4). *)
From Verif Require Import Common.

(** leb128: groups of 7 bits, the least significant first; all but the last have the upper bit set. *)
Inductive uleb : Z -> list Z -> Prop :=
| u_last n : 0 <= n < 128 -> uleb n [n]
| u_more n b l : 0 <= b < 128 -> uleb n l -> uleb (n * 128 + b) ((128 + b) :: l).
(** A unit with a size field: type, perhaps a byte of extension, size (of up to [width] bytes: the format has 8), payload. *)
Record unit_ := mkunit { t_type : Z; t_ext : option Z; t_payload : list Z }.
Definition encodes (width : Z) (u : unit_) (d : list Z) : Prop :=
  exists size, uleb (len (t_payload u)) size /\ len size <= width /\
  d = [t_type u * 8 + (match t_ext u with None => 0 | Some _ => 4 end) + 2] ++ (match t_ext u with None => [] | Some e => [e] end) ++ size ++ t_payload u.
(** Units of this size are what the format allows, but for less than 2^28 bytes; a temporal delimiter (2) is empty. *)
Definition unit_ok (u : unit_) : Prop :=
  0 <= t_type u < 16 /\ match t_ext u with None => True | Some e => 0 <= e < 256 end /\ bytesP (t_payload u) /\ len (t_payload u) < 2 ^ 28 /\ (t_type u = 2 -> t_payload u = []).
(** A keyframe: of the lowest temporal layer, a still picture or a key frame to show. *)
Definition is_key (u : unit_) : bool :=
  let first := nth 0 (t_payload u) 0 in
  (match t_ext u with None => true | Some e => e / 32 =? 0 end) &&
  (((t_type u =? 1) && (first / 8 mod 2 =? 1)) || (((t_type u =? 3) || (t_type u =? 6) || (t_type u =? 7)) && (first / 16 =? 1))).

(** What follows the RTP header: flags Z (the first element goes on with one from the packet before), Y (the last one goes on in the
    next packet), N (a keyframe begins), then the elements, each with its size. *)
Record packet := mkpacket { z : bool; y : bool; n : bool; elements : list (list Z) }.
Definition carries (p : packet) (body : list Z) : Prop :=
  exists sizes, Forall2 (fun e s => uleb (len e) s) (elements p) sizes /\
  body = [(if z p then 128 else 0) + (if y p then 64 else 0) + (if n p then 8 else 0)] ++ List.concat (map (fun x => fst x ++ snd x) (combine sizes (elements p))).
(** Elements as parts of units: does it begin one, does it end one? *)
Fixpoint parts (begins y : bool) (l : list (list Z)) : list (bool * list Z * bool) :=
  match l with
  | [] => []
  | [e] => [(begins, e, negb y)]
  | e :: l => (begins, e, true) :: parts true y l
  end.
(** Putting units together: those that are complete, and what is open. *)
Fixpoint join (open : option (list Z)) (l : list (bool * list Z * bool)) : option (list (list Z) * option (list Z)) :=
  match l with
  | [] => Some ([], open)
  | (b, e, f) :: l =>
    match open, b with
    | None, true => if (f : bool) then match join None l with Some (us, o) => Some (e :: us, o) | None => None end else join (Some e) l
    | Some p, false => if f then match join None l with Some (us, o) => Some ((p ++ e) :: us, o) | None => None end else join (Some (p ++ e)) l
    | _, _ => None
    end
  end.
(** A receiver gets these units, whole, from the packets. *)
Definition receives (ps : list packet) (units : list (list Z)) : Prop := join None (List.concat (map (fun p => parts (negb (z p)) (y p) (elements p)) ps)) = Some (units, None).
