(** Model of writing Ogg: /repo/lib/ogg.cpp, /repo/src/output/output_ogg.cpp.  [None] is an access outside of memory, or a
    loop that does not end. *)
From Verif Require Import Common Mem_Model Crc_Model.

(** ogg.h:13-21 oggSegment: its data, what calculateGranule (ogg.cpp:412-422) gives for it, and isKeyframe (Theora). *)
Record segment := mkseg { g_data : list Z; g_gran : Z; g_key : bool }.
(** ogg.h Page: header type, serial number and number in [data]; oggSegments. *)
Record page := mkpage { p_type : Z; p_serial : Z; p_number : Z; p_segs : list segment }.
(** ogg.cpp:348-358 clear, by output_ogg.cpp:165 *)
Definition begin (serial : Z) : page := mkpage 2 (u32 serial) 0 [].

(** ogg.cpp:457-485: the table from [idx] on, and bytesLeft. *)
Fixpoint lace (l : list segment) (idx : Z) : list Z * Z :=
  match l with
  | [] => ([], 0)
  | s :: l =>
    let n := len (g_data s) in let temp := n / 255 in
    if temp + idx + 1 <=? 255 then
      let r := lace l (idx + temp + 1) in
      (repeat 255 (Z.to_nat temp) ++ [n mod 255] ++ fst r, snd r)
    else let remain := (255 - idx) * 255 in (repeat 255 (Z.to_nat (255 - idx)), if n =? remain then 0 else remain)
  end.
(** ogg.cpp:524-538: what is sent of the segments, and what stays. *)
Fixpoint bodies (l : list segment) (remain : Z) : option (list Z * list segment) :=
  match l with
  | [] => Some ([], [])
  | s :: l =>
    match l with
    | [] => if remain =? 0 then Some (g_data s, []) else x <- peek (g_data s) 0 remain;; Some (x, [mkseg (dropz remain (g_data s)) (g_gran s) (g_key s)])
    | _ => r <- bodies l remain;; Some (g_data s ++ fst r, snd r)
    end
  end.
(** ogg.cpp:487-498: [granules] is an int. *)
Definition granules (l : list segment) (remain : Z) (forced : option Z) : Z :=
  match forced with
  | Some g => g
  | None =>
    let n := len l in
    if (n =? 1) && negb (remain =? 0) then -1 else
    s32 (g_gran (nth (Z.to_nat (if remain =? 0 then n - 1 else n - 2)) l (mkseg [] 0 false)))
  end.
(** ogg.cpp:443-546 sendTo.  The table of the checksum is that of crc32c (checksum.h), compared entry by entry. *)
Definition sendTo (p : page) (forced : option Z) : option (page * list Z) :=
  match p_segs p with
  | [] => Some (p, [])
  | l =>
    let '(table, remain) := lace l 0 in
    let size := u8 (len table) in
    let head := bs "OggS" ++ [0; p_type p] ++ le 8 (granules l remain forced) ++ le 4 (p_serial p) ++ le 4 (p_number p) in
    r <- bodies l remain;;
    let '(body, rest) := r in
    let crc := crc32c (crc32c (crc32c (crc32c 0 head) [size]) table) body in
    Some (mkpage (match rest with [] => 0 | _ => 1 end) (p_serial p) (u32 (p_number p + 1)) rest, head ++ le 4 crc ++ [size] ++ table ++ body)
  end.
(** ogg.cpp:424-440 shouldSend; [due] is the condition for Vorbis. *)
Definition shouldSend (p : page) (due : bool) : bool :=
  match rev (p_segs p) with
  | [] => false
  | s :: _ => g_key s || due || (255 <=? fold_right (fun s a => len (g_data s) / 255 + 1 + a) 0 (p_segs p))
  end.
(** output_ogg.cpp:61: once sent, a Vorbis page is not due any more (ogg.cpp:448). *)
Fixpoint send_loop (fuel : nat) (p : page) (due : bool) : option (page * list Z) :=
  if shouldSend p due then
    match fuel with
    | O => None
    | S k => a <- sendTo p None;; b <- send_loop k (fst a) false;; Some (fst b, snd a ++ snd b)
    end
  else Some (p, []).
(** output_ogg.cpp:32-62 sendNext *)
Definition sendNext (p : page) (s : segment) (due : bool) : option (page * list Z) :=
  a <- (if g_key s then sendTo p None else Some (p, []));;
  let q := mkpage (p_type (fst a)) (p_serial (fst a)) (p_number (fst a)) (p_segs (fst a) ++ [s]) in
  b <- send_loop (S (Z.to_nat (len (g_data s)) + List.length (p_segs q))) q due;; Some (fst b, snd a ++ snd b).
Fixpoint sendMany (p : page) (l : list (segment * bool)) : option (page * list Z) :=
  match l with
  | [] => Some (p, [])
  | (s, due) :: l => a <- sendNext p s due;; b <- sendMany (fst a) l;; Some (fst b, snd a ++ snd b)
  end.
(** output_ogg.cpp:64-70 onFinish *)
Definition finish (p : page) : option (page * list Z) := sendTo (mkpage 4 (p_serial p) (p_number p) (p_segs p)) None.
(** output_ogg.cpp:120-183 sendHeader, for one track: its init packets. *)
Fixpoint header_loop (fuel : nat) (p : page) : option (page * list Z) :=
  match p_segs p, fuel with
  | [], _ => Some (p, [])
  | _, O => None
  | _, S k => a <- sendTo p (Some 0);; b <- header_loop k (fst a);; Some (fst b, snd a ++ snd b)
  end.
Definition sendHeader (serial : Z) (first : list Z) (others : list (list Z)) : option (page * list Z) :=
  let b := begin serial in
  a <- sendTo (mkpage (p_type b) (p_serial b) (p_number b) [mkseg first 0 false]) (Some 0);;
  let q := mkpage (p_type (fst a)) (p_serial (fst a)) (p_number (fst a)) (p_segs (fst a) ++ map (fun d => mkseg d 0 false) others) in
  b <- header_loop (S (Z.to_nat (fold_right (fun s n => len (g_data s) + 1 + n) 0 (p_segs q)))) q;; Some (fst b, snd a ++ snd b).
(** output_ogg.cpp:153-154: the second packet of Opus. *)
Definition opus_tags : list Z := bs "OpusTags" ++ [0; 0; 0; 10] ++ bs "MistServer" ++ [0; 0; 0; 0].
