(** Model of MP4 boxes, lib/mp4.cpp: fields, strings, boxes within boxes, and reading.  Sizes of the memory of a box are
    assumed to fit 32 bits (data_size is an unsigned int), and realloc and malloc to succeed. *)
From Verif Require Import Common Mem_Model Outcome_Model.

(** lib/mp4.h:64-67: the memory (data, data_size), managed, payloadOffset. *)
Record box := mkbox { b_data : list Z; b_managed : bool; b_off : Z }.
Definition with_data (b : box) (d : list Z) : box := mkbox d (b_managed b) (b_off b).
Definition zeros (n : Z) : list Z := repeat 0 (Z.to_nat n).
Definition putn (b : box) (i : Z) (xs : list Z) : res box :=
  match poke (b_data b) i xs with Some d => Ok (with_data b d) | None => Ub end.

(** lib/mp4.cpp:203-214 clear, and the memcpy(data + 4, type, 4) of every constructor. *)
Definition newBox (ty : list Z) : box := mkbox (be 4 8 ++ ty) true 8.
(** lib/mp4.cpp:184-189 boxedSize, 193 payloadSize, 87 isType, 99-103 calcBoxSize. *)
Definition boxedSize (b : box) : res Z := if b_off b =? 16 then getbe (b_data b) 8 8 else getbe (b_data b) 0 4.
Definition payloadSize (b : box) : res Z := s <~ boxedSize b;; Ok (u64 (s - b_off b)).
Definition isTypeAt (b : box) (i : Z) (ty : list Z) : res bool := x <~ getn (b_data b) (i + 4) 4;; Ok (beqb ty x).
Definition calcBoxSize (b : box) (i : Z) : res Z :=
  r <~ getbe (b_data b) i 4;; if r =? 1 then getbe (b_data b) (i + 8) 8 else Ok r.

(** lib/mp4.cpp:571-596 reserve.  A box that claims to be longer than its memory reads what realloc gives it; here these
    bytes are zero. *)
Definition reserve (b : box) (position current wanted : Z) : res (box * bool) :=
  if current =? wanted then Ok (b, true) else
  size <~ boxedSize b;;
  let wanted := if size <? position then u64 (wanted + (position - size)) else wanted in
  let total := u64 (size + u64 (wanted - current)) in
  let bigger := (current <? wanted) && (len (b_data b) <? total) in
  if bigger && negb (b_managed b) then Ok (b, false) else
  b <~ (if bigger then putn (with_data b (b_data b ++ zeros (total - len (b_data b)))) size (zeros (wanted - current)) else Ok b);;
  b <~ (if position + current <? size then x <~ getn (b_data b) (position + current) (size - (position + current));; putn b (position + wanted) x else Ok b);;
  if b_off b =? 16 then Ok (b, true) else b <~ putn b 0 (be 4 total);; Ok (b, true).

(** lib/mp4.cpp:334-488: setInt8, setInt16, setInt24, setInt32, setInt64 (Bit::htobs etc. are [be], Bitfields_Model), the
    getters of a box that may grow, and those of a constant one. *)
Definition setInt (n : nat) (v i : Z) (b : box) : res box :=
  let i := u64 (i + b_off b) in
  size <~ boxedSize b;;
  if size <=? u64 (i + Z.of_nat n - 1) then
    r <~ reserve b i 0 (Z.of_nat n);; if snd r then putn (fst r) i (be n v) else Ok (fst r)
  else putn b i (be n v).
Definition getInt (n : nat) (i : Z) (b : box) : res (box * Z) :=
  let j := u64 (i + b_off b) in
  size <~ boxedSize b;;
  if size <=? u64 (j + Z.of_nat n - 1) then
    r <~ reserve b j 0 (Z.of_nat n);;
    if snd r then b <~ setInt n 0 (u64 (j - b_off (fst r))) (fst r);; v <~ getbe (b_data b) j (Z.of_nat n);; Ok (b, v) else Ok (fst r, 0)
  else v <~ getbe (b_data b) j (Z.of_nat n);; Ok (b, v).
Definition getIntC (n : nat) (i : Z) (b : box) : res Z :=
  let j := u64 (i + b_off b) in
  size <~ boxedSize b;;
  if size <=? u64 (j + Z.of_nat n - 1) then Ok 0 else getbe (b_data b) j (Z.of_nat n).

(** lib/mp4.cpp:526-530 getStringLen: strlen from there on. *)
Fixpoint strlen (l : list Z) : res Z := match l with [] => Ub | c :: r => if c =? 0 then Ok 0 else n <~ strlen r;; Ok (n + 1) end.
Definition getStringLen (i : Z) (b : box) : res Z :=
  let i := u64 (i + b_off b) in
  size <~ boxedSize b;; if size <=? i then Ok 0 else strlen (dropz i (b_data b)).
(** lib/mp4.cpp:493-511 setString; [s] is followed by its terminator. *)
Definition setString (s : list Z) (i : Z) (b : box) : res box :=
  let i := u64 (i + b_off b) in
  size <~ boxedSize b;;
  r <~ (if size <=? i then r <~ reserve b i 0 1;; if snd r then b <~ putn (fst r) i [0];; Ok (b, true) else Ok r else Ok (b, true));;
  if negb (snd r) then Ok (fst r) else
  let b := fst r in
  l <~ getStringLen i b;;
  r <~ (if l =? len s then Ok (b, true) else l <~ getStringLen i b;; reserve b i (l + 1) (len s + 1));;
  if snd r then putn (fst r) i (s ++ [0]) else Ok (fst r).
(** lib/mp4.cpp:515-523 getString: the text up to the terminator; out of range the box also grows, which is left out. *)
Definition getString (i : Z) (b : box) : res (list Z) :=
  l <~ getStringLen i b;; if l =? 0 then Ok [] else getn (b_data b) (u64 (i + b_off b)) l.

(** lib/mp4.cpp:536-549 getBox: where it is; [None] is the static error box. *)
Definition erro : list Z := be 4 8 ++ bs "erro".
Definition getBox (i : Z) (b : box) : res (box * option Z) :=
  let i := u64 (i + b_off b) in
  size <~ boxedSize b;;
  if size <? u64 (i + 8) then
    r <~ reserve b i 0 8;; if snd r then b <~ putn (fst r) i erro;; Ok (b, Some i) else Ok (fst r, None)
  else Ok (b, Some i).
(** lib/mp4.cpp:553-556 getBoxLen, 560-566 setBox. *)
Definition getBoxLen (i : Z) (b : box) : res Z :=
  size <~ boxedSize b;;
  if size <=? u64 (i + b_off b + 8) then Ok 0 else calcBoxSize b (u64 (i + b_off b)).
Definition setBox (e : box) (i : Z) (b : box) : res box :=
  l <~ getBoxLen i b;;
  n <~ boxedSize e;;
  let oldlen := s32 l in let newlen := s32 n in
  if len (b_data e) <? u32 newlen then Ok b else
  r <~ (if oldlen =? newlen then Ok (b, true) else reserve b (u64 (i + b_off b)) (u64 oldlen) (u64 newlen));;
  if negb (snd r) then Ok (fst r) else
  x <~ getn (b_data e) 0 newlen;; putn (fst r) (u64 (i + b_off b)) x.

(** lib/mp4.cpp:617-625 containerBox::getContentCount.  Without end: [Stuck]. *)
Fixpoint count_loop (fuel : nat) (b : box) (loc c : Z) : res (box * Z) :=
  size <~ boxedSize b;;
  if loc <? u64 (size - 8) then
    match fuel with
    | O => Stuck
    | S k =>
        r <~ getBox loc b;;
        n <~ (match snd r with Some o => getbe (b_data (fst r)) o 4 | None => Ok 8 end);;
        count_loop k (fst r) (u32 (loc + n)) (c + 1)
    end
  else Ok (b, c).
Definition getContentCount (b : box) : res (box * Z) := size <~ boxedSize b;; count_loop (S (Z.to_nat size)) b 0 0.
(** lib/mp4.cpp:627-641 setContent, 643-653 getContent. *)
Fixpoint walk (n : nat) (b : box) (loc : Z) : res Z :=
  match n with O => Ok loc | S k => l <~ getBoxLen (u64 loc) b;; walk k b (s32 (loc + l)) end.
Definition setContent (e : box) (no : Z) (b : box) : res box :=
  r <~ getContentCount b;;
  let b := fst r in let count := snd r in
  loc <~ walk (Z.to_nat (Z.min no count)) b 0;;
  if count <? no then
    let n := u32 ((no - count) * 8) in
    r <~ reserve b (u64 loc) 0 n;;
    if snd r then b <~ putn (fst r) loc (zeros n);; setBox e (u64 (s32 (loc + n))) b else Ok (fst r)
  else setBox e (u64 loc) b.
Definition getContent (no : Z) (b : box) : res (box * option Z) :=
  r <~ getContentCount b;;
  if snd r <? no then Ok (fst r, None) else loc <~ walk (Z.to_nat no) (fst r) 0;; getBox (u64 loc) (fst r).

(** lib/mp4.cpp:655-676 getChild, getChildren: where they are. *)
Fixpoint child_loop (fuel : nat) (ty : list Z) (b : box) (size loc : Z) : res (option Z) :=
  if loc <? u64 (size - 8) then
    match fuel with
    | O => Stuck
    | S k =>
        y <~ isTypeAt b loc ty;;
        if y then Ok (Some loc) else n <~ calcBoxSize b loc;; child_loop k ty b size (u64 (loc + n))
    end
  else Ok None.
Definition getChild (ty : list Z) (b : box) : res (option Z) := size <~ boxedSize b;; child_loop (S (Z.to_nat size)) ty b size (b_off b).
Fixpoint children_loop (fuel : nat) (ty : list Z) (b : box) (size loc : Z) : res (list Z) :=
  if loc <? u64 (size - 8) then
    match fuel with
    | O => Stuck
    | S k =>
        y <~ isTypeAt b loc ty;;
        n <~ calcBoxSize b loc;; r <~ children_loop k ty b size (u64 (loc + n));; Ok (if y then loc :: r else r)
    end
  else Ok [].
Definition getChildren (ty : list Z) (b : box) : res (list Z) := size <~ boxedSize b;; children_loop (S (Z.to_nat size)) ty b size (b_off b).

(** lib/mp4.cpp:22-42: the box at [o] in the memory of another, not managed; from there on the memory of the other is left. *)
Definition childBox (b : box) (o : Z) : box := mkbox (dropz o (b_data b)) false 8.

(** lib/mp4.cpp:156-181 read from a string: the box and what remains; [None]: not yet. *)
Definition readString (s : list Z) : res (option (box * list Z)) :=
  if len s <=? 4 then Ok None else
  size <~ getbe (s ++ [0]) 0 4;;
  if (size =? 1) && (len s <=? 16) then Ok None else
  r <~ (if size =? 1 then n <~ getbe s 8 8;; Ok (n, 16) else Ok (size, 8));;
  let n := if fst r =? 0 then len s else fst r in
  if n <=? len s then Ok (Some (mkbox (takez n s) true (snd r), dropz n s)) else Ok None.
(** lib/mp4.cpp:125-152 read from a file at position [pos].  Of the sixteen bytes in readVal the last twelve are replaced by the
    twelve bytes that follow them. *)
Definition readFile (f : list Z) (pos : Z) : res (option (box * Z)) :=
  match peek f pos 16 with
  | None => Ok None
  | Some h =>
      let size := unbe (takez 4 h) in
      r <~ (if size =? 1 then
              match peek f (pos + 16) 12 with
              | None => Ok None
              | Some x => Ok (Some (unbe (takez 8 (dropz 8 (splice h 4 x))), 16))
              end
            else Ok (Some (size, 8)));;
      match r with
      | None => Ok None
      | Some (n, off) =>
          let n := if n =? 0 then len f - pos else n in
          match peek f pos n with Some d => Ok (Some (mkbox d true off, pos + n)) | None => Ok None end
      end
  end.
(** lib/mp4.cpp:105-123 skipBox: the position behind the box. *)
Definition skipBox (f : list Z) (pos : Z) : res (option Z) :=
  match peek f pos 16 with
  | None => Ok None
  | Some h =>
      let r := unbe (takez 4 h) in
      let n := if r =? 1 then unbe (takez 8 (dropz 8 h)) else r in
      if n =? 0 then Ok (Some (len f)) else Ok (Some (pos + n))
  end.
