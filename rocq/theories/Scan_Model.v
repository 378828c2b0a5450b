(** Model of lib/dtsc.cpp skipDTSC and DTSC::Scan: looking values up in the packed form in place. *)
From Verif Require Import Common Mem_Model Outcome_Model.

Section Scan.
(** The block of memory that may be read; addresses are indices into it. *)
Context (m : list Z).

(** lib/dtsc.cpp:349-392 skipDTSC: the address after the value at [p], or None. [max] is the end. *)
Fixpoint skip (max : Z) (fuel : nat) (p : Z) : res (option Z) :=
  match fuel with
  | O => Stuck
  | S f =>
    if max <=? p + 1 then Ok None else
    c <~ getb m p;;
    if c =? 0 then Ok None else
    if (c =? 1) || (c =? 4) then Ok (Some (p + 9)) else
    if c =? 3 then Ok (Some (p + 1)) else
    if c =? 2 then
      if max <=? p + 4 then Ok None else
      n <~ getbe m (p + 1) 4;; Ok (Some (p + 5 + n))
    else if (c =? 224) || (c =? 255) then skip_obj max f (p + 1)
    else if c =? 10 then skip_arr max f (p + 1)
    else Ok None
  end
with skip_obj (max : Z) (fuel : nat) (p : Z) : res (option Z) :=
  match fuel with
  | O => Stuck
  | S f =>
    if p <? max then
      a <~ getb m p;; b <~ getb m (p + 1);;
      if a + b =? 0 then Ok (Some (p + 3)) else
      if max <=? p + 2 then Ok None else
      n <~ getbe m p 2;;
      q <~ skip max f (p + (2 + n));;
      match q with None => Ok None | Some q => skip_obj max f q end
    else Ok (Some (p + 3))
  end
with skip_arr (max : Z) (fuel : nat) (p : Z) : res (option Z) :=
  match fuel with
  | O => Stuck
  | S f =>
    if p <? max then
      a <~ getb m p;; b <~ getb m (p + 1);;
      if a + b =? 0 then Ok (Some (p + 3)) else
      q <~ skip max f p;;
      match q with None => Ok None | Some q => skip_arr max f q end
    else Ok (Some (p + 3))
  end.

(** DTSC::Scan, lib/dtsc.h:63-105: a pointer and a length; None is the null pointer (p = 0). *)
Record scan := mkScan { sp : Z; sl : Z }.
Definition mscan := option scan.

(** lib/dtsc.cpp:737-741 getType. *)
Definition getType (s : mscan) : res Z := match s with None => Ok 0 | Some s => getb m (sp s) end.
Definition is_obj (t : Z) : bool := (t =? 224) || (t =? 255).

(** strncmp(name, i, n) == 0 for a [name] of n bytes: compared up to the first difference or NUL. *)
Fixpoint name_at (name : list Z) (i : Z) : res bool :=
  match name with
  | [] => Ok true
  | c :: r => b <~ getb m i;;
    if negb (c =? b) then Ok false else if c =? 0 then Ok true else name_at r (i + 1)
  end.

(** The members of an object are visited in order; [member_loop] is the loop body shared by getMember
    (556-570), getIndice (697-716), getIndiceName (722-735) and getSize (632-645) of lib/dtsc.cpp. The
    visitor [f] gets the number of the member, the address after its name length and the name length
    and may end the loop with a result. The condition reads two bytes before it compares with the end. *)
Section Members.
Context {A : Type} (p l : Z) (f : Z -> Z -> Z -> res (option A)).
Fixpoint member_loop (fuel : nat) (n i : Z) (out : Z -> A) : res A :=
  match fuel with
  | O => Stuck
  | S fu =>
    a <~ getb m i;; b <~ getb m (i + 1);;
    if negb (a + b =? 0) && (i <? p + l) then
      if p + l <=? i + 2 then Ok (out (-1)) else
      k <~ getbe m i 2;;
      r <~ f n (i + 2) k;;
      match r with
      | Some x => Ok x
      | None =>
        q <~ skip (p + l) fu (i + 2 + k);;
        match q with None => Ok (out (n + 1)) | Some q => member_loop fu (n + 1) q out end
      end
    else Ok (out n)
  end.
(** The same for the elements of an array: getSize (617-629), getIndice (676-691). *)
Context (g : Z -> Z -> option A).
Fixpoint elem_loop (fuel : nat) (n i : Z) (out : Z -> A) : res A :=
  match fuel with
  | O => Stuck
  | S fu =>
    a <~ getb m i;; b <~ getb m (i + 1);;
    if negb (a + b =? 0) && (i <? p + l) then
      match g n i with
      | Some x => Ok x
      | None =>
        q <~ skip (p + l) fu i;;
        match q with None => Ok (out (n + 1)) | Some q => elem_loop fu (n + 1) q out end
      end
    else Ok (out n)
  end.
End Members.

(** lib/dtsc.cpp:553-571 getMember. The scan it returns keeps the length from the name on. *)
Definition getMember (fuel : nat) (name : list Z) (s : mscan) : res mscan :=
  t <~ getType s;;
  match s with
  | Some (mkScan p l) =>
    if is_obj t then
      member_loop p l (fun _ i k =>
        if len name =? k then
          e <~ name_at name i;; if (e : bool) then Ok (Some (Some (mkScan (i + k) (l - (i - p))))) else Ok None
        else Ok None) fuel 0 (p + 1) (fun _ => None)
    else Ok None
  | None => Ok None
  end.

(** lib/dtsc.cpp:613-646 getSize; -1 marks the early return of an invalid scan, which converts to 0. *)
Definition getSize (fuel : nat) (s : mscan) : res Z :=
  t <~ getType s;;
  match s with
  | Some (mkScan p l) =>
    if t =? 10 then elem_loop p l (fun _ _ => None) fuel 0 (p + 1) (fun n => n)
    else if is_obj t then
      member_loop p l (fun _ _ _ => Ok None) fuel 0 (p + 1) (fun n => if n =? -1 then 0 else n)
    else Ok 0
  | None => Ok 0
  end.

(** lib/dtsc.cpp:672-717 getIndice. *)
Definition getIndice (fuel : nat) (num : Z) (s : mscan) : res mscan :=
  t <~ getType s;;
  match s with
  | Some (mkScan p l) =>
    if t =? 10 then
      elem_loop p l (fun n i => if n =? num then Some (Some (mkScan i (l - (i - p)))) else None)
        fuel 0 (p + 1) (fun _ => None)
    else if is_obj t then
      member_loop p l (fun n i k => Ok (if n =? num then Some (Some (mkScan (i + k) (l - (i - p)))) else None))
        fuel 0 (p + 1) (fun _ => None)
    else Ok None
  | None => Ok None
  end.

(** lib/dtsc.cpp:721-735 getIndiceName. *)
Definition getIndiceName (fuel : nat) (num : Z) (s : mscan) : res (list Z) :=
  t <~ getType s;;
  match s with
  | Some (mkScan p l) =>
    if is_obj t then
      member_loop p l (fun n i k => if n =? num then x <~ getn m i k;; Ok (Some x) else Ok None)
        fuel 0 (p + 1) (fun _ => [])
    else Ok []
  | None => Ok []
  end.

(** lib/dtsc.cpp:856-864 getString: address and length of the text, (0, 0) for other types. *)
Definition getString (s : mscan) : res (Z * Z) :=
  t <~ getType s;;
  match s with
  | Some s => if t =? 2 then n <~ getbe m (sp s + 1) 4;; Ok (sp s + 5, n) else Ok (0, 0)
  | None => Ok (0, 0)
  end.
(** The text a caller copies from there. *)
Definition getText (s : mscan) : res (list Z) :=
  r <~ getString s;; if snd r =? 0 then Ok [] else getn m (fst r) (snd r).

(** lib/dtsc.cpp:793-806 asInt. The conversions from double and from text are not modelled: they are
    the parameters [dbl] (of the bit pattern) and [txt] (strtoll of what follows the address). *)
Definition asInt (dbl : Z -> Z) (txt : list Z -> Z) (s : mscan) : res Z :=
  t <~ getType s;;
  match s with
  | Some s =>
    if t =? 1 then n <~ getbe m (sp s + 1) 8;; Ok (s64 n)
    else if t =? 4 then n <~ getbe m (sp s + 1) 8;; Ok (dbl n)
    else if t =? 2 then n <~ getbe m (sp s + 1) 4;;
      if n =? 0 then Ok 0 else Ok (txt (dropz (sp s + 5) m))
    else Ok 0
  | None => Ok 0
  end.
End Scan.
