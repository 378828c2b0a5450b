(** Specification of the structured shared memory of RelAccX_Model.v. *)
From Verif Require Import Common RelAccX_Model.

(** A declaration: name, type, size (0 for the default). The kinds of a type, and its size. *)
Definition decl := (list Z * Z * Z)%type.
Definition d_name (d : decl) := fst (fst d).
Definition d_type (d : decl) := snd (fst d).
Inductive kind := KUint | KInt | KString | KRaw | KOther.
Definition kind_of (ty : Z) : kind :=
  if ty / 16 =? 1 then KUint else if ty / 16 =? 2 then KInt else if ty / 16 =? 3 then KString
  else if ty / 16 =? 4 then KRaw else KOther.
Definition natural_size (ty : Z) : Z :=
  match kind_of ty with
  | KUint | KInt => ty mod 16 + 1
  | KString | KRaw => 16 * 2 ^ (ty mod 16)
  | KOther => 0
  end.
Definition d_size (d : decl) := if snd d =? 0 then natural_size (d_type d) else snd d.
Definition decl_ok (d : decl) : Prop :=
  1 <= len (d_name d) <= 31 /\ bytesP (d_name d) /\ byteP (d_type d) /\ 0 <= snd d < 2 ^ 32 /\ d_size d <> 0.
(** Each field starts where the one before it ended. *)
Fixpoint layout (at_ : Z) (l : list decl) : list (list Z * fd) :=
  match l with
  | [] => []
  | d :: r => (d_name d, mkfd (d_type d) (d_size d) at_) :: layout (at_ + d_size d) r
  end.
Definition record_size (l : list decl) : Z := fold_right (fun d n => d_size d + n) 0 l.
(** Room for the description of a field: at most 6 bytes besides its name. *)
Definition description (l : list decl) : Z := fold_right (fun d n => 6 + len (d_name d) + n) 0 l.
(** The size of a page for these declarations and [cnt] records. *)
Definition fits (l : list decl) (cnt size : Z) : Prop :=
  Forall decl_ok l /\ l <> [] /\ 36 + description l < 2 ^ 16 /\ record_size l < 2 ^ 32 /\
  0 < cnt < 2 ^ 32 /\ 36 + description l + cnt * record_size l <= size /\ cnt * record_size l < 2 ^ 64.

(** The window of records: the first not deleted, and the first not yet added. *)
Definition window := (Z * Z)%type.
Definition slide (w : window) (o : op) : window :=
  match o with
  | Add n => (fst w, snd w + n)
  | Delete n => (fst w + n, snd w)
  | _ => w
  end.
(** A value that the field can hold. *)
Definition int_ok (d : decl) : Prop :=
  (kind_of (d_type d) = KUint /\ In (d_size d) [1; 2; 3; 4; 8]) \/
  (kind_of (d_type d) = KInt /\ In (d_size d) [1; 2; 4; 8]).
Definition string_ok (d : decl) (v : list Z) : Prop :=
  (kind_of (d_type d) = KString \/ kind_of (d_type d) = KRaw) /\ bytesP v /\ len v < 2 ^ 32.
(** Histories within capacity; a record may be filled before it is added. *)
Definition allowed (l : list decl) (cnt : Z) (w : window) (o : op) : Prop :=
  match o with
  | Add n => 0 <= n < 2 ^ 32 /\ snd w + n - fst w <= cnt /\ snd w + n < 2 ^ 64
  | Delete n => 0 <= n < 2 ^ 32 /\ n <= snd w - fst w
  | SetInt name r v => fst w <= r < Z.min (fst w + cnt) (2 ^ 64) /\ exists d, In d l /\ d_name d = name /\ int_ok d
  | SetString name r v => fst w <= r < Z.min (fst w + cnt) (2 ^ 64) /\ exists d, In d l /\ d_name d = name /\ string_ok d v
  end.
Fixpoint history (l : list decl) (cnt : Z) (w : window) (ops : list op) : Prop :=
  match ops with
  | [] => True
  | o :: r => allowed l cnt w o /\ history l cnt (slide w o) r
  end.

(** The last value written to a field of a record. *)
Inductive value := VInt (v : Z) | VString (v : list Z).
Definition written (name : list Z) (r : Z) (o : op) : option value :=
  match o with
  | SetInt n i v => if beqb n name && (i =? r) then Some (VInt v) else None
  | SetString n i v => if beqb n name && (i =? r) then Some (VString v) else None
  | _ => None
  end.
Fixpoint last_written (name : list Z) (r : Z) (ops : list op) (before : option value) : option value :=
  match ops with
  | [] => before
  | o :: t => last_written name r t (match written name r o with Some v => Some v | None => before end)
  end.
(** An integer cut down to [n] bytes, as a 64 bit value. *)
Definition cut_unsigned (n v : Z) : Z := v mod 2 ^ (8 * n).
Definition cut_signed (n v : Z) : Z :=
  let x := v mod 2 ^ (8 * n) in (if x <? 2 ^ (8 * n - 1) then x else x - 2 ^ (8 * n)) mod 2 ^ 64.
(** A string up to its first zero byte. *)
Fixpoint before_zero (v : list Z) : list Z :=
  match v with
  | [] => []
  | b :: r => if b =? 0 then [] else b :: before_zero r
  end.
(** What the accessors give for a value. *)
Definition reads (s : rax) (d : decl) (r : Z) (v : value) : Prop :=
  match v, kind_of (d_type d) with
  | VInt v, KUint => getInt s (d_name d) r = Some (cut_unsigned (d_size d) v)
  | VInt v, KInt => getInt s (d_name d) r = Some (cut_signed (d_size d) v)
  | VString v, KString => getString s (d_name d) r = Some (before_zero (takez (d_size d - 1) v))
  | VString v, KRaw => exists rest, getRaw s (d_name d) r = Some (takez (d_size d) v ++ rest)
  | _, _ => False
  end.
