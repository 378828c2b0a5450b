(** Specification of the receive buffer: one queue of bytes. *)
From Verif Require Import Common SockBuf_Model.

(** What a client can do. *)
Inductive op :=
| Append (l : list Z) | Prepend (l : list Z) | Remove (n : Z) | Copy (n : Z) | CopyUpTo (n : Z)
| Skip (n : Z) | Clear | Compact | NextPart | PeekPart | SetSplitter (l : list Z)
| Available (n : Z) | Bytes (max : Z) | Parts.
(** What it observes. *)
Inductive out := OData (l : list Z) | OBool (b : bool) | ONum (n : Z) | OUnit.

Definition step (b : sbuf) (o : op) : out * sbuf :=
  match o with
  | Append l => (OUnit, sb_append b l)
  | Prepend l => (OUnit, sb_prepend b l)
  | Remove n => let (r, b') := sb_remove b n in (OData r, b')
  | Copy n => let (r, b') := sb_copy b n in (OData r, b')
  | CopyUpTo n => (OData (sb_copyp b n), b)
  | Skip n => (OUnit, sb_skip b n)
  | Clear => (OUnit, sb_clear b)
  | Compact => let (r, b') := sb_compact b in (OBool r, b')
  | NextPart => let (r, b') := sb_get_clear b in (OData r, b')
  | PeekPart => let (r, b') := sb_get b in (OData r, b')
  | SetSplitter l => (OUnit, mksb (segs b) l)
  | Available n => let (r, b') := sb_available b n in (OBool r, b')
  | Bytes m => (ONum (sb_bytes b m), b)
  | Parts => let (n, b') := sb_size b in (ONum n, b')
  end.
Fixpoint run (b : sbuf) (ops : list op) : list out :=
  match ops with
  | [] => []
  | o :: r => let (x, b') := step b o in x :: run b' r
  end.

(** The queue of bytes [q]: what each operation must answer, and the queue afterwards. A request
    for [n] bytes succeeds if the queue holds that many (an empty queue has nothing to give, not
    even 0 bytes). The size of a part is up to the implementation, but a part is empty only if
    the queue is. *)
Inductive queue_step : list Z -> op -> out -> list Z -> Prop :=
| q_append q l : queue_step q (Append l) OUnit (q ++ l)
| q_prepend q l : queue_step q (Prepend l) OUnit (l ++ q)
| q_remove q n : n <= len q -> queue_step q (Remove n) (OData (takez n q)) (dropz n q)
| q_remove_no q n : len q < n -> queue_step q (Remove n) (OData []) q
| q_copy q n : n <= len q -> queue_step q (Copy n) (OData (takez n q)) q
| q_copy_no q n : len q < n -> queue_step q (Copy n) (OData []) q
| q_copyp q n : queue_step q (CopyUpTo n) (OData (takez n q)) q
| q_skip q n : queue_step q (Skip n) OUnit (dropz n q)
| q_clear q : queue_step q Clear OUnit []
| q_compact q b : queue_step q Compact (OBool b) q
| q_next q p r : q = p ++ r -> (p = [] -> q = []) -> queue_step q NextPart (OData p) r
| q_peek q p r : q = p ++ r -> (p = [] -> q = []) -> queue_step q PeekPart (OData p) q
| q_splitter q l : queue_step q (SetSplitter l) OUnit q
| q_available q n : queue_step q (Available n) (OBool ((n <=? len q) && (0 <? len q))) q
| q_bytes q m : queue_step q (Bytes m) (ONum (Z.min m (len q))) q
| q_parts q k : (k = 0 <-> q = []) -> queue_step q Parts (ONum k) q.
Inductive queue_run : list Z -> list op -> list out -> Prop :=
| qr_nil q : queue_run q [] []
| qr_cons q o x q' r xs : queue_step q o x q' -> queue_run q' r xs -> queue_run q (o :: r) (x :: xs).

(** Counts are 32 bit unsigned numbers. *)
Definition op_ok (o : op) : Prop :=
  match o with
  | Remove n | Copy n | Available n | Bytes n | CopyUpTo n | Skip n => 0 <= n < 2 ^ 32
  | _ => True
  end.
(** Bytes ever put in. *)
Definition bytes_in (o : op) : Z := match o with Append l | Prepend l => len l | _ => 0 end.
Definition total_in (ops : list op) : Z := fold_right (fun o n => bytes_in o + n) 0 ops.

(** Splitting: the shortest non-empty prefix of [q] that ends with [sp]. *)
Definition ends_with (sp p : list Z) : Prop := exists a, p = a ++ sp.
Definition shortest_split (sp q : list Z) (n : Z) : Prop :=
  (0 < n <= len q /\ ends_with sp (takez n q) /\ forall m, 0 < m < n -> ~ ends_with sp (takez m q)) \/
  (n = 0 /\ forall m, 0 < m <= len q -> ~ ends_with sp (takez m q)).

(** The buffer after a history, and everything it holds. *)
Definition exec (b : sbuf) (ops : list op) : sbuf := fold_left (fun b o => snd (step b o)) ops b.
Definition contents (b : sbuf) : list Z := sb_copyp b (2 ^ 32 - 1).
(** Histories that do not insert at the front, merge parts or change the separator. *)
Definition stream_op (o : op) : Prop :=
  match o with Prepend _ | Compact | SetSplitter _ => False | _ => True end.
