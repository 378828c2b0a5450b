(** The packet sorter as a collection with one entry per track. *)
From Coq Require Import Permutation.
From Verif Require Import Common Psort_Model.

(** Playback order: by time, then by track. *)
Definition before (a b : ent) : Prop := e_time a < e_time b \/ (e_time a = e_time b /\ e_tid a < e_tid b).
(** [f] comes before every other entry. *)
Definition earliest (f : ent) (bag : list ent) : Prop := In f bag /\ forall e, In e bag -> e = f \/ before f e.

(** Synchronised collections have no order of their own; asynchronous ones are queues. *)
Definition first_of (sync : bool) (bag : list ent) (f : ent) : Prop :=
  if sync then earliest f bag else exists r, bag = f :: r.
Definition tids (bag : list ent) : list Z := map e_tid bag.
Definition without (t : Z) (bag : list ent) : list ent := filter (fun e => negb (e_tid e =? t)) bag.
Definition unavailable_copy (f : ent) : ent :=
  {| e_tid := e_tid f; e_time := e_time f; e_offset := e_offset f; e_part := e_part f; e_ghost := e_ghost f; e_unavail := true |}.

(** [(sync, bag)] after an operation; [bag] is a queue or, when synchronised, a bag. *)
Inductive sstep : bool * list ent -> psop -> bool * list ent -> Prop :=
| s_insert sync bag e : ~ In (e_tid e) (tids bag) -> sstep (sync, bag) (PInsert e) (sync, bag ++ [e])
| s_drop sync bag t : sstep (sync, bag) (PDrop t) (sync, without t bag)
| s_replace sync bag f e : first_of sync bag f -> (e_tid e = e_tid f \/ ~ In (e_tid e) (tids bag)) ->
    sstep (sync, bag) (PReplace e) (sync, without (e_tid f) bag ++ [e])
| s_move_sync bag : sstep (true, bag) PMove (true, bag)
| s_move_async f r : sstep (false, f :: r) PMove (false, r ++ [unavailable_copy f])
| s_sync_same sync bag : sstep (sync, bag) (PSync sync) (sync, bag)
| s_sync_on bag : sstep (false, bag) (PSync true) (true, bag)
| s_sync_off bag q : Permutation bag q -> (forall i j a b, nth_error q i = Some a -> nth_error q j = Some b -> (i < j)%nat -> before a b) ->
    sstep (true, bag) (PSync false) (false, q)
| s_clear sync bag : sstep (sync, bag) PClear (sync, []).
Inductive sruns : bool * list ent -> list psop -> bool * list ent -> Prop :=
| r_nil x : sruns x [] x
| r_cons x o y os z : sstep x o y -> sruns y os z -> sruns x (o :: os) z.

(** The operations a caller that keeps one entry per track may perform. *)
Definition may (x : bool * list ent) (o : psop) : Prop := exists y, sstep x o y.
