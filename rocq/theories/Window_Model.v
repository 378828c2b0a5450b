(** How a live stream is kept within its window: idle tracks are removed, old keys are evicted
    (/repo/src/input/input_buffer.cpp). *)
From Verif Require Import Common Meta_Model Live_Model.

(** ** One track *)
(** /repo/src/input/input_buffer.cpp:285-311. The metadata is in shared memory and was reloaded just before,
    so that removeFirstKey does not put off the removal (dtsc.cpp:2689-2692). *)
Definition removeKey (active : bool) (bufferTime : Z) (s : live) : out (live * bool) :=
  if removable (tk s) active bufferTime then s <! evictKey s;; Done (s, true) else Done (s, false).
(** /repo/lib/dtsc.cpp:4121-4127, 4154-4157 *)
Definition firstValid (s : live) : Z := t_del (keys (tk s)).
Definition validCount (s : live) : Z := u64 (t_end (keys (tk s)) - t_del (keys (tk s))).
Definition keyTime (s : live) (i : Z) : Z := k_time (at_ (keys (tk s)) i).
(** input_buffer.cpp:446-453. Both loops remove a key for as long as [more] holds and removeKey does so; [n]
    bounds the number of rounds. *)
Fixpoint removeWhile (n : nat) (more : live -> bool) (active : bool) (bufferTime : Z) (s : live) : out live :=
  if (1 <? validCount s) && more s then
    match n with
    | O => Done s
    | S n => r <! removeKey active bufferTime s;; if snd r then removeWhile n more active bufferTime (fst r) else Done (fst r)
    end
  else Done s.
Definition cutMore (cutTime : Z) (s : live) : bool := keyTime s (firstValid s) <? cutTime.
Definition sizeMore (bufferTime : Z) (s : live) : bool := bufferTime <? u64 (lastms (tk s) - keyTime s (firstValid s + 1)).
Definition rounds (s : live) : nat := Z.to_nat (t_end (keys (tk s)) - t_del (keys (tk s))).

(** /repo/src/io.cpp:160-218, called with the number of the record *)
Fixpoint sumParts (n : nat) (k : tbl key) (i r : Z) : Z :=
  match n with O => r | S n => sumParts n k (i + 1) (u64 (r + k_parts (at_ k i))) end.
Fixpoint dropEmpty (n : nat) (q : tbl page) (i : Z) : out (tbl page) :=
  match n with
  | O => Done q
  | S n =>
    if t_end q <=? i then Done q
    else if negb (g_count (at_ q i) =? 0) || negb (g_avail (at_ q i) =? 0) then Done q
    else q <! deleteRecords q 1;; dropEmpty n q (i + 1)
  end.
Definition bufferRemove (s : live) (pageNumber j : Z) : out live :=
  let t := tk s in
  let q := upd (pages t) j (g_avail_ 0) in
  let f := g_first (at_ q j) in
  let c := g_count (at_ q j) in
  let n := t_del (keys t) in
  let q :=
    if u64 (f + c) <=? n then upd q j (g_count_ 0)
    else if f <? n then
      let q := upd q j (g_count_ (u64 (c - (n - f)))) in
      let q := upd q j (g_parts_ (sumParts (Z.to_nat (f + c - n)) (keys t) n 0)) in
      upd q j (g_first_ n)
    else q in
  q <! dropEmpty (Z.to_nat (t_end q - t_del q)) q (t_del q);;
  Done (mklive (with_pages t q) (cur s) (set_shm (shm s) pageNumber None)).
(** input_buffer.cpp:454-460 *)
Fixpoint dropPages (n : nat) (firstKey j : Z) (s : live) : out live :=
  match n with
  | O => Done s
  | S n =>
    if t_end (pages (tk s)) <=? j then Done s
    else
      let g := at_ (pages (tk s)) j in
      if firstKey <? u64 (g_first g + g_count g) then Done s
      else s <! bufferRemove s (u32 (g_first g)) j;; dropPages n firstKey (u32 (j + 1)) s
  end.
(** input_buffer.cpp:440, 445-460 *)
Definition manageTrack (active : bool) (bufferTime cutTime : Z) (s : live) : out live :=
  let firstKey := u32 (firstValid s) in
  s <! removeWhile (rounds s) (cutMore cutTime) active bufferTime s;;
  s <! removeWhile (rounds s) (sizeMore bufferTime) active bufferTime s;;
  dropPages (Z.to_nat (t_end (pages (tk s)) - t_del (pages (tk s)))) firstKey (u32 (t_del (pages (tk s)))) s.

(** ** All tracks *)
(** What is known of a track besides its tables: its number, type and codec-independent flags, and when it was
    last updated, in seconds. *)
Record strack := mkstrack { x_tid : Z; x_type : list Z; x_updated : Z; x_loaded : bool; x_embedded : bool; x_live : live }.
Definition firstmsOf (x : strack) : Z := firstms (tk (x_live x)).
Definition lastmsOf (x : strack) : Z := lastms (tk (x_live x)).

(** input_buffer.cpp:363-376: first and last times of the tracks that were updated in the last five seconds, and
    their types *)
Definition edge (time : Z) (e : Z * Z * list (list Z)) (x : strack) : Z * Z * list (list Z) :=
  let '(cf, cl, types) := e in
  if 5 <? u64 (time - x_updated x) then e
  else (if firstmsOf x <? cf then firstmsOf x else cf, if cl <? lastmsOf x then lastmsOf x else cl, x_type x :: types).
Definition edges (time : Z) (l : list strack) : Z * Z * list (list Z) := fold_left (edge time) l (2 ^ 64 - 1, 0, []).
(** input_buffer.cpp:377-398. Metadata tracks that nobody claims also get their current time moved, which is
    not modelled. *)
Definition gone (time idleTime : Z) (e : Z * Z * list (list Z)) (x : strack) : bool :=
  let '(cf, cl, types) := e in
  if beqb (x_type x) (bs "meta") then false
  else if time <=? x_updated x then false
  else
    let age := u64 (time - x_updated x) in
    (idleTime / 1000 <? age) ||
    (negb (cl =? 0) && existsb (beqb (x_type x)) types && (5 <? age) &&
     ((cl <? firstmsOf x) && (idleTime <? u64 (firstmsOf x - cl)) || (lastmsOf x <? cf) && (idleTime <? u64 (cf - lastmsOf x)))).
(** The first of them is removed (input_buffer.cpp:412-415, 330-342; dtsc.cpp:2666-2685, that of its pages and
    of its user is not modelled), and everything is looked at again (357-418). [clock] is what bootSecs returns
    in each round; no other process adds tracks meanwhile. *)
Fixpoint removeFirstGone (g : strack -> bool) (l : list strack) : option (list strack) :=
  match l with
  | [] => None
  | x :: r => if g x then Some r else match removeFirstGone g r with Some r => Some (x :: r) | None => None end
  end.
Fixpoint removeIdle (n : nat) (clock : nat -> Z) (k : nat) (idleTime : Z) (l : list strack) : list strack :=
  match n with
  | O => l
  | S n =>
    match removeFirstGone (gone (clock k) idleTime (edges (clock k) l)) l with
    | Some l => removeIdle n clock (S k) idleTime l
    | None => l
    end
  end.
(** input_buffer.cpp:420-431 *)
Definition videoFirst (l : list strack) : Z :=
  fold_left (fun m x => if x_loaded x && beqb (x_type x) (bs "video") && (firstmsOf x <? m) then firstmsOf x else m) l (2 ^ 64 - 1).
(** input_buffer.cpp:432-461, one track *)
Definition held_back (vf : Z) (x : strack) : bool :=
  let s := x_live x in
  negb (beqb (x_type x) (bs "video")) && negb (vf =? 2 ^ 64 - 1) &&
  ((u32 (u32 (t_end (keys (tk s))) - u32 (firstValid s)) <? 2) || (vf <? keyTime s (u32 (u32 (firstValid s) + 1)))).
Definition manage (vf : Z) (active : bool) (bufferTime cutTime : Z) (x : strack) : out strack :=
  if negb (x_loaded x) || x_embedded x || held_back vf x then Done x
  else s <! manageTrack active bufferTime cutTime (x_live x);; Done (mkstrack (x_tid x) (x_type x) (x_updated x) (x_loaded x) (x_embedded x) s).
Fixpoint manageAll (vf : Z) (active : bool) (bufferTime cutTime : Z) (l : list strack) : out (list strack) :=
  match l with
  | [] => Done []
  | x :: r => x <! manage vf active bufferTime cutTime x;; r <! manageAll vf active bufferTime cutTime r;; Done (x :: r)
  end.
(** input_buffer.cpp:353-463. Tracks are in order of their numbers. *)
Definition removeUnused (clock : nat -> Z) (active : bool) (bufferTime idleTime cutTime : Z) (l : list strack) : out (list strack) :=
  let l := removeIdle (S (List.length l)) clock 0 idleTime l in
  manageAll (videoFirst l) active bufferTime cutTime l.
