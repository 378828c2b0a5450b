(** Model of buffering live packets: the table of data pages and the pages (/repo/src/io.cpp,
    bufferLivePacket), together with the tables of the track, and the lookups of pages. *)
From Verif Require Import Common Dtsc_Model Dtsc_Spec Page_Model Meta_Model MetaFind_Model.
Notation page := Meta_Model.page.

(** A track, the page being written (livePage; the code reads the number back from the page's name) and
    the data pages of this track that exist in shared memory. *)
Record live := mklive { tk : track; cur : option Z; shm : Z -> option (list Z) }.
Definition set_shm (h : Z -> option (list Z)) (n : Z) (x : option (list Z)) : Z -> option (list Z) :=
  fun i => if i =? n then x else h i.
Definition set_key (f : fields) (k : bool) : fields := mkF (f_time f) (f_offset f) (f_track f) (f_data f) (f_bpos f) k.

(** io.cpp:280-288, 425-431 *)
Definition findPage (t : track) (n : Z) : Z :=
  match first_where (count (pages t)) (t_del (pages t)) (fun i => g_first (at_ (pages t) i) =? n) with Some i => i | None => 0 end.
(** io.cpp:233-246 *)
Definition bufferedOnPage (t : track) (k : Z) : Z :=
  match first_where (count (pages t)) (t_del (pages t))
          (fun i => let g := at_ (pages t) i in
             negb (k <? g_first g) && negb ((g_count g =? 0) || (u64 (g_first g + g_count g - 1) <? k))) with
  | Some i => let g := at_ (pages t) i in if g_avail g =? 0 then INVALID_KEY_NUM else g_first g
  | None => INVALID_KEY_NUM end.
(** io.cpp:63-128. The new page is all zero bytes (ftruncate). None: failure. *)
Definition bufferStart (s : live) (n : Z) : option live :=
  match first_where (count (pages (tk s))) (t_del (pages (tk s))) (fun i => g_first (at_ (pages (tk s)) i) =? n) with
  | None => None
  | Some i =>
    if negb (bufferedOnPage (tk s) n =? INVALID_KEY_NUM) then None
    else Some (mklive (with_pages (tk s) (upd (pages (tk s)) i (g_avail_ 0))) (Some n)
                 (set_shm (shm s) n (Some (repeat 0 (Z.to_nat (g_size (at_ (pages (tk s)) i)))))))
  end.
(** io.cpp:442-444, 468-470 *)
Definition roomPages (t : track) : track :=
  if t_rc (pages t) <=? u64 (t_end (pages t) - t_del (pages t))
  then resizeTrack t (t_rc (frags t)) (t_rc (keys t)) (t_rc (parts t)) (u32 (t_rc (pages t) * 2)) else t.
(** io.cpp:447-452, 479-486; [r] is what the record held before, changed by the last two assignments of
    the second place only. *)
Definition newPage (t : track) (n time size : Z) (clean : bool) : track :=
  let e := t_end (pages t) in
  let q := upd (pages t) e (g_first_ n) in
  let q := upd q e (g_ftime_ time) in
  let q := upd q e (g_size_ size) in
  let q := upd q e (g_count_ 0) in
  let q := upd q e (g_avail_ 0) in
  let q := if clean then upd (upd q e (g_parts_ 0)) e (g_ltime_ 0) else q in
  with_pages t (addRecord q).
(** io.cpp:472-476 *)
Fixpoint sum_parts (n : nat) (t : track) (i r : Z) : Z :=
  match n with O => r | S k => sum_parts k t (i + 1) (u64 (r + k_parts (at_ (keys t) i))) end.

Section Live.
(** lib/defines.h:134-142: the size of a page, and when to start the next one. *)
Context (SIZE FLIP DURATION : Z).

(** io.cpp:434-492: the page for a key frame and the number of its record; None if it could not be started. *)
Definition opened (s : live) (n e : Z) : live * option Z :=
  match bufferStart s n with Some s => (s, Some e) | None => (s, None) end.
Definition keyPage (s : live) (time : Z) : live * option Z :=
  let t := tk s in
  match cur s with
  | None =>
    let k := getKeyNumForTime t time in
    let n := u32 (if k =? INVALID_KEY_NUM then 0 else k + 1) in
    let t := roomPages t in
    let e := t_end (pages t) in
    opened (mklive (newPage t n time SIZE false) None (shm s)) n e
  | Some c =>
    let i := findPage t c in
    let g := at_ (pages t) i in
    if (FLIP <? g_avail g) || (DURATION <? u64 (time - g_ftime g)) then
      let n := u32 (g_first g + g_count g) in
      let t := roomPages t in
      let parts := sum_parts (Z.to_nat (g_count g)) t (g_first g) 0 in
      let t := with_pages t (upd (pages t) i (g_parts_ parts)) in
      let e := t_end (pages t) in
      opened (mklive (newPage t n time SIZE true) None (shm s)) n e
    else (s, Some i)
  end.
(** io.cpp:493-495 *)
Definition countKey (s : live) (i time : Z) : live :=
  let q := upd (pages (tk s)) i (g_ltime_ time) in
  let q := upd q i (g_count_ (u64 (g_count (at_ q i) + 1))) in
  mklive (with_pages (tk s) q) (cur s) (shm s).
(** io.cpp:399-409 *)
Definition isKey (s : live) (f : fields) : bool :=
  let t := tk s in
  if video t then f_key f
  else (t_end (pages t) =? 0) || match cur s with None => true | Some _ => false end
    || (AUDIO_KEY_INTERVAL <=? u64 (f_time f - g_ltime (at_ (pages t) (t_end (pages t) - 1)))).
(** io.cpp:277-300, 342 and 497-515: Quit stands for the signal sent when the page is gone, Trap for a
    store outside the page. *)
Definition append (s : live) (f : fields) (minfrag : Z) : out live :=
  match cur s with
  | None => Done s
  | Some c =>
    match shm s c with
    | None => Quit
    | Some m =>
      let i := findPage (tk s) c in
      let g := at_ (pages (tk s)) i in
      match bufferNext (g_size g) (m, g_avail g) f with
      | None => Trap
      | Some (m, a) =>
        t <! update (with_pages (tk s) (upd (pages (tk s)) i (g_avail_ a)))
               (mkpacket (f_time f) (f_offset f) (len (f_data f)) (f_bpos f) (f_key f) 0 minfrag);;
        Done (mklive t (cur s) (set_shm (shm s) c (Some m)))
      end
    end
  end.
(** io.cpp:378-516 *)
Definition bufferLive (s : live) (f : fields) (minfrag : Z) : out live :=
  let f := set_key f (isKey s f) in
  if f_time f <? lastms (tk s) then Done s
  else if f_key f then
    match keyPage s (f_time f) with
    | (s, None) => Done s
    | (s, Some i) => append (countKey s i (f_time f)) f minfrag
    end
  else append s f minfrag.
End Live.

(** dtsc.cpp:2688-2740 as called by the buffer process: the oldest key goes, and with it perhaps its page. *)
Definition evictKey (s : live) : out live :=
  r <! removeFirstKey (tk s);;
  Done (mklive (fst r) (cur s) (match snd r with Some n => set_shm (shm s) n None | None => shm s end)).
(** io.cpp:345-348 *)
Definition liveFinalize (s : live) : live := mklive (tk s) None (shm s).

(** output.cpp:604-615 *)
Definition pageNumForKey (t : track) (k : Z) : Z :=
  match first_where (count (pages t)) (t_del (pages t))
          (fun i => let g := at_ (pages t) i in negb (k <? g_first g) && negb (u64 (g_first g + g_count g - 1) <? k)) with
  | Some i => let g := at_ (pages t) i in if g_avail g =? 0 then INVALID_KEY_NUM else g_first g
  | None => INVALID_KEY_NUM end.
(** dtsc.cpp:3768-3777 *)
Definition nextPageAvailable (t : track) (n : Z) : bool :=
  match first_where (count (pages t) - 1) (t_del (pages t)) (fun i => g_first (at_ (pages t) i) =? n) with
  | Some i => negb (g_avail (at_ (pages t) (i + 1)) =? 0)
  | None => false end.
(** dtsc.cpp:3781-3801; the second result is nextPage, None if left alone. *)
Fixpoint forTime_loop (n : nat) (t : track) (T i res : Z) : Z * option Z :=
  match n with
  | O => (res, None)
  | S k =>
    let g := at_ (pages t) i in
    if g_avail g =? 0 then forTime_loop k t T (i + 1) res
    else if T <? g_ftime g then (res, Some (g_first g))
    else forTime_loop k t T (i + 1) i
  end.
Definition getPageNumbersForTime (t : track) (T : Z) : Z * option Z :=
  let '(r, n) := forTime_loop (count (pages t)) t T (t_del (pages t)) (u32 (t_del (pages t))) in (g_first (at_ (pages t) r), n).
(** dtsc.cpp:3803-3813 *)
Fixpoint forKey_loop (n : nat) (t : track) (k i res : Z) : Z :=
  match n with
  | O => res
  | S m =>
    let g := at_ (pages t) i in
    if g_avail g =? 0 then forKey_loop m t k (i + 1) res
    else if k <? g_first g then res
    else forKey_loop m t k (i + 1) i
  end.
Definition getPageNumberForKey (t : track) (k : Z) : Z :=
  g_first (at_ (pages t) (forKey_loop (count (pages t)) t k (t_del (pages t)) (t_del (pages t)))).
