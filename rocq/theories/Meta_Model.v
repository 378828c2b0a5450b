(** Model of the per-track tables of stream metadata (/repo/lib/dtsc.cpp, class Meta): parts, keys,
    fragments and pages, kept in Util::RelAccX rings (/repo/lib/util.cpp:840-1345, modelled byte for byte
    in RelAccX_Model; theorems rax_separate and rax_window there justify reading a ring as cells of
    records). Left out: log messages, the shared memory pages behind the rings, jitter and frame rate
    estimates, tracks with embedded frames, and metadata limited to a time range. *)
From Verif Require Import Common.

(** A call can end the process (RelAccX::deleteRecords calls exit(1)) or divide by zero. *)
Inductive out (A : Type) := Quit | Trap | Done (a : A).
Arguments Quit {A}. Arguments Trap {A}. Arguments Done {A} a.
Notation "x <! a ;; b" := (match a with Quit => Quit | Trap => Trap | Done x => b end)
  (at level 100, a at next level, right associativity, only parsing).

(** The header of a ring (util.cpp:872-878) and its records. *)
Record tbl (A : Type) := mktbl { t_rc : Z; t_start : Z; t_del : Z; t_pres : Z; t_end : Z; t_cell : Z -> A }.
Arguments mktbl {A}. Arguments t_rc {A}. Arguments t_start {A}. Arguments t_del {A}. Arguments t_pres {A}.
Arguments t_end {A}. Arguments t_cell {A}.

(** util.cpp:41 RECORD_POINTER: the record number modulo the capacity. *)
Definition slot {A} (t : tbl A) (r : Z) : Z := if t_rc t =? 0 then r else r mod t_rc t.
Definition at_ {A} (t : tbl A) (r : Z) : A := t_cell t (slot t r).
Definition put {A} (t : tbl A) (r : Z) (a : A) : tbl A :=
  mktbl (t_rc t) (t_start t) (t_del t) (t_pres t) (t_end t) (fun i => if i =? slot t r then a else t_cell t i).
(** setInt on one field of a record: the other fields keep their value. *)
Definition upd {A} (t : tbl A) (r : Z) (f : A -> A) : tbl A := put t r (f (at_ t r)).
(** util.cpp:1322-1331 *)
Definition addRecord {A} (t : tbl A) : tbl A :=
  mktbl (t_rc t) (t_start t) (t_del t) (if t_rc t <? u64 (t_end t + 1 - t_del t) then 0 else u32 (t_pres t + 1))
        (u64 (t_end t + 1)) (t_cell t).
(** util.cpp:1307-1318 *)
Definition deleteRecords {A} (t : tbl A) (n : Z) : out (tbl A) :=
  if t_pres t <? n then Quit
  else Done (mktbl (t_rc t) (u32 (t_start t + n)) (u64 (t_del t + n)) (t_pres t - n) (t_end t) (t_cell t)).
(** dtsc.cpp:1854-1972: the records of the window are copied into an empty ring of another capacity. *)
Fixpoint copy_cells {A} (n : nat) (old new : tbl A) (i : Z) : tbl A :=
  match n with O => new | S k => copy_cells k old (put new i (at_ old i)) (i + 1) end.
Definition resizeTbl {A} (z : A) (old : tbl A) (rc : Z) : tbl A :=
  copy_cells (Z.to_nat (t_end old - t_start old)) old
    (mktbl (u32 rc) (t_start old) (t_del old) (t_pres old) (t_end old) (fun _ => z)) (t_start old).

(** dtsc.cpp:2180-2226: the fields and their widths. *)
Record part := mkpart { pt_size : Z; pt_dur : Z; pt_off : Z }.
Record key := mkkey { k_firstpart : Z; k_bpos : Z; k_dur : Z; k_num : Z; k_parts : Z; k_time : Z; k_size : Z }.
Record frag := mkfrag { f_dur : Z; f_keys : Z; f_first : Z; f_size : Z }.
Record page := mkpage { g_first : Z; g_count : Z; g_parts : Z; g_size : Z; g_avail : Z; g_ftime : Z; g_ltime : Z }.
Definition part0 := mkpart 0 0 0.
Definition key0 := mkkey 0 0 0 0 0 0 0.
Definition frag0 := mkfrag 0 0 0 0.
Definition page0 := mkpage 0 0 0 0 0 0 0.
Definition pt_size_ v (p : part) := mkpart (u32 v) (pt_dur p) (pt_off p).
Definition pt_dur_ v (p : part) := mkpart (pt_size p) (u16 v) (pt_off p).
Definition pt_off_ v (p : part) := mkpart (pt_size p) (pt_dur p) (s16 (u16 v)).
Definition k_firstpart_ v (k : key) := mkkey (u64 v) (k_bpos k) (k_dur k) (k_num k) (k_parts k) (k_time k) (k_size k).
Definition k_bpos_ v (k : key) := mkkey (k_firstpart k) (u64 v) (k_dur k) (k_num k) (k_parts k) (k_time k) (k_size k).
Definition k_dur_ v (k : key) := mkkey (k_firstpart k) (k_bpos k) (u32 v) (k_num k) (k_parts k) (k_time k) (k_size k).
Definition k_num_ v (k : key) := mkkey (k_firstpart k) (k_bpos k) (k_dur k) (u32 v) (k_parts k) (k_time k) (k_size k).
Definition k_parts_ v (k : key) := mkkey (k_firstpart k) (k_bpos k) (k_dur k) (k_num k) (u32 v) (k_time k) (k_size k).
Definition k_time_ v (k : key) := mkkey (k_firstpart k) (k_bpos k) (k_dur k) (k_num k) (k_parts k) (u64 v) (k_size k).
Definition k_size_ v (k : key) := mkkey (k_firstpart k) (k_bpos k) (k_dur k) (k_num k) (k_parts k) (k_time k) (u32 v).
Definition f_dur_ v (f : frag) := mkfrag (u32 v) (f_keys f) (f_first f) (f_size f).
Definition f_keys_ v (f : frag) := mkfrag (f_dur f) (u16 v) (f_first f) (f_size f).
Definition f_first_ v (f : frag) := mkfrag (f_dur f) (f_keys f) (u32 v) (f_size f).
Definition f_size_ v (f : frag) := mkfrag (f_dur f) (f_keys f) (f_first f) (u32 v).
Definition g_first_ v (g : page) := mkpage (u32 v) (g_count g) (g_parts g) (g_size g) (g_avail g) (g_ftime g) (g_ltime g).
Definition g_count_ v (g : page) := mkpage (g_first g) (u32 v) (g_parts g) (g_size g) (g_avail g) (g_ftime g) (g_ltime g).
Definition g_parts_ v (g : page) := mkpage (g_first g) (g_count g) (u32 v) (g_size g) (g_avail g) (g_ftime g) (g_ltime g).
Definition g_size_ v (g : page) := mkpage (g_first g) (g_count g) (g_parts g) (u32 v) (g_avail g) (g_ftime g) (g_ltime g).
Definition g_avail_ v (g : page) := mkpage (g_first g) (g_count g) (g_parts g) (g_size g) (u32 v) (g_ftime g) (g_ltime g).
Definition g_ftime_ v (g : page) := mkpage (g_first g) (g_count g) (g_parts g) (g_size g) (g_avail g) (u64 v) (g_ltime g).
Definition g_ltime_ v (g : page) := mkpage (g_first g) (g_count g) (g_parts g) (g_size g) (g_avail g) (g_ftime g) (u64 v).

(** dtsc.h:205-260: one track. [video] is getType(track) == "video". *)
Record track := mktrack {
  video : bool; parts : tbl part; keys : tbl key; frags : tbl frag; pages : tbl page;
  firstms : Z; lastms : Z; nowms : Z; bps : Z; maxbps : Z; missed : Z }.
Definition with_parts (t : track) x := mktrack (video t) x (keys t) (frags t) (pages t) (firstms t) (lastms t) (nowms t) (bps t) (maxbps t) (missed t).
Definition with_keys (t : track) x := mktrack (video t) (parts t) x (frags t) (pages t) (firstms t) (lastms t) (nowms t) (bps t) (maxbps t) (missed t).
Definition with_frags (t : track) x := mktrack (video t) (parts t) (keys t) x (pages t) (firstms t) (lastms t) (nowms t) (bps t) (maxbps t) (missed t).
Definition with_pages (t : track) x := mktrack (video t) (parts t) (keys t) (frags t) x (firstms t) (lastms t) (nowms t) (bps t) (maxbps t) (missed t).
Definition with_firstms (t : track) x := mktrack (video t) (parts t) (keys t) (frags t) (pages t) (u64 x) (lastms t) (nowms t) (bps t) (maxbps t) (missed t).
Definition with_lastms (t : track) x := mktrack (video t) (parts t) (keys t) (frags t) (pages t) (firstms t) (u64 x) (u64 x) (bps t) (maxbps t) (missed t).
Definition with_bps (t : track) x y := mktrack (video t) (parts t) (keys t) (frags t) (pages t) (firstms t) (lastms t) (nowms t) (u32 x) (u32 y) (missed t).
Definition with_missed (t : track) x := mktrack (video t) (parts t) (keys t) (frags t) (pages t) (firstms t) (lastms t) (nowms t) (bps t) (maxbps t) (u32 x).

(** dtsc.cpp:1742-1964 *)
Definition resizeTrack (t : track) (fragCount keyCount partCount pageCount : Z) : track :=
  mktrack (video t) (resizeTbl part0 (parts t) partCount) (resizeTbl key0 (keys t) keyCount)
    (resizeTbl frag0 (frags t) fragCount) (resizeTbl page0 (pages t) pageCount)
    (firstms t) (lastms t) (nowms t) (bps t) (maxbps t) (missed t).

(** A packet as handed to Meta::update, with the minimum fragment duration in force at that time
    (dtsc.cpp:2600-2604, never 0). *)
Record packet := mkpacket { p_time : Z; p_off : Z; p_size : Z; p_bpos : Z; p_key : bool; p_send : Z; p_minfrag : Z }.

(** lib/defines.h:278 *)
Definition AUDIO_KEY_INTERVAL := 2047.

(** dtsc.cpp:2846-2855 *)
Definition sendSize (p : packet) : Z :=
  if p_send p =? 0 then
    u64 (24 + (if p_off p =? 0 then 0 else 17) + (if 0 <? p_bpos p then 15 else 0) + (if p_key p then 19 else 0) + p_size p + 11)
  else p_send p.

(** dtsc.cpp:2881-2895 *)
Definition addPart (t : track) (p : packet) : track :=
  let n := t_end (parts t) in
  let t := if t_rc (parts t) <=? u64 (n - t_del (parts t))
           then resizeTrack t (t_rc (frags t)) (t_rc (keys t)) (u32 (t_rc (parts t) * 2)) (t_rc (pages t)) else t in
  let q := upd (parts t) n (pt_size_ (p_size p)) in
  let q := upd q n (pt_off_ (p_off p)) in
  if n =? 0 then
    let q := upd q n (pt_dur_ 0) in
    with_firstms (with_parts t (addRecord q)) (p_time p)
  else
    let q := upd q (n - 1) (pt_dur_ (u64 (p_time p - lastms t))) in
    let q := upd q n (pt_dur_ (u64 (p_time p - lastms t))) in
    with_parts t (addRecord q).

(** dtsc.cpp:2900-2902 *)
Definition opensKey (t : track) (p : packet) : bool :=
  let n := t_end (keys t) in
  p_key p || (n =? 0) ||
  (negb (video t) && (AUDIO_KEY_INTERVAL <=? p_time p) &&
   (AUDIO_KEY_INTERVAL <=? u64 (p_time p - k_time (at_ (keys t) (n - 1))))).

(** dtsc.cpp:2904-2927 *)
Definition addKey (t : track) (p : packet) : track :=
  let n := t_end (keys t) in
  let t := if t_rc (keys t) <=? u64 (n - t_del (keys t))
           then resizeTrack t (t_rc (frags t)) (u32 (t_rc (keys t) * 2)) (t_rc (parts t)) (t_rc (pages t)) else t in
  let q := upd (keys t) n (k_bpos_ (p_bpos p)) in
  let q := upd q n (k_time_ (p_time p)) in
  let q := upd q n (k_parts_ 0) in
  let q := upd q n (k_dur_ 0) in
  let q := upd q n (k_size_ 0) in
  let q := upd q n (k_num_ n) in
  let q := if n =? 0 then upd q n (k_firstpart_ 0)
           else
             let q := upd q n (k_firstpart_ (u64 (k_firstpart (at_ q (n - 1)) + k_parts (at_ q (n - 1))))) in
             upd q (n - 1) (k_dur_ (u64 (p_time p - k_time (at_ q (n - 1))))) in
  let q := addRecord q in
  with_firstms (with_keys t q) (k_time (at_ q (t_del q))).

(** dtsc.cpp:2948-2951: the sums over the fragments in the window. *)
Fixpoint sum_frags (n : nat) (f : tbl frag) (i : Z) (bytes dur : Z) : Z * Z :=
  match n with
  | O => (bytes, dur)
  | S k => sum_frags k f (i + 1) (u64 (bytes + f_size (at_ f i))) (u64 (dur + f_dur (at_ f i)))
  end.

(** dtsc.cpp:2930-2968; [n] is the number of the key just added. *)
Definition addFrag (t : track) (p : packet) (n : Z) : out track :=
  let m := t_end (frags t) in
  let prev t := k_time (at_ (keys t) (f_first (at_ (frags t) (m - 1)))) in
  if (m =? 0) || ((p_minfrag p <=? p_time p) && (prev t <=? u64 (p_time p - p_minfrag p))) then
    let t := if t_rc (frags t) <=? u64 (m - t_del (frags t))
             then resizeTrack t (u32 (t_rc (frags t) * 2)) (t_rc (keys t)) (t_rc (parts t)) (t_rc (pages t)) else t in
    t <! (if m =? 0 then Done t
          else
            let t := with_frags t (upd (frags t) (m - 1) (f_dur_ (u64 (p_time p - prev t)))) in
            let '(b, d) := sum_frags (Z.to_nat (m - t_start (frags t))) (frags t) (t_start (frags t)) 0 0 in
            let last := at_ (frags t) (m - 1) in
            if f_dur last =? 0 then Trap
            else Done (with_bps t (if d =? 0 then 0 else u64 (b * 1000) / d)
                                  (Z.max (maxbps t) (u64 (f_size last * 1000) / f_dur last))));;
    let q := upd (frags t) m (f_first_ n) in
    let q := upd q m (f_dur_ 0) in
    let q := upd q m (f_size_ 0) in
    let q := upd q m (f_keys_ 1) in
    let q := upd q m (f_first_ (k_num (at_ (keys t) n))) in
    Done (with_frags t (addRecord q))
  else Done (with_frags t (upd (frags t) (m - 1) (f_keys_ (f_keys (at_ (frags t) (m - 1)) + 1)))).

(** dtsc.cpp:2971-2975 *)
Definition growKey (t : track) (n : Z) : track :=
  let k := t_end (keys t) - 1 in
  with_keys t (upd (keys t) k (k_dur_ (u64 (k_dur (at_ (keys t) k) + pt_dur (at_ (parts t) (n - 1)))))).

(** dtsc.cpp:2978-2987 *)
Definition account (t : track) (p : packet) : track :=
  let k := t_end (keys t) - 1 in
  let q := upd (keys t) k (k_parts_ (k_parts (at_ (keys t) k) + 1)) in
  let q := upd q k (k_size_ (u64 (k_size (at_ q k) + sendSize p))) in
  let m := t_end (frags t) - 1 in
  let f := upd (frags t) m (f_size_ (u64 (f_size (at_ (frags t) m) + p_size p))) in
  with_lastms (with_frags (with_keys t q) f) (p_time p).

(** dtsc.cpp:2835-2989 *)
Definition update (t : track) (p : packet) : out track :=
  if p_time p <? lastms t then Done t
  else
    let n := t_end (parts t) in
    let t := addPart t p in
    t <! (if opensKey t p then addFrag (addKey t p) p (t_end (keys t)) else Done (growKey t n));;
    Done (account t p).

(** dtsc.cpp:2688-2740. Whether the data page of the first page is destroyed is the second result. *)
Definition removeFirstKey (t : track) : out (track * option Z) :=
  let k := t_del (keys t) in
  let n := k_parts (at_ (keys t) k) in
  ps <! deleteRecords (parts t) (u32 n);;
  let t := with_parts t ps in
  ks <! deleteRecords (keys t) 1;;
  let t := with_keys t ks in
  t <! (if f_first (at_ (frags t) (t_del (frags t))) <? t_del (keys t) then
          fs <! deleteRecords (frags t) 1;; Done (with_missed (with_frags t fs) (missed t + 1))
        else Done t);;
  let t := with_firstms t (k_time (at_ (keys t) (t_del (keys t)))) in
  let g := u32 (t_del (pages t)) in
  let r := at_ (pages t) g in
  if u32 (g_first r + g_count r) <=? u64 (k + 1) then
    gs <! deleteRecords (pages t) 1;;
    Done (with_pages t gs, if g_avail r =? 0 then None else Some (g_first r))
  else if g_avail r =? 0 then
    let q := upd (pages t) g (g_count_ (u32 (g_count r - 1))) in
    let q := upd q g (g_parts_ (u64 (g_parts r - n))) in
    let q := upd q g (g_first_ (u64 (k + 1))) in
    Done (with_pages t q, None)
  else Done (t, None).

(** dtsc.cpp:2110-2226 with no records: the state of a new track. *)
Definition emptyTbl {A} (z : A) (rc : Z) : tbl A := mktbl rc 0 0 0 0 (fun _ => z).
Definition newTrack (v : bool) (fragCount keyCount partCount pageCount : Z) : track :=
  mktrack v (emptyTbl part0 partCount) (emptyTbl key0 keyCount) (emptyTbl frag0 fragCount) (emptyTbl page0 pageCount)
    0 0 0 0 0 0.

(** /repo/src/input/input_buffer.cpp:285-311. [active] is config->is_active; biggestFragment is
    dtsc.cpp:3623-3638. *)
Fixpoint biggest (n : nat) (f : tbl frag) (i r : Z) : Z :=
  match n with O => r | S k => biggest k f (i + 1) (if r <? f_dur (at_ f i) then f_dur (at_ f i) else r) end.
Definition removable (t : track) (active : bool) (bufferTime : Z) : bool :=
  if t_end (keys t) =? t_del (keys t) then false
  else if active then
    let a := u32 (t_del (frags t)) in
    let b := u32 (t_end (frags t)) in
    if u64 (t_end (frags t) - t_del (frags t)) <? 5 then false
    else if u64 (lastms t - firstms t) <? bufferTime then false
    else if 2 <? u32 (b - a) then
      let target := u64 ((biggest (Z.to_nat (t_end (frags t) - t_del (frags t))) (frags t) (t_del (frags t)) 0 / 1000 + 1) * 1000) in
      let s := k_time (at_ (keys t) (f_first (at_ (frags t) a))) in
      let e := k_time (at_ (keys t) (f_first (at_ (frags t) (u32 (b - 1))))) in
      negb (u64 (e - s) <? u64 (target * 8))
    else true
  else true.
