(** Model of the list of tracks of a stream: adding, claiming and abandoning tracks (lib/dtsc.cpp:1349-1421,
    1506-1535, 1976-2089), and the claims of a real time input (src/input/input.cpp:1210-1222, 1283-1285).  One step is one
    access to shared memory or to the semaphore; memory is assumed to be sequentially consistent.  Left out: shutting down (isExit),
    failing allocations, validity and the contents of tracks, and waiting for a page that is not there yet. *)
From Verif Require Import Common.

(** A page with a list of tracks: the field pid of every record, getRCount, getPresent, isReload.  Records beyond [cap] do not exist. *)
Record page := mkPage { recs : nat -> Z; cap : nat; present : nat; reload : bool }.
Definition fset {A} (f : nat -> A) (i : nat) (v : A) : nat -> A := fun k => if (k =? i)%nat then v else f k.

(** Where a process is.  addTrack: waiting for the semaphore, reloading, testing for room, copying, marking and replacing the page,
    storing the record, publishing it, returning.  claimTrack and abandonTrack on track [i] likewise. *)
Inductive pc :=
| Idle
| AWait | AReload | ACheck | ACopy | AMark (snap : page) | ANew (snap : page) | AStore (n : nat) | APublish (n : nat) | APost (n : nat)
| CWait (i : nat) | CRead (i : nat) | CWrite (i : nat) | CPost (i : nat) | CFail
| BRead (i : nat) | BWrite (i : nat)
| RLook (i : nat).
(** [view]: the page a process has mapped.  [mine]: the tracks that it has been given, by addTrack or by claimTrack, or that it
    writes to as a real time input, and that it has not abandoned. *)
Record proc := mkProc { view : nat; at_pc : pc; mine : list nat; dead : bool }.

(** [pages]: all pages that ever had the name of the list, up to the current one [cur]; [lock]: who holds the semaphore;
    [added]: what addTrack has returned so far. *)
Record sys := mkSys { pages : nat -> page; cur : nat; lock : option nat; procs : nat -> proc; added : list nat }.

Definition with_page (s : sys) g p := mkSys (fset (pages s) g p) (cur s) (lock s) (procs s) (added s).
Definition with_lock (s : sys) l := mkSys (pages s) (cur s) l (procs s) (added s).
Definition with_proc (s : sys) h p := mkSys (pages s) (cur s) (lock s) (fset (procs s) h p) (added s).
Definition go (s : sys) h c := with_proc s h (mkProc (view (procs s h)) c (mine (procs s h)) (dead (procs s h))).
Definition see (s : sys) h v c := with_proc s h (mkProc v c (mine (procs s h)) (dead (procs s h))).
Definition give (s : sys) h i := with_proc s h (mkProc (view (procs s h)) (at_pc (procs s h)) (i :: mine (procs s h)) (dead (procs s h))).
Definition drop (s : sys) h i :=
  with_proc s h (mkProc (view (procs s h)) (at_pc (procs s h)) (filter (fun k => negb (k =? i)%nat) (mine (procs s h))) (dead (procs s h))).
Definition returned (s : sys) n := mkSys (pages s) (cur s) (lock s) (procs s) (n :: added s).

(** setInt(trackPidField, v, i), addRecords(1), setReload(). *)
Definition set_pid (p : page) i v := mkPage (fset (recs p) i v) (cap p) (present p) (reload p).
Definition publish (p : page) := mkPage (recs p) (cap p) (S (present p)) (reload p).
Definition mark (p : page) := mkPage (recs p) (cap p) (present p) true.
(** lib/dtsc.cpp:1363-1421: a page of [n] records with the published records of the copy; the rest is zero. *)
Definition resized (snap : page) n := mkPage (fun i => if (i <? present snap)%nat then recs snap i else 0) n (present snap) false.

Section Steps.
(** getpid(). *)
Variable pid : nat -> Z.

(** The next step of process [h]. *)
Definition step_of (s : sys) (h : nat) : option sys :=
  let x := procs s h in
  let p := pages s (view x) in
  match at_pc x with
  | Idle => None
  (* lib/dtsc.cpp:1986 *)
  | AWait => match lock s with None => Some (go (with_lock s (Some h)) h AReload) | Some _ => None end
  (* 1992, 1514-1534 *)
  | AReload => Some (see s h (if reload p then cur s else view x) ACheck)
  (* 1996, 2013 *)
  | ACheck => Some (go s h (if (cap p <=? present p)%nat then ACopy else AStore (present p)))
  (* 1362, 1365, 1384-1413 *)
  | ACopy => Some (go s h (AMark p))
  | AMark snap => Some (go (with_page s (view x) (mark p)) h (ANew snap))
  | ANew snap =>
      let s := mkSys (fset (pages s) (S (cur s)) (resized snap (present snap * 2))) (S (cur s)) (lock s) (procs s) (added s) in
      Some (see s h (cur s) (AStore (present snap)))
  (* 2032, 2034, 2036-2037 *)
  | AStore n => Some (go (with_page s (view x) (set_pid p n (pid h))) h (APublish n))
  | APublish n => Some (go (with_page s (view x) (publish p)) h (APost n))
  | APost n => Some (returned (give (go (with_lock s None) h Idle) h n) n)
  (* 2058, 2065, 2069-2071; the failing return releases the semaphore in its destructor (lib/shared_memory.cpp:213-220) *)
  | CWait i => match lock s with None => Some (go (with_lock s (Some h)) h (CRead i)) | Some _ => None end
  | CRead i => Some (go s h (if recs p i =? 0 then CWrite i else CFail))
  | CWrite i => Some (go (with_page s (view x) (set_pid p i (pid h))) h (CPost i))
  | CPost i => Some (give (go (with_lock s None) h Idle) h i)
  | CFail => Some (go (with_lock s None) h Idle)
  (* 2075, 2079 *)
  | BRead i => Some (go s h (if recs p i =? pid h then BWrite i else Idle))
  | BWrite i => Some (go (with_page s (view x) (set_pid p i 0)) h Idle)
  (* src/input/input.cpp:1214, 1219-1220: the answer of claimTrack is not looked at *)
  | RLook i => Some (if recs p i =? 0 then give (go s h (CWait i)) h i else go s h Idle)
  end.

(** What can happen: a call, a step, a process that notices a replaced page (lib/dtsc.cpp:1514-1534 outside of addTrack), a crash. *)
Inductive call := Add | Claim (i : nat) | Abandon (i : nat) | RealTime (i : nat).
Inductive event := Call (h : nat) (c : call) | Step (h : nat) | Refresh (h : nat) | Crash (h : nat).
Definition happen (s : sys) (e : event) : option sys :=
  match e with
  | Call h c =>
      let x := procs s h in
      match at_pc x with
      | Idle =>
          if dead x then None else
          match c with
          | Add => Some (go s h AWait)
          (* only tracks that are in the list are claimed *)
          | Claim i => if (i <? present (pages s (view x)))%nat then Some (go s h (CWait i)) else None
          | Abandon i => Some (go (drop s h i) h (BRead i))
          | RealTime i => if (i <? present (pages s (view x)))%nat then Some (go s h (RLook i)) else None
          end
      | _ => None
      end
  | Step h => if dead (procs s h) then None else step_of s h
  | Refresh h =>
      let x := procs s h in
      if dead x then None
      else match at_pc x with
           | Idle => if reload (pages s (view x)) then Some (see s h (cur s) Idle) else None
           | _ => None
           end
  | Crash h => Some (with_proc s h (mkProc (view (procs s h)) (at_pc (procs s h)) (mine (procs s h)) true))
  end.
Fixpoint run (s : sys) (l : list event) : option sys :=
  match l with [] => Some s | e :: r => match happen s e with Some t => run t r | None => None end end.
End Steps.

(** A new stream: an empty list with room for [n] tracks, and any number of processes that have mapped it. *)
Definition fresh (n : nat) : sys :=
  mkSys (fun _ => mkPage (fun _ => 0) n 0 false) 0 None (fun _ => mkProc 0 Idle [] false) [].
