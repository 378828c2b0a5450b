(** Model of communication pages: clients that claim, use and leave a record, and the process that polls the
    records (lib/comms.cpp, lib/comms.h COMM_LOOP, src/session.cpp). One step is one access to shared memory
    or to a semaphore. Memory is assumed to be sequentially consistent. *)
From Verif Require Import Common.

(** lib/defines.h:291-297 *)
Definition ACTIVE : Z := 0x1.
Definition INVALID : Z := 0x0.
Definition DISCONNECT : Z := 0x20.
Definition REQDISCONNECT : Z := 0x10.
Definition has (s flag : Z) : bool := negb (s .& flag =? 0).

(** lib/comms.cpp:466-478, 62-65: the fields of a record, without names and time. *)
Inductive cf := Down | Up | Pktcount | Pktloss | Pktretrans.
Definition cf_eqb (a b : cf) : bool :=
  match a, b with Down, Down | Up, Up | Pktcount, Pktcount | Pktloss, Pktloss | Pktretrans, Pktretrans => true | _, _ => false end.
Record slot := mkslot { st : Z; spid : Z; snow : Z; scnt : cf -> Z }.
Definition set_st (x : slot) v := mkslot v (spid x) (snow x) (scnt x).
Definition set_pid (x : slot) v := mkslot (st x) v (snow x) (scnt x).
Definition set_now (x : slot) v := mkslot (st x) (spid x) v (scnt x).
Definition setf (c : cf -> Z) (f : cf) (v : Z) : cf -> Z := fun k => if cf_eqb k f then v else c k.
Definition set_cnt (x : slot) f v := mkslot (st x) (spid x) (snow x) (setf (scnt x) f v).

(** Where a client is in reload, and then. [g] is the semaphore it has opened, [i] its index. *)
Inductive wr := WPid | WCnt (f : cf) | WNow.
Inductive cpc :=
| CIdle | COpen (g : nat)
| CScan (g i : nat) | CWait (g i : nat) | CRecheck (g i : nat) | CSkip (g i : nat)
| CNull (g i : nat) (w : list wr) | CSet (g i : nat) | CEndR (g i : nat) | CEndW (g i : nat) | CPost (g i : nat)
| COwn (i : nat) | CByeR (i : nat) (again : bool) | CByeW (i : nat) (again : bool) (s : Z) | CMarked (i : nat) | CGone.
(** [cval]: what it last wrote as its counters. *)
Record client := mkc { cpid : Z; cflags : Z; dead : bool; at_pc : cpc; cval : cf -> Z }.
Definition set_pc (c : client) p := mkc (cpid c) (cflags c) (dead c) p (cval c).
Definition active (c : client) : bool := negb (dead c) && match at_pc c with CIdle | CGone => false | _ => true end.

(** Where the polling process is: in COMM_LOOP at record [id] of [rc] with status [s]; in finishAll. *)
Inductive mpc :=
| MIdle
| MAt (id rc maxRec : nat) | MPid (id rc : nat) (s : Z) | MRun (id rc : nat) (s p : Z) | MDisc (id rc : nat) (s : Z)
| MAct (id rc : nat) (s : Z)
| MChk (id rc : nat) (s : Z) (fs : list cf) | MLow (id rc : nat) (s : Z) (f : cf) (fs : list cf)
| MAdd (id rc : nat) (s : Z) (fs : list cf) | MSet (id rc : nat) (s : Z) (fs : list cf)
| MInv (id rc : nat)
| MShrink (n rc : nat) | MShrinkR (n rc : nat) | MShrinkW (n : nat) | MPost
| MReq (i : nat) | MReqW (i : nat) (s : Z).

(** [sems g]: who holds semaphore [g]; Some None is the polling process. [gen]: the semaphore the name
    stands for now. [conn], [glob]: the maps and totals of src/session.cpp:24-36. *)
Record sys := mk { slots : list slot; endp : nat; gen : nat; sems : nat -> option (option nat); clients : list client;
  at_m : mpc; mnow : Z; conn : nat -> cf -> Z; glob : cf -> Z }.
Definition upd {A} (l : list A) (i : nat) (f : A -> A) : list A :=
  match nth_error l i with Some x => firstn i l ++ f x :: skipn (S i) l | None => l end.
Definition with_slot (s : sys) i f := mk (upd (slots s) i f) (endp s) (gen s) (sems s) (clients s) (at_m s) (mnow s) (conn s) (glob s).
Definition with_end (s : sys) n := mk (slots s) n (gen s) (sems s) (clients s) (at_m s) (mnow s) (conn s) (glob s).
Definition with_sem (s : sys) g x := mk (slots s) (endp s) (gen s) (fun k => if (k =? g)%nat then x else sems s k) (clients s) (at_m s) (mnow s) (conn s) (glob s).
Definition with_client (s : sys) h f := mk (slots s) (endp s) (gen s) (sems s) (upd (clients s) h f) (at_m s) (mnow s) (conn s) (glob s).
Definition with_m (s : sys) p := mk (slots s) (endp s) (gen s) (sems s) (clients s) p (mnow s) (conn s) (glob s).
Definition with_mnow (s : sys) t := mk (slots s) (endp s) (gen s) (sems s) (clients s) (at_m s) t (conn s) (glob s).
Definition with_conn (s : sys) c := mk (slots s) (endp s) (gen s) (sems s) (clients s) (at_m s) (mnow s) c (glob s).
Definition with_glob (s : sys) g := mk (slots s) (endp s) (gen s) (sems s) (clients s) (at_m s) (mnow s) (conn s) g.
Definition go (s : sys) h p := with_client s h (fun c => set_pc c p).
Definition status (s : sys) i : Z := match nth_error (slots s) i with Some x => st x | None => 0 end.
Definition counter (s : sys) i f : Z := match nth_error (slots s) i with Some x => scnt x f | None => 0 end.

(** lib/comms.cpp:480-492, 67-69 nullFields *)
Definition null_fields : list wr := [WPid; WCnt Up; WCnt Down; WNow; WCnt Pktcount; WCnt Pktloss; WCnt Pktretrans].
Definition write (x : slot) (pid : Z) (w : wr) : slot :=
  match w with WPid => set_pid x pid | WCnt f => set_cnt x f 0 | WNow => set_now x 0 end.

(** A client's next step. lib/comms.cpp:155-186 reload: the semaphore is opened before the page
    (comms.cpp:188, 264-266, 322-338); 50-52 ~Comms and 461-466 unload. *)
Definition client_step (s : sys) (h : nat) (c : client) : option sys :=
  match at_pc c with
  | CIdle => Some (go s h (COpen (gen s)))
  | COpen g => Some (go s h (CScan g 0))
  | CScan g i =>
    if (i <? List.length (slots s))%nat then Some (go s h (if status s i =? INVALID then CWait g i else CScan g (i + 1)))
    else Some (go s h CGone)
  | CWait g i => match sems s g with None => Some (go (with_sem s g (Some (Some h))) h (CRecheck g i)) | Some _ => None end
  | CRecheck g i => Some (go s h (if status s i =? INVALID then CNull g i null_fields else CSkip g i))
  | CSkip g i => Some (go (with_sem s g None) h (CScan g (i + 1)))
  | CNull g i (w :: r) => Some (go (with_slot s i (fun x => write x (cpid c) w)) h (CNull g i r))
  | CNull g i [] => Some (go s h (CSet g i))
  | CSet g i => Some (go (with_slot s i (fun x => set_st x (ACTIVE .| cflags c))) h (CEndR g i))
  | CEndR g i => Some (go s h (if (endp s <=? i)%nat then CEndW g i else CPost g i))
  | CEndW g i => Some (go (with_end s (i + 1)) h (CPost g i))
  | CPost g i => Some (go (with_sem s g None) h (COwn i))
  | COwn _ => None
  | CByeR i again => Some (go s h (CByeW i again (status s i)))
  | CByeW i again v => Some (go (with_slot s i (fun x => set_st x (DISCONNECT .| v))) h (if again then CMarked i else CGone))
  | CMarked i => Some (go s h (CByeR i false))
  | CGone => None
  end.

Definition all_cf : list cf := [Down; Up; Pktcount; Pktloss; Pktretrans].
Section Poll.
(** src/session.cpp: thisType is 1 *)
Context (input : bool).

(** After record [id]: lib/comms.h:19-26 (onDisconnect is src/session.cpp:112-119). *)
Definition after (s : sys) (id rc : nat) (v : Z) : sys :=
  if has v DISCONNECT
  then with_m (with_conn s (fun k => if (k =? id)%nat then fun _ => 0 else conn s k)) (MInv id rc)
  else with_m s (MAt (id + 1) rc id).
(** The polling process's next step; [running] is what Util::Procs::isRunning answers, false only if no
    such process exists. lib/comms.h:8-27; comms.cpp:79-82; src/session.cpp:53-109; comms.cpp:102-121. *)
Definition master_step (s : sys) (running : bool) : option sys :=
  match at_m s with
  | MIdle => None
  | MAt id rc maxRec =>
    if (id <? rc)%nat then
      let v := status s id in
      Some (with_m s (if v =? INVALID then MAt (id + 1) rc maxRec else if has v DISCONNECT then MAct id rc v else MPid id rc v))
    else Some (with_m s (if (maxRec + 1 <? rc)%nat then MShrink (maxRec + 1) rc else MIdle))
  | MPid id rc v =>
    let p := match nth_error (slots s) id with Some x => spid x | None => 0 end in
    Some (with_m s (if p =? 0 then MAct id rc v else MRun id rc v p))
  | MRun id rc v p =>
    if running then Some (with_m s (MAct id rc v))
    else if existsb (fun c => active c && (cpid c =? p)) (clients s) then None
    else Some (with_m s (MDisc id rc v))
  | MDisc id rc v => Some (with_m (with_slot s id (fun x => set_st x (DISCONNECT .| v))) (MAct id rc v))
  | MAct id rc v =>
    let n := match nth_error (slots s) id with Some x => snow x | None => 0 end in
    if (n <? u64 (mnow s - 10)) && negb input then Some (after s id rc v) else Some (with_m s (MChk id rc v all_cf))
  | MChk id rc v [] => Some (with_m s (MAdd id rc v all_cf))
  | MChk id rc v (f :: r) => Some (with_m s (if counter s id f <? conn s id f then MLow id rc v f r else MChk id rc v r))
  | MLow id rc v f r =>
    Some (with_m (with_conn s (fun k => if (k =? id)%nat then setf (conn s k) f (counter s id f) else conn s k)) (MChk id rc v r))
  | MAdd id rc v [] => Some (with_m s (MSet id rc v all_cf))
  | MAdd id rc v (f :: r) => Some (with_m (with_glob s (setf (glob s) f (u64 (glob s f + (counter s id f - conn s id f))))) (MAdd id rc v r))
  | MSet id rc v [] => Some (after s id rc v)
  | MSet id rc v (f :: r) =>
    Some (with_m (with_conn s (fun k => if (k =? id)%nat then setf (conn s k) f (counter s id f) else conn s k)) (MSet id rc v r))
  | MInv id rc => Some (with_m (with_slot s id (fun x => set_st x INVALID)) (MAt (id + 1) rc id))
  | MShrink n rc => match sems s (gen s) with None => Some (with_m (with_sem s (gen s) (Some None)) (MShrinkR n rc)) | Some _ => None end
  | MShrinkR n rc => Some (with_m s (if (endp s <=? rc)%nat then MShrinkW n else MPost))
  | MShrinkW n => Some (with_m (with_end s n) MPost)
  | MPost => Some (with_m (with_sem s (gen s) None) MIdle)
  | MReq i => Some (with_m s (MReqW i (status s i)))
  | MReqW i v => Some (with_m (with_slot s i (fun x => set_st x (REQDISCONNECT .| v))) MIdle)
  end.

(** What can happen: the next step of a client or of the polling process; a client that owns a record
    writes a counter, its time or flags, leaves, or marks its record and stays (src/input/input_ts.cpp:162);
    the polling process starts a round, asks a client to leave (comms.cpp:109-117, input_buffer.cpp:334-336);
    a client or the polling process is killed; the polling process ends and is started again, with a new
    page and a new semaphore (comms.cpp:54-60). *)
Inductive label :=
| Client (h : nat) | Count (h : nat) (f : cf) (v : Z) | Now (h : nat) (t : Z) | Flags (h : nat) (v : Z)
| Leave (h : nat) | Mark (h : nat) | Crash (h : nat)
| Poll (now : Z) | Master (running : bool) | Ask (i : nat) | MCrash | Anew.
Definition alive (s : sys) (h : nat) : option client :=
  match nth_error (clients s) h with Some c => if dead c then None else Some c | None => None end.
Definition step (s : sys) (l : label) : option sys :=
  match l with
  | Client h => c <- alive s h;; client_step s h c
  | Count h f v =>
    c <- alive s h;;
    match at_pc c with
    | COwn i => if (cval c f <=? v) && (v <? 2 ^ 64)
                then Some (with_client (with_slot s i (fun x => set_cnt x f v)) h (fun c => mkc (cpid c) (cflags c) (dead c) (at_pc c) (setf (cval c) f v)))
                else None
    | _ => None end
  | Now h t => c <- alive s h;; match at_pc c with COwn i => Some (with_slot s i (fun x => set_now x t)) | _ => None end
  | Flags h v =>
    c <- alive s h;;
    match at_pc c with
    | COwn i => if (0 <? v) && (v <? 256) && negb (has v DISCONNECT) then Some (with_slot s i (fun x => set_st x v)) else None
    | _ => None end
  | Leave h => c <- alive s h;; match at_pc c with COwn i => Some (go s h (CByeR i false)) | _ => None end
  | Mark h => c <- alive s h;; match at_pc c with COwn i => Some (go s h (CByeR i true)) | _ => None end
  | Crash h => Some (with_client s h (fun c => mkc (cpid c) (cflags c) true (at_pc c) (cval c)))
  | Poll t => match at_m s with MIdle => Some (with_m (with_mnow s t) (MAt 0 (endp s) 0)) | _ => None end
  | Master r => master_step s r
  | Ask i => match at_m s with MIdle => let v := status s i in Some (if (v =? INVALID) || has v DISCONNECT then s else with_m s (MReq i)) | _ => None end
  | MCrash => Some (with_conn (with_glob (with_m s MIdle) (fun _ => 0)) (fun _ _ => 0))
  | Anew =>
    match at_m s with
    | MIdle => Some (mk (repeat (mkslot 0 0 0 (fun _ => 0)) (List.length (slots s))) 1 (gen s + 1) (sems s)
                 (map (fun c => match at_pc c with CIdle | COpen _ => c | _ => set_pc c CGone end) (clients s)) MIdle 0 (fun _ _ => 0) (fun _ => 0))
    | _ => None end
  end.
Fixpoint run (s : sys) (l : list label) : option sys :=
  match l with [] => Some s | a :: r => s <- step s a;; run s r end.
End Poll.

(** lib/comms.cpp:143-151: a new page of [n] records. *)
Definition fresh (n : nat) (cs : list (Z * Z)) : sys :=
  mk (repeat (mkslot 0 0 0 (fun _ => 0)) n) 1 0 (fun _ => None) (map (fun c => mkc (fst c) (snd c) false CIdle (fun _ => 0)) cs) MIdle 0 (fun _ _ => 0) (fun _ => 0).
