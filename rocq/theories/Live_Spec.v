(** What the pages of a live track must hold, in terms of the packets handed to it. *)
From Verif Require Import Common Dtsc_Spec Page_Model Page_Spec Meta_Model Meta_Spec MetaFind_Model Live_Model.

Inductive lop := LPacket (f : fields) (minfrag : Z) | LEvict | LClose.
Section Run.
Context (SIZE FLIP DURATION : Z).
Definition lstep (s : live) (o : lop) : out live :=
  match o with
  | LPacket f m => bufferLive SIZE FLIP DURATION s f m
  | LEvict => evictKey s
  | LClose => Done (liveFinalize s)
  end.
Fixpoint lrun (s : live) (l : list lop) : out live :=
  match l with [] => Done s | o :: r => s <! lstep s o;; lrun s r end.
End Run.
Definition newLive (v : bool) (a b c e : Z) : live := mklive (newTrack v a b c e) None (fun _ => None).

(** The packets that count: those that run back in time are ignored, on video also those before the first
    key frame after the page was closed; on other tracks the flag is set on the first packet of a page and
    every 2047 ms. *)
Notation lpacket := (fields * Z)%type.
Fixpoint stored (v open : bool) (last lastkey : Z) (l : list lop) : list lpacket :=
  match l with
  | [] => []
  | LPacket f m :: r =>
    if f_time f <? last then stored v open last lastkey r
    else
      let k := if v then f_key f else negb open || (2047 <=? f_time f - lastkey) in
      if k || open then (set_key f k, m) :: stored v true (f_time f) (if k then f_time f else lastkey) r
      else stored v open last lastkey r
  | LEvict :: r => stored v open last lastkey r
  | LClose :: r => stored v false last lastkey r
  end.
Definition all_stored v l := stored v false 0 0 l.
Definition pk (x : lpacket) : packet :=
  mkpacket (f_time (fst x)) (f_offset (fst x)) (len (f_data (fst x))) (f_bpos (fst x)) (f_key (fst x)) 0 (snd x).
Definition levictions (l : list lop) : nat := List.length (filter (fun o => match o with LEvict => true | _ => false end) l).

(** A page is a list of keys, a key a list of packets. *)
Notation lkey := (list lpacket).
Notation lpage := (list lkey).
(** A page of [SIZE] bytes keeps the packets that still fit. *)
Definition held (SIZE : Z) (p : lpage) : list fields := taken SIZE 0 (map fst (List.concat p)).
Definition wire_page (SIZE : Z) (p : lpage) : list Z := flat_map wire_packet (held SIZE p).
Definition ltime (k : lkey) : Z := start (fun x => f_time (fst x)) k.
Definition last_time (p : lpage) : Z := match rev p with k :: _ => ltime k | [] => 0 end.

(** Pages [pgs] hold what is stored, of which the first [a] are gone. Their records and their bytes: *)
Definition page_holds (SIZE : Z) (s : live) (pgs : list lpage) (j : nat) (p : lpage) : Prop :=
  let g := at_ (pages (tk s)) (Z.of_nat j) in
  g_first g = before j pgs /\ g_count g = Z.of_nat (List.length p) /\ g_size g = SIZE /\
  g_avail g = len (wire_page SIZE p) /\ g_ftime g = start ltime p /\ g_ltime g = last_time p /\
  shm s (g_first g) = Some (wire_page SIZE p ++ repeat 0 (Z.to_nat (SIZE - len (wire_page SIZE p)))) /\ 0 < len (wire_page SIZE p) <= SIZE.
(** The pages together hold all keys in order, [d] of which have been evicted: the first page left holds the
    oldest key left, and no other pages exist. A key starts a new page when more than [FLIP] bytes are in use. *)
Definition layout (SIZE FLIP : Z) (v : bool) (s : live) (ls : list lpacket) (d : nat) (pgs : list lpage) (a : nat) : Prop :=
  List.concat (List.concat pgs) = ls /\ map (map pk) (List.concat pgs) = groups v (map pk ls) /\ Forall (fun p => p <> []) pgs /\
  t_del (pages (tk s)) = Z.of_nat a /\ t_end (pages (tk s)) = Z.of_nat (List.length pgs) /\
  (forall j p, nth_error pgs j = Some p -> (a <= j)%nat -> page_holds SIZE s pgs j p) /\
  (ls <> [] -> before a pgs <= Z.of_nat d < before (S a) pgs) /\
  (forall n, shm s n <> None -> exists j, (a <= j < List.length pgs)%nat /\ n = before j pgs) /\
  match cur s with Some c => pgs <> [] /\ c = before (List.length pgs - 1) pgs | None => True end /\
  (forall p k, In (p ++ [k]) pgs -> len (wire_page SIZE p) <= FLIP).

(** What the callers must see to, and sizes: every packet fits on an empty page. *)
Definition llegal (v : bool) (l : list lop) : Prop :=
  forall pre post, l = pre ++ LEvict :: post -> newest_kept v (map pk (all_stored v pre)) (levictions pre).
Definition lfits (SIZE : Z) (v : bool) (ls : list lpacket) : Prop :=
  fits v (map pk ls) /\ Forall (fun x => fields_ok (fst x) /\ len (wire_packet (fst x)) <= SIZE) ls.
(** Every key fits on a page that has [FLIP] bytes in use. *)
Definition roomy (SIZE FLIP : Z) (v : bool) (ps : list packet) : Prop :=
  Forall (fun g => FLIP + total sendSize g <= SIZE) (groups v ps).
Definition lreached (SIZE FLIP DURATION : Z) (v : bool) (ops : list lop) (s : live) : Prop :=
  exists a b c e, 1 <= a < 2 ^ 32 /\ 1 <= b < 2 ^ 32 /\ 1 <= c < 2 ^ 32 /\ 1 <= e < 2 ^ 32 /\
  lfits SIZE v (all_stored v ops) /\ llegal v ops /\ lrun SIZE FLIP DURATION (newLive v a b c e) ops = Done s.

(** What lookups must answer: the page that holds key [k], by its number; whether there is a page after it;
    the page in use at time [T] and the one after it. *)
Definition key_lookups (t : track) (pgs : list lpage) (a : nat) : Prop :=
  (forall i k, (a <= i < List.length pgs)%nat -> before i pgs <= k < before (S i) pgs ->
     bufferedOnPage t k = before i pgs /\ pageNumForKey t k = before i pgs /\ getPageNumberForKey t k = before i pgs) /\
  (forall k, before (List.length pgs) pgs <= k -> bufferedOnPage t k = INVALID_KEY_NUM /\ pageNumForKey t k = INVALID_KEY_NUM) /\
  (forall i, (a <= i < List.length pgs)%nat -> nextPageAvailable t (before i pgs) = (S i <? List.length pgs)%nat).
Definition time_lookup (t : track) (pgs : list lpage) (a : nat) (T : Z) : Prop :=
  exists i, (a <= i <= List.length pgs)%nat /\
    (forall j p, nth_error pgs j = Some p -> (a <= j < i)%nat -> start ltime p <= T) /\
    (forall p, nth_error pgs i = Some p -> T < start ltime p) /\
    getPageNumbersForTime t T = (before (Nat.max a (i - 1)) pgs, if (i <? List.length pgs)%nat then Some (before i pgs) else None).
