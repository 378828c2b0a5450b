(** What the tables of a track must say, in terms of the packets handed to it. *)
From Verif Require Import Common Meta_Model.

(** Packets that run back in time are ignored. *)
Fixpoint accepted (last : Z) (ps : list packet) : list packet :=
  match ps with
  | [] => []
  | p :: r => if p_time p <? last then accepted last r else p :: accepted (p_time p) r
  end.

Definition start {A} (time : A -> Z) (g : list A) : Z := match g with a :: _ => time a | [] => 0 end.
Definition gtime (g : list packet) : Z := start p_time g.
Definition ftime (f : list (list packet)) : Z := start gtime f.
Definition lasttime (g : list packet) : Z := match rev g with a :: _ => p_time a | [] => 0 end.
Definition total {A} (f : A -> Z) (l : list A) : Z := fold_right (fun a s => f a + s) 0 l.

(** A new element [a] either opens a new group or joins the last one. *)
Definition join {A} (opens : list A -> A -> bool) (gs : list (list A)) (a : A) : list (list A) :=
  match rev gs with
  | [] => [[a]]
  | g :: r => if opens g a then gs ++ [[a]] else rev r ++ [g ++ [a]]
  end.
(** Keys: a packet opens a new key if it is marked so; on a track that is not video also when 2047 ms have
    passed since the first packet of the current key. *)
Definition key_opens (video : bool) (g : list packet) (p : packet) : bool :=
  p_key p || (negb video && (2047 <=? p_time p) && (2047 <=? p_time p - gtime g)).
Definition groups (video : bool) (ps : list packet) : list (list packet) := fold_left (join (key_opens video)) ps [].
(** Fragments: a key opens a new fragment when the minimum duration has passed since the fragment's start. *)
Definition frag_opens (f : list (list packet)) (g : list packet) : bool :=
  match g with p :: _ => ftime f + p_minfrag p <=? p_time p | [] => false end.
Definition fragments (gs : list (list packet)) : list (list (list packet)) := fold_left (join frag_opens) gs [].

(** Number of elements before group [j]. *)
Definition before {A} (j : nat) (gs : list (list A)) : Z := Z.of_nat (List.length (List.concat (firstn j gs))).
(** Number of groups that start before element [d]. *)
Definition expired {A} (d : nat) (gs : list (list A)) : nat :=
  List.length (filter (fun j => before j gs <? Z.of_nat d) (seq 0 (List.length gs))).

(** The record of each part, key and fragment. The duration of the newest part is not known yet: it is
    assumed to be that of the part before. *)
Definition part_of (ps : list packet) (i : nat) (p : packet) : part :=
  mkpart (p_size p)
    (match nth_error ps (S i), i with
     | Some q, _ => p_time q - p_time p
     | None, S j => match nth_error ps j with Some q => p_time p - p_time q | None => 0 end
     | None, O => 0
     end) (p_off p).
Definition key_of (gs : list (list packet)) (j : nat) (g : list packet) : key :=
  mkkey (before j gs) (start p_bpos g)
    (match nth_error gs (S j) with Some h => gtime h - gtime g | None => lasttime g - gtime g end)
    (Z.of_nat j) (Z.of_nat (List.length g)) (gtime g) (total sendSize g).
Definition frag_of (fs : list (list (list packet))) (j : nat) (f : list (list packet)) : frag :=
  mkfrag (match nth_error fs (S j) with Some h => ftime h - ftime f | None => 0 end)
    (Z.of_nat (List.length f)) (before j fs) (total (total p_size) f).

(** A ring whose window is [a, b) and whose records in the window are given. *)
Definition holds {A B} (t : tbl B) (a : nat) (l : list A) (f : nat -> A -> B) : Prop :=
  t_del t = Z.of_nat a /\ t_end t = Z.of_nat (List.length l) /\ t_pres t = t_end t - t_del t /\
  (forall i x, nth_error l i = Some x -> (a <= i)%nat -> at_ t (Z.of_nat i) = f i x).

(** The tables of track [t] after accepting [ps] and evicting the first [d] keys. *)
Definition tables (t : track) (ps : list packet) (d : nat) : Prop :=
  let gs := groups (video t) ps in
  let fs := fragments gs in
  holds (parts t) (Z.to_nat (before d gs)) ps (part_of ps) /\
  holds (keys t) d gs (key_of gs) /\
  holds (frags t) (expired d fs) fs (frag_of fs) /\
  firstms t = match nth_error gs d with Some g => gtime g | None => 0 end /\
  lastms t = lasttime ps /\ nowms t = lasttime ps /\
  missed t = Z.of_nat (expired d fs).

(** The numbers fit the fields of the tables. *)
Definition packet_ok (p : packet) : Prop :=
  0 <= p_time p < 2 ^ 64 /\ -32768 <= p_off p < 32768 /\ 0 <= p_size p < 2 ^ 32 /\ 0 <= p_bpos p < 2 ^ 64 /\
  0 <= p_send p < 2 ^ 64 /\ 0 < p_minfrag p < 2 ^ 64.
Definition small (v : bool) (ps : list packet) : Prop :=
  let gs := groups v ps in
  let fs := fragments gs in
  (List.length ps < Z.to_nat (2 ^ 31))%nat /\
  Forall packet_ok ps /\
  (forall i p q, nth_error ps i = Some p -> nth_error ps (S i) = Some q -> p_time q - p_time p < 65536) /\
  (forall j g h, nth_error gs j = Some g -> nth_error gs (S j) = Some h -> gtime h - gtime g < 2 ^ 32) /\
  (forall j f h, nth_error fs j = Some f -> nth_error fs (S j) = Some h -> ftime h - ftime f < 2 ^ 32) /\
  Forall (fun g => lasttime g - gtime g < 2 ^ 32 /\ total sendSize g < 2 ^ 32) gs /\
  Forall (fun f => Z.of_nat (List.length f) < 65536 /\ total (total p_size) f < 2 ^ 32) fs.
(** ... at every moment. *)
Definition fits (v : bool) (ps : list packet) : Prop := forall q r, ps = q ++ r -> small v q.

(** Histories of one track. [Other] stands for what other calls do to the table of pages; with a number it
    also changes the capacity of that table, which moves all tables (as in src/io.cpp:451-453). *)
Inductive op := Packet (p : packet) | Evict | Other (pg : tbl page) (c : option Z).
Definition step (t : track) (o : op) : out track :=
  match o with
  | Packet p => update t p
  | Evict => r <! removeFirstKey t;; Done (fst r)
  | Other pg c =>
    let t := with_pages t pg in
    Done (match c with
          | Some n => resizeTrack t (t_rc (frags t)) (t_rc (keys t)) (t_rc (parts t)) n
          | None => t
          end)
  end.
Fixpoint run (t : track) (l : list op) : out track :=
  match l with [] => Done t | o :: r => t <! step t o;; run t r end.

Definition packets (l : list op) : list packet := flat_map (fun o => match o with Packet p => [p] | _ => [] end) l.
Definition evictions (l : list op) : nat := List.length (filter (fun o => match o with Evict => true | _ => false end) l).

(** Some fragment starts after the first [d] keys. *)
Definition newest_kept (v : bool) (ps : list packet) (d : nat) : Prop :=
  let fs := fragments (groups v ps) in
  exists j f, nth_error fs j = Some f /\ Z.of_nat d < before j fs.
(** What the callers must see to: keys are evicted only while the newest fragment keeps its first key. *)
Definition legal (v : bool) (l : list op) : Prop :=
  forall pre post, l = pre ++ Evict :: post -> newest_kept v (accepted 0 (packets pre)) (evictions pre).

(** A history in which a key is evicted only when the live buffer's check allows it. *)
Fixpoint guarded (bufferTime : Z) (t : track) (l : list op) : Prop :=
  match l with
  | [] => True
  | o :: r =>
    match o with Evict => removable t true bufferTime = true | _ => True end /\
    match step t o with Done t' => guarded bufferTime t' r | _ => True end
  end.
