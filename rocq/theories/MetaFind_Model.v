(** Model of the lookups in the tables of a track (/repo/lib/dtsc.cpp, classes Meta and Keys). Tracks with
    embedded frames are left out. Loops over the window of a table run over its record numbers. *)
From Verif Require Import Common Meta_Model.

(** for (i = a; i < a + n; ++i) if (p(i)) return i; *)
Fixpoint first_where (n : nat) (a : Z) (p : Z -> bool) : option Z :=
  match n with O => None | S k => if p a then Some a else first_where k (a + 1) p end.
Definition count {A} (t : tbl A) : nat := Z.to_nat (t_end t - t_del t).

(** lib/defines.h:284 *)
Definition INVALID_KEY_NUM := 0xFFFFFFFF.

(** dtsc.cpp:3819-3855 *)
Fixpoint keyNum_loop (n : nat) (t : track) (T : Z) (i res : Z) : Z :=
  match n with
  | O => res
  | S k =>
    let r := at_ (keys t) i in
    keyNum_loop k t T (i + 1)
      (if T <? k_time r then
         if (t_start (parts t) <? k_firstpart r) && (u64 (k_time r - pt_dur (at_ (parts t) (k_firstpart r - 1))) <? T)
         then i else res
       else i)
  end.
Definition getKeyNumForTime (t : track) (T : Z) : Z :=
  if t_end (keys t) =? 0 then INVALID_KEY_NUM
  else keyNum_loop (count (keys t)) t T (t_del (keys t)) (t_del (keys t)).

(** dtsc.cpp:3701-3711 *)
Definition getKeyIndexForTime (t : track) (T : Z) : Z :=
  match first_where (count (keys t)) (t_del (keys t))
          (fun i => (k_time (at_ (keys t) i) =? T) || (T <? u64 (k_time (at_ (keys t) i) + k_dur (at_ (keys t) i)))) with
  | Some i => i | None => t_end (keys t) end.

(** dtsc.cpp:4175-4184 Keys::getIndexForTime *)
Definition getIndexForTime (t : track) (T : Z) : Z :=
  match first_where (count (keys t)) (t_del (keys t))
          (fun i => (T <=? k_time (at_ (keys t) i)) || (T <? u64 (k_time (at_ (keys t) i) + k_dur (at_ (keys t) i)))) with
  | Some i => i | None => if t_end (keys t) =? 0 then 0 else t_end (keys t) - 1 end.

(** dtsc.cpp:3724-3740 *)
Fixpoint partIndex_loop (n : nat) (t : track) (T now res : Z) : Z :=
  match n with
  | O => res
  | S k => if T <=? now then res else partIndex_loop k t T (u64 (now + pt_dur (at_ (parts t) res))) (res + 1)
  end.
Definition getPartIndex (t : track) (T : Z) : Z :=
  let r := at_ (keys t) (getKeyIndexForTime t T) in
  partIndex_loop (Z.to_nat (t_end (parts t) - k_firstpart r)) t T (k_time r) (u32 (k_firstpart r)).

(** dtsc.cpp:3747-3765. The loop starts at key 0, not at the first key kept. *)
Fixpoint partTime_walk (n : nat) (t : track) (i res : Z) : Z :=
  match n with O => res | S k => partTime_walk k t (i + 1) (u64 (res + pt_dur (at_ (parts t) i))) end.
Definition getPartTime (t : track) (j : Z) : Z :=
  match first_where (Z.to_nat (t_end (keys t))) 0
          (fun i => j <? u64 (k_firstpart (at_ (keys t) i) + k_parts (at_ (keys t) i))) with
  | Some i => let r := at_ (keys t) i in partTime_walk (Z.to_nat (j - k_firstpart r)) t (k_firstpart r) (k_time r)
  | None => 0
  end.

(** dtsc.cpp:3714-3717 *)
Definition getTimeForFragmentIndex (t : track) (i : Z) : Z := k_time (at_ (keys t) (f_first (at_ (frags t) i))).
(** dtsc.cpp:3679-3693 *)
Definition getFragmentIndexForTime (t : track) (T : Z) : Z :=
  match first_where (count (frags t)) (t_del (frags t))
          (fun i => T <? u64 (getTimeForFragmentIndex t i + f_dur (at_ (frags t) i))) with
  | Some i => i
  | None => if (t_del (frags t) <? t_end (frags t)) && (T <? lastms t) then t_end (frags t) - 1 else t_end (frags t)
  end.

(** dtsc.cpp:4186-4265 Keys::applyLimiter; dtsc.h:300-313. The view of the keys limited to the times from
    [lo] up to [hi]. *)
Record limited := mklim {
  l_min : Z; l_max : Z; l_first : Z; l_time : Z; l_minparts : Z; l_minsize : Z; l_mindur : Z;
  l_maxparts : Z; l_maxsize : Z; l_maxdur : Z }.
(** 4189-4197 *)
Fixpoint lim_keys (n : nat) (t : track) (lo hi : Z) (i mn mx : Z) : Z * Z :=
  match n with
  | O => (mn, mx)
  | S k =>
    if i <? mx then
      let T := k_time (at_ (keys t) i) in
      let mn := if T <=? lo then i else mn in
      if hi <=? T then (mn, i) else lim_keys k t lo hi (i + 1) mn mx
    else (mn, mx)
  end.
(** 4211-4223 *)
Fixpoint lim_single (n : nat) (t : track) (lo hi : Z) (part first time cnt dur size : Z) : Z * Z * Z * Z * Z :=
  match n with
  | O => (first, time, cnt, dur, size)
  | S k =>
    let p := at_ (parts t) part in
    if lo <=? time then
      if hi <=? u64 (time + dur) then (first, time, cnt, dur, size)
      else lim_single k t lo hi (part + 1) first time (u64 (cnt + 1)) (u64 (dur + pt_dur p)) (u64 (size + pt_size p))
    else lim_single k t lo hi (part + 1) (u64 (first + 1)) (u64 (time + pt_dur p)) cnt dur size
  end.
(** 4239-4248 *)
Fixpoint lim_first (n : nat) (t : track) (lo : Z) (part first time cnt dur size : Z) : Z * Z * Z * Z * Z :=
  match n with
  | O => (first, time, cnt, dur, size)
  | S k =>
    let p := at_ (parts t) part in
    if lo <=? time then (first, time, cnt, dur, size)
    else lim_first k t lo (part + 1) (u64 (first + 1)) (u64 (time + pt_dur p)) (u64 (cnt - 1)) (u64 (dur - pt_dur p)) (u64 (size - pt_size p))
  end.
(** 4255-4262 *)
Fixpoint lim_last (n : nat) (t : track) (hi : Z) (part time cnt dur size : Z) : Z * Z * Z :=
  match n with
  | O => (cnt, dur, size)
  | S k =>
    let p := at_ (parts t) part in
    if hi <=? u64 (time + dur) then (cnt, dur, size)
    else lim_last k t hi (part + 1) time (u64 (cnt + 1)) (u64 (dur + pt_dur p)) (u64 (size + pt_size p))
  end.
Definition applyLimiter (t : track) (lo hi : Z) : limited :=
  let '(mn, mx) := lim_keys (count (keys t)) t lo hi (t_del (keys t)) (t_del (keys t)) (t_end (keys t)) in
  let mx := if mx <=? mn then mn + 1 else mx in
  let a := at_ (keys t) mn in
  if mn + 1 =? mx then
    let '(f, T, c, d, s) := lim_single (Z.to_nat (k_parts a)) t lo hi (k_firstpart a) (k_firstpart a) (k_time a) 0 0 0 in
    mklim mn mx f T c s d c s d
  else
    let '(f, T, c, d, s) := lim_first (Z.to_nat (k_parts a)) t lo (k_firstpart a) (k_firstpart a) (k_time a) (k_parts a) (k_dur a) (k_size a) in
    let b := at_ (keys t) (mx - 1) in
    let '(c', d', s') := lim_last (Z.to_nat (k_parts b)) t hi (k_firstpart b) (k_time b) 0 0 0 in
    mklim mn mx f T c s d c' s' d'.
(** dtsc.cpp:4129-4165: what the limited view answers. *)
Definition lv_firstPart (t : track) (l : limited) (i : Z) : Z := if i =? l_min l then l_first l else k_firstpart (at_ (keys t) i).
Definition lv_parts (t : track) (l : limited) (i : Z) : Z :=
  if i + 1 =? l_max l then l_maxparts l else if i =? l_min l then l_minparts l else k_parts (at_ (keys t) i).
Definition lv_time (t : track) (l : limited) (i : Z) : Z := if i =? l_min l then l_time l else k_time (at_ (keys t) i).
(** dtsc.cpp:4170-4173 *)
Definition lv_totalParts (t : track) (l : limited) : Z :=
  lv_parts t l (l_max l - 1) + lv_firstPart t l (l_max l - 1) - lv_firstPart t l (l_min l).
