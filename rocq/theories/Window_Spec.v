(** What the window of a live stream must be. *)
From Verif Require Import Common Dtsc_Spec Meta_Model Meta_Spec MetaFind_Spec Live_Model Live_Spec Window_Model.

Section Track.
(** Packets [ps] of a track form keys [gs] and fragments [fs], of which the first [d] keys are gone; the stream
    asks for [bt] ms and wants to be rid of what is before [cut]. *)
Context (v : bool) (ps : list packet).
Local Notation gs := (groups v ps).
Local Notation fs := (fragments gs).
(** A packet of the last [bt] ms that was there is still there, unless its key started before [cut]. *)
Definition window_kept (d d' : nat) (bt cut : Z) : Prop :=
  forall j, kept_packet gs d ps j -> lasttime ps - time_at ps j <= bt ->
  kept_packet gs d' ps j \/ exists i, in_key gs i j /\ key_time gs i < cut.
(** [m] ms is the longest of the whole fragments left. *)
Definition longest (a : nat) (m : Z) : Prop :=
  (forall j, Z.of_nat a <= j -> j + 1 < Z.of_nat (List.length fs) -> frag_time fs (j + 1) - frag_time fs j <= m) /\
  (m = 0 \/ exists j, Z.of_nat a <= j /\ j + 1 < Z.of_nat (List.length fs) /\ frag_time fs (j + 1) - frag_time fs j = m).
(** No more may be evicted: with the longest fragment rounded up to whole seconds, less than eight times that
    lies between the starts of the oldest and the newest fragment. *)
Definition needed (d : nat) : Prop :=
  let a := expired d fs in
  exists m, longest a m /\ frag_time fs (Z.of_nat (List.length fs) - 1) - frag_time fs (Z.of_nat a) < 8 * ((m / 1000 + 1) * 1000).
(** What evictions leave: eight whole fragments besides the newest, and seven times the longest of them. *)
Definition enough (d : nat) : Prop :=
  let a := expired d fs in
  (9 <= List.length fs - a)%nat /\
  forall m, longest a m -> 0 <= m -> 7 * ((m / 1000 + 1) * 1000) <= frag_time fs (Z.of_nat (List.length fs) - 1) - frag_time fs (Z.of_nat a).
(** The oldest key begins at or after [cut], or no more may go. *)
Definition cut_done (d : nat) (bt cut : Z) : Prop :=
  (List.length gs <= d + 1)%nat \/ cut <= key_time gs (Z.of_nat d) \/ needed d \/ lasttime ps - key_time gs (Z.of_nat d) < bt.
(** All but the oldest key begins within the last [bt] ms, or no more may go. *)
Definition size_done (d : nat) (bt : Z) : Prop :=
  (List.length gs <= d + 1)%nat \/ lasttime ps - key_time gs (Z.of_nat d + 1) <= bt \/ needed d.
End Track.

(** ** Idle tracks *)
(** A track is too old if it has not been updated for [idle] ms in whole seconds; it is far away if it was not
    updated for five seconds and lies more than [idle] ms before or after all tracks that were. A track updated
    after the clock was read does not count as one of those. *)
Definition active_at (time : Z) (x : strack) : Prop := time - 5 <= x_updated x <= time.
Definition too_old (time idle : Z) (x : strack) : Prop := x_updated x < time /\ idle / 1000 < time - x_updated x.
Definition far_away (time idle : Z) (l : list strack) (x : strack) : Prop :=
  x_updated x < time /\ 5 < time - x_updated x /\ (exists y, In y l /\ active_at time y /\ x_type y = x_type x) /\
  (exists y, In y l /\ active_at time y /\ lastmsOf y <> 0) /\
  ((forall y, In y l -> active_at time y -> lastmsOf y + idle < firstmsOf x) \/
   (forall y, In y l -> active_at time y -> lastmsOf x + idle < firstmsOf y)).
Definition idle (time i : Z) (l : list strack) (x : strack) : Prop :=
  x_type x <> bs "meta" /\ (too_old time i x \/ far_away time i l x).
(** One after the other, tracks that are idle at the time are left out. *)
Inductive dropped (clock : nat -> Z) (i : Z) : nat -> list strack -> list strack -> Prop :=
  | dropped_none k l : (forall x, In x l -> ~ idle (clock k) i l x) -> dropped clock i k l l
  | dropped_one k a x b l : (forall y, In y a -> ~ idle (clock k) i (a ++ x :: b) y) -> idle (clock k) i (a ++ x :: b) x ->
      dropped clock i (S k) (a ++ b) l -> dropped clock i k (a ++ x :: b) l.
Definition times_ok (x : strack) : Prop := 0 <= firstmsOf x < 2 ^ 64 - 1 /\ 0 <= lastmsOf x < 2 ^ 64 /\ 0 <= x_updated x < 2 ^ 63.

(** ** The stream *)
(** A track of another type waits for the video tracks: unless its second key begins no later than each of them. *)
Definition waits (v : bool) (ops : list lop) (l : list strack) (x : strack) : Prop :=
  let gs := groups v (map pk (all_stored v ops)) in
  x_type x <> bs "video" /\ exists z, In z l /\ x_loaded z = true /\ x_type z = bs "video" /\
  ((List.length gs < levictions ops + 2)%nat \/ firstmsOf z < key_time gs (Z.of_nat (levictions ops) + 1)).
(** What happens to track [x] among the tracks [l]. *)
Definition managed (SIZE FLIP DURATION bt cut : Z) (l : list strack) (x y : strack) : Prop :=
  x_tid y = x_tid x /\ x_type y = x_type x /\ x_updated y = x_updated x /\ x_loaded y = x_loaded x /\ x_embedded y = x_embedded x /\
  forall v ops, lreached SIZE FLIP DURATION v ops (x_live x) ->
  let ps := map pk (all_stored v ops) in
  let d := levictions ops in
  exists n, lreached SIZE FLIP DURATION v (ops ++ repeat LEvict n) (x_live y) /\ (n = O -> y = x) /\
    (x_loaded x = false \/ x_embedded x = true \/ waits v ops l x -> n = O) /\
    window_kept v ps d (d + n) bt cut /\ ((0 < n)%nat -> enough v ps (d + n)) /\
    (x_loaded x = true -> x_embedded x = false -> ~ waits v ops l x -> cut_done v ps (d + n) bt cut /\ size_done v ps (d + n) bt).
