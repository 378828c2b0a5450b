(** Specification of an RTMP chunk stream, after the Adobe specification section 5.3. *)
From Verif Require Import Common Rtmp_Model.

(** A message on chunk stream m_cs: timestamp in ms, type id, message stream id, payload. *)
Record msg := mkmsg { m_cs : Z; m_ts : Z; m_type : Z; m_sid : Z; m_data : list Z }.
(** Timestamps below 2^31 ms (24.8 days). A message of type 1 (set chunk size) has a 4 byte number. *)
Definition valid_msg (m : msg) : Prop :=
  2 <= m_cs m <= 65599 /\ 0 <= m_ts m < 2 ^ 31 /\ byteP (m_type m) /\ 0 <= m_sid m < 2 ^ 32 /\
  len (m_data m) < 2 ^ 24 /\ bytesP (m_data m) /\ (m_type m = 1 -> 4 <= len (m_data m)).

(** The basic header: format 0..3 and the chunk stream id in one, two or three bytes. *)
Inductive is_basic (fmt id : Z) : list Z -> Prop :=
| b_one : 2 <= id <= 63 -> is_basic fmt id [fmt * 64 + id]
| b_two : 64 <= id <= 319 -> is_basic fmt id [fmt * 64; id - 64]
| b_three : 64 <= id <= 65599 -> is_basic fmt id [fmt * 64 + 1; (id - 64) mod 256; (id - 64) / 256].

(** What went before on the chunk stream: the last message, its time delta, and whether its
    header carried an extended timestamp. *)
Definition history := option (msg * Z * bool).
(** The timestamp does not fit the 24 bit field, 0xffffff being the escape. *)
Definition extended (m : msg) : bool := 0xffffff <=? m_ts m.
Definition ext_bytes (m : msg) : list Z := if extended m then be 4 (m_ts m) else [].

(** [header h m fmt d x b]: message [m] may be announced after [h] by a message header of format
    [fmt] with bytes [b]; [d] is the new time delta and [x] tells whether the timestamp is extended. *)
Inductive header : history -> msg -> Z -> Z -> bool -> list Z -> Prop :=
| h_full h m : header h m 0 (m_ts m) (extended m)
    (be 3 (Z.min (m_ts m) 0xffffff) ++ be 3 (len (m_data m)) ++ [m_type m] ++ le 4 (m_sid m) ++ ext_bytes m)
| h_same_stream p d x m : m_sid m = m_sid p -> 0 <= m_ts m - m_ts p < 0xffffff ->
    header (Some (p, d, x)) m 1 (m_ts m - m_ts p) false
      (be 3 (m_ts m - m_ts p) ++ be 3 (len (m_data m)) ++ [m_type m])
| h_same_shape p d x m : m_sid m = m_sid p -> 0 <= m_ts m - m_ts p < 0xffffff ->
    len (m_data m) = len (m_data p) -> m_type m = m_type p ->
    header (Some (p, d, x)) m 2 (m_ts m - m_ts p) false (be 3 (m_ts m - m_ts p))
| h_repeat p d m : m_sid m = m_sid p -> m_ts m = m_ts p + d ->
    len (m_data m) = len (m_data p) -> m_type m = m_type p ->
    header (Some (p, d, false)) m 3 d false [].

(** A chunk on the wire: the chunk size in force, its bytes, and the message it completes. *)
Record wire := mkw { w_size : Z; w_bytes : list Z; w_done : option msg }.
Definition completes (size : Z) (d : list Z) (m : msg) : option msg := if len d <=? size then Some m else None.
(** The chunks after the first, for the payload [d] that is still to be sent. *)
Inductive rest_of (m : msg) (ext : list Z) : list Z -> list wire -> Prop :=
| r_end : rest_of m ext [] []
| r_more d n b w : d <> [] -> 0 < n -> is_basic 3 (m_cs m) b -> rest_of m ext (dropz n d) w ->
    rest_of m ext d (mkw n (b ++ ext ++ takez n d) (completes n d m) :: w).
(** All chunks of chunk stream [id] after [h]. *)
Inductive channel (id : Z) : history -> list wire -> Prop :=
| c_none h : channel id h []
| c_message h m fmt d x hb n b w1 w2 : m_cs m = id -> valid_msg m -> header h m fmt d x hb -> is_basic fmt id b -> 0 < n ->
    rest_of m (if x then ext_bytes m else []) (dropz n (m_data m)) w1 -> channel id (Some (m, d, x)) w2 ->
    channel id h (mkw n (b ++ hb ++ takez n (m_data m)) (completes n (m_data m) m) :: w1 ++ w2).

(** A connection carries the chunks of several chunk streams in any order. *)
Definition on_channel (id : Z) (l : list (Z * wire)) : list wire := map snd (filter (fun x => fst x =? id) l).
Definition well_sent (l : list (Z * wire)) : Prop :=
  forall id, exists later, channel id None (on_channel id l ++ later).
(** The chunk size changes when a message of type 1 arrives, to the number in it. *)
Definition new_size (size : Z) (m : msg) : Z :=
  if m_type m =? 1 then unbe (takez 4 (m_data m)) else size.
Definition after (size : Z) (w : wire) : Z := match w_done w with Some m => new_size size m | None => size end.
Fixpoint sizes_agree (size : Z) (l : list (Z * wire)) : Prop :=
  match l with
  | [] => True
  | (_, w) :: r => w_size w = size /\ sizes_agree (after size w) r
  end.
Definition wire_bytes (l : list (Z * wire)) : list Z := List.concat (map (fun x => w_bytes (snd x)) l).
Fixpoint messages (l : list (Z * wire)) : list msg :=
  match l with
  | [] => []
  | (_, w) :: r => match w_done w with Some m => m :: messages r | None => messages r end
  end.

(** The last message on each chunk stream. *)
Definition then_sent (last : Z -> option msg) (m : msg) : Z -> option msg := fun j => if j =? m_cs m then Some m else last j.
(** A run of a sender: the chunk size, whether header compression starts anew, the message.
    Between messages of a chunk stream that refer to each other the time never jumps ahead by
    0xffffff ms (4.66 hours) or more. *)
Fixpoint no_jump (last : Z -> option msg) (l : list (bool * msg)) : Prop :=
  match l with
  | [] => True
  | (anew, m) :: r =>
    (anew = false -> match last (m_cs m) with Some p => m_ts m - m_ts p < 0xffffff | None => True end) /\
    no_jump (then_sent last m) r
  end.
(** Both sides agree on the chunk size, except that the sender may switch just before it sends a
    message too short to be affected. *)
Fixpoint sizes_match (size : Z) (l : list (Z * msg)) : Prop :=
  match l with
  | [] => True
  | (n, m) :: r => 0 < n /\ 0 < size /\ (n = size \/ len (m_data m) <= Z.min n size) /\ sizes_match (new_size size m) r
  end.
(** Consecutive media messages: no jump ahead, and not the same time, type and length twice. *)
Fixpoint distinct (last : option msg) (l : list msg) : Prop :=
  match l with
  | [] => True
  | m :: r => match last with
              | Some p => m_cs p = 4 /\ m_sid p = 1 /\ m_ts m - m_ts p < 0xffffff /\
                  ~ (m_ts m = m_ts p /\ m_type m = m_type p /\ len (m_data m) = len (m_data p))
              | None => True
              end /\ distinct (Some m) r
  end.
Definition media_msg (m : msg) : Prop := valid_msg m /\ m_cs m = 4 /\ m_sid m = 1.

(** Messages as the code has them. *)
Definition to_msg (c : chunk) : msg := mkmsg (cs c) (ts c) (mtype c) (msid c) (cdata c).
Definition to_out (n : Z) (erase : bool) (m : msg) : outgoing := mkout n erase (m_cs m) (m_ts m) (m_type m) (m_sid m) (m_data m).
Definition to_media (n dh : Z) (m : msg) : media := mkmedia n (m_ts m) (m_type m) dh (m_data m).
