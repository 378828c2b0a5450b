(** WebSocket frames, RFC 6455 section 5. *)
From Verif Require Import Common.

Record frame := mkf { fin : bool; opcode : Z; key : option (list Z); payload : list Z }.
Definition frame_ok (f : frame) : Prop :=
  0 <= opcode f < 16 /\ bytesP (payload f) /\ match key f with Some k => bytesP k /\ len k = 4 | None => True end.

(** 5.3: octet i of the transformed data is octet i of the data XOR octet i mod 4 of the key. *)
Definition masked (k l : list Z) : list Z := map (fun i => Z.lxor (nthz l (Z.of_nat i)) (nthz k (Z.of_nat i mod 4))) (seq 0 (List.length l)).
(** 5.2. *)
Definition length_field (m n : Z) : list Z :=
  if n <? 126 then [m + n] else if n <? 65536 then (m + 126) :: be 2 n else (m + 127) :: be 8 n.
Definition enc (f : frame) : list Z :=
  [(if fin f then 128 else 0) + opcode f] ++
  match key f with
  | Some k => length_field 128 (len (payload f)) ++ k ++ masked k (payload f)
  | None => length_field 0 (len (payload f)) ++ payload f
  end.

(** What a peer sends: messages in one or more fragments (key and data of each), and control
    frames between messages. *)
Inductive item :=
| Msg (t : Z) (first : option (list Z) * list Z) (more : list (option (list Z) * list Z))
| Ping (k : option (list Z)) (p : list Z)
| Pong (k : option (list Z)) (p : list Z).
Fixpoint fragments (t : Z) (x : option (list Z) * list Z) (more : list (option (list Z) * list Z)) : list frame :=
  match more with
  | [] => [mkf true t (fst x) (snd x)]
  | y :: r => mkf false t (fst x) (snd x) :: fragments 0 y r
  end.
Definition frames (i : item) : list frame :=
  match i with
  | Msg t x more => fragments t x more
  | Ping k p => [mkf true 9 k p]
  | Pong k p => [mkf true 10 k p]
  end.
(** The opcode of a data message is neither continuation nor control. *)
Definition item_ok (i : item) : Prop :=
  Forall frame_ok (frames i) /\ match i with Msg t _ _ => t <> 0 /\ t <> 8 /\ t <> 9 /\ t <> 10 | _ => True end.
(** What the receiver must see, and what it must answer. *)
Definition messages (l : list item) : list (Z * list Z) :=
  flat_map (fun i => match i with Msg t x more => [(t, snd x ++ flat_map snd more)] | _ => [] end) l.
Definition answers (mask_out : bool) (l : list item) : list Z :=
  flat_map (fun i => match i with Ping _ p => enc (mkf true 10 (if mask_out then Some [0; 0; 0; 0] else None) p) | _ => [] end) l.
