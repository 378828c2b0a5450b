(** Model of RTP::Sorter, /repo/lib/rtp.cpp:831-929 and rtp.h:114-138.  A packet is any value; its
    sequence number is given beside it.  [drop] and [wait] are PACKET_DROP_TIMEOUT and
    PACKET_REORDER_WAIT, which the WebRTC output configures. *)
From Verif Require Import Common.

Section Sorter.
Context {P : Type}.

(** std::map<uint16_t, Packet>: a list sorted by key. *)
Fixpoint mfind (k : Z) (m : list (Z * P)) : option P :=
  match m with [] => None | (x, v) :: r => if x =? k then Some v else mfind k r end.
Fixpoint mset (k : Z) (v : P) (m : list (Z * P)) : list (Z * P) :=
  match m with
  | [] => [(k, v)]
  | (x, w) :: r => if k <? x then (k, v) :: (x, w) :: r else if k =? x then (k, v) :: r else (x, w) :: mset k v r
  end.
Fixpoint merase (k : Z) (m : list (Z * P)) : list (Z * P) :=
  match m with [] => [] | (x, w) :: r => if x =? k then r else (x, w) :: merase k r end.

Record sorter := mksorter {
  rtpSeq : Z; rtpWSeq : Z; first : bool; preBuffer : bool;
  lostTotal : Z; packTotal : Z; (* lostCurrent and packCurrent change with these *)
  wantedSeqs : list Z;
  packBuffer : list (Z * P) }.
(** rtp.cpp:831-844, the constructor. *)
Definition sorter0 : sorter := mksorter 0 0 true true 0 0 [] [].

Variables drop wait : Z.

(** rtp.cpp:874-881: give up on packets; [n] bounds the number of rounds. *)
Fixpoint give_up (n : nat) (seq p lost pack : Z) : Z * Z * Z :=
  match n with
  | O => (seq, lost, pack)
  | S k => if s16 (seq - p) <? - drop then give_up k (u16 (seq + 1)) p (s32 (lost + 1)) (u32 (pack + 1)) else (seq, lost, pack)
  end.
(** rtp.cpp:886-892: ask for packets. *)
Fixpoint ask (n : nat) (wseq p : Z) (wanted : list Z) (buf : list (Z * P)) : Z * list Z :=
  match n with
  | O => (wseq, wanted)
  | S k =>
    if s16 (wseq - p) <? - wait
    then ask k (u16 (wseq + 1)) p (match mfind wseq buf with None => wseq :: wanted | Some _ => wanted end) buf
    else (wseq, wanted)
  end.
(** rtp.cpp:895-901: send what is buffered; every round erases a packet. *)
Fixpoint flush (n : nat) (seq pack : Z) (buf : list (Z * P)) : list P * Z * Z * list (Z * P) :=
  match n with
  | O => ([], seq, pack, buf)
  | S k =>
    match mfind seq buf with
    | Some v => let '(out, seq', pack', buf') := flush k (u16 (seq + 1)) (u32 (pack + 1)) (merase seq buf) in (v :: out, seq', pack', buf')
    | None => ([], seq, pack, buf)
    end
  end.

(** Bound for the rounds of the two loops above: each changes the compared difference by one. *)
Definition rounds : nat := Z.to_nat 65536.

(** rtp.cpp:883-928: the part of addPacket after giving up, with the members as arguments. *)
Definition sort_in (rseq wseq : Z) (pre : bool) (lost total : Z) (wanted0 : list Z) (buf0 : list (Z * P)) (pSNo : Z) (pack : P) : list P * sorter :=
  let wseq := if s16 (wseq - rseq) <? 0 then rseq else wseq in
  let '(wseq, wanted) := ask rounds wseq pSNo wanted0 buf0 in
  let '(out, rseq, total, buf) := flush (S (List.length buf0)) rseq total buf0 in
  let buf := if s16 (rseq - pSNo) <? 0 then mset pSNo pack buf else buf in
  let inorder := rseq =? pSNo in
  let out := if inorder then out ++ [pack] else out in
  let total := if inorder then u32 (total + 1) else total in
  let rseq := if inorder then u16 (rseq + 1) else rseq in
  let wseq := if s16 (wseq - rseq) <? 0 then rseq else wseq in
  (out, mksorter rseq wseq false pre lost total wanted buf).

(** rtp.cpp:857-929, addPacket: the packets handed to the callback, and the new state. *)
Definition addPacket (st : sorter) (pSNo : Z) (pack : P) : list P * sorter :=
  let rseq := if first st then u16 (pSNo - 5) else rtpSeq st in
  let wseq := if first st then pSNo else rtpWSeq st in
  if preBuffer st then
    if 5 <=? len (packBuffer st) then
      let b := match packBuffer st with (k, _) :: _ => k | [] => 0 end in
      sort_in b b false (lostTotal st) (packTotal st) (wantedSeqs st) (packBuffer st) pSNo pack
    else sort_in rseq wseq true (lostTotal st) (packTotal st) (wantedSeqs st) (packBuffer st) pSNo pack
  else
    let '(s, l, t) := give_up rounds rseq pSNo (lostTotal st) (packTotal st) in
    sort_in s wseq false l t (wantedSeqs st) (packBuffer st) pSNo pack.

Fixpoint addPackets (st : sorter) (ps : list (Z * P)) : list P * sorter :=
  match ps with
  | [] => ([], st)
  | (n, p) :: r => let '(o, st') := addPacket st n p in let '(o', st'') := addPackets st' r in (o ++ o', st'')
  end.
End Sorter.
Arguments sorter : clear implicits.
