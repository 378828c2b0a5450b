(** C07, C08: the receive buffer (lib/socket.cpp, Socket::Buffer). *)
From Verif Require Import Common CommonFacts SockBuf_Model SockBuf_Spec SockBuf_Proofs.

(** C07. For every history of operations on a fresh buffer the observed answers are those of one
    queue of bytes. The bound says that the 32 bit byte counters do not overflow. *)
Theorem buffer_is_fifo : forall ops,
  Forall op_ok ops -> 2 * total_in ops + len ops < 2 ^ 32 -> queue_run [] ops (run sb_new ops).
Proof. intros ops H1 H2. apply (run_ok ops sb_new H1). unfold sb_new. rewrite q_mk. cbn [List.concat segs]. lnil. lia. Qed.
Print Assumptions buffer_is_fifo.

Example buffer_nonvacuous :
  let ops := [Append (bs "ab"); Prepend (bs "x"); Append (bs "c"); Available 4; Remove 3; Bytes 10; Remove 2; NextPart; Available 0] in
  Forall op_ok ops /\ 2 * total_in ops + len ops < 2 ^ 32 /\
  run sb_new ops = [OUnit; OUnit; OUnit; OBool true; OData (bs "xab"); ONum 1; OData []; OData (bs "c"); OBool false].
Proof. cbv zeta. split; [repeat constructor; cbn; lia|]. split; vm_compute; reflexivity. Qed.

(** C08, one byte separator (the default is a newline): after any history without insertion at
    the front, merging or separator change, the reported length is that of the shortest prefix
    that ends with the separator, or 0 if there is none. *)
Theorem split_exact : forall c ops,
  Forall op_ok ops -> Forall stream_op ops -> 2 * total_in ops + len ops < 2 ^ 32 ->
  let b := exec (mksb [] [c]) ops in shortest_split [c] (contents b) (sb_bytesToSplit b).
Proof. exact split_history. Qed.
Print Assumptions split_exact.

Example split_nonvacuous :
  let ops := [Append (bs "ab"); Append (bs "c;de;"); Remove 1] in
  Forall op_ok ops /\ Forall stream_op ops /\ sb_bytesToSplit (exec (mksb [] [ch ";"]) ops) = 3 /\
  contents (exec (mksb [] [ch ";"]) ops) = bs "bc;de;".
Proof. cbv zeta. repeat split; try (repeat constructor; cbn; lia); vm_compute; reflexivity. Qed.

(** C08, any separator: a reported length always is that of a prefix ending with the separator. *)
Theorem split_sound : forall b, len (contents b) < 2 ^ 32 - 1 -> sb_bytesToSplit b <> 0 ->
  sb_bytesToSplit b <= len (contents b) /\ ends_with (splitter b) (takez (sb_bytesToSplit b) (contents b)).
Proof.
  intros b Hl Hn. assert (Hq : len (q b) < 2 ^ 32).
  { unfold contents, sb_copyp in Hl. rewrite copyp_loop_ok in Hl by lia. fold (q b) in Hl.
    rewrite len_takez_min in Hl by lia. lia. }
  rewrite contents_ok by exact Hq.
  destruct (split_loop_sound (splitter b) (segs b) 0 _ ltac:(lia) Hq eq_refl Hn) as [H1 H2].
  rewrite Z.sub_0_r in H2. split; [apply H1|exact H2].
Qed.
Print Assumptions split_sound.

(** C08, any separator, partial: exact for data that arrives in one append whose first separator
    lies within the first 4096 bytes. Missing: separators that straddle two arrivals or two blocks,
    for which the claim is false (next theorem). *)
Theorem split_one_append_partial : forall sp l n,
  sp <> [] -> len l < 2 ^ 32 -> 0 < n <= 4096 -> shortest_split sp l n ->
  sb_bytesToSplit (sb_append (mksb [] sp) l) = n.
Proof. exact split_one_append. Qed.
Print Assumptions split_one_append_partial.

Example split_one_append_nonvacuous : shortest_split (bs "ab") (bs "aabab") 3 /\
  sb_bytesToSplit (sb_append (mksb [] (bs "ab")) (bs "aabab")) = 3.
Proof.
  split; [|reflexivity]. left. split; [vm_compute; intuition congruence|]. split; [exists (bs "a"); reflexivity|].
  intros m Hm [a Ha]. assert (m = 1 \/ m = 2) as [-> | ->] by lia; vm_compute in Ha;
    repeat (destruct a as [|? a]; cbn in Ha; try discriminate; injection Ha as ? Ha).
Qed.

(** C08 is false for longer separators: "\r\n" in two arrivals, or across the 4096 byte block of
    a single arrival, is not found. Finding F07. *)
Theorem split_straddle_refuted :
  (exists a b, contents (exec (mksb [] [13; 10]) [Append a; Append b]) = bs "x" ++ [13; 10] /\
     sb_bytesToSplit (exec (mksb [] [13; 10]) [Append a; Append b]) = 0) /\
  (exists l, contents (exec (mksb [] [13; 10]) [Append l]) = repeat 120 4095 ++ [13; 10] /\
     sb_bytesToSplit (exec (mksb [] [13; 10]) [Append l]) = 0).
Proof.
  split.
  - exists (bs "x" ++ [13]), [10]. split; reflexivity.
  - exists (repeat 120 4095 ++ [13; 10]). split; vm_compute; reflexivity.
Qed.
Print Assumptions split_straddle_refuted.
