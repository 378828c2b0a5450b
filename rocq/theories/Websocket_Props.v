(** C09, C10: WebSocket messages. *)
From Verif Require Import Common CommonFacts CommonMore SockBuf_Model SockBuf_Proofs Websocket_Model Websocket_Spec Websocket_Proofs.
Import List.

(** A fresh connection whose socket will yield the chunks [cs]. *)
Definition fresh (mask_out : bool) (cs : list (list Z)) : ws := mkws sb_new cs 0 [] false [] mask_out.
Definition close_frame (c : option (option (list Z) * list Z)) : list frame :=
  match c with Some (k, p) => [mkf true 8 k p] | None => [] end.

(** C10 (and the receiving half of C09). A peer sends any list of messages in any number of
    fragments, with any keys, and pings and pongs between messages; then maybe a close frame, and
    anything after it. However these bytes arrive, a client that keeps calling readFrame gets
    exactly the messages, each the concatenation of its fragments, in order; every ping is answered
    with its payload; and the connection is closed if and only if asked. The sizes keep the 32 bit
    byte counters of the receive buffer from overflowing. Missing from C10: control frames between
    the fragments of one message (refuted below). *)
Theorem websocket_delivers_partial : forall items close g cs mask_out (A B : Z),
  Forall item_ok items -> Forall frame_ok (close_frame close) ->
  let fs := flat_map frames items ++ close_frame close in
  Forall (fun f => len (enc f) <= A) fs -> Forall (fun c => len c <= B) cs -> 0 <= A -> 0 <= B -> A + B < 2 ^ 32 ->
  g = [] \/ close <> None ->
  concat cs = flat_map enc fs ++ g ->
  forall n, len fs + len cs <= Z.of_nat n ->
  exists w, drive n (fresh mask_out cs) = Some (messages items, w) /\ wsent w = answers mask_out items /\
            wclosed w = (match close with Some _ => true | None => false end).
Proof.
  intros items close g cs mo A B Hi Hc fs Hs Hb HA HB HAB Hg HE n Hn.
  assert (S : Forall (fun f => len (enc f) < 2 ^ 32) (flat_map frames items)).
  { unfold fs in Hs. apply Forall_app in Hs. destruct Hs as [Hs _]. eapply Forall_impl; [|exact Hs]. cbv beta. intros. lia. }
  destruct (run_items mo items (0, []) (close_frame close) Hi S) as [s' ER]. cbv zeta in ER.
  assert (EC : run_frames mo s' (close_frame close) = ([], [], match close with Some _ => true | None => false end)).
  { destruct close as [[k p]|]; reflexivity. }
  rewrite EC in ER. unfold msgs, sends, shut in ER. cbn [fst snd] in ER. rewrite !app_nil_r in ER.
  assert (Hok : Forall frame_ok fs).
  { unfold fs. apply Forall_app. split; [|exact Hc]. clear - Hi. induction Hi as [|i l Hi Hl IH]; cbn [flat_map]; [constructor|]. apply Forall_app. split; [apply Hi|exact IH]. }
  pose proof (drive_ok A B g HAB n (fresh mo cs) fs) as D. destruct D as [w [D1 [D2 D3]]].
  - constructor; unfold fresh; cbn [wbuf pending wclosed maskOut]; try assumption; try reflexivity.
    + change (q sb_new) with (@nil Z). lnil. lia.
    + destruct Hg as [Hg|Hg]; [now left|]. right. change (st (mkws sb_new cs 0 [] false [] mo)) with (0, @nil Z). unfold fs. rewrite ER. unfold shut. cbn [snd].
      destruct close; [reflexivity|congruence].
  - right. exact Hn.
  - change (st (fresh mo cs)) with (0, @nil Z) in *. change (maskOut (fresh mo cs)) with mo in *. unfold fs in D1, D2, D3.
    rewrite ER in D1, D2, D3. exists w. unfold msgs, sends, shut in *. cbn [fst snd] in *. repeat split; assumption.
Qed.
Print Assumptions websocket_delivers_partial.

Example delivers_case : let k := Some [1; 2; 3; 250] in
  let items := [Msg 1 (k, bs "Hel") [(None, []); (k, bs "lo!!!")]; Ping k (bs "p"); Msg 2 (None, [0; 255]) []] in
  let bytes := flat_map enc (flat_map frames items ++ [mkf true 8 None []]) ++ bs "rest" in
  Forall item_ok items /\
  match drive 20 (fresh false [takez 7 bytes; takez 3 (dropz 7 bytes); dropz 10 bytes]) with
  | Some (l, w) => l = [(1, bs "Hello!!!"); (2, [0; 255])] /\ wsent w = [0x8A; 1; 112] /\ wclosed w = true
  | None => False
  end.
Proof.
  cbv zeta. split; [|vm_compute; repeat split].
  repeat constructor; try discriminate; vm_compute; try (intros H; discriminate H); try exact I; repeat constructor; vm_compute; try intros H; discriminate.
Qed.

(** C09: what sendFrame sends, masked or not, arrives, for every list of messages of every length
    class and every segmentation. *)
Theorem websocket_roundtrip : forall (l : list (Z * list Z)) mask_out cs (A B : Z),
  Forall (fun m => (0 < fst m < 8 \/ 10 < fst m < 16) /\ bytesP (snd m) /\ len (snd m) + 14 <= A) l ->
  Forall (fun c => len c <= B) cs -> 14 <= A -> 0 <= B -> A + B < 2 ^ 32 ->
  concat cs = flat_map (fun m => sendFrame mask_out (snd m) (fst m)) l ->
  forall n, len l + len cs <= Z.of_nat n -> forall mask_out', exists w, drive n (fresh mask_out' cs) = Some (l, w) /\ wsent w = [] /\ wclosed w = false.
Proof.
  intros l mo cs A B Hl Hb HA HB HAB HE n Hn mo'.
  set (k := if mo then Some [0; 0; 0; 0] else None).
  set (items := map (fun m : Z * list Z => Msg (fst m) (k, snd m) []) l).
  assert (EM : messages items = l).
  { unfold items, messages. clear. induction l as [|[t d] l IH]; [reflexivity|]. cbn [map flat_map app]. rewrite IH. cbn [fst snd flat_map]. now rewrite app_nil_r. }
  assert (EF : flat_map frames items = map (fun m : Z * list Z => mkf true (fst m) k (snd m)) l).
  { unfold items. clear. induction l as [|m l IH]; [reflexivity|]. cbn [map flat_map frames fragments app fst snd]. now rewrite IH. }
  assert (EA : answers mo' items = []).
  { unfold items, answers. clear. induction l as [|m l IH]; [reflexivity|]. cbn [map flat_map app]. exact IH. }
  destruct (websocket_delivers_partial items None [] cs mo' A B) with (n := n) as [w [D1 [D2 D3]]].
  - unfold items. apply Forall_map. eapply Forall_impl; [|exact Hl]. intros m [Ht [Hd _]]. split; [|lia].
    cbn [frames fragments fst snd]. constructor; [|constructor]. split; [cbn [opcode]; lia|]. split; [exact Hd|]. cbn [key]. unfold k. destruct mo; [|exact I].
    split; [apply all_bytes_ok; reflexivity|reflexivity].
  - constructor.
  - cbn [close_frame]. rewrite app_nil_r, EF. apply Forall_map. eapply Forall_impl; [|exact Hl]. intros m [Ht [Hd HL]].
    rewrite enc_split, len_app, body_len, hdr_shape. cbn [payload]. lens. rewrite lext_len.
    assert (len (kbytes (mkf true (fst m) k (snd m))) <= 4) by (unfold kbytes, k; cbn [key]; destruct mo; cbn; lia).
    destruct (_ <? 126); [|destruct (_ <? 65536)]; lia.
  - exact Hb.
  - lia.
  - lia.
  - exact HAB.
  - now left.
  - cbn [close_frame]. rewrite !app_nil_r, EF, HE. clear - Hl HB HAB. induction Hl as [|m l [Ht [_ Hs]] _ IH]; [reflexivity|]. cbn [map flat_map]. rewrite IH. f_equal.
    apply sendFrame_ok; lia.
  - cbn [close_frame]. rewrite app_nil_r, EF, len_map. exact Hn.
  - exists w. rewrite EM, EA in *. repeat split; assumption.
Qed.
Print Assumptions websocket_roundtrip.
Example roundtrip_case :
  Forall (fun m => (0 < fst m < 8 \/ 10 < fst m < 16) /\ bytesP (snd m) /\ len (snd m) + 14 <= 70020) [(1, bs "hi"); (2, repeat 7 126); (2, repeat 9 70000)] /\
  map (fun n => takez 12 (sendFrame true (repeat 7 n) 2)) [1%nat; 126%nat; 70000%nat] =
    [[130; 129; 0; 0; 0; 0; 7]; [130; 254; 0; 126; 0; 0; 0; 0; 7; 7; 7; 7]; [130; 255; 0; 0; 0; 0; 0; 1; 17; 112; 0; 0]].
Proof.
  split; [|vm_compute; reflexivity].
  repeat apply Forall_cons; [..|constructor]; (split; [cbn; lia|]); (split; [apply all_bytes_ok; vm_compute; reflexivity|]); vm_compute; discriminate.
Qed.

(** C10 is false if a ping arrives between two fragments: the message "ab" comes out as part of
    nothing, the second fragment is taken for more of the ping. Finding. *)
Theorem websocket_interleaved_ping_refuted : exists fs, 
  fs = [mkf false 1 None (bs "a"); mkf true 9 None (bs "x"); mkf true 0 None (bs "b")] /\
  forall n, match drive n (fresh false [flat_map enc fs]) with
  | Some (l, w) => l = [] /\ ((2 <= n)%nat -> wsent w = sendFrame false (bs "x") 10 ++ sendFrame false (bs "xb") 10)
  | None => False
  end.
Proof.
  eexists. split; [reflexivity|]. intros n. destruct n as [|[|n]]; [vm_compute; repeat split; lia|vm_compute; repeat split; lia|].
  set (w2 := mkws (mksb [[]] [10]) [] 9 (bs "xb") false ([0x8A; 1; 120] ++ [0x8A; 2; 120; 98]) false).
  assert (D : forall m, match drive m w2 with Some (l, w) => l = [] /\ wsent w = wsent w2 | None => False end).
  { assert (E0 : forall b, readFrame (mkws (mksb [] b) [] 9 (bs "xb") false ([0x8A; 1; 120] ++ [0x8A; 2; 120; 98]) false) =
      Some (false, mkws (mksb [] b) [] 9 (bs "xb") false ([0x8A; 1; 120] ++ [0x8A; 2; 120; 98]) false)) by reflexivity.
    assert (D0 : forall m, drive m (mkws (mksb [] [10]) [] 9 (bs "xb") false ([0x8A; 1; 120] ++ [0x8A; 2; 120; 98]) false) =
      Some ([], mkws (mksb [] [10]) [] 9 (bs "xb") false ([0x8A; 1; 120] ++ [0x8A; 2; 120; 98]) false)).
    { induction m as [|m IH]; [reflexivity|]. cbn [drive wclosed]. rewrite E0. exact IH. }
    intros [|m]; [split; reflexivity|]. cbn [drive]. change (wclosed w2) with false. cbv iota.
    change (readFrame w2) with (Some (false, mkws (mksb [] [10]) [] 9 (bs "xb") false ([0x8A; 1; 120] ++ [0x8A; 2; 120; 98]) false)). cbv iota.
    rewrite D0. split; reflexivity. }
  specialize (D n). 
  assert (E : drive (S (S n)) (fresh false [flat_map enc [mkf false 1 None (bs "a"); mkf true 9 None (bs "x"); mkf true 0 None (bs "b")]]) = drive n w2) by reflexivity.
  rewrite E. destruct (drive n w2) as [[l w]|]; [|exact D]. destruct D as [D1 D2]. split; [exact D1|]. intros _. rewrite D2. reflexivity.
Qed.

(** A masked frame whose 64 bit length makes header and payload add up to 2^32 passes the check for
    completeness, which takes 32 bits, and the unmasking loop writes beyond the buffer: fifteen
    bytes from any client suffice. Finding. *)
Theorem websocket_huge_length_refuted : exists bytes, bytesP bytes /\ len bytes = 15 /\ readFrame (fresh false [bytes]) = None.
Proof.
  exists ([0x81; 0xFF] ++ be 8 (2 ^ 32 - 14) ++ [1; 2; 3; 4] ++ [0]).
  split; [apply all_bytes_ok; reflexivity|]. split; reflexivity.
Qed.

Print Assumptions websocket_interleaved_ping_refuted.
Print Assumptions websocket_huge_length_refuted.
