From Verif Require Import Common CommonFacts CommonMore Bitfields_Model Bitfields_Spec Bitfields_Proofs SockBuf_Model SockBuf_Proofs Websocket_Model Websocket_Spec.
Import List.

(** ** The receive buffer as a queue *)
Lemma q_append b l : q (sb_append b l) = q b ++ l.
Proof. unfold q, sb_append. cbn [segs]. rewrite concat_app. f_equal. now apply cut_ok. Qed.
Lemma q_avail b n : len (q b) < 2 ^ 32 -> 0 <= n < 2 ^ 32 ->
  exists b', sb_available b n = ((n <=? len (q b)) && (0 <? len (q b)), b') /\ q b' = q b.
Proof. intros H1 H2. eexists. split; [now apply available_ok|]. unfold q. cbn [segs]. apply drop_empty_concat. Qed.
Lemma q_size b : q (snd (sb_size b)) = q b.
Proof. unfold q, sb_size. cbn [snd segs]. apply drop_empty_concat. Qed.
Lemma q_copy b n : len (q b) < 2 ^ 32 -> 0 < len (q b) -> 0 <= n <= len (q b) ->
  exists b', sb_copy b n = (takez n (q b), b') /\ q b' = q b.
Proof.
  intros H1 H2 H3. unfold sb_copy. cbv zeta. set (b0 := snd (sb_size b)). pose proof (q_size b) as Q0. fold b0 in Q0.
  destruct (q_avail b0 n) as [b' [E Q]]; [rewrite Q0; lia|lia|]. rewrite E. rewrite Q0 in *.
  replace ((n <=? len (q b)) && (0 <? len (q b))) with true by lia. cbn [negb].
  exists b'. split; [|exact Q]. f_equal. rewrite copy_loop_ok; [|lia|fold (q b'); rewrite Q; lia|lia].
  fold (q b'). rewrite Q. f_equal. lia.
Qed.
Lemma q_remove b n : len (q b) < 2 ^ 32 -> 0 <= n <= len (q b) ->
  exists b', sb_remove b n = (takez n (q b), b') /\ q b' = dropz n (q b).
Proof.
  intros H1 H3. unfold sb_remove. cbv zeta. set (b0 := snd (sb_size b)). pose proof (q_size b) as Q0. fold b0 in Q0.
  destruct (q_avail b0 n) as [b' [E Q]]; [rewrite Q0; lia|lia|]. rewrite E. rewrite Q0 in *.
  destruct (Z.eq_dec (len (q b)) 0) as [Z0|Z0].
  - replace ((n <=? len (q b)) && (0 <? len (q b))) with false by lia. cbn [negb]. exists b'.
    apply len_zero in Z0. rewrite Z0 in *. rewrite Q. unfold takez, dropz. now rewrite firstn_nil, skipn_nil.
  - replace ((n <=? len (q b)) && (0 <? len (q b))) with true by lia. cbn [negb].
    pose proof (remove_loop_ok (segs b') 0 n) as R. fold (q b') in R. rewrite Q in R. destruct R as [R1 [R2 _]]; [lia|].
    destruct (remove_loop (segs b') 0 n) as [ret d]. cbn [fst snd] in *. eexists. split; [rewrite R1; f_equal; f_equal; lia|].
    unfold q. cbn [segs]. rewrite R2. fold (q b). f_equal. lia.
Qed.

(** ** Masking *)
Lemma xor_mask_len k i l : len (xor_mask k i l) = len l.
Proof. revert i. induction l as [|x r IH]; intros i; [reflexivity|]. cbn [xor_mask]. lens. now rewrite IH. Qed.
Lemma xor_mask_nthz k l : forall i j, 0 <= j < len l -> nthz (xor_mask k i l) j = Z.lxor (nthz l j) (nthz k ((i + j) mod 4)).
Proof.
  induction l as [|x r IH]; intros i j Hj; [revert Hj; lnil; lia|]. cbn [xor_mask]. lens.
  destruct (Z.eq_dec j 0) as [->|Hn]; [rewrite Z.add_0_r; reflexivity|].
  rewrite !nthz_S by lia. rewrite IH by lia. do 2 f_equal. f_equal. lia.
Qed.
Lemma masked_len k l : len (masked k l) = len l.
Proof. unfold masked, len. now rewrite map_length, seq_length. Qed.
Lemma masked_nthz k l j : 0 <= j < len l -> nthz (masked k l) j = Z.lxor (nthz l j) (nthz k (j mod 4)).
Proof.
  intros Hj. unfold masked. unfold nthz at 1.
  set (g := fun i : nat => Z.lxor (nthz l (Z.of_nat i)) (nthz k (Z.of_nat i mod 4))).
  rewrite (nth_indep _ 0 (g O)) by (rewrite map_length, seq_length; unfold len in Hj; lia).
  rewrite map_nth. rewrite seq_nth by (unfold len in Hj; lia). unfold g. rewrite Nat.add_0_l, Z2Nat.id by lia. reflexivity.
Qed.
Lemma unmask k l : xor_mask k 0 (masked k l) = l.
Proof.
  apply nthz_ext.
  - now rewrite xor_mask_len, masked_len.
  - intros i Hi. rewrite xor_mask_len, masked_len in Hi. rewrite xor_mask_nthz by (rewrite masked_len; lia).
    rewrite masked_nthz by lia. rewrite Z.add_0_l. rewrite Z.lxor_assoc, Z.lxor_nilpotent. apply Z.lxor_0_r.
Qed.
Lemma masked_zero l : masked [0; 0; 0; 0] l = l.
Proof.
  apply nthz_ext; [apply masked_len|]. intros i Hi. rewrite masked_len in Hi. rewrite masked_nthz by lia.
  assert (H : nthz [0; 0; 0; 0] (i mod 4) = 0).
  { pose proof (Z.mod_pos_bound i 4 ltac:(lia)). assert (i mod 4 = 0 \/ i mod 4 = 1 \/ i mod 4 = 2 \/ i mod 4 = 3) as [-> |[-> |[-> | ->]]] by lia; reflexivity. }
  rewrite H. apply Z.lxor_0_r.
Qed.

(** ** Headers *)
Definition hdr (f : frame) : list Z :=
  [(if fin f then 128 else 0) + opcode f] ++
  match key f with
  | Some k => length_field 128 (len (payload f)) ++ k
  | None => length_field 0 (len (payload f))
  end.
Definition body (f : frame) : list Z := match key f with Some k => masked k (payload f) | None => payload f end.
Lemma enc_split f : enc f = hdr f ++ body f.
Proof. unfold enc, hdr, body. destruct (key f); rewrite <- ?app_assoc; reflexivity. Qed.
Lemma body_len f : len (body f) = len (payload f).
Proof. unfold body. destruct (key f); [apply masked_len|reflexivity]. Qed.

Lemma byte_hi b : byteP b -> negb ((b .& 128) =? 0) = (128 <=? b).
Proof. intros H. apply (byte_sweep (fun b => Bool.eqb (negb ((b .& 128) =? 0)) (128 <=? b))) in H; [now apply eqb_prop|vm_compute; reflexivity]. Qed.
Lemma byte_lo b : byteP b -> (b .& 127) = b mod 128.
Proof. intros H. apply (byte_sweep (fun b => (b .& 127) =? b mod 128)) in H; [lia|vm_compute; reflexivity]. Qed.
Lemma byte_nib b : byteP b -> (b .& 15) = b mod 16.
Proof. intros H. apply (byte_sweep (fun b => (b .& 15) =? b mod 16)) in H; [lia|vm_compute; reflexivity]. Qed.

(** The second header byte and what follows it up to the key. *)
Definition klen (f : frame) : Z := match key f with Some _ => 4 | None => 0 end.
Definition mbit (f : frame) : Z := match key f with Some _ => 128 | None => 0 end.
Definition l7 (n : Z) : Z := if n <? 126 then n else if n <? 65536 then 126 else 127.
Definition lext (n : Z) : list Z := if n <? 126 then [] else if n <? 65536 then be 2 n else be 8 n.
Definition kbytes (f : frame) : list Z := match key f with Some k => k | None => [] end.
Lemma hdr_shape f : hdr f = ((if fin f then 128 else 0) + opcode f) :: (mbit f + l7 (len (payload f))) :: lext (len (payload f)) ++ kbytes f.
Proof.
  unfold hdr, mbit, l7, lext, kbytes, length_field. destruct (key f); destruct (_ <? 126); try destruct (_ <? 65536); cbn [app]; rewrite ?app_nil_r; reflexivity.
Qed.
Lemma lext_len n : len (lext n) = if n <? 126 then 0 else if n <? 65536 then 2 else 8.
Proof. unfold lext. destruct (n <? 126); [reflexivity|]. destruct (n <? 65536); now rewrite be_len. Qed.
Lemma kbytes_len f : frame_ok f -> len (kbytes f) = klen f.
Proof. intros [_ [_ H]]. unfold kbytes, klen. destruct (key f); [apply H|reflexivity]. Qed.
Lemma hdr_len f : frame_ok f -> len (hdr f) = 2 + len (lext (len (payload f))) + klen f.
Proof. intros H. rewrite hdr_shape. lens. rewrite kbytes_len by exact H. lia. Qed.

Lemma frame_ready_ok b f x y : frame_ok f -> q b ++ x = enc f ++ y -> len (q b) < 2 ^ 32 -> len (enc f) < 2 ^ 32 ->
  exists b', frame_ready b = (if len (enc f) <=? len (q b) then Some (hdr f, len (hdr f), len (payload f)) else None, b') /\ q b' = q b.
Proof.
  intros Hok HF HQ HL.
  assert (T : forall n, 0 <= n <= len (q b) -> takez n (q b) = takez n (enc f ++ y)).
  { intros n Hn. rewrite <- HF. rewrite takez_app by lia. reflexivity. }
  assert (LE : len (enc f) = len (hdr f) + len (payload f)) by (rewrite enc_split; lens; now rewrite body_len).
  pose proof (hdr_len f Hok) as LH. pose proof (lext_len (len (payload f))) as LX. pose proof (len_nonneg (payload f)) as PN.
  set (n := len (payload f)) in *. assert (LX2 : 0 <= len (lext n)) by apply len_nonneg.
  assert (KL : klen f = 0 \/ klen f = 4) by (unfold klen; destruct (key f); lia).
  assert (EF : forall m, 0 <= m <= len (hdr f) -> takez m (enc f ++ y) = takez m (hdr f)).
  { intros m Hm. rewrite enc_split, <- app_assoc. apply takez_app. lia. }
  unfold frame_ready.
  destruct (q_avail b 2) as [b1 [E1 Q1]]; [exact HQ|lia|]. rewrite E1. cbv beta iota zeta. clear E1.
  destruct (Z_lt_ge_dec (len (q b)) 2) as [L2|L2].
  { replace ((2 <=? len (q b)) && (0 <? len (q b))) with false by lia. cbn [negb].
    exists b1. split; [|exact Q1]. replace (len (enc f) <=? len (q b)) with false by lia. reflexivity. }
  replace ((2 <=? len (q b)) && (0 <? len (q b))) with true by lia. cbn [negb].
  destruct (q_copy b1 2) as [b2 [E2 Q2]]; [rewrite Q1; lia..|]. rewrite E2. clear E2. rewrite Q1 in *.
  rewrite T by lia. rewrite EF by lia. 
  set (h0 := (if fin f then 128 else 0) + opcode f). set (h1 := mbit f + l7 n).
  assert (TK : takez 2 (hdr f) = [h0; h1]) by (rewrite hdr_shape; reflexivity). rewrite TK. change (nthz [h0; h1] 1) with h1.
  assert (B1 : byteP h1 /\ (128 <=? h1) = (match key f with Some _ => true | None => false end) /\ h1 mod 128 = l7 n).
  { unfold h1, mbit, l7, byteP. destruct (key f); destruct (n <? 126) eqn:E126; [|destruct (n <? 65536)| |destruct (n <? 65536)]; cbv iota; repeat split; lia. }
  destruct B1 as [B1 [B2 B3]]. rewrite byte_hi, byte_lo by exact B1. rewrite B2, B3.
  set (hs := 2 + _ + _ + _).
  assert (HS : hs = len (hdr f)).
  { unfold hs. rewrite LH, LX. unfold l7, klen. destruct (key f); destruct (n <? 126) eqn:E126; cbv iota.
    - replace (n =? 126) with false by lia. replace (n =? 127) with false by lia. lia.
    - destruct (n <? 65536); cbv iota; reflexivity.
    - replace (n =? 126) with false by lia. replace (n =? 127) with false by lia. lia.
    - destruct (n <? 65536); cbv iota; reflexivity. }
  clearbody hs. subst hs.
  assert (HH : 2 <= len (hdr f) < 2 ^ 32) by (rewrite LH, LX; destruct (n <? 126); [|destruct (n <? 65536)]; lia).
  (* the whole header *)
  assert (R3 : exists b3, (if len (hdr f) >? 2 then sb_available b2 (len (hdr f)) else (true, b2)) = (len (hdr f) <=? len (q b), b3) /\ q b3 = q b).
  { destruct (len (hdr f) >? 2) eqn:E.
    - destruct (q_avail b2 (len (hdr f))) as [b3 [E3 Q3]]; [rewrite Q2; lia|lia|]. exists b3. rewrite E3, Q2.
      split; [f_equal; lia|congruence].
    - exists b2. split; [f_equal; lia|exact Q2]. }
  destruct R3 as [b3 [E3 Q3]]. rewrite E3. clear E3.
  destruct (len (hdr f) <=? len (q b)) eqn:LHQ; cbn [negb].
  2:{ exists b3. split; [|exact Q3]. replace (len (enc f) <=? len (q b)) with false by lia. reflexivity. }
  assert (R4 : exists b4, (if len (hdr f) >? 2 then sb_copy b3 (len (hdr f)) else ([h0; h1], b3)) = (hdr f, b4) /\ q b4 = q b).
  { destruct (len (hdr f) >? 2) eqn:E.
    - destruct (q_copy b3 (len (hdr f))) as [b4 [E4 Q4]]; [rewrite Q3; lia..|]. exists b4. rewrite E4, Q3, T by lia. rewrite EF by lia.
      rewrite takez_all by lia. split; [reflexivity|congruence].
    - exists b3. split; [|exact Q3]. f_equal. rewrite hdr_shape. fold n h0 h1.
      assert (Z1 : lext n = []) by (apply len_zero; lia). assert (Z2 : kbytes f = []) by (apply len_zero; rewrite kbytes_len by exact Hok; lia).
      now rewrite Z1, Z2. }
  destruct R4 as [b4 [E4 Q4]]. rewrite E4. clear E4.
  assert (PL : (if l7 n =? 126 then btohs (dropz 2 (hdr f)) else if l7 n =? 127 then btohll (dropz 2 (hdr f)) else l7 n) = n).
  { rewrite hdr_shape. fold n h0 h1. change (dropz 2 (h0 :: h1 :: lext n ++ kbytes f)) with (lext n ++ kbytes f).
    assert (KB : bytesP (kbytes f)). { destruct Hok as [_ [_ Hk]]. unfold kbytes. destruct (key f); [apply Hk|constructor]. }
    pose proof (len_nonneg (kbytes f)).
    unfold l7, lext. destruct (n <? 126) eqn:E126.
    - replace (n =? 126) with false by lia. replace (n =? 127) with false by lia. reflexivity.
    - destruct (n <? 65536) eqn:E64.
      + change (126 =? 126) with true. cbv iota. rewrite rd_btohs.
        * apply unbe_firstn_be. change (256 ^ Z.of_nat 2) with 65536. lia.
        * apply bytesP_app. split; [apply be_bytes|exact KB].
        * lens. lia.
      + change (127 =? 126) with false. change (127 =? 127) with true. cbv iota. rewrite rd_btohll.
        * apply unbe_firstn_be. change (256 ^ Z.of_nat 8) with (2 ^ 64). lia.
        * apply bytesP_app. split; [apply be_bytes|exact KB].
        * lens. lia. }
  rewrite PL. destruct (q_avail b4 (len (hdr f) + n)) as [b5 [E5 Q5]]; [rewrite Q4; lia|lia|]. rewrite E5. clear E5. rewrite Q4 in *.
  exists b5. split; [|exact Q5]. rewrite LE. destruct (len (hdr f) + n <=? len (q b)) eqn:E; [|reflexivity].
  replace (0 <? len (q b)) with true by lia. reflexivity.
Qed.

(** ** The receiver at the level of frames *)
Definition fold_frame (s : Z * list Z) (f : frame) : Z * list Z :=
  if opcode f =? 0 then (fst s, snd s ++ payload f) else (opcode f, payload f).
Definition result : Type := list (Z * list Z) * list Z * bool.
Definition msgs (r : result) := fst (fst r).
Definition sends (r : result) := snd (fst r).
Definition shut (r : result) := snd r.
Fixpoint run_frames (mo : bool) (s : Z * list Z) (fs : list frame) : result :=
  match fs with
  | [] => ([], [], false)
  | f :: r =>
      let s := fold_frame s f in
      if fin f then
        if fst s =? 0 then run_frames mo s r
        else if fst s =? 8 then ([], [], true)
        else if fst s =? 9 then let x := run_frames mo s r in (msgs x, sendFrame mo (snd s) 10 ++ sends x, shut x)
        else if fst s =? 10 then run_frames mo s r
        else let x := run_frames mo s r in (s :: msgs x, sends x, shut x)
      else run_frames mo s r
  end.
Definition st (w : ws) : Z * list Z := (frameType w, wdata w).

Lemma take_frame_ok w f y : frame_ok f -> q (wbuf w) = enc f ++ y -> len (q (wbuf w)) < 2 ^ 32 ->
  exists b', q b' = y /\ take_frame w (hdr f) (len (hdr f)) (len (payload f)) =
    Some (mkws b' (pending w) (fst (fold_frame (st w) f)) (snd (fold_frame (st w) f)) (wclosed w) (wsent w) (maskOut w)).
Proof.
  intros Hok HQ HL. rewrite enc_split, <- app_assoc in HQ.
  pose proof (len_nonneg (hdr f)). pose proof (len_nonneg (payload f)). pose proof (len_nonneg y). pose proof (body_len f) as BL.
  assert (LQ : len (q (wbuf w)) = len (hdr f) + len (payload f) + len y) by (rewrite HQ; lens; lia).
  unfold take_frame. destruct (q_remove (wbuf w) (len (hdr f))) as [b1 [E1 Q1]]; [exact HL|lia|]. rewrite E1. clear E1.
  rewrite HQ, dropz_app_exact in Q1 by reflexivity.
  assert (Hh : exists h0 h1 r, hdr f = h0 :: h1 :: r /\ (h0 .& 15) = opcode f /\ negb ((h1 .& 128) =? 0) = match key f with Some _ => true | None => false end /\
    byteP h0 /\ (128 <=? h0) = fin f).
  { rewrite hdr_shape. do 3 eexists. split; [reflexivity|]. destruct Hok as [Ho _].
    assert (B0 : byteP ((if fin f then 128 else 0) + opcode f)) by (unfold byteP; destruct (fin f); lia).
    split; [rewrite byte_nib by exact B0; destruct (fin f); lia|].
    assert (B1 : byteP (mbit f + l7 (len (payload f)))) by (unfold byteP, mbit, l7; destruct (key f); destruct (_ <? 126) eqn:E; [|destruct (_ <? 65536)| |destruct (_ <? 65536)]; lia).
    split; [|split; [exact B0|destruct (fin f); lia]].
    rewrite byte_hi by exact B1. revert B1. unfold mbit, l7, byteP. destruct (key f); destruct (_ <? 126) eqn:E; [|destruct (_ <? 65536)| |destruct (_ <? 65536)]; lia. }
  destruct Hh as [h0 [h1 [r [Eh [N0 [N1 _]]]]]].
  replace (nthz (hdr f) 0) with h0 by (rewrite Eh; reflexivity). replace (nthz (hdr f) 1) with h1 by (rewrite Eh; reflexivity).
  rewrite N0, N1.
  destruct (q_remove b1 (len (payload f))) as [b2 [E2 Q2]]; [rewrite Q1; lens; lia|rewrite Q1; lens; lia|].
  rewrite E2. clear E2. rewrite Q1 in *. rewrite dropz_app_exact in Q2 by lia. rewrite takez_app_exact by lia.
  exists b2. split; [exact Q2|]. unfold fold_frame, st. cbn [fst snd].
  set (td := if negb (opcode f =? 0) then (opcode f, []) else (frameType w, wdata w)).
  assert (ET : td = ((if opcode f =? 0 then frameType w else opcode f), (if opcode f =? 0 then wdata w else []))).
  { unfold td. destruct (opcode f =? 0); reflexivity. }
  rewrite ET. clear ET td. set (dat := if opcode f =? 0 then wdata w else []).
  assert (E : (dat ++ payload f) = snd (if opcode f =? 0 then (frameType w, wdata w ++ payload f) else (opcode f, payload f))) by (unfold dat; destruct (opcode f =? 0); reflexivity).
  assert (E' : (if opcode f =? 0 then frameType w else opcode f) = fst (if opcode f =? 0 then (frameType w, wdata w ++ payload f) else (opcode f, payload f))) by (destruct (opcode f =? 0); reflexivity).
  rewrite E'. rewrite <- E. unfold body in *. destruct (key f) as [k|] eqn:Ek; [|reflexivity].
  replace (len (dat ++ masked k (payload f)) <? len dat + len (payload f)) with false by (lens; lia).
  rewrite takez_app_exact by reflexivity. rewrite dropz_app_exact by reflexivity.
  assert (EK : dropz (len (hdr f) - 4) (hdr f) = k).
  { destruct Hok as [_ [_ Hk]]. rewrite Ek in Hk. rewrite hdr_shape. unfold kbytes. rewrite Ek, !app_comm_cons. apply dropz_app_exact. lens. lia. }
  now rewrite EK, unmask.
Qed.
Lemma hdr_fin f : frame_ok f -> negb ((nthz (hdr f) 0 .& 128) =? 0) = fin f.
Proof.
  intros [Ho _]. rewrite hdr_shape. rewrite nthz_0. rewrite byte_hi by (unfold byteP; destruct (fin f); lia). destruct (fin f); lia.
Qed.
Lemma enc_len f : 2 <= len (enc f).
Proof. rewrite enc_split, hdr_shape. lens. pose proof (len_nonneg (lext (len (payload f)))). pose proof (len_nonneg (kbytes f)). pose proof (len_nonneg (body f)). lia. Qed.

Section Receiver.
Variables (A B : Z) (g : list Z).
Hypothesis AB : A + B < 2 ^ 32.
Record inv (w : ws) (fs : list frame) : Prop := {
  i_bytes : q (wbuf w) ++ concat (pending w) = flat_map enc fs ++ g;
  i_ok : Forall frame_ok fs;
  i_small : Forall (fun f => len (enc f) <= A) fs;
  i_chunks : Forall (fun c => len c <= B) (pending w);
  i_buf : len (q (wbuf w)) <= A + B;
  i_open : wclosed w = false;
  i_g : g = [] \/ shut (run_frames (maskOut w) (st w) fs) = true }.

Lemma frame_ready_empty b : q b = [] -> exists b', frame_ready b = (None, b') /\ q b' = [].
Proof.
  intros H. unfold frame_ready. destruct (q_avail b 2) as [b1 [E1 Q1]]; [rewrite H; lnil; lia|lia|]. rewrite E1, H.
  change ((2 <=? len (@nil Z)) && (0 <? len (@nil Z))) with false. cbn [negb]. exists b1. split; [reflexivity|congruence].
Qed.

Definition outcome (fs : list frame) (w : ws) (readable : bool) (r : bool) (w' : ws) : Prop :=
  let R := run_frames (maskOut w) (st w) fs in
  maskOut w' = maskOut w /\
  ((r = false /\ wclosed w' = true /\ wsent w' = wsent w ++ sends R /\ msgs R = [] /\ shut R = true) \/
   exists fs2, inv w' fs2 /\ let R2 := run_frames (maskOut w') (st w') fs2 in
     msgs R = (if r then [st w'] else []) ++ msgs R2 /\ wsent w' ++ sends R2 = wsent w ++ sends R /\ shut R2 = shut R /\ len fs2 <= len fs /\
     (fs2 = [] \/ len fs2 + len (pending w') + (if readable then 1 else 0) <= len fs + len (pending w))).

Lemma loop_ok fuel : forall (readable : bool) w fs, inv w fs -> len fs + (if readable then 1 else 0) < Z.of_nat fuel ->
  exists r w', readFrame_loop fuel readable w = Some (r, w') /\ outcome fs w readable r w'.
Proof.
  induction fuel as [|k IH]; intros readable w fs I Hf; [pose proof (len_nonneg fs); destruct readable; lia|].
  destruct I as [Ib Iok Ism Ich Ibuf Io Ig]. cbn [readFrame_loop].
  destruct fs as [|f fs].
  - destruct Ig as [Hg|Hg]; [|cbn in Hg; discriminate]. cbn [flat_map app] in Ib. rewrite Hg in Ib.
    apply app_eq_nil in Ib. destruct Ib as [Ib1 Ib2].
    destruct (frame_ready_empty _ Ib1) as [b1 [E1 Q1]]. rewrite E1. clear E1.
    set (w1 := mkws b1 _ _ _ _ _ _).
    assert (I1 : inv w1 []).
    { constructor; unfold w1; cbn [wbuf pending wclosed frameType wdata maskOut flat_map]; try assumption; try constructor.
      - rewrite Q1, Ib2, Hg. reflexivity.
      - rewrite Q1. rewrite Ib1 in Ibuf. exact Ibuf.
      - exact Hg. }
    assert (O1 : outcome [] w readable false w1).
    { unfold outcome. split; [reflexivity|]. right. exists []. split; [exact I1|]. repeat split; try reflexivity. now left. }
    destruct readable; [|exists false, w1; split; [reflexivity|exact O1]].
    unfold ws_spool. change (pending w1) with (pending w). destruct (pending w) as [|c p] eqn:Ep; [exists false, w1; split; [reflexivity|exact O1]|].
    set (w2 := mkws _ _ _ _ _ _ _). cbn [concat] in Ib2. apply app_eq_nil in Ib2. destruct Ib2 as [-> Ib2].
    assert (I2 : inv w2 []).
    { constructor; unfold w2, w1; cbn [wbuf pending wclosed frameType wdata maskOut flat_map]; try assumption; try constructor.
      - rewrite q_append, Q1, Ib2, Hg. reflexivity.
      - now inversion Ich.
      - rewrite q_append, Q1. rewrite Ib1 in Ibuf. exact Ibuf.
      - exact Hg. }
    destruct (IH false w2 [] I2) as [r [w' [E O]]]; [cbn; cbn in Hf; lia|]. exists r, w'. split; [exact E|].
    unfold outcome in *. change (maskOut w2) with (maskOut w) in O. change (st w2) with (st w) in O. change (wsent w2) with (wsent w) in O.
    destruct O as [O1' [O|[fs2 [J1 [J2 [J3 [J4 [J5 J6]]]]]]]]; (split; [exact O1'|]); [left; exact O|]. right. exists fs2.
    split; [exact J1|]. repeat (split; [assumption|]). left. apply len_zero. pose proof (len_nonneg fs2). change (len (@nil frame)) with 0 in J5. lia.
  - cbn [flat_map] in Ib. rewrite <- app_assoc in Ib. inversion Iok as [|? ? Kf Kfs]; subst. inversion Ism as [|? ? Sf Sfs]; subst.
    lens. pose proof (len_nonneg fs). pose proof (len_nonneg (q (wbuf w))). pose proof (len_nonneg (pending w)).
    assert (B0 : 0 <= B \/ pending w = []).
    { destruct (pending w) as [|c p]; [now right|]. left. inversion Ich as [|? ? Hc _]; subst. pose proof (len_nonneg c). lia. }
    assert (HA : len (enc f) < 2 ^ 32).
    { destruct B0 as [B0|B0]; [lia|]. rewrite B0 in Ib. cbn [concat] in Ib. rewrite app_nil_r in Ib. apply (f_equal len) in Ib.
      rewrite !len_app in Ib. pose proof (len_nonneg (flat_map enc fs ++ g)). rewrite len_app in *. lia. }
    destruct (frame_ready_ok (wbuf w) f (concat (pending w)) (flat_map enc fs ++ g) Kf Ib ltac:(lia) HA) as [b1 [E1 Q1]]. rewrite E1. clear E1.
    set (w1 := mkws b1 _ _ _ _ _ _).
    destruct (len (enc f) <=? len (q (wbuf w))) eqn:EL.
    + (* a whole frame *)
      assert (EQ : exists rest, q (wbuf w) = enc f ++ rest /\ rest ++ concat (pending w) = flat_map enc fs ++ g).
      { exists (dropz (len (enc f)) (q (wbuf w))).
        assert (T : takez (len (enc f)) (q (wbuf w)) = enc f).
        { rewrite <- (takez_app _ (q (wbuf w)) (concat (pending w))) by (pose proof (len_nonneg (enc f)); lia). rewrite Ib. now apply takez_app_exact. }
        split; [rewrite <- T at 1; symmetry; apply takez_dropz|].
        rewrite <- dropz_app by (pose proof (len_nonneg (enc f)); lia). rewrite Ib. now apply dropz_app_exact. }
      destruct EQ as [rest [EQ ER]].
      destruct (take_frame_ok w1 f rest Kf) as [b2 [Q2 E2]]; [unfold w1; cbn [wbuf]; now rewrite Q1|unfold w1; cbn [wbuf]; rewrite Q1; lia|].
      rewrite E2. clear E2. rewrite hdr_fin by exact Kf.
      change (st w1) with (st w). change (pending w1) with (pending w). change (wclosed w1) with (wclosed w). change (wsent w1) with (wsent w). change (maskOut w1) with (maskOut w).
      set (s := fold_frame (st w) f) in *. set (w2 := mkws b2 _ _ _ _ _ _).
      assert (Es : st w2 = s) by (unfold st, w2; cbn [frameType wdata]; now destruct s).
      assert (LR : len rest <= A + B) by (rewrite EQ, len_app in Ibuf; pose proof (len_nonneg (enc f)); lia).
      assert (I2 : (fin f = false \/ (fst s <> 8)) -> inv w2 fs).
      { intros Hs. constructor; unfold w2; cbn [wbuf pending wclosed frameType wdata maskOut]; try assumption.
        - now rewrite Q2.
        - now rewrite Q2.
        - destruct Ig as [Ig|Ig]; [now left|]. right. fold w2. rewrite Es. cbn [run_frames] in Ig. fold s in Ig.
          destruct (fin f); [|exact Ig]. destruct Hs as [Hs|Hs]; [discriminate|]. destruct (fst s =? 0); [exact Ig|].
          replace (fst s =? 8) with false in Ig by lia. destruct (fst s =? 9); [exact Ig|]. destruct (fst s =? 10); exact Ig. }
      assert (EF : frameType w2 = fst s) by reflexivity. assert (ED : wdata w2 = snd s) by reflexivity.
      assert (ME : forall t : bool, len fs + len (pending w) + (if t then 1 else 0) <= 1 + len fs + len (pending w)) by (intros []; lia).
      destruct (fin f) eqn:Ef.
      * unfold finish_frame. rewrite EF, ED. change (maskOut w2) with (maskOut w). change (wsent w2) with (wsent w). change (wbuf w2) with b2. change (pending w2) with (pending w).
        change (wclosed w2) with (wclosed w). unfold outcome. cbn [run_frames]. fold s. rewrite Ef.
        destruct (fst s =? 0) eqn:E0; [|destruct (fst s =? 8) eqn:E8; [|destruct (fst s =? 9) eqn:E9; [|destruct (fst s =? 10) eqn:E10]]].
        -- exists false, w2. split; [reflexivity|]. split; [reflexivity|]. right. exists fs. split; [apply I2; right; lia|]. rewrite Es.
           split; [reflexivity|]. split; [reflexivity|]. split; [reflexivity|]. split; [lens; lia|]. right. lens. apply ME.
        -- eexists false, _. split; [reflexivity|]. split; [reflexivity|]. left. cbn [wclosed wsent]. repeat split. unfold sends. cbn [fst snd]. now rewrite app_nil_r.
        -- eexists false, _. split; [reflexivity|]. split; [reflexivity|]. right. exists fs.
           assert (Es2 : (fst s, snd s) = s) by (now destruct s). unfold st. cbn [frameType wdata maskOut wsent pending]. rewrite Es2.
           split.
           ++ destruct (I2 ltac:(right; lia)) as [K1 K2 K3 K4 K5 K6 K7]. constructor; try assumption.
           ++ unfold msgs, sends, shut. cbn [fst snd app]. split; [reflexivity|]. split; [now rewrite <- app_assoc|]. split; [reflexivity|]. split; [lens; lia|]. right. lens. apply ME.
        -- exists false, w2. split; [reflexivity|]. split; [reflexivity|]. right. exists fs. split; [apply I2; right; lia|]. rewrite Es.
           split; [reflexivity|]. split; [reflexivity|]. split; [reflexivity|]. split; [lens; lia|]. right. lens. apply ME.
        -- exists true, w2. split; [reflexivity|]. split; [reflexivity|]. right. exists fs. split; [apply I2; right; lia|]. rewrite Es.
           split; [reflexivity|]. split; [reflexivity|]. split; [reflexivity|]. split; [lens; lia|]. right. lens. apply ME.
      * destruct (IH readable w2 fs (I2 (or_introl eq_refl))) as [r [w' [E O]]]; [destruct readable; lia|].
        exists r, w'. split; [exact E|]. unfold outcome in *. rewrite Es in O. cbn [run_frames]. fold s. rewrite Ef.
        change (maskOut w2) with (maskOut w) in O. change (wsent w2) with (wsent w) in O. change (pending w2) with (pending w) in O.
        destruct O as [O1' [O|[fs2 [J1 [J2 [J3 [J4 [J5 J6]]]]]]]]; (split; [exact O1'|]); [left; exact O|]. right. exists fs2.
        split; [exact J1|]. repeat (split; [assumption|]). split; [lens; lia|]. destruct J6 as [J6|J6]; [now left|]. right. lens. destruct readable; lia.
    + (* not yet *)
      assert (I1 : inv w1 (f :: fs)).
      { constructor; unfold w1; cbn [wbuf pending wclosed frameType wdata maskOut]; try assumption.
        - rewrite Q1. cbn [flat_map]. now rewrite <- app_assoc.
        - now rewrite Q1. }
      destruct readable.
      * unfold ws_spool. change (pending w1) with (pending w). destruct (pending w) as [|c p] eqn:Ep.
        { exfalso. cbn [concat] in Ib. rewrite app_nil_r in Ib. apply (f_equal len) in Ib. rewrite !len_app in Ib.
          pose proof (len_nonneg (flat_map enc fs)). pose proof (len_nonneg g). lia. }
        set (w2 := mkws _ _ _ _ _ _ _). inversion Ich as [|? ? Hc Hp]; subst.
        assert (I2 : inv w2 (f :: fs)).
        { constructor; unfold w2, w1; cbn [wbuf pending wclosed frameType wdata maskOut]; try assumption.
          - rewrite q_append, Q1. cbn [flat_map]. rewrite <- !app_assoc. exact Ib.
          - rewrite q_append, Q1, len_app. lia. }
        destruct (IH false w2 (f :: fs) I2) as [r [w' [E O]]]; [lens; lia|]. exists r, w'. split; [exact E|].
        unfold outcome in *. change (st w2) with (st w) in O.
        change (maskOut w2) with (maskOut w) in O. change (wsent w2) with (wsent w) in O. change (pending w2) with p in O.
        destruct O as [O1' [O|[fs2 [J1 [J2 [J3 [J4 [J5 J6]]]]]]]]; (split; [exact O1'|]); [left; exact O|]. right. exists fs2.
        split; [exact J1|]. repeat (split; [assumption|]). destruct J6 as [J6|J6]; [now left|]. right. rewrite Ep. lens. lia.
      * exists false, w1. split; [reflexivity|]. unfold outcome. split; [reflexivity|]. right. exists (f :: fs). split; [exact I1|].
        change (st w1) with (st w). change (maskOut w1) with (maskOut w). do 3 (split; [reflexivity|]). split; [lia|]. right. change (pending w1) with (pending w). lia.
Qed.

Lemma frames_count fs : 2 * len fs <= len (flat_map enc fs).
Proof. induction fs as [|f fs IH]; [cbn; lia|]. cbn [flat_map]. lens. pose proof (enc_len f). lia. Qed.
Lemma readFrame_ok w fs : inv w fs -> exists r w', readFrame w = Some (r, w') /\ outcome fs w true r w'.
Proof.
  intros I. apply loop_ok; [exact I|]. destruct I as [Ib _ _ _ _ _ _]. fold (q (wbuf w)). rewrite Ib. pose proof (frames_count fs).
  rewrite app_length. unfold len in *. lia.
Qed.

Lemma drive_ok n : forall w fs, inv w fs -> fs = [] \/ len fs + len (pending w) <= Z.of_nat n ->
  let R := run_frames (maskOut w) (st w) fs in
  exists w', drive n w = Some (msgs R, w') /\ wsent w' = wsent w ++ sends R /\ wclosed w' = shut R.
Proof.
  induction n as [|n IH]; intros w fs I Hn; cbv zeta.
  - assert (fs = []) as -> by (destruct Hn as [Hn|Hn]; [exact Hn|apply len_zero; pose proof (len_nonneg fs); pose proof (len_nonneg (pending w)); lia]).
    exists w. split; [reflexivity|]. split; [cbn; now rewrite app_nil_r|]. apply I.
  - cbn [drive]. rewrite (i_open _ _ I). destruct (readFrame_ok w fs I) as [r [w1 [E [O1 O]]]]. rewrite E.
    set (R := run_frames (maskOut w) (st w) fs) in *.
    destruct O as [[-> [O2 [O3 [O4 O5]]]]|[fs2 [J1 [J2 [J3 [J4 [J5 J6]]]]]]].
    + exists w1. rewrite O4, O5. split; [|split; assumption]. destruct n; cbn [drive]; [reflexivity|]. now rewrite O2.
    + destruct (IH w1 fs2 J1) as [w' [E1 [S1 C1]]]; [destruct J6 as [J6|J6]; [now left|destruct Hn as [->|Hn]; [left; apply len_zero; pose proof (len_nonneg fs2); change (len (@nil frame)) with 0 in J5; lia|right; lia]]|].
      rewrite E1. exists w'. rewrite J2. split; [destruct r; reflexivity|]. split; [rewrite S1; exact J3|]. now rewrite C1.
Qed.
End Receiver.

(** ** Messages *)
Lemma run_cont mo s x more r : fst s <> 0 -> fst s <> 8 -> fst s <> 9 -> fst s <> 10 ->
  let m := (fst s, snd s ++ snd x ++ flat_map snd more) in
  let R := run_frames mo m r in run_frames mo s (fragments 0 x more ++ r) = (m :: msgs R, sends R, shut R).
Proof.
  intros N0 N8 N9 N10. revert s x N0 N8 N9 N10. induction more as [|y more IH]; intros s x N0 N8 N9 N10; cbv zeta.
  - cbn [fragments app run_frames flat_map]. unfold fold_frame. cbn [opcode payload fin]. change (0 =? 0) with true. cbv iota. cbn [fst snd].
    replace (fst s =? 0) with false by lia. replace (fst s =? 8) with false by lia. replace (fst s =? 9) with false by lia. replace (fst s =? 10) with false by lia.
    rewrite app_nil_r. reflexivity.
  - cbn [fragments app run_frames fin]. change (fold_frame s (mkf false 0 (fst x) (snd x))) with (fst s, snd s ++ snd x).
    cbv zeta in IH. rewrite IH by assumption. cbn [fst snd flat_map]. rewrite <- !app_assoc. reflexivity.
Qed.
Lemma run_msg mo s t x more r : t <> 0 -> t <> 8 -> t <> 9 -> t <> 10 ->
  let m := (t, snd x ++ flat_map snd more) in
  let R := run_frames mo m r in run_frames mo s (fragments t x more ++ r) = (m :: msgs R, sends R, shut R).
Proof.
  intros N0 N8 N9 N10. cbv zeta. destruct more as [|y more].
  - cbn [fragments app run_frames flat_map]. unfold fold_frame. cbn [opcode payload fin]. replace (t =? 0) with false by lia. cbn [fst snd].
    replace (t =? 0) with false by lia. replace (t =? 8) with false by lia. replace (t =? 9) with false by lia. replace (t =? 10) with false by lia.
    rewrite app_nil_r. reflexivity.
  - cbn [fragments app run_frames fin].
    assert (EF : fold_frame s (mkf false t (fst x) (snd x)) = (t, snd x)) by (unfold fold_frame; cbn [opcode payload]; now replace (t =? 0) with false by lia).
    rewrite EF. rewrite run_cont by assumption. cbn [fst snd flat_map]. reflexivity.
Qed.
Lemma sendFrame_ok mo d t : len d < 2 ^ 32 -> 0 <= t < 128 ->
  sendFrame mo d t = enc (mkf true t (if mo then Some [0; 0; 0; 0] else None) d).
Proof.
  intros Hl Ht. pose proof (len_nonneg d). unfold sendFrame. rewrite u32_id by lia. rewrite takez_all by lia.
  unfold sendFrameHead, enc, length_field. cbn [fin opcode key payload].
  replace (u8 (128 + t)) with (128 + t) by (symmetry; apply u8_id; unfold byteP; lia).
  rewrite wr_htobs, wr_htobll.
  assert (O : forall n, 0 <= n < 128 -> (n .| 128) = 128 + n).
  { intros n Hn. rewrite Z.lor_comm. change 128 with (1 * 2 ^ 7) at 1. rewrite lor_add; lia. }
  destruct mo; destruct (len d <? 126) eqn:E1.
  - rewrite O by lia. rewrite masked_zero. reflexivity.
  - replace (len d <=? 65535) with (len d <? 65536) by lia. destruct (len d <? 65536); rewrite O by lia; rewrite masked_zero; cbn [app]; rewrite <- app_assoc; reflexivity.
  - reflexivity.
  - replace (len d <=? 65535) with (len d <? 65536) by lia. destruct (len d <? 65536); reflexivity.
Qed.
Lemma run_items mo l : forall s r, Forall item_ok l -> Forall (fun f => len (enc f) < 2 ^ 32) (flat_map frames l) ->
  exists s', let R := run_frames mo s' r in
  run_frames mo s (flat_map frames l ++ r) = (messages l ++ msgs R, answers mo l ++ sends R, shut R).
Proof.
  induction l as [|i l IH]; intros s r Hok Hs.
  - exists s. cbn [flat_map app messages answers]. unfold msgs, sends, shut. now destruct (run_frames mo s r) as [[? ?] ?].
  - inversion Hok as [|? ? Hi Hl]; subst. cbn [flat_map] in Hs |- *. apply Forall_app in Hs. destruct Hs as [Hs1 Hs2]. rewrite <- app_assoc.
    unfold messages, answers. cbn [flat_map]. fold (messages l). fold (answers mo l). destruct i as [t x more|k p|k p]; cbn [frames].
    + destruct Hi as [_ [H0 [H8 [H9 H10]]]]. rewrite run_msg by assumption. cbv zeta.
      destruct (IH (t, snd x ++ flat_map snd more) r Hl Hs2) as [s' E]. exists s'. cbv zeta in E. rewrite E. reflexivity.
    + cbn [app run_frames]. unfold fold_frame. cbn [opcode payload fin]. change (9 =? 0) with false. cbv iota. cbn [fst snd].
      change (9 =? 0) with false. change (9 =? 8) with false. change (9 =? 9) with true. cbv iota.
      destruct (IH (9, p) r Hl Hs2) as [s' E]. exists s'. cbv zeta in *. rewrite E. unfold msgs, sends, shut. cbn [fst snd].
      rewrite sendFrame_ok; [rewrite <- app_assoc; reflexivity| |lia].
      cbn [frames] in Hs1. inversion Hs1 as [|? ? Hp _]; subst. rewrite enc_split, len_app, body_len in Hp. cbn [payload] in Hp. pose proof (len_nonneg (hdr (mkf true 9 k p))). lia.
    + cbn [app run_frames]. unfold fold_frame. cbn [opcode payload fin]. change (10 =? 0) with false. cbv iota. cbn [fst snd].
      change (10 =? 0) with false. change (10 =? 8) with false. change (10 =? 9) with false. change (10 =? 10) with true. cbv iota.
      destruct (IH (10, p) r Hl Hs2) as [s' E]. exists s'. cbv zeta in *. rewrite E. reflexivity.
Qed.
