(** Proofs about changing DTSC packets. *)
From Verif Require Import Common CommonFacts CommonMore Mem_Model Mem_Proofs Outcome_Model JsonVal_Model Scan_Model Dtmi_Spec Dtmi_Proofs DtmiScan_Proofs Dtsc_Model Dtsc_Spec Dtsc_Proofs.

(** ** Changing *)
Definition fbytes (off bpos : Z) (k : option bool) : list Z :=
  flat_map encm (opt (negb (off =? 0)) (bs "offset", WInt off)) ++ flat_map encm (opt (negb (bpos =? 0)) (bs "bpos", WInt (s64 bpos))) ++ flat_map encm (key_member k).
Definition mid (time off track bpos : Z) (k : option bool) : list Z :=
  be 4 track ++ be 8 time ++ [224] ++ fbytes off bpos k ++ [0; 4] ++ bs "data" ++ [2].
Definition flen (off bpos : Z) (k : option bool) : Z := len (fbytes off bpos k).
Lemma len_mid time off track bpos k : len (mid time off track bpos k) = 20 + flen off bpos k.
Proof. unfold mid, flen. lens. Qed.
Lemma pkt_shape time off track bpos k data :
  pkt time off track bpos k data = bs "DTP2" ++ be 4 (27 + flen off bpos k + len data) ++ mid time off track bpos k ++ be 4 (len data) ++ data ++ [0; 0; 238].
Proof.
  unfold pkt. assert (E : enc (body off bpos k data) = [224] ++ fbytes off bpos k ++ [0; 4] ++ bs "data" ++ [2] ++ be 4 (len data) ++ data ++ [0; 0; 238]).
  { unfold body, fbytes. rewrite enc_obj, !flat_map_app. cbn [flat_map]. unfold encm at 4. cbn [fst snd enc]. rewrite app_nil_r, <- !app_assoc. reflexivity. }
  rewrite E. unfold mid. replace (12 + len _) with (27 + flen off bpos k + len data) by (unfold flen; lens).
  rewrite <- !app_assoc. reflexivity.
Qed.
Lemma len_shape time off track bpos k data : len (pkt time off track bpos k data) = 35 + flen off bpos k + len data.
Proof. rewrite pkt_shape. rewrite !len_app, len_mid. lens. Qed.
Lemma flen_le off bpos k : 0 <= flen off bpos k <= 51.
Proof.
  pose proof (len_shape 0 off 0 bpos k []) as H. rewrite len_pkt, len_body in H. rewrite l_nil in H. destruct k; revert H; dif; lia.
Qed.

(** The search for a member. *)
Definition s1 (off : Z) : list Z := flat_map encm (opt (negb (off =? 0)) (bs "offset", WInt off)).
Definition s2 (bpos : Z) : list Z := flat_map encm (opt (negb (bpos =? 0)) (bs "bpos", WInt (s64 bpos))).
Definition s3 (k : option bool) : list Z := flat_map encm (key_member k).
Definition seg_ok (c n : Z) (s : list Z) : Prop := s = [] \/ (exists x y r, s = x :: y :: c :: r) /\ len s = n.
Lemma s1_ok off : seg_ok (ch "o") 17 (s1 off).
Proof. unfold s1, opt. destruct (negb _); [right|now left]. split; [cbn; now eexists _, _, _|]. cbn [flat_map]. unfold encm. cbn [fst snd enc]. lens. Qed.
Lemma s2_ok bpos : seg_ok (ch "b") 15 (s2 bpos).
Proof. unfold s2, opt. destruct (negb _); [right|now left]. split; [cbn; now eexists _, _, _|]. cbn [flat_map]. unfold encm. cbn [fst snd enc]. lens. Qed.
Lemma s3_ok k : seg_ok (ch "k") 19 (s3 k) \/ seg_ok (ch "K") 19 (s3 k).
Proof. destruct k as [[|]|]; [left; right|right; right|left; left; reflexivity]; (split; [cbn; now eexists _, _, _|reflexivity]). Qed.
Lemma has3 m o x y c r : has m o (x :: y :: c :: r) -> getb m (o + 2) = Ok c.
Proof.
  intros H. apply has_cons in H as [_ H]. apply has_cons in H as [_ H]. replace (o + 2) with (o + 1 + 1) by lia. eapply has_getb, H.
Qed.
Lemma dlo_seg m o c n s a : seg_ok c n s -> has m o s -> (c = ch "o" /\ n = 17 \/ c = ch "b" /\ n = 15 \/ c = ch "k" /\ n = 19 \/ c = ch "K" /\ n = 19) ->
  returns (fun f => data_len_offset f m (o + len s + 2)) a -> returns (fun f => data_len_offset f m (o + 2)) a.
Proof.
  intros [->|[(x & y & r & E) L]] H C R; [now rewrite l_nil, Z.add_0_r in R|].
  rewrite L in R. rewrite E in H. apply has3 in H. refine (returns_step _ _ _ _ R). intros f. cbn [data_len_offset]. rewrite H.
  destruct C as [[-> ->]|[[-> ->]|[[-> ->]|[-> ->]]]];
    [replace (o + 17 + 2) with (o + 2 + 17) by lia|replace (o + 15 + 2) with (o + 2 + 15) by lia|replace (o + 19 + 2) with (o + 2 + 19) by lia|replace (o + 19 + 2) with (o + 2 + 19) by lia]; reflexivity.
Qed.
Lemma dlo m off bpos k r : has m 21 (fbytes off bpos k ++ [0; 4] ++ bs "data" ++ r) ->
  returns (fun f => data_len_offset f m 23) (28 + flen off bpos k).
Proof.
  intros H. unfold flen. change (fbytes off bpos k) with (s1 off ++ s2 bpos ++ s3 k) in *. rewrite <- !app_assoc in H.
  apply has_app in H as [H1 H]. apply has_app in H as [H2 H]. apply has_app in H as [H3 H4].
  change 23 with (21 + 2). apply (dlo_seg m 21 (ch "o") 17 (s1 off)); [apply s1_ok|assumption|auto|].
  apply (dlo_seg m _ (ch "b") 15 (s2 bpos)); [apply s2_ok|assumption|auto|].
  assert (G : returns (fun f => data_len_offset f m (21 + len (s1 off) + len (s2 bpos) + len (s3 k) + 2)) (28 + len (s1 off ++ s2 bpos ++ s3 k))).
  { cbn [app bs] in H4. apply has3 in H4. refine (returns_step _ (fun _ => Ok _) _ _ (returns_ok _)). intros f. cbn [data_len_offset]. rewrite H4.
    change (ch "d" =? ch "d") with true. cbv iota. apply f_equal. rewrite !len_app. lia. }
  destruct (s3_ok k) as [K|K].
  - apply (dlo_seg m _ (ch "k") 19 (s3 k)); auto.
  - apply (dlo_seg m _ (ch "K") 19 (s3 k)); auto 6.
Qed.
Lemma ko_seg m o c n s a : seg_ok c n s -> has m o s -> (c = ch "o" /\ n = 17 \/ c = ch "b" /\ n = 15) ->
  returns (fun f => key_offset f m (o + len s + 2)) a -> returns (fun f => key_offset f m (o + 2)) a.
Proof.
  intros [->|[(x & y & r & E) L]] H C R; [now rewrite l_nil, Z.add_0_r in R|].
  rewrite L in R. rewrite E in H. apply has3 in H. refine (returns_step _ _ _ _ R). intros f. cbn [key_offset]. rewrite H.
  destruct C as [[-> ->]|[-> ->]]; cbn [Z.eqb]; [replace (o + 17 + 2) with (o + 2 + 17) by lia|replace (o + 15 + 2) with (o + 2 + 15) by lia]; reflexivity.
Qed.
Lemma ko m off bpos x y c r : (c = ch "d" \/ c = ch "k" \/ c = ch "K") -> has m 21 (s1 off ++ s2 bpos ++ x :: y :: c :: r) ->
  returns (fun f => key_offset f m 23) (23 + len (s1 off ++ s2 bpos)) /\ getb m (23 + len (s1 off ++ s2 bpos)) = Ok c.
Proof.
  intros C H. apply has_app in H as [H1 H]. apply has_app in H as [H2 H]. apply has3 in H. rewrite len_app.
  replace (23 + (len (s1 off) + len (s2 bpos))) with (21 + len (s1 off) + len (s2 bpos) + 2) by lia. split; [|exact H].
  change 23 with (21 + 2). apply (ko_seg m 21 (ch "o") 17 (s1 off)); [apply s1_ok|assumption|auto|].
  apply (ko_seg m _ (ch "b") 15 (s2 bpos)); [apply s2_ok|assumption|auto|].
  refine (returns_step _ (fun _ => Ok _) _ _ (returns_ok _)). intros f. cbn [key_offset]. rewrite H.
  destruct C as [->|[-> | ->]]; reflexivity.
Qed.

Lemma be4_add x n : be 4 (x mod 256 ^ Z.of_nat 4 + n) = be 4 (x + n).
Proof. rewrite <- (be_mod 4 (_ + n)), <- (be_mod 4 (x + n)). f_equal. change (256 ^ Z.of_nat 4) with 4294967296. lia. Qed.
Lemma add_lens_ok time off track bpos k x y rest n :
  returns (fun f => add_lens f (bs "DTP2" ++ be 4 x ++ mid time off track bpos k ++ be 4 y ++ rest) n)
    (bs "DTP2" ++ be 4 (x + n) ++ mid time off track bpos k ++ be 4 (y + n) ++ rest).
Proof.
  unfold add_lens. rewrite (has_getbe _ 4 4 x (mid time off track bpos k ++ be 4 y ++ rest)) by (try reflexivity; exists (bs "DTP2"), []; now rewrite app_nil_r).
  rewrite be4_add. rewrite put_mid by (rewrite ?be_len; reflexivity).
  set (m := bs "DTP2" ++ be 4 (x + n) ++ mid time off track bpos k ++ be 4 y ++ rest).
  assert (D : returns (fun f => data_len_offset f m 23) (28 + flen off bpos k)).
  { apply (dlo m off bpos k ([2] ++ be 4 y ++ rest)). exists (bs "DTP2" ++ be 4 (x + n) ++ be 4 track ++ be 8 time ++ [224]), []. split; [|lens].
    rewrite app_nil_r. unfold m, mid. rewrite <- !app_assoc. reflexivity. }
  apply (returns_bind _ (fun o _ => y0 <~ getbe m o 4;; put m o (be 4 (y0 + n))) _ _ D).
  assert (E : m = (bs "DTP2" ++ be 4 (x + n) ++ mid time off track bpos k) ++ be 4 y ++ rest) by (unfold m; now rewrite <- !app_assoc).
  assert (P : 28 + flen off bpos k = len (bs "DTP2" ++ be 4 (x + n) ++ mid time off track bpos k)) by (rewrite !len_app, len_mid; lens).
  rewrite (has_getbe m _ 4 y rest) by (try reflexivity; rewrite E, P; eexists _, []; rewrite app_nil_r; split; reflexivity).
  rewrite be4_add, E, P. rewrite put_mid by (rewrite ?be_len; reflexivity). rewrite <- !app_assoc. apply returns_ok.
Qed.

Section Change.
Context (junk : Z) (Hj : byteP junk).
Definition Rep (time off track bpos : Z) (k : option bool) (data : list Z) (n : Z) (p : packet) : Prop :=
  exists slack, bytesP slack /\ p = mkP (Some (pkt time off track bpos k data ++ slack)) true (len (pkt time off track bpos k data)) V_2 n.

(** Growing leaves room behind the packet. *)
Lemma resize_ok time off track bpos k data n p x : Rep time off track bpos k data n p -> 0 <= x ->
  exists slack, bytesP slack /\ x <= len slack /\
    resize junk p (dlen p + x) = mkP (Some (pkt time off track bpos k data ++ slack)) true (len (pkt time off track bpos k data)) V_2 n.
Proof.
  intros (slack & S & ->) X. unfold resize. cbn [own pdata dlen ver nal]. set (P := pkt _ _ _ _ _ _). unfold grow. rewrite len_app.
  destruct (Z.ltb_spec (len P + len slack) (len P + x)) as [L|L].
  - eexists. split; [|split; [|rewrite <- app_assoc; reflexivity]].
    + apply bytesP_app. split; [assumption|]. clear - Hj. induction (Z.to_nat _); constructor; auto.
    + rewrite len_app. unfold len at 2. rewrite repeat_length. lia.
  - exists slack. split; [assumption|]. split; [lia|reflexivity].
Qed.

(** Bytes put over the end marker, and a new end marker. *)
Lemma put_tail P slack xs : bytesP slack -> len xs <= len slack ->
  exists sl, bytesP sl /\ 3 <= len sl /\ len sl = 3 + len slack - len xs /\ put (P ++ [0; 0; 238] ++ slack) (len P) xs = Ok (P ++ xs ++ sl).
Proof.
  intros B L. pose proof (len_nonneg xs). exists (dropz (len xs) ([0; 0; 238] ++ slack)).
  assert (E : len ([0; 0; 238] ++ slack) = 3 + len slack) by lens.
  split; [apply bytesP_dropz, bytesP_app; split; [now apply all_bytes_ok|assumption]|].
  rewrite len_dropz, E by (rewrite E; lia). split; [lia|]. split; [lia|]. apply put_next; [reflexivity|]. rewrite E. lia.
Qed.
Lemma put_end P sl : bytesP sl -> 3 <= len sl ->
  exists sl', bytesP sl' /\ put (P ++ sl) (len P) [0; 0; 238] = Ok (P ++ [0; 0; 238] ++ sl').
Proof. intros B L. exists (dropz 3 sl). split; [now apply bytesP_dropz|]. apply (put_next P sl [0; 0; 238]); [reflexivity|exact L]. Qed.
Lemma put_front P sl xs : bytesP sl -> len xs <= len sl ->
  exists sl', bytesP sl' /\ len sl' = len sl - len xs /\ put (P ++ sl) (len P) xs = Ok (P ++ xs ++ sl').
Proof.
  intros B L. exists (dropz (len xs) sl). split; [now apply bytesP_dropz|]. split; [apply len_dropz; pose proof (len_nonneg xs); lia|].
  apply put_next; [reflexivity|exact L].
Qed.

Definition pre time off track bpos k (l d : Z) : list Z := bs "DTP2" ++ be 4 l ++ mid time off track bpos k ++ be 4 d.
Lemma len_pre time off track bpos k l d : len (pre time off track bpos k l d) = 32 + flen off bpos k.
Proof. unfold pre. rewrite !len_app, len_mid. lens. Qed.
Lemma pkt_pre time off track bpos k data : pkt time off track bpos k data = (pre time off track bpos k (27 + flen off bpos k + len data) (len data) ++ data) ++ [0; 0; 238].
Proof. rewrite pkt_shape. unfold pre. now rewrite <- !app_assoc. Qed.
Lemma add_lens_pre time off track bpos k l d rest n :
  returns (fun f => add_lens f (pre time off track bpos k l d ++ rest) n) (pre time off track bpos k (l + n) (d + n) ++ rest).
Proof.
  eapply returns_ext; [intros f; unfold pre; rewrite <- !app_assoc; reflexivity|]. unfold pre. rewrite <- !app_assoc. apply add_lens_ok.
Qed.

Context (time off track bpos : Z) (k : option bool) (data : list Z).

Lemma appendData_ok n a p : Rep time off track bpos k data n p -> len data + len a + 86 < 2 ^ 32 ->
  exists p', returns (fun f => appendData junk f a p) p' /\ Rep time off track bpos k (data ++ a) n p'.
Proof.
  intros R L. pose proof (len_nonneg a) as La. pose proof (len_nonneg data) as Ld. pose proof (flen_le off bpos k) as F. change (2 ^ 32) with 4294967296 in L.
  destruct (resize_ok _ _ _ _ _ _ _ _ (len a) R La) as (slack & S1 & S2 & S3).
  assert (U : u32 (dlen p + len a) = dlen p + len a).
  { destruct R as (? & _ & ->). cbn [dlen]. rewrite len_shape. apply u32_id. lia. }
  unfold appendData. rewrite U, S3. unfold with_data. cbn [pdata dlen own ver nal]. cbv zeta.
  rewrite pkt_pre. set (P := pre _ _ _ _ _ _ _). rewrite <- (app_assoc (P ++ data)).
  destruct (put_tail (P ++ data) slack a S1 S2) as (sl & T1 & T2 & _ & T3).
  assert (E : len ((P ++ data) ++ [0; 0; 238]) - 3 = len (P ++ data)) by lens. rewrite E, T3.
  destruct (put_end ((P ++ data) ++ a) sl T1 T2) as (sl' & U1 & U2).
  rewrite (app_assoc (P ++ data)). rewrite <- (len_app (P ++ data) a), U2. rewrite <- !(app_assoc P).
  eexists. split.
  - eapply (returns_bind (fun f => add_lens f (P ++ (data ++ a) ++ [0; 0; 238] ++ sl') (len a)) (fun d _ => Ok (mkP (Some d) true (u32 (len (P ++ data ++ [0; 0; 238]) + len a)) V_2 n))).
    + apply add_lens_pre.
    + apply returns_ok.
  - exists sl'. split; [assumption|]. rewrite pkt_pre. rewrite !len_app.
    assert (Q : len P = 32 + flen off bpos k) by (unfold P; apply len_pre).
    rewrite Q. rewrite len_pre. change (len [0; 0; 238]) with 3. rewrite u32_id by lia. f_equal; [|lia].
    f_equal. rewrite <- !app_assoc. f_equal. f_equal; lia.
Qed.

Lemma appendNal_ok n a p : Rep time off track bpos k data n p -> len data + len a + 90 < 2 ^ 32 -> a <> [] ->
  exists p', returns (fun f => appendNal junk f a p) p' /\ Rep time off track bpos k (data ++ be 4 (len a) ++ a) (len a) p'.
Proof.
  intros R L Ne. pose proof (len_nonneg data) as Ld. pose proof (flen_le off bpos k) as F. change (2 ^ 32) with 4294967296 in L.
  assert (La : 0 < len a) by (destruct a; [congruence|rewrite len_cons; pose proof (len_nonneg a); lia]).
  destruct (resize_ok _ _ _ _ _ _ _ _ (len a + 4) R ltac:(lia)) as (slack & S1 & S2 & S3).
  assert (U : u32 (dlen p + len a + 4) = dlen p + (len a + 4)).
  { destruct R as (? & _ & ->). cbn [dlen]. rewrite len_shape. rewrite u32_id; lia. }
  unfold appendNal. replace (len a =? 0) with false by lia. rewrite U, S3. unfold with_data. cbn [pdata dlen own ver nal]. cbv zeta.
  rewrite pkt_pre. set (P := pre _ _ _ _ _ _ _). rewrite <- (app_assoc (P ++ data)).
  destruct (put_tail (P ++ data) slack (be 4 (len a)) S1 ltac:(rewrite be_len; lia)) as (sl & T1 & T2 & T4 & T3). rewrite be_len in T4.
  assert (E : len ((P ++ data) ++ [0; 0; 238]) - 3 = len (P ++ data)) by lens. rewrite E, T3.
  destruct (put_front ((P ++ data) ++ be 4 (len a)) sl a T1 ltac:(lia)) as (sl0 & V1 & V2 & V3).
  rewrite (app_assoc (P ++ data)). replace (len (P ++ data) + 4) with (len ((P ++ data) ++ be 4 (len a))) by lens. rewrite V3.
  destruct (put_end (((P ++ data) ++ be 4 (len a)) ++ a) sl0 V1 ltac:(lia)) as (sl' & U1 & U2).
  rewrite (app_assoc ((P ++ data) ++ _)). rewrite <- (len_app _ a), U2. rewrite <- !(app_assoc P).
  eexists. split.
  - eapply (returns_bind (fun f => add_lens f (P ++ _) (len a + 4)) (fun d _ => Ok (mkP (Some d) true (u32 (len (P ++ data ++ [0; 0; 238]) + len a + 4)) V_2 (len a)))).
    + apply add_lens_pre.
    + apply returns_ok.
  - exists sl'. split; [assumption|]. rewrite pkt_pre. rewrite !len_app, be_len.
    assert (Q : len P = 32 + flen off bpos k) by (unfold P; apply len_pre).
    rewrite Q. rewrite len_pre. change (len [0; 0; 238]) with 3. rewrite u32_id by lia. f_equal; [|lia].
    f_equal. rewrite <- !app_assoc. f_equal. f_equal; lia.
Qed.

Lemma setTime_ok n t p : Rep time off track bpos k data n p -> exists p', setTime t p = Ok p' /\ Rep t off track bpos k data n p'.
Proof.
  intros (slack & S & ->). unfold setTime. cbn [own]. unfold with_data. cbn [pdata dlen ver nal]. unfold pkt.
  set (B := enc (body off bpos k data)). set (x := be 4 (12 + len B)).
  replace ((bs "DTP2" ++ x ++ be 4 track ++ be 8 time ++ B) ++ slack) with ((bs "DTP2" ++ x ++ be 4 track) ++ be 8 time ++ B ++ slack) by (rewrite <- !app_assoc; reflexivity).
  rewrite put_mid by (unfold x; lens). eexists. split; [reflexivity|]. exists slack. split; [assumption|]. unfold pkt. fold B. fold x. now f_equal.
Qed.

Lemma setKeyFrame_ok n b p : Rep time off track bpos k data n p ->
  exists p', returns (fun f => setKeyFrame f b p) p' /\ Rep time off track bpos (match k with Some _ => Some b | None => None end) data n p'.
Proof.
  intros (slack & S & ->). unfold setKeyFrame, with_data. cbn [pdata dlen own ver nal].
  set (m := pkt time off track bpos k data ++ slack). set (L := len _).
  pose (H0 := bs "DTP2" ++ be 4 (27 + flen off bpos k + len data) ++ be 4 track ++ be 8 time ++ [224] ++ s1 off ++ s2 bpos).
  pose (R0 := [0; 4] ++ bs "data" ++ [2] ++ be 4 (len data) ++ data ++ [0; 0; 238]).
  assert (Em : m = (H0 ++ s3 k ++ R0) ++ slack).
  { unfold m, H0, R0. rewrite pkt_shape. unfold mid. change (fbytes off bpos k) with (s1 off ++ s2 bpos ++ s3 k). rewrite <- !app_assoc. reflexivity. }
  assert (LH : len H0 = 21 + len (s1 off ++ s2 bpos)) by (unfold H0; lens).
  assert (HH : has m 21 (s1 off ++ s2 bpos ++ s3 k ++ R0)).
  { exists (bs "DTP2" ++ be 4 (27 + flen off bpos k + len data) ++ be 4 track ++ be 8 time ++ [224]), slack. split; [|lens].
    rewrite Em. unfold H0. rewrite <- !app_assoc. reflexivity. }
  clearbody m.
  destruct k as [kb|] eqn:Ek.
  - assert (Es : s3 k = [0; 8] ++ [if kb then ch "k" else ch "K"] ++ (bs "eyframe" ++ [1; 0; 0; 0; 0; 0; 0; 0]) ++ [if kb then 1 else 0]) by (rewrite Ek; destruct kb; reflexivity).
    rewrite Ek in Es. rewrite Es in *.
    destruct (ko m off bpos 0 8 (if kb then ch "k" else ch "K") ((bs "eyframe" ++ [1; 0; 0; 0; 0; 0; 0; 0]) ++ [if kb then 1 else 0] ++ R0)) as [K1 K2].
    { destruct kb; auto. }
    { rewrite <- !app_assoc in HH. exact HH. }
    eexists. split.
    + eapply (returns_bind _ (fun o _ => c <~ getb m o;; _) _ _ K1). cbv beta. rewrite K2.
      replace ((_ =? ch "k") || (_ =? ch "K")) with true by (destruct kb; reflexivity). cbv iota.
      rewrite Em. replace (23 + len (s1 off ++ s2 bpos)) with (len (H0 ++ [0; 8])) by lens.
      rewrite <- !app_assoc. rewrite (app_assoc H0). rewrite (put_mid (H0 ++ [0; 8]) [if kb then ch "k" else ch "K"] [if b then ch "k" else ch "K"]) by reflexivity.
      pose (X := (H0 ++ [0; 8]) ++ [if b then ch "k" else ch "K"] ++ bs "eyframe" ++ [1; 0; 0; 0; 0; 0; 0; 0]).
      match goal with |- context [put ?z _ [if b then 1 else 0]] => replace z with (X ++ [if kb then 1 else 0] ++ R0 ++ slack) by (unfold X; rewrite <- !app_assoc; reflexivity) end.
      rewrite (put_mid X [if kb then 1 else 0] [if b then 1 else 0]); [|unfold X; rewrite (len_app (H0 ++ _)); reflexivity|reflexivity]. unfold X.
      apply returns_ok.
    + exists slack. split; [assumption|]. f_equal.
      * rewrite pkt_shape. f_equal. unfold H0, R0, mid. change (fbytes off bpos (Some b)) with (s1 off ++ s2 bpos ++ s3 (Some b)).
        assert (Es' : s3 (Some b) = [0; 8] ++ [if b then ch "k" else ch "K"] ++ (bs "eyframe" ++ [1; 0; 0; 0; 0; 0; 0; 0]) ++ [if b then 1 else 0]) by (destruct b; reflexivity).
        assert (Fl : flen off bpos (Some kb) = flen off bpos (Some b)).
        { unfold flen. change (fbytes off bpos (Some kb)) with (s1 off ++ s2 bpos ++ s3 (Some kb)). change (fbytes off bpos (Some b)) with (s1 off ++ s2 bpos ++ s3 (Some b)). rewrite Es, Es'. lens. }
        rewrite Es', Fl. rewrite <- !app_assoc. reflexivity.
      * unfold L. rewrite !len_shape. unfold flen.
        change (fbytes off bpos (Some kb)) with (s1 off ++ s2 bpos ++ s3 (Some kb)). change (fbytes off bpos (Some b)) with (s1 off ++ s2 bpos ++ s3 (Some b)). rewrite !len_app. destruct kb, b; reflexivity.
  - change (s3 None) with (@nil Z) in *. cbn [app] in HH, Em.
    destruct (ko m off bpos 0 4 (ch "d") (bs "ata" ++ [2] ++ be 4 (len data) ++ data ++ [0; 0; 238])) as [K1 K2]; [auto|exact HH|].
    eexists. split.
    + eapply (returns_bind _ (fun o _ => c <~ getb m o;; _) _ _ K1). cbv beta. rewrite K2.
      change ((ch "d" =? ch "k") || (ch "d" =? ch "K")) with false. cbv iota. apply returns_ok.
    + exists slack. split; [assumption|]. unfold L. f_equal. f_equal. rewrite Em, pkt_shape. unfold H0, R0, mid.
      change (fbytes off bpos None) with (s1 off ++ s2 bpos ++ []). rewrite app_nil_r. rewrite <- !app_assoc. reflexivity.
Qed.
End Change.

Section Upgrade.
Context (junk : Z) (Hj : byteP junk) (time off track bpos : Z) (k : option bool).
Lemma upgradeNal_ok d0 n0 a p : Rep time off track bpos k (d0 ++ be 4 (len n0) ++ n0) (len n0) p ->
  len d0 + 4 + len n0 + len a + 86 < 2 ^ 32 -> a <> [] ->
  exists p', returns (fun f => upgradeNal junk f a p) p' /\ Rep time off track bpos k (d0 ++ be 4 (len n0 + len a) ++ n0 ++ a) (len n0 + len a) p'.
Proof.
  intros R L Ne. pose proof (len_nonneg d0) as Ld. pose proof (len_nonneg n0) as Ln. pose proof (flen_le off bpos k) as F. change (2 ^ 32) with 4294967296 in L.
  assert (La : 0 < len a) by (destruct a; [congruence|rewrite len_cons; pose proof (len_nonneg a); lia]).
  destruct (resize_ok junk Hj _ _ _ _ _ _ _ _ (len a) R ltac:(lia)) as (slack & S1 & S2 & S3).
  set (data := d0 ++ be 4 (len n0) ++ n0) in *.
  assert (LD : len data = len d0 + 4 + len n0) by (unfold data; lens).
  assert (U : u32 (dlen p + len a) = dlen p + len a).
  { destruct R as (? & _ & ->). cbn [dlen]. rewrite len_shape. apply u32_id. lia. }
  assert (Nl : dlen p = 35 + flen off bpos k + len data /\ nal p = len n0 /\ exists sl, pdata p = Some (pkt time off track bpos k data ++ sl)).
  { destruct R as (sl & _ & ->). cbn [dlen nal pdata]. rewrite len_shape. split; [reflexivity|]. split; [reflexivity|now exists sl]. }
  destruct Nl as (N1 & N2 & sl1 & N3).
  unfold upgradeNal. replace (len a =? 0) with false by lia. unfold with_data. rewrite N3. cbv zeta.
  pose (P := pre time off track bpos k (27 + flen off bpos k + len data) (len data)).
  assert (LP : len P = 32 + flen off bpos k) by apply len_pre.
  assert (SO : dlen p - 3 - 4 - nal p = len (P ++ d0)) by (rewrite N1, N2, LD, len_app, LP; lia).
  rewrite SO.
  rewrite (has_getbe _ _ 4 (len n0) (n0 ++ [0; 0; 238] ++ sl1)); [|exists (P ++ d0), []; split; [|reflexivity]; rewrite app_nil_r, pkt_pre; fold P; unfold data; rewrite <- !app_assoc; reflexivity|reflexivity].
  change (256 ^ Z.of_nat 4) with 4294967296. rewrite Z.mod_small by lia. rewrite N2, Z.eqb_refl. cbn [negb].
  rewrite U, S3. cbn [pdata dlen own ver nal].
  rewrite pkt_pre. fold P. unfold data at 1. rewrite <- !app_assoc. rewrite (app_assoc P d0).
  rewrite (put_mid (P ++ d0) (be 4 (len n0)) (be 4 (len n0 + len a))) by (rewrite ?be_len; reflexivity).
  set (Q := (P ++ d0) ++ be 4 (len n0 + len a) ++ n0).
  assert (EQ : (P ++ d0) ++ be 4 (len n0 + len a) ++ n0 ++ [0; 0; 238] ++ slack = Q ++ [0; 0; 238] ++ slack) by (unfold Q; rewrite <- !app_assoc; reflexivity).
  rewrite EQ. destruct (put_tail Q slack a S1 ltac:(lia)) as (sl & T1 & T2 & _ & T3).
  assert (E : len (P ++ data ++ [0; 0; 238]) - 3 = len Q) by (unfold Q, data; lens). rewrite E, T3.
  destruct (put_end (Q ++ a) sl T1 T2) as (sl' & U1 & U2).
  rewrite (app_assoc Q). rewrite <- (len_app Q a), U2.
  assert (EZ : (Q ++ a) ++ [0; 0; 238] ++ sl' = P ++ (d0 ++ be 4 (len n0 + len a) ++ n0 ++ a) ++ [0; 0; 238] ++ sl') by (unfold Q; rewrite <- !app_assoc; reflexivity).
  rewrite EZ.
  eexists. split.
  - eapply (returns_bind (fun f => add_lens f (P ++ _) (len a)) (fun d _ => Ok (mkP (Some d) true (u32 (len (P ++ data ++ [0; 0; 238]) + len a)) V_2 (len n0 + len a)))).
    + apply add_lens_pre.
    + apply returns_ok.
  - exists sl'. split; [assumption|]. rewrite pkt_pre.
    assert (LX : len (d0 ++ be 4 (len n0 + len a) ++ n0 ++ a) = len data + len a) by (unfold data; lens).
    set (X := d0 ++ be 4 (len n0 + len a) ++ n0 ++ a) in *.
    assert (QL : len (P ++ data ++ [0; 0; 238]) = 35 + flen off bpos k + len data) by (rewrite !len_app, LP; change (len [0;0;238]) with 3; lia).
    rewrite QL, u32_id by lia. f_equal; [|rewrite !len_app, len_pre, LX; change (len [0;0;238]) with 3; lia].
    f_equal. rewrite LX. rewrite <- !app_assoc. f_equal. f_equal; lia.
Qed.
End Upgrade.

(** ** Histories *)
Lemma some_inj {A} (a b : A) : Some a = Some b -> a = b.
Proof. now intros [=]. Qed.
Section Histories.
Context (junk : Z) (Hj : byteP junk).
(** The packet in memory and the fields it stands for. *)
Definition Inv (s : pst) (p : packet) : Prop :=
  exists n, Rep (f_time (s_f s)) (f_offset (s_f s)) (f_track (s_f s)) (f_bpos (s_f s))
    (if s_keyed s then Some (f_key (s_f s)) else None) (f_data (s_f s)) n p /\
  (s_keyed s = false -> f_key (s_f s) = false) /\
  match s_nal s with Some (d, x) => f_data (s_f s) = d ++ be 4 (len x) ++ x /\ n = len x | None => True end.

Lemma effect_mono o s s' : effect o s = Some s' -> Inv s pnew \/ True -> 
  (match s_nal s with Some (d, x) => f_data (s_f s) = d ++ be 4 (len x) ++ x | None => True end) ->
  len (f_data (s_f s)) <= len (f_data (s_f s')).
Proof.
  intros E _ N. destruct s as [f kd nl]. cbn [s_f s_keyed s_nal] in *. destruct o as [a|a|a|b|t]; cbn [effect s_f s_keyed s_nal] in E.
  - apply some_inj in E; subst. cbn. rewrite len_app. pose proof (len_nonneg a). lia.
  - destruct a as [|x a]; apply some_inj in E; subst; cbn [s_f with_payload f_data]; [lia|]. rewrite len_app. match goal with |- _ <= _ + ?z => enough (0 <= z) by lia end. apply len_nonneg.
  - destruct a as [|x a]; [apply some_inj in E; subst; cbn [s_f]; lia|]. destruct nl as [[d y]|]; [|discriminate]. apply some_inj in E; subst. cbn [s_f with_payload f_data].
    pose proof (len_nonneg a). rewrite N. lens.
  - apply some_inj in E; subst. cbn. lia.
  - apply some_inj in E; subst. cbn. lia.
Qed.
Lemma op_ok o s s' p : Inv s p -> effect o s = Some s' -> len (f_data (s_f s')) + 86 < 2 ^ 32 ->
  exists p', returns (fun n => do_op junk n o p) p' /\ Inv s' p'.
Proof.
  intros (n & R & K & N) E L. destruct s as [f kd nl]. cbn [s_f s_keyed s_nal] in *.
  destruct o as [a|a|a|b|t]; cbn [effect s_f s_keyed s_nal] in E; cbn [do_op].
  - apply some_inj in E; subst. cbn [s_f with_payload f_data] in L. rewrite len_app in L.
    destruct (appendData_ok junk Hj _ _ _ _ _ _ n a p R L) as (p' & P1 & P2). exists p'. split; [exact P1|].
    exists n. cbn. auto.
  - destruct a as [|x a].
    + apply some_inj in E; subst. exists p. split; [apply returns_ok|]. exists n. auto.
    + apply some_inj in E; subst. cbn [s_f with_payload f_data] in L. rewrite !len_app, be_len in L.
      destruct (appendNal_ok junk Hj _ _ _ _ _ _ n (x :: a) p R ltac:(lia) ltac:(discriminate)) as (p' & P1 & P2). exists p'. split; [exact P1|].
      exists (len (x :: a)). cbn [s_f s_keyed s_nal with_payload f_time f_offset f_track f_bpos f_key f_data]. auto.
  - destruct a as [|x a].
    + apply some_inj in E; subst. exists p. split; [apply returns_ok|]. exists n. auto.
    + destruct nl as [[d y]|]; [|discriminate]. destruct N as [N1 N2]. apply some_inj in E; subst. cbn [s_f with_payload f_data] in L. rewrite !len_app, be_len in L.
      rewrite N1 in R.
      destruct (upgradeNal_ok junk Hj _ _ _ _ _ d y (x :: a) p R ltac:(lia) ltac:(discriminate)) as (p' & P1 & P2). exists p'. split; [exact P1|].
      exists (len y + len (x :: a)). cbn [s_f s_keyed s_nal with_payload f_time f_offset f_track f_bpos f_key f_data].
      split; [exact P2|]. split; [assumption|]. rewrite len_app. auto.
  - apply some_inj in E; subst. destruct (setKeyFrame_ok _ _ _ _ _ _ n b p R) as (p' & P1 & P2). exists p'. split; [exact P1|].
    exists n. cbn [s_f s_keyed s_nal f_time f_offset f_track f_bpos f_key f_data]. split; [|split; [now intros ->|exact N]]. destruct kd; exact P2.
  - apply some_inj in E; subst. destruct (setTime_ok _ _ _ _ _ _ n t p R) as (p' & P1 & P2). exists p'. split; [rewrite P1; apply returns_ok|].
    exists n. cbn [s_f s_keyed s_nal f_time f_offset f_track f_bpos f_key f_data]. auto.
Qed.
Lemma Inv_nal s p : Inv s p -> match s_nal s with Some (d, x) => f_data (s_f s) = d ++ be 4 (len x) ++ x | None => True end.
Proof. intros (n & _ & _ & H). destruct (s_nal s) as [[d x]|]; tauto. Qed.
Lemma effect_nal o s s' : effect o s = Some s' ->
  (match s_nal s with Some (d, x) => f_data (s_f s) = d ++ be 4 (len x) ++ x | None => True end) ->
  match s_nal s' with Some (d, x) => f_data (s_f s') = d ++ be 4 (len x) ++ x | None => True end.
Proof.
  intros E N. destruct s as [f kd nl]. cbn [s_f s_nal] in *. destruct o as [a|a|a|b|t]; cbn [effect s_f s_keyed s_nal] in E.
  - apply some_inj in E; subst. exact I.
  - destruct a as [|x a]; apply some_inj in E; subst; [exact N|]. reflexivity.
  - destruct a as [|x a]; [apply some_inj in E; subst; exact N|]. destruct nl as [[d y]|]; [|discriminate]. apply some_inj in E; subst.
    cbn [s_f s_nal with_payload f_data]. now rewrite len_app.
  - apply some_inj in E; subst. exact N.
  - apply some_inj in E; subst. exact N.
Qed.
Lemma effects_mono os : forall s s', effects os s = Some s' ->
  (match s_nal s with Some (d, x) => f_data (s_f s) = d ++ be 4 (len x) ++ x | None => True end) ->
  len (f_data (s_f s)) <= len (f_data (s_f s')).
Proof.
  induction os as [|o os IH]; intros s s' E N; cbn [effects] in E; [apply some_inj in E; subst; lia|].
  destruct (effect o s) as [s1|] eqn:E1; [|discriminate].
  pose proof (effect_mono o s s1 E1 (or_intror I) N). pose proof (IH s1 s' E (effect_nal o s s1 E1 N)). lia.
Qed.
Lemma ops_ok os : forall s s' p, Inv s p -> effects os s = Some s' -> len (f_data (s_f s')) + 86 < 2 ^ 32 ->
  exists p', returns (fun n => do_ops junk n os p) p' /\ Inv s' p'.
Proof.
  induction os as [|o os IH]; intros s s' p V E L; cbn [effects] in E.
  - apply some_inj in E; subst. exists p. split; [apply returns_ok|assumption].
  - destruct (effect o s) as [s1|] eqn:E1; [|discriminate].
    pose proof (effects_mono os s1 s' E (effect_nal o s s1 E1 (Inv_nal _ _ V))) as M.
    destruct (op_ok o s s1 p V E1 ltac:(lia)) as (p1 & P1 & V1). destruct (IH s1 s' p1 V1 E L) as (p2 & P2 & V2).
    exists p2. split; [|assumption]. cbn [do_ops]. apply (returns_bind _ (fun p n => do_ops junk n os p) p1); assumption.
Qed.
Lemma Inv_reports s p : Inv s p -> fields_ok (s_f s) -> reports p (s_f s).
Proof.
  intros (n & (slack & S & ->) & K & _) (Ht & Ho & Hk & Hb & Hd & Hl). destruct s as [f kd nl]. cbn [s_f s_keyed] in *.
  assert (E : mkF (f_time f) (f_offset f) (f_track f) (f_data f) (f_bpos f) (kflag (if kd then Some (f_key f) else None)) = f).
  { destruct f as [t o tr d b ke]. cbn in *. destruct kd; [destruct ke; reflexivity|]. rewrite K by reflexivity. reflexivity. }
  match goal with |- reports ?p _ => assert (R : reports p (mkF (f_time f) (f_offset f) (f_track f) (f_data f) (f_bpos f) (kflag (if kd then Some (f_key f) else None)))) end.
  { apply (reports_pkt _ _ _ _ _ _ slack); try assumption; reflexivity. }
  rewrite E in R. exact R.
Qed.
Lemma built_inv f p : fields_ok f -> f_data f <> [] -> exists p',
  genericFill junk (f_time f) (f_offset f) (f_track f) (Some (f_data f)) (len (f_data f)) (f_bpos f) (f_key f) p = Ok p' /\ Inv (built f) p'.
Proof.
  intros F N. eexists. split; [apply genericFill_ok; assumption|]. exists (nal p). cbn [built s_f s_keyed s_nal].
  split; [|auto]. exists []. split; [constructor|]. rewrite app_nil_r, wire_pkt. unfold key_of. now destruct (f_key f).
Qed.
End Histories.

(** ** Receiving *)
Lemma reInit_wire f rest noCopy junk p n : fields_ok f -> bytesP rest -> n = 0 \/ n = len (wire_packet f) ->
  own p = true \/ pdata p = None \/ noCopy = true ->
  bytesP (match pdata p with Some b => b | None => [] end) -> byteP junk ->
  exists p', reInit junk (wire_packet f ++ rest) n noCopy p = Ok p' /\ reports p' f.
Proof.
  intros F Br N O Bp Hj. pose proof F as (Ht & Ho & Hk & Hb & Hd & Hl).
  set (m := wire_packet f ++ rest).
  pose proof (flen_le (f_offset f) (f_bpos f) (key_of (f_key f))) as FL. pose proof (len_nonneg (f_data f)) as LD. change (2 ^ 32) with 4294967296 in *.
  assert (LW : len (wire_packet f) = 35 + flen (f_offset f) (f_bpos f) (key_of (f_key f)) + len (f_data f)) by (rewrite wire_pkt; apply len_shape).
  assert (HW : has m 0 (wire_packet f)) by (now exists [], rest).
  assert (HD : has m 0 (bs "DTP2")) by (unfold wire_packet in HW; now apply has_app in HW as [HW _]).
  assert (H4 : has m 4 (be 4 (len (wire_packet f) - 8) ++ [])).
  { rewrite app_nil_r. pose proof HW as H. rewrite wire_pkt, pkt_shape in H. apply has_app in H as [_ H]. apply has_app in H as [H _].
    rewrite LW. replace (35 + _ + _ - 8) with (27 + flen (f_offset f) (f_bpos f) (key_of (f_key f)) + len (f_data f)) by lia. exact H. }
  unfold reInit.
  assert (G0 : getb m 0 = Ok (ch "D") /\ getb m 1 = Ok (ch "T") /\ getb m 2 = Ok (ch "P") /\ getb m 3 = Ok (ch "2")).
  { change (bs "DTP2") with [ch "D"; ch "T"; ch "P"; ch "2"] in HD. pose proof HD as A0. apply has_cons in HD as [_ A1]. pose proof A1 as A1'. apply has_cons in A1' as [_ A2]. pose proof A2 as A2'. apply has_cons in A2' as [_ A3].
    split; [eapply has_getb, A0|]. split; [eapply has_getb, A1|]. split; [eapply has_getb, A2|eapply has_getb, A3]. }
  destruct G0 as (G0 & G1 & G2 & G3). rewrite G0, G1, G2, G3. cbn [Z.eqb negb orb].
  assert (GN : (if n =? 0 then x <~ getbe m 4 4;; Ok (u32 (x + 8)) else Ok n) = Ok (len (wire_packet f))).
  { destruct N as [-> | ->].
    - cbn [Z.eqb]. rewrite (has_getbe _ _ 4 _ _ _ H4) by reflexivity. change (256 ^ Z.of_nat 4) with 4294967296. rewrite Z.mod_small by lia. rewrite u32_id by lia. f_equal. lia.
    - replace (len (wire_packet f) =? 0) with false by lia. reflexivity. }
  change (ch "D" =? 0) with false. change (ch "T" =? 0) with false. change (ch "P" =? 0) with false. change (ch "2" =? 0) with false.
  change (ch "D" =? ch "D") with true. change (ch "T" =? ch "T") with true. cbn [negb orb]. cbv iota.
  rewrite GN. clear GN.
  assert (RP : forall sl o nl, bytesP sl -> reports (mkP (Some (wire_packet f ++ sl)) o (len (wire_packet f)) V_2 nl) f).
  { intros sl o nl B.
    assert (E : mkF (f_time f) (f_offset f) (f_track f) (f_data f) (f_bpos f) (kflag (key_of (f_key f))) = f) by (destruct f as [? ? ? ? ? []]; reflexivity).
    assert (R : reports (mkP (Some (wire_packet f ++ sl)) o (len (wire_packet f)) V_2 nl) (mkF (f_time f) (f_offset f) (f_track f) (f_data f) (f_bpos f) (kflag (key_of (f_key f))))).
    { rewrite wire_pkt. apply (reports_pkt _ _ _ _ _ _ sl); try assumption; reflexivity. }
    rewrite E in R. exact R. }
  assert (VV : forall d sl, d = wire_packet f ++ sl -> (if len (wire_packet f) <? 4 then Ok V_INVALID else h <~ getn d 0 4;; Ok (version_of h)) = Ok V_2).
  { intros d sl ->. replace (len (wire_packet f) <? 4) with false by lia.
    rewrite (has_getn _ 0 (bs "DTP2")) by (try reflexivity; unfold wire_packet; rewrite <- !app_assoc; now exists [], (be 4 (12 + len (enc (object_of f))) ++ be 4 (f_track f) ++ be 8 (f_time f) ++ enc (object_of f) ++ sl)).
    reflexivity. }
  destruct noCopy; cbn [negb].
  - rewrite (VV m rest) by reflexivity. eexists. split; [reflexivity|]. apply RP. assumption.
  - rewrite andb_false_r.
    replace (negb (own p) && match pdata p with Some _ => true | None => false end && (0 <? len (wire_packet f))) with false
      by (destruct O as [-> |[-> |O]]; [reflexivity|now rewrite andb_false_r|discriminate]).
    rewrite (has_getn _ 0 (wire_packet f)) by (try reflexivity; exact HW).
    set (b := match pdata p with Some b => b | None => [] end) in *.
    assert (GB : bytesP (grow junk b (len (wire_packet f))) /\ len (wire_packet f) <= len (grow junk b (len (wire_packet f)))).
    { unfold grow. destruct (Z.ltb_spec (len b) (len (wire_packet f))); [|split; assumption]. split.
      - apply bytesP_app. split; [assumption|]. clear - Hj. induction (Z.to_nat _); constructor; auto.
      - rewrite len_app, len_repeat. lia. }
    destruct GB as [GB1 GB2].
    pose proof (put_next [] (grow junk b (len (wire_packet f))) (wire_packet f) 0 eq_refl GB2) as PN. cbn [app] in PN. rewrite PN.
    rewrite (VV _ _ eq_refl). eexists. split; [reflexivity|]. apply RP. now apply bytesP_dropz.
Qed.
