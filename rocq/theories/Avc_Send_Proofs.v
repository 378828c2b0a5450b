(** Proofs about sending H264 and HEVC frames. *)
From Verif Require Import Common CommonFacts CommonMore Mem_Model Mem_Proofs Nal_Model Nal_Spec Nal_Proofs Bitstream_Model Bitstream_Spec Ts_Model Ts_Spec Ts_Proofs Ts_Mux_Proofs Ts_Pes_Proofs Ts_Demux_Proofs Outcome_Model Psi_Proofs Avcc_Model Avcc_Spec Avcc_Proofs Avc_Model Avc_Spec.
Import List.
Ltac Zify.zify_post_hook ::= Z.div_mod_to_equations.

Definition unit_in (u : list Z) : Prop := bytesP u /\ u <> [].
Lemma pos_len (u : list Z) : u <> [] -> 0 < len u.
Proof. destruct u as [|x r]; [congruence|intros _; rewrite len_cons; pose proof (len_nonneg r); lia]. Qed.
Lemma lp_cons u us : length_prefixed (u :: us) = be 4 (len u) ++ u ++ length_prefixed us.
Proof. unfold length_prefixed. cbn [flat_map]. now rewrite <- app_assoc. Qed.
Lemma lp_len us : len (length_prefixed us) = len (started us).
Proof. induction us as [|u us IH]; [reflexivity|]. rewrite lp_cons. unfold started. cbn [flat_map]. fold (started us). rewrite !len_app, be_len, IH. change (len [0; 0; 0; 1]) with 4. lia. Qed.
Lemma started_app a b : started (a ++ b) = started a ++ started b.
Proof. apply flat_map_app. Qed.
Lemma land31 c : byteP c -> c .& 0x1f = c mod 32.
Proof. intros _. apply land_31. Qed.
Lemma unit_head (u : list Z) : unit_in u -> exists h r, u = h :: r /\ byteP h /\ avc_type u = h mod 32.
Proof. intros [B N]. destruct u as [|h r]; [congruence|]. inversion B; subst. now exists h, r. Qed.

Lemma look_ok us : forall n pre a b, Forall unit_in us -> len pre + len (length_prefixed us) < 2 ^ 31 ->
  look n (pre ++ length_prefixed us) (len pre) a b = Ok (a && negb (existsb is_set (firstn n us)), b && negb (existsb is_delimiter (firstn n us))).
Proof.
  induction us as [|u us IH]; intros n pre a b F L; destruct n as [|n]; cbn [look]; try (cbn [firstn existsb]; now rewrite !andb_true_r).
  - rewrite len_app. change (len (length_prefixed [])) with 0. replace (len pre + 4 <? len pre + 0) with false by lia. cbn [firstn existsb]. now rewrite !andb_true_r.
  - inversion F as [|? ? U F']; subst. destruct (unit_head u U) as (h & r & -> & Bh & T). rewrite lp_cons in *. rewrite !len_app, be_len, len_cons in L. rewrite !len_app, be_len, len_cons.
    pose proof (len_nonneg pre). pose proof (len_nonneg r). pose proof (len_nonneg (length_prefixed us)).
    replace (len pre + 4 <? _) with true by lia.
    assert (EH : getb (pre ++ be 4 (1 + len r) ++ (h :: r) ++ length_prefixed us) (len pre + 4) = Ok h).
    { replace (pre ++ be 4 (1 + len r) ++ (h :: r) ++ length_prefixed us) with ((pre ++ be 4 (1 + len r)) ++ h :: (r ++ length_prefixed us)) by (rewrite <- !app_assoc; reflexivity).
      apply getb_at. rewrite len_app, be_len. lia. }
    rewrite EH. cbv iota beta. rewrite (Mp4_Proofs.getbe_at pre) by (try reflexivity; lia).
    rewrite land_31. cbn [firstn existsb]. unfold is_set at 1, is_delimiter at 1. rewrite T.
    unfold u32. rewrite Z.mod_small by lia.
    replace (len pre + (1 + len r + 4)) with (len (pre ++ be 4 (1 + len r) ++ h :: r)) by (rewrite !len_app, be_len, len_cons; lia).
    replace (pre ++ be 4 (1 + len r) ++ (h :: r) ++ length_prefixed us) with ((pre ++ be 4 (1 + len r) ++ h :: r) ++ length_prefixed us) by (rewrite <- !app_assoc; reflexivity).
    rewrite IH by (try assumption; rewrite !len_app, be_len, len_cons; lia). now rewrite !negb_orb, !andb_assoc.
Qed.

Definition chunk_ok (c : list Z) : Prop := bytesP c /\ len c < 2147483648.
Lemma nal_chunks_ok us : forall fuel pre, Forall unit_in us -> len pre + len (length_prefixed us) < 2 ^ 31 -> (List.length us < fuel)%nat ->
  exists cs, nal_chunks fuel 4 (pre ++ length_prefixed us) (len pre) = Ok cs /\ concat cs = started us /\ Forall chunk_ok cs.
Proof.
  induction us as [|u us IH]; intros fuel pre F L G; destruct fuel as [|fuel]; try (cbn [List.length] in G; lia); cbn [nal_chunks].
  - rewrite len_app. change (len (length_prefixed [])) with 0. replace (len pre + 4 <? len pre + 0) with false by lia. exists []. split; [reflexivity|]. split; [reflexivity|constructor].
  - inversion F as [|? ? [B N] F']; subst. rewrite lp_cons in *. rewrite !len_app, be_len in L. rewrite !len_app, be_len.
    pose proof (len_nonneg pre). pose proof (pos_len u N). pose proof (len_nonneg (length_prefixed us)).
    replace (len pre + 4 <? _) with true by lia. change (4 =? 4) with true. cbv iota.
    rewrite (Mp4_Proofs.getbe_at pre) by (try reflexivity; lia). cbv iota beta. unfold u32. rewrite (Z.mod_small (len u + len pre)) by lia.
    replace (_ <? len u + len pre + 4) with false by lia.
    replace (pre ++ be 4 (len u) ++ u ++ length_prefixed us) with ((pre ++ be 4 (len u)) ++ u ++ length_prefixed us) by (rewrite <- !app_assoc; reflexivity).
    rewrite getn_at by (try reflexivity; rewrite len_app, be_len; lia). cbv iota beta.
    rewrite Z.mod_small by lia. replace (len pre + len u + 4) with (len ((pre ++ be 4 (len u)) ++ u)) by (rewrite !len_app, be_len; lia).
    replace ((pre ++ be 4 (len u)) ++ u ++ length_prefixed us) with (((pre ++ be 4 (len u)) ++ u) ++ length_prefixed us) by (rewrite <- !app_assoc; reflexivity).
    destruct (IH fuel ((pre ++ be 4 (len u)) ++ u) F') as (cs & -> & E & C); [rewrite !len_app, be_len; lia|cbn [List.length] in G; lia|].
    eexists. split; [reflexivity|]. split; [cbn [concat]; rewrite E; unfold started; cbn [flat_map]; now rewrite <- app_assoc|].
    constructor; [split; [apply all_bytes_ok|]; reflexivity|]. constructor; [split; [exact B|lia]|exact C].
Qed.
Lemma lp_count us : (List.length us <= List.length (length_prefixed us))%nat.
Proof. induction us as [|u us IH]; [constructor|]. rewrite lp_cons, !app_length. cbn [List.length be]. pose proof (be_len 4 (len u)) as E. unfold len in E. lia. Qed.

(** The init data of a track with these parameter sets. *)
Lemma init_gives hevc init sets : init_for hevc init sets -> (if hevc then hvccInit init else avccInit init) = Ok (started sets) /\
  (if negb hevc && (4 <? len init) then (nthz init 4 .& 3) + 1 else 4) = 4.
Proof.
  destruct hevc; cbn [init_for negb andb].
  - intros (general & arrays & LG & F & N & L & -> & ->). split; [now apply hvcc_init|reflexivity].
  - intros (profile & compat & level & spss & ppss & more & S1 & S2 & N1 & N2 & L & -> & ->). rewrite started_app. split; [now apply avcc_init|].
    assert (EN : nthz (avc_record profile compat level 4 spss ppss more) 4 = 0xFF) by reflexivity. rewrite EN. destruct (4 <? _); reflexivity.
Qed.
Definition payload_of (hevc key : bool) (sets us : list (list Z)) : list Z := started (sent_units hevc key sets us).
Definition bounded_pes (d : list Z) : bool := (0 <? len d) && (len d <=? 65477).
Lemma sent_len hevc key sets us : len (payload_of hevc key sets us) =
  len (concat (if negb hevc && negb (existsb is_delimiter (firstn 5 us)) then [[0; 0; 0; 1; 9; 0xF0]] else [])) +
  len (concat (if key && (hevc || negb (existsb is_set (firstn 5 us))) then [started sets] else [])) + len (started us).
Proof.
  unfold payload_of, sent_units. rewrite !started_app, !len_app. destruct hevc, (existsb is_delimiter (firstn 5 us)); cbn [negb andb orb concat];
  destruct key, (existsb is_set (firstn 5 us)); cbn [negb andb orb concat]; rewrite ?app_nil_r; reflexivity || (change (started []) with (@nil Z); change (len (@nil Z)) with 0; change (started [delimiter]) with [0; 0; 0; 1; 9; 0xF0]; lia).
Qed.
Lemma concat_sent hevc key sets us cs : concat cs = started us ->
  concat ((if negb hevc && negb (existsb is_delimiter (firstn 5 us)) then [[0; 0; 0; 1; 9; 0xF0]] else []) ++ (if key && (hevc || negb (existsb is_set (firstn 5 us))) then [started sets] else []) ++ cs) =
  payload_of hevc key sets us.
Proof.
  intros E. rewrite !concat_app, E. unfold payload_of, sent_units. rewrite !started_app.
  destruct hevc, (existsb is_delimiter (firstn 5 us)), key, (existsb is_set (firstn 5 us)); cbn [negb andb orb concat]; rewrite ?app_nil_r; reflexivity.
Qed.
Lemma leadin_bytes n t off al bps data : getPESVideoLeadIn n t off al bps ++ data = pes 0xE0 (0 <? n) al (t + off) (if off =? 0 then None else Some t) (rate_bytes bps) data ->
  0 <= t -> 0 <= off -> chunk_ok (getPESVideoLeadIn n t off al bps).
Proof.
  intros E T O. split; [|unfold getPESVideoLeadIn; repeat match goal with |- context [if ?b then _ else _] => destruct b end; reflexivity].
  assert (E' : exists h, pes 0xE0 (0 <? n) al (t + off) (if off =? 0 then None else Some t) (rate_bytes bps) data = h ++ data /\ bytesP h).
  { destruct (rate_ok bps) as [R1 R2]. unfold pes.
    assert (BE : forall v, bytesP (be 2 v)) by (intros; rewrite be2; unfold bytesP, byteP; repeat constructor; apply Z.mod_pos_bound; lia).
    rewrite !app_assoc. eexists. split; [reflexivity|]. rewrite <- !app_assoc. destruct (off =? 0), al; (apply bapp; [unfold bytesP, byteP; repeat constructor; lia|]); (apply bapp; [apply BE|]); rewrite ?len_app, ?stamp_len;
    (apply bapp; [unfold bytesP, byteP; repeat constructor; try lia; destruct (rate_bytes bps); lia|]); (apply bapp; [|exact R1]); try (apply bapp); apply stamp_bytes; lia. }
  destruct E' as (h & E1 & B). rewrite E1 in E. apply app_inv_tail in E. now rewrite E.
Qed.
Lemma aud_ok hevc us : Forall chunk_ok (if negb hevc && negb (existsb is_delimiter (firstn 5 us)) then [[0; 0; 0; 1; 9; 0xF0]] else []).
Proof. destruct (negb hevc && _); constructor; [split; [now apply all_bytes_ok|reflexivity]|constructor]. Qed.

Lemma video_chunks_ok hevc key init sets us t off bps : init_for hevc init sets -> Forall unit_in us -> Forall bytesP sets ->
  len (length_prefixed us) + len (started sets) + 6 < 2 ^ 31 -> 0 <= t -> 0 <= off -> 90 * (t + off) < 2 ^ 64 ->
  exists cs, video_chunks hevc key init (90 * t) off bps (length_prefixed us) = Ok cs /\ Forall chunk_ok cs /\
  concat cs = pes 0xE0 (bounded_pes (payload_of hevc key sets us)) true (90 * t + 90 * off) (if off =? 0 then None else Some (90 * t)) (rate_bytes bps) (payload_of hevc key sets us).
Proof.
  intros I F BS L T O M. destruct (init_gives _ _ _ I) as [I1 I2]. unfold video_chunks.
  pose proof (len_nonneg (length_prefixed us)). pose proof (len_nonneg (started sets)).
  assert (LK : (if hevc then Ok (true, true) else look 5 (length_prefixed us) 0 true true) =
    Ok (hevc || negb (existsb is_set (firstn 5 us)), hevc || negb (existsb is_delimiter (firstn 5 us)))).
  { destruct hevc; [reflexivity|]. pose proof (look_ok us 5 [] true true F) as E. cbn [app] in E. change (len (@nil Z)) with 0 in E. rewrite E by lia. reflexivity. }
  rewrite LK. cbv iota beta; cbn [fst snd].
  assert (SE : (if key && (hevc || negb (existsb is_set (firstn 5 us))) then x <~ (if hevc then hvccInit init else avccInit init);; Ok [x] else Ok []) =
    Ok (if key && (hevc || negb (existsb is_set (firstn 5 us))) then [started sets] else [])) by (rewrite I1; now destruct (key && _)).
  rewrite SE. clear SE. cbv iota beta. rewrite I2.
  assert (AU : negb hevc && (hevc || negb (existsb is_delimiter (firstn 5 us))) = negb hevc && negb (existsb is_delimiter (firstn 5 us))) by now destruct hevc.
  rewrite AU. clear AU.
  destruct (nal_chunks_ok us (S (List.length (length_prefixed us))) [] F) as (cs & EC & CC & CO); [change (len (@nil Z)) with 0; lia|pose proof (lp_count us); lia|].
  cbn [app] in EC. change (len (@nil Z)) with 0 in EC. rewrite EC. cbv iota beta.
  pose proof (sent_len hevc key sets us) as SL. pose proof (concat_sent hevc key sets us cs CC) as SC. pose proof (aud_ok hevc us) as AO.
  set (aud := if negb hevc && negb (existsb is_delimiter (firstn 5 us)) then [[0; 0; 0; 1; 9; 0xF0]] else []) in *.
  set (st := if key && (hevc || negb (existsb is_set (firstn 5 us))) then [started sets] else []) in *.
  assert (LA : 0 <= len (concat aud) <= 6) by (clear; subst aud; destruct (negb hevc && negb (existsb is_delimiter (firstn 5 us))); split; vm_compute; discriminate).
  assert (LS : 0 <= len (concat st) <= len (started sets)) by (unfold st; destruct (key && _); cbn [concat]; rewrite ?app_nil_r; change (len (@nil Z)) with 0; lia).
  assert (EU : u32 (len (concat aud) + len (concat st)) = len (concat aud) + len (concat st)) by (unfold u32; apply Z.mod_small; lia). rewrite EU. clear EU.
  assert (EO : u64 (off * 90) = 90 * off) by (unfold u64; rewrite Z.mod_small by lia; lia). rewrite EO.
  set (P := payload_of hevc key sets us) in *. pose proof (len_nonneg P). pose proof (lp_len us) as LL.
  assert (EB : (if MAX_PES_SIZE <? len (length_prefixed us) + (len (concat aud) + len (concat st)) then 0 else len (length_prefixed us) + (len (concat aud) + len (concat st))) =
    if bounded_pes P then len P else 0).
  { replace (len (length_prefixed us) + (len (concat aud) + len (concat st))) with (len P) by lia. unfold bounded_pes, MAX_PES_SIZE. destruct (Z.ltb_spec (65490 - 13) (len P)), (Z.ltb_spec 0 (len P)), (Z.leb_spec (len P) 65477); cbn [andb]; lia. }
  rewrite EB.
  assert (VP : getPESVideoLeadIn (if bounded_pes P then len P else 0) (90 * t) (90 * off) true bps ++ P = pes 0xE0 (bounded_pes P) true (90 * t + 90 * off) (if 90 * off =? 0 then None else Some (90 * t)) (rate_bytes bps) P).
  { apply video_pes; try lia; unfold bounded_pes; lia. }
  assert (EZ : (90 * off =? 0) = (off =? 0)) by (destruct (Z.eqb_spec off 0), (Z.eqb_spec (90 * off) 0); reflexivity || lia).
  eexists. split; [reflexivity|]. split.
  - constructor.
    + apply (leadin_bytes _ _ _ _ _ P); [|lia|lia]. rewrite VP. f_equal. unfold bounded_pes. destruct (Z.ltb_spec 0 (len P)), (len P <=? 65477); cbn [andb]; try reflexivity; symmetry; apply Z.ltb_lt; assumption.
    + apply Forall_app. split; [exact AO|]. apply Forall_app. split; [|exact CO].
      unfold st. destruct (key && _); constructor; [|constructor]. split; [|lia]. clear - BS. induction BS as [|u l B _ IH]; [constructor|]. unfold started. cbn [flat_map]. apply Forall_app. split; [|exact IH].
      apply Forall_app. split; [now apply all_bytes_ok|exact B].
  - rewrite <- EZ, <- VP. cbn [concat]. f_equal. exact SC.
Qed.
