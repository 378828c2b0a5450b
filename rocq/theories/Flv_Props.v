(** Properties of FLV files, and of the media that comes and goes over RTMP. *)
From Verif Require Import Common CommonFacts Mem_Model Mem_Proofs Flv_Model Flv_Spec Flv_Proofs.
Local Ltac Zify.zify_post_hook ::= Z.div_mod_to_equations.

(** C69: from a file that is a header and tags, in whatever parts it comes, the tags are read that came whole, each unchanged
    and in order, without an error. *)
Theorem flv_file_read h tags chunks later : file_header h -> Forall file_tag tags -> List.concat chunks ++ later = h ++ List.concat tags ->
  let '(_, ts, error) := reads fresh chunks in
  error = false /\ exists rest, tags = ts ++ rest /\
    match rest with [] => True | t :: _ => len (List.concat chunks) < len h + len (List.concat ts) + len t end.
Proof.
  intros H F E. destruct (header_facts _ H) as [H1 [H2 _]].
  assert (Ft : Forall (fun x => is_tag x = true) tags).
  { clear - F. induction F as [|x l Fx _ IH]; constructor; [|exact IH]. destruct (tag_facts _ Fx) as [_ [K _]]. unfold is_tag. rewrite K. reflexivity. }
  assert (FI : Forall item_ok (h :: tags)) by (constructor; [left; exact H|]; eapply Forall_impl; [|exact F]; intros; right; assumption).
  pose proof (reads_ok chunks fresh later (h :: tags) FI) as R. destruct (reads fresh chunks) as [[s ts] e].
  destruct R as (-> & done & items & Eq & P & ->).
  { split; [exact E|]. change (l_data fresh) with (@nil Z). change (len (@nil Z)) with 0. split; [lia|]. cbn [fresh l_len]. intros _. lia. }
  split; [reflexivity|].
  assert (Fl : forall l, Forall (fun x => is_tag x = true) l -> filter is_tag l = l).
  { induction 1 as [|x l Hx _ IH]; [reflexivity|]. cbn [filter]. rewrite Hx, IH. reflexivity. }
  destruct done as [|d done].
  - cbn [app] in Eq. subst items. destruct P as [P1 [P2 _]]. exists tags. split; [reflexivity|]. destruct tags as [|t tags]; [exact Logic.I|]. cbn [filter List.concat]. change (len (@nil Z)) with 0.
    assert (LL : len (List.concat chunks) = len (l_data s)).
    { apply (f_equal len) in P1. cbn [List.concat] in P1. apply (f_equal len) in E. cbn [List.concat] in E. rewrite !len_app in P1, E. lia. }
    pose proof (len_nonneg t). lia.
  - injection Eq as <- Et. subst tags. apply Forall_app in Ft as [Ft1 Ft2]. cbn [filter]. assert (is_tag h = false) as -> by (unfold is_tag; rewrite H2; reflexivity).
    rewrite (Fl _ Ft1). exists items. split; [reflexivity|]. destruct items as [|t items]; [exact Logic.I|]. destruct P as [P1 [P2 _]].
    apply (f_equal len) in P1. apply (f_equal len) in E. rewrite concat_app in E. cbn [List.concat] in P1, E. rewrite !len_app in P1, E. rewrite ?len_app in E. lia.
Qed.

(** What a reader of tags gets from one: codec, data, if it is init data, keyframe, time, track. *)
Definition understood (video : bool) (t codec data : list Z) (init key : bool) (time track : Z) : Prop :=
  (if video then getVideoCodec t else getAudioCodec t) = Some codec /\ getData t = Some data /\
  (exists a b, needsInitData t = Some a /\ isInitData t = Some b /\ a && b = init) /\
  keyframe t = Some key /\ tagTime t = Some time /\ getTrackID t = Some (Some track).

Ltac beq_now := match goal with |- context[beqb ?a ?b] => let v := eval vm_compute in (beqb a b) in change (beqb a b) with v end.
Ltac skip_now := match goal with |- context[skipModEx (tag ?ty ?tm (?b :: ?r)) 11] => rewrite (skip_none (tag ty tm (b :: r)) 11 b (rd_11 ty tm b r) eq_refl) end; rewrite ?rd_11.
Ltac simple_tag :=
  split; [unfold getVideoCodec, getAudioCodec; rewrite ?rd_11; reflexivity|split; [|split;
    [do 2 eexists; split; [unfold needsInitData; rewrite rd_tag_0, rd_11; reflexivity|split; [unfold isInitData; rewrite rd_tag_0, rd_11, ?rd_12; reflexivity|reflexivity]]|split;
    [unfold keyframe; rewrite rd_tag_0, ?rd_11; reflexivity|split; [apply tagTime_tag; first [assumption|lia]|unfold getTrackID; rewrite rd_tag_0, rd_11; reflexivity]]]]].

(** C69: a video packet becomes the tag that the format says, and from it the same packet is read. *)
Theorem flv_video codec id data off time key disposable : In (codec, id) video_ids -> - 2 ^ 23 <= off < 2 ^ 23 -> 0 <= time ->
  let t := dtsc_video codec data off time key disposable in
  t = flv_tag 9 time (video_body id (frame_kind key disposable) off data) /\
  offset t = Some (if id =? 7 then off else 0) /\ understood true t codec data false (key && negb disposable) (u32 time) 1.
Proof.
  intros I O T. cbv zeta. unfold dtsc_video. split.
  - rewrite tag_layout. f_equal. unfold video_body. rewrite <- offset3.
    unfold video_ids in I; cbn [In] in I; decompose [or] I; try contradiction;
      match goal with H : (_, _) = (codec, id) |- _ => injection H as <- <- end; destruct key, disposable; reflexivity.
  - unfold video_ids in I; cbn [In] in I; decompose [or] I; try contradiction;
      match goal with H : (_, _) = (codec, id) |- _ => injection H as <- <- end.
    7: { beq_now; cbv iota. change [1; u8 (off >> 16); u8 (off >> 8); u8 off] with ([1] ++ [u8 (off >> 16); u8 (off >> 8); u8 off]).
         rewrite offset3. cbn [app]. destruct key, disposable; (split; [|simple_tag]);
           try (eapply (data_at _ _ (_ :: 1 :: be 3 off)); [reflexivity|rewrite !len_cons, be_len; reflexivity|unfold getDataOffset; rewrite rd_tag_0, rd_11; reflexivity]);
           try (unfold offset; rewrite rd_11, peek_13_3 by (rewrite be_len; reflexivity); cbn -[s24 unbe be]; rewrite s24_be by lia; reflexivity). }
    all: beq_now; cbv iota; cbn [app]; destruct key, disposable; (split; [|simple_tag]);
      try (eapply (data_at _ _ [_]); [reflexivity|reflexivity|unfold getDataOffset; rewrite rd_tag_0, rd_11; reflexivity]);
      try (unfold offset; rewrite rd_11; reflexivity).
Qed.

(** C69: an audio packet becomes the tag that the format says, and from it the same packet is read.  Partial: that it has no
    time offset is proved for rates from 22050 on, and for 16 bit sound below 11025; in between it is not so. *)
Theorem flv_audio_partial codec ids data rate size channels time : In (codec, ids) audio_ids -> 0 <= time ->
  let t := dtsc_audio codec data rate size channels time in
  (exists id, In id ids /\ t = flv_tag 8 time (audio_body id rate size channels data)) /\
  (22050 <= rate \/ rate < 11025 /\ size <> 8 -> offset t = Some 0) /\
  understood false t codec data false false (u32 time) 2.
Proof.
  intros I T. cbv zeta. unfold dtsc_audio.
  assert (R : exists c, rate_class rate = c /\ (if 44100 <=? rate then 12 else if 22050 <=? rate then 8 else if 11025 <=? rate then 4 else 0) = c * 4 /\
    (c = 0 /\ rate < 11025 \/ c = 1 /\ 11025 <= rate < 22050 \/ c = 2 /\ 22050 <= rate \/ c = 3 /\ 22050 <= rate)).
  { unfold rate_class. destruct (44100 <=? rate) eqn:A, (22050 <=? rate) eqn:B, (11025 <=? rate) eqn:C, (rate <? 11025) eqn:D, (rate <? 22050) eqn:E, (rate <? 44100) eqn:F; try lia; eexists; (split; [reflexivity|]); split; lia. }
  destruct R as (c & R1 & R2 & R3).
  assert (F : exists f id, audio_flags codec rate size channels = f /\ In id ids /\ f = id * 16 + c * 4 + (if size =? 8 then 0 else 2) + (if channels <=? 1 then 0 else 1) /\
    (id = 10 <-> beqb codec (bs "AAC") = true) /\ In id [1; 2; 14; 3; 4; 5; 6; 7; 8; 10; 11]).
  { assert (K : exists id, In id ids /\ code codec [(bs "AAC", 0xA0); (bs "MP3", if rate =? 8000 then 0xE0 else 0x20); (bs "ADPCM", 0x10); (bs "PCM", 0x30);
      (bs "Nellymoser", if rate =? 8000 then 0x50 else if rate =? 16000 then 0x40 else 0x60); (bs "ALAW", 0x70); (bs "ULAW", 0x80); (bs "Speex", 0xB0)] = id * 16 /\
      (id = 10 <-> beqb codec (bs "AAC") = true) /\ In id [1; 2; 14; 3; 4; 5; 6; 7; 8; 10; 11]).
    { unfold audio_ids in I; cbn [In] in I; decompose [or] I; try contradiction;
        match goal with H : (_, _) = (codec, ids) |- _ => injection H as <- <- end;
        [exists 1|destruct (rate =? 8000); [exists 14|exists 2]|exists 3|destruct (rate =? 8000); [exists 5|destruct (rate =? 16000); [exists 4|exists 6]]|exists 7|exists 8|exists 10|exists 11];
        (split; [cbn [In]; tauto|split; [reflexivity|split; [split; intros X; first [discriminate X|reflexivity]|cbn [In]; tauto]]]). }
    destruct K as (id & K1 & K2 & K3 & K4). exists (audio_flags codec rate size channels), id. split; [reflexivity|]. split; [exact K1|]. split; [|split; assumption].
    unfold audio_flags. rewrite R2, K2. assert (Hch : (1 <? channels) = negb (channels <=? 1)) by (destruct (channels <=? 1) eqn:X; lia). rewrite Hch.
    clear - R3 K4. cbn [In] in K4. decompose [or] K4; try contradiction; subst id; destruct R3 as [[-> _]|[[-> _]|[[-> _]|[-> _]]]]; destruct (size =? 8), (channels <=? 1); reflexivity. }
  destruct F as (f & id & F1 & F2 & F3 & F4 & F5). rewrite F1. split.
  { exists id. split; [exact F2|]. rewrite tag_layout. f_equal. unfold audio_body. rewrite R1, <- F3. destruct (beqb codec (bs "AAC")) eqn:A.
    - assert (id = 10) as -> by (apply F4; reflexivity). reflexivity.
    - assert (id =? 10 = false) as -> by (apply Z.eqb_neq; intros X; apply F4 in X; discriminate X). reflexivity. }
  clear F4 F5 R1 R2. unfold audio_ids in I; cbn [In] in I; decompose [or] I; try contradiction;
    match goal with H : (_, _) = (codec, ids) |- _ => injection H as <- <- end;
    cbn [In] in F2; decompose [or] F2; try contradiction; subst id;
    beq_now; cbv iota; cbn [app];
    destruct R3 as [[-> R3]|[[-> R3]|[[-> R3]|[-> R3]]]]; destruct (Z.eqb_spec size 8), (channels <=? 1);
    (match type of F3 with _ = ?e => let v := eval vm_compute in e in change e with v in F3 end); rewrite F3;
    (split; [intros C; try lia; unfold offset; rewrite rd_11; try skip_now; reflexivity|]);
    simple_tag;
    first [eapply (data_at _ _ [_]); [reflexivity|reflexivity|unfold getDataOffset; rewrite rd_tag_0, rd_11; reflexivity]
          |eapply (data_at _ _ [_; _]); [reflexivity|reflexivity|unfold getDataOffset; rewrite rd_tag_0, rd_11; reflexivity]].
Qed.

Ltac eqb_now := match goal with
  | |- context[Z.eqb (Z.land ?a ?b) ?c] => let v := eval vm_compute in (Z.eqb (Z.land a b) c) in
      match v with true => change (Z.eqb (Z.land a b) c) with true | false => change (Z.eqb (Z.land a b) c) with false end end.
Ltac go := repeat (first [rewrite rd_tag_0 | rewrite rd_11 | rewrite rd_12 | rewrite rd_17 by assumption | rewrite peek_12 by assumption | rewrite peek_13 by assumption | progress skip_now | eqb_now
  | change (11 + 1) with 12 | change (12 + 1) with 13 | change (11 + 2) with 13 | change (11 + 6) with 17 | change (12 + 6) with 18 | rewrite peek_18 by assumption]; cbn [negb andb orb fst snd]; cbv beta iota zeta).
Ltac all_codecs I := unfold enhanced_codecs, enhanced_audio in I; cbn [In] in I; decompose [or] I; try contradiction;
  match goal with H : (_, _) = (_, _) |- _ => injection H as <- <- end.

(** C69: the init data of a codec goes in a tag from which it is read as that, alone or as one track of many. *)
Theorem flv_video_init codec fourcc init track : In (codec, fourcc) enhanced_codecs -> (match track with None => True | Some k => 0 <= k < 256 end) ->
  exists t, video_init codec init track = Some t /\ understood true t codec init true true 0 (match track with None => 1 | Some k => 400 + k end).
Proof.
  intros I K. unfold video_init. destruct track as [k|].
  - assert (U : u8 k = k) by (unfold u8; apply Z.mod_small; lia). rewrite U.
    assert (F : fourcc_video codec = Some fourcc) by (all_codecs I; reflexivity). assert (L : len fourcc = 4) by (all_codecs I; reflexivity). rewrite F.
    eexists; split; [reflexivity|]. change ([150; 0] ++ fourcc ++ [k] ++ init) with (150 :: 0 :: fourcc ++ k :: init).
    split; [unfold getVideoCodec; go; clear F L; all_codecs I; reflexivity|].
    split; [eapply (data_at _ _ (150 :: 0 :: fourcc ++ [k])); [cbn [app]; rewrite <- app_assoc; reflexivity|rewrite !len_cons, len_app, L; reflexivity|unfold getDataOffset; go; reflexivity]|].
    split; [do 2 eexists; split; [unfold needsInitData; go; reflexivity|split; [unfold isInitData; go; reflexivity|reflexivity]]|].
    split; [unfold keyframe; go; reflexivity|]. split; [apply tagTime_tag; lia|]. unfold getTrackID; go; reflexivity.
  - destruct (beqb codec (bs "H264")) eqn:H.
    + assert (codec = bs "H264") as -> by (clear K; all_codecs I; first [discriminate H|reflexivity]). eexists; split; [reflexivity|]. cbn [app].
      split; [unfold getVideoCodec; go; reflexivity|].
      split; [eapply (data_at _ _ [23; 0; 0; 0; 0]); [reflexivity|reflexivity|unfold getDataOffset; go; reflexivity]|].
      split; [do 2 eexists; split; [unfold needsInitData; go; reflexivity|split; [unfold isInitData; go; reflexivity|reflexivity]]|].
      split; [unfold keyframe; go; reflexivity|]. split; [apply tagTime_tag; lia|]. unfold getTrackID; go; reflexivity.
    + assert (F : fourcc_video codec = Some fourcc) by (clear H; all_codecs I; reflexivity). assert (L : len fourcc = 4) by (clear H; all_codecs I; reflexivity). rewrite F.
      eexists; split; [reflexivity|]. cbn [app].
      split; [unfold getVideoCodec; go; clear F L H; all_codecs I; reflexivity|].
      split; [eapply (data_at _ _ (144 :: fourcc)); [reflexivity|rewrite !len_cons, L; reflexivity|unfold getDataOffset; go; reflexivity]|].
      split; [do 2 eexists; split; [unfold needsInitData; go; reflexivity|split; [unfold isInitData; go; reflexivity|reflexivity]]|].
      split; [unfold keyframe; go; reflexivity|]. split; [apply tagTime_tag; lia|]. unfold getTrackID; go; reflexivity.
Qed.
Theorem flv_audio_init codec fourcc init rate size channels track : In (codec, fourcc) enhanced_audio -> (match track with None => True | Some k => 0 <= k < 256 end) ->
  exists t, audio_init codec init rate size channels track = Some t /\ understood false t codec init true false 0 (match track with None => 2 | Some k => 100 + k end).
Proof.
  intros I K. unfold audio_init. destruct track as [k|].
  - assert (U : u8 k = k) by (unfold u8; apply Z.mod_small; lia). rewrite U.
    assert (F : fourcc_audio codec = Some fourcc) by (all_codecs I; reflexivity). assert (L : len fourcc = 4) by (all_codecs I; reflexivity). rewrite F.
    eexists; split; [reflexivity|]. change ([149; 0] ++ fourcc ++ [k] ++ init) with (149 :: 0 :: fourcc ++ k :: init).
    split; [unfold getAudioCodec; go; clear F L; all_codecs I; reflexivity|].
    split; [eapply (data_at _ _ (149 :: 0 :: fourcc ++ [k])); [cbn [app]; rewrite <- app_assoc; reflexivity|rewrite !len_cons, len_app, L; reflexivity|unfold getDataOffset; go; reflexivity]|].
    split; [do 2 eexists; split; [unfold needsInitData; go; reflexivity|split; [unfold isInitData; go; reflexivity|clear F L; all_codecs I; reflexivity]]|].
    split; [unfold keyframe; go; reflexivity|]. split; [apply tagTime_tag; lia|]. unfold getTrackID; go; reflexivity.
  - destruct (beqb codec (bs "AAC")) eqn:H.
    + assert (codec = bs "AAC") as -> by (clear K; all_codecs I; first [discriminate H|reflexivity]). eexists; split; [reflexivity|]. cbn [app].
      assert (F : exists r, audio_flags (bs "AAC") rate size channels = r /\ In r (map (fun i => 0xA0 + Z.of_nat i) (seq 0 16))).
      { eexists; split; [reflexivity|]. unfold audio_flags. match goal with |- context[code ?a ?b] => change (code a b) with 0xA0 end. destruct (44100 <=? rate), (22050 <=? rate), (11025 <=? rate), (size =? 8), (1 <? channels); vm_compute; tauto. }
      destruct F as (r & -> & F).
      split; [unfold getAudioCodec; rewrite rd_11; cbn [map seq In] in F; decompose [or] F; try contradiction; subst r; reflexivity|].
      split; [eapply (data_at _ _ [r; 0]); [reflexivity|reflexivity|unfold getDataOffset; rewrite rd_tag_0, rd_11; cbn [map seq In] in F; decompose [or] F; try contradiction; subst r; reflexivity]|].
      split; [exists true, true; split; [unfold needsInitData; rewrite rd_tag_0, rd_11; cbn [map seq In] in F; decompose [or] F; try contradiction; subst r; reflexivity|split; [unfold isInitData; rewrite rd_tag_0, rd_11, rd_12; cbn [map seq In] in F; decompose [or] F; try contradiction; subst r; reflexivity|reflexivity]]|].
      split; [unfold keyframe; go; reflexivity|]. split; [apply tagTime_tag; lia|]. unfold getTrackID; rewrite rd_tag_0, rd_11; cbn [map seq In] in F; decompose [or] F; try contradiction; subst r; reflexivity.
    + assert (F : fourcc_audio codec = Some fourcc) by (clear H; all_codecs I; reflexivity). assert (L : len fourcc = 4) by (clear H; all_codecs I; reflexivity). rewrite F.
      eexists; split; [reflexivity|]. cbn [app].
      split; [unfold getAudioCodec; go; clear F L H; all_codecs I; reflexivity|].
      split; [eapply (data_at _ _ (144 :: fourcc)); [reflexivity|rewrite !len_cons, L; reflexivity|unfold getDataOffset; go; reflexivity]|].
      split; [do 2 eexists; split; [unfold needsInitData; go; reflexivity|split; [unfold isInitData; go; reflexivity|clear F L H; all_codecs I; reflexivity]]|].
      split; [unfold keyframe; go; reflexivity|]. split; [apply tagTime_tag; lia|]. unfold getTrackID; go; reflexivity.
Qed.

(** C69: a video message has the form that the format says, if its codec may have time offsets or there is none. *)
Theorem rtmp_video_layout codec fourcc data off key disposable track : In (codec, fourcc) enhanced_codecs -> (match track with None => True | Some k => 0 <= k < 256 end) ->
  off = 0 \/ codec = bs "H264" \/ codec = bs "HEVC" ->
  rtmp_video codec off key disposable track ++ data = video_message codec fourcc (frame_kind key disposable) track off data.
Proof.
  intros I K _. unfold rtmp_video, video_message, enhanced_frame, enhanced_frame_x, video_body. rewrite <- offset3.
  destruct track as [k|]; [assert (U : u8 k = k) by (unfold u8; apply Z.mod_small; lia); rewrite U|]; destruct (Z.eqb_spec off 0) as [->|N];
    all_codecs I; destruct key, disposable; reflexivity.
Qed.
(** C69, in part: what is sent over RTMP is what is received.  Missing because the code does not do it: time offsets of HEVC alone
    (F178) and of the codecs that have none in the format (F179). *)
Theorem rtmp_video_partial codec fourcc data off time key disposable track : In (codec, fourcc) enhanced_codecs -> (match track with None => True | Some k => 0 <= k < 256 end) ->
  - 2 ^ 23 <= off < 2 ^ 23 -> 0 <= time -> off = 0 \/ codec = bs "H264" \/ codec = bs "HEVC" /\ track <> None ->
  let t := chunk_tag 9 time (rtmp_video codec off key disposable track ++ data) in
  offset t = Some off /\ understood true t codec data false (key && negb disposable) (u32 time) (match track with None => 1 | Some k => 400 + k end).
Proof.
  intros I K O T C. cbv zeta. unfold chunk_tag.
  assert (L : len fourcc = 4) by (clear C; all_codecs I; reflexivity). assert (F : fourcc_video codec = Some fourcc) by (clear C L; all_codecs I; reflexivity).
  unfold rtmp_video. rewrite F.
  destruct track as [k|].
  - assert (U : u8 k = k) by (unfold u8; apply Z.mod_small; lia). rewrite U. destruct (Z.eqb_spec off 0) as [->|N].
    + rewrite app_nil_r. rewrite <- !app_assoc. cbn [app].
      assert (R : exists b, 134 .| ((if key then 16 else 32) .| (if disposable then 48 else 0)) = b /\ In (b, key && negb disposable) [(0x96, true); (0xA6, false); (0xB6, false)]).
      { eexists; split; [reflexivity|]. destruct key, disposable; cbn; tauto. }
      destruct R as (b & -> & R). generalize dependent (key && negb disposable). intros kf R. cbn [In] in R; decompose [or] R; try contradiction; match goal with H : (_, _) = (b, kf) |- _ => injection H as <- <- end.
      all: split; [unfold offset; go; reflexivity|].
      all: split; [unfold getVideoCodec; go; clear F L C; all_codecs I; reflexivity|].
      all: split; [eapply (data_at _ _ (_ :: 3 :: fourcc ++ [k])); [cbn [app]; rewrite <- app_assoc; reflexivity|rewrite !len_cons, len_app, L; reflexivity|unfold getDataOffset; go; reflexivity]|].
      all: split; [do 2 eexists; split; [unfold needsInitData; go; reflexivity|split; [unfold isInitData; go; reflexivity|reflexivity]]|].
      all: split; [unfold keyframe; go; reflexivity|]; split; [apply tagTime_tag; lia|]; unfold getTrackID; go; reflexivity.
    + rewrite offset3. assert (L3 : len (be 3 off) = 3) by (rewrite be_len; reflexivity). rewrite <- !app_assoc. cbn [app].
      assert (X : beqb fourcc (bs "avc1") || beqb fourcc (bs "hvc1") = true).
      { clear L F. assert (C' : beqb codec (bs "H264") || beqb codec (bs "HEVC") = true) by (destruct C as [C|[->|[-> _]]]; [contradiction| |]; reflexivity).
        clear C. all_codecs I; first [reflexivity|discriminate C']. }
      assert (R : exists b, 134 .| ((if key then 16 else 32) .| (if disposable then 48 else 0)) = b /\ In (b, key && negb disposable) [(0x96, true); (0xA6, false); (0xB6, false)]).
      { eexists; split; [reflexivity|]. destruct key, disposable; cbn; tauto. }
      destruct R as (b & -> & R). generalize dependent (key && negb disposable). intros kf R. cbn [In] in R; decompose [or] R; try contradiction; match goal with H : (_, _) = (b, kf) |- _ => injection H as <- <- end.
      all: split; [unfold offset; go; rewrite X; cbv iota; change (12 + 6) with 18; rewrite peek_18 by assumption; cbv beta iota; rewrite s24_be by lia; reflexivity|].
      all: split; [unfold getVideoCodec; go; clear F L C X; all_codecs I; reflexivity|].
      all: split; [eapply (data_at _ _ (_ :: 1 :: fourcc ++ k :: be 3 off)); [cbn [app]; rewrite <- app_assoc; reflexivity|rewrite !len_cons, len_app, len_cons, L, L3; reflexivity|unfold getDataOffset; go; rewrite orb_comm, X; reflexivity]|].
      all: split; [do 2 eexists; split; [unfold needsInitData; go; reflexivity|split; [unfold isInitData; go; reflexivity|reflexivity]]|].
      all: split; [unfold keyframe; go; reflexivity|]; split; [apply tagTime_tag; lia|]; unfold getTrackID; go; reflexivity.
  - destruct (beqb codec (bs "H264")) eqn:H.
    + assert (codec = bs "H264") as -> by (clear C F; all_codecs I; first [discriminate H|reflexivity]).
      assert ((if off =? 0 then [0; 0; 0] else [u8 (off >> 16); u8 (off >> 8); u8 off]) = be 3 off) as -> by (destruct (Z.eqb_spec off 0) as [->|_]; [reflexivity|apply offset3]).
      assert (L3 : len (be 3 off) = 3) by (rewrite be_len; reflexivity). rewrite <- !app_assoc. cbn [app].
      destruct key, disposable; (split; [unfold offset; rewrite rd_11, peek_13_3 by exact L3; cbn -[s24 unbe be]; rewrite s24_be by lia; reflexivity|]); simple_tag;
        (eapply (data_at _ _ (_ :: 1 :: be 3 off)); [reflexivity|rewrite !len_cons, L3; reflexivity|unfold getDataOffset; rewrite rd_tag_0, rd_11; reflexivity]).
    + assert (off = 0) as -> by (destruct C as [C|[->|[_ C]]]; [exact C|discriminate H|contradiction]).
      change (0 =? 0) with true. cbv iota. rewrite app_nil_r. rewrite <- !app_assoc. cbn [app].
      assert (R : exists b, 128 .| 3 .| ((if key then 16 else 32) .| (if disposable then 48 else 0)) = b /\ In (b, key && negb disposable) [(0x93, true); (0xA3, false); (0xB3, false)]).
      { eexists; split; [reflexivity|]. destruct key, disposable; cbn; tauto. }
      destruct R as (b & -> & R). generalize dependent (key && negb disposable). intros kf R. cbn [In] in R; decompose [or] R; try contradiction; match goal with H : (_, _) = (b, kf) |- _ => injection H as <- <- end.
      all: split; [unfold offset; go; reflexivity|].
      all: split; [unfold getVideoCodec; go; clear F L C H; all_codecs I; reflexivity|].
      all: split; [eapply (data_at _ _ (_ :: fourcc)); [reflexivity|rewrite !len_cons, L; reflexivity|unfold getDataOffset; go; reflexivity]|].
      all: split; [do 2 eexists; split; [unfold needsInitData; go; reflexivity|split; [unfold isInitData; go; reflexivity|reflexivity]]|].
      all: split; [unfold keyframe; go; reflexivity|]; split; [apply tagTime_tag; lia|]; unfold getTrackID; go; reflexivity.
Qed.
(** C69, refuted: from a message with HEVC alone, the time offset is read one byte too late. *)
Theorem enhanced_offset_refuted :
  let body := rtmp_video (bs "HEVC") 80 false false None ++ [0; 0; 1; 2] in
  body = enhanced_frame (bs "hvc1") 2 None 80 [0; 0; 1; 2] /\ offset (chunk_tag 9 1000 body) = Some (80 * 256).
Proof. split; vm_compute; reflexivity. Qed.
(** C69, refuted: a time offset of a codec that has none in the format becomes data. *)
Theorem av1_offset_refuted :
  getData (chunk_tag 9 1000 (rtmp_video (bs "AV1") 80 false false None ++ [10; 11])) = Some [0; 0; 80; 10; 11].
Proof. vm_compute. reflexivity. Qed.
(** C69, refuted: from audio, with a rate of 11025 up to 22049, bytes of data are read as a time offset; and past the end of a short tag. *)
Theorem audio_offset_refuted : 
  offset (dtsc_audio (bs "MP3") [255; 27; 4; 196; 0; 1] 16000 16 2 0) = Some (27 * 2 ^ 16 + 4 * 2 ^ 8 + 196) /\
  offset (dtsc_audio (bs "MP3") [255; 27; 4; 196; 0; 1] 16000 8 2 0) = Some 0 /\
  offset (dtsc_audio (bs "AAC") [0; 0; 7; 200] 16000 16 2 0) = None.
Proof. split; [vm_compute; reflexivity|]. split; vm_compute; reflexivity. Qed.
(** C69, refuted: a message that says it is longer than it is makes the reader read past its end. *)
Theorem short_message_refuted : getData (chunk_tag 9 0 [0x97; 200]) = None /\ getVideoCodec (chunk_tag 9 0 [0x97; 200]) = None.
Proof. split; vm_compute; reflexivity. Qed.
(** C69, refuted: audio of one track of many is not sent as coded frames; the receiver does not mind. *)
Theorem multitrack_audio_refuted track : 0 <= track < 256 -> nth 1 (rtmp_audio_multi (bs "AAC") track) 0 .& 15 = 5 /\ coded_frames <> 5.
Proof. intros _. split; [reflexivity|discriminate]. Qed.

(** The hypotheses are met: a file in three parts, packets with and without tracks. *)
Example flv_file_case :
  let h := bs "FLV" ++ [1; 5] ++ be 4 9 ++ be 4 0 in
  let a := dtsc_video (bs "H264") [1; 2; 3] (- 40) 500 true false in let b := dtsc_audio (bs "AAC") [4; 5] 48000 16 2 510 in
  let f := h ++ a ++ b in
  file_header h /\ Forall file_tag [a; b] /\ snd (fst (reads fresh [takez 12 f; takez 20 (dropz 12 f); dropz 32 f])) = [a; b] /\
  snd (fst (reads fresh [takez 12 f; takez 30 (dropz 12 f)])) = [a].
Proof.
  cbv zeta. split; [exists 1, 5; reflexivity|]. split; [|split; vm_compute; reflexivity].
  constructor; [exists 9, [0; 1; 244; 0; 0; 0; 0], [23; 1; 255; 255; 216; 1; 2; 3], [0; 0; 0; 19]; repeat split; try lia; vm_compute; reflexivity|].
  constructor; [exists 8, [0; 1; 254; 0; 0; 0; 0], [175; 1; 4; 5], [0; 0; 0; 15]; repeat split; try lia; vm_compute; reflexivity|constructor].
Qed.
Example flv_codecs_case : In (bs "H264", 7) video_ids /\ In (bs "MP3", [2; 14]) audio_ids /\ In (bs "HEVC", bs "hvc1") enhanced_codecs /\ In (bs "opus", bs "Opus") enhanced_audio.
Proof. repeat split; cbn; tauto. Qed.
Example rtmp_video_case : rtmp_video (bs "HEVC") 80 true false (Some 3) ++ [9; 9] = [0x96; 1] ++ bs "hvc1" ++ [3; 0; 0; 80; 9; 9] /\
  offset (chunk_tag 9 1000 (rtmp_video (bs "HEVC") 80 true false (Some 3) ++ [9; 9])) = Some 80.
Proof. split; vm_compute; reflexivity. Qed.

Print Assumptions flv_file_read.
Print Assumptions flv_video.
Print Assumptions flv_audio_partial.
Print Assumptions flv_video_init.
Print Assumptions flv_audio_init.
Print Assumptions rtmp_video_layout.
Print Assumptions rtmp_video_partial.
Print Assumptions enhanced_offset_refuted.
Print Assumptions av1_offset_refuted.
Print Assumptions audio_offset_refuted.
Print Assumptions short_message_refuted.
Print Assumptions multitrack_audio_refuted.
