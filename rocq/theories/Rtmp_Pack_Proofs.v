(** The senders produce well sent chunk streams. *)
From Verif Require Import Common CommonFacts CommonMore Bitfields_Model Bitfields_Proofs Rtmp_Model Rtmp_Spec Rtmp_Proofs Rtmp_Stream_Proofs.
Import List.

Lemma basic_ok : forall fmt id, 0 <= fmt <= 3 -> 2 <= id <= 65599 -> is_basic fmt id (basic (fmt * 64) id).
Proof.
  intros fmt id Hf Hid. unfold basic.
  destruct (Z.leb_spec id 63).
  - change 64 with (2 ^ 6). rewrite lor_add by lia. rewrite u8_id by (unfold byteP; lia). change (2 ^ 6) with 64. apply b_one. lia.
  - destruct (Z.leb_spec id (255 + 64)).
    + rewrite Z.lor_0_r. rewrite !u8_id by (unfold byteP; lia). apply b_two. lia.
    + change 64 with (2 ^ 6) at 1. rewrite lor_add by lia. rewrite !u8_id by (unfold byteP; lia).
      change (2 ^ 6) with 64. apply b_three. lia.
Qed.
Lemma basic_more_ok : forall id, 2 <= id <= 65599 -> is_basic 3 id (basic_more id).
Proof.
  intros id Hid. replace (basic_more id) with (basic (3 * 64) id); [apply basic_ok; lia|].
  unfold basic, basic_more. destruct (Z.leb_spec id 63).
  - change (3 * 64) with (3 * 2 ^ 6). rewrite lor_add by lia. reflexivity.
  - reflexivity.
Qed.
Lemma out24_be : forall v, 0 <= v -> out24 v = be 3 v.
Proof.
  intros v Hv. rewrite be3. unfold out24. rewrite !shr_div by lia. rewrite !land_255. reflexivity.
Qed.
Lemma out32_be : forall v, 0 <= v -> out32 v = be 4 v.
Proof.
  intros v Hv. rewrite be4. unfold out32. rewrite !shr_div by lia. rewrite !land_255. reflexivity.
Qed.

(** The chunks of one message, all of size [n]. *)
Inductive whole (n : Z) (m : msg) : list wire -> Prop :=
| wh_last b : whole n m [mkw n b (Some m)]
| wh_more b l : whole n m l -> whole n m (mkw n b None :: l).
Definition flat (l : list wire) : list Z := List.concat (map w_bytes l).
Lemma pack_data_ok : forall m ext n fuel d,
  0 < n -> 2 <= m_cs m <= 65599 -> (List.length d <= fuel)%nat ->
  exists w, rest_of m ext (dropz n d) w /\
    pack_data fuel n (m_cs m) ext d = Some (takez n d ++ flat w) /\
    forall b, whole n m (mkw n b (completes n d m) :: w).
Proof.
  intros m ext n fuel d Hn Hid. revert d.
  assert (Hnil : forall f, exists w, rest_of m ext (dropz n []) w /\
    pack_data f n (m_cs m) ext [] = Some (takez n [] ++ flat w) /\ forall b, whole n m (mkw n b (completes n [] m) :: w)).
  { intros f. exists []. unfold dropz, takez. rewrite firstn_nil, skipn_nil. unfold completes. lnil. replace (0 <=? n) with true by lia.
    split; [constructor|]. split; [destruct f; reflexivity|]. intros b. constructor. }
  induction fuel as [|k IH]; intros d Hf.
  - destruct d; [apply Hnil|cbn in Hf; lia].
  - destruct (Z.eq_dec (len d) 0) as [E|E]; [apply len_zero in E; subst d; apply Hnil|].
    pose proof (len_nonneg d) as Hd0. cbn [pack_data]. replace (len d =? 0) with false by lia.
      unfold completes. destruct (Z.leb_spec (len d) n) as [Hl|Hl].
      * replace (n <? len d) with false by lia. cbv zeta. exists [].
        rewrite (dropz_all n d) by lia. rewrite (dropz_all (len d) d) by lia. rewrite !takez_all by lia.
        replace (pack_data k n (m_cs m) ext []) with (Some (@nil Z)) by (destruct k; reflexivity).
        split; [constructor|]. split; [reflexivity|]. intros b. constructor.
      * replace (n <? len d) with true by lia. cbv zeta.
        assert (Hdl : len (dropz n d) = len d - n) by (rewrite len_dropz; lia).
        destruct (IH (dropz n d)) as (w & R1 & R2 & R3).
        { unfold len in Hdl, Hl. lia. }
        rewrite R2. replace (0 <? len (dropz n d)) with true by lia.
        exists (mkw n (basic_more (m_cs m) ++ ext ++ takez n (dropz n d)) (completes n (dropz n d) m) :: w).
        split; [|split].
        -- constructor; try assumption; [|apply basic_more_ok; exact Hid]. intros X. rewrite X in Hdl. revert Hdl. lnil. lia.
        -- unfold flat. cbn [map List.concat w_bytes]. rewrite <- !app_assoc. reflexivity.
        -- intros b. constructor. apply R3.
Qed.
Lemma whole_resize : forall n n' m d ext w h fmt dl x hb b,
  len d <= n -> len d <= n' -> 0 < n -> 0 < n' -> d = m_data m ->
  m_cs m = m_cs m -> True -> rest_of m ext (dropz n d) w -> header h m fmt dl x hb -> is_basic fmt (m_cs m) b ->
  w = [] /\ takez n d = takez n' d /\ completes n d m = completes n' d m /\ dropz n d = dropz n' d.
Proof.
  intros n n' m d ext w h fmt dl x hb b H1 H2 H3 H4 _ _ _ Hr _ _.
  rewrite (dropz_all n d) in * by lia. rewrite (dropz_all n' d) by lia. rewrite !takez_all by lia.
  unfold completes. replace (len d <=? n) with true by lia. replace (len d <=? n') with true by lia.
  inversion Hr; subst; [repeat split|congruence].
Qed.

(** The entry of lastsend after a message. *)
Definition sends (h : history) (prev : option chunk) : Prop :=
  match prev with
  | None => True
  | Some c => exists p d x, h = Some (p, d, x) /\ valid_msg p /\ cs c = m_cs p /\ ts c = m_ts p /\ delta c = d /\
      (tsh c = 0xffffff <-> x = true) /\ (x = true -> 0xffffff <= d) /\ 0 <= d < 2 ^ 32 /\
      mlen c = len (m_data p) /\ mtype c = m_type p /\ msid c = m_sid p
  end.
(** One message sent with chunk size [n], where the receiver's is [size]. *)
Definition sent_as (size : Z) (h h' : history) (m : msg) (bytes : list Z) : Prop :=
  exists w, flat w = bytes /\ whole size m w /\ forall w2, channel (m_cs m) h' w2 -> channel (m_cs m) h (w ++ w2).
Lemma sent_header : forall n size h m fmt d x hb b body,
  valid_msg m -> header h m fmt d x hb -> is_basic fmt (m_cs m) b -> 0 < n -> 0 < size ->
  n = size \/ len (m_data m) <= Z.min n size ->
  pack_data (List.length (m_data m)) n (m_cs m) (if x then ext_bytes m else []) (m_data m) = Some body ->
  sent_as size h (Some (m, d, x)) m (b ++ hb ++ body).
Proof.
  intros n size h m fmt d x hb b body Hv Hh Hb Hn Hs Hsz Hp.
  pose proof Hv as (Hcs & _).
  destruct (pack_data_ok m (if x then ext_bytes m else []) n (List.length (m_data m)) (m_data m) Hn Hcs (Nat.le_refl _)) as (w & R1 & R2 & R3).
  rewrite Hp in R2. injection R2 as ->.
  assert (Hc : rest_of m (if x then ext_bytes m else []) (dropz size (m_data m)) w /\ takez n (m_data m) = takez size (m_data m) /\
     forall b, whole size m (mkw size b (completes size (m_data m) m) :: w)).
  { destruct Hsz as [<- |Hsz]; [repeat split; assumption|].
    destruct (whole_resize n size m (m_data m) (if x then ext_bytes m else []) w h fmt d x hb b) as (X1 & X2 & X3 & X4); try assumption; try lia; try reflexivity.
    subst w. rewrite <- X4. split; [exact R1|]. split; [exact X2|]. intros b0. unfold completes.
    replace (len (m_data m) <=? size) with true by lia. constructor. }
  destruct Hc as (C1 & C2 & C3). rewrite C2.
  exists (mkw size (b ++ hb ++ takez size (m_data m)) (completes size (m_data m) m) :: w).
  split; [|split].
  - unfold flat. cbn [map List.concat w_bytes]. rewrite <- !app_assoc. reflexivity.
  - apply C3.
  - intros w2 Hw2. cbn [app]. econstructor; try eassumption. reflexivity.
Qed.
Lemma pack_one_ok : forall n size erase h prev m,
  valid_msg m -> sends h prev -> 0 < n -> 0 < size -> n = size \/ len (m_data m) <= Z.min n size ->
  (erase = false -> match h with Some (p, _, _) => m_cs p = m_cs m /\ m_ts m - m_ts p < 0xffffff | None => True end) ->
  exists bytes prev' h', pack_one prev (to_out n erase m) = Some (bytes, prev') /\ sends h' (Some prev') /\
    (exists d x, h' = Some (m, d, x)) /\ sent_as size h h' m bytes.
Proof.
  intros n size erase h prev m Hv Hse Hn Hs Hsz Hj.
  pose proof Hv as (Hcs & Hts & Hty & Hsid & Hlen & _). pose proof (len_nonneg (m_data m)) as Hl0.
  unfold pack_one, to_out. cbn [o_cs o_ts o_type o_sid o_data o_size o_erase].
  rewrite (u32_id (len (m_data m))) by lia.
  set (dd := match prev with Some p => delta p | None => 0 end).
  set (prev1 := if erase then None else prev).
  set (c := mkch _ _ _ _ _ _ _ _ _).
  assert (Hpd : forall ext, exists body, pack_data (List.length (m_data m)) n (m_cs m) ext (m_data m) = Some body).
  { intros ext. destruct (pack_data_ok m ext n (List.length (m_data m)) (m_data m) Hn Hcs (Nat.le_refl _)) as (w & _ & R2 & _). eexists. exact R2. }
  (* a full header is always fine *)
  assert (Hfull : chtype_of prev1 c = 0 -> exists bytes prev' h', pack n prev1 c = Some (bytes, prev') /\ sends h' (Some prev') /\
    (exists d x, h' = Some (m, d, x)) /\ sent_as size h h' m bytes).
  { intros Ht. unfold pack. rewrite Ht. change (0 =? 0xC0) with false. change (0 =? 0x80) with false. change (0 =? 0x40) with false. change (0 =? 0) with true.
    cbn [negb]. cbv iota zeta. unfold c at 1 2 3 4 5 6 7 8 9 10. cbn [ts mlen mtype msid cs cdata].
    set (ext := if (if 0xffffff <=? m_ts m then m_ts m else 0) =? 0 then [] else out32 (if 0xffffff <=? m_ts m then m_ts m else 0)).
    assert (Eext : ext = if extended m then ext_bytes m else []).
    { unfold ext, ext_bytes, extended. destruct (Z.leb_spec 0xffffff (m_ts m)).
      - replace (m_ts m =? 0) with false by lia. apply out32_be. lia.
      - reflexivity. }
    destruct (Hpd ext) as [body Hb]. unfold c. cbn [cs cdata ts mlen left mtype msid delta]. rewrite Hb. eexists. eexists. exists (Some (m, m_ts m, extended m)).
    split; [reflexivity|]. split; [|split; [eauto|]].
    - exists m, (m_ts m), (extended m). cbn [cs ts delta tsh mlen mtype msid]. unfold extended. conjs; try reflexivity; try assumption; try lia.
      + apply u32_id. lia.
      + destruct (Z.leb_spec 0xffffff (m_ts m)); lia.
    - replace (basic 0 (m_cs m)) with (basic (0 * 64) (m_cs m)) by reflexivity.
      replace (basic (0 * 64) (m_cs m) ++ _) with
        (basic (0 * 64) (m_cs m) ++ (be 3 (Z.min (m_ts m) 0xffffff) ++ be 3 (len (m_data m)) ++ [m_type m] ++ le 4 (m_sid m) ++ ext_bytes m) ++ body).
      + eapply (sent_header n size); try eassumption; [constructor|apply basic_ok; lia|]. rewrite <- Eext. exact Hb.
      + f_equal. rewrite <- !app_assoc. f_equal; [|f_equal; [|f_equal; [|f_equal]]].
        * rewrite out24_be by (destruct (_ <=? _); lia). f_equal. destruct (Z.leb_spec 0xffffff (m_ts m)); lia.
        * symmetry. apply out24_be. lia.
        * rewrite u8_id by exact Hty. reflexivity.
        * rewrite le4. unfold u8. rewrite Z.mod_mod by lia. reflexivity.
        * fold ext. rewrite Eext. unfold ext_bytes. destruct (extended m); reflexivity. }
  unfold prev1 in *. destruct erase; [apply Hfull; reflexivity|]. specialize (Hj eq_refl).
  destruct prev as [p|]; [|apply Hfull; reflexivity].
  cbn [sends] in Hse. destruct Hse as (q & d & x & -> & Hq & S1 & S2 & S3 & S4 & S5 & S6 & S7 & S8 & S9).
  destruct Hj as [Hj1 Hj2]. pose proof Hq as (_ & Hqt & _).
  destruct (Z.eq_dec (chtype_of (Some p) c) 0) as [E0|E0]; [exact (Hfull E0)|].
  assert (Hcases : m_ts q <= m_ts m /\ m_sid m = m_sid q /\
    (chtype_of (Some p) c = 0x40 \/
     len (m_data m) = len (m_data q) /\ m_type m = m_type q /\
     (chtype_of (Some p) c = 0x80 \/ chtype_of (Some p) c = 0xC0 /\ m_ts m - m_ts q = d))).
  { revert E0. unfold chtype_of, c. cbn [cs ts msid mlen mtype]. rewrite S1, S2, S3, S7, S8, S9.
    destruct (Z.eqb_spec (m_cs q) (m_cs m)); [|congruence].
    destruct (Z.ltb_spec (m_ts m) (m_ts q)); [congruence|].
    destruct (Z.eqb_spec (m_sid m) (m_sid q)); [|congruence].
    rewrite u64_id by lia.
    destruct (Z.eqb_spec (len (m_data m)) (len (m_data q))); [|intros _; split; [assumption|]; split; [assumption|]; left; reflexivity].
    destruct (Z.eqb_spec (m_type m) (m_type q)); [|intros _; split; [assumption|]; split; [assumption|]; left; reflexivity].
    destruct (Z.eqb_spec (m_ts m - m_ts q) d); intros _; (split; [assumption|]; split; [assumption|]; right; split; [assumption|]; split; [assumption|]).
    - right. split; [reflexivity|assumption].
    - left. reflexivity. }
  destruct Hcases as (Hle & Hsd & Hcases). set (df := m_ts m - m_ts q) in *.
  assert (Hdf : u64 (ts c - ts p) = df) by (unfold c; cbn [ts]; rewrite S2; apply u64_id; lia).
  assert (Hb0 : out24 df = be 3 df) by (apply out24_be; lia).
  destruct Hcases as [Ht|(Hll & Htt & [Ht|[Ht Hd]])].
  - unfold pack. rewrite Ht. change (0x40 =? 0xC0) with false. change (0x40 =? 0x80) with false. change (0x40 =? 0x40) with true. change (0x40 =? 0) with false.
    cbn [negb]. cbv iota zeta. rewrite Hdf. replace (0xffffff <=? df) with false by lia. change (0 =? 0) with true. cbv iota.
    destruct (Hpd []) as [body Hb]. unfold c. cbn [cs cdata ts mlen left mtype msid delta]. rewrite Hb.
    eexists. eexists. exists (Some (m, df, false)). split; [reflexivity|]. split; [|split; [eauto|]].
    + exists m, df, false. cbn [cs ts delta tsh mlen mtype msid]. conjs; try reflexivity; try assumption; try lia.
      apply u32_id. lia.
    + change 0x40 with (1 * 64). cbn [app]. rewrite Hb0, (out24_be (len (m_data m))) by lia. rewrite u8_id by exact Hty.
      eapply (sent_header n size); try eassumption; [apply h_same_stream; [assumption|unfold df; lia]|apply basic_ok; lia].
  - unfold pack. rewrite Ht. change (0x80 =? 0xC0) with false. change (0x80 =? 0x80) with true. change (0x80 =? 0) with false.
    cbn [negb]. cbv iota zeta. rewrite Hdf. replace (0xffffff <=? df) with false by lia. change (0 =? 0) with true. cbv iota.
    destruct (Hpd []) as [body Hb]. unfold c. cbn [cs cdata ts mlen left mtype msid delta]. rewrite Hb.
    eexists. eexists. exists (Some (m, df, false)). split; [reflexivity|]. split; [|split; [eauto|]].
    + exists m, df, false. cbn [cs ts delta tsh mlen mtype msid]. conjs; try reflexivity; try assumption; try lia.
      apply u32_id. lia.
    + change 0x80 with (2 * 64). cbn [app]. rewrite app_nil_r. rewrite Hb0.
      eapply (sent_header n size); try eassumption; [apply h_same_shape; try assumption; unfold df; lia|apply basic_ok; lia].
  - assert (Hx : x = false) by (destruct x; [exfalso; specialize (S5 eq_refl); lia|reflexivity]). subst x.
    unfold pack. rewrite Ht. change (0xC0 =? 0xC0) with true. cbn [negb]. cbv iota zeta.
    destruct (Z.eqb_spec (tsh p) 0xffffff) as [Eh|Eh]; [exfalso; apply S4 in Eh; discriminate|]. change (0 =? 0) with true. cbv iota.
    destruct (Hpd []) as [body Hb]. unfold c. cbn [cs cdata ts mlen left mtype msid delta]. rewrite Hb.
    eexists. eexists. exists (Some (m, d, false)). split; [reflexivity|]. split; [|split; [eauto|]].
    + exists m, d, false. cbn [cs ts delta tsh mlen mtype msid]. conjs; try reflexivity; try assumption; try lia; try discriminate.
    + change 0xC0 with (3 * 64). cbn [app]. change body with ([] ++ body).
      eapply (sent_header n size); try eassumption; [apply h_repeat; try assumption; unfold df in Hd; lia|apply basic_ok; lia].
Qed.

Definition tag (id : Z) (w : list wire) : list (Z * wire) := map (fun x => (id, x)) w.
Lemma on_tag : forall id j w r, on_channel j (tag id w ++ r) = if j =? id then w ++ on_channel j r else on_channel j r.
Proof.
  intros id j w r. unfold on_channel. rewrite filter_app, map_app.
  destruct (Z.eqb_spec j id) as [-> |Hn].
  - f_equal. induction w as [|x w IH]; [reflexivity|]. cbn [tag map filter fst]. rewrite Z.eqb_refl. cbn [map snd]. f_equal. exact IH.
  - replace (filter (fun x : Z * wire => fst x =? j) (tag id w)) with (@nil (Z * wire)); [reflexivity|].
    induction w as [|x w IH]; [reflexivity|]. cbn [tag map filter fst]. replace (id =? j) with false by lia. exact IH.
Qed.
Lemma whole_agree : forall n m id w r, whole n m w ->
  messages (tag id w ++ r) = m :: messages r /\ (sizes_agree (new_size n m) r -> sizes_agree n (tag id w ++ r)).
Proof.
  intros n m id w r H. induction H as [b|b l H [I1 I2]].
  - split; [reflexivity|]. intros Hr. split; [reflexivity|exact Hr].
  - split; [exact I1|]. intros Hr. split; [reflexivity|exact (I2 Hr)].
Qed.
Lemma no_jump_ext : forall l f g, (forall j, f j = g j) -> no_jump f l -> no_jump g l.
Proof.
  induction l as [|[a b] l IH]; intros f g Hfg; cbn [no_jump]; [trivial|].
  intros [H1 H2]. split; [rewrite <- Hfg; exact H1|]. revert H2. apply IH. intros j. unfold then_sent. destruct (j =? m_cs b); [reflexivity|apply Hfg].
Qed.
Definition last_of (h : history) : option msg := match h with Some (p, _, _) => Some p | None => None end.
Lemma fold_ext : forall (l : list msg) (f g : Z -> option msg) id, (forall j, f j = g j) ->
  fold_left then_sent l f id = fold_left then_sent l g id.
Proof.
  induction l as [|m l IH]; intros f g id H; [apply H|]. cbn [fold_left]. apply IH. intros j. unfold then_sent. destruct (j =? m_cs m); [reflexivity|apply H].
Qed.
Lemma pack_all_ok : forall (l : list (Z * bool * msg)) size prev hist,
  Forall (fun x => valid_msg (snd x)) l ->
  (forall id, sends (hist id) (prev id)) ->
  (forall id p d x, hist id = Some (p, d, x) -> m_cs p = id) ->
  no_jump (fun id => last_of (hist id)) (map (fun x => (snd (fst x), snd x)) l) ->
  sizes_match size (map (fun x => (fst (fst x), snd x)) l) ->
  exists w prev' hist', pack_all prev (map (fun x => to_out (fst (fst x)) (snd (fst x)) (snd x)) l) = Some (wire_bytes w, prev') /\
    messages w = map snd l /\
    (forall r, sizes_agree (fold_left new_size (map snd l) size) r -> sizes_agree size (w ++ r)) /\
    (forall r, (forall id, channel id (hist' id) (on_channel id r)) -> forall id, channel id (hist id) (on_channel id (w ++ r))) /\
    (forall id, sends (hist' id) (prev' id)) /\ (forall id p d x, hist' id = Some (p, d, x) -> m_cs p = id) /\
    (forall id, last_of (hist' id) = fold_left then_sent (map snd l) (fun id => last_of (hist id)) id).
Proof.
  induction l as [|[[n e] m] l IH]; intros size prev hist Hv Hse Hh Hj Hsz.
  - exists [], prev, hist. cbn [map fold_left app]. conjs; try reflexivity; try (intros; assumption); try assumption. intros r Hr. exact Hr.
  - inversion Hv as [|? ? Hv1 Hv2]; subst. cbn [map fst snd no_jump sizes_match] in *.
    destruct Hj as [Hj1 Hj2]. destruct Hsz as (Hn & Hs & Hsz & Hsz2).
    destruct (pack_one_ok n size e (hist (m_cs m)) (prev (m_cs m)) m Hv1 (Hse _) Hn Hs Hsz) as (bytes & prev' & h' & P1 & P2 & (d & x & P3) & P4).
    { intros He. specialize (Hj1 He). unfold last_of in Hj1. destruct (hist (m_cs m)) as [[[p dp] xp]|] eqn:E; [|exact I]. split; [exact (Hh _ _ _ _ E)|exact Hj1]. }
    cbn [pack_all]. change (o_cs (to_out n e m)) with (m_cs m). rewrite P1. cbn [fst snd].
    destruct (IH (new_size size m) (fun j => if j =? m_cs m then Some prev' else prev j) (fun j => if j =? m_cs m then h' else hist j)) as (w & pv & hs & W1 & W2 & W3 & W4 & W5 & W6 & W7).
    + exact Hv2.
    + intros id. destruct (id =? m_cs m); [exact P2|apply Hse].
    + intros id p d0 x0. destruct (Z.eqb_spec id (m_cs m)) as [-> |]; [|apply Hh]. rewrite P3. intros X. injection X as <- _ _. reflexivity.
    + eapply no_jump_ext; [|exact Hj2]. intros j. unfold then_sent. destruct (j =? m_cs m); [rewrite P3; reflexivity|reflexivity].
    + exact Hsz2.
    + rewrite W1. destruct P4 as (w1 & F1 & F2 & F3).
      exists (tag (m_cs m) w1 ++ w), pv, hs. cbn [fst snd map fold_left]. conjs; try assumption.
      * do 2 f_equal. rewrite <- F1. unfold wire_bytes, flat, tag. rewrite map_app, concat_app, map_map. reflexivity.
      * destruct (whole_agree size m (m_cs m) w1 w F2) as [G1 _]. rewrite G1, W2. reflexivity.
      * intros r Hr. rewrite <- app_assoc. apply (whole_agree size m (m_cs m) w1 (w ++ r) F2). exact (W3 r Hr).
      * intros r Hr id. rewrite <- app_assoc. rewrite on_tag. specialize (W4 r Hr id). cbv beta in W4. destruct (id =? m_cs m) eqn:E; [|exact W4].
        apply Z.eqb_eq in E. subst id. apply F3. exact W4.
      * intros id. rewrite W7. apply fold_ext. intros j. unfold then_sent. destruct (j =? m_cs m); [rewrite P3; reflexivity|reflexivity].
Qed.

(** output_rtmp.cpp's own sender. Its entry does not keep the time delta. *)
Definition sends_media (h : history) (prev : option chunk) : Prop :=
  match prev with
  | None => True
  | Some c => exists p d x, h = Some (p, d, x) /\ valid_msg p /\ cs c = m_cs p /\ ts c = m_ts p /\
      mlen c = len (m_data p) /\ mtype c = m_type p /\ msid c = m_sid p
  end.
Lemma send_data_pack : forall fuel n first dh ext d, 0 < n -> (first = true -> dh <= Z.min (len d) n) ->
  send_data fuel n first dh ext d = pack_data fuel n 4 ext d.
Proof.
  induction fuel as [|k IH]; intros n first dh ext d Hn Hd; [reflexivity|].
  cbn [send_data pack_data]. destruct (Z.eqb_spec (len d) 0); [reflexivity|].
  assert (E : Z.min (len d) n = if n <? len d then n else len d) by (destruct (Z.ltb_spec n (len d)); lia).
  replace (first && (Z.min (len d) n <? dh)) with false by (destruct first; [specialize (Hd eq_refl)|]; lia).
  cbv iota zeta. rewrite IH by (assumption || discriminate). rewrite E. reflexivity.
Qed.
Lemma send_media_ok : forall n dh h prev m,
  media_msg m -> sends_media h prev -> 0 < n -> dh <= Z.min (len (m_data m)) n ->
  match h with
  | Some (p, _, _) => m_cs p = 4 /\ m_sid p = 1 /\ m_ts m - m_ts p < 0xffffff /\
      ~ (m_ts m = m_ts p /\ m_type m = m_type p /\ len (m_data m) = len (m_data p))
  | None => True
  end ->
  exists bytes prev' h', send_media n prev (m_type m) (m_ts m) dh (m_data m) = Some (bytes, prev') /\
    sends_media h' (Some prev') /\ (exists d x, h' = Some (m, d, x)) /\ sent_as n h h' m bytes.
Proof.
  intros n dh h prev m (Hv & Hc4 & Hs1) Hse Hn Hdh Hj.
  pose proof Hv as (Hcs & Hts & Hty & Hsid & Hlen & _). pose proof (len_nonneg (m_data m)) as Hl0.
  assert (Hpd : forall ext, exists body, pack_data (List.length (m_data m)) n (m_cs m) ext (m_data m) = Some body).
  { intros ext. destruct (pack_data_ok m ext n (List.length (m_data m)) (m_data m) Hn Hcs (Nat.le_refl _)) as (w & _ & R2 & _). eexists. exact R2. }
  assert (Hfull : rtmp_header prev (m_type m) (m_ts m) (len (m_data m)) = (0, m_ts m, false) ->
    exists bytes prev' h', send_media n prev (m_type m) (m_ts m) dh (m_data m) = Some (bytes, prev') /\
    sends_media h' (Some prev') /\ (exists d x, h' = Some (m, d, x)) /\ sent_as n h h' m bytes).
  { intros Ht. unfold send_media. rewrite Ht.
    set (ext := if 0xffffff <=? m_ts m then out32 (m_ts m) else []).
    assert (Eext : ext = if extended m then ext_bytes m else []).
    { unfold ext, ext_bytes, extended. destruct (Z.leb_spec 0xffffff (m_ts m)); [apply out32_be; lia|reflexivity]. }
    cbv zeta. rewrite send_data_pack by (intros; assumption). rewrite <- Hc4. destruct (Hpd ext) as [body Hb]. rewrite Hb.
    eexists. eexists. exists (Some (m, m_ts m, extended m)). split; [reflexivity|]. split; [|split; [eauto|]].
    - exists m, (m_ts m), (extended m). cbn [cs ts delta tsh mlen mtype msid]. conjs; try reflexivity; try assumption; try lia.
    - change (0 =? 0xC0) with false. change (0 =? 0x80) with false. change (0 =? 0x40) with false. cbv iota.
      replace ([0 .| m_cs m]) with (basic (0 * 64) (m_cs m)) by (rewrite Hc4; reflexivity).
      replace (basic (0 * 64) (m_cs m) ++ _) with
        (basic (0 * 64) (m_cs m) ++ (be 3 (Z.min (m_ts m) 0xffffff) ++ be 3 (len (m_data m)) ++ [m_type m] ++ le 4 (m_sid m) ++ ext_bytes m) ++ body).
      + eapply (sent_header n n); try eassumption; [constructor|apply basic_ok; lia|left; reflexivity|]. rewrite <- Eext. exact Hb.
      + f_equal. rewrite <- !app_assoc. f_equal; [|f_equal; [|f_equal; f_equal]].
        * rewrite out24_be by (destruct (_ <=? _); lia). f_equal. destruct (Z.leb_spec 0xffffff (m_ts m)); lia.
        * symmetry. apply out24_be. lia.
        * rewrite le4, Hs1. reflexivity.
        * rewrite Eext. unfold ext_bytes. destruct (extended m); reflexivity. }
  destruct prev as [p|]; [|apply Hfull; reflexivity].
  cbn [sends_media] in Hse. destruct Hse as (q & d & x & -> & Hq & S1 & S2 & S3 & S4 & S5).
  destruct Hj as (Hq4 & Hq1 & Hj2 & Hj3). pose proof Hq as (_ & Hqt & _).
  assert (Hcases : rtmp_header (Some p) (m_type m) (m_ts m) (len (m_data m)) = (0, m_ts m, false) \/
    m_ts q <= m_ts m /\ 
    (rtmp_header (Some p) (m_type m) (m_ts m) (len (m_data m)) = (0x40, m_ts m - m_ts q, true) \/
     len (m_data m) = len (m_data q) /\ m_type m = m_type q /\
     rtmp_header (Some p) (m_type m) (m_ts m) (len (m_data m)) = (0x80, m_ts m - m_ts q, true))).
  { unfold rtmp_header. rewrite S1, S2, S3, S4, S5, Hq4, Hq1. change ((4 =? 4) && (1 =? 1)) with true. cbv iota zeta.
    destruct (Z.ltb_spec (m_ts m) (m_ts q)); [left; reflexivity|]. right. split; [assumption|].
    rewrite u64_id by lia.
    destruct (Z.eqb_spec (len (m_data m)) (len (m_data q))); [|left; reflexivity].
    destruct (Z.eqb_spec (m_type m) (m_type q)); [|left; reflexivity].
    right. split; [assumption|]. split; [assumption|]. cbn [andb].
    destruct (Z.eqb_spec (m_ts m) (m_ts q)); [exfalso; apply Hj3; repeat split; assumption|reflexivity]. }
  destruct Hcases as [Hc|(Hle & Hcases)]; [exact (Hfull Hc)|].
  set (df := m_ts m - m_ts q) in *.
  assert (Hb0 : out24 df = be 3 df) by (apply out24_be; lia).
  assert (Hu : u64 (ts p + df) = m_ts m) by (rewrite S2; unfold df; rewrite u64_id by lia; lia).
  destruct Hcases as [Ht|(Hll & Htt & Ht)]; unfold send_media; rewrite Ht; cbv zeta;
    replace (0xffffff <=? df) with false by lia; cbv iota; rewrite send_data_pack by (intros; assumption); rewrite <- Hc4;
    destruct (Hpd []) as [body Hb]; rewrite Hb;
    eexists; eexists; exists (Some (m, df, false)); (split; [reflexivity|]); (split; [|split; [eauto|]]).
  - exists m, df, false. cbn [cs ts delta tsh mlen mtype msid]. conjs; try reflexivity; try assumption; try lia.
  - change (0x40 =? 0xC0) with false. change (0x40 =? 0x80) with false. change (0x40 =? 0x40) with true. cbv iota.
    replace ([0x40 .| m_cs m]) with (basic (1 * 64) (m_cs m)) by (rewrite Hc4; reflexivity).
    change ([] ++ body) with body. rewrite (app_nil_r [m_type m]).
    rewrite Hb0, (out24_be (len (m_data m))) by lia.
    eapply (sent_header n n); try eassumption; [apply h_same_stream; [congruence|unfold df in *; lia]|apply basic_ok; lia|left; reflexivity].
  - exists m, df, false. cbn [cs ts delta tsh mlen mtype msid]. conjs; try reflexivity; try assumption; try lia.
  - change (0x80 =? 0xC0) with false. change (0x80 =? 0x80) with true. cbv iota.
    replace ([0x80 .| m_cs m]) with (basic (2 * 64) (m_cs m)) by (rewrite Hc4; reflexivity).
    change ([] ++ body) with body. rewrite app_nil_r. rewrite Hb0.
    eapply (sent_header n n); try eassumption; [apply h_same_shape; try congruence; unfold df in *; lia|apply basic_ok; lia|left; reflexivity].
Qed.
Lemma send_media_all_ok : forall (l : list (Z * Z * msg)) prev h size,
  Forall (fun x => media_msg (snd x) /\ 0 < fst (fst x) /\ snd (fst x) <= Z.min (len (m_data (snd x))) (fst (fst x))) l ->
  sends_media h prev -> distinct (last_of h) (map snd l) ->
  Forall (fun x => m_type (snd x) <> 1 /\ fst (fst x) = size) l ->
  exists w, send_media_all prev (map (fun x => to_media (fst (fst x)) (snd (fst x)) (snd x)) l) = Some (flat w) /\
    messages (tag 4 w) = map snd l /\ sizes_agree size (tag 4 w) /\ channel 4 h w.
Proof.
  induction l as [|[[n dh] m] l IH]; intros prev h size Hv Hse Hd Hty.
  - exists []. split; [reflexivity|]. split; [reflexivity|]. split; [exact I|]. constructor.
  - inversion Hv as [|? ? (Hv1 & Hn & Hdh) Hv2]; subst. inversion Hty as [|? ? (Ht1 & Hns) Ht2]; subst.
    cbn [map fst snd distinct] in *. destruct Hd as [Hd1 Hd2].
    destruct (send_media_ok n dh h prev m Hv1 Hse Hn Hdh) as (bytes & prev' & h' & P1 & P2 & (d & x & P3) & P4).
    { destruct h as [[[p dp] xp]|]; exact Hd1. }
    cbn [send_media_all to_media md_size md_type md_ts md_head md_data]. rewrite P1. cbn [fst snd].
    assert (Hns2 : new_size n m = n) by (unfold new_size; replace (m_type m =? 1) with false by lia; reflexivity).
    destruct (IH (Some prev') h' n) as (w & W1 & W2 & W3 & W4); try assumption; [rewrite P3; exact Hd2|].
    rewrite W1. destruct P4 as (w1 & F1 & F2 & F3).
    exists (w1 ++ w). destruct Hv1 as (_ & Hc4 & _).
    assert (Et : tag 4 (w1 ++ w) = tag 4 w1 ++ tag 4 w) by apply map_app. rewrite Et.
    destruct (whole_agree n m 4 w1 (tag 4 w) F2) as [G1 G2]. split; [|split; [|split]].
    + f_equal. rewrite <- F1. unfold flat. rewrite map_app, concat_app. reflexivity.
    + rewrite G1, W2. reflexivity.
    + apply G2. rewrite Hns2. exact W3.
    + rewrite <- Hc4. apply F3. rewrite Hc4. exact W4.
Qed.

Lemma sends_weaken : forall h prev, sends h prev -> sends_media h prev.
Proof.
  intros h [c|]; [|trivial]. intros (p & d & x & E & H1 & H2 & H3 & H4 & H5 & H6 & H7 & H8 & H9 & H10).
  exists p, d, x. conjs; assumption.
Qed.
Lemma well_sent_of : forall w, (forall id, channel id None (on_channel id w)) -> well_sent w.
Proof. intros w H id. exists []. rewrite app_nil_r. apply H. Qed.
Lemma round_trip : forall (l : list (Z * bool * msg)) size more segs bytes prev',
  Forall (fun x => valid_msg (snd x)) l -> 0 <= size ->
  no_jump (fun _ => None) (map (fun x => (snd (fst x), snd x)) l) ->
  sizes_match size (map (fun x => (fst (fst x), snd x)) l) ->
  pack_all (fun _ => None) (map (fun x => to_out (fst (fst x)) (snd (fst x)) (snd x)) l) = Some (bytes, prev') ->
  2 <= len more -> Forall bytesP segs -> List.concat segs = bytes ++ more ->
  exists got later r, arrivals (receiver0 size) segs = (got ++ later, r) /\ map to_msg got = map snd l /\ (len more = 2 -> later = [] /\ rbuf r = more).
Proof.
  intros l size more segs bytes prev' Hv Hs Hj Hsz Hp Hm Hb Hc.
  destruct (pack_all_ok l size (fun _ => None) (fun _ => None) Hv) as (w & pv & hs & W1 & W2 & W3 & W4 & _); try assumption.
  { intros id. exact I. } { discriminate. }
  rewrite Hp in W1. injection W1 as -> ->. rewrite <- W2.
  apply receive_ok; try assumption.
  - apply well_sent_of. intros id. rewrite <- (app_nil_r w). apply (W4 []). intros j. constructor.
  - rewrite <- (app_nil_r w). apply W3. exact I.
Qed.
Lemma round_trip_media : forall (l : list (Z * bool * msg)) (l2 : list (Z * Z * msg)) size more segs bytes bytes2 prev',
  Forall (fun x => valid_msg (snd x)) l -> 0 <= size ->
  no_jump (fun _ => None) (map (fun x => (snd (fst x), snd x)) l) ->
  sizes_match size (map (fun x => (fst (fst x), snd x)) l) ->
  pack_all (fun _ => None) (map (fun x => to_out (fst (fst x)) (snd (fst x)) (snd x)) l) = Some (bytes, prev') ->
  Forall (fun x => media_msg (snd x) /\ 0 < fst (fst x) /\ snd (fst x) <= Z.min (len (m_data (snd x))) (fst (fst x))) l2 ->
  distinct (fold_left then_sent (map snd l) (fun _ => None) 4) (map snd l2) ->
  Forall (fun x => m_type (snd x) <> 1 /\ fst (fst x) = fold_left new_size (map snd l) size) l2 ->
  send_media_all (prev' 4) (map (fun x => to_media (fst (fst x)) (snd (fst x)) (snd x)) l2) = Some bytes2 ->
  2 <= len more -> Forall bytesP segs -> List.concat segs = bytes ++ bytes2 ++ more ->
  exists got later r, arrivals (receiver0 size) segs = (got ++ later, r) /\ map to_msg got = map snd l ++ map snd l2 /\ (len more = 2 -> later = [] /\ rbuf r = more).
Proof.
  intros l l2 size more segs bytes bytes2 prev' Hv Hs Hj Hsz Hp Hv2 Hd Ht Hp2 Hm Hb Hc.
  destruct (pack_all_ok l size (fun _ => None) (fun _ => None) Hv) as (w & pv & hs & W1 & W2 & W3 & W4 & W5 & W6 & W7); try assumption.
  { intros id. exact I. } { discriminate. }
  rewrite Hp in W1. injection W1 as -> ->.
  destruct (send_media_all_ok l2 (pv 4) (hs 4) (fold_left new_size (map snd l) size)) as (w2 & U1 & U2 & U3 & U4); try assumption.
  { apply sends_weaken, W5. } { rewrite W7. exact Hd. }
  rewrite Hp2 in U1. injection U1 as ->.
  assert (Hw : wire_bytes (w ++ tag 4 w2) = wire_bytes w ++ flat w2).
  { unfold wire_bytes, flat, tag. rewrite map_app, concat_app, map_map. reflexivity. }
  assert (Hms : messages (w ++ tag 4 w2) = map snd l ++ map snd l2).
  { rewrite <- W2, <- U2. clear. induction w as [|[i x] w IH]; [reflexivity|]. cbn [messages app]. destruct (w_done x); [cbn [app]; f_equal|]; exact IH. }
  rewrite <- Hms. apply receive_ok; try assumption.
  - apply well_sent_of. apply W4. intros id. destruct (Z.eqb_spec id 4) as [-> |Hn].
    + replace (on_channel 4 (tag 4 w2)) with w2; [exact U4|]. pose proof (on_tag 4 4 w2 []) as X. rewrite app_nil_r in X. rewrite X. cbn. rewrite app_nil_r. reflexivity.
    + pose proof (on_tag 4 id w2 []) as X. rewrite app_nil_r in X. rewrite X. replace (id =? 4) with false by lia. constructor.
  - apply W3. exact U3.
  - rewrite Hw, <- app_assoc. exact Hc.
Qed.
Lemma pack_total : forall (l : list (Z * bool * msg)) size,
  Forall (fun x => valid_msg (snd x)) l ->
  no_jump (fun _ => None) (map (fun x => (snd (fst x), snd x)) l) ->
  sizes_match size (map (fun x => (fst (fst x), snd x)) l) ->
  pack_all (fun _ => None) (map (fun x => to_out (fst (fst x)) (snd (fst x)) (snd x)) l) <> None.
Proof.
  intros l size Hv Hj Hsz.
  destruct (pack_all_ok l size (fun _ => None) (fun _ => None) Hv) as (w & pv & hs & W1 & _); try assumption.
  { intros id. exact I. } { discriminate. }
  rewrite W1. discriminate.
Qed.
