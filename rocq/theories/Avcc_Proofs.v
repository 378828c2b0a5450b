(** Proofs about decoder configuration records. *)
From Verif Require Import Common CommonFacts CommonMore Mem_Model Mem_Proofs Outcome_Model Mp4_Model Mp4_Spec Mp4_Proofs Avcc_Model Avcc_Spec.
Import List.
Ltac Zify.zify_post_hook ::= Z.div_mod_to_equations.

Lemma new_avcc : exists b, newAVCC = Ok b /\ rep b (bs "avcC") [0; 0; 0; 0; 255] [].
Proof. eexists. split; [vm_compute; reflexivity|]. split; [vm_compute; reflexivity|]. split; [reflexivity|vm_compute; reflexivity]. Qed.
Lemma new_hvcc : exists b, newHVCC = Ok b /\ rep b (bs "hvcC") [] [].
Proof. eexists. split; [reflexivity|]. now apply rep_new. Qed.
Lemma poke_any m i x : 0 <= i -> i + len x <= len m -> exists m', poke m i x = Some m' /\ len m' = len m.
Proof.
  intros H1 H2. pose proof (len_nonneg x). destruct (cut3 m i (len x) H1 ltac:(lia) H2) as (a & y & c & -> & E1 & E2).
  exists (a ++ x ++ c). rewrite (poke_at a y c x i) by lia. split; [reflexivity|]. rewrite !len_app. lia.
Qed.
Lemma setPayload_ok b ty pl x : rep b ty pl [] -> len pl < len x -> len x + 8 < 2 ^ 31 -> exists b' ty', setPayload x b = Ok b' /\ rep b' ty' x [].
Proof.
  intros R H1 H2. pose proof R as (EB & T & L). pose proof (len_nonneg pl). unfold setPayload, payloadSize. rewrite (rep_size _ _ _ _ R), (rep_off _ _ _ _ R).
  rewrite u64_small by lia. replace (8 + len pl - 8) with (len pl) by lia.
  unfold reserve. destruct (Z.eqb_spec (len pl) (len x)); [lia|]. rewrite (rep_size _ _ _ _ R). replace (8 + len pl <? 0) with false by lia. cbv zeta.
  rewrite (u64_small (len x - len pl)) by lia. rewrite u64_small by lia. replace (8 + len pl + (len x - len pl)) with (8 + len x) by lia.
  rewrite (rep_len _ _ _ _ R). change (len (@nil Z)) with 0. replace (len pl <? len x) with true by lia. replace (8 + len pl + 0 <? 8 + len x) with true by lia.
  replace (b_managed b) with true by (rewrite EB; reflexivity). cbn [andb negb].
  replace (8 + len x - (8 + len pl + 0)) with (len x - len pl) by lia.
  set (d := b_data b ++ zeros (len x - len pl)). assert (LD : len d = 8 + len x) by (unfold d; rewrite len_app, (rep_len _ _ _ _ R), len_zeros by lia; change (len (@nil Z)) with 0; lia).
  unfold putn. unfold with_data. cbn [b_data b_managed b_off].
  destruct (poke_any d (8 + len pl) (zeros (len x - len pl))) as (d1 & E1 & L1); [lia|rewrite len_zeros; lia|]. rewrite E1. cbn [b_data].
  replace (0 + len pl <? 8 + len pl) with true by lia. destruct (cut3 d1 (0 + len pl) (8 + len pl - (0 + len pl)) ltac:(lia) ltac:(lia) ltac:(lia)) as (a & y & c & -> & Ea & Ey).
  rewrite (getn_at a y c) by lia.
  destruct (poke_any (a ++ y ++ c) (0 + len x) y) as (d2 & E2 & L2); [lia|rewrite L1, LD; lia|]. rewrite E2. cbn [b_data b_off b_managed].
  rewrite (rep_off _ _ _ _ R). change (8 =? 16) with false. cbv iota.
  destruct (cut3 d2 0 4 ltac:(lia) ltac:(lia) ltac:(lia)) as (a' & y' & c' & -> & Ea' & Ey'). destruct a' as [|w a']; [|rewrite len_cons in Ea'; pose proof (len_nonneg a'); lia].
  rewrite (poke_at [] y' c' (be 4 (8 + len x)) 0) by (try reflexivity; rewrite be_len; lia). cbn [fst snd b_data app].
  rewrite !len_app in *. change (len (@nil Z)) with 0 in *. assert (LC : len c' = 4 + len x) by lia.
  destruct (cut c' 4 ltac:(lia)) as (t & c'' & -> & Et). rewrite len_app in LC. replace (be 4 (8 + len x) ++ t ++ c'') with ((be 4 (8 + len x) ++ t) ++ c'' ++ []) by (rewrite app_nil_r, <- app_assoc; reflexivity).
  rewrite (poke_at (be 4 (8 + len x) ++ t) c'' [] x 8) by (rewrite ?len_app, ?be_len; lia).
  eexists. exists t. split; [reflexivity|]. split; [|split; [exact Et|change (len (@nil Z)) with 0; lia]].
  unfold iso. rewrite EB. cbn [b_managed fst snd b_off]. f_equal. rewrite !app_nil_r, <- app_assoc. reflexivity.
Qed.

(** ** Entries behind their lengths *)
Lemma get16_at b ty a u c s : rep b ty (a ++ sized u ++ c) s -> len u < 2 ^ 15 -> get16 (len a) b = Ok (b, len u).
Proof.
  intros R H. pose proof (len_nonneg a). pose proof (len_nonneg u). pose proof (len_nonneg c). unfold get16, sized in *.
  rewrite (getInt_in _ _ _ _ 2 (len a) ltac:(lia) R) by (rewrite ?len_app, ?be_len; lia). cbn [fst snd]. change (Z.of_nat 2) with 2.
  rewrite dropz_app_exact by reflexivity. rewrite <- app_assoc, takez_app_exact by (rewrite be_len; reflexivity). rewrite unbe_be. change (256 ^ Z.of_nat 2) with 65536. rewrite Z.mod_small by lia.
  do 2 f_equal. unfold s16, u16. rewrite Z.mod_small by lia. destruct (Z.ltb_spec (len u) 32768); lia.
Qed.
Lemma unit_at b ty a u c s : rep b ty (a ++ sized u ++ c) s -> getn (b_data b) (8 + (len a + 2)) (len u) = Ok u.
Proof.
  intros R. unfold sized in R. replace (a ++ (be 2 (len u) ++ u) ++ c) with ((a ++ be 2 (len u)) ++ u ++ c) in R by (rewrite <- !app_assoc; reflexivity).
  replace (len a + 2) with (len (a ++ be 2 (len u))) by (rewrite len_app, be_len; lia). now apply (rep_get _ _ _ _ _ _ _ R).
Qed.
Lemma seek_ok ty s k b : forall us a c n, rep b ty (a ++ flat_map sized us ++ c) s -> small us -> (n <= length us)%nat -> 0 <= k ->
  seek k n (len (a ++ flat_map sized us ++ c)) (len a) b = Ok (b, len (a ++ flat_map sized (firstn n us))).
Proof.
  induction us as [|u us IH]; intros a c n R S Hn Hk; (destruct n as [|n]; [cbn [seek firstn flat_map]; now rewrite app_nil_r|]).
  - cbn in Hn. lia.
  - cbn [length flat_map firstn seek] in *. inversion S as [|? ? S1 S2]; subst. pose proof R as (_ & _ & L). pose proof (len_nonneg s).
    assert (LT : len a + len (sized u) <= len (a ++ (sized u ++ flat_map sized us) ++ c)) by (rewrite !len_app; pose proof (len_nonneg (flat_map sized us)); pose proof (len_nonneg c); lia).
    assert (LS : len (sized u) = 2 + len u) by (unfold sized; rewrite len_app, be_len; lia). pose proof (len_nonneg u). pose proof (len_nonneg a).
    destruct (Z.ltb_spec (len a + 1) (len (a ++ (sized u ++ flat_map sized us) ++ c) + k)); [|lia].
    rewrite <- app_assoc in R. rewrite (get16_at _ _ _ _ _ _ R S1). cbn [fst snd]. rewrite u64_small by lia.
    replace (len a + len u + 2) with (len (a ++ sized u)) by (rewrite len_app; lia).
    replace (a ++ (sized u ++ flat_map sized us) ++ c) with ((a ++ sized u) ++ flat_map sized us ++ c) by (rewrite <- !app_assoc; reflexivity).
    rewrite IH; [|rewrite <- app_assoc; exact R|exact S2|lia|exact Hk]. f_equal. f_equal. rewrite <- app_assoc. reflexivity.
Qed.
Lemma seekP_ok ty s b : forall us a c n, rep b ty (a ++ flat_map sized us ++ c) s -> small us -> (n <= length us)%nat ->
  seekP n (len (a ++ flat_map sized us ++ c)) (len a) b = Ok (b, len (a ++ flat_map sized (firstn n us))).
Proof.
  induction us as [|u us IH]; intros a c n R S Hn; (destruct n as [|n]; [cbn [seekP firstn flat_map]; now rewrite app_nil_r|]).
  - cbn in Hn. lia.
  - cbn [length flat_map firstn seekP] in *. inversion S as [|? ? S1 S2]; subst. pose proof R as (_ & _ & L). pose proof (len_nonneg s).
    assert (LT : len a + len (sized u) <= len (a ++ (sized u ++ flat_map sized us) ++ c)) by (rewrite !len_app; pose proof (len_nonneg (flat_map sized us)); pose proof (len_nonneg c); lia).
    assert (LS : len (sized u) = 2 + len u) by (unfold sized; rewrite len_app, be_len; lia). pose proof (len_nonneg u). pose proof (len_nonneg a).
    rewrite (u64_small (len a + 1)), (u64_small (len a)) by lia.
    destruct (Z.leb_spec (len a + 1) (len (a ++ (sized u ++ flat_map sized us) ++ c))); [|lia].
    rewrite <- app_assoc in R. rewrite (get16_at _ _ _ _ _ _ R S1). cbn [fst snd]. rewrite s32_small by lia.
    replace (len a + len u + 2) with (len (a ++ sized u)) by (rewrite len_app; lia).
    replace (a ++ (sized u ++ flat_map sized us) ++ c) with ((a ++ sized u) ++ flat_map sized us ++ c) by (rewrite <- !app_assoc; reflexivity).
    rewrite IH; [|rewrite <- app_assoc; exact R|exact S2|lia]. f_equal. f_equal. rewrite <- app_assoc. reflexivity.
Qed.
Lemma flat_nth us j u : nth_error us j = Some u -> flat_map sized us = flat_map sized (firstn j us) ++ sized u ++ flat_map sized (skipn (S j) us) /\ (j < length us)%nat.
Proof.
  intros H. split; [|apply nth_error_Some; congruence]. revert j H. induction us as [|v us IH]; intros [|j] H; try discriminate.
  - cbn in H. injection H as ->. reflexivity.
  - cbn [nth_error] in H. cbn [firstn flat_map]. rewrite (IH j H). cbn [skipn]. rewrite <- app_assoc. reflexivity.
Qed.
Lemma units_ok get size b us :
  (forall j u, nth_error us j = Some u -> size j b = Ok (b, len u) /\ exists o, get j b = Ok (b, Some o) /\ written b (Some o) (len u) = Ok u) ->
  forall n i, (i + n = length us)%nat -> units get size n i b = Ok (b, started (skipn i us)).
Proof.
  intros H. induction n as [|n IH]; intros i E.
  - rewrite skipn_all2 by lia. reflexivity.
  - destruct (nth_error us i) as [u|] eqn:EN; [|apply nth_error_None in EN; lia]. destruct (H i u EN) as (H1 & o & H2 & H3).
    cbn [units]. rewrite H1, H2, H3, IH by lia.
    assert (ES : skipn i us = u :: skipn (S i) us).
    { clear - EN. revert i EN. induction us as [|v us IHu]; intros [|i] EN; try discriminate; cbn in *; [now injection EN as ->|now apply IHu]. }
    rewrite ES. unfold started at 2. cbn [flat_map]. rewrite <- app_assoc. reflexivity.
Qed.

(** ** AVC records *)
Section Avc.
Context (h0 h1 h2 h3 h4 : Z) (spss ppss : list (list Z)) (more : list Z) (b : box) (ty s : list Z).
Let head := [h0; h1; h2; h3; h4; 0xE0 + len spss].
Let pl := head ++ flat_map sized spss ++ [len ppss] ++ flat_map sized ppss ++ more.
Context (R : rep b ty pl s) (S1 : small spss) (S2 : small ppss) (N1 : len spss <= 31) (N2 : len ppss <= 255).
Lemma pls : payloadSize b = Ok (len pl).
Proof. pose proof R as (_ & _ & L). pose proof (len_nonneg s). pose proof (len_nonneg pl). unfold payloadSize. rewrite (rep_size _ _ _ _ R), (rep_off _ _ _ _ R). rewrite u64_small by lia. f_equal. lia. Qed.
Lemma sps_count : getSPSCount b = Ok (b, len spss).
Proof.
  pose proof (len_nonneg spss). unfold getSPSCount. rewrite (getInt_in _ _ _ _ 1 5 ltac:(lia) R) by (try lia; unfold pl, head; rewrite !len_app; change (len [h0; h1; h2; h3; h4; 224 + len spss]) with 6;
    pose proof (len_nonneg (flat_map sized spss)); pose proof (len_nonneg (flat_map sized ppss)); pose proof (len_nonneg more); change (len [len ppss]) with 1; lia).
  cbn [fst snd]. unfold pl, head. change (takez (Z.of_nat 1) (dropz 5 ([h0; h1; h2; h3; h4; 224 + len spss] ++ flat_map sized spss ++ [len ppss] ++ flat_map sized ppss ++ more))) with [224 + len spss].
  change (unbe [224 + len spss]) with (0 * 256 + (224 + len spss)). do 2 f_equal. rewrite land_31. lia.
Qed.
Lemma sps_unit j u : nth_error spss j = Some u -> getSPSLen j b = Ok (b, len u) /\ exists o, getSPS j b = Ok (b, Some o) /\ written b (Some o) (len u) = Ok u.
Proof.
  intros H. destruct (flat_nth _ _ _ H) as (E & J). pose proof R as R0. pose proof R as (_ & _ & L). pose proof (len_nonneg s). pose proof (len_nonneg u).
  assert (SU : len u < 2 ^ 15) by (unfold small in S1; rewrite Forall_forall in S1; apply S1; eapply nth_error_In; exact H).
  assert (SK : seek 0 j (len pl) 6 b = Ok (b, len (head ++ flat_map sized (firstn j spss)))).
  { change 6 with (len head). unfold pl. apply (seek_ok ty s); [exact R|exact S1|lia|lia]. }
  assert (EP : pl = (head ++ flat_map sized (firstn j spss)) ++ sized u ++ (flat_map sized (skipn (S j) spss) ++ [len ppss] ++ flat_map sized ppss ++ more)).
  { unfold pl. rewrite E. rewrite <- !app_assoc. reflexivity. }
  set (a := head ++ flat_map sized (firstn j spss)) in *. rewrite EP in R0. pose proof (len_nonneg a).
  assert (LT : len a + 2 + len u <= len pl) by (rewrite EP, len_app, (len_app (sized u)); unfold sized at 1; rewrite len_app, be_len; match goal with |- context [len (flat_map sized (skipn _ _) ++ ?z)] => pose proof (len_nonneg (flat_map sized (skipn (S j) spss) ++ z)) end; lia).
  unfold getSPSLen, getSPS. rewrite sps_count. assert (C : len spss <=? Z.of_nat j = false) by (unfold len; lia). rewrite C, pls, SK.
  destruct (Z.leb_spec (len pl) (len a + 1)); [lia|]. destruct (Z.leb_spec (len pl) (len a)); [lia|]. rewrite (get16_at _ _ _ _ _ _ R0 SU). unfold u32. rewrite Z.mod_small by lia.
  cbv zeta. rewrite u64_small by lia. destruct (Z.ltb_spec (len pl) (len u + len a + 2)); [lia|]. split; [reflexivity|]. exists (len a + 2). split; [reflexivity|].
  unfold written. destruct (Z.eqb_spec (len u) 0) as [Q|Q]; [destruct u; [reflexivity|rewrite len_cons in Q; pose proof (len_nonneg u); lia]|]. exact (unit_at _ _ _ _ _ _ R0).
Qed.
Lemma pps_offset : PPSCountOffset b = Ok (b, len (head ++ flat_map sized spss)).
Proof.
  unfold PPSCountOffset. rewrite sps_count, pls. pose proof (len_nonneg spss).
  assert (SK : seek 1 (Z.to_nat (len spss)) (len pl) 6 b = Ok (b, len (head ++ flat_map sized (firstn (Z.to_nat (len spss)) spss)))).
  { change 6 with (len head). unfold pl. apply (seek_ok ty s); [exact R|exact S1|unfold len; lia|lia]. }
  rewrite SK. rewrite firstn_all2 by (unfold len; lia). destruct (Z.ltb_spec (len pl) (len (head ++ flat_map sized spss))) as [Q|Q]; [|reflexivity].
  unfold pl in Q. rewrite (len_app head), (len_app head), (len_app (flat_map sized spss)) in Q. match type of Q with context [len ([len ppss] ++ ?z)] => pose proof (len_nonneg ([len ppss] ++ z)) end. lia.
Qed.
Lemma head_pos : 0 < len (head ++ flat_map sized spss). Proof. rewrite len_app. change (len head) with 6. pose proof (len_nonneg (flat_map sized spss)). lia. Qed.
Lemma pps_count : getPPSCount b = Ok (b, len ppss).
Proof.
  unfold getPPSCount. rewrite pps_offset. pose proof head_pos. destruct (Z.eqb_spec (len (head ++ flat_map sized spss)) 0); [lia|].
  assert (EP : pl = (head ++ flat_map sized spss) ++ [len ppss] ++ flat_map sized ppss ++ more) by (unfold pl; rewrite <- app_assoc; reflexivity).
  rewrite (getInt_in _ _ _ _ 1 _ ltac:(lia) R) by (try lia; rewrite EP, (len_app (head ++ flat_map sized spss)), (len_app [len ppss]); change (len [len ppss]) with 1; pose proof (len_nonneg (flat_map sized ppss ++ more)); lia).
  rewrite EP. rewrite dropz_app_exact by reflexivity. rewrite takez_app_exact by reflexivity. change (unbe [len ppss]) with (0 * 256 + len ppss). do 2 f_equal.
Qed.
Lemma pps_unit j u : nth_error ppss j = Some u -> getPPSLen j b = Ok (b, len u) /\ exists o, getPPS j b = Ok (b, Some o) /\ written b (Some o) (len u) = Ok u.
Proof.
  intros H. destruct (flat_nth _ _ _ H) as (E & J). pose proof R as R0. pose proof R as R1. pose proof R as (_ & _ & L). pose proof (len_nonneg s). pose proof (len_nonneg u).
  assert (SU : len u < 2 ^ 15) by (unfold small in S2; rewrite Forall_forall in S2; apply S2; eapply nth_error_In; exact H).
  set (hd2 := (head ++ flat_map sized spss) ++ [len ppss]).
  assert (EQ : pl = hd2 ++ flat_map sized ppss ++ more) by (unfold pl, hd2; rewrite <- !app_assoc; reflexivity).
  assert (EP : pl = (hd2 ++ flat_map sized (firstn j ppss)) ++ sized u ++ (flat_map sized (skipn (S j) ppss) ++ more)) by (rewrite EQ, E, <- !app_assoc; reflexivity).
  assert (SK : seekP j (len pl) (len hd2) b = Ok (b, len (hd2 ++ flat_map sized (firstn j ppss)))).
  { rewrite EQ. apply (seekP_ok ty s); [rewrite <- EQ; exact R|exact S2|lia]. }
  assert (LH : len hd2 = len (head ++ flat_map sized spss) + 1) by (unfold hd2; rewrite len_app; reflexivity).
  set (a := hd2 ++ flat_map sized (firstn j ppss)) in *. rewrite EP in R0. pose proof (len_nonneg a). pose proof head_pos.
  assert (LT : len a + 2 + len u <= len pl) by (rewrite EP, len_app, (len_app (sized u)); unfold sized at 1; rewrite len_app, be_len; pose proof (len_nonneg (flat_map sized (skipn (S j) ppss) ++ more)); lia).
  assert (LA : len hd2 <= len a) by (unfold a; rewrite len_app; pose proof (len_nonneg (flat_map sized (firstn j ppss))); lia).
  unfold getPPSLen, getPPS. rewrite pps_count. assert (C : len ppss <=? Z.of_nat j = false) by (unfold len; lia). rewrite C, pps_offset, pls. rewrite s32_small by lia. rewrite <- LH, SK.
  rewrite (u64_small (len a + 1)), (u64_small (len a)) by lia.
  destruct (Z.leb_spec (len pl) (len a + 1)); [lia|]. rewrite (get16_at _ _ _ _ _ _ R0 SU). unfold u32. rewrite (Z.mod_small (len u)) by lia.
  cbv zeta. rewrite Z.mod_small by lia. destruct (Z.ltb_spec (len pl) (len a + 2 + len u)); [lia|]. split; [reflexivity|]. exists (len a + 2). split; [reflexivity|].
  unfold written. destruct (Z.eqb_spec (len u) 0) as [Q|Q]; [destruct u; [reflexivity|rewrite len_cons in Q; pose proof (len_nonneg u); lia]|]. exact (unit_at _ _ _ _ _ _ R0).
Qed.
Lemma avcc_annexb : avccAnnexB b = Ok (started spss ++ started ppss).
Proof.
  unfold avccAnnexB. rewrite sps_count. rewrite (units_ok getSPS getSPSLen b spss sps_unit) by (unfold len; lia). rewrite pps_count.
  rewrite (units_ok getPPS getPPSLen b ppss pps_unit) by (unfold len; lia). reflexivity.
Qed.
End Avc.

(** ** HEVC records *)
Lemma bytes_ok ty s b : forall x a c, rep b ty (a ++ x ++ c) s -> bytes_loop (length x) (len a) b = Ok (b, x).
Proof.
  induction x as [|v x IH]; intros a c R; cbn [length bytes_loop]; [reflexivity|]. pose proof (len_nonneg a). pose proof (len_nonneg x). pose proof (len_nonneg c).
  rewrite (getInt_in _ _ _ _ 1 (len a) ltac:(lia) R) by (try lia; rewrite !len_app, len_cons; lia). rewrite dropz_app_exact by reflexivity.
  change (takez (Z.of_nat 1) ((v :: x) ++ c)) with [v]. change (unbe [v]) with (0 * 256 + v). replace (0 * 256 + v) with v by lia.
  replace (len a + 1) with (len (a ++ [v])) by (rewrite len_app; reflexivity). rewrite (IH (a ++ [v]) c); [reflexivity|]. rewrite <- app_assoc. exact R.
Qed.
Lemma nalu_ok ty s b : forall us a c, rep b ty (a ++ flat_map sized us ++ c) s -> small us -> nalu_loop (length us) (len a) b = Ok (b, len (a ++ flat_map sized us), us).
Proof.
  induction us as [|u us IH]; intros a c R S; cbn [length nalu_loop flat_map] in *; [now rewrite app_nil_r|]. inversion S as [|? ? S1 S2]; subst. pose proof (len_nonneg u).
  rewrite <- app_assoc in R. rewrite (get16_at _ _ _ _ _ _ R S1).
  assert (RB : rep b ty ((a ++ be 2 (len u)) ++ u ++ (flat_map sized us ++ c)) s) by (unfold sized in R at 1; rewrite <- !app_assoc in *; exact R).
  replace (Z.to_nat (len u)) with (length u) by (unfold len; lia). replace (len a + 2) with (len (a ++ be 2 (len u))) by (rewrite len_app, be_len; lia). rewrite (bytes_ok _ _ _ _ _ _ RB).
  replace (len (a ++ be 2 (len u)) + Z.max 0 (len u)) with (len (a ++ sized u)) by (unfold sized; rewrite !len_app; lia).
  rewrite (IH (a ++ sized u) c); [|rewrite <- app_assoc; exact R|exact S2]. rewrite <- app_assoc. reflexivity.
Qed.
Lemma arrays_ok ty s b : forall l a c, rep b ty (a ++ flat_map hevc_array l ++ c) s -> Forall array_ok l ->
  exists r, array_loop (length l) (len a) b = Ok (b, r) /\ map snd r = map snd l.
Proof.
  induction l as [|[h us] l IH]; intros a c R F; cbn [length array_loop flat_map] in *; [exists []; split; reflexivity|]. inversion F as [|? ? (F1 & F2 & F3) F4]; subst. cbn [fst snd] in *.
  pose proof (len_nonneg a). pose proof (len_nonneg us).
  assert (EA : hevc_array (h, us) = [h] ++ be 2 (len us) ++ flat_map sized us) by reflexivity. rewrite EA in R.
  assert (R1 : rep b ty (a ++ [h] ++ (be 2 (len us) ++ flat_map sized us ++ flat_map hevc_array l ++ c)) s) by (rewrite <- !app_assoc in R; exact R).
  rewrite (getInt_in _ _ _ _ 1 (len a) ltac:(lia) R1) by (try lia; rewrite !len_app; change (len [h]) with 1; pose proof (len_nonneg (flat_map sized us)); pose proof (len_nonneg (flat_map hevc_array l)); pose proof (len_nonneg c); rewrite be_len; lia).
  set (v := unbe _). clearbody v.
  assert (R2 : rep b ty ((a ++ [h]) ++ be 2 (len us) ++ (flat_map sized us ++ flat_map hevc_array l ++ c)) s) by (rewrite <- !app_assoc in *; exact R1).
  assert (G : get16 (len a + 1) b = Ok (b, len us)).
  { unfold get16. replace (len a + 1) with (len (a ++ [h])) by (rewrite len_app; reflexivity).
    rewrite (getInt_in _ _ _ _ 2 _ ltac:(lia) R2) by (rewrite ?(len_app (a ++ [h])), ?(len_app (be 2 (len us))), ?be_len; pose proof (len_nonneg (a ++ [h])); pose proof (len_nonneg (flat_map sized us ++ flat_map hevc_array l ++ c)); lia).
    cbn [fst snd]. change (Z.of_nat 2) with 2. rewrite dropz_app_exact by reflexivity. rewrite takez_app_exact by (rewrite be_len; reflexivity). rewrite unbe_be. change (256 ^ Z.of_nat 2) with 65536.
    rewrite Z.mod_small by lia. do 2 f_equal. unfold s16, u16. rewrite Z.mod_small by lia. destruct (Z.ltb_spec (len us) 32768); lia. }
  rewrite G. replace (Z.to_nat (len us)) with (length us) by (unfold len; lia). replace (len a + 3) with (len ((a ++ [h]) ++ be 2 (len us))) by (rewrite !len_app, be_len; change (len [h]) with 1; lia).
  rewrite (nalu_ok ty s b us ((a ++ [h]) ++ be 2 (len us)) (flat_map hevc_array l ++ c)); [|rewrite <- !app_assoc in *; exact R2|exact F2].
  destruct (IH (((a ++ [h]) ++ be 2 (len us)) ++ flat_map sized us) c) as (r & E & M); [rewrite <- !app_assoc in *; exact R2|exact F4|]. rewrite E.
  eexists. split; [reflexivity|]. cbn [map snd]. now rewrite M.
Qed.

(** ** Making a record *)
Lemma put_end b ty pl n v i : (0 < n)%nat -> rep b ty pl [] -> i = len pl -> i + Z.of_nat n + 8 < 2 ^ 31 -> exists b', setInt n v i b = Ok b' /\ rep b' ty (pl ++ be n v) [].
Proof.
  intros Hn R -> H. destruct (setInt_end b ty pl [] n v (len pl) Hn R ltac:(lia) ltac:(change (len (@nil Z)) with 0; lia)) as (b' & g & s' & E & R' & Lg & Z1 & _).
  destruct (Z1 eq_refl) as (-> & ->). rewrite Z.sub_diag in R'. exists b'. split; [exact E|exact R'].
Qed.
Lemma be1 v : byteP v -> be 1 v = [v].
Proof. unfold byteP. intros H. cbn [be]. change (256 ^ Z.of_nat 0) with 1. rewrite Z.div_1_r, Z.mod_small by lia. reflexivity. Qed.
Lemma put_bytes ty : forall x b pl, bytesP x -> rep b ty pl [] -> len pl + len x + 8 < 2 ^ 31 -> exists b', set_bytes x (len pl) b = Ok b' /\ rep b' ty (pl ++ x) [].
Proof.
  induction x as [|v x IH]; intros b pl B R L; cbn [set_bytes]; [exists b; rewrite app_nil_r; split; [reflexivity|exact R]|].
  inversion B as [|? ? B1 B2]; subst. rewrite len_cons in L. pose proof (len_nonneg x). destruct (put_end b ty pl 1 v (len pl) ltac:(lia) R eq_refl ltac:(lia)) as (b1 & E1 & R1). rewrite E1. rewrite be1 in R1 by exact B1.
  destruct (IH b1 (pl ++ [v]) B2 R1) as (b2 & E2 & R2); [rewrite len_app; change (len [v]) with 1; lia|]. rewrite len_app in E2. change (len [v]) with 1 in E2. rewrite E2. exists b2. split; [reflexivity|].
  rewrite <- app_assoc in R2. exact R2.
Qed.
Lemma count_at b ty s h0 h1 h2 h3 h4 n rest : rep b ty ([h0; h1; h2; h3; h4; 0xE0 + n] ++ rest) s -> 0 <= n <= 31 -> getSPSCount b = Ok (b, n).
Proof.
  intros R H. unfold getSPSCount. rewrite (getInt_in _ _ _ _ 1 5 ltac:(lia) R) by (try lia; rewrite len_app; change (len [h0; h1; h2; h3; h4; 224 + n]) with 6; pose proof (len_nonneg rest); lia).
  cbn [fst snd]. change (takez (Z.of_nat 1) (dropz 5 ([h0; h1; h2; h3; h4; 224 + n] ++ rest))) with [224 + n]. change (unbe [224 + n]) with (0 * 256 + (224 + n)). do 2 f_equal. rewrite land_31. lia.
Qed.
Lemma offset_at b ty s h0 h1 h2 h3 h4 us c : rep b ty ([h0; h1; h2; h3; h4; 0xE0 + len us] ++ flat_map sized us ++ c) s -> small us -> len us <= 31 ->
  PPSCountOffset b = Ok (b, len ([h0; h1; h2; h3; h4; 0xE0 + len us] ++ flat_map sized us)).
Proof.
  intros R S N. pose proof (len_nonneg us). unfold PPSCountOffset. rewrite (count_at _ _ _ _ _ _ _ _ _ _ R) by lia. set (head := [h0; h1; h2; h3; h4; 224 + len us]) in *.
  pose proof R as (_ & _ & L). pose proof (len_nonneg s). pose proof (len_nonneg (head ++ flat_map sized us ++ c)).
  unfold payloadSize. rewrite (rep_size _ _ _ _ R), (rep_off _ _ _ _ R). rewrite u64_small by lia. replace (8 + len (head ++ flat_map sized us ++ c) - 8) with (len (head ++ flat_map sized us ++ c)) by lia.
  change 6 with (len head). rewrite (seek_ok ty s 1 b us head c _ R S) by (unfold len; lia). rewrite firstn_all2 by (unfold len; lia).
  destruct (Z.ltb_spec (len (head ++ flat_map sized us ++ c)) (len (head ++ flat_map sized us))) as [Q|Q]; [|reflexivity].
  rewrite !len_app in Q. pose proof (len_nonneg c). lia.
Qed.
Lemma make_ok p0 p1 p2 p3 sps pps : bytesP (p0 :: p1 :: p2 :: p3 :: sps) -> bytesP pps -> len (p0 :: p1 :: p2 :: p3 :: sps) < 2 ^ 15 -> len pps < 2 ^ 15 ->
  makeInit (p0 :: p1 :: p2 :: p3 :: sps) pps = Ok (avc_record p1 p2 p3 4 [p0 :: p1 :: p2 :: p3 :: sps] [pps] []).
Proof.
  intros B1 B2 L1 L2. set (SP := p0 :: p1 :: p2 :: p3 :: sps) in *. pose proof (len_nonneg SP). pose proof (len_nonneg pps).
  assert (BP : byteP p1 /\ byteP p2 /\ byteP p3) by (unfold SP in B1; inversion B1 as [|? ? _ Q1]; subst; inversion Q1 as [|? ? X1 Q2]; subst; inversion Q2 as [|? ? X2 Q3]; subst; inversion Q3; subst; tauto).
  destruct BP as (P1 & P2 & P3). unfold makeInit. destruct new_avcc as (b0 & -> & R0).
  assert (A1 : at_string SP 1 = Ok p1) by (unfold at_string, SP; rewrite !len_cons; pose proof (len_nonneg sps); replace (1 <? _) with true by lia; unfold getb; rewrite rd_some by (rewrite !len_cons; lia); reflexivity).
  assert (A2 : at_string SP 2 = Ok p2) by (unfold at_string, SP; rewrite !len_cons; pose proof (len_nonneg sps); replace (2 <? _) with true by lia; unfold getb; rewrite rd_some by (rewrite !len_cons; lia); reflexivity).
  assert (A3 : at_string SP 3 = Ok p3) by (unfold at_string, SP; rewrite !len_cons; pose proof (len_nonneg sps); replace (3 <? _) with true by lia; unfold getb; rewrite rd_some by (rewrite !len_cons; lia); reflexivity).
  destruct (setInt_in _ _ _ _ 1 1 0 ltac:(lia) R0 ltac:(lia) ltac:(vm_compute; discriminate)) as (b1 & -> & R1). change (splice [0; 0; 0; 0; 255] 0 (be 1 1)) with [1; 0; 0; 0; 255] in R1. rewrite A1.
  destruct (setInt_in _ _ _ _ 1 p1 1 ltac:(lia) R1 ltac:(lia) ltac:(vm_compute; discriminate)) as (b2 & -> & R2). rewrite (be1 p1 P1) in R2. change (splice [1; 0; 0; 0; 255] 1 [p1]) with [1; p1; 0; 0; 255] in R2. rewrite A2.
  destruct (setInt_in _ _ _ _ 1 p2 2 ltac:(lia) R2 ltac:(lia) ltac:(vm_compute; discriminate)) as (b3 & -> & R3). rewrite (be1 p2 P2) in R3. change (splice [1; p1; 0; 0; 255] 2 [p2]) with [1; p1; p2; 0; 255] in R3. rewrite A3.
  destruct (setInt_in _ _ _ _ 1 p3 3 ltac:(lia) R3 ltac:(lia) ltac:(vm_compute; discriminate)) as (b4 & -> & R4). rewrite (be1 p3 P3) in R4. change (splice [1; p1; p2; 0; 255] 3 [p3]) with [1; p1; p2; p3; 255] in R4.
  destruct (put_end _ _ _ 1 (1 .| 0xE0) 5 ltac:(lia) R4 eq_refl ltac:(lia)) as (b5 & -> & R5). change ([1; p1; p2; p3; 255] ++ be 1 (1 .| 224)) with [1; p1; p2; p3; 255; 224 + 1] in R5.
  set (head := [1; p1; p2; p3; 255; 224 + 1]) in *.
  assert (C5 : getSPSCount b5 = Ok (b5, 1)) by (apply (count_at b5 (bs "avcC") [] 1 p1 p2 p3 255 1 []); [rewrite app_nil_r; exact R5|lia]).
  unfold setSPS. rewrite C5. cbn [fst snd].
  destruct (put_end _ _ _ 2 (len SP) 6 ltac:(lia) R5 eq_refl ltac:(lia)) as (b6 & -> & R6).
  destruct (put_bytes _ SP b6 (head ++ be 2 (len SP)) B1 R6) as (b7 & E7 & R7); [rewrite len_app, be_len; change (len head) with 6; lia|].
  change 8 with (len (head ++ be 2 (len SP))) at 1. rewrite E7.
  assert (R7' : rep b7 (bs "avcC") (head ++ flat_map sized [SP] ++ []) []) by (cbn [flat_map]; unfold sized; rewrite !app_nil_r; rewrite <- app_assoc in R7; exact R7).
  assert (SM : small [SP]) by (constructor; [exact L1|constructor]).
  unfold setPPSCount. rewrite (offset_at b7 (bs "avcC") [] 1 p1 p2 p3 255 [SP] [] R7' SM ltac:(vm_compute; discriminate)). cbn [fst snd].
  change [1; p1; p2; p3; 255; 224 + len [SP]] with head. set (A := head ++ flat_map sized [SP]).
  assert (RA : rep b7 (bs "avcC") A []) by (rewrite app_nil_r in R7'; exact R7').
  assert (LA : len A = 8 + len SP) by (unfold A; cbn [flat_map]; unfold sized; rewrite !len_app, be_len; change (len head) with 6; change (len (@nil Z)) with 0; lia).
  destruct (put_end _ _ _ 1 1 (len A) ltac:(lia) RA eq_refl ltac:(lia)) as (b8 & -> & R8). change (be 1 1) with [1] in R8.
  assert (R8' : rep b8 (bs "avcC") (head ++ flat_map sized [SP] ++ [1]) []) by (unfold A in R8; rewrite <- app_assoc in R8; exact R8).
  unfold setPPS, getPPSCount. pose proof (offset_at b8 (bs "avcC") [] 1 p1 p2 p3 255 [SP] [1] R8' SM ltac:(vm_compute; discriminate)) as O8. change [1; p1; p2; p3; 255; 224 + len [SP]] with head in O8. fold A in O8. rewrite O8.
  destruct (Z.eqb_spec (len A) 0); [lia|]. rewrite (getInt_in _ _ _ _ 1 (len A) ltac:(lia) R8) by (try lia; rewrite len_app; change (len [1]) with 1; lia). cbn [fst snd]. rewrite O8.
  destruct (put_end _ _ _ 2 (len pps) (len A + 1) ltac:(lia) R8 ltac:(rewrite len_app; reflexivity) ltac:(lia)) as (b9 & -> & R9).
  destruct (put_bytes _ pps b9 ((A ++ [1]) ++ be 2 (len pps)) B2 R9) as (b10 & E10 & R10); [rewrite !len_app, be_len; change (len [1]) with 1; lia|].
  replace (len A + 1 + 2) with (len ((A ++ [1]) ++ be 2 (len pps))) by (rewrite !len_app, be_len; change (len [1]) with 1; lia). rewrite E10.
  pose proof R10 as (EB & _ & _). unfold payloadSize. rewrite (rep_size _ _ _ _ R10), (rep_off _ _ _ _ R10).
  set (PL := ((A ++ [1]) ++ be 2 (len pps)) ++ pps) in *. assert (LP : len PL = 11 + len SP + len pps) by (unfold PL; rewrite !len_app, be_len; change (len [1]) with 1; lia).
  rewrite u64_small by lia. replace (8 + len PL - 8) with (len PL) by lia.
  pose proof (rep_get b10 (bs "avcC") [] PL [] [] (len PL)) as G. change (len (@nil Z)) with 0 in G. rewrite Z.add_0_r in G. rewrite G; [|cbn [app]; rewrite app_nil_r; exact R10|reflexivity].
  f_equal. unfold PL, A, avc_record, head. change (252 + (4 - 1)) with 255. change (224 + len [SP]) with (224 + 1). change (len [pps]) with 1. cbn [flat_map]. unfold sized. rewrite !app_nil_r, <- !app_assoc. reflexivity.
Qed.

(** ** From init data *)
Lemma avcc_init profile compat level n spss ppss more : small spss -> small ppss -> len spss <= 31 -> len ppss <= 255 ->
  len (avc_record profile compat level n spss ppss more) + 8 < 2 ^ 31 ->
  avccInit (avc_record profile compat level n spss ppss more) = Ok (started spss ++ started ppss).
Proof.
  intros S1 S2 N1 N2 L. unfold avccInit. destruct new_avcc as (b0 & -> & R0).
  assert (G : 5 < len (avc_record profile compat level n spss ppss more)).
  { unfold avc_record. rewrite !len_app. change (len [1; profile; compat; level; 252 + (n - 1); 224 + len spss]) with 6. pose proof (len_nonneg (flat_map sized spss)). pose proof (len_nonneg (flat_map sized ppss)). pose proof (len_nonneg more). change (len [len ppss]) with 1. lia. }
  destruct (setPayload_ok b0 _ _ _ R0 G L) as (b1 & ty & -> & R1).
  unfold avc_record in R1. exact (avcc_annexb 1 profile compat level (252 + (n - 1)) spss ppss more b1 ty [] R1 S1 S2 N1).
Qed.
Lemma hvcc_init general arrays : len general = 22 -> Forall array_ok arrays -> len arrays < 256 -> len (hevc_record general arrays) + 8 < 2 ^ 31 ->
  hvccInit (hevc_record general arrays) = Ok (started (flat_map snd arrays)).
Proof.
  intros LG F N L. unfold hvccInit. destruct new_hvcc as (b0 & -> & R0). pose proof (len_nonneg arrays).
  assert (G : len (@nil Z) < len (hevc_record general arrays)) by (unfold hevc_record; rewrite !len_app; change (len [len arrays]) with 1; change (len (@nil Z)) with 0; pose proof (len_nonneg (flat_map hevc_array arrays)); lia).
  destruct (setPayload_ok b0 _ _ _ R0 G L) as (b1 & ty & -> & R1). unfold hvccAnnexB, getArrays, hevc_record in *.
  rewrite (getInt_in _ _ _ _ 1 22 ltac:(lia) R1) by (try lia; rewrite !len_app; change (len [len arrays]) with 1; pose proof (len_nonneg (flat_map hevc_array arrays)); lia). cbn [fst snd].
  rewrite <- LG at 1. rewrite dropz_app_exact by reflexivity. rewrite takez_app_exact by reflexivity. change (unbe [len arrays]) with (0 * 256 + len arrays).
  replace (Z.to_nat (0 * 256 + len arrays)) with (length arrays) by (unfold len; lia). rewrite app_assoc in R1.
  replace 23 with (len (general ++ [len arrays])) by (rewrite len_app; change (len [len arrays]) with 1; lia).
  destruct (arrays_ok ty [] b1 arrays (general ++ [len arrays]) []) as (r & E & M); [rewrite app_nil_r; exact R1|exact F|]. rewrite E. cbn [snd]. f_equal.
  unfold started. clear - M. revert arrays M. induction r as [|x r IH]; intros [|a l] M; try discriminate; [reflexivity|]. cbn [map] in M. cbn [flat_map]. rewrite flat_map_app.
  assert (Q : snd x = snd a) by congruence. rewrite Q, <- (IH l) by congruence. reflexivity.
Qed.
