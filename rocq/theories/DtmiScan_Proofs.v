(** The lookup functions report exactly the tree that was written. *)
From Verif Require Import Common CommonFacts CommonMore Mem_Model Mem_Proofs Outcome_Model JsonVal_Model Dtmi_Model Scan_Model Dtmi_Spec Dtmi_Proofs.

Section Walk.
Context {A : Type} (f : Z -> Z -> Z -> res (option A)) (out : Z -> A).
Lemma mwalk_hit l1 : forall n i k v l2 y,
  (forall a b c, l1 = a ++ b :: c -> f (n + len a) (i + len (flat_map encm a) + 2) (len (fst b)) = Ok None) ->
  f (n + len l1) (i + len (flat_map encm l1) + 2) (len k) = Ok (Some y) ->
  mwalk f out n i (l1 ++ (k, v) :: l2) = Ok y.
Proof.
  induction l1 as [|e l1 IH]; intros n i k v l2 y H Y.
  - cbn [app mwalk fst]. change (len (@nil (list Z * wv))) with 0 in Y. change (len (flat_map encm [])) with 0 in Y.
    rewrite !Z.add_0_r in Y. now rewrite Y.
  - cbn [app mwalk]. pose proof (H [] e l1 eq_refl) as H0. change (len (@nil (list Z * wv))) with 0 in H0. change (len (flat_map encm [])) with 0 in H0.
    rewrite !Z.add_0_r in H0. rewrite H0. apply IH.
    + intros a b c E. specialize (H (e :: a) b c). cbn [app flat_map] in H. rewrite len_cons, len_app in H. rewrite E in H. specialize (H eq_refl).
      replace (n + 1 + len a) with (n + (1 + len a)) by lia.
      replace (i + len (encm e) + len (flat_map encm a) + 2) with (i + (len (encm e) + len (flat_map encm a)) + 2) by lia. exact H.
    + cbn [flat_map] in Y. rewrite len_cons, len_app in Y.
      replace (n + 1 + len l1) with (n + (1 + len l1)) by lia.
      replace (i + len (encm e) + len (flat_map encm l1) + 2) with (i + (len (encm e) + len (flat_map encm l1)) + 2) by lia. exact Y.
Qed.
Lemma mwalk_miss l : forall n i,
  (forall a b c, l = a ++ b :: c -> f (n + len a) (i + len (flat_map encm a) + 2) (len (fst b)) = Ok None) ->
  mwalk f out n i l = Ok (out (n + len l)).
Proof.
  induction l as [|e l IH]; intros n i H.
  - cbn [mwalk]. change (len (@nil (list Z * wv))) with 0. now rewrite Z.add_0_r.
  - cbn [mwalk]. pose proof (H [] e l eq_refl) as H0. change (len (@nil (list Z * wv))) with 0 in H0. change (len (flat_map encm [])) with 0 in H0.
    rewrite !Z.add_0_r in H0. rewrite H0. rewrite IH.
    + rewrite len_cons. do 2 f_equal. lia.
    + intros a b c E. specialize (H (e :: a) b c). cbn [app flat_map] in H. rewrite len_cons, len_app in H. rewrite E in H. specialize (H eq_refl).
      replace (n + 1 + len a) with (n + (1 + len a)) by lia.
      replace (i + len (encm e) + len (flat_map encm a) + 2) with (i + (len (encm e) + len (flat_map encm a)) + 2) by lia. exact H.
Qed.
End Walk.
Section EWalk.
Context {A : Type} (out : Z -> A) (g : Z -> Z -> option A).
Lemma ewalk_hit l1 : forall n i v l2 y,
  (forall a b c, l1 = a ++ b :: c -> g (n + len a) (i + len (flat_map enc a)) = None) ->
  g (n + len l1) (i + len (flat_map enc l1)) = Some y ->
  ewalk g out n i (l1 ++ v :: l2) = Ok y.
Proof.
  induction l1 as [|e l1 IH]; intros n i v l2 y H Y.
  - cbn [app ewalk]. change (len (@nil wv)) with 0 in Y. change (len (flat_map enc [])) with 0 in Y.
    rewrite !Z.add_0_r in Y. now rewrite Y.
  - cbn [app ewalk]. pose proof (H [] e l1 eq_refl) as H0. change (len (@nil wv)) with 0 in H0. change (len (flat_map enc [])) with 0 in H0.
    rewrite !Z.add_0_r in H0. rewrite H0. apply IH.
    + intros a b c E. specialize (H (e :: a) b c). cbn [app flat_map] in H. rewrite len_cons, len_app in H. rewrite E in H. specialize (H eq_refl).
      replace (n + 1 + len a) with (n + (1 + len a)) by lia.
      replace (i + len (enc e) + len (flat_map enc a)) with (i + (len (enc e) + len (flat_map enc a))) by lia. exact H.
    + cbn [flat_map] in Y. rewrite len_cons, len_app in Y.
      replace (n + 1 + len l1) with (n + (1 + len l1)) by lia.
      replace (i + len (enc e) + len (flat_map enc l1)) with (i + (len (enc e) + len (flat_map enc l1))) by lia. exact Y.
Qed.
Lemma ewalk_miss l : forall n i,
  (forall a b c, l = a ++ b :: c -> g (n + len a) (i + len (flat_map enc a)) = None) ->
  ewalk g out n i l = Ok (out (n + len l)).
Proof.
  induction l as [|e l IH]; intros n i H.
  - cbn [ewalk]. change (len (@nil wv)) with 0. now rewrite Z.add_0_r.
  - cbn [ewalk]. pose proof (H [] e l eq_refl) as H0. change (len (@nil wv)) with 0 in H0. change (len (flat_map enc [])) with 0 in H0.
    rewrite !Z.add_0_r in H0. rewrite H0. rewrite IH.
    + rewrite len_cons. do 2 f_equal. lia.
    + intros a b c E. specialize (H (e :: a) b c). cbn [app flat_map] in H. rewrite len_cons, len_app in H. rewrite E in H. specialize (H eq_refl).
      replace (n + 1 + len a) with (n + (1 + len a)) by lia.
      replace (i + len (enc e) + len (flat_map enc a)) with (i + (len (enc e) + len (flat_map enc a))) by lia. exact H.
Qed.
End EWalk.

Lemma name_at_has m name : ~ In 0 name -> forall k i, has m i k -> len k = len name -> name_at m name i = Ok (beqb name k).
Proof.
  induction name as [|c r IH]; intros N k i H L.
  - destruct k; [reflexivity|]. rewrite len_cons in L. change (len (@nil Z)) with 0 in L. pose proof (len_nonneg k). lia.
  - destruct k as [|b k]. { rewrite len_cons in L. change (len (@nil Z)) with 0 in L. pose proof (len_nonneg r). lia. }
    rewrite !len_cons in L. cbn [name_at]. rewrite (has_getb _ _ _ _ H). apply has_cons in H as [_ H].
    cbn [beqb]. destruct (c =? b) eqn:E; cbn [negb andb]; [|reflexivity].
    assert (c <> 0) by (intros ->; apply N; now left). replace (c =? 0) with false by lia.
    apply IH; [|assumption|lia]. intros I. apply N. now right.
Qed.

Lemma first_of_some k l v : first_of k l = Some v -> exists l1 l2, l = l1 ++ (k, v) :: l2 /\ first_of k l1 = None.
Proof.
  induction l as [|[k' v'] l IH]; cbn [first_of]; [discriminate|].
  destruct (beqb k k') eqn:E.
  - intros [= ->]. apply beqb_eq in E as <-. exists [], l. auto.
  - intros H. destruct (IH H) as (l1 & l2 & -> & N). exists ((k', v') :: l1), l2. split; [reflexivity|]. cbn [first_of]. now rewrite E.
Qed.
Lemma first_of_none k l : first_of k l = None -> forall a b c, l = a ++ b :: c -> beqb k (fst b) = false.
Proof.
  intros H a b c ->. induction a as [|[k' v'] a IH]; cbn [app first_of] in H.
  - destruct b as [k' v']. cbn [first_of fst] in *. destruct (beqb k k'); [discriminate|reflexivity].
  - destruct (beqb k k'); [discriminate|]. auto.
Qed.

Lemma has_at_member m i a b c t : has m i (flat_map encm (a ++ b :: c) ++ t) ->
  has m (i + len (flat_map encm a) + 2) (fst b ++ enc (snd b)) /\ has m (i + len (flat_map encm a)) (encm b).
Proof.
  intros H. rewrite flat_map_app in H. cbn [flat_map] in H. rewrite <- !app_assoc in H.
  apply has_app in H as [_ H]. apply has_app in H as [H _]. split; [|exact H].
  unfold encm in H at 2. apply has_app in H as [_ H]. rewrite be_len in H. exact H.
Qed.
Lemma len_flat_app {A} (f : A -> list Z) a b c : len (flat_map f (a ++ b :: c)) = len (flat_map f a) + len (f b) + len (flat_map f c).
Proof. rewrite flat_map_app, len_app. cbn [flat_map]. rewrite len_app. lia. Qed.
Lemma app_nth {A} (l : list A) j e : nth_error l j = Some e -> exists a c, l = a ++ e :: c /\ len a = Z.of_nat j.
Proof. intros H. apply nth_error_split in H as (a & c & -> & L). exists a, c. unfold len. rewrite L. auto. Qed.

Section Reads.
Context (m : list Z) (Hm : bytesP m).

Lemma getType_at p L t r : has m p (t :: r) -> getType m (Some (mkScan p L)) = Ok t.
Proof. apply has_getb. Qed.

Theorem reads_enc v : wok v -> forall p L, has m p (enc v) -> len (enc v) <= L -> reads m (Some (mkScan p L)) v.
Proof.
  induction v as [n|s| |d|t l IH|l IH] using wv_induction; intros W p L H M.
  - cbn [enc] in H. apply reads_int; [eapply getType_at; exact H|].
    intros dd tt. unfold asInt. rewrite (getType_at p L _ _ H). change (1 =? 1) with true. cbv iota. cbn [sp].
    apply has_cons in H as [_ H]. rewrite <- (app_nil_r (be 8 n)) in H. rewrite (has_getbe _ _ 8 _ _ _ H) by reflexivity.
    inversion W; subst. change (256 ^ Z.of_nat 8) with (2 ^ 64). now rewrite s64_mod.
  - cbn [enc] in H. apply reads_str; [eapply getType_at; exact H|].
    unfold getText, getString. rewrite (getType_at p L _ _ H). change (2 =? 2) with true. cbv iota. cbn [sp].
    apply has_cons in H as [_ H]. rewrite (has_getbe _ _ 4 _ _ _ H) by reflexivity.
    inversion W; subst. pose proof (len_nonneg s).
    replace (len s mod 256 ^ Z.of_nat 4) with (len s) by (change (256 ^ Z.of_nat 4) with 4294967296; change (2 ^ 32) with 4294967296 in *; lia).
    cbn [fst snd]. destruct (len s =? 0) eqn:E.
    { f_equal. symmetry. apply len_zero. lia. }
    apply has_app in H as [_ H]. rewrite be_len in H. replace (p + 1 + Z.of_nat 4) with (p + 5) in H by lia.
    now apply has_getn.
  - apply reads_null. eapply getType_at; exact H.
  - cbn [enc] in H. apply reads_dbl; [eapply getType_at; exact H|].
    intros dd tt. unfold asInt. rewrite (getType_at p L _ _ H). change (4 =? 1) with false. change (4 =? 4) with true. cbv iota. cbn [sp].
    apply has_cons in H as [_ H]. rewrite <- (app_nil_r (be 8 d)) in H. rewrite (has_getbe _ _ 8 _ _ _ H) by reflexivity.
    inversion W; subst. change (256 ^ Z.of_nat 8) with (2 ^ 64). now rewrite Z.mod_small.
  - rewrite enc_obj in H, M. rewrite len_cons, len_app in M. change (len [0; 0; 238]) with 3 in M.
    inversion W as [| | | |t' l' T F|]; subst. clear W.
    pose proof (getType_at p L _ _ H) as Ty.
    apply has_cons in H as [_ H].
    assert (To : is_obj t = true) by (unfold is_obj; lia). assert (Ta : (t =? 10) = false) by lia.
    assert (Len : p + 1 + len (flat_map encm l) + 3 <= p + L) by lia.
    assert (HIT : forall a k w c, l = a ++ (k, w) :: c -> forall x, x = mkScan (p + 1 + len (flat_map encm a) + 2 + len k) (L - (p + 1 + len (flat_map encm a) + 2 - p)) -> reads m (Some x) w).
    { intros a k w c -> x ->. rewrite Forall_app in IH, F. destruct IH as [_ IH]. destruct F as [_ F].
      inversion IH as [|? ? IH1 _]; subst. inversion F as [|? ? (F1 & F2 & F3) _]; subst. cbn [fst snd] in *.
      apply IH1; [assumption| |].
      - apply has_at_member in H as [H _]. cbn [fst snd] in H. apply has_app in H as [_ H]. exact H.
      - rewrite len_flat_app in Len. unfold encm at 2 in Len. cbn [fst snd] in Len. rewrite !len_app, be_len in Len.
        pose proof (len_nonneg (flat_map encm c)). lia. }
    apply reads_obj; [exact Ty| | | | |].
    + unfold getSize. eapply returns_ext; [intros f; rewrite Ty, Ta, To; reflexivity|].
      apply (member_loop_walk m Hm p L _ _ _ l F 0 (p + 1) H Len).
      rewrite mwalk_miss by reflexivity. pose proof (len_nonneg l). f_equal. replace (0 + len l =? -1) with false by lia. lia.
    + intros i k w N. apply app_nth in N as (a & c & E & La). split.
      * unfold getIndiceName. eapply returns_ext; [intros f; rewrite Ty, To; reflexivity|].
        apply (member_loop_walk m Hm p L _ _ _ l F 0 (p + 1) H Len).
        rewrite E. apply mwalk_hit.
        -- intros a' b' c' E'. replace (0 + len a' =? Z.of_nat i) with false; [reflexivity|].
           rewrite E' in La. rewrite len_app, len_cons in La. pose proof (len_nonneg c'). lia.
        -- replace (0 + len a =? Z.of_nat i) with true by lia. rewrite E in H.
           apply has_at_member in H as [H _]. cbn [fst snd] in H. apply has_app in H as [H _].
           rewrite (has_getn _ _ k) by auto. reflexivity.
      * exists (mkScan (p + 1 + len (flat_map encm a) + 2 + len k) (L - (p + 1 + len (flat_map encm a) + 2 - p))).
        split; [|eapply HIT; [exact E|reflexivity]].
        unfold getIndice. eapply returns_ext; [intros f; rewrite Ty, Ta, To; reflexivity|].
        apply (member_loop_walk m Hm p L _ _ _ l F 0 (p + 1) H Len).
        rewrite E. apply mwalk_hit.
        -- intros a' b' c' E'. replace (0 + len a' =? Z.of_nat i) with false; [reflexivity|].
           rewrite E' in La. rewrite len_app, len_cons in La. pose proof (len_nonneg c'). lia.
        -- replace (0 + len a =? Z.of_nat i) with true by lia. reflexivity.
    + intros i I. unfold getIndice. eapply returns_ext; [intros f; rewrite Ty, Ta, To; reflexivity|].
      apply (member_loop_walk m Hm p L _ _ _ l F 0 (p + 1) H Len).
      rewrite mwalk_miss; [reflexivity|]. intros a b c ->. rewrite len_app, len_cons in I. pose proof (len_nonneg c).
      replace (0 + len a =? i) with false by lia. reflexivity.
    + intros k w N0 FO. apply first_of_some in FO as (l1 & l2 & E & FN).
      exists (mkScan (p + 1 + len (flat_map encm l1) + 2 + len k) (L - (p + 1 + len (flat_map encm l1) + 2 - p))).
      split; [|eapply HIT; [exact E|reflexivity]].
      unfold getMember. eapply returns_ext; [intros f; rewrite Ty, To; reflexivity|].
      apply (member_loop_walk m Hm p L _ _ _ l F 0 (p + 1) H Len).
      rewrite E. apply mwalk_hit.
      * intros a b c E'. pose proof (first_of_none _ _ FN a b c E') as NE. destruct (len k =? len (fst b)) eqn:EL; [|reflexivity].
        rewrite E, E', <- app_assoc in H. apply has_at_member in H as [H _]. apply has_app in H as [H _].
        rewrite (name_at_has m k N0 (fst b)) by (auto; lia). now rewrite NE.
      * rewrite Z.eqb_refl. rewrite E in H. apply has_at_member in H as [H _]. cbn [fst snd] in H. apply has_app in H as [H _].
        rewrite (name_at_has m k N0 k) by auto. now rewrite beqb_refl.
    + intros k N0 FN. unfold getMember. eapply returns_ext; [intros f; rewrite Ty, To; reflexivity|].
      apply (member_loop_walk m Hm p L _ _ _ l F 0 (p + 1) H Len).
      rewrite mwalk_miss; [reflexivity|].
      intros a b c E'. pose proof (first_of_none _ _ FN a b c E') as NE. destruct (len k =? len (fst b)) eqn:EL; [|reflexivity].
      rewrite E' in H. apply has_at_member in H as [H _]. apply has_app in H as [H _].
      rewrite (name_at_has m k N0 (fst b)) by (auto; lia). now rewrite NE.
  - cbn [enc] in H, M. rewrite len_cons, len_app in M. change (len [0; 0; 238]) with 3 in M.
    inversion W as [| | | | |l' F]; subst. clear W.
    pose proof (getType_at p L _ _ H) as Ty.
    apply has_cons in H as [_ H].
    assert (Len : p + 1 + len (flat_map enc l) + 3 <= p + L) by lia.
    apply reads_arr; [exact Ty| | |].
    + unfold getSize. eapply returns_ext; [intros f; rewrite Ty; reflexivity|].
      apply (elem_loop_walk m Hm p L _ _ _ l F 0 (p + 1) H Len).
      rewrite ewalk_miss by (intros; reflexivity). f_equal.
    + intros i w N. apply app_nth in N as (a & c & E & La).
      exists (mkScan (p + 1 + len (flat_map enc a)) (L - (p + 1 + len (flat_map enc a) - p))). split.
      * unfold getIndice. eapply returns_ext; [intros f; rewrite Ty; reflexivity|].
        apply (elem_loop_walk m Hm p L _ _ _ l F 0 (p + 1) H Len).
        rewrite E. apply ewalk_hit.
        -- intros a' b' c' E'. replace (0 + len a' =? Z.of_nat i) with false; [reflexivity|].
           rewrite E' in La. rewrite len_app, len_cons in La. pose proof (len_nonneg c'). lia.
        -- replace (0 + len a =? Z.of_nat i) with true by lia. reflexivity.
      * rewrite E in IH, F, H, Len. rewrite Forall_app in IH, F. destruct IH as [_ IH]. destruct F as [_ F].
        inversion IH as [|? ? IH1 _]; subst. inversion F as [|? ? F1 _]; subst.
        apply IH1; [assumption| |].
        -- rewrite flat_map_app in H. cbn [flat_map] in H. rewrite <- !app_assoc in H.
           apply has_app in H as [_ H]. apply has_app in H as [H _]. exact H.
        -- rewrite len_flat_app in Len. pose proof (len_nonneg (flat_map enc c)). lia.
    + intros i I. unfold getIndice. eapply returns_ext; [intros f; rewrite Ty; reflexivity|].
      apply (elem_loop_walk m Hm p L _ _ _ l F 0 (p + 1) H Len).
      rewrite ewalk_miss; [reflexivity|]. intros a b c ->. rewrite len_app, len_cons in I. pose proof (len_nonneg c).
      replace (0 + len a =? i) with false by lia. reflexivity.
Qed.
End Reads.
