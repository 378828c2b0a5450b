(** Decoding what was packed. *)
From Verif Require Import Common CommonFacts CommonMore Mem_Model Mem_Proofs Outcome_Model JsonVal_Model Dtmi_Model Scan_Model Dtmi_Spec Dtmi_Proofs.

(** What the decoder makes of a tree. *)
Fixpoint unwire (w : wv) : jv :=
  match w with
  | WInt n => JInt n | WStr s => JStr s | WNull => JNull | WDbl d => JDbl d
  | WArr l => fold_left (fun r x => jappend r x) (map unwire l) JUnset
  | WObj _ l => fold_left (fun r e => jset (fst e) (snd e) r) (map (fun e => (fst e, unwire (snd e))) l) JUnset
  end.

Section Dec.
Context (m : list Z) (Hm : bytesP m) (L : Z) (HL : L < 2 ^ 32).

Definition decs w := wok w -> forall p, has m p (enc w) -> p + len (enc w) <= L ->
  returns (fun f => dec m L f p) (unwire w, p + len (enc w)).

Lemma dec_members l : Forall (fun e => decs (snd e)) l ->
  Forall (fun e => 0 < len (fst e) < 65536 /\ bytesP (fst e) /\ wok (snd e)) l ->
  forall ret p, has m p (flat_map encm l ++ [0; 0; 238]) -> p + len (flat_map encm l) + 3 <= L ->
  returns (fun f => dec_obj m L f ret p)
    (fold_left (fun r e => jset (fst e) (snd e) r) (map (fun e => (fst e, unwire (snd e))) l) ret, p + len (flat_map encm l) + 3).
Proof.
  change (2 ^ 32) with 4294967296 in HL.
  induction l as [|[k v] l IH]; intros S W ret p H M; pose proof (has_nonneg _ _ _ H) as [P0 _].
  - cbn [flat_map app] in H. change (len (flat_map encm [])) with 0 in *.
    eapply returns_step; [intros f; cbn [dec_obj]; reflexivity|].
    rewrite (has_getb _ _ _ _ H). apply has_cons in H as [_ H]. rewrite u32_id by lia. rewrite (has_getb _ _ _ _ H).
    change (0 + 0 =? 0) with true. cbn [negb andb map fold_left]. rewrite u32_id by lia. replace (p + 0 + 3) with (p + 3) by lia. apply returns_ok.
  - inversion S as [|? ? S1 S2]; subst. inversion W as [|? ? W1 W2]; subst. cbn [fst snd] in *.
    destruct W1 as (Wk & Wb & Wv).
    cbn [flat_map] in *. unfold encm at 1 in H. unfold encm at 1 in M. unfold encm at 1. cbn [fst snd] in *.
    rewrite !len_app, be_len in *. change (Z.of_nat 2) with 2 in *.
    pose proof (len_nonneg (flat_map encm l)) as L0. pose proof (enc_pos v).
    eapply returns_step; [intros f; cbn [dec_obj]; reflexivity|].
    rewrite <- !app_assoc in H.
    pose proof H as H'. rewrite be2 in H' by lia. cbn [app] in H'.
    rewrite (has_getb _ _ _ _ H'). apply has_cons in H' as [_ H']. rewrite u32_id by lia. rewrite (has_getb _ _ _ _ H').
    replace (len k / 256 + len k mod 256 =? 0) with false by lia.
    replace (p <? L) with true by lia. cbn [negb andb]. rewrite u32_id by lia.
    replace (L <=? p + 2) with false by lia.
    rewrite (has_getbe _ _ 2 _ _ _ H) by reflexivity.
    replace (len k mod 256 ^ Z.of_nat 2) with (len k) by (change (256 ^ Z.of_nat 2) with 65536; lia).
    apply has_app in H as [_ H]. rewrite be_len in H. change (Z.of_nat 2) with 2 in H.
    apply has_app in H as [Hk H]. rewrite (has_getn _ _ k) by auto. apply has_app in H as [Hv Hr].
    rewrite u32_id by lia.
    replace (p + len k + 2) with (p + 2 + len k) by lia.
    eapply returns_bind.
    + apply (S1 Wv); [exact Hv|]. lia.
    + cbn [fst snd map fold_left].
      replace (p + (2 + (len k + len (enc v)) + len (flat_map encm l)) + 3)
        with (p + 2 + len k + len (enc v) + len (flat_map encm l) + 3) by lia.
      apply IH; [assumption|assumption|exact Hr|lia].
Qed.

Lemma dec_elems l : Forall decs l -> Forall wok l ->
  forall ret p, has m p (flat_map enc l ++ [0; 0; 238]) -> p + len (flat_map enc l) + 3 <= L ->
  returns (fun f => dec_arr m L f ret p)
    (fold_left (fun r x => jappend r x) (map unwire l) ret, p + len (flat_map enc l) + 3).
Proof.
  change (2 ^ 32) with 4294967296 in HL.
  induction l as [|v l IH]; intros S W ret p H M; pose proof (has_nonneg _ _ _ H) as [P0 _].
  - cbn [flat_map app] in H. change (len (flat_map enc [])) with 0 in *.
    eapply returns_step; [intros f; cbn [dec_arr]; reflexivity|].
    rewrite (has_getb _ _ _ _ H). apply has_cons in H as [_ H]. rewrite u32_id by lia. rewrite (has_getb _ _ _ _ H).
    change (0 + 0 =? 0) with true. cbn [negb andb map fold_left]. rewrite u32_id by lia. replace (p + 0 + 3) with (p + 3) by lia. apply returns_ok.
  - inversion S as [|? ? S1 S2]; subst. inversion W as [|? ? W1 W2]; subst.
    cbn [flat_map] in *. rewrite !len_app in *. rewrite <- app_assoc in H.
    pose proof (len_nonneg (flat_map enc l)) as L0.
    eapply returns_step; [intros f; cbn [dec_arr]; reflexivity|].
    pose proof (enc_pos v).
    destruct (enc_tag v W1) as (t & r & E & T).
    assert (B : exists b r', (r ++ flat_map enc l ++ [0; 0; 238]) = b :: r').
    { destruct r; [|now eexists _, _]. destruct (flat_map enc l); now eexists _, _. }
    destruct B as (b & r' & B).
    pose proof H as H'. rewrite E in H'. cbn [app] in H'. rewrite (has_getb _ _ _ _ H').
    apply has_cons in H' as [_ H']. rewrite B in H'. rewrite u32_id by lia. rewrite (has_getb _ _ _ _ H').
    assert (Z0 : t + b =? 0 = false).
    { apply (has_bytes _ _ _ Hm) in H'. apply bytesP_cons in H' as [H' _]. unfold byteP in H'. lia. }
    rewrite Z0. replace (p <? L) with true by lia. cbn [negb andb].
    apply has_app in H as [Hv Hr].
    eapply returns_bind.
    + apply (S1 W1); [exact Hv|lia].
    + cbn [fst snd map fold_left].
      replace (p + (len (enc v) + len (flat_map enc l)) + 3) with (p + len (enc v) + len (flat_map enc l) + 3) by lia.
      apply IH; [assumption|assumption|exact Hr|lia].
Qed.

Lemma dec_enc w : decs w.
Proof.
  induction w as [n|s| |d|t l IH|l IH] using wv_induction; intros W p H M; pose proof (has_nonneg _ _ _ H) as [P0 _];
    change (2 ^ 32) with 4294967296 in HL;
    (eapply returns_step; [intros f; cbn [dec]; reflexivity|]).
  - cbn [enc unwire] in *. rewrite len_cons, be_len in *. change (Z.of_nat 8) with 8 in *. replace (L <=? p) with false by lia.
    rewrite (has_getb _ _ _ _ H). change (1 =? 1) with true. cbv iota. rewrite u32_id by lia. replace (L <=? p + 8) with false by lia.
    apply has_cons in H as [_ H]. rewrite <- (app_nil_r (be 8 n)) in H. rewrite (has_getbe _ _ 8 _ _ _ H) by reflexivity.
    inversion W; subst. change (256 ^ Z.of_nat 8) with (2 ^ 64). rewrite s64_mod by assumption. unfold u32.
    replace ((p + 9) mod 4294967296) with (p + (1 + 8)) by (destruct (p + 9 =? 4294967296) eqn:?; lia). apply returns_ok.
  - cbn [enc unwire] in *. rewrite len_cons, len_app, be_len in *. change (Z.of_nat 4) with 4 in *.
    pose proof (len_nonneg s). replace (L <=? p) with false by lia.
    rewrite (has_getb _ _ _ _ H). change (2 =? 1) with false. change (2 =? 2) with true. cbv iota.
    rewrite u32_id by lia. replace (L <=? p + 4) with false by lia. apply has_cons in H as [_ H]. rewrite (has_getbe _ _ 4 _ _ _ H) by reflexivity.
    inversion W; subst. replace (len s mod 256 ^ Z.of_nat 4) with (len s) by (change (256 ^ Z.of_nat 4) with 4294967296; change (2 ^ 32) with 4294967296 in *; lia).
    apply has_app in H as [_ H]. rewrite be_len in H. replace (p + 1 + Z.of_nat 4) with (p + 5) in H by lia. rewrite (has_getn _ _ s) by auto.
    rewrite u32_id by lia. replace (L <=? p + 4 + len s) with false by lia. rewrite u32_id by lia.
    replace (p + (1 + (4 + len s))) with (p + len s + 5) by lia. apply returns_ok.
  - cbn [enc unwire] in *. change (len [3]) with 1 in *. replace (L <=? p) with false by lia.
    rewrite (has_getb _ _ _ _ H). cbn [Z.eqb Pos.eqb]. rewrite u32_id by lia. apply returns_ok.
  - cbn [enc unwire] in *. rewrite len_cons, be_len in *. change (Z.of_nat 8) with 8 in *. replace (L <=? p) with false by lia.
    rewrite (has_getb _ _ _ _ H). cbn [Z.eqb Pos.eqb]. rewrite u32_id by lia. replace (L <=? p + 8) with false by lia.
    apply has_cons in H as [_ H]. rewrite <- (app_nil_r (be 8 d)) in H. rewrite (has_getbe _ _ 8 _ _ _ H) by reflexivity.
    inversion W; subst. change (256 ^ Z.of_nat 8) with (2 ^ 64). rewrite Z.mod_small by assumption. rewrite u32_id by lia.
    replace (p + (1 + 8)) with (p + 9) by lia. apply returns_ok.
  - rewrite enc_obj in *. rewrite len_cons, len_app in *. change (len [0; 0; 238]) with 3 in *.
    pose proof (len_nonneg (flat_map encm l)). replace (L <=? p) with false by lia.
    rewrite (has_getb _ _ _ _ H). apply has_cons in H as [_ H]. inversion W as [| | | |t' l' T F|]; subst.
    replace (t =? 1) with false by lia. replace (t =? 2) with false by lia. replace (t =? 3) with false by lia.
    replace (t =? 4) with false by lia. replace ((t =? 255) || (t =? 224)) with true by lia.
    rewrite u32_id by lia.
    replace (p + (1 + (len (flat_map encm l) + 3))) with (p + 1 + len (flat_map encm l) + 3) by lia.
    apply dec_members; [assumption|assumption|assumption|lia].
  - cbn [enc unwire] in *. rewrite len_cons, len_app in *. change (len [0; 0; 238]) with 3 in *.
    pose proof (len_nonneg (flat_map enc l)). replace (L <=? p) with false by lia.
    rewrite (has_getb _ _ _ _ H). apply has_cons in H as [_ H]. inversion W as [| | | | |l' F]; subst.
    cbn [Z.eqb Pos.eqb orb]. rewrite u32_id by lia.
    replace (p + (1 + (len (flat_map enc l) + 3))) with (p + 1 + len (flat_map enc l) + 3) by lia.
    apply dec_elems; [assumption|assumption|assumption|lia].
Qed.
End Dec.

(** ** Values *)
Lemma sltb_irrefl a : sltb a a = false.
Proof. induction a as [|x a IH]; [reflexivity|]. cbn. rewrite IH. lia. Qed.
Lemma sltb_trans a : forall b c, sltb a b = true -> sltb b c = true -> sltb a c = true.
Proof.
  induction a as [|x a IH]; intros [|y b] [|z c]; cbn; try discriminate; try reflexivity.
  intros H1 H2. destruct (x <? z) eqn:E; [reflexivity|]. cbn.
  destruct (x <? y) eqn:E1; cbn in H1.
  - destruct (y <? z) eqn:E2; cbn in H2; [lia|]. destruct (y =? z) eqn:E3; cbn in H2; [lia|discriminate].
  - destruct (x =? y) eqn:E3; cbn in H1; [|discriminate]. destruct (y <? z) eqn:E2; cbn in H2; [lia|].
    destruct (y =? z) eqn:E4; cbn in H2; [|discriminate]. replace (x =? z) with true by lia. cbn. eapply IH; eassumption.
Qed.
Lemma sltb_not_eq a b : sltb a b = true -> beqb b a = false /\ sltb b a = false.
Proof.
  intros H. split.
  - destruct (beqb b a) eqn:E; [|reflexivity]. apply beqb_eq in E as ->. now rewrite sltb_irrefl in H.
  - destruct (sltb b a) eqn:E; [|reflexivity]. pose proof (sltb_trans _ _ _ H E) as T. now rewrite sltb_irrefl in T.
Qed.
Lemma oset_last k v l : (forall e, In e l -> sltb (fst e) k = true) -> oset k v l = l ++ [(k, v)].
Proof.
  induction l as [|[k' v'] l IH]; intros H; [reflexivity|]. cbn [oset app].
  destruct (sltb_not_eq k' k (H (k', v') (or_introl eq_refl))) as [-> ->]. f_equal. apply IH. intros e I. apply H. now right.
Qed.
Lemma increasing_head a l : increasing (a :: l) -> forall x, In x l -> sltb a x = true.
Proof.
  revert a. induction l as [|b l IH]; intros a H x I; [destruct I|]. destruct H as [H1 H2].
  destruct I as [<-|I]; [exact H1|]. eapply sltb_trans; [exact H1|]. now apply IH.
Qed.
Lemma increasing_tail a l : increasing (a :: l) -> increasing l.
Proof. destruct l; [trivial|]. now intros []. Qed.
Lemma fold_jset l : forall acc, (forall e x, In e acc -> In x l -> sltb (fst e) (fst x) = true) -> increasing (map fst l) ->
  fold_left (fun r e => jset (fst e) (snd e) r) l (JObj acc) = JObj (acc ++ l).
Proof.
  induction l as [|[k v] l IH]; intros acc H I; cbn [fold_left]; [now rewrite app_nil_r|].
  cbn [jset fst snd]. rewrite oset_last by (intros e E; apply (H e (k, v)); [assumption|now left]).
  rewrite IH.
  - now rewrite <- app_assoc.
  - intros e x E X. apply in_app_iff in E as [E|[<-|[]]].
    + apply H; [assumption|now right].
    + cbn [fst map] in *. eapply increasing_head; [exact I|]. now apply in_map.
  - cbn [map] in I. eapply increasing_tail; exact I.
Qed.
Lemma fold_jset_unset l : l <> [] -> increasing (map fst l) ->
  fold_left (fun r e => jset (fst e) (snd e) r) l JUnset = JObj l.
Proof.
  destruct l as [|[k v] l]; [congruence|]. intros _ I. cbn [fold_left jset fst snd].
  rewrite fold_jset; [reflexivity| |].
  - intros e x [<-|[]] X. cbn [fst map] in *. eapply increasing_head; [exact I|]. now apply in_map.
  - cbn [map] in I. eapply increasing_tail; exact I.
Qed.
Lemma fold_jappend l : forall acc, fold_left (fun r x => jappend r x) l (JArr acc) = JArr (acc ++ l).
Proof. induction l as [|x l IH]; intros acc; cbn [fold_left]; [now rewrite app_nil_r|]. cbn [jappend]. rewrite IH. now rewrite <- app_assoc. Qed.
Lemma fold_jappend_unset l : l <> [] -> fold_left (fun r x => jappend r x) l JUnset = JArr l.
Proof. destruct l as [|x l]; [congruence|]. intros _. cbn [fold_left jappend]. now rewrite fold_jappend. Qed.

Lemma unwire_wire v : packable v -> unwire (wire v) = v.
Proof.
  induction v as [| |b|n|d|s|l IH|l IH] using jv_induction; intros P; inversion P as [|?|?|l' N F|l' N I F]; subst; cbn [wire unwire]; try reflexivity.
  - assert (E : map (fun e => (fst e, unwire (snd e))) (map (fun e => (fst e, wire (snd e))) l) = l).
    { rewrite map_map. cbn [fst snd]. clear N I P. induction l as [|[k x] l IHl]; [reflexivity|].
      inversion IH as [|? ? IH1 IH2]; subst. inversion F as [|? ? (_ & _ & F1) F2]; subst. cbn [map fst snd] in *.
      rewrite IH1 by assumption. f_equal. now apply IHl. }
    rewrite E. apply fold_jset_unset; assumption.
  - assert (E : map unwire (map wire l) = l).
    { rewrite map_map. clear N P. induction l as [|x l IHl]; [reflexivity|].
      inversion IH as [|? ? IH1 IH2]; subst. inversion F as [|? ? F1 F2]; subst. cbn [map].
      rewrite IH1 by assumption. f_equal. now apply IHl. }
    rewrite E. now apply fold_jappend_unset.
Qed.

Lemma wok_wire v : packable v -> wok (wire v).
Proof.
  induction v as [| |b|n|d|s|l IH|l IH] using jv_induction; intros P; inversion P as [|?|?|l' N F|l' N I F]; subst; cbn [wire]; try (constructor; assumption).
  - constructor; [now left|]. apply Forall_map. clear N I P. induction l as [|[k x] l IHl]; [constructor|].
    inversion IH as [|? ? IH1 IH2]; subst. inversion F as [|? ? (F0 & FB & F1) F2]; subst. cbn [fst snd] in *.
    apply Forall_cons; [cbn [fst snd]; auto|]. now apply IHl.
  - constructor. apply Forall_map. clear N P. induction l as [|x l IHl]; [constructor|].
    inversion IH; subst. inversion F; subst. constructor; auto.
Qed.

Lemma toPacked_wire v : packable v -> toPacked v = enc (wire v).
Proof.
  induction v as [| |b|n|d|s|l IH|l IH] using jv_induction; intros P; inversion P as [|?|?|l' N F|l' N I F]; subst; cbn [wire toPacked enc]; try reflexivity.
  - f_equal. f_equal. clear N I P. induction l as [|[k x] l IHl]; [reflexivity|].
    inversion IH as [|? ? IH1 IH2]; subst. inversion F as [|? ? (F0 & FB & F1) F2]; subst. cbn [fst snd flat_map map] in *.
    rewrite <- IHl by assumption. f_equal. rewrite IH1 by assumption. destruct k as [|c k]; [change (len (@nil Z)) with 0 in F0; lia|].
    rewrite be2 by lia. unfold u8. rewrite (Z.mod_small (len (c :: k) / 256)) by lia. rewrite <- ?app_assoc. reflexivity.
  - f_equal. f_equal. clear N P. induction l as [|x l IHl]; [reflexivity|].
    inversion IH as [|? ? IH1 IH2]; subst. inversion F as [|? ? F1 F2]; subst. cbn [flat_map map].
    rewrite IH1 by assumption. f_equal. now apply IHl.
Qed.

Lemma enc_bytes v : packable v -> bytesP (enc (wire v)).
Proof.
  induction v as [| |b|n|d|s|l IH|l IH] using jv_induction; intros P; inversion P as [|?|?|l' N F|l' N I F]; subst; cbn [wire enc].
  - now apply all_bytes_ok.
  - apply bytesP_cons. split; [unfold byteP; lia|apply be_bytes].
  - apply bytesP_cons. split; [unfold byteP; lia|]. apply bytesP_app. split; [apply be_bytes|assumption].
  - apply bytesP_cons. split; [unfold byteP; lia|]. apply bytesP_app. split; [|now apply all_bytes_ok].
    clear N I P. induction l as [|[k x] l IHl]; [constructor|].
    inversion IH as [|? ? IH1 IH2]; subst. inversion F as [|? ? (F0 & FB & F1) F2]; subst. cbn [fst snd flat_map map] in *.
    rewrite !bytesP_app. split; [|now apply IHl]. split; [apply be_bytes|]. split; [assumption|auto].
  - apply bytesP_cons. split; [unfold byteP; lia|]. apply bytesP_app. split; [|now apply all_bytes_ok].
    clear N P. induction l as [|x l IHl]; [constructor|].
    inversion IH as [|? ? IH1 IH2]; subst. inversion F as [|? ? F1 F2]; subst. cbn [flat_map map].
    rewrite bytesP_app. split; [auto|now apply IHl].
Qed.

Lemma packedSize_ok v : no_double v -> packedSize v = len (toPacked v).
Proof.
  induction v as [| |b|n|d|s|l IH|l IH] using jv_induction; intros P; inversion P as [| | | | |l' F|l' F]; subst; cbn [packedSize toPacked]; try reflexivity.
  - rewrite len_cons, len_app, be_len. lia.
  - rewrite len_cons, len_app. change (len [0; 0; 238]) with 3.
    match goal with |- _ = 1 + (len ?x + 3) => replace (1 + (len x + 3)) with (4 + len x) by lia end.
    generalize 4. clear P. induction l as [|[k x] l IHl]; intros z; [cbn; lia|].
    inversion IH as [|? ? IH1 IH2]; subst. inversion F as [|? ? F1 F2]; subst. cbn [flat_map fold_left fst snd] in *.
    rewrite IHl by assumption. rewrite len_app. destruct k as [|c k]; [change (len (@nil Z)) with 0; lia|].
    rewrite !len_app, IH1 by assumption. match goal with |- context [len [?a; ?b]] => change (len [a; b]) with 2 end. lia.
  - rewrite len_cons, len_app. change (len [0; 0; 238]) with 3.
    match goal with |- _ = 1 + (len ?x + 3) => replace (1 + (len x + 3)) with (4 + len x) by lia end.
    generalize 4. clear P. induction l as [|x l IHl]; intros z; [cbn; lia|].
    inversion IH as [|? ? IH1 IH2]; subst. inversion F as [|? ? F1 F2]; subst. cbn [flat_map fold_left] in *.
    rewrite IHl by assumption. rewrite len_app, IH1 by assumption. lia.
Qed.

(** ** The announced results *)
Theorem pack_then_decode v : packable v -> len (toPacked v) < 2 ^ 32 -> returns (fun f => fromDTMI f (toPacked v)) v.
Proof.
  intros P B. unfold fromDTMI. rewrite (toPacked_wire v P) in *.
  replace (returns _ v) with (returns (fun f => r <~ dec (enc (wire v) ++ [0]) (len (enc (wire v))) f 0;; Ok (fst r)) (unwire (wire v))) by now rewrite unwire_wire.
  eapply (returns_bind _ (fun r _ => Ok (fst r))).
  - assert (HM : bytesP (enc (wire v) ++ [0])) by (apply bytesP_app; split; [now apply enc_bytes|now apply all_bytes_ok]).
    apply (dec_enc _ HM _ B (wire v) (wok_wire v P) 0); [|lia].
    apply (has_mid [] (enc (wire v)) [0]). reflexivity.
  - apply returns_ok.
Qed.
