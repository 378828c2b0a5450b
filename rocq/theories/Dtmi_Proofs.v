(** Proofs about packing and about scanning well formed bytes. *)
From Verif Require Import Common CommonFacts CommonMore Mem_Model Mem_Proofs Outcome_Model JsonVal_Model Dtmi_Model Scan_Model Dtmi_Spec.

Lemma returns_ext {A} (F G : nat -> res A) x : (forall f, F f = G f) -> returns G x -> returns F x.
Proof. intros E [n H]. exists n. intros k K. rewrite E. auto. Qed.
Lemma returns_step {A} (F G : nat -> res A) x : (forall f, F (S f) = G f) -> returns G x -> returns F x.
Proof. intros E [n H]. exists (S n). intros [|k] K; [lia|]. rewrite E. apply H. lia. Qed.
Lemma returns_ok {A} (x : A) : returns (fun _ => Ok x) x.
Proof. exists O. reflexivity. Qed.
Lemma returns_bind {A B} (F : nat -> res A) (G : A -> nat -> res B) a b :
  returns F a -> returns (G a) b -> returns (fun f => x <~ F f;; G x f) b.
Proof. intros [n H] [n' H']. exists (n + n')%nat. intros k K. rewrite H by lia. apply H'. lia. Qed.
Lemma returns_unique {A} (F : nat -> res A) x y : returns F x -> returns F y -> x = y.
Proof. intros [n H] [k K]. specialize (H (n + k)%nat ltac:(lia)). specialize (K (n + k)%nat ltac:(lia)). congruence. Qed.

Section WInd.
Context (P : wv -> Prop).
Context (Hint : forall n, P (WInt n)) (Hstr : forall s, P (WStr s)) (Hnull : P WNull) (Hdbl : forall d, P (WDbl d)).
Context (Hobj : forall t l, Forall (fun e => P (snd e)) l -> P (WObj t l)) (Harr : forall l, Forall P l -> P (WArr l)).
Fixpoint wv_induction (v : wv) : P v :=
  match v with
  | WInt n => Hint n | WStr s => Hstr s | WNull => Hnull | WDbl d => Hdbl d
  | WObj t l => Hobj t l ((fix go l : Forall (fun e => P (snd e)) l :=
      match l with [] => Forall_nil _ | e :: r => Forall_cons e (wv_induction (snd e)) (go r) end) l)
  | WArr l => Harr l ((fix go l : Forall P l :=
      match l with [] => Forall_nil _ | e :: r => Forall_cons e (wv_induction e) (go r) end) l)
  end.
End WInd.

Section JInd.
Context (P : jv -> Prop).
Context (Hu : P JUnset) (Hn : P JNull) (Hb : forall b, P (JBool b)) (Hi : forall n, P (JInt n)) (Hd : forall d, P (JDbl d))
  (Hs : forall s, P (JStr s)).
Context (Ho : forall l, Forall (fun e => P (snd e)) l -> P (JObj l)) (Ha : forall l, Forall P l -> P (JArr l)).
Fixpoint jv_induction (v : jv) : P v :=
  match v with
  | JUnset => Hu | JNull => Hn | JBool b => Hb b | JInt n => Hi n | JDbl d => Hd d | JStr s => Hs s
  | JObj l => Ho l ((fix go l : Forall (fun e => P (snd e)) l :=
      match l with [] => Forall_nil _ | e :: r => Forall_cons e (jv_induction (snd e)) (go r) end) l)
  | JArr l => Ha l ((fix go l : Forall P l :=
      match l with [] => Forall_nil _ | e :: r => Forall_cons e (jv_induction e) (go r) end) l)
  end.
End JInd.

(** [xs] is found at address [p] of [m]. *)
Definition has (m : list Z) (p : Z) (xs : list Z) : Prop := exists a b, m = a ++ xs ++ b /\ len a = p.

Lemma has_app m p xs ys : has m p (xs ++ ys) <-> has m p xs /\ has m (p + len xs) ys.
Proof.
  split.
  - intros (a & b & -> & <-). split.
    + exists a, (ys ++ b). now rewrite <- !app_assoc.
    + exists (a ++ xs), b. rewrite <- !app_assoc. split; [reflexivity|]. now rewrite len_app.
  - intros [(a & b & -> & <-) (a' & b' & E & L)].
    exists a, b'. split; [|reflexivity].
    assert (a' = a ++ xs).
    { pose proof (f_equal (takez (len a')) E) as T. rewrite (takez_app_exact a') in T by reflexivity.
      rewrite <- T, app_assoc. rewrite takez_app_exact; [reflexivity|]. rewrite len_app. lia. }
    subst a'. rewrite <- !app_assoc in E. rewrite E. now rewrite <- !app_assoc.
Qed.
Lemma has_nonneg m p xs : has m p xs -> 0 <= p /\ p + len xs <= len m.
Proof. intros (a & b & -> & <-). rewrite !len_app. pose proof (len_nonneg a). pose proof (len_nonneg b). lia. Qed.
Lemma has_cons m p x xs : has m p (x :: xs) <-> has m p [x] /\ has m (p + 1) xs.
Proof. change (x :: xs) with ([x] ++ xs). rewrite has_app. reflexivity. Qed.
Lemma has_getn m p xs n : has m p xs -> n = len xs -> getn m p n = Ok xs.
Proof.
  intros H ->. pose proof (has_nonneg _ _ _ H) as [K1 K2]. destruct H as (a & b & -> & <-).
  unfold getn. pose proof (len_nonneg xs). rewrite peek_some by assumption.
  rewrite dropz_app_exact by reflexivity. now rewrite takez_app_exact by reflexivity.
Qed.
Lemma has_getb m p x xs : has m p (x :: xs) -> getb m p = Ok x.
Proof.
  intros (a & b & -> & <-). unfold getb. rewrite rd_some by (rewrite !len_app, len_cons; pose proof (len_nonneg a); pose proof (len_nonneg xs); pose proof (len_nonneg b); lia).
  rewrite nthz_app2 by lia. rewrite Z.sub_diag. reflexivity.
Qed.
Lemma has_getbe m p (n : nat) v xs w : has m p (be n v ++ xs) -> w = Z.of_nat n -> getbe m p w = Ok (v mod 256 ^ Z.of_nat n).
Proof.
  intros H ->. apply has_app in H as [H _]. unfold getbe. rewrite (has_getn _ _ (be n v)); [|assumption|now rewrite be_len].
  now rewrite unbe_be.
Qed.
Lemma has_bytes m p xs : bytesP m -> has m p xs -> bytesP xs.
Proof. intros B (a & b & -> & _). rewrite !bytesP_app in B. tauto. Qed.
Lemma has_self xs : has xs 0 xs.
Proof. exists [], []. now rewrite app_nil_r. Qed.
Lemma has_sub m p xs q ys : has m p xs -> has xs q ys -> has m (p + q) ys.
Proof. intros (a & b & -> & <-) (c & d & -> & <-). exists (a ++ c), (d ++ b). rewrite <- !app_assoc, len_app. auto. Qed.
Lemma has_mid a xs b p : p = len a -> has (a ++ xs ++ b) p xs.
Proof. intros ->. now exists a, b. Qed.

Lemma s64_mod n : - 2 ^ 63 <= n < 2 ^ 63 -> s64 (n mod 2 ^ 64) = n.
Proof. intros H. unfold s64, u64. change (2 ^ 64) with 18446744073709551616. change (2 ^ 63) with 9223372036854775808 in H. cbv zeta. dif; lia. Qed.

(** ** Encodings *)
Definition encm (e : list Z * wv) : list Z := be 2 (len (fst e)) ++ fst e ++ enc (snd e).
Lemma enc_obj t l : enc (WObj t l) = t :: flat_map encm l ++ [0; 0; 238]. Proof. reflexivity. Qed.

Lemma enc_pos v : 1 <= len (enc v).
Proof. destruct v; cbn [enc]; rewrite ?len_cons; match goal with |- context [1 + len ?x] => pose proof (len_nonneg x); lia | _ => idtac end. Qed.
Lemma be2 n : 0 <= n < 65536 -> be 2 n = [n / 256; n mod 256].
Proof. intros H. cbn. f_equal; [lia|]. f_equal. lia. Qed.
Lemma enc_tag v : wok v -> exists t r, enc v = t :: r /\ 0 < t < 256.
Proof. intros H. inversion H; subst; cbn [enc]; eexists _, _; (split; [reflexivity|lia]). Qed.

Lemma len_flat {A} (f : A -> list Z) l : len (flat_map f l) = fold_right (fun e r => len (f e) + r) 0 l.
Proof. induction l as [|e l IH]; [reflexivity|]. cbn [flat_map fold_right]. rewrite len_app. lia. Qed.

(** ** Skipping *)
Section Skip.
Context (m : list Z) (Hm : bytesP m) (max : Z).

Definition skips v := wok v -> forall p, has m p (enc v) -> p + len (enc v) < max ->
  returns (fun f => skip m max f p) (Some (p + len (enc v))).

Lemma skip_members l : Forall (fun e => skips (snd e)) l ->
  Forall (fun e => 0 < len (fst e) < 65536 /\ bytesP (fst e) /\ wok (snd e)) l ->
  forall p, has m p (flat_map encm l ++ [0; 0; 238]) -> p + len (flat_map encm l) + 3 <= max ->
  returns (fun f => skip_obj m max f p) (Some (p + len (flat_map encm l) + 3)).
Proof.
  induction l as [|[k v] l IH]; intros S W p H M.
  - cbn [flat_map app] in H. change (len (flat_map encm [])) with 0 in *.
    eapply returns_step; [intros f; cbn [skip_obj]; reflexivity|].
    replace (p <? max) with true by lia.
    rewrite (has_getb _ _ _ _ H). apply has_cons in H as [_ H]. rewrite (has_getb _ _ _ _ H).
    change (0 + 0 =? 0) with true. cbv iota. replace (p + 0 + 3) with (p + 3) by lia. apply returns_ok.
  - inversion S as [|? ? S1 S2]; subst. inversion W as [|? ? W1 W2]; subst. cbn [fst snd] in *.
    destruct W1 as (Wk & Wb & Wv).
    cbn [flat_map] in *. unfold encm at 1 in H. unfold encm at 1 in M. unfold encm at 1. cbn [fst snd] in *.
    rewrite !len_app, be_len in *. change (Z.of_nat 2) with 2 in *.
    pose proof (len_nonneg (flat_map encm l)) as L0.
    eapply returns_step; [intros f; cbn [skip_obj]; reflexivity|].
    replace (p <? max) with true by (pose proof (enc_pos v); lia).
    rewrite <- !app_assoc in H.
    pose proof H as H'. rewrite be2 in H' by lia. cbn [app] in H'.
    rewrite (has_getb _ _ _ _ H'). apply has_cons in H' as [_ H']. rewrite (has_getb _ _ _ _ H').
    replace (len k / 256 + len k mod 256 =? 0) with false by lia.
    replace (max <=? p + 2) with false by (pose proof (enc_pos v); lia).
    rewrite (has_getbe _ _ 2 _ _ _ H) by reflexivity.
    replace (len k mod 256 ^ Z.of_nat 2) with (len k) by (change (256 ^ Z.of_nat 2) with 65536; lia).
    apply has_app in H as [_ H]. rewrite be_len in H. change (Z.of_nat 2) with 2 in H.
    apply has_app in H as [_ H]. apply has_app in H as [Hv Hr].
    replace (p + (2 + len k)) with (p + 2 + len k) by lia.
    eapply returns_bind.
    + apply (S1 Wv); [exact Hv|]. lia.
    + cbv beta iota. eapply (returns_ext _ _ _ (fun f => eq_refl)).
      replace (Some (p + (2 + (len k + len (enc v)) + len (flat_map encm l)) + 3))
        with (Some (p + 2 + len k + len (enc v) + len (flat_map encm l) + 3)) by (f_equal; lia).
      apply IH; [assumption|assumption|exact Hr|lia].
Qed.

Lemma skip_elems l : Forall skips l -> Forall wok l ->
  forall p, has m p (flat_map enc l ++ [0; 0; 238]) -> p + len (flat_map enc l) + 3 <= max ->
  returns (fun f => skip_arr m max f p) (Some (p + len (flat_map enc l) + 3)).
Proof.
  induction l as [|v l IH]; intros S W p H M.
  - cbn [flat_map app] in H. change (len (flat_map enc [])) with 0 in *.
    eapply returns_step; [intros f; cbn [skip_arr]; reflexivity|].
    replace (p <? max) with true by lia.
    rewrite (has_getb _ _ _ _ H). apply has_cons in H as [_ H]. rewrite (has_getb _ _ _ _ H).
    change (0 + 0 =? 0) with true. cbv iota. replace (p + 0 + 3) with (p + 3) by lia. apply returns_ok.
  - inversion S as [|? ? S1 S2]; subst. inversion W as [|? ? W1 W2]; subst.
    cbn [flat_map] in *. rewrite !len_app in *. rewrite <- app_assoc in H.
    pose proof (len_nonneg (flat_map enc l)) as L0.
    eapply returns_step; [intros f; cbn [skip_arr]; reflexivity|].
    pose proof (enc_pos v). replace (p <? max) with true by lia.
    destruct (enc_tag v W1) as (t & r & E & T).
    assert (B : exists b r', (r ++ flat_map enc l ++ [0; 0; 238]) = b :: r').
    { destruct r; [|now eexists _, _]. destruct (flat_map enc l); now eexists _, _. }
    destruct B as (b & r' & B).
    pose proof H as H'. rewrite E in H'. cbn [app] in H'. rewrite (has_getb _ _ _ _ H').
    apply has_cons in H' as [_ H']. rewrite B in H'. rewrite (has_getb _ _ _ _ H').
    destruct (t + b =? 0) eqn:Z0.
    { exfalso. (* a byte is not negative *)
      apply (has_bytes _ _ _ Hm) in H'. apply bytesP_cons in H' as [H' _]. unfold byteP in H'. lia. }
    apply has_app in H as [Hv Hr].
    eapply returns_bind.
    + apply (S1 W1); [exact Hv|lia].
    + cbv beta iota.
      replace (Some (p + (len (enc v) + len (flat_map enc l)) + 3)) with (Some (p + len (enc v) + len (flat_map enc l) + 3)) by (f_equal; lia).
      apply IH; [assumption|assumption|exact Hr|lia].
Qed.

Lemma skip_enc v : skips v.
Proof.
  induction v as [n|s| |d|t l IH|l IH] using wv_induction; intros W p H M; pose proof (enc_pos v) as Hp || pose proof (enc_pos WNull) as Hp || idtac.
  - eapply returns_step; [intros f; cbn [skip]; reflexivity|]. cbn [enc] in *. rewrite len_cons, be_len in *. replace (max <=? p + 1) with false by lia.
    rewrite (has_getb _ _ _ _ H). cbn. replace (p + 9) with (p + 9) by lia. apply returns_ok.
  - eapply returns_step; [intros f; cbn [skip]; reflexivity|]. cbn [enc] in *. rewrite len_cons, len_app, be_len in *. change (Z.of_nat 4) with 4 in *.
    pose proof (len_nonneg s). replace (max <=? p + 1) with false by lia.
    rewrite (has_getb _ _ _ _ H). change (2 =? 0) with false. change ((2 =? 1) || (2 =? 4)) with false. change (2 =? 3) with false. change (2 =? 2) with true. cbv iota.
    replace (max <=? p + 4) with false by lia. apply has_cons in H as [_ H]. rewrite (has_getbe _ _ 4 _ _ _ H) by reflexivity.
    inversion W; subst. replace (len s mod 256 ^ Z.of_nat 4) with (len s) by (change (256 ^ Z.of_nat 4) with 4294967296; change (2 ^ 32) with 4294967296 in *; lia).
    replace (p + (1 + (4 + len s))) with (p + 5 + len s) by lia. apply returns_ok.
  - eapply returns_step; [intros f; cbn [skip]; reflexivity|]. cbn [enc] in *. change (len [3]) with 1 in *. replace (max <=? p + 1) with false by lia.
    rewrite (has_getb _ _ _ _ H). cbn. apply returns_ok.
  - eapply returns_step; [intros f; cbn [skip]; reflexivity|]. cbn [enc] in *. rewrite len_cons, be_len in *. replace (max <=? p + 1) with false by lia.
    rewrite (has_getb _ _ _ _ H). cbn. apply returns_ok.
  - eapply returns_step; [intros f; cbn [skip]; reflexivity|]. rewrite enc_obj in *. rewrite len_cons, len_app in *. change (len [0; 0; 238]) with 3 in *.
    pose proof (len_nonneg (flat_map encm l)). replace (max <=? p + 1) with false by lia.
    rewrite (has_getb _ _ _ _ H). apply has_cons in H as [_ H]. inversion W as [| | | |t' l' T F|]; subst.
    replace (t =? 0) with false by lia. replace ((t =? 1) || (t =? 4)) with false by lia. replace (t =? 3) with false by lia.
    replace (t =? 2) with false by lia. replace ((t =? 224) || (t =? 255)) with true by lia.
    replace (p + (1 + (len (flat_map encm l) + 3))) with (p + 1 + len (flat_map encm l) + 3) by lia.
    apply skip_members; [assumption|assumption|assumption|lia].
  - eapply returns_step; [intros f; cbn [skip]; reflexivity|]. cbn [enc] in *. rewrite len_cons, len_app in *. change (len [0; 0; 238]) with 3 in *.
    pose proof (len_nonneg (flat_map enc l)). replace (max <=? p + 1) with false by lia.
    rewrite (has_getb _ _ _ _ H). apply has_cons in H as [_ H]. inversion W as [| | | | |l' F]; subst.
    cbn [Z.eqb Pos.eqb orb].
    replace (p + (1 + (len (flat_map enc l) + 3))) with (p + 1 + len (flat_map enc l) + 3) by lia.
    apply skip_elems; [assumption|assumption|assumption|lia].
Qed.
End Skip.

(** ** Looking up *)
Section Look.
Context (m : list Z) (Hm : bytesP m).
Context {A : Type}.

Fixpoint mwalk (f : Z -> Z -> Z -> res (option A)) (out : Z -> A) (n i : Z) (l : list (list Z * wv)) : res A :=
  match l with
  | [] => Ok (out n)
  | e :: r => x <~ f n (i + 2) (len (fst e));;
    match x with Some y => Ok y | None => mwalk f out (n + 1) (i + len (encm e)) r end
  end.
Fixpoint ewalk (g : Z -> Z -> option A) (out : Z -> A) (n i : Z) (l : list wv) : res A :=
  match l with
  | [] => Ok (out n)
  | e :: r => match g n i with Some y => Ok y | None => ewalk g out (n + 1) (i + len (enc e)) r end
  end.

Lemma member_loop_walk p L f out x l :
  Forall (fun e => 0 < len (fst e) < 65536 /\ bytesP (fst e) /\ wok (snd e)) l ->
  forall n i, has m i (flat_map encm l ++ [0; 0; 238]) -> i + len (flat_map encm l) + 3 <= p + L ->
  mwalk f out n i l = Ok x -> returns (fun fu => member_loop m p L f fu n i out) x.
Proof.
  induction l as [|[k v] l IH]; intros W n i H M X.
  - cbn [flat_map app] in H. cbn [mwalk] in X. injection X as <-.
    eapply returns_step; [intros fu; cbn [member_loop]; reflexivity|].
    rewrite (has_getb _ _ _ _ H). apply has_cons in H as [_ H]. rewrite (has_getb _ _ _ _ H).
    cbn. apply returns_ok.
  - inversion W as [|? ? W1 W2]; subst. cbn [fst snd] in *. destruct W1 as (Wk & Wb & Wv).
    cbn [flat_map mwalk] in *. rewrite len_app in M.
    assert (EL : len (encm (k, v)) = 2 + len k + len (enc v)).
    { unfold encm. cbn [fst snd]. rewrite !len_app, be_len. lia. }
    pose proof (enc_pos v). pose proof (len_nonneg (flat_map encm l)) as L0.
    eapply returns_step; [intros fu; cbn [member_loop]; reflexivity|].
    unfold encm at 1 in H. cbn [fst snd] in H. rewrite <- !app_assoc in H.
    pose proof H as H'. rewrite be2 in H' by lia. cbn [app] in H'.
    rewrite (has_getb _ _ _ _ H'). apply has_cons in H' as [_ H']. rewrite (has_getb _ _ _ _ H').
    replace (len k / 256 + len k mod 256 =? 0) with false by lia.
    replace (i <? p + L) with true by lia. replace (p + L <=? i + 2) with false by lia. cbn [negb andb].
    rewrite (has_getbe _ _ 2 _ _ _ H) by reflexivity.
    replace (len k mod 256 ^ Z.of_nat 2) with (len k) by (change (256 ^ Z.of_nat 2) with 65536; lia).
    apply has_app in H as [_ H]. rewrite be_len in H. change (Z.of_nat 2) with 2 in H.
    apply has_app in H as [_ H]. apply has_app in H as [Hv Hr].
    change (fst (k, v)) with k in X.
    destruct (f n (i + 2) (len k)) as [| |[y|]]; try discriminate.
    { injection X as <-. apply returns_ok. }
    eapply returns_bind.
    + apply (skip_enc m Hm _ v Wv); [exact Hv|lia].
    + cbv beta iota. apply IH; [assumption|exact Hr|lia|].
      replace (i + 2 + len k + len (enc v)) with (i + len (encm (k, v))) by lia. exact X.
Qed.

Lemma elem_loop_walk p L g out x l : Forall wok l ->
  forall n i, has m i (flat_map enc l ++ [0; 0; 238]) -> i + len (flat_map enc l) + 3 <= p + L ->
  ewalk g out n i l = Ok x -> returns (fun fu => elem_loop m p L g fu n i out) x.
Proof.
  induction l as [|v l IH]; intros W n i H M X.
  - cbn [flat_map app] in H. cbn [ewalk] in X. injection X as <-.
    eapply returns_step; [intros fu; cbn [elem_loop]; reflexivity|].
    rewrite (has_getb _ _ _ _ H). apply has_cons in H as [_ H]. rewrite (has_getb _ _ _ _ H).
    cbn. apply returns_ok.
  - inversion W as [|? ? W1 W2]; subst.
    cbn [flat_map ewalk] in *. rewrite len_app in M. rewrite <- app_assoc in H.
    pose proof (enc_pos v). pose proof (len_nonneg (flat_map enc l)) as L0.
    eapply returns_step; [intros fu; cbn [elem_loop]; reflexivity|].
    destruct (enc_tag v W1) as (t & r & E & T).
    assert (B : exists b r', (r ++ flat_map enc l ++ [0; 0; 238]) = b :: r').
    { destruct r; [|now eexists _, _]. destruct (flat_map enc l); now eexists _, _. }
    destruct B as (b & r' & B).
    pose proof H as H'. rewrite E in H'. cbn [app] in H'. rewrite (has_getb _ _ _ _ H').
    apply has_cons in H' as [_ H']. rewrite B in H'. rewrite (has_getb _ _ _ _ H').
    assert (Z0 : t + b =? 0 = false).
    { apply (has_bytes _ _ _ Hm) in H'. apply bytesP_cons in H' as [H' _]. unfold byteP in H'. lia. }
    rewrite Z0. replace (i <? p + L) with true by lia. cbn [negb andb].
    apply has_app in H as [Hv Hr].
    destruct (g n i) as [y|].
    { injection X as <-. apply returns_ok. }
    eapply returns_bind.
    + apply (skip_enc m Hm _ v W1); [exact Hv|lia].
    + cbv beta iota. apply IH; [assumption|exact Hr|lia|exact X].
Qed.
End Look.
