(** The JSON parser on arbitrary texts. *)
From Verif Require Import Common CommonFacts CommonMore Outcome_Model JsonVal_Model JsonText_Model Dtmi_Spec Dtmi_Proofs ScanAny_Proofs JsonText_Spec.

Definition ndigits (s : list Z) : nat := List.length (filter is_digit s).

Section Total.
Context (junk : Z).
Notation rs := (read_string junk).

Lemma rs_mono f : forall g sep st e full out, (f <= g)%nat -> rs f sep st e full out <> Stuck -> rs g sep st e full out = rs f sep st e full out.
Proof.
  induction f as [|f IH]; intros g sep st e full out L H; [now destruct H|]. destruct g as [|g]; [lia|].
  cbn [read_string] in *.
  repeat match goal with
  | |- (if ?b then _ else _) = (if ?b then _ else _) => destruct b
  | |- (let '(_, _) := ?b in _) = _ => destruct b
  | |- (match ?b with Ok _ => _ | Ub => _ | Stuck => _ end) = _ => destruct b
  | |- ?x = ?x => reflexivity
  | |- rs g _ _ _ _ _ = _ => apply IH; [lia|exact H]
  end.
Qed.

(** What is left of a stream after reading is no longer than before, and has no more digits. *)
Definition le_st (a b : stream) : Prop := (List.length (fst a) <= List.length (fst b))%nat /\ (ndigits (fst a) <= ndigits (fst b))%nat.
Lemma le_st_refl a : le_st a a. Proof. split; lia. Qed.
Lemma le_st_trans a b c : le_st a b -> le_st b c -> le_st a c.
Proof. unfold le_st. lia. Qed.
Lemma nd_cons c r : (ndigits r <= ndigits (c :: r))%nat.
Proof. unfold ndigits. cbn [filter]. destruct (is_digit c); cbn; lia. Qed.
Lemma le_st_tail c r g h : le_st (r, g) (c :: r, h).
Proof. split; cbn; [lia|apply nd_cons]. Qed.
Lemma get1_le st c st' : get1 junk st = (c, st') -> le_st st' st.
Proof. destruct st as [[|x r] []]; cbn; intros E; injection E as <- <-; first [apply le_st_refl|apply le_st_tail|split; cbn; lia]. Qed.
Definition need (st : stream) : nat := (List.length (fst st) + (if snd st then 1 else 0))%nat.
Lemma get1_need st c st' : get1 junk st = (c, st') -> (need st' <= need st)%nat.
Proof. destruct st as [[|x r] []]; cbn; intros E; injection E as <- <-; unfold need; cbn; lia. Qed.
Lemma get1_need_s st c st' : snd st = true -> get1 junk st = (c, st') -> (need st' < need st)%nat.
Proof. destruct st as [[|x r] []]; cbn; intros S E; try discriminate; injection E as <- <-; unfold need; cbn; lia. Qed.

Lemma rs_ends f : forall sep st e full out, (need st < f)%nat ->
  exists s st', rs f sep st e full out = Ok (s, st') /\ le_st st' st /\ (need st' <= need st)%nat.
Proof.
  induction f as [|f IH]; intros sep st e full out N; [lia|]. cbn [read_string].
  destruct (snd st) eqn:G; cbn [negb]; [|eexists _, _; split; [reflexivity|split; [apply le_st_refl|lia]]].
  destruct (get1 junk st) as [c st1] eqn:G1. pose proof (get1_le _ _ _ G1) as L1. pose proof (get1_need_s _ _ _ G G1) as N1.
  assert (K : forall st2 e full out, le_st st2 st -> (need st2 <= need st1)%nat -> exists s st', rs f sep st2 e full out = Ok (s, st') /\ le_st st' st /\ (need st' <= need st)%nat).
  { intros st2 e' full' out' L2 N2. destruct (IH sep st2 e' full' out') as (s & st' & E & L & M); [lia|]. exists s, st'. split; [exact E|]. split; [eapply le_st_trans; eassumption|lia]. }
  repeat match goal with
  | |- context [let '(_, _) := get1 junk ?a in _] => let c := fresh "c" in let s := fresh "st" in let E := fresh "E" in destruct (get1 junk a) as [c s] eqn:E;
      let L := fresh "L" in let M := fresh "M" in pose proof (get1_le _ _ _ E) as L; pose proof (get1_need _ _ _ E) as M
  | |- exists s st', (if ?b then _ else _) = _ /\ _ => destruct b
  | |- exists s st', (let '(_, _) := (if ?b then _ else _) in _) = _ /\ _ => destruct b
  | |- exists s st', rs f _ _ _ _ _ = _ /\ _ => apply K
  | |- exists s st', Ok _ = _ /\ _ => eexists _, _; split; [reflexivity|split]
  | |- (_ <= _)%nat => lia
  | |- le_st _ _ => unfold le_st in *; lia
  end.
Qed.

Context (D : Type) (dint : Z -> D) (dstep : D -> D -> Z -> D * D) (dbits : D -> Z).
Notation parse := (parse junk D dint dstep dbits).
Notation pst := (pst D).
Notation pst0 := (pst0 D dint).

Lemma parse_mono f : forall g p st, (f <= g)%nat -> parse f p st <> Stuck -> parse g p st = parse f p st.
Proof.
  induction f as [|f IH]; intros g p st L H; [now destruct H|]. destruct g as [|g]; [lia|].
  cbn [JsonText_Model.parse] in *.
  destruct (negb (snd st)); [reflexivity|]. destruct (fst st) as [|c r]; [apply IH; [lia|exact H]|].
  destruct (c =? ch "{"); [apply IH; [lia|exact H]|].
  destruct (c =? ch "["); [|destruct ((c =? 39) || (c =? 34))].
  - assert (N : parse f pst0 (r, true) <> Stuck) by (intros E; rewrite E in H; now apply H).
    rewrite (IH g pst0 (r, true)) by (try lia; exact N). destruct (parse f pst0 (r, true)) as [| |x]; [reflexivity|reflexivity|]. cbv iota in *. apply IH; [lia|exact H].
  - assert (N : rs f c (r, true) false 0 [] <> Stuck) by (intros E; rewrite E in H; now apply H).
    rewrite (rs_mono f g) by (try lia; exact N). destruct (rs f c (r, true) false 0 []) as [| |x]; [reflexivity|reflexivity|]. cbv iota in *.
    destruct (negb (ro D p)); [reflexivity|].
    assert (N' : parse f pst0 (snd x) <> Stuck) by (intros E; rewrite E in H; now apply H).
    rewrite (IH g pst0 (snd x)) by (try lia; exact N'). destruct (parse f pst0 (snd x)) as [| |y]; [reflexivity|reflexivity|]. cbv iota in *. apply IH; [lia|exact H].
  - destruct (c =? ch "-"); [apply IH; [lia|exact H]|].
    destruct (is_digit c); [destruct (ty D p); try (destruct (iv D p * 10 + (c - 48) <? 2 ^ 63); [apply IH; [lia|exact H]|reflexivity])|].
    { destruct (dstep (dv D p) (dd D p) (c - 48)). apply IH; [lia|exact H]. }
    destruct (c =? ch "."); [destruct (neg D p); apply IH; (lia || exact H)|].
    destruct (c =? ch ",").
    { destruct (negb (ro D p) && negb (ra D p)); [reflexivity|]. destruct (ra D p); [|apply IH; [lia|exact H]].
      assert (N : parse f pst0 (r, true) <> Stuck) by (intros E; rewrite E in H; now apply H).
      rewrite (IH g pst0 (r, true)) by (try lia; exact N). destruct (parse f pst0 (r, true)) as [| |x]; [reflexivity|reflexivity|]. cbv iota in *. apply IH; [lia|exact H]. }
    repeat match goal with |- (if ?b then _ else _) = _ => destruct b; [reflexivity|] end. apply IH; [lia|exact H].
Qed.

Lemma skip_le s : le_st (skipToEnd s) (s, true) /\ (need (skipToEnd s) <= need (s, true))%nat.
Proof.
  induction s as [|c r IH]; cbn [skipToEnd]; [split; [split; cbn; lia|unfold need; cbn; lia]|]. destruct (_ || _)%bool; [split; [apply le_st_refl|lia]|].
  destruct IH as [A B]. split; [eapply le_st_trans; [exact A|apply le_st_tail]|]. unfold need in *. cbn [fst snd List.length] in *. lia.
Qed.

(** The parser ends on every text. *)
Definition ends (st : stream) (r : res (jv * stream)) : Prop :=
  match r with Stuck => False | Ub => True | Ok x => le_st (snd x) st /\ (need (snd x) <= need st)%nat end.
Lemma ends_le a b r : le_st a b -> (need a <= need b)%nat -> ends a r -> ends b r.
Proof. destruct r; cbn; unfold le_st; intros; lia || tauto. Qed.
Lemma tail_need c r : (need (r, true) < need (c :: r, true))%nat.
Proof. unfold need. cbn. lia. Qed.

Lemma parse_ends f : forall p st, (need st + 1 < f)%nat -> ends st (parse f p st).
Proof.
  induction f as [|f IH]; intros p st N; [lia|]. destruct st as [s g]. cbn [JsonText_Model.parse fst snd].
  destruct g; cbn [negb]; [|cbn; split; [apply le_st_refl|lia]].
  destruct s as [|c r]. { apply (ends_le ([], false)); [split; cbn; lia|unfold need; cbn; lia|]. apply IH. unfold need in *. cbn in *. lia. }
  assert (Lt := le_st_tail c r true true). assert (Nt := tail_need c r).
  assert (K : forall p st, le_st st (r, true) -> (need st <= need (r, true))%nat -> ends (c :: r, true) (parse f p st)).
  { intros p' st L M. apply (ends_le st); [eapply le_st_trans; eassumption|lia|]. apply IH. lia. }
  assert (K0 : forall p, ends (c :: r, true) (parse f p (r, true))) by (intros; apply K; [apply le_st_refl|lia]).
  destruct (c =? ch "{"); [apply K0|].
  assert (R : forall p, ends (r, true) (parse f p (r, true))) by (intros; apply IH; lia).
  assert (B : forall p (H : jv -> pst), ends (c :: r, true) (x <~ parse f p (r, true);; parse f (H (fst x)) (snd x))).
  { intros p' H. specialize (R p'). destruct (parse f p' (r, true)) as [| |[v s']]; cbn in *; [tauto|tauto|]. apply K; tauto. }
  destruct (c =? ch "["); [specialize (R pst0); destruct (parse f pst0 (r, true)) as [| |[v s']]; cbn in *; [tauto|tauto|apply K; tauto]|].
  destruct ((c =? 39) || (c =? 34)).
  { destruct (rs_ends f c (r, true) false 0 []) as (x & st' & E & L & M); [lia|]. rewrite E. cbn [fst snd].
    destruct (negb (ro D p)); [cbn [ends snd]; split; [eapply le_st_trans; eassumption|lia]|].
    assert (Q : ends st' (parse f pst0 st')) by (apply IH; lia).
    destruct (parse f pst0 st') as [| |[v s2]]; cbn in *; [tauto|tauto|]. destruct Q as [Q1 Q2]. apply K; [eapply le_st_trans; eassumption|lia]. }
  destruct (c =? ch "-"); [apply K0|].
  destruct (is_digit c).
  { destruct (ty D p); try (destruct (iv D p * 10 + (c - 48) <? 2 ^ 63); [apply K0|exact I]). destruct (dstep _ _ _). apply K0. }
  destruct (c =? ch "."); [destruct (neg D p); apply K0|].
  assert (Z : ends (c :: r, true) (Ok (value_of D dbits p, (c :: r, true)))) by (cbn; split; [apply le_st_refl|lia]).
  assert (T : ends (c :: r, true) (Ok (value_of D dbits p, (r, true)))) by (cbn [ends snd]; split; [apply Lt|lia]).
  destruct (c =? ch ","). { destruct (negb (ro D p) && negb (ra D p)); [exact Z|]. destruct (ra D p); [apply (B pst0 (fun v => p_append D dint v p))|apply K0]. }
  destruct (c =? ch "}"); [destruct (ro D p); [exact T|exact Z]|].
  destruct (c =? ch "]"); [destruct (ra D p); [exact T|exact Z]|].
  destruct (_ || _)%bool; [cbn [ends fst snd]; apply skip_le|]. destruct (_ || _)%bool; [cbn [ends fst snd]; apply skip_le|]. destruct (_ || _)%bool; [cbn [ends fst snd]; apply skip_le|].
  apply K0.
Qed.

(** With at most eighteen digits in the text no number overflows. *)
Definition fine (r : res (jv * stream)) : Prop := r <> Ub.
Lemma nd_digit c r : is_digit c = true -> ndigits (c :: r) = S (ndigits r).
Proof. intros H. unfold ndigits. cbn [filter]. now rewrite H. Qed.

Lemma rs_ok f : forall sep st e full out, rs f sep st e full out <> Ub.
Proof.
  induction f as [|f IH]; intros; [discriminate|]. cbn [read_string].
  repeat match goal with
  | |- (if ?b then _ else _) <> Ub => destruct b
  | |- (let '(_, _) := ?b in _) <> Ub => destruct b
  | |- rs f _ _ _ _ _ <> Ub => apply IH
  | |- Ok _ <> Ub => discriminate
  end.
Qed.
Lemma rs_digits f sep st e full out x : rs f sep st e full out = Ok x -> le_st (snd x) st.
Proof.
  intros E. destruct (rs_ends (S (f + need st)) sep st e full out) as (s & st' & E' & L & _); [lia|].
  rewrite (rs_mono f) in E' by (try lia; rewrite E; discriminate). rewrite E in E'. injection E' as ->. exact L.
Qed.
Lemma parse_digits_le f p st x : parse f p st = Ok x -> le_st (snd x) st.
Proof.
  intros E. pose proof (parse_ends (S (S (f + need st))) p st ltac:(lia)) as H.
  rewrite (parse_mono f) in H by (try lia; rewrite E; discriminate). rewrite E in H. apply H.
Qed.

Lemma parse_fine f : forall p st k, 0 <= iv D p < 10 ^ Z.of_nat k -> (k + ndigits (fst st) <= 18)%nat -> parse f p st <> Ub.
Proof.
  induction f as [|f IH]; intros p st k I N; [discriminate|]. destruct st as [s g]. cbn [JsonText_Model.parse fst snd] in *.
  destruct g; cbn [negb]; [|discriminate].
  destruct s as [|c r]; [apply (IH p _ k); [exact I|exact N]|].
  assert (Nr := nd_cons c r).
  assert (K : forall p st, 0 <= iv D p < 10 ^ Z.of_nat k -> le_st st (r, true) -> parse f p st <> Ub).
  { intros p' st I' L. apply (IH p' st k I'). unfold le_st in L. cbn [fst] in *. lia. }
  assert (K0 : forall p, 0 <= iv D p < 10 ^ Z.of_nat k -> parse f p (r, true) <> Ub) by (intros; apply K; [assumption|apply le_st_refl]).
  assert (Pk : 1 <= 10 ^ Z.of_nat k) by (change 1 with (10 ^ 0); apply Z.pow_le_mono_r; lia).
  assert (P0 : forall st, le_st st (r, true) -> parse f pst0 st <> Ub) by (intros st L; apply K; [cbn; lia|exact L]).
  assert (B : forall H : jv -> pst, (forall v, 0 <= iv D (H v) < 10 ^ Z.of_nat k) -> (x <~ parse f pst0 (r, true);; parse f (H (fst x)) (snd x)) <> Ub).
  { intros H HB. pose proof (P0 (r, true) (le_st_refl _)) as Q. destruct (parse f pst0 (r, true)) as [| |x] eqn:E; cbv iota; [discriminate|congruence|].
    apply K; [apply HB|]. exact (parse_digits_le _ _ _ _ E). }
  assert (PA : forall v q, 0 <= iv D q < 10 ^ Z.of_nat k -> 0 <= iv D (p_append D dint v q) < 10 ^ Z.of_nat k) by (intros v q Q; unfold p_append; destruct (ty D q); cbn; lia).
  destruct (c =? ch "{"); [now apply K0|].
  destruct (c =? ch "["); [pose proof (P0 (r, true) (le_st_refl _)) as Q; destruct (parse f pst0 (r, true)) as [| |x] eqn:E; cbv iota;
    [discriminate|congruence|apply K; [destruct (fst x); first [exact I|apply PA; exact I]|exact (parse_digits_le _ _ _ _ E)]]|].
  destruct ((c =? 39) || (c =? 34)).
  { destruct (rs f c (r, true) false 0 []) as [| |x] eqn:E; cbv iota; [discriminate|now apply rs_ok in E|]. pose proof (rs_digits _ _ _ _ _ _ _ E) as L.
    destruct (negb (ro D p)); [discriminate|].
    pose proof (P0 (snd x) L) as Q. destruct (parse f pst0 (snd x)) as [| |y] eqn:F; cbv iota; [discriminate|congruence|].
    apply K; [unfold p_member; destruct (ty D p); cbn; lia|]. eapply le_st_trans; [exact (parse_digits_le _ _ _ _ F)|exact L]. }
  destruct (c =? ch "-"); [now apply K0|].
  destruct (is_digit c) eqn:Dg.
  { rewrite (nd_digit c r Dg) in N. assert (0 <= c - 48 <= 9) by (unfold is_digit in Dg; lia).
    assert (P18 : 10 ^ Z.of_nat (S k) <= 10 ^ 18) by (apply Z.pow_le_mono_r; lia).
    rewrite Nat2Z.inj_succ, Z.pow_succ_r in P18 by lia.
    assert (X : parse f (mkPst D TInt (iv D p * 10 + (c - 48)) (dv D p) (dd D p) (sv D p) (av D p) (ov D p) (ro D p) (ra D p) (neg D p)) (r, true) <> Ub).
    { apply (IH _ _ (S k)); [rewrite Nat2Z.inj_succ, Z.pow_succ_r by lia; cbn [iv]; lia|cbn [fst]; lia]. }
    destruct (ty D p); try (replace (iv D p * 10 + (c - 48) <? 2 ^ 63) with true by lia; exact X).
    destruct (dstep _ _ _). now apply K0. }
  destruct (c =? ch "."); [destruct (neg D p); now apply K0|].
  destruct (c =? ch ","). { destruct (negb (ro D p) && negb (ra D p)); [discriminate|]. destruct (ra D p); [apply (B (fun v => p_append D dint v p)); intros v; now apply PA|now apply K0]. }
  destruct (c =? ch "}"); [discriminate|]. destruct (c =? ch "]"); [discriminate|].
  destruct (_ || _)%bool; [discriminate|]. destruct (_ || _)%bool; [discriminate|]. destruct (_ || _)%bool; [discriminate|].
  now apply K0.
Qed.

Lemma fromString_settles s : settles (fun f => fromString junk D dint dstep dbits f s).
Proof.
  apply (settle _ (S (S (S (need (s, true)))))).
  - intros k H. unfold fromString in *. rewrite (parse_mono k (S k)); [reflexivity|lia|]. intros E. rewrite E in H. now apply H.
  - pose proof (parse_ends (S (S (S (need (s, true))))) pst0 (s, true) ltac:(lia)) as H. unfold fromString.
    destruct (parse _ _ _); cbn in *; [tauto|discriminate|discriminate].
Qed.
Lemma fromString_returns s : (ndigits s <= 18)%nat -> exists v, returns (fun f => fromString junk D dint dstep dbits f s) v.
Proof.
  intros N. destruct (fromString_settles s) as (n & r & R & H).
  assert (U : r <> Ub).
  { rewrite <- (H n) by lia. unfold fromString. pose proof (parse_fine n pst0 (s, true) 0 ltac:(cbn; lia) N) as Q. destruct (parse n pst0 (s, true)); cbn; congruence. }
  destruct r as [| |v]; [congruence|congruence|]. exists v, n. exact H.
Qed.
End Total.
