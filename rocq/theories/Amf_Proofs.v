(** Proofs about AMF0 values. *)
From Verif Require Import Common CommonFacts CommonMore Mem_Model Outcome_Model Dtmi_Spec Dtmi_Proofs Amf_Model Amf_Spec.

Lemma d2z_z2d n : 0 <= n < 65536 -> d2z (z2d n) = n.
Proof.
  intros H. unfold d2z, z2d. destruct (Z.eqb_spec n 0) as [->|N]; [reflexivity|]. cbv zeta.
  set (k := Z.log2 n). assert (K : 2 ^ k <= n < 2 ^ Z.succ k) by (apply Z.log2_spec; lia).
  assert (K0 : 0 <= k) by apply Z.log2_nonneg. assert (K1 : k < 16) by (apply Z.log2_lt_pow2; lia).
  assert (P : 2 ^ k * 2 ^ (52 - k) = 2 ^ 52) by (rewrite <- Z.pow_add_r by lia; f_equal; lia).
  assert (Q : 0 < 2 ^ (52 - k)) by (apply Z.pow_pos_nonneg; lia).
  rewrite Z.pow_succ_r in K by lia.
  assert (F : 0 <= (n - 2 ^ k) * 2 ^ (52 - k) < 2 ^ 52) by nia.
  rewrite Z.div_add_l by lia. rewrite (Z.div_small _ _ F), Z.add_0_r.
  replace (((1023 + k) * 2 ^ 52 + (n - 2 ^ k) * 2 ^ (52 - k)) mod 2 ^ 52) with ((n - 2 ^ k) * 2 ^ (52 - k)).
  2: { rewrite Z.add_comm, Z.mod_add by lia. now rewrite Z.mod_small. }
  replace (1023 + k <? 1023) with false by lia. replace (1023 + k <=? 1075) with true by lia.
  replace (1075 - (1023 + k)) with (52 - k) by lia.
  replace (2 ^ 52 + (n - 2 ^ k) * 2 ^ (52 - k)) with (n * 2 ^ (52 - k)) by nia. apply Z.div_mul. lia.
Qed.
Lemma len16_be s : len s < 65536 -> len16 s = be 2 (len s).
Proof. intros H. pose proof (len_nonneg s). rewrite be2 by lia. unfold len16, u8. f_equal; [lia|]. f_equal. lia. Qed.
Lemma be4 v : be 4 v = [v / 16777216 mod 256; v / 65536 mod 256; v / 256 mod 256; v mod 256].
Proof. cbn [be]. repeat (f_equal; [reflexivity|]). change (256 ^ Z.of_nat 0) with 1. now rewrite Z.div_1_r. Qed.
Lemma len32_be n : 0 <= n < 2 ^ 32 -> len32 n = be 4 n.
Proof. intros H. unfold len32, u8. rewrite be4. change (256 * 256 * 256) with 16777216. change (256 * 256) with 65536. now rewrite Z.mod_mod by lia. Qed.

Section VInd.
Context (P : val -> Prop).
Context (Hn : forall d, P (VNum d)) (Hb : forall b, P (VBool b)) (Ht : forall s, P (VText s)) (Hx : forall s, P (VXml s)) (Hd : forall d, P (VDate d)) (Hr : forall n, P (VRef n))
  (H0 : P VNull) (H1 : P VUndefined) (H2 : P VUnsupported)
  (Ho : forall l, Forall (fun e => P (snd e)) l -> P (VObj l)) (He : forall l, Forall (fun e => P (snd e)) l -> P (VEcma l)) (Ha : forall l, Forall P l -> P (VArr l)).
Fixpoint val_induction (v : val) : P v :=
  match v with
  | VNum d => Hn d | VBool b => Hb b | VText s => Ht s | VXml s => Hx s | VDate d => Hd d | VRef n => Hr n | VNull => H0 | VUndefined => H1 | VUnsupported => H2
  | VObj l => Ho l ((fix go l : Forall (fun e => P (snd e)) l := match l with [] => Forall_nil _ | e :: r => Forall_cons e (val_induction (snd e)) (go r) end) l)
  | VEcma l => He l ((fix go l : Forall (fun e => P (snd e)) l := match l with [] => Forall_nil _ | e :: r => Forall_cons e (val_induction (snd e)) (go r) end) l)
  | VArr l => Ha l ((fix go l : Forall P l := match l with [] => Forall_nil _ | e :: r => Forall_cons e (val_induction e) (go r) end) l)
  end.
End VInd.

Definition memb (x : aobj) : list Z := len16 (aname x) ++ aname x ++ Pack x.

Section Read.
Context (m : list Z) (n : Z) (Hn : n < 2 ^ 32 - 16).
Notation parseOne := (parseOne m n). Notation members := (members m n). Notation elems := (elems m n).

Lemma at_ok p k x : 0 <= p + k < 2 ^ 32 -> has m (p + k) [x] -> at_ m p k = Ok x.
Proof. intros B H. unfold at_. rewrite u32_id by lia. exact (has_getb _ _ _ _ H). Qed.
Lemma has2 p a b r : has m p (a :: b :: r) <-> has m p [a] /\ has m (p + 1) [b] /\ has m (p + 2) r.
Proof. rewrite has_cons, (has_cons _ (p + 1)). replace (p + 1 + 1) with (p + 2) by lia. reflexivity. Qed.
Lemma get16_ok p v r : 0 <= p -> p + 2 < 2 ^ 32 -> 0 <= v < 65536 -> has m p (be 2 v ++ r) -> get16 m p = Ok v.
Proof.
  intros P0 P B H. rewrite be2 in H by lia. cbn [app] in H. apply has2 in H as (A & C & _). unfold get16.
  rewrite (at_ok p 0 (v / 256)) by (try lia; now rewrite Z.add_0_r). rewrite (at_ok p 1 (v mod 256)) by (try lia; assumption). apply f_equal. lia.
Qed.
Lemma get32_ok p v r : 0 <= p -> p + 4 < 2 ^ 32 -> 0 <= v < 2 ^ 31 -> has m p (be 4 v ++ r) -> get32 m p = Ok v.
Proof.
  intros P0 P B H. rewrite be4 in H. cbn [app] in H.
  apply has2 in H as (A & C & H). apply has2 in H as (D & E & _). replace (p + 2 + 1) with (p + 3) in E by lia. unfold get32.
  rewrite (at_ok p 0 (v / 16777216 mod 256)) by (try lia; now rewrite Z.add_0_r). rewrite (at_ok p 1 (v / 65536 mod 256)) by (try lia; assumption).
  rewrite (at_ok p 2 (v / 256 mod 256)) by (try lia; assumption). rewrite (at_ok p 3 (v mod 256)) by (try lia; assumption).
  replace (v / 16777216 mod 256 <? 128) with true by lia. apply f_equal. lia.
Qed.
Lemma clamp_ok t i k : 0 <= t -> 0 <= i -> 0 <= k -> i + k + t <= n -> clamp n t i k = t.
Proof. intros. unfold clamp. rewrite u32_id by lia. dif; [rewrite u32_id by lia; lia|reflexivity]. Qed.
Lemma number_ok p d t r : 0 <= p -> p + 9 <= n -> 0 <= d < 2 ^ 64 -> has m p (t :: be 8 d ++ r) -> number m n p = Ok d.
Proof.
  intros P0 P D H. unfold number. rewrite u32_id by lia. replace (p + 8 <? n) with true by lia.
  apply has_cons in H as [_ H]. apply has_app in H as [H _]. rewrite (has_getn _ _ (be 8 d)) by (try rewrite be_len; auto).
  rewrite unbe_be. apply f_equal. apply Z.mod_small. exact D.
Qed.

Definition reads (v : val) : Prop := forall o p nm, shows o v -> fits v -> has m p (Pack o) -> p + len (Pack o) <= n ->
  1 <= len (Pack o) /\ exists o', returns (fun f => parseOne f p nm) (o', p + len (Pack o)) /\ shows o' v /\ aname o' = nm.

Lemma members_ok l : Forall (fun e => reads (snd e)) l -> forall c, Forall2 (fun o e => aname o = fst e /\ shows o (snd e)) c l ->
  Forall (fun e => bytesP (fst e) /\ 0 < len (fst e) < 65536 /\ fits (snd e)) l ->
  forall p acc, 0 <= p -> has m p (flat_map memb c ++ [0; 0; 9]) -> p + len (flat_map memb c) + 3 <= n ->
  exists c', returns (fun f => members f true p acc) (acc ++ c', p + len (flat_map memb c)) /\ Forall2 (fun o e => aname o = fst e /\ shows o (snd e)) c' l.
Proof.
  intros R. induction R as [|e l Re Rl IH]; intros c S F p acc P0 H B; inversion S as [|o e' c' l' [So1 So2] Sl]; subst.
  - exists []. split; [|constructor]. cbn [flat_map app] in *. change (len (@nil Z)) with 0 in *. rewrite app_nil_r, Z.add_0_r in *.
    refine (returns_step _ _ _ _ (returns_ok _)). intros f. cbn [Amf_Model.members]. rewrite u32_id by lia. replace (p + 1 <? n) with true by lia.
    rewrite (get16_ok p 0 [9]) by (try lia; exact H). reflexivity.
  - inversion F as [|? ? (Fe1 & Fe2 & Fe3) Fl]; subst. cbn [flat_map] in *. rewrite len_app in *. rewrite <- app_assoc in H.
    assert (M : memb o = be 2 (len (fst e)) ++ fst e ++ Pack o) by (unfold memb; rewrite So1, len16_be by lia; reflexivity). rewrite M in *.
    rewrite !len_app in *. rewrite <- !app_assoc in H. rewrite be_len in *. change (Z.of_nat 2) with 2 in *.
    pose proof H as H'. apply has_app in H as [_ H]. rewrite be_len in H. change (Z.of_nat 2) with 2 in H. apply has_app in H as [Hk H]. apply has_app in H as [Ho H].
    pose proof (len_nonneg (flat_map memb c')). pose proof (len_nonneg (Pack o)).
    destruct (Re o (p + 2 + len (fst e)) (fst e) So2 Fe3 Ho) as (L1 & o1 & R1 & S1 & N1); [lia|].
    destruct (IH c' Sl Fl (p + 2 + len (fst e) + len (Pack o)) (acc ++ [o1])) as (c1 & R2 & S2); [lia|exact H|lia|].
    exists (o1 :: c1). split; [|constructor; auto].
    replace (p + (2 + (len (fst e) + len (Pack o)) + len (flat_map memb c'))) with (p + 2 + len (fst e) + len (Pack o) + len (flat_map memb c')) by lia.
    replace (acc ++ o1 :: c1) with ((acc ++ [o1]) ++ c1) by (now rewrite <- app_assoc).
    refine (returns_step _ (fun f => x <~ parseOne f (p + 2 + len (fst e)) (fst e);; members f true (snd x) (acc ++ [fst x])) _ _ _).
    + intros f. cbn [Amf_Model.members]. rewrite u32_id by lia. replace (p + 1 <? n) with true by lia.
      rewrite (get16_ok p (len (fst e)) (fst e ++ Pack o ++ flat_map memb c' ++ [0; 0; 9])) by (try lia; exact H').
      replace (len (fst e) =? 0) with false by lia. cbv iota zeta. rewrite clamp_ok by lia. rewrite (has_getn _ _ _ _ Hk) by reflexivity.
      rewrite u32_id by lia. replace (p + len (fst e) + 2) with (p + 2 + len (fst e)) by lia. reflexivity.
    + refine (returns_bind _ (fun x f => members f true (snd x) (acc ++ [fst x])) _ _ R1 R2).
Qed.
Lemma elems_ok l : Forall reads l -> forall c, Forall2 shows c l -> Forall fits l ->
  forall p acc, 0 <= p -> has m p (flat_map Pack c) -> p + len (flat_map Pack c) <= n ->
  exists c', returns (fun f => elems f (len c) p acc) (acc ++ c', p + len (flat_map Pack c)) /\ Forall2 shows c' l.
Proof.
  intros R. induction R as [|e l Re Rl IH]; intros c S F p acc P0 H B; inversion S as [|o e' c' l' So Sl]; subst.
  - exists []. split; [|constructor]. cbn [flat_map app] in *. change (len (@nil Z)) with 0. rewrite app_nil_r, Z.add_0_r.
    refine (returns_step _ _ _ _ (returns_ok _)). reflexivity.
  - inversion F as [|? ? Fe Fl]; subst. cbn [flat_map] in *. rewrite len_app in *. apply has_app in H as [Ho H].
    pose proof (len_nonneg (flat_map Pack c')). pose proof (len_nonneg (Pack o)). pose proof (len_nonneg c').
    destruct (Re o p (bs "arrVal") So Fe Ho) as (L1 & o1 & R1 & S1 & N1); [lia|].
    destruct (IH c' Sl Fl (p + len (Pack o)) (acc ++ [o1])) as (c1 & R2 & S2); [lia|exact H|lia|].
    exists (o1 :: c1). split; [|constructor; auto].
    replace (p + (len (Pack o) + len (flat_map Pack c'))) with (p + len (Pack o) + len (flat_map Pack c')) by lia.
    replace (acc ++ o1 :: c1) with ((acc ++ [o1]) ++ c1) by (now rewrite <- app_assoc).
    refine (returns_step _ (fun f => x <~ parseOne f p (bs "arrVal");; elems f (len c') (snd x) (acc ++ [fst x])) _ _ _).
    + intros f. cbn [Amf_Model.elems]. rewrite len_cons. replace (1 + len c' =? 0) with false by lia. replace (1 + len c' - 1) with (len c') by lia. reflexivity.
    + refine (returns_bind _ (fun x f => elems f (len c') (snd x) (acc ++ [fst x])) _ _ R1 R2).
Qed.

(** The first byte selects the branch. *)
Ltac first_byte H := cbn [Amf_Model.parseOne]; match goal with |- context [n <=? ?p] => replace (n <=? p) with false by lia end; rewrite (has_getb _ _ _ _ H); cbv iota; cbn [Z.eqb Pos.eqb orb].
Ltac step H := refine (returns_step _ _ _ _ (returns_ok _)); intros f; first_byte H.

Lemma reads_all v : reads v.
Proof.
  induction v using val_induction; intros o p nm S F HH L; inversion S; subst; inversion F; subst; cbn [Pack Z.eqb Pos.eqb andb orb app u8] in *; change (u8 0) with 0 in *; change (u8 1) with 1 in *; change (u8 2) with 2 in *;
    change (u8 3) with 3 in *; change (u8 5) with 5 in *; change (u8 6) with 6 in *; change (u8 7) with 7 in *; change (u8 8) with 8 in *; change (u8 10) with 10 in *; change (u8 11) with 11 in *; change (u8 12) with 12 in *; change (u8 13) with 13 in *; change (u8 15) with 15 in *.
  - (* number *) pose proof (has_nonneg _ _ _ HH) as [P0 _]. rewrite len_cons, be_len in *. change (Z.of_nat 8) with 8 in *. split; [lia|].
    exists (AO nm 0 d [] []). split; [|split; [constructor|reflexivity]]. step HH.
    rewrite (number_ok p d 0 []) by (try lia; rewrite ?app_nil_r; assumption). rewrite u32_id by lia. reflexivity.
  - (* true *) pose proof (has_nonneg _ _ _ HH) as [P0 _]. change (len [1; u8 (d2z 4607182418800017408)]) with 2 in *. split; [lia|].
    exists (AO nm 1 0x3FF0000000000000 [] []). split; [|split; [constructor|reflexivity]]. step HH.
    apply has_cons in HH as [_ HH]. rewrite (at_ok p 1 _ ltac:(lia) HH). rewrite u32_id by lia. reflexivity.
  - (* false *) pose proof (has_nonneg _ _ _ HH) as [P0 _]. change (len [1; u8 (d2z 0)]) with 2 in *. split; [lia|].
    exists (AO nm 1 0 [] []). split; [|split; [constructor|reflexivity]]. step HH.
    apply has_cons in HH as [_ HH]. rewrite (at_ok p 1 _ ltac:(lia) HH). rewrite u32_id by lia. reflexivity.
  - (* short string *) destruct (Z.ltb_spec 65535 (len s)) as [B|B].
    + cbn [Z.eqb Pos.eqb andb orb app] in *. change (u8 12) with 12 in *. pose proof (has_nonneg _ _ _ HH) as [P0 _]. pose proof (len_nonneg s). rewrite len32_be in * by lia.
      rewrite len_cons, len_app, be_len in *. change (Z.of_nat 4) with 4 in *. split; [lia|].
      exists (AO nm 12 0 s []). split; [|split; [constructor|reflexivity]]. step HH.
      apply has_cons in HH as [_ HH]. rewrite (get32_ok (p + 1) (len s) s) by (try lia; exact HH). rewrite clamp_ok by lia.
      apply has_app in HH as [_ HH]. rewrite be_len in HH. change (Z.of_nat 4) with 4 in HH. replace (p + 1 + 4) with (p + 5) in HH by lia.
      rewrite (has_getn _ _ _ _ HH) by reflexivity. rewrite u32_id by lia. apply f_equal, f_equal. lia.
    + cbn [Z.eqb Pos.eqb andb orb app] in *. change (u8 2) with 2 in *. pose proof (has_nonneg _ _ _ HH) as [P0 _]. pose proof (len_nonneg s). rewrite len16_be in * by lia.
      rewrite len_cons, len_app, be_len in *. change (Z.of_nat 2) with 2 in *. split; [lia|].
      exists (AO nm 2 0 s []). split; [|split; [constructor|reflexivity]]. step HH.
      apply has_cons in HH as [_ HH]. rewrite (get16_ok (p + 1) (len s) s) by (try lia; exact HH). rewrite clamp_ok by lia.
      apply has_app in HH as [_ HH]. rewrite be_len in HH. change (Z.of_nat 2) with 2 in HH. replace (p + 1 + 2) with (p + 3) in HH by lia.
      rewrite (has_getn _ _ _ _ HH) by reflexivity. rewrite u32_id by lia. apply f_equal, f_equal. lia.
  - (* long string *) pose proof (has_nonneg _ _ _ HH) as [P0 _]. pose proof (len_nonneg s). rewrite len32_be in * by lia.
    rewrite len_cons, len_app, be_len in *. change (Z.of_nat 4) with 4 in *. split; [lia|].
    exists (AO nm 12 0 s []). split; [|split; [constructor|reflexivity]]. step HH.
    apply has_cons in HH as [_ HH]. rewrite (get32_ok (p + 1) (len s) s) by (try lia; exact HH). rewrite clamp_ok by lia.
    apply has_app in HH as [_ HH]. rewrite be_len in HH. change (Z.of_nat 4) with 4 in HH. replace (p + 1 + 4) with (p + 5) in HH by lia.
    rewrite (has_getn _ _ _ _ HH) by reflexivity. rewrite u32_id by lia. apply f_equal, f_equal. lia.
  - (* xml *) pose proof (has_nonneg _ _ _ HH) as [P0 _]. pose proof (len_nonneg s). rewrite len32_be in * by lia.
    rewrite len_cons, len_app, be_len in *. change (Z.of_nat 4) with 4 in *. split; [lia|].
    exists (AO nm 15 0 s []). split; [|split; [constructor|reflexivity]]. step HH.
    apply has_cons in HH as [_ HH]. rewrite (get32_ok (p + 1) (len s) s) by (try lia; exact HH). rewrite clamp_ok by lia.
    apply has_app in HH as [_ HH]. rewrite be_len in HH. change (Z.of_nat 4) with 4 in HH. replace (p + 1 + 4) with (p + 5) in HH by lia.
    rewrite (has_getn _ _ _ _ HH) by reflexivity. rewrite u32_id by lia. apply f_equal, f_equal. lia.
  - (* date *) pose proof (has_nonneg _ _ _ HH) as [P0 _]. rewrite len_cons, len_app, be_len in *. change (Z.of_nat 8) with 8 in *. change (len [0; 0]) with 2 in *. split; [lia|].
    exists (AO nm 11 d [] []). split; [|split; [constructor|reflexivity]]. step HH.
    rewrite (number_ok p d 11 [0; 0]) by (try lia; assumption). rewrite u32_id by lia. reflexivity.
  - (* reference *) pose proof (has_nonneg _ _ _ HH) as [P0 _]. rewrite d2z_z2d in * by lia. change (len [7; u8 (n0 / 256); u8 (n0 mod 256)]) with 3 in *. replace (u8 (n0 / 256)) with (n0 / 256) in HH by (unfold u8; lia). replace (u8 (n0 mod 256)) with (n0 mod 256) in HH by (unfold u8; lia). split; [lia|].
    exists (AO nm 7 (z2d n0) [] []). split; [|split; [constructor|reflexivity]]. step HH.
    apply has_cons in HH as [_ HH]. rewrite (get16_ok (p + 1) n0 []) by (try lia; rewrite be2 by lia; exact HH). rewrite u32_id by lia. reflexivity.
  - pose proof (has_nonneg _ _ _ HH) as [P0 _]. change (len [5]) with 1 in *. split; [lia|]. exists (AO nm 5 0 [] []). split; [|split; [constructor|reflexivity]]. step HH. now rewrite u32_id by lia.
  - pose proof (has_nonneg _ _ _ HH) as [P0 _]. change (len [6]) with 1 in *. split; [lia|]. exists (AO nm 6 0 [] []). split; [|split; [constructor|reflexivity]]. step HH. now rewrite u32_id by lia.
  - pose proof (has_nonneg _ _ _ HH) as [P0 _]. change (len [13]) with 1 in *. split; [lia|]. exists (AO nm 13 0 [] []). split; [|split; [constructor|reflexivity]]. step HH. now rewrite u32_id by lia.
  - (* object *) fold memb in *. pose proof (has_nonneg _ _ _ HH) as [P0 _]. change (flat_map (fun x => len16 (aname x) ++ aname x ++ Pack x) c) with (flat_map memb c) in *.
    rewrite len_cons, len_app in *. change (len [0; 0; 9]) with 3 in *. pose proof (len_nonneg (flat_map memb c)). split; [lia|].
    pose proof HH as H'. apply has_cons in H' as [_ H'].
    destruct (members_ok l H c) with (p := p + 1) (acc := @nil aobj) as (c' & R & S'); [assumption|assumption|lia|exact H'|lia|].
    exists (AO nm 3 0 [] c'). split; [|split; [constructor; exact S'|reflexivity]].
    refine (returns_step _ (fun f => x <~ members f true (p + 1) [];; Ok (AO nm 3 0 [] (fst x), u32 (snd x + 3))) _ _ _).
    + intros f. first_byte HH. now rewrite u32_id by lia.
    + refine (returns_bind _ (fun x _ => Ok (AO nm 3 0 [] (fst x), u32 (snd x + 3))) _ _ R _). cbn [fst snd app]. rewrite u32_id by lia.
      replace (p + 1 + len (flat_map memb c) + 3) with (p + (1 + (len (flat_map memb c) + 3))) by lia. apply returns_ok.
  - (* ECMA array *) pose proof (has_nonneg _ _ _ HH) as [P0 _]. change (flat_map (fun x => len16 (aname x) ++ aname x ++ Pack x) c) with (flat_map memb c) in *.
    rewrite len_cons, !len_app in *. change (len [0; 0; 9]) with 3 in *. change (len (len32 (len c))) with 4 in *. pose proof (len_nonneg (flat_map memb c)). split; [lia|].
    pose proof HH as H'. apply has_cons in H' as [_ H']. apply has_app in H' as [_ H']. change (len (len32 (len c))) with 4 in *.
    destruct (members_ok l H c) with (p := p + 1 + 4) (acc := @nil aobj) as (c' & R & S'); [assumption|assumption|lia|exact H'|lia|].
    exists (AO nm 8 0 [] c'). split; [|split; [constructor; exact S'|reflexivity]].
    refine (returns_step _ (fun f => x <~ members f true (p + 1 + 4) [];; Ok (AO nm 8 0 [] (fst x), u32 (snd x + 3))) _ _ _).
    + intros f. first_byte HH. rewrite u32_id by lia. replace (p + 1 + 4) with (p + 5) by lia. reflexivity.
    + refine (returns_bind _ (fun x _ => Ok (AO nm 8 0 [] (fst x), u32 (snd x + 3))) _ _ R _). cbn [fst snd app]. rewrite u32_id by lia.
      replace (p + 1 + 4 + len (flat_map memb c) + 3) with (p + (1 + (4 + (len (flat_map memb c) + 3)))) by lia. apply returns_ok.
  - (* strict array *) pose proof (has_nonneg _ _ _ HH) as [P0 _].
    rewrite len_cons, !len_app in *. change (len (len32 (len c))) with 4 in *. pose proof (len_nonneg (flat_map Pack c)). pose proof (len_nonneg c). split; [lia|].
    assert (Lc : len c = len l) by (match goal with F : Forall2 shows c l |- _ => clear - F; unfold len; induction F; cbn [List.length]; lia end).
    pose proof HH as H'. apply has_cons in H' as [_ H']. rewrite len32_be in * by lia. pose proof H' as H''. apply has_app in H' as [_ H']. rewrite be_len in *. change (Z.of_nat 4) with 4 in *.
    destruct (elems_ok l H c) with (p := p + 1 + 4) (acc := @nil aobj) as (c' & R & S'); [assumption|assumption|lia|exact H'|lia|].
    exists (AO nm 10 0 [] c'). split; [|split; [constructor; exact S'|reflexivity]].
    refine (returns_step _ (fun f => x <~ elems f (len c) (p + 1 + 4) [];; Ok (AO nm 10 0 [] (fst x), snd x)) _ _ _).
    + intros f. first_byte HH. rewrite (get32_ok (p + 1) (len c) (flat_map Pack c)) by (try lia; exact H''). rewrite u32_id by lia. replace (p + 1 + 4) with (p + 5) by lia. reflexivity.
    + refine (returns_bind _ (fun x _ => Ok (AO nm 10 0 [] (fst x), snd x)) _ _ R _). cbn [fst snd app].
      replace (p + 1 + 4 + len (flat_map Pack c)) with (p + (1 + (4 + len (flat_map Pack c)))) by lia. apply returns_ok.
Qed.

Lemma parse_loop_ok vs : forall os, Forall2 shows os vs -> Forall fits vs -> forall p acc, 0 <= p -> has m p (flat_map Pack os) -> n <= p + len (flat_map Pack os) <= n ->
  exists os', returns (fun f => parse_loop m n f p p acc) (acc ++ os') /\ Forall2 (fun o v => shows o v /\ aname o = []) os' vs.
Proof.
  induction vs as [|v vs IH]; intros os S F p acc P0 H B; inversion S as [|o v' os' vs' So Sl]; subst.
  - exists []. split; [|constructor]. change (len (flat_map Pack [])) with 0 in B. rewrite app_nil_r. refine (returns_step _ _ _ _ (returns_ok _)). intros f. cbn [parse_loop]. now replace (p <? n) with false by lia.
  - inversion F as [|? ? Fe Fl]; subst. cbn [flat_map] in *. rewrite len_app in *. apply has_app in H as [Ho H].
    pose proof (len_nonneg (flat_map Pack os')). pose proof (len_nonneg (Pack o)).
    destruct (reads_all v o p [] So Fe Ho) as (L1 & o1 & R1 & S1 & N1); [lia|].
    destruct (IH os' Sl Fl (p + len (Pack o)) (acc ++ [o1])) as (c1 & R2 & S2); [lia|exact H|lia|].
    exists (o1 :: c1). split; [|constructor; auto].
    replace (acc ++ o1 :: c1) with ((acc ++ [o1]) ++ c1) by (now rewrite <- app_assoc).
    refine (returns_step _ (fun f => x <~ parseOne f p [];; if p <? snd x then parse_loop m n f (snd x) (snd x) (acc ++ [fst x]) else Ok (acc ++ [fst x])) _ _ _).
    + intros f. cbn [parse_loop]. now replace (p <? n) with true by lia.
    + refine (returns_bind _ (fun x f => if p <? snd x then parse_loop m n f (snd x) (snd x) (acc ++ [fst x]) else Ok (acc ++ [fst x])) _ _ R1 _).
      cbn [fst snd]. replace (p <? p + len (Pack o)) with true by lia. exact R2.
Qed.
End Read.

Lemma round_trip os vs : Forall2 shows os vs -> Forall fits vs -> len (flat_map Pack os) < 2 ^ 32 - 16 ->
  exists os', returns (fun f => parse (flat_map Pack os) (len (flat_map Pack os)) f) (AO (bs "returned") 255 0 [] os') /\ Forall2 (fun o v => shows o v /\ aname o = []) os' vs.
Proof.
  intros S F L. destruct (parse_loop_ok (flat_map Pack os) (len (flat_map Pack os)) L vs os S F 0 []) as (os' & R & S'); [lia|apply has_self|lia|].
  exists os'. split; [|exact S']. exact (returns_bind _ (fun l _ => Ok (AO (bs "returned") 255 0 [] l)) _ _ R (returns_ok _)).
Qed.
