From Verif Require Import Common CommonFacts Meta_Model Meta_Spec Meta_Proofs.

Definition rings (t : track) : Prop := ringok (parts t) /\ ringok (keys t) /\ ringok (frags t).
Definition moved (t t' : track) : Prop :=
  agree (parts t) (parts t') /\ agree (keys t) (keys t') /\ agree (frags t) (frags t') /\ rings t' /\
  video t' = video t /\ firstms t' = firstms t /\ lastms t' = lastms t /\ nowms t' = nowms t /\ missed t' = missed t.
Lemma moved_refl t : rings t -> moved t t.
Proof. intros R. unfold moved. auto 10 using agree_refl. Qed.
Lemma agree_trans {A} (a b c : tbl A) : agree a b -> agree b c -> agree a c.
Proof.
  intros (A1 & A2 & A3 & A4 & A5) (B1 & B2 & B3 & B4 & B5).
  split; [congruence |]. split; [congruence |]. split; [congruence |]. split; [congruence |].
  intros i Hi. rewrite B5 by (rewrite A2, A4; exact Hi). apply A5, Hi.
Qed.
Lemma resize_moved t a b c e : rings t ->
  t_end (frags t) - t_del (frags t) <= a < 2 ^ 32 -> t_end (keys t) - t_del (keys t) <= b < 2 ^ 32 ->
  t_end (parts t) - t_del (parts t) <= c < 2 ^ 32 -> 1 <= a -> 1 <= b -> 1 <= c ->
  moved t (resizeTrack t a b c e) /\ t_rc (parts (resizeTrack t a b c e)) = c /\
  t_rc (keys (resizeTrack t a b c e)) = b /\ t_rc (frags (resizeTrack t a b c e)) = a.
Proof.
  intros (R1 & R2 & R3) A B C A1 B1 C1. unfold resizeTrack, moved, rings. cbn [parts keys frags video firstms lastms nowms missed].
  destruct (resize_agree part0 (parts t) c R1 C C1) as (P1 & P2 & P3).
  destruct (resize_agree key0 (keys t) b R2 B B1) as (Q1 & Q2 & Q3).
  destruct (resize_agree frag0 (frags t) a R3 A A1) as (S1 & S2 & S3). auto 15.
Qed.

Ltac rok := repeat match goal with H : ringok _ |- _ => destruct H as (? & ? & ? & ? & ? & ?) end.
Definition room_parts (t : track) : track :=
  if t_rc (parts t) <=? u64 (t_end (parts t) - t_del (parts t))
  then resizeTrack t (t_rc (frags t)) (t_rc (keys t)) (u32 (t_rc (parts t) * 2)) (t_rc (pages t)) else t.
Definition room_keys (t : track) : track :=
  if t_rc (keys t) <=? u64 (t_end (keys t) - t_del (keys t))
  then resizeTrack t (t_rc (frags t)) (u32 (t_rc (keys t) * 2)) (t_rc (parts t)) (t_rc (pages t)) else t.
Definition room_frags (t : track) : track :=
  if t_rc (frags t) <=? u64 (t_end (frags t) - t_del (frags t))
  then resizeTrack t (u32 (t_rc (frags t) * 2)) (t_rc (keys t)) (t_rc (parts t)) (t_rc (pages t)) else t.
Lemma room_parts_ok t : rings t -> moved t (room_parts t) /\ t_end (parts t) - t_del (parts t) < t_rc (parts (room_parts t)).
Proof.
  intros R. unfold room_parts. assert (R' := R). destruct R' as (R1 & R2 & R3). rok.
  destruct (Z.leb_spec (t_rc (parts t)) (u64 (t_end (parts t) - t_del (parts t)))) as [L | L].
  - unfold u64 in L. rewrite Z.mod_small in L by lia.
    replace (u32 (t_rc (parts t) * 2)) with (t_rc (parts t) * 2) by (unfold u32; rewrite Z.mod_small; lia).
    destruct (resize_moved t (t_rc (frags t)) (t_rc (keys t)) (t_rc (parts t) * 2) (t_rc (pages t)) R) as (M & E & _); try lia.
    split; [exact M | rewrite E; lia].
  - unfold u64 in L. rewrite Z.mod_small in L by lia. split; [apply moved_refl, R | lia].
Qed.
Lemma room_keys_ok t : rings t -> moved t (room_keys t) /\ t_end (keys t) - t_del (keys t) < t_rc (keys (room_keys t)).
Proof.
  intros R. unfold room_keys. assert (R' := R). destruct R' as (R1 & R2 & R3). rok.
  destruct (Z.leb_spec (t_rc (keys t)) (u64 (t_end (keys t) - t_del (keys t)))) as [L | L].
  - unfold u64 in L. rewrite Z.mod_small in L by lia.
    replace (u32 (t_rc (keys t) * 2)) with (t_rc (keys t) * 2) by (unfold u32; rewrite Z.mod_small; lia).
    destruct (resize_moved t (t_rc (frags t)) (t_rc (keys t) * 2) (t_rc (parts t)) (t_rc (pages t)) R) as (M & _ & E & _); try lia.
    split; [exact M | rewrite E; lia].
  - unfold u64 in L. rewrite Z.mod_small in L by lia. split; [apply moved_refl, R | lia].
Qed.
Lemma room_frags_ok t : rings t -> moved t (room_frags t) /\ t_end (frags t) - t_del (frags t) < t_rc (frags (room_frags t)).
Proof.
  intros R. unfold room_frags. assert (R' := R). destruct R' as (R1 & R2 & R3). rok.
  destruct (Z.leb_spec (t_rc (frags t)) (u64 (t_end (frags t) - t_del (frags t)))) as [L | L].
  - unfold u64 in L. rewrite Z.mod_small in L by lia.
    replace (u32 (t_rc (frags t) * 2)) with (t_rc (frags t) * 2) by (unfold u32; rewrite Z.mod_small; lia).
    destruct (resize_moved t (t_rc (frags t) * 2) (t_rc (keys t)) (t_rc (parts t)) (t_rc (pages t)) R) as (M & _ & _ & E); try lia.
    split; [exact M | rewrite E; lia].
  - unfold u64 in L. rewrite Z.mod_small in L by lia. split; [apply moved_refl, R | lia].
Qed.

(** [holds] only looks at the window. *)
Lemma holds_agree {A B} (t t' : tbl B) a (l : list A) f : holds t a l f -> agree t t' -> holds t' a l f.
Proof.
  intros (H1 & H2 & H3 & H4) (A1 & A2 & A3 & A4 & A5). unfold holds. rewrite A2, A3, A4.
  split; [exact H1 |]. split; [exact H2 |]. split; [exact H3 |]. intros i x E L.
  rewrite A5; [apply H4; assumption |]. assert (i < List.length l)%nat by (apply nth_error_Some; congruence). lia.
Qed.

(** A ring with one more record. *)
Lemma addRecord_ok {A} (t : tbl A) : ringok t -> t_end t - t_del t < t_rc t -> t_end t + 1 < 2 ^ 31 ->
  ringok (addRecord t) /\ t_del (addRecord t) = t_del t /\ t_end (addRecord t) = t_end t + 1 /\
  t_pres (addRecord t) = t_pres t + 1 /\ (forall i, at_ (addRecord t) i = at_ t i) /\ t_rc (addRecord t) = t_rc t.
Proof.
  intros (R1 & R2 & R3 & R4 & R5 & R6) L1 L2.
  assert (E1 : u64 (t_end t + 1 - t_del t) = t_end t + 1 - t_del t) by (unfold u64; rewrite Z.mod_small; lia).
  assert (E2 : u32 (t_pres t + 1) = t_pres t + 1) by (unfold u32; rewrite Z.mod_small; lia).
  assert (E3 : u64 (t_end t + 1) = t_end t + 1) by (unfold u64; rewrite Z.mod_small; lia).
  unfold addRecord. rewrite E1, E2, E3. cbn [t_rc t_start t_del t_pres t_end t_cell].
  destruct (Z.ltb_spec (t_rc t) (t_end t + 1 - t_del t)); [lia |].
  unfold ringok. cbn [t_rc t_start t_del t_pres t_end t_cell]. repeat split; try lia.
Qed.
Lemma upd_ringok {A} (t : tbl A) r f : ringok t -> ringok (upd t r f).
Proof. intros H. exact H. Qed.

Lemma rc_upd {A} (t : tbl A) r f : t_rc (upd t r f) = t_rc t. Proof. reflexivity. Qed.
(** Reading back after [upd]s, when everything stays within one turn of the ring. *)
Lemma part_ok_fields p : packet_ok p -> u32 (p_size p) = p_size p /\ s16 (u16 (p_off p)) = p_off p.
Proof.
  intros (H1 & H2 & H3 & _). unfold u32, s16, u16. split; [rewrite Z.mod_small; lia |]. cbv zeta.
  destruct (Z_lt_le_dec (p_off p) 0) as [L | L].
  - replace ((p_off p mod 65536) mod 65536) with (p_off p + 65536) by lia. destruct (Z.ltb_spec (p_off p + 65536) 32768); lia.
  - replace ((p_off p mod 65536) mod 65536) with (p_off p) by lia. destruct (Z.ltb_spec (p_off p) 32768); lia.
Qed.

Lemma nth_snoc {A} (l : list A) x i y : nth_error (l ++ [x]) i = Some y ->
  (i < List.length l)%nat /\ nth_error l i = Some y \/ i = List.length l /\ y = x.
Proof.
  intros E. destruct (Nat.lt_ge_cases i (List.length l)) as [L | L].
  - left. split; [exact L |]. rewrite nth_error_app1 in E by exact L. exact E.
  - right. rewrite nth_error_app2 in E by exact L. destruct (i - List.length l)%nat as [| k] eqn:K.
    + injection E as ->. split; [lia | reflexivity].
    + destruct k; discriminate.
Qed.
Lemma nth_mid {A} (l r : list A) x : nth_error (l ++ x :: r) (List.length l) = Some x.
Proof. rewrite nth_error_app2, Nat.sub_diag by lia. reflexivity. Qed.
Lemma lasttime_nth ps i p : nth_error ps i = Some p -> S i = List.length ps -> lasttime ps = p_time p.
Proof.
  intros E L. destruct (rev_case ps) as [-> | (r & a & ->)]; [discriminate |].
  rewrite lasttime_snoc. rewrite app_length in L. cbn [List.length] in L.
  replace i with (List.length r) in E by lia. rewrite nth_mid in E. congruence.
Qed.

Lemma addPart_ok t ps a p :
  rings t -> holds (parts t) a ps (part_of ps) -> (a < List.length ps)%nat \/ ps = [] /\ a = O ->
  lastms t = lasttime ps -> lasttime ps <= p_time p ->
  (ps <> [] -> p_time p - lasttime ps < 65536) -> packet_ok p -> Z.of_nat (List.length ps) + 1 < 2 ^ 31 ->
  let t' := addPart t p in
  rings t' /\ agree (keys t) (keys t') /\ agree (frags t) (frags t') /\
  holds (parts t') a (ps ++ [p]) (part_of (ps ++ [p])) /\
  video t' = video t /\ lastms t' = lastms t /\ nowms t' = nowms t /\ missed t' = missed t /\
  (ps <> [] -> firstms t' = firstms t).
Proof.
  intros R H W LM T G K N.
  assert (E : addPart t p =
    let n := t_end (parts t) in let t1 := room_parts t in
    let q := upd (upd (parts t1) n (pt_size_ (p_size p))) n (pt_off_ (p_off p)) in
    if n =? 0 then with_firstms (with_parts t1 (addRecord (upd q n (pt_dur_ 0)))) (p_time p)
    else with_parts t1 (addRecord (upd (upd q (n - 1) (pt_dur_ (u64 (p_time p - lastms t1)))) n (pt_dur_ (u64 (p_time p - lastms t1))))))
    by reflexivity.
  destruct (room_parts_ok t R) as ((M1 & M2 & M3 & (Ra & Rb & Rc) & M5 & M6 & M7 & M8 & M9) & M10).
  cbv zeta. rewrite E. cbv zeta. clear E.
  set (t1 := room_parts t) in *. pose proof (holds_agree _ _ _ _ _ H M1) as (H1 & H2 & H3 & H4).
  assert (Nn : t_end (parts t) = Z.of_nat (List.length ps)) by (destruct M1 as (_ & _ & _ & X & _); congruence).
  assert (Dn : t_del (parts t) = Z.of_nat a) by (destruct M1 as (_ & X & _); congruence).
  rewrite Nn. destruct (part_ok_fields p K) as (F1 & F2).
  assert (RC : 1 <= t_rc (parts t1)) by (rok; lia).
  destruct (rev_case ps) as [Ep | (r & x & Ep)].
  - subst ps. cbn [List.length]. change (Z.of_nat 0) with 0. cbn [Z.eqb].
    assert (a = O) by (destruct W; [cbn [List.length] in *; lia | tauto]). subst a.
    set (q := upd (upd (upd (parts t1) 0 (pt_size_ (p_size p))) 0 (pt_off_ (p_off p))) 0 (pt_dur_ 0)).
    assert (Q : ringok q) by (unfold q; repeat apply upd_ringok; exact Ra).
    cbn [List.length] in H2.
    assert (QE : t_end q = 0) by (change (t_end q) with (t_end (parts t1)); exact H2).
    assert (QD : t_del q = 0) by (change (t_del q) with (t_del (parts t1)); exact H1).
    assert (QR : t_rc q = t_rc (parts t1)) by reflexivity.
    assert (QP : t_pres q = 0) by (change (t_pres q) with (t_pres (parts t1)); lia).
    destruct (addRecord_ok q Q) as (A1 & A2 & A3 & A4 & A5 & A6); [lia | lia |].
    cbn [with_firstms with_parts parts keys frags video lastms nowms missed firstms].
    split; [unfold rings; cbn [with_firstms with_parts parts keys frags]; auto |].
    split; [exact M2 |]. split; [exact M3 |]. split.
    { unfold holds. rewrite A2, A3, A4. cbn [List.length app] in *. split; [lia |]. split; [lia |]. split; [lia |].
      intros i y Ey _. destruct i as [| i]; [| destruct i; discriminate]. injection Ey as <-.
      rewrite A5. unfold q. change (Z.of_nat 0) with 0. rewrite !at_upd by (rewrite ?rc_upd; lia). cbn [Z.eqb].
      unfold part_of, pt_dur_, pt_off_, pt_size_. cbn [pt_size pt_dur pt_off nth_error]. rewrite F1, F2. reflexivity. }
    split; [exact M5 |]. split; [exact M7 |]. split; [exact M8 |]. split; [exact M9 |]. congruence.
  - assert (Nz : (Z.of_nat (List.length ps) =? 0) = false) by (rewrite Ep, app_length; cbn [List.length]; destruct (Z.eqb_spec (Z.of_nat (List.length r + 1)) 0); lia).
    rewrite Nz. assert (NE : ps <> []) by (rewrite Ep; destruct r; discriminate).
    assert (LL : List.length ps = S (List.length r)) by (rewrite Ep, app_length; cbn [List.length]; lia).
    set (n := Z.of_nat (List.length ps)) in *.
    assert (U : u64 (p_time p - lastms t1) = p_time p - lasttime ps).
    { rewrite M7, LM. unfold u64. rewrite Z.mod_small; [reflexivity |]. specialize (G NE). lia. }
    rewrite U. set (du := p_time p - lasttime ps) in *. specialize (G NE).
    set (q := upd (upd (upd (upd (parts t1) n (pt_size_ (p_size p))) n (pt_off_ (p_off p))) (n - 1) (pt_dur_ du)) n (pt_dur_ du)).
    assert (Q : ringok q) by (unfold q; repeat apply upd_ringok; exact Ra).
    assert (QE : t_end q = n) by (change (t_end q) with (t_end (parts t1)); exact H2).
    assert (QD : t_del q = Z.of_nat a) by (change (t_del q) with (t_del (parts t1)); exact H1).
    assert (QR : t_rc q = t_rc (parts t1)) by reflexivity.
    assert (QP : t_pres q = n - Z.of_nat a) by (change (t_pres q) with (t_pres (parts t1)); lia).
    destruct (addRecord_ok q Q) as (A1 & A2 & A3 & A4 & A5 & A6); try lia.
    cbn [with_parts parts keys frags video lastms nowms missed firstms].
    split; [unfold rings; cbn [with_parts parts keys frags]; auto |].
    split; [exact M2 |]. split; [exact M3 |]. split.
    { unfold holds. rewrite A2, A3, A4, QE, QD, QP. rewrite app_length. cbn [List.length].
      split; [reflexivity |]. split; [lia |]. split; [lia |].
      assert (Du : u16 du = du) by (unfold u16; rewrite Z.mod_small; unfold du; lia).
      intros i y Ey Li. rewrite A5.
      assert (a < List.length ps)%nat by (destruct W as [W | (W & _)]; [exact W | congruence]).
      assert (At : forall f, at_ q (Z.of_nat i) = f (at_ q (Z.of_nat i)) \/ True) by auto. clear At.
      assert (Ri : Z.of_nat i < Z.of_nat (List.length ps) + 1).
      { assert (i < List.length (ps ++ [p]))%nat by (apply nth_error_Some; congruence). rewrite app_length in *. cbn [List.length] in *. lia. }
      unfold q. rewrite !at_upd by (rewrite ?rc_upd; lia).
      apply nth_snoc in Ey as [(L & Ey) | (-> & ->)].
      - fold n. destruct (Z.eqb_spec (Z.of_nat i) n); [lia |]. specialize (H4 i y Ey Li).
        destruct (Z.eqb_spec (n - 1) n); [lia |].
        destruct (Z.eqb_spec (Z.of_nat i) (n - 1)) as [Q1 | Q1].
        + rewrite Q1 in H4. rewrite H4. unfold part_of, pt_dur_. cbn [pt_size pt_dur pt_off].
          replace (S i) with (List.length ps) by lia. rewrite nth_mid. rewrite Du. unfold du.
          rewrite (lasttime_nth ps i y Ey) by lia. reflexivity.
        + rewrite H4. unfold part_of. rewrite nth_error_app1 by lia.
          destruct (nth_error ps (S i)) eqn:Z1; [reflexivity |]. apply nth_error_None in Z1. lia.
      - fold n. rewrite !Z.eqb_refl. destruct (Z.eqb_spec n (n - 1)); [lia |].
        unfold part_of, pt_dur_, pt_off_, pt_size_. cbn [pt_size pt_dur pt_off]. rewrite F1, F2, Du.
        destruct (nth_error (ps ++ [p]) (S (List.length ps))) eqn:Z1.
        { assert (S (List.length ps) < List.length (ps ++ [p]))%nat by (apply nth_error_Some; congruence).
          rewrite app_length in *. cbn [List.length] in *. lia. }
        rewrite LL. rewrite nth_error_app1 by lia. rewrite Ep. rewrite nth_mid.
        unfold du. rewrite Ep, lasttime_snoc. reflexivity. }
    split; [exact M5 |]. split; [exact M7 |]. split; [exact M8 |]. split; [exact M9 |]. intros _. exact M6.
Qed.

(** A key just opened, before its first packet is counted. *)
Definition key_new (gs : list (list packet)) (n : nat) (p : packet) (j : nat) (g : list packet) : key :=
  if (j =? n)%nat then mkkey (before j gs) (p_bpos p) 0 (Z.of_nat j) 0 (p_time p) 0 else key_of gs j g.

Lemma start_snoc_ne {A} (f : A -> Z) g a : g <> [] -> start f (g ++ [a]) = start f g.
Proof. destruct g; [congruence | reflexivity]. Qed.
Lemma nth_last {A} (l : list A) r x : l = r ++ [x] -> nth_error l (List.length r) = Some x.
Proof. intros ->. apply nth_mid. Qed.

Lemma addKey_ok t ps d p gs :
  rings t -> holds (keys t) d gs (key_of gs) -> (d < List.length gs)%nat \/ gs = [] /\ d = O ->
  Z.of_nat (List.length (List.concat gs)) < 2 ^ 31 -> Forall (fun g => g <> []) gs ->
  packet_ok p -> Z.of_nat (List.length gs) + 1 < 2 ^ 31 -> Forall packet_ok ps -> List.concat gs = ps ->
  (forall g r, gs = r ++ [g] -> 0 <= p_time p - gtime g < 2 ^ 32) ->
  let t' := addKey t p in
  rings t' /\ agree (parts t) (parts t') /\ agree (frags t) (frags t') /\
  holds (keys t') d (gs ++ [[p]]) (key_new (gs ++ [[p]]) (List.length gs) p) /\
  video t' = video t /\ lastms t' = lastms t /\ nowms t' = nowms t /\ missed t' = missed t /\
  firstms t' = match nth_error (gs ++ [[p]]) d with Some g => gtime g | None => 0 end.
Proof.
  intros R H W CL GN K N PK CP G.
  destruct (room_keys_ok t R) as ((M1 & M2 & M3 & (Ra & Rb & Rc) & M5 & M6 & M7 & M8 & M9) & M10).
  assert (Nn : t_end (keys t) = Z.of_nat (List.length gs)) by apply H.
  assert (Dn : t_del (keys t) = Z.of_nat d) by apply H.
  assert (RC : 1 <= t_rc (keys (room_keys t))) by (rok; lia).
  pose proof (holds_agree _ _ _ _ _ H M2) as (H1 & H2 & H3 & H4).
  set (t1 := room_keys t) in *. set (n := Z.of_nat (List.length gs)) in *.
  set (q0 := upd (upd (upd (upd (upd (upd (keys t1) n (k_bpos_ (p_bpos p))) n (k_time_ (p_time p))) n (k_parts_ 0)) n (k_dur_ 0)) n (k_size_ 0)) n (k_num_ n)).
  set (q1 := if n =? 0 then upd q0 n (k_firstpart_ 0)
             else let q := upd q0 n (k_firstpart_ (u64 (k_firstpart (at_ q0 (n - 1)) + k_parts (at_ q0 (n - 1))))) in
                  upd q (n - 1) (k_dur_ (u64 (p_time p - k_time (at_ q (n - 1)))))).
  assert (E : addKey t p = with_firstms (with_keys t1 (addRecord q1)) (k_time (at_ (addRecord q1) (t_del (addRecord q1))))).
  { unfold addKey. rewrite Nn. cbv zeta. fold n. unfold q1, q0, t1, room_keys. rewrite Nn. reflexivity. }
  assert (QH : ringok q1 /\ t_end q1 = n /\ t_del q1 = Z.of_nat d /\ t_rc q1 = t_rc (keys t1) /\ t_pres q1 = n - Z.of_nat d).
  { unfold q1. destruct (n =? 0); cbv zeta; (split; [repeat apply upd_ringok; exact Rb |]);
      (split; [exact H2 |]); (split; [exact H1 |]); (split; [reflexivity |]);
      change (t_pres (keys t1) = n - Z.of_nat d); lia. }
  destruct QH as (Q & QE & QD & QR & QP).
  assert (Dle : (d <= List.length gs)%nat) by (destruct W as [W | (-> & ->)]; cbn [List.length]; lia).
  destruct (addRecord_ok q1 Q) as (A1 & A2 & A3 & A4 & A5 & A6); [lia | lia |].
  assert (At : forall i g, nth_error (gs ++ [[p]]) i = Some g -> (d <= i)%nat -> at_ q1 (Z.of_nat i) = key_new (gs ++ [[p]]) (List.length gs) p i g).
  { intros i g Eg Li.
    assert (Ri : (i < List.length (gs ++ [[p]]))%nat) by (apply nth_error_Some; congruence).
    rewrite app_length in Ri. cbn [List.length] in Ri.
    assert (Tp : u64 (p_time p) = p_time p) by (destruct K as (K1 & _); unfold u64; rewrite Z.mod_small; lia).
    assert (Bp : u64 (p_bpos p) = p_bpos p) by (destruct K as (_ & _ & _ & K1 & _); unfold u64; rewrite Z.mod_small; lia).
    assert (Un : u32 n = n) by (unfold u32; rewrite Z.mod_small; lia).
    unfold q1. destruct (rev_case gs) as [Eq | (r & h & Eq)].
    - subst gs. cbn [List.length] in *. assert (i = O) by lia. subst i. injection Eg as <-.
      unfold n. change (Z.of_nat 0) with 0. cbn [Z.eqb]. unfold q0, n. change (Z.of_nat 0) with 0.
      rewrite !at_upd by (rewrite ?rc_upd; lia). cbn [Z.eqb].
      unfold key_new, k_firstpart_, k_num_, k_size_, k_dur_, k_parts_, k_time_, k_bpos_. cbn.
      rewrite Tp, Bp. reflexivity.
    - assert (LL : List.length gs = S (List.length r)) by (rewrite Eq, app_length; cbn [List.length]; lia).
      destruct (Z.eqb_spec n 0); [lia |]. cbv zeta.
      assert (Dr : (d <= List.length r)%nat) by (destruct W as [W | (W & _)]; [lia | rewrite W in LL; discriminate]).
      pose proof (H4 _ _ (nth_last _ _ _ Eq) Dr) as Hl. replace (Z.of_nat (List.length r)) with (n - 1) in Hl by lia.
      assert (B1 : before (List.length gs) (gs ++ [[p]]) = before (List.length r) gs + Z.of_nat (List.length h)).
      { rewrite before_app by lia. rewrite LL. apply before_succ. apply nth_last, Eq. }
      pose proof (before_bound (gs ++ [[p]]) (List.length gs)) as B2. rewrite concat_app, app_length in B2. cbn [List.concat List.length app] in B2.
      assert (Un' : u32 (n - 1) = n - 1) by (unfold u32; rewrite Z.mod_small; lia).
      specialize (G h r Eq).
      assert (X : at_ q0 (n - 1) = key_of gs (List.length r) h).
      { unfold q0. rewrite !at_upd by (rewrite ?rc_upd; lia). destruct (Z.eqb_spec (n - 1) n); [lia |]. exact Hl. }
      rewrite X. cbn [key_of k_firstpart k_parts].
      assert (X2 : at_ (upd q0 n (k_firstpart_ (u64 (before (List.length r) gs + Z.of_nat (List.length h))))) (n - 1) = key_of gs (List.length r) h).
      { rewrite at_upd by (unfold q0; rewrite ?rc_upd; lia). destruct (Z.eqb_spec (n - 1) n); [lia |]. exact X. }
      rewrite X2. cbn [key_of k_time].
      rewrite at_upd by (unfold q0; rewrite ?rc_upd; lia).
      apply nth_snoc in Eg as [(L & Eg) | (-> & ->)].
      + unfold key_new. destruct (Nat.eqb_spec i (List.length gs)); [lia |].
        destruct (Z.eqb_spec (Z.of_nat i) (n - 1)) as [Y | Y].
        * assert (i = List.length r) by lia. subst i. assert (g = h) by (rewrite (nth_last _ _ _ Eq) in Eg; congruence). subst g.
          rewrite X2. unfold k_dur_, key_of. cbn [k_firstpart k_bpos k_dur k_num k_parts k_time k_size].
          replace (S (List.length r)) with (List.length gs) by lia. rewrite nth_mid. cbn [gtime start].
          rewrite (before_app (List.length r)) by lia.
          replace (u32 (u64 (p_time p - gtime h))) with (p_time p - gtime h) by (unfold u32, u64; rewrite !Z.mod_small; lia).
          reflexivity.
        * rewrite at_upd by (unfold q0; rewrite ?rc_upd; lia). destruct (Z.eqb_spec (Z.of_nat i) n); [lia |].
          unfold q0. rewrite !at_upd by (rewrite ?rc_upd; lia). destruct (Z.eqb_spec (Z.of_nat i) n); [lia |].
          rewrite (H4 i g Eg Li). unfold key_of. rewrite before_app by lia. rewrite nth_error_app1 by lia. reflexivity.
      + unfold key_new. rewrite Nat.eqb_refl. fold n.
        destruct (Z.eqb_spec n (n - 1)); [lia |]. rewrite at_upd by (unfold q0; rewrite ?rc_upd; lia). rewrite Z.eqb_refl.
        unfold q0. rewrite !at_upd by (rewrite ?rc_upd; lia). rewrite !Z.eqb_refl.
        unfold k_firstpart_, k_num_, k_size_, k_dur_, k_parts_, k_time_, k_bpos_. cbn [k_firstpart k_bpos k_dur k_num k_parts k_time k_size].
        rewrite Tp, Bp, Un, B1. change (u32 0) with 0.
        replace (u64 (u64 (before (List.length r) gs + Z.of_nat (List.length h)))) with (before (List.length r) gs + Z.of_nat (List.length h)) by (unfold u64; rewrite !Z.mod_small; lia).
        reflexivity. }
  cbv zeta. rewrite E. cbn [with_firstms with_keys parts keys frags video lastms nowms missed firstms].
  split; [unfold rings; cbn [with_firstms with_keys parts keys frags]; auto |].
  split; [exact M1 |]. split; [exact M3 |]. split.
  { unfold holds. rewrite A2, A3, A4, QE, QD, QP. rewrite app_length. cbn [List.length].
    split; [reflexivity |]. split; [lia |]. split; [lia |]. intros i g Eg Li. rewrite A5. apply At; assumption. }
  split; [exact M5 |]. split; [exact M7 |]. split; [exact M8 |]. split; [exact M9 |].
  rewrite A2, QD, A5. destruct (nth_error (gs ++ [[p]]) d) as [g |] eqn:Eg.
  2: { apply nth_error_None in Eg. rewrite app_length in Eg. cbn [List.length] in Eg. lia. }
  rewrite (At d g Eg (Nat.le_refl d)). unfold key_new. apply nth_snoc in Eg as [(L & Eg) | (-> & ->)].
  - destruct (Nat.eqb_spec d (List.length gs)); [lia |]. cbn [key_of k_time].
    assert (0 <= gtime g < 2 ^ 64).
    { apply nth_error_In in Eg. assert (g <> []) by (rewrite Forall_forall in GN; apply GN; exact Eg).
      destruct g as [| x g]; [congruence |]. cbn [gtime start].
      assert (In x ps) by (rewrite <- CP; apply in_concat; exists (x :: g); split; [exact Eg | left; reflexivity]).
      rewrite Forall_forall in PK. destruct (PK _ H5) as (X & _). exact X. }
    unfold u64. rewrite Z.mod_small; lia.
  - rewrite Nat.eqb_refl. cbn [k_time gtime start]. destruct K as (K1 & _). unfold u64. rewrite Z.mod_small; lia.
Qed.

(** The newest fragment before its newest packet is counted. *)
Definition frag_pre (fs : list (list (list packet))) (p : packet) (j : nat) (f : list (list packet)) : frag :=
  let r := frag_of fs j f in
  if (S j =? List.length fs)%nat then mkfrag (f_dur r) (f_keys r) (f_first r) (f_size r - p_size p) else r.

Lemma nth_concat {A} (s : list (list A)) f r x y : f = x :: y ->
  nth_error (List.concat (s ++ f :: r)) (Z.to_nat (before (List.length s) (s ++ f :: r))) = Some x.
Proof.
  intros ->. rewrite before_all, Nat2Z.id, concat_app. cbn [List.concat app]. apply nth_mid.
Qed.
Lemma total_app {A} (f : A -> Z) a b : total f (a ++ b) = total f a + total f b.
Proof. unfold total. induction a as [| x a IH]; cbn [app fold_right]; [lia | rewrite IH; lia]. Qed.
Lemma total_nonneg {A} (f : A -> Z) l : (forall x, In x l -> 0 <= f x) -> 0 <= total f l.
Proof.
  induction l as [| a l IH]; intros H; [cbn; lia |]. unfold total in *. cbn [fold_right].
  pose proof (H a (or_introl eq_refl)). specialize (IH (fun x Hx => H x (or_intror Hx))). lia.
Qed.

Lemma addFrag_ok t d p gs :
  let fs := fragments gs in let fs' := fragments (gs ++ [[p]]) in
  rings t -> holds (keys t) d (gs ++ [[p]]) (key_new (gs ++ [[p]]) (List.length gs) p) ->
  holds (frags t) (expired d fs) fs (frag_of fs) ->
  (gs = [] /\ d = O \/ exists s f, fs = s ++ [f] /\ Z.of_nat d <= before (List.length s) fs) ->
  Forall (fun g => g <> []) gs -> (forall g, In g gs -> 0 <= gtime g <= p_time p) ->
  packet_ok p -> Z.of_nat (List.length gs) + 1 < 2 ^ 31 ->
  (forall j f h, nth_error fs' j = Some f -> nth_error fs' (S j) = Some h -> ftime h - ftime f < 2 ^ 32) ->
  Forall (fun f => Z.of_nat (List.length f) < 65536) fs' ->
  exists t', addFrag t p (Z.of_nat (List.length gs)) = Done t' /\
  rings t' /\ agree (parts t) (parts t') /\ agree (keys t) (keys t') /\
  holds (frags t') (expired d fs) fs' (frag_pre fs' p) /\
  video t' = video t /\ firstms t' = firstms t /\ lastms t' = lastms t /\ nowms t' = nowms t /\ missed t' = missed t.
Proof.
  intros fs fs' R HK H W GN GT K N FD FL.
  assert (FC : List.concat fs = gs) by apply fragments_concat.
  assert (Fl : (List.length fs <= List.length gs)%nat).
  { rewrite <- (fragments_concat gs). fold fs. pose proof (fragments_nonempty gs) as FN. fold fs in FN. clear - FN.
    induction fs as [| f fs IH]; [cbn; lia |]. inversion FN; subst. cbn [List.concat List.length]. rewrite app_length.
    specialize (IH ltac:(assumption)). destruct f; [congruence |]. cbn [List.length]. lia. }
  assert (Nn : t_end (frags t) = Z.of_nat (List.length fs)) by apply H.
  assert (Dn : t_del (frags t) = Z.of_nat (expired d fs)) by apply H.
  set (m := Z.of_nat (List.length fs)) in *. set (n := Z.of_nat (List.length gs)) in *.
  destruct (expired_spec d fs (fragments_nonempty gs)) as (X1 & X2).
  unfold addFrag. rewrite Nn. fold (room_frags t).
  replace (if t_rc (frags t) <=? u64 (m - t_del (frags t))
           then resizeTrack t (u32 (t_rc (frags t) * 2)) (t_rc (keys t)) (t_rc (parts t)) (t_rc (pages t))
           else t) with (room_frags t) by (unfold room_frags; rewrite Nn; reflexivity).
  destruct (room_frags_ok t R) as ((M1 & M2 & M3 & (Ra & Rb & Rc) & M5 & M6 & M7 & M8 & M9) & M10).
  assert (RC : 1 <= t_rc (frags (room_frags t))) by (rok; lia).
  assert (RCt : 1 <= t_rc (frags t) /\ t_end (frags t) - t_del (frags t) <= t_rc (frags t)) by (destruct R as (_ & _ & ?); rok; lia).
  pose proof (holds_agree _ _ _ _ _ H M3) as (H1 & H2 & H3 & H4).
  pose proof (holds_agree _ _ _ _ _ HK M2) as (K1 & K2 & K3 & K4).
  assert (En : expired d fs = O -> True) by auto. clear En.
  set (t1 := room_frags t) in *.
  assert (Kn : k_num (at_ (keys t1) n) = n).
  { unfold n. rewrite (K4 (List.length gs) [p]); [| apply nth_mid |].
    - unfold key_new. rewrite Nat.eqb_refl. reflexivity.
    - destruct W as [(-> & ->) | (s & f & Es & L)]; [cbn [List.length]; lia |].
      pose proof (before_bound fs (List.length s)) as BB. rewrite FC in BB. lia. }
  assert (Un : u32 n = n) by (unfold u32; rewrite Z.mod_small; lia).
  assert (Fs' : fs' = join frag_opens fs [p]) by apply fragments_snoc.
  destruct W as [(Eg & ->) | (s & f & Es & L)].
  - (* the first fragment *)
    subst gs. assert (Ef : fs = []) by reflexivity. unfold m. rewrite Ef in *. cbn [List.length] in *. change (Z.of_nat 0) with 0 in *.
    cbn [Z.eqb orb]. cbv zeta. rewrite Kn.
    change (expired 0 (@nil (list (list packet)))) with O in *.
    set (q := upd (upd (upd (upd (upd (frags t1) 0 (f_first_ n)) 0 (f_dur_ 0)) 0 (f_size_ 0)) 0 (f_keys_ 1)) 0 (f_first_ n)).
    assert (Q : ringok q) by (unfold q; repeat apply upd_ringok; exact Rc).
    assert (QE : t_end q = 0) by (change (t_end q) with (t_end (frags t1)); exact H2).
    assert (QD : t_del q = 0) by (change (t_del q) with (t_del (frags t1)); exact H1).
    assert (QR : t_rc q = t_rc (frags t1)) by reflexivity.
    assert (QP : t_pres q = 0) by (change (t_pres q) with (t_pres (frags t1)); lia).
    destruct (addRecord_ok q Q) as (A1 & A2 & A3 & A4 & A5 & A6); [lia | lia |].
    eexists. split; [reflexivity |]. cbn [with_frags parts keys frags video lastms nowms missed firstms].
    split; [unfold rings; cbn [with_frags parts keys frags]; auto |].
    split; [exact M1 |]. split; [exact M2 |]. split; [| auto].
    rewrite Fs'. change (join frag_opens [] [p]) with [[[p]]].
    unfold holds. rewrite A2, A3, A4, QE, QD, QP. cbn [List.length]. split; [reflexivity |]. split; [reflexivity |]. split; [reflexivity |].
    intros i x Ex _. destruct i as [| i]; [| destruct i; discriminate]. injection Ex as <-. rewrite A5.
    unfold q. change (Z.of_nat 0) with 0. rewrite !at_upd by (rewrite ?rc_upd; lia). cbn [Z.eqb].
    unfold f_first_, f_keys_, f_size_, f_dur_, frag_pre, frag_of. cbn [f_dur f_keys f_first f_size List.length Nat.eqb nth_error].
    rewrite Un. unfold n. cbn [List.length]. unfold before, total. cbn [firstn List.concat List.length fold_right].
    change (u32 0) with 0. change (u16 1) with 1. change (Z.of_nat 0) with 0. f_equal. change (total p_size [p]) with (p_size p + 0). lia.
  - (* a fragment is open *)
    assert (LL : List.length fs = S (List.length s)) by (rewrite Es, app_length; cbn [List.length]; lia).
    assert (fN : f <> []).
    { pose proof (fragments_nonempty gs) as FN. fold fs in FN. rewrite Es in FN. apply Forall_app in FN as (_ & FN). inversion FN; assumption. }
    assert (Xs : (expired d fs <= List.length s)%nat).
    { destruct (Nat.lt_ge_cases (List.length s) (expired d fs)) as [G | G]; [| exact G]. apply X2 in G; lia. }
    destruct (Z.eqb_spec m 0); [lia |]. cbn [orb].
    destruct f as [| h f']; [congruence |].
    assert (Hh : nth_error gs (Z.to_nat (before (List.length s) fs)) = Some h).
    { rewrite <- (fragments_concat gs). fold fs. rewrite Es. apply (nth_concat s (h :: f') [] h f'). reflexivity. }
    assert (Bp : 0 <= before (List.length s) fs) by apply before_bound.
    assert (BL : before (List.length s) fs < n).
    { assert (Z.to_nat (before (List.length s) fs) < List.length gs)%nat by (apply nth_error_Some; congruence). lia. }
    assert (Hin : In h gs) by (apply nth_error_In in Hh; exact Hh).
    assert (Prev : forall t2, holds (keys t2) d (gs ++ [[p]]) (key_new (gs ++ [[p]]) (List.length gs) p) -> at_ (frags t2) (m - 1) = frag_of fs (List.length s) (h :: f') ->
              k_time (at_ (keys t2) (f_first (at_ (frags t2) (m - 1)))) = ftime (h :: f')).
    { intros t2 (_ & _ & _ & KK) F2. rewrite F2. cbn [frag_of f_first].
      rewrite <- (Z2Nat.id (before (List.length s) fs)) by exact Bp.
      rewrite (KK _ h); [| rewrite nth_error_app1 by lia; exact Hh | lia].
      unfold key_new. destruct (Nat.eqb_spec (Z.to_nat (before (List.length s) fs)) (List.length gs)); [lia |].
      reflexivity. }
    assert (Fl1 : at_ (frags t) (m - 1) = frag_of fs (List.length s) (h :: f')).
    { replace (m - 1) with (Z.of_nat (List.length s)) by lia. apply H; [apply nth_last, Es | exact Xs]. }
    assert (Fl2 : at_ (frags t1) (m - 1) = frag_of fs (List.length s) (h :: f')).
    { replace (m - 1) with (Z.of_nat (List.length s)) by lia. apply H4; [apply nth_last, Es | exact Xs]. }
    rewrite (Prev t HK Fl1). cbn [ftime start].
    destruct (GT h Hin) as (T1 & T2). destruct K as (P1 & P2 & P3 & P4 & P5 & P6).
    assert (Cond : (p_minfrag p <=? p_time p) && (gtime h <=? u64 (p_time p - p_minfrag p)) = frag_opens (h :: f') [p]).
    { unfold frag_opens. cbn [ftime start]. destruct (Z.leb_spec (p_minfrag p) (p_time p)) as [G | G]; cbn [andb].
      - unfold u64. rewrite Z.mod_small by lia. destruct (Z.leb_spec (gtime h) (p_time p - p_minfrag p)); destruct (Z.leb_spec (gtime h + p_minfrag p) (p_time p)); try reflexivity; lia.
      - destruct (Z.leb_spec (gtime h + p_minfrag p) (p_time p)); [lia | reflexivity]. }
    rewrite Cond. rewrite Fs', Es, join_snoc. destruct (frag_opens (h :: f') [p]) eqn:O.
    + (* a new fragment *)
      assert (Gap : 0 < p_time p - gtime h < 2 ^ 32).
      { split; [unfold frag_opens in O; cbn [ftime start] in O; apply Z.leb_le in O; lia |].
        specialize (FD (List.length s) (h :: f') [[p]]). rewrite Fs', Es, join_snoc, O in FD.
        rewrite <- app_assoc in FD. cbn [app] in FD. specialize (FD (nth_mid _ _ _)).
        rewrite nth_error_app2 in FD by lia. replace (S (List.length s) - List.length s)%nat with 1%nat in FD by lia.
        specialize (FD eq_refl). cbn [ftime gtime start] in FD. exact FD. }
      cbv zeta. rewrite (Prev t1 (holds_agree _ _ _ _ _ HK M2) Fl2). cbn [ftime start].
      replace (u64 (p_time p - gtime h)) with (p_time p - gtime h) by (unfold u64; rewrite Z.mod_small; lia).
      destruct (sum_frags _ _ _ 0 0) as (b & du).
      set (q0 := upd (frags t1) (m - 1) (f_dur_ (p_time p - gtime h))).
      assert (Dl : at_ (frags (with_frags t1 q0)) (m - 1) = mkfrag (p_time p - gtime h) (Z.of_nat (List.length (h :: f'))) (before (List.length s) fs) (total (total p_size) (h :: f'))).
      { cbn [with_frags frags]. unfold q0. rewrite at_upd by lia. rewrite Z.eqb_refl, Fl2. unfold f_dur_, frag_of. cbn [f_dur f_keys f_first f_size].
        replace (u32 (p_time p - gtime h)) with (p_time p - gtime h) by (unfold u32; rewrite Z.mod_small; lia). reflexivity. }
      rewrite Dl. cbn [f_dur f_size]. destruct (Z.eqb_spec (p_time p - gtime h) 0); [lia |].
      cbn [with_bps with_frags frags keys]. rewrite Kn.
      set (q := upd (upd (upd (upd (upd q0 m (f_first_ n)) m (f_dur_ 0)) m (f_size_ 0)) m (f_keys_ 1)) m (f_first_ n)).
      assert (Q : ringok q) by (unfold q, q0; repeat apply upd_ringok; exact Rc).
      assert (QE : t_end q = m) by (change (t_end q) with (t_end (frags t1)); exact H2).
      assert (QD : t_del q = Z.of_nat (expired d fs)) by (change (t_del q) with (t_del (frags t1)); exact H1).
      assert (QR : t_rc q = t_rc (frags t1)) by reflexivity.
      assert (QP : t_pres q = m - Z.of_nat (expired d fs)) by (change (t_pres q) with (t_pres (frags t1)); lia).
      destruct (addRecord_ok q Q) as (A1 & A2 & A3 & A4 & A5 & A6); [lia | lia |].
      eexists. split; [reflexivity |]. cbn [with_frags with_bps parts keys frags video lastms nowms missed firstms].
      split; [unfold rings; cbn [with_frags with_bps parts keys frags]; auto |].
      split; [exact M1 |]. split; [exact M2 |]. split; [| auto].
      rewrite <- Es. unfold holds. rewrite A2, A3, A4, QE, QD, QP. rewrite app_length. cbn [List.length].
      split; [reflexivity |]. split; [lia |]. split; [lia |].
      intros i x Ex Li. rewrite A5.
      assert (Ri : (i < List.length (fs ++ [[[p]]]))%nat) by (apply nth_error_Some; congruence).
      rewrite app_length in Ri. cbn [List.length] in Ri.
      unfold q, q0. rewrite !at_upd by (rewrite ?rc_upd; lia).
      unfold frag_pre. rewrite app_length. cbn [List.length].
      apply nth_snoc in Ex as [(Lx & Ex) | (-> & ->)].
      * destruct (Z.eqb_spec (Z.of_nat i) m); [lia |]. destruct (Nat.eqb_spec (S i) (List.length fs + 1)); [lia |].
        destruct (Z.eqb_spec (Z.of_nat i) (m - 1)) as [Y | Y].
        -- assert (i = List.length s) by lia. subst i. assert (x = h :: f') by (rewrite (nth_last _ _ _ Es) in Ex; congruence). subst x.
           rewrite Fl2. unfold f_dur_, frag_of. cbn [f_dur f_keys f_first f_size].
           replace (S (List.length s)) with (List.length fs) by lia. rewrite nth_mid. rewrite before_app by lia.
           cbn [ftime gtime start]. replace (u32 (p_time p - gtime h)) with (p_time p - gtime h) by (unfold u32; rewrite Z.mod_small; lia). reflexivity.
        -- rewrite (H4 i x Ex Li). unfold frag_of. rewrite before_app by lia. rewrite nth_error_app1 by lia. reflexivity.
      * fold m. rewrite Z.eqb_refl. destruct (Z.eqb_spec m (m - 1)); [lia |].
        destruct (Nat.eqb_spec (S (List.length fs)) (List.length fs + 1)); [| lia].
        unfold f_first_, f_keys_, f_size_, f_dur_, frag_of. cbn [f_dur f_keys f_first f_size].
        rewrite before_all, FC. fold n. rewrite Un.
        destruct (nth_error (fs ++ [[[p]]]) (S (List.length fs))) eqn:Z1.
        { assert (S (List.length fs) < List.length (fs ++ [[[p]]]))%nat by (apply nth_error_Some; congruence).
          rewrite app_length in *. cbn [List.length] in *. lia. }
        unfold total. cbn [fold_right List.length]. change (u32 0) with 0. change (u16 1) with 1. f_equal. lia.
    + (* the key joins the newest fragment *)
      eexists. split; [reflexivity |]. cbn [with_frags parts keys frags video lastms nowms missed firstms].
      split. { destruct R as (R1 & R2 & R3). unfold rings; cbn [with_frags parts keys frags]. split; [exact R1 |]. split; [exact R2 |]. apply upd_ringok, R3. }
      split; [apply agree_refl |]. split; [apply agree_refl |]. split; [| auto 10].
      destruct H as (J1 & J2 & J3 & J4). unfold holds.
      change (t_del (upd (frags t) (m - 1) (f_keys_ (f_keys (at_ (frags t) (m - 1)) + 1)))) with (t_del (frags t)).
      change (t_end (upd (frags t) (m - 1) (f_keys_ (f_keys (at_ (frags t) (m - 1)) + 1)))) with (t_end (frags t)).
      change (t_pres (upd (frags t) (m - 1) (f_keys_ (f_keys (at_ (frags t) (m - 1)) + 1)))) with (t_pres (frags t)).
      assert (SL : List.length (s ++ [(h :: f') ++ [[p]]]) = List.length fs) by (rewrite Es, !app_length; reflexivity).
      rewrite SL. rewrite <- Es. split; [exact J1 |]. split; [exact J2 |]. split; [exact J3 |].
      intros i x Ex Li. assert (Ri : (i < List.length fs)%nat) by (rewrite <- SL; apply nth_error_Some; congruence).
      rewrite at_upd by lia.
      assert (BE : forall k, (k <= List.length s)%nat -> before k (s ++ [(h :: f') ++ [[p]]]) = before k fs).
      { intros k Lk. rewrite Es, !before_app by lia. reflexivity. }
      unfold frag_pre. rewrite SL.
      apply nth_snoc in Ex as [(Lx & Ex) | (-> & ->)].
      * destruct (Z.eqb_spec (Z.of_nat i) (m - 1)); [lia |]. destruct (Nat.eqb_spec (S i) (List.length fs)); [lia |].
        rewrite (J4 i x); [| rewrite Es, nth_error_app1 by lia; exact Ex | exact Li].
        unfold frag_of. rewrite BE by lia. rewrite Es.
        destruct (Nat.eq_dec (S i) (List.length s)) as [Q1 | Q1].
        -- rewrite Q1, !nth_mid. reflexivity.
        -- rewrite !nth_error_app1 by lia. reflexivity.
      * destruct (Z.eqb_spec (Z.of_nat (List.length s)) (m - 1)); [| lia].
        destruct (Nat.eqb_spec (S (List.length s)) (List.length fs)); [| lia].
        rewrite Fl1. unfold f_keys_, frag_of. cbn [f_dur f_keys f_first f_size]. rewrite BE by lia.
        assert (Z1 : nth_error fs (S (List.length s)) = None) by (apply nth_error_None; lia).
        assert (Z2 : nth_error (s ++ [(h :: f') ++ [[p]]]) (S (List.length s)) = None) by (apply nth_error_None; lia).
        rewrite Z1, Z2. rewrite total_app. cbn [total fold_right]. rewrite app_length. cbn [List.length] in *.
        rewrite Fs', Es, join_snoc, O in FL. apply Forall_app in FL as (_ & FL). apply Forall_inv in FL. rename FL into FL'. cbv beta in FL'.
        rewrite app_length in FL'. cbn [List.length] in FL'.
        f_equal; [unfold u16; rewrite Z.mod_small; lia | lia].
Qed.
