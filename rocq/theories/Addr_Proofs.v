(** Proofs about address matching. *)
From Verif Require Import Common CommonFacts CommonMore Addr_Model Addr_Spec.

(** Equality of the top [k] bits of a byte, as computed and bit by bit. *)
Lemma top_bits : forall k, 0 <= k < 8 -> forall a b, byteP a -> byteP b ->
  ((a .& (255 << (8 - k))) =? (b .& (255 << (8 - k)))) = true <->
  (forall j, 0 <= j < k -> Z.testbit a (7 - j) = Z.testbit b (7 - j)).
Proof.
  intros k Hk a b Ha Hb. rewrite Z.eqb_eq.
  assert (Hm : forall x j, byteP x -> 0 <= j -> Z.testbit (x .& (255 << (8 - k))) j = (8 - k <=? j) && Z.testbit x j).
  { intros x j Hx Hj. rewrite Z.land_spec, Z.shiftl_spec by lia.
    destruct (8 - k <=? j) eqn:E; cbn [andb].
    - destruct (Z_lt_ge_dec j 8) as [H8|H8].
      + change 255 with (Z.ones 8). rewrite Z.ones_spec_low by lia. apply andb_true_r.
      + assert (Z.testbit x j = false).
        { unfold byteP in Hx. destruct (Z.eq_dec x 0) as [-> |Hx0]; [apply Z.bits_0|].
          apply Z.bits_above_log2; [lia|]. assert (Z.log2 x <= Z.log2 255) by (apply Z.log2_le_mono; lia).
          change (Z.log2 255) with 7 in *. lia. }
        rewrite H. reflexivity.
    - rewrite (Z.testbit_neg_r 255) by lia. apply andb_false_r. }
  split.
  - intros E j Hj. assert (E2 : Z.testbit (a .& (255 << (8 - k))) (7 - j) = Z.testbit (b .& (255 << (8 - k))) (7 - j)) by now rewrite E.
    rewrite !Hm in E2 by (auto; lia). replace (8 - k <=? 7 - j) with true in E2 by lia. exact E2.
  - intros H. apply Z.bits_inj'. intros j Hj. rewrite !Hm by (auto; lia).
    destruct (8 - k <=? j) eqn:E; [|reflexivity]. cbn [andb].
    destruct (Z_lt_ge_dec j 8) as [H8|H8].
    + specialize (H (7 - j) ltac:(lia)). replace (7 - (7 - j)) with j in H by lia. exact H.
    + assert (Hz : forall x, byteP x -> Z.testbit x j = false).
      { intros x Hx. unfold byteP in Hx. destruct (Z.eq_dec x 0) as [-> |Hx0]; [apply Z.bits_0|].
        apply Z.bits_above_log2; [lia|]. assert (Z.log2 x <= Z.log2 255) by (apply Z.log2_le_mono; lia).
        change (Z.log2 255) with 7 in *. lia. }
      now rewrite !Hz.
Qed.

Lemma byte_bits a b : byteP a -> byteP b -> (forall j, 0 <= j < 8 -> Z.testbit a (7 - j) = Z.testbit b (7 - j)) -> a = b.
Proof.
  intros Ha Hb H. apply Z.bits_inj'. intros j Hj.
  destruct (Z_lt_ge_dec j 8) as [H8|H8].
  - specialize (H (7 - j) ltac:(lia)). now replace (7 - (7 - j)) with j in H by lia.
  - assert (Hz : forall x, byteP x -> Z.testbit x j = false).
    { intros x Hx. unfold byteP in Hx. destruct (Z.eq_dec x 0) as [-> |Hx0]; [apply Z.bits_0|].
      apply Z.bits_above_log2; [lia|]. assert (Z.log2 x <= Z.log2 255) by (apply Z.log2_le_mono; lia).
      change (Z.log2 255) with 7 in *. lia. }
    now rewrite !Hz.
Qed.

(** Whole bytes. *)
Lemma bytes_network A B n : bytesP A -> bytesP B -> 0 <= n <= len A -> n <= len B ->
  takez n A = takez n B <-> same_network (8 * n) A B.
Proof.
  intros HA HB Hn Hn2. split.
  - intros E i Hi. unfold addr_bit.
    rewrite <- (nthz_takez A (i / 8) n) by lia. rewrite E. rewrite nthz_takez by lia. reflexivity.
  - intros H. apply list_ext; [rewrite !len_takez by lia; reflexivity|].
    rewrite len_takez by lia. intros i Hi. rewrite !nthz_takez by lia.
    apply byte_bits; try now apply bytesP_nthz. intros j Hj. specialize (H (8 * i + j) ltac:(lia)).
    unfold addr_bit in H. replace ((8 * i + j) / 8) with i in H by lia. replace ((8 * i + j) mod 8) with j in H by lia. exact H.
Qed.

Lemma match_ok A B p : bytesP A -> bytesP B -> len A = 16 -> len B = 16 -> 1 <= p <= 128 ->
  exists b, matchIPv6Addr A B p = Some b /\ (b = true <-> same_network p A B).
Proof.
  intros HA HB LA LB Hp. unfold matchIPv6Addr, mem_same. replace (p =? 0) with false by lia.
  replace ((p / 8 <=? len A + 1) && (p / 8 <=? len B + 1)) with true by lia.
  rewrite !takez_app by lia.
  destruct (beqb (takez (p / 8) A) (takez (p / 8) B)) eqn:E; cbn [negb].
  - apply beqb_eq in E. apply bytes_network in E; auto; [|lia|lia].
    destruct (p mod 8 =? 0) eqn:E8.
    + exists true. split; auto. split; auto. intros _. replace p with (8 * (p / 8)) by lia. exact E.
    + assert (H16 : p / 8 < 16) by lia.
      rewrite !rd_some by (rewrite len_app; change (len [0]) with 1; lia).
      rewrite !nthz_app1 by lia.
      set (a := nthz A (p / 8)). set (b := nthz B (p / 8)).
      exists ((a .& (255 << (8 - p mod 8))) =? (b .& (255 << (8 - p mod 8)))). split; [reflexivity|].
      rewrite top_bits by (try lia; unfold a, b; now apply bytesP_nthz). split.
      * intros H i Hi. destruct (Z_lt_ge_dec i (8 * (p / 8))) as [H1|H1]; [now apply E|].
        unfold addr_bit. assert (Hi8 : i / 8 = p / 8) by lia. rewrite Hi8. apply (H (i mod 8)). lia.
      * intros H j Hj. specialize (H (8 * (p / 8) + j) ltac:(lia)). unfold addr_bit in H.
        replace ((8 * (p / 8) + j) / 8) with (p / 8) in H by lia. replace ((8 * (p / 8) + j) mod 8) with j in H by lia. exact H.
  - exists false. split; auto. split; [discriminate|]. intros H.
    apply beqb_neq in E. exfalso. apply E. apply bytes_network; auto; try lia.
    intros i Hi. apply H. lia.
Qed.

Lemma match_zero A B : len A = 16 -> len B = 16 -> matchIPv6Addr A B 0 = Some (beqb A B).
Proof.
  intros LA LB. unfold matchIPv6Addr, mem_same. cbn [Z.eqb]. change (128 / 8) with 16. change (128 mod 8) with 0. cbn [Z.eqb].
  replace ((16 <=? len A + 1) && (16 <=? len B + 1)) with true by lia.
  rewrite !takez_app_exact by lia. now destruct (beqb A B).
Qed.
Lemma match_over A B p : len A = 16 -> len B = 16 -> 144 <= p -> matchIPv6Addr A B p = None.
Proof.
  intros LA LB Hp. unfold matchIPv6Addr, mem_same. replace (p =? 0) with false by lia.
  now replace ((p / 8 <=? len A + 1) && (p / 8 <=? len B + 1)) with false by lia.
Qed.

Lemma binForm_ok a : wf_sockaddr a -> sa_family a <> OtherFamily ->
  canonical a = Some (binForm a) /\ len (binForm a) = 16 /\ bytesP (binForm a).
Proof.
  unfold wf_sockaddr, canonical, binForm. destruct (sa_family a); intros [Hb H] Hf; [..|contradiction].
  - rewrite takez_all by lia. split; auto. split; [rewrite len_app; change (len v4_prefix) with 12; lia|].
    apply bytesP_app. split; auto. now apply all_bytes_ok.
  - rewrite takez_all by lia. auto.
Qed.

Lemma any_ok host n addrs : bytesP host -> len host = 16 -> Forall wf_sockaddr addrs ->
  (forall a, In a addrs -> sa_family a <> OtherFamily /\ (sa_family a = Inet -> 1 <= n <= 32)) -> 1 <= n <= 128 ->
  exists b, any_match host n addrs = Some b /\ (b = true <-> Exists (fun a => in_range a n host) addrs).
Proof.
  intros Hh Lh Hw Hf Hn. induction addrs as [|a r IH]; cbn [any_match].
  - exists false. split; auto. split; [discriminate|]. intros H. inversion H.
  - inversion Hw as [|? ? Wa Wr]; subst. destruct (Hf a ltac:(now left)) as [Fa Fn].
    destruct (binForm_ok a Wa Fa) as (Ca & La & Ba).
    destruct (IH Wr) as (b & Eb & Hb). { intros x Hx. apply Hf. now right. }
    assert (Hm : exists m, matchIPv6Addr (binForm a) host
        match sa_family a with Inet => if n =? 0 then 0 else u8 (n + 96) | _ => n end = Some m
        /\ (m = true <-> in_range a n host)).
    { unfold in_range. destruct (sa_family a) eqn:E; [..|contradiction].
      - specialize (Fn eq_refl). replace (n =? 0) with false by lia. rewrite u8_id by (unfold byteP; lia).
        destruct (match_ok (binForm a) host (n + 96)) as (m & -> & Hm); auto; [lia|].
        exists m. split; auto. rewrite Hm. replace (n + 96) with (96 + n) by lia. split.
        + intros H. exists (binForm a). auto.
        + intros (c & Ec & H). rewrite Ca in Ec. injection Ec as <-. exact H.
      - destruct (match_ok (binForm a) host n) as (m & -> & Hm); auto.
        exists m. split; auto. rewrite Hm. split.
        + intros H. exists (binForm a). auto.
        + intros (c & Ec & H). rewrite Ca in Ec. injection Ec as <-. exact H. }
    destruct Hm as (m & -> & Hm). destruct m.
    + exists true. split; auto. split; auto. intros _. left. now apply Hm.
    + exists b. split; auto. rewrite Hb. split; [now right|]. intros H. inversion H as [? ? H1|? ? H1]; subst; auto.
      apply Hm in H1. discriminate.
Qed.

Lemma cmp_ok A B : wf_sockaddr A -> wf_sockaddr B ->
  compareAddress A B = true <->
  sa_port A = sa_port B /\ canonical A = canonical B /\ canonical A <> None.
Proof.
  intros WA WB. unfold compareAddress.
  assert (Hs : forall a, wf_sockaddr a -> match cmp_side a with
     | None => canonical a = None
     | Some (true, x) => canonical a = Some x /\ len x = 16 /\ takez 12 x <> v4_prefix
     | Some (false, x) => canonical a = Some (v4_prefix ++ x) /\ len x = 4 end).
  { intros a [_ Wa]. unfold cmp_side, canonical. destruct (sa_family a); auto.
    destruct (beqb (takez 12 (sa_ip a)) v4_prefix) eqn:E.
    - apply beqb_eq in E. rewrite <- E, takez_dropz. split; auto. rewrite len_dropz by lia. lia.
    - apply beqb_neq in E. auto. }
  pose proof (Hs A WA) as HA. pose proof (Hs B WB) as HB.
  destruct (cmp_side A) as [[sA a]|]; destruct (cmp_side B) as [[sB b]|].
  2:{ rewrite HB. destruct sA; destruct HA as [-> _]; split; try discriminate; intros (_ & H & _); discriminate. }
  2:{ rewrite HA. split; [discriminate|]. intros (_ & _ & H). contradiction. }
  2:{ rewrite HA. split; [discriminate|]. intros (_ & _ & H). contradiction. }
  destruct (sa_port A =? sa_port B) eqn:Ep; cbn [negb].
  2:{ split; [discriminate|]. intros (H & _). lia. }
  apply Z.eqb_eq in Ep.
  destruct sA, sB; cbn [Bool.eqb negb]; cbv zeta.
  - destruct HA as (-> & La & _), HB as (-> & Lb & _). rewrite !takez_all by lia. rewrite beqb_eq. split.
    + intros ->. split; auto. split; auto. discriminate.
    + intros (_ & H & _). now injection H.
  - destruct HA as (-> & La & Na), HB as (-> & Lb). split; [discriminate|]. intros (_ & H & _). injection H as H. subst a.
    exfalso. apply Na. reflexivity.
  - destruct HA as (-> & La), HB as (-> & Lb & Nb). split; [discriminate|]. intros (_ & H & _). injection H as H. subst b.
    exfalso. apply Nb. reflexivity.
  - destruct HA as (-> & La), HB as (-> & Lb). rewrite !takez_all by lia. rewrite beqb_eq. split.
    + intros ->. split; auto. split; auto. discriminate.
    + intros (_ & H & _). injection H as H. exact H.
Qed.
