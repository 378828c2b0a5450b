From Verif Require Import Common CommonFacts Bitfields_Model Bitfields_Spec Bitfields_Proofs Nal_Model Nal_Spec.
Import List.

(** ** Start codes *)
Lemma cons_nthz d i : 0 <= i < len d -> dropz i d = nthz d i :: dropz (i + 1) d.
Proof.
  intros H. rewrite (Z.add_comm i 1), <- (dropz_dropz 1 i) by lia.
  assert (L : len (dropz i d) = len d - i) by (apply len_dropz; lia).
  assert (N : nthz (dropz i d) 0 = nthz d i) by (rewrite nthz_dropz by lia; f_equal; lia).
  destruct (dropz i d) as [|x r]; [revert L; lnil; lia|]. rewrite nthz_0 in N. subst x. reflexivity.
Qed.
Lemma sc_occurs d i : 0 <= i -> i + 3 <= len d -> (sc d i = true <-> occurs_at d i).
Proof.
  intros Hi Hl. unfold occurs_at. rewrite (cons_nthz d i), (cons_nthz d (i + 1)), (cons_nthz d (i + 1 + 1)) by lia.
  unfold sc. replace (i + 1 + 1) with (i + 2) by lia. split.
  - intros H. split; [lia|]. eexists. cbn [app]. f_equal; [lia|]. f_equal; [lia|]. f_equal. lia.
  - intros [_ [r E]]. cbn [app] in E. injection E as E1 E2 E3 _. rewrite E1, E2, E3. reflexivity.
Qed.
Lemma occurs_len d i : occurs_at d i -> 0 <= i /\ i + 3 <= len d.
Proof.
  intros [Hi [r E]]. split; [lia|]. destruct (Z_lt_ge_dec (len d) i) as [H|H].
  - rewrite dropz_all in E by lia. discriminate.
  - pose proof (f_equal len E) as L. rewrite len_dropz in L by lia. cbn [app] in L. lens. pose proof (len_nonneg r). lia.
Qed.

Lemma scan_loop_ok fuel d offset : bytesP d -> 0 <= offset -> len d - offset <= Z.of_nat fuel ->
  (forall j, occurs_at d j -> offset <= j) ->
  match scan_loop fuel d offset with
  | Some i => first_start d i
  | None => forall j, ~ occurs_at d j
  end.
Proof.
  revert offset. induction fuel as [|k IH]; intros offset Hb Ho Hf Hpre; cbn [scan_loop].
  - intros j Hj. pose proof (Hpre j Hj). pose proof (occurs_len d j Hj). lia.
  - destruct (offset <? len d - 2) eqn:E0.
    2:{ intros j Hj. pose proof (Hpre j Hj). pose proof (occurs_len d j Hj). lia. }
    assert (J : forall j, occurs_at d j -> nthz d j = 0 /\ nthz d (j + 1) = 0 /\ nthz d (j + 2) = 1).
    { intros j Hj. pose proof (occurs_len d j Hj). apply sc_occurs in Hj; [|lia|lia]. unfold sc in Hj. lia. }
    pose proof (bytesP_nthz d (offset + 2) Hb) as Hby. unfold byteP in Hby.
    assert (R : forall j, occurs_at d j -> offset <= j).
    { exact Hpre. }
    destruct (nthz d (offset + 2) >? 1) eqn:E1.
    { apply IH; [exact Hb|lia|lia|]. intros j Hj. pose proof (R j Hj). destruct (J j Hj) as [J0 [J1 J2]].
      destruct (Z.eq_dec j offset) as [->|]; [lia|]. destruct (Z.eq_dec j (offset + 1)) as [->|].
      { replace (offset + 1 + 1) with (offset + 2) in J1 by lia. lia. }
      destruct (Z.eq_dec j (offset + 2)) as [->|]; lia. }
    destruct (nthz d (offset + 2) =? 0) eqn:E2.
    { apply IH; [exact Hb|lia|lia|]. intros j Hj. pose proof (R j Hj). destruct (J j Hj) as [J0 [J1 J2]].
      destruct (Z.eq_dec j offset) as [->|]; lia. }
    destruct ((nthz d offset =? 0) && (nthz d (offset + 1) =? 0)) eqn:E3.
    { split; [|exact R]. apply sc_occurs; [lia|lia|]. unfold sc. lia. }
    apply IH; [exact Hb|lia|lia|]. intros j Hj. pose proof (R j Hj). destruct (J j Hj) as [J0 [J1 J2]].
    destruct (Z.eq_dec j offset) as [->|]; [lia|]. destruct (Z.eq_dec j (offset + 1)) as [->|].
    { replace (offset + 1 + 1) with (offset + 2) in J1 by lia. lia. }
    destruct (Z.eq_dec j (offset + 2)) as [->|]; lia.
Qed.

Lemma nalEnd_ok fuel d n : 0 <= n <= len d -> n <= Z.of_nat fuel ->
  let e := nalEnd_loop fuel d n in 0 <= e <= n /\ (forall i, e <= i < n -> nthz d i = 0) /\ (e = 0 \/ nthz d (e - 1) <> 0).
Proof.
  revert n. induction fuel as [|k IH]; intros n Hn Hf; cbn [nalEnd_loop]; [cbv zeta; split; [lia|]; split; [lia|lia]|].
  destruct (negb (n =? 0) && (nthz d (n - 1) =? 0)) eqn:E.
  - cbv zeta in IH |- *. destruct (IH (n - 1) ltac:(lia) ltac:(lia)) as [H1 [H2 H3]]. split; [lia|]. split; [|exact H3].
    intros i Hi. destruct (Z.eq_dec i (n - 1)) as [->|]; [lia|]. apply H2. lia.
  - cbv zeta. split; [lia|]. split; [lia|]. lia.
Qed.

Lemma seek_begin_ok fuel d b p : b <= p < len d - 3 -> p - b <= Z.of_nat fuel -> sc d p = true ->
  (forall i, b <= i < p -> sc d i = false) -> seek_begin fuel d b = p.
Proof.
  revert b. induction fuel as [|k IH]; intros b Hp Hf Hs Hn; cbn [seek_begin]; [lia|]. cbv zeta.
  destruct (Z.eq_dec b p) as [->|Hne].
  - replace (p <? len d - 3) with true by lia. now rewrite Hs.
  - replace (b <? len d - 3) with true by lia. rewrite (Hn b) by lia. cbn [negb andb].
    destruct ((b + 1 <? len d - 3) && negb (nthz d (b + 1) =? 0)) eqn:E.
    + assert (b + 1 <> p) by (intros <-; unfold sc in Hs; lia). apply IH; [lia|lia|exact Hs|intros; apply Hn; lia].
    + apply IH; [lia|lia|exact Hs|intros; apply Hn; lia].
Qed.
Lemma memmem_some fuel d i p : i <= p -> p + 3 <= len d -> p - i < Z.of_nat fuel -> sc d p = true ->
  (forall j, i <= j < p -> sc d j = false) -> memmem001 fuel d i = Some p.
Proof.
  revert i. induction fuel as [|k IH]; intros i Hp Hl Hf Hs Hn; cbn [memmem001]; [lia|].
  replace (i + 3 <=? len d) with true by lia. destruct (Z.eq_dec i p) as [->|]; [now rewrite Hs|].
  rewrite (Hn i) by lia. apply IH; [lia|lia|lia|exact Hs|intros; apply Hn; lia].
Qed.
Lemma memmem_none fuel d i : (forall j, i <= j -> j + 3 <= len d -> sc d j = false) -> memmem001 fuel d i = None.
Proof.
  revert i. induction fuel as [|k IH]; intros i Hn; cbn [memmem001]; [reflexivity|].
  destruct (i + 3 <=? len d) eqn:E; [|reflexivity]. rewrite Hn by lia. apply IH. intros; apply Hn; lia.
Qed.

(** Inside a unit, and from a unit into what follows, there is no start code. *)
Lemma last_nthz u : u <> [] -> nthz u (len u - 1) = last u 0.
Proof.
  intros H. rewrite (app_removelast_last 0 H) at 1 2. lens. rewrite nthz_app2 by lia.
  replace (len (removelast u) + (1 + 0) - 1 - len (removelast u)) with 0 by lia. reflexivity.
Qed.
Lemma sc_unit pre u rest j : nal_ok u -> len pre <= j < len pre + len u -> sc (pre ++ u ++ rest) j = false.
Proof.
  intros [Hb [Hne [Hc Hl]]] Hj. destruct (sc (pre ++ u ++ rest) j) eqn:E; [|reflexivity]. exfalso.
  pose proof (last_nthz u Hne) as LN. pose proof (len_nonneg pre).
  assert (N : forall i, len pre <= i < len pre + len u -> nthz (pre ++ u ++ rest) i = nthz u (i - len pre)).
  { intros i Hi. rewrite nthz_app2 by lia. rewrite nthz_app1 by lia. reflexivity. }
  unfold sc in E.
  destruct (Z.eq_dec j (len pre + len u - 1)) as [->|H1].
  { rewrite N in E by lia. replace (len pre + len u - 1 - len pre) with (len u - 1) in E by lia. lia. }
  destruct (Z.eq_dec j (len pre + len u - 2)) as [->|H2].
  { rewrite (N (len pre + len u - 2 + 1)) in E by lia. replace (len pre + len u - 2 + 1 - len pre) with (len u - 1) in E by lia. lia. }
  rewrite !N in E by lia. apply Hc.
  assert (O : occurs_at u (j - len pre)).
  { apply sc_occurs; [lia|lia|]. unfold sc. replace (j - len pre + 1) with (j + 1 - len pre) by lia.
    replace (j - len pre + 2) with (j + 2 - len pre) by lia. exact E. }
  destruct O as [_ [r Er]]. exists (takez (j - len pre) u), r. now rewrite <- Er, takez_dropz.
Qed.
Lemma sc_start pre r : sc (pre ++ 0 :: 0 :: 1 :: r) (len pre) = true.
Proof.
  unfold sc. rewrite !nthz_app2 by lia. rewrite Z.sub_diag. replace (len pre + 1 - len pre) with 1 by lia.
  replace (len pre + 2 - len pre) with 2 by lia. reflexivity.
Qed.
Lemma sc_start4 pre r : sc (pre ++ 0 :: 0 :: 0 :: 1 :: r) (len pre) = false /\ sc (pre ++ 0 :: 0 :: 0 :: 1 :: r) (len pre + 1) = true.
Proof.
  split.
  - unfold sc. rewrite !nthz_app2 by lia. rewrite Z.sub_diag. replace (len pre + 1 - len pre) with 1 by lia.
    replace (len pre + 2 - len pre) with 2 by lia. reflexivity.
  - pose proof (sc_start (pre ++ [0]) r) as S. rewrite <- app_assoc in S. lens. rewrite Z.add_0_r in S. exact S.
Qed.

Definition ok_units (us : list (bool * list Z)) : Prop := Forall (fun x => nal_ok (snd x)) us.
Lemma annexb_nonempty us : us <> [] -> 3 <= len (annexb us).
Proof.
  destruct us as [|[f u] r]; [congruence|]. intros _. unfold annexb. cbn [flat_map fst snd]. lens.
  pose proof (len_nonneg u). pose proof (len_nonneg (flat_map (fun x : bool * list Z => start_code (fst x) ++ snd x) r)).
  destruct f; cbn [start_code]; lens; lia.
Qed.
Lemma from_loop_ok us : forall fuel pre result, ok_units us -> len pre + len (annexb us) < 2 ^ 31 -> len us <= Z.of_nat fuel ->
  from_loop fuel (pre ++ annexb us) (len pre) result = result ++ length_prefixed (map snd us).
Proof.
  induction us as [|[four u] us IH]; intros fuel pre result Hok Hlen Hfuel.
  - change (annexb []) with (@nil Z). rewrite app_nil_r. cbn [map length_prefixed flat_map]. rewrite app_nil_r.
    destruct fuel as [|k]; [reflexivity|]. cbn [from_loop]. now rewrite Z.ltb_irrefl.
  - inversion Hok as [|? ? Hu Hus]; subst. cbn [snd] in Hu. lens. pose proof (len_nonneg us).
    destruct fuel as [|k]; [lia|].
    assert (Hu0 : 1 <= len u). { destruct Hu as [_ [Hne _]]. destruct u; [congruence|]. lens. pose proof (len_nonneg u). lia. }
    set (code := start_code four). assert (Lc : len code = if four then 4 else 3) by (unfold code; destruct four; reflexivity).
    assert (EA : annexb ((four, u) :: us) = code ++ u ++ annexb us).
    { unfold annexb at 1. cbn [flat_map fst snd]. now rewrite <- app_assoc. }
    rewrite EA in *. clear EA. rewrite !len_app in Hlen. pose proof (len_nonneg pre). pose proof (len_nonneg (annexb us)).
    set (d := pre ++ code ++ u ++ annexb us).
    assert (Ld : len d = len pre + len code + len u + len (annexb us)) by (unfold d; lens; lia).
    assert (Lf : Z.of_nat (List.length d) = len d) by reflexivity.
    assert (Lc' : 3 <= len code <= 4) by (rewrite Lc; destruct four; lia).
    assert (Ed : d = (pre ++ code) ++ u ++ annexb us) by (unfold d; now rewrite <- app_assoc).
    assert (Hnz : nthz d (len pre + len code + len u - 1) <> 0).
    { rewrite Ed. rewrite nthz_app2 by (lens; lia). rewrite nthz_app1 by (lens; lia).
      replace (len pre + len code + len u - 1 - len (pre ++ code)) with (len u - 1) by (lens; lia).
      destruct Hu as [_ [Hne [_ Hl]]]. now rewrite last_nthz. }
    cbn [from_loop]. replace (len pre <? len d) with true by lia.
    assert (Esk : seek_begin (List.length d) d (len pre) = len pre + len code - 3).
    { apply seek_begin_ok; [lia|lia| |].
      - rewrite Lc. unfold d, code. destruct four; cbn [start_code app].
        + replace (len pre + 4 - 3) with (len pre + 1) by lia. apply sc_start4.
        + replace (len pre + 3 - 3) with (len pre) by lia. apply sc_start.
      - rewrite Lc. intros i Hi. destruct four; [|lia]. replace i with (len pre) by lia.
        unfold d, code. cbn [start_code app]. apply sc_start4. }
    rewrite Esk. clear Esk. replace (len pre + len code - 3 + 3) with (len pre + len code) by lia. cbv zeta.
    replace (len pre + len code >? len d) with false by lia.
    set (b := len pre + len code).
    assert (Hin : forall j, b <= j < b + len u -> sc d j = false).
    { intros j Hj. rewrite Ed. apply sc_unit; [exact Hu|]. lens. unfold b in Hj. lia. }
    set (e := match memmem001 _ _ _ with Some e => e | None => len d end).
    assert (Ee : (if (e >? b) && negb (e =? len d) && (nthz d (e - 1) =? 0) then e - 1 else e) = b + len u).
    { destruct us as [|[f2 u2] us2].
      - change (annexb []) with (@nil Z) in *. lens. unfold e. rewrite memmem_none.
        + rewrite Z.eqb_refl. cbn [negb]. rewrite andb_false_r. cbn [andb]. unfold b. lia.
        + intros j Hj Hj2. apply Hin. unfold b in *. lia.
      - assert (EA : exists r, annexb ((f2, u2) :: us2) = start_code f2 ++ r).
        { exists (u2 ++ annexb us2). unfold annexb at 1. cbn [flat_map fst snd]. now rewrite <- app_assoc. }
        destruct EA as [r EA]. assert (Ed2 : d = (pre ++ code ++ u) ++ start_code f2 ++ r) by (rewrite <- EA; unfold d; now rewrite <- !app_assoc).
        assert (Lp : len (pre ++ code ++ u) = b + len u) by (unfold b; lens; lia).
        assert (Ld2 : len d = b + len u + len (start_code f2) + len r) by (rewrite Ed2, len_app, Lp, len_app; lia).
        pose proof (len_nonneg r).
        destruct f2; cbn [start_code app] in *.
        + assert (L4 : len [0; 0; 0; 1] = 4) by reflexivity. rewrite L4 in Ld2.
          destruct (sc_start4 (pre ++ code ++ u) r) as [S1 S2]. rewrite <- Ed2, Lp in S1, S2.
          unfold e. rewrite (memmem_some _ _ _ (b + len u + 1)); [|lia|lia|unfold b in *; lia|exact S2|].
          * assert (N0 : nthz d (b + len u) = 0).
            { rewrite Ed2. rewrite nthz_app2 by lia. rewrite Lp, Z.sub_diag. reflexivity. }
            replace (b + len u + 1 - 1) with (b + len u) by lia. rewrite N0.
            replace (b + len u + 1 >? b) with true by lia. replace (b + len u + 1 =? len d) with false by lia. reflexivity.
          * intros j Hj. destruct (Z.eq_dec j (b + len u)) as [->|]; [exact S1|]. apply Hin. lia.
        + assert (L4 : len [0; 0; 1] = 3) by reflexivity. rewrite L4 in Ld2.
          pose proof (sc_start (pre ++ code ++ u) r) as S1. rewrite <- Ed2, Lp in S1.
          unfold e. rewrite (memmem_some _ _ _ (b + len u)); [|lia|lia|unfold b in *; lia|exact S1|exact Hin].
          fold b in Hnz. replace (nthz d (b + len u - 1) =? 0) with false by lia. now rewrite andb_false_r. }
    rewrite Ee. clear Ee e. replace (b + len u - b) with (len u) by lia.
    rewrite u32_id by lia.
    assert (Eu : takez (len u) (dropz b d) = u).
    { rewrite Ed. unfold b. replace (len pre + len code) with (len (pre ++ code)) by (lens; lia).
      rewrite dropz_app_exact by reflexivity. now rewrite takez_app_exact. }
    rewrite Eu. rewrite wr_htobl.
    unfold d. replace (pre ++ code ++ u ++ annexb us) with ((pre ++ code ++ u) ++ annexb us) by (now rewrite <- !app_assoc).
    replace (b + len u) with (len (pre ++ code ++ u)) by (unfold b; lens; lia).
    rewrite IH; [|exact Hus|lens; lia|lia].
    unfold length_prefixed. cbn [map flat_map snd]. now rewrite <- !app_assoc.
Qed.
Lemma annexb_count us : len us <= len (annexb us).
Proof.
  induction us as [|[f u] r IH]; [cbn; lia|]. unfold annexb in *. cbn [flat_map fst snd]. lens. pose proof (len_nonneg u).
  destruct f; cbn [start_code]; lens; lia.
Qed.
Lemma fromAnnexB_ok us : ok_units us -> len (annexb us) < 2 ^ 31 -> fromAnnexB (annexb us) = length_prefixed (map snd us).
Proof.
  intros H1 H2. unfold fromAnnexB. pose proof (from_loop_ok us (List.length (annexb us)) [] [] H1) as F.
  cbn [app] in F. change (len (@nil Z)) with 0 in F. apply F; [lia|]. pose proof (annexb_count us). unfold len in *. lia.
Qed.

Lemma to_loop_ok us : forall fuel pre result, Forall bytesP us -> len pre + len (length_prefixed us) < 2 ^ 31 -> len us < Z.of_nat fuel + 1 ->
  to_loop fuel (pre ++ length_prefixed us) (len pre) result = Some (result ++ annexb (map (fun u => (true, u)) us)).
Proof.
  induction us as [|u us IH]; intros fuel pre result Hok Hlen Hfuel.
  - change (length_prefixed []) with (@nil Z). rewrite app_nil_r. cbn [map annexb flat_map]. rewrite app_nil_r.
    destruct fuel as [|k]; [reflexivity|]. cbn [to_loop]. now rewrite Z.ltb_irrefl.
  - inversion Hok as [|? ? Hu Hus]; subst. lens. pose proof (len_nonneg us). pose proof (len_nonneg u).
    destruct fuel as [|k]; [lia|].
    assert (EA : length_prefixed (u :: us) = be 4 (len u) ++ u ++ length_prefixed us).
    { unfold length_prefixed. cbn [flat_map]. now rewrite <- app_assoc. }
    rewrite EA in *. rewrite !len_app in Hlen. rewrite be_len in Hlen. pose proof (len_nonneg pre). pose proof (len_nonneg (length_prefixed us)).
    set (d := pre ++ be 4 (len u) ++ u ++ length_prefixed us).
    assert (Ld : len d = len pre + 4 + len u + len (length_prefixed us)) by (unfold d; lens; lia).
    cbn [to_loop]. replace (len pre <? len d) with true by lia. replace (len d <? len pre + 4) with false by lia. cbv zeta.
    assert (Es : btohl (dropz (len pre) d) = len u).
    { unfold d. rewrite dropz_app_exact by reflexivity. rewrite rd_btohl.
      - rewrite firstn_app, be_length, Nat.sub_diag, firstn_O, app_nil_r, firstn_all2 by (now rewrite be_length). rewrite unbe_be. change (256 ^ Z.of_nat 4) with (2 ^ 32). apply Z.mod_small. lia.
      - apply bytesP_app. split; [apply be_bytes|]. apply bytesP_app. split; [exact Hu|]. unfold length_prefixed.
        clear - Hus. induction Hus as [|v vs Hv _ IHv]; cbn [flat_map]; [constructor|]. apply bytesP_app. split; [|exact IHv].
        apply bytesP_app. split; [apply be_bytes|exact Hv].
      - lens. lia. }
    rewrite Es. replace (len d <? len pre + 4 + len u) with false by lia.
    assert (Eu : takez (len u) (dropz (len pre + 4) d) = u).
    { unfold d. rewrite app_assoc. replace (len pre + 4) with (len (pre ++ be 4 (len u))) by (lens; lia).
      rewrite dropz_app_exact by reflexivity. now rewrite takez_app_exact. }
    rewrite Eu. unfold d. replace (pre ++ be 4 (len u) ++ u ++ length_prefixed us) with ((pre ++ be 4 (len u) ++ u) ++ length_prefixed us)
      by (now rewrite <- !app_assoc).
    replace (len pre + 4 + len u) with (len (pre ++ be 4 (len u) ++ u)) by (lens; lia).
    rewrite IH; [|exact Hus|lens; lia|lia].
    unfold annexb. cbn [map flat_map fst snd start_code]. now rewrite <- !app_assoc.
Qed.
Lemma length_prefixed_count us : len us <= len (length_prefixed us).
Proof.
  induction us as [|u r IH]; [cbn; lia|]. unfold length_prefixed in *. cbn [flat_map]. lens. pose proof (len_nonneg u). lia.
Qed.
Lemma toAnnexB_ok us : Forall bytesP us -> len (length_prefixed us) < 2 ^ 31 ->
  toAnnexB (length_prefixed us) = Some (annexb (map (fun u => (true, u)) us)).
Proof.
  intros H1 H2. unfold toAnnexB. pose proof (to_loop_ok us (List.length (length_prefixed us)) [] [] H1) as F.
  cbn [app] in F. change (len (@nil Z)) with 0 in F. apply F; [lia|]. pose proof (length_prefixed_count us). unfold len in *. lia.
Qed.

(** ** Emulation prevention *)
Lemma rep_nz a r : a <> 0 -> rep_loop (a :: r) = a :: rep_loop r.
Proof. intros H. destruct r as [|b [|c r]]; try reflexivity. cbn [rep_loop]. replace (a =? 0) with false by lia. reflexivity. Qed.
Lemma rep_nz2 a b r : b <> 0 -> rep_loop (a :: b :: r) = a :: rep_loop (b :: r).
Proof. intros H. destruct r as [|c r]; [reflexivity|]. cbn [rep_loop]. replace (b =? 0) with false by lia. now rewrite andb_false_r. Qed.
Lemma rep_nz3 a b c r : c <> 3 -> rep_loop (a :: b :: c :: r) = a :: rep_loop (b :: c :: r).
Proof. intros H. cbn [rep_loop]. replace (c =? 3) with false by lia. now rewrite andb_false_r. Qed.
Lemma rep_hit r : rep_loop (0 :: 0 :: 3 :: r) = 0 :: 0 :: rep_loop r.
Proof. reflexivity. Qed.
(** The reader meets the zeros the writer still remembers. *)
Lemma rep_loop_ok l : bytesP l -> rep_loop (insert_ep 0 l) = l /\ rep_loop (0 :: insert_ep 1 l) = 0 :: l /\
  rep_loop (0 :: 0 :: insert_ep 2 l) = 0 :: 0 :: l.
Proof.
  induction l as [|x l IH]; intros Hb; [cbn; repeat split; reflexivity|].
  inversion Hb as [|? ? Hx Hl]; subst. destruct (IH Hl) as [I0 [I1 I2]]. unfold byteP in Hx. cbn [insert_ep].
  change ((2 <=? 0)%nat) with false. change ((2 <=? 1)%nat) with false. change ((2 <=? 2)%nat) with true. cbn [andb].
  destruct (Z.eq_dec x 0) as [->|Hn].
  - change (0 =? 0) with true. change (0 <=? 3) with true. cbv iota. rewrite rep_hit. split; [exact I1|]. split; [exact I2|]. now rewrite I1.
  - replace (x =? 0) with false by lia. split; [rewrite rep_nz by lia; now rewrite I0|]. split.
    + rewrite rep_nz2, rep_nz by lia. now rewrite I0.
    + destruct (x <=? 3) eqn:E.
      * rewrite rep_hit, rep_nz by lia. now rewrite I0.
      * rewrite rep_nz3, rep_nz2, rep_nz by lia. now rewrite I0.
Qed.
Lemma removeEP_ok h0 h1 l : bytesP (h0 :: h1 :: l) -> h0 <> 0 -> (h1 <> 0 \/ match l with x :: _ => x <> 0 | [] => True end) ->
  removeEmulationPrevention (insert_ep 0 (h0 :: h1 :: l)) = Some (h0 :: h1 :: l).
Proof.
  intros Hb H0 H1. inversion Hb as [|? ? B0 Hb1]; subst. inversion Hb1 as [|? ? B1 Hl]; subst.
  cbn [insert_ep]. replace (h0 =? 0) with false by lia. change ((2 <=? 0)%nat) with false. cbn [andb].
  cbn [removeEmulationPrevention]. f_equal. f_equal. f_equal.
  destruct (Z.eq_dec h1 0) as [->|Hn].
  - change (0 =? 0) with true. cbv iota. destruct H1 as [H1|H1]; [congruence|]. destruct l as [|x l]; [reflexivity|].
    cbn [insert_ep]. change ((2 <=? 1)%nat) with false. cbn [andb]. replace (x =? 0) with false by lia.
    inversion Hl; subst. rewrite rep_nz by exact H1. f_equal. now apply rep_loop_ok.
  - replace (h1 =? 0) with false by lia. now apply rep_loop_ok.
Qed.
Lemma contains_tail a u : contains001 u -> contains001 (a :: u).
Proof. intros [x [y ->]]. now exists (a :: x), y. Qed.
Lemma insert_no_start l : bytesP l -> ~ contains001 (insert_ep 0 l) /\ ~ contains001 (0 :: insert_ep 1 l) /\ ~ contains001 (0 :: 0 :: insert_ep 2 l).
Proof.
  assert (C0 : forall a r, a <> 0 -> contains001 (a :: r) -> contains001 r).
  { intros a r Ha [x [y E]]. destruct x as [|z x]; cbn [app] in E; injection E as E1 E2; [congruence|]. now exists x, y. }
  assert (C1 : forall b r, b <> 0 -> contains001 (0 :: b :: r) -> contains001 (b :: r)).
  { intros b r Ha [x [y E]]. destruct x as [|z x]; cbn [app] in E; injection E as E1 E2; [congruence|]. now exists x, y. }
  assert (C2 : forall c r, c <> 1 -> contains001 (0 :: 0 :: c :: r) -> contains001 (0 :: c :: r)).
  { intros b r Ha [x [y E]]. destruct x as [|z x]; cbn [app] in E; injection E as E1 E2; [congruence|]. now exists x, y. }
  induction l as [|x l IH]; intros Hb.
  - repeat split; intros [a [b E]]; destruct a as [|? [|? [|? a]]]; cbn in E; try discriminate; injection E; intros; try discriminate; destruct a; discriminate.
  - inversion Hb as [|? ? Hx Hl]; subst. destruct (IH Hl) as [I0 [I1 I2]]. unfold byteP in Hx. cbn [insert_ep].
    change ((2 <=? 0)%nat) with false. change ((2 <=? 1)%nat) with false. change ((2 <=? 2)%nat) with true. cbn [andb].
    destruct (Z.eq_dec x 0) as [->|Hn].
    + change (0 =? 0) with true. change (0 <=? 3) with true. cbv iota. split; [exact I1|]. split; [exact I2|].
      intros H. apply C2 in H; [|lia]. apply C1 in H; [|lia]. apply C0 in H; [|lia]. exact (I1 H).
    + replace (x =? 0) with false by lia. split; [intros H; apply C0 in H; [exact (I0 H)|lia]|]. split.
      * intros H. apply C1 in H; [|lia]. apply C0 in H; [|lia]. exact (I0 H).
      * destruct (x <=? 3) eqn:E; intros H.
        -- apply C2 in H; [|lia]. apply C1 in H; [|lia]. apply C0 in H; [|lia]. apply C0 in H; [|lia]. exact (I0 H).
        -- apply C2 in H; [|lia]. apply C1 in H; [|lia]. apply C0 in H; [|lia]. exact (I0 H).
Qed.
(** Bytes with no 00 00 03 after the second one are kept. *)
Lemma rep_loop_id l : (forall a b, l <> a ++ [0; 0; 3] ++ b) -> rep_loop l = l.
Proof.
  induction l as [|x l IH]; intros H; [reflexivity|].
  assert (Hl : rep_loop l = l) by (apply IH; intros a b E; apply (H (x :: a) b); now rewrite E).
  destruct l as [|y [|z l]]; [reflexivity|cbn [rep_loop] in *; congruence|].
  cbn [rep_loop]. destruct ((x =? 0) && (y =? 0) && (z =? 3)) eqn:E.
  - exfalso. apply (H [] l). cbn [app]. repeat f_equal; lia.
  - cbn [rep_loop] in Hl. now rewrite Hl.
Qed.
