(** Proofs about tables and packet assembly. *)
From Verif Require Import Common CommonFacts CommonMore Mem_Model Crc_Model Crc_Spec Crc_Proofs Ts_Model Ts_Spec Ts_Proofs Outcome_Model Psi_Model Psi_Spec.
Import List.

(** ** Assembler. *)
Lemma placed_app pos a b : placed pos (a ++ b) = placed pos a ++ placed (pos + 188 * len a) b.
Proof.
  revert pos. induction a as [| p a IH]; intros pos; cbn [placed app]; [change (len (@nil (list Z))) with 0; f_equal; lia |].
  rewrite IH, len_cons. replace (pos + 188 + 188 * len a) with (pos + 188 * (1 + len a)) by lia. reflexivity.
Qed.
Lemma concat_len ps : Forall ts_packet ps -> len (List.concat ps) = 188 * len ps.
Proof. induction 1 as [| p ps (L & _) _ IH]; [reflexivity |]. cbn [List.concat]. rewrite len_app, len_cons, L, IH. lia. Qed.

(** The end of what was received: nothing, or the start of a packet. *)
Definition tail_ok (t : list Z) : Prop := t = [] \/ (nthz t 0 = 0x47 /\ 0 < len t < 188).
Lemma head_concat ps t : Forall ts_packet ps -> tail_ok t -> 0 < len (List.concat ps ++ t) -> nthz (List.concat ps ++ t) 0 = 0x47.
Proof.
  intros F T H. destruct ps as [| p ps]; cbn [List.concat app] in *.
  - destruct T as [-> | (E & _)]; [change (0 < 0) in H; lia | exact E].
  - inversion F as [| ? ? (L & E) _]; subst. rewrite <- app_assoc, nthz_app1 by lia. exact E.
Qed.
Lemma nth188 p r : len p = 188 -> nthz (p ++ r) 188 = nthz r 0.
Proof. intros L. rewrite nthz_app2 by lia. f_equal. lia. Qed.
Lemma scan_packets ps : forall fuel t pos, Forall ts_packet ps -> tail_ok t -> (List.length (List.concat ps ++ t) <= fuel)%nat -> 0 <= pos -> pos + len (List.concat ps ++ t) < 2 ^ 64 ->
  scan fuel (List.concat ps ++ t) pos = (placed pos ps, match t with [] => None | _ => Some t end).
Proof.
  induction ps as [| p ps IH]; intros fuel t pos F T Hf P0 P1; cbn [List.concat app placed] in *.
  - destruct T as [-> | (E & L)]; [destruct fuel; reflexivity |]. destruct t as [| x t]; [change (0 < 0 < 188) in L; lia |].
    destruct fuel as [| k]; [cbn in Hf; lia |]. cbn [scan]. change (nthz (x :: t) 0) with x in E. subst x. change (71 =? 71) with true.
    replace (len (71 :: t) <=? 188) with true by (symmetry; apply Z.leb_le; lia). cbn [orb andb].
    replace (188 <=? len (71 :: t)) with false by (symmetry; apply Z.leb_gt; lia).
    rewrite dropz_all by lia. destruct k; reflexivity.
  - inversion F as [| ? ? (L & E) F']; subst. rewrite <- app_assoc in *. set (r := List.concat ps ++ t) in *.
    assert (LA : len (p ++ r) = 188 + len r) by (rewrite len_app; lia). pose proof (len_nonneg r).
    destruct (p ++ r) as [| x q] eqn:EQ; [change (0 = 188 + len r) in LA; lia |].
    assert (X : x = 71). { transitivity (nthz (x :: q) 0); [reflexivity |]. rewrite <- EQ, nthz_app1 by lia. exact E. }
    destruct fuel as [| k]; [cbn in Hf; lia |]. cbn [scan]. subst x. change (71 =? 71) with true.
    assert (C : (len (71 :: q) <=? 188) || (nthz (71 :: q) 188 =? 71) = true).
    { destruct (Z.leb_spec (len (71 :: q)) 188); [reflexivity |]. cbn [orb]. rewrite <- EQ, nth188 by exact L. apply Z.eqb_eq. apply head_concat; [exact F' | exact T |]. fold r. lia. }
    rewrite C. cbn [andb]. replace (188 <=? len (71 :: q)) with true by (symmetry; apply Z.leb_le; lia).
    rewrite <- EQ, (dropz_app_exact p r), (takez_app_exact p r) by lia. rewrite u64_id by (change (2 ^ 64) with 18446744073709551616 in P1; lia).
    assert (HI : scan k r (pos + 188) = (placed (pos + 188) ps, match t with [] => None | _ :: _ => Some t end)); [| rewrite HI; reflexivity].
    apply (IH k t (pos + 188) F' T); [| lia | fold r; lia]. fold r. apply (f_equal (@List.length Z)) in EQ. rewrite app_length in EQ. cbn [List.length] in EQ, Hf. unfold len in L. lia.
Qed.
Lemma scan_junk j : forall fuel d pos, Forall (fun x => x <> 0x47) j -> (List.length (j ++ d) <= fuel)%nat -> 0 <= pos -> pos + len j < 2 ^ 64 ->
  exists k, (List.length d <= k)%nat /\ scan fuel (j ++ d) pos = scan k d (pos + len j).
Proof.
  induction j as [| x j IH]; intros fuel d pos F Hf P0 P1; cbn [app] in *.
  - exists fuel. split; [exact Hf | rewrite @CommonFacts.len_nil; f_equal; lia].
  - inversion F as [| ? ? N F']; subst. destruct fuel as [| k]; [cbn in Hf; lia |]. rewrite len_cons in P1. pose proof (len_nonneg j).
    cbn [scan]. apply Z.eqb_neq in N. rewrite N. cbn [andb]. rewrite u64_id by (change (2 ^ 64) with 18446744073709551616 in P1; lia).
    cbn [List.length] in Hf. destruct (IH k d (pos + 1) F' ltac:(lia) ltac:(lia) ltac:(lia)) as (k' & Hk & E). exists k'. split; [exact Hk |]. rewrite E, len_cons. f_equal. lia.
Qed.
(** Any part of the stream: whole packets and the start of the next. *)
Lemma cut ps : forall x rest, Forall ts_packet ps -> x ++ rest = List.concat ps -> exists a b t, ps = a ++ b /\ x = List.concat a ++ t /\ len t < 188 /\ t ++ rest = List.concat b.
Proof.
  induction ps as [| p ps IH]; intros x rest F E.
  - exists [], [], x. cbn in E. apply app_eq_nil in E as (-> & ->). repeat split; reflexivity.
  - inversion F as [| ? ? (L & _) F']; subst. cbn [List.concat] in E. destruct (Z_lt_le_dec (len x) 188) as [H | H].
    + exists [], (p :: ps), x. split; [reflexivity |]. split; [reflexivity |]. split; [exact H |]. exact E.
    + assert (X : x = p ++ dropz 188 x).
      { rewrite <- (takez_dropz 188 x) at 1. f_equal. rewrite <- (takez_app 188 x rest) by lia. rewrite E. apply takez_app_exact. lia. }
      rewrite X in E. rewrite <- app_assoc in E. apply app_inv_head in E. destruct (IH _ _ F' E) as (a & b & t & E1 & E2 & E3 & E4).
      exists (p :: a), b, t. split; [cbn [app]; now rewrite E1 |]. split; [| split; [exact E3 | exact E4]]. rewrite X, E2. cbn [List.concat]. now rewrite app_assoc.
Qed.
Lemma tail_of ps t rest : Forall ts_packet ps -> len t < 188 -> t ++ rest = List.concat ps -> tail_ok t.
Proof.
  intros F H E. destruct t as [| x t]; [now left |]. right. rewrite len_cons in *. pose proof (len_nonneg t). split; [| lia].
  destruct ps as [| p ps]; [discriminate |]. inversion F as [| ? ? (L & E') _]; subst. cbn [List.concat] in E. rewrite <- E'.
  transitivity (nthz ((x :: t) ++ rest) 0); [reflexivity |]. rewrite E, nthz_app1 by lia. reflexivity.
Qed.
(** One piece of the stream. *)
Lemma assemble_step ps left d rest pos : Forall ts_packet ps -> len left < 188 -> left ++ d ++ rest = List.concat ps -> len left <= pos -> pos + len d < 2 ^ 64 ->
  exists a b t, ps = a ++ b /\ left ++ d = List.concat a ++ t /\ len t < 188 /\ t ++ rest = List.concat b /\ assemble left d pos = (placed (pos - len left) a, t).
Proof.
  intros F L E P0 P1. rewrite app_assoc in E. destruct (cut ps (left ++ d) rest F E) as (a & b & t & E1 & E2 & E3 & E4).
  exists a, b, t. split; [exact E1 |]. split; [exact E2 |]. split; [exact E3 |]. split; [exact E4 |].
  subst ps. apply Forall_app in F as (FA & FB). pose proof (tail_of b t rest FB E3 E4) as T. pose proof (len_nonneg left) as NL. pose proof (len_nonneg d) as ND.
  assert (LE : len left + len d = 188 * len a + len t) by (rewrite <- len_app, E2, len_app, concat_len by exact FA; lia).
  unfold assemble, scan_all. destruct (Z.eqb_spec (len left) 0) as [Z0 | Z0]; cbn [negb].
  - apply len_zero in Z0. subst left. cbn [app] in E2. subst d. rewrite (scan_packets a (List.length (List.concat a ++ t)) t pos FA T) by lia.
    cbn [fst snd]. rewrite @CommonFacts.len_nil. replace (pos - 0) with pos by lia. f_equal. destruct t; reflexivity.
  - destruct (Z.leb_spec (188 - len left) (len d)) as [H | H].
    + destruct a as [| p a]; [rewrite @CommonFacts.len_nil in LE; pose proof (len_nonneg t); lia |]. inversion FA as [| ? ? (LP & EP) FA']; subst.
      cbn [List.concat] in E2. rewrite <- app_assoc in E2.
      assert (X1 : p = left ++ takez (188 - len left) d).
      { rewrite <- (takez_app_exact p (List.concat a ++ t) 188) by lia. rewrite <- E2, takez_app_ge by lia. reflexivity. }
      assert (X2 : dropz (188 - len left) d = List.concat a ++ t).
      { rewrite <- (dropz_app_exact p (List.concat a ++ t) 188) by lia. rewrite <- E2, dropz_app_ge by lia. reflexivity. }
      assert (C : (len d =? 188 - len left) || (nthz d (188 - len left) =? 71) = true).
      { destruct (Z.eqb_spec (len d) (188 - len left)) as [| N]; [reflexivity |]. cbn [orb]. apply Z.eqb_eq.
        replace (nthz d (188 - len left)) with (nthz (dropz (188 - len left) d) 0) by (rewrite nthz_dropz by lia; f_equal; lia). rewrite X2.
        apply head_concat; [exact FA' | exact T |]. rewrite <- X2, len_dropz by lia. lia. }
      rewrite C. cbn [fst snd]. rewrite X2, <- X1. rewrite len_cons in LE. assert (LX : len (List.concat a ++ t) = len d - (188 - len left)) by (rewrite <- X2, len_dropz by lia; reflexivity).
      change (2 ^ 64) with 18446744073709551616 in P1. rewrite !u64_id by (rewrite ?u64_id by lia; lia).
      rewrite (scan_packets a (List.length (List.concat a ++ t)) t (pos - len left + 188) FA' T) by (change (2 ^ 64) with 18446744073709551616; lia).
      cbn [fst snd placed]. f_equal. destruct t; reflexivity.
    + assert (A0 : a = []). { destruct a as [| p a]; [reflexivity |]. rewrite len_cons in LE. pose proof (len_nonneg a). pose proof (len_nonneg t). lia. }
      subst a. cbn [List.concat app] in E2. rewrite E2. reflexivity.
Qed.
Lemma assemble_run ds : forall ps left rest pos, Forall ts_packet ps -> len left < 188 -> left ++ List.concat ds ++ rest = List.concat ps -> len left <= pos -> pos + len (List.concat ds) < 2 ^ 64 ->
  exists a b t, ps = a ++ b /\ left ++ List.concat ds = List.concat a ++ t /\ len t < 188 /\ t ++ rest = List.concat b /\ assemble_all left ds pos = (placed (pos - len left) a, t).
Proof.
  induction ds as [| d ds IH]; intros ps left rest pos F L E P0 P1; cbn [List.concat app assemble_all] in *.
  - exists [], ps, left. split; [reflexivity |]. split; [now rewrite app_nil_r |]. split; [exact L |]. split; [exact E | reflexivity].
  - rewrite <- app_assoc in E. rewrite len_app in P1. pose proof (len_nonneg d). pose proof (len_nonneg (List.concat ds)).
    destruct (assemble_step ps left d (List.concat ds ++ rest) pos F L E P0 ltac:(lia)) as (a & b & t & E1 & E2 & E3 & E4 & E5).
    rewrite E5. cbn [fst snd]. subst ps. apply Forall_app in F as (FA & FB). pose proof (len_nonneg t). pose proof (len_nonneg a).
    assert (LE : len left + len d = 188 * len a + len t) by (rewrite <- len_app, E2, len_app, concat_len by exact FA; lia).
    destruct (IH b t rest (pos + len d) FB E3 E4) as (a2 & b2 & t2 & G1 & G2 & G3 & G4 & G5); [lia | lia |].
    rewrite G5. cbn [fst snd]. exists (a ++ a2), b2, t2. split; [now rewrite G1, app_assoc |]. split.
    + rewrite concat_app, <- app_assoc, <- G2, !app_assoc, E2. now rewrite <- !app_assoc.
    + split; [exact G3 |]. split; [exact G4 |]. rewrite placed_app. f_equal. do 2 f_equal. lia.
Qed.
(** Before the stream begins. *)
Lemma assemble_junk ds : forall j ps rest pos, Forall (fun x => x <> 0x47) j -> Forall ts_packet ps -> List.concat ds ++ rest = j ++ List.concat ps -> 0 <= pos -> pos + len (List.concat ds) < 2 ^ 64 -> pos + len j < 2 ^ 64 ->
  len j <= len (List.concat ds) ->
  exists a b t, ps = a ++ b /\ List.concat ds = j ++ List.concat a ++ t /\ len t < 188 /\ t ++ rest = List.concat b /\ assemble_all [] ds pos = (placed (pos + len j) a, t).
Proof.
  induction ds as [| d ds IH]; intros j ps rest pos FJ F E P0 P1 P2 LJ; cbn [List.concat app] in *.
  - rewrite @CommonFacts.len_nil in LJ. pose proof (len_nonneg j). assert (J0 : len j = 0) by lia. apply len_zero in J0. subst j. cbn [app] in *.
    exists [], ps, []. split; [reflexivity |]. split; [reflexivity |]. split; [reflexivity |]. split; [exact E |]. cbn. reflexivity.
  - rewrite len_app in *. pose proof (len_nonneg d). pose proof (len_nonneg (List.concat ds)). rewrite <- app_assoc in E.
    cbn [assemble_all]. change (assemble [] d pos) with (scan_all [] d pos). unfold scan_all.
    destruct (Z_le_gt_dec (len d) (len j)) as [H1 | H1].
    + assert (J : j = d ++ dropz (len d) j).
      { rewrite <- (takez_dropz (len d) j) at 1. f_equal. rewrite <- (takez_app (len d) j (List.concat ps)) by lia. rewrite <- E. apply takez_app_exact. reflexivity. }
      set (j2 := dropz (len d) j) in *. assert (FJ2 : Forall (fun x => x <> 0x47) d /\ Forall (fun x => x <> 0x47) j2) by (apply Forall_app; rewrite <- J; exact FJ).
      destruct FJ2 as (FD & FJ2). rewrite J in E, LJ, P2. rewrite <- app_assoc in E. apply app_inv_head in E. rewrite len_app in LJ, P2.
      destruct (scan_junk d (List.length d) [] pos FD) as (k & _ & ES); [rewrite app_nil_r; lia | lia | lia |]. rewrite app_nil_r in ES. rewrite ES. destruct k; cbn [scan fst snd app];
      (destruct (IH j2 ps rest (pos + len d) FJ2 F E) as (a & b & t & G1 & G2 & G3 & G4 & G5); [lia | lia | lia | lia |];
       exists a, b, t; split; [exact G1 |]; split; [rewrite J, G2, <- app_assoc; reflexivity |]; split; [exact G3 |]; split; [exact G4 |]; rewrite G5; cbn [fst snd]; rewrite J, len_app; f_equal; f_equal; lia).
    + pose proof (len_nonneg j) as NJ. assert (D : d = j ++ dropz (len j) d).
      { rewrite <- (takez_dropz (len j) d) at 1. f_equal. rewrite <- (takez_app (len j) d (List.concat ds ++ rest)) by lia. rewrite E. apply takez_app_exact. reflexivity. }
      set (d2 := dropz (len j) d) in *. rewrite D in E. rewrite <- app_assoc in E. apply app_inv_head in E.
      assert (LD : len d = len j + len d2) by (rewrite D at 1; apply len_app). pose proof (len_nonneg d2). pose proof (len_nonneg j).
      destruct (cut ps d2 (List.concat ds ++ rest) F E) as (a & b & t & E1 & E2 & E3 & E4). subst ps. apply Forall_app in F as (FA & FB).
      pose proof (tail_of b t (List.concat ds ++ rest) FB E3 E4) as T.
      assert (HS : scan (List.length d) d pos = (placed (pos + len j) a, match t with [] => None | _ :: _ => Some t end)).
      { rewrite D. destruct (scan_junk j (List.length (j ++ d2)) d2 pos FJ) as (k & Hk & ES); [lia | lia | lia |]. rewrite ES. rewrite E2 in Hk |- *.
        apply scan_packets; [exact FA | exact T | exact Hk | lia |]. rewrite <- E2. lia. }
      rewrite HS.
      assert (LA : len d2 = 188 * len a + len t) by (rewrite E2, len_app, concat_len by exact FA; lia). pose proof (len_nonneg a). pose proof (len_nonneg t).
      destruct (assemble_run ds b t rest (pos + len d) FB E3 E4) as (a2 & b2 & t2 & G1 & G2 & G3 & G4 & G5); [lia | lia |].
      exists (a ++ a2), b2, t2. split; [now rewrite G1, app_assoc |]. split.
      * rewrite D at 1. rewrite E2, concat_app, <- !app_assoc. f_equal. f_equal. exact G2.
      * split; [exact G3 |]. split; [exact G4 |]. cbn [fst snd]. replace (match (match t with [] => None | _ :: _ => Some t end) with Some l => l | None => [] end) with t by (destruct t; reflexivity).
        rewrite G5. cbn [fst snd]. rewrite placed_app. f_equal. do 2 f_equal. lia.
Qed.

(** ** Reading tables. *)
Ltac Zify.zify_post_hook ::= Z.div_mod_to_equations.
Lemma getb_ok (m : list Z) i : 0 <= i < len m -> getb m i = Ok (nthz m i).
Proof. intros H. unfold getb. rewrite rd_some by exact H. reflexivity. Qed.
Lemma getb_at (a c : list Z) x i : i = len a -> getb (a ++ x :: c) i = Ok x.
Proof. intros ->. rewrite getb_ok by (rewrite len_app, len_cons; pose proof (len_nonneg a); pose proof (len_nonneg c); lia). f_equal. rewrite nthz_app2 by lia. replace (len a - len a) with 0 by lia. reflexivity. Qed.
Lemma getn_at (a x c : list Z) i n : i = len a -> n = len x -> getn (a ++ x ++ c) i n = Ok x.
Proof.
  intros -> ->. unfold getn, peek. pose proof (len_nonneg a). pose proof (len_nonneg x). pose proof (len_nonneg c).
  replace ((0 <=? len a) && (0 <=? len x) && (len a + len x <=? len (a ++ x ++ c))) with true.
  - rewrite dropz_app_exact, takez_app_exact by reflexivity. reflexivity.
  - symmetry. apply andb_true_intro. split; [apply andb_true_intro; split; apply Z.leb_le; lia |]. apply Z.leb_le. rewrite !len_app. lia.
Qed.
Lemma be2 v : be 2 v = [v / 256 mod 256; v mod 256].
Proof. unfold be. change (256 ^ Z.of_nat 1) with 256. change (256 ^ Z.of_nat 0) with 1. now rewrite Z.div_1_r. Qed.
Lemma join12 v : ((v / 256 mod 256 .& 15) << 8) .| (v mod 256) = v mod 4096.
Proof. rewrite land_15, (lor_shl_add' _ _ 8 256) by lia. lia. Qed.
Lemma join16 v : ((v / 256 mod 256) << 8) .| (v mod 256) = v mod 65536.
Proof. rewrite (lor_shl_add' _ _ 8 256) by lia. lia. Qed.
Lemma join13 v : (((v / 256 mod 256) << 8) .| (v mod 256)) .& 8191 = v mod 8192.
Proof. rewrite join16. rewrite (land_low _ 8191 13) by (reflexivity || lia). change (2 ^ 13) with 8192. lia. Qed.
Lemma join12' v : (((v / 256 mod 256) << 8) .| (v mod 256)) .& 4095 = v mod 4096.
Proof. rewrite join16. rewrite (land_low _ 4095 12) by (reflexivity || lia). change (2 ^ 12) with 4096. lia. Qed.

Lemma payload_split b x : valid b -> payload b = Some x -> x <> [] -> exists head, b = head ++ x /\ payload_start b = len head.
Proof.
  intros (B & L & _ & _) P N. pose proof (view_af b (conj B L)) as V. unfold payload in P. unfold payload_start, getAdaptationFieldLen. rewrite V.
  assert (N0 : nthz (body (view b)) 0 = nthz b 4) by (cbn [view body]; rewrite nthz_dropz by lia; f_equal; lia). rewrite N0 in P.
  pose proof (bytesP_nthz b 4 B) as B4. unfold byteP in B4.
  destruct (Z.eqb_spec (afc (view b)) 1) as [A | A].
  - injection P as <-. rewrite A. change (1 <? 1) with false. exists (takez 4 b). split; [cbn [view body]; now rewrite takez_dropz |]. rewrite len_takez by lia. lia.
  - destruct (Z.eqb_spec (afc (view b)) 3) as [A3 | A3].
    + cbn [andb] in P. destruct (Z.leb_spec (nthz b 4) 182) as [H | H].
      * assert (PX : x = dropz (1 + nthz b 4) (dropz 4 b)) by (change (Some (dropz (1 + nthz b 4) (dropz 4 b)) = Some x) in P; congruence). subst x. rewrite A3. change (1 <? 3) with true. change (3 =? 0) with false. rewrite dropz_dropz by lia.
        exists (takez (1 + nthz b 4 + 4) b). split; [now rewrite takez_dropz |]. rewrite len_takez by lia. lia.
      * destruct (Z.eqb_spec (afc (view b)) 2) as [A2 | A2]; [lia |]. discriminate.
    + cbn [andb] in P. destruct ((afc (view b) =? 2) && (nthz b 4 =? 183)); [| discriminate]. injection P as <-. now destruct N.
Qed.
Lemma holds_table b section : holds b section -> exists pre rest, b = pre ++ section ++ rest /\ table b = Ok (len pre - 1) /\ len b = 188 /\ 1 <= len pre.
Proof.
  intros (V & _ & skip & rest & P). destruct (payload_split b _ V P) as (head & E & S); [discriminate |].
  exists (head ++ len skip :: skip), rest. split; [rewrite E, <- app_assoc; reflexivity |]. pose proof (len_nonneg head). pose proof (len_nonneg skip).
  split; [| split; [apply V | rewrite len_app, len_cons; lia]]. unfold table. rewrite S. rewrite E at 1. rewrite getb_at by reflexivity. rewrite len_app, len_cons. f_equal. lia.
Qed.
Lemma section_length pre t0 v rest o : o = len pre - 1 -> table (pre ++ ([t0] ++ be 2 v) ++ rest) = Ok o -> getSectionLength (pre ++ ([t0] ++ be 2 v) ++ rest) = Ok (v mod 4096).
Proof.
  intros O T. unfold getSectionLength. rewrite T. rewrite be2. cbn [app].
  change (pre ++ t0 :: v / 256 mod 256 :: v mod 256 :: rest) with (pre ++ [t0] ++ v / 256 mod 256 :: v mod 256 :: rest).
  rewrite app_assoc, getb_at by (rewrite len_app; change (len [t0]) with 1; lia).
  rewrite <- !app_assoc. change (pre ++ [t0] ++ v / 256 mod 256 :: v mod 256 :: rest) with (pre ++ [t0; v / 256 mod 256] ++ v mod 256 :: rest).
  rewrite app_assoc, getb_at by (rewrite len_app; change (len [t0; v / 256 mod 256]) with 2; lia). now rewrite join12.
Qed.
(** Two bytes somewhere. *)
Lemma two_at (a c : list Z) v i : i = len a -> getb (a ++ be 2 v ++ c) i = Ok (v / 256 mod 256) /\ getb (a ++ be 2 v ++ c) (i + 1) = Ok (v mod 256).
Proof.
  intros ->. rewrite be2. split; [cbn [app]; now apply getb_at |].
  change (a ++ [v / 256 mod 256; v mod 256] ++ c) with (a ++ [v / 256 mod 256] ++ v mod 256 :: c). rewrite app_assoc. apply getb_at. rewrite len_app. change (len [v / 256 mod 256]) with 1. lia.
Qed.

(** PAT *)
Definition pbytes (x : Z * Z) : list Z := be 2 (fst x) ++ be 2 (0xE000 + snd x).
Lemma pbytes_len l : len (List.concat (map pbytes l)) = 4 * len l.
Proof. induction l as [| x l IH]; [reflexivity |]. cbn [map List.concat]. rewrite len_app, IH, len_cons. unfold pbytes. rewrite len_app, !be_len. lia. Qed.
Lemma pids_from_ok b n o : getProgramCount b = Ok n -> table b = Ok o -> forall l i pre post pids, b = pre ++ List.concat (map pbytes l) ++ post -> len pre = o + 9 + 4 * i -> 0 <= i -> i + len l <= n ->
  Forall (fun x => 0 <= snd x < 8192) l -> pids_from (List.length l) b i pids = Ok (rev (map snd l) ++ pids).
Proof.
  intros C T. induction l as [| x l IH]; intros i pre post pids E L I0 I1 F; cbn [pids_from List.length map rev app]; [reflexivity |].
  rewrite len_cons in I1. pose proof (len_nonneg l). inversion F as [| ? ? X F']; subst x0 l0.
  assert (G : getProgramPID b i = Ok (snd x)).
  { unfold getProgramPID. rewrite C. replace (n <? i) with false by (symmetry; apply Z.ltb_ge; lia). rewrite T.
    assert (EB : b = (pre ++ be 2 (fst x)) ++ be 2 (0xE000 + snd x) ++ List.concat (map pbytes l) ++ post) by (rewrite E; cbn [map List.concat]; unfold pbytes at 1; rewrite <- !app_assoc; reflexivity).
    destruct (two_at (pre ++ be 2 (fst x)) (List.concat (map pbytes l) ++ post) (0xE000 + snd x) (o + 9 + i * 4 + 2)) as (G1 & G2); [rewrite len_app, be_len; lia |].
    rewrite <- EB in G1, G2. rewrite G1. replace (o + 9 + i * 4 + 3) with (o + 9 + i * 4 + 2 + 1) by lia. rewrite G2, join13. f_equal. lia. }
  rewrite G. rewrite (IH (i + 1) (pre ++ pbytes x) post (snd x :: pids)); [rewrite <- app_assoc; reflexivity | rewrite E; cbn [map List.concat]; rewrite <- !app_assoc; reflexivity | | lia | lia | exact F'].
  unfold pbytes. rewrite !len_app, !be_len, L. lia.
Qed.
Lemma parsePIDs_ok b id version programs crc pids : holds b (pat_section id version programs crc) -> Forall (fun x => 0 <= snd x < 8192) programs -> parsePIDs b pids = Ok (rev (map snd programs) ++ pids).
Proof.
  intros H F. destruct (holds_table _ _ H) as (pre & rest & E & T & L & P). unfold pat_section in E. pose proof (len_nonneg programs).
  assert (B : 4 * len programs < 188) by (apply (f_equal len) in E; rewrite !len_app, L in E; change (map (fun x : Z * Z => be 2 (fst x) ++ be 2 (57344 + snd x)) programs) with (map pbytes programs) in E; rewrite pbytes_len in E; pose proof (len_nonneg pre); pose proof (len_nonneg rest); pose proof (len_nonneg crc); change (len [0]) with 1 in E; change (len [version; 0; 0]) with 3 in E; rewrite !be_len in E; lia).
  assert (SL : getSectionLength b = Ok (9 + 4 * len programs)).
  { rewrite <- !app_assoc in E. rewrite E in T |- *. rewrite (app_assoc [0]) in T |- *. rewrite (section_length pre 0 (0xB000 + (9 + 4 * len programs)) _ (len pre - 1) eq_refl T). f_equal. lia. }
  assert (C : getProgramCount b = Ok (len programs)) by (unfold getProgramCount; rewrite SL; rewrite Z.quot_div_nonneg by lia; f_equal; lia).
  unfold parsePIDs. rewrite C. unfold len at 1. rewrite Nat2Z.id.
  apply (pids_from_ok b (len programs) (len pre - 1) C T programs 0 (pre ++ [0] ++ be 2 (0xB000 + (9 + 4 * len programs)) ++ be 2 id ++ [version; 0; 0]) (crc ++ rest) pids); [| | lia | lia | exact F].
  - rewrite E, <- !app_assoc. reflexivity.
  - rewrite !len_app, !be_len. change (len [0]) with 1. change (len [version; 0; 0]) with 3. lia.
Qed.

(** PMT *)
Lemma desc_len_cons d ds : desc_bytes (d :: ds) = [fst d; len (snd d)] ++ snd d ++ desc_bytes ds.
Proof. reflexivity. Qed.
Lemma tag_loop_ok ds : forall fuel pre, (List.length ds < fuel)%nat -> tag_loop fuel (pre ++ desc_bytes ds) (len pre) 5 = Ok (registration ds).
Proof.
  induction ds as [| d ds IH]; intros fuel pre Hf; (destruct fuel as [| k]; [cbn in Hf; lia |]); cbn [tag_loop].
  - change (desc_bytes []) with (@nil Z). rewrite app_nil_r. replace (len pre + 1 <? len pre) with false by (symmetry; apply Z.ltb_ge; lia). reflexivity.
  - rewrite desc_len_cons. set (r := snd d ++ desc_bytes ds). cbn [app]. pose proof (len_nonneg pre). pose proof (len_nonneg r).
    replace (len pre + 1 <? len (pre ++ fst d :: len (snd d) :: r)) with true by (symmetry; apply Z.ltb_lt; rewrite len_app, !len_cons; lia).
    rewrite getb_at by reflexivity. change (pre ++ fst d :: len (snd d) :: r) with (pre ++ [fst d] ++ len (snd d) :: r).
    rewrite app_assoc, getb_at by (rewrite len_app; reflexivity). cbn [registration]. rewrite <- app_assoc.
    destruct (Z.eqb_spec (fst d) 5) as [E | E].
    + change (pre ++ [fst d] ++ len (snd d) :: r) with (pre ++ [fst d; len (snd d)] ++ r). unfold r. rewrite app_assoc. apply getn_at; [| reflexivity]. rewrite len_app. reflexivity.
    + replace (pre ++ [fst d] ++ len (snd d) :: r) with ((pre ++ [fst d; len (snd d)] ++ snd d) ++ desc_bytes ds) by (unfold r; rewrite <- !app_assoc; reflexivity).
      replace (len pre + len (snd d) + 2) with (len (pre ++ [fst d; len (snd d)] ++ snd d)) by (rewrite !len_app; change (len [fst d; len (snd d)]) with 2; lia).
      apply IH. cbn in Hf. lia.
Qed.
Lemma desc_count ds : (List.length ds <= List.length (desc_bytes ds))%nat.
Proof. induction ds as [| d ds IH]; [apply le_n |]. rewrite desc_len_cons. cbn [List.length app]. rewrite app_length. lia. Qed.
Lemma getTag_ok ds : getTag (desc_bytes ds) 5 = Ok (registration ds).
Proof. unfold getTag. apply (tag_loop_ok ds _ []). pose proof (desc_count ds). lia. Qed.

Definition learn_es (raw : Z) (s : known) (e : stream) : known :=
  match sense_of raw e with Ignored => s | Codec c => mkknown (k_pmt s) (set (k_codec s) (es_pid e) c) (set (k_init s) (es_pid e) (Some (desc_bytes (es_desc e)))) end.
Lemma learn_entry_ok raw s e : stream_ok e -> learn_entry raw s (es_type e) (es_pid e) (Ok (desc_bytes (es_desc e))) = Ok (learn_es raw s e).
Proof.
  intros (T & _). unfold byteP in T. unfold learn_entry, learn_es, sense_of.
  assert (X : existsb (Z.eqb (es_type e)) [H264; AAC; H265; AC3; SCTE35; ID3; MP2; MPEG2; OPUS; AV1; META] = ((es_type e =? 6) || existsb (Z.eqb (es_type e)) [27; 15; 36; 129; 134; 21; 3; 2])%bool).
  { cbn [existsb]. unfold OPUS, AV1, META, H264, AAC, H265, AC3, SCTE35, ID3, MP2, MPEG2. replace (es_type e =? 393217) with false by (symmetry; apply Z.eqb_neq; lia). replace (es_type e =? 393219) with false by (symmetry; apply Z.eqb_neq; lia).
    destruct (es_type e =? 6), (es_type e =? 27), (es_type e =? 15), (es_type e =? 36), (es_type e =? 129), (es_type e =? 134), (es_type e =? 21), (es_type e =? 3), (es_type e =? 2); reflexivity. }
  rewrite X. unfold META. destruct (es_type e =? 6); cbn [orb].
  - rewrite getTag_ok. reflexivity.
  - destruct (existsb (Z.eqb (es_type e)) [27; 15; 36; 129; 134; 21; 3; 2]); reflexivity.
Qed.
Lemma es_bytes_len e : len (es_bytes e) = 5 + len (desc_bytes (es_desc e)).
Proof. unfold es_bytes. rewrite !len_app, !be_len. change (len [es_type e]) with 1. lia. Qed.
Lemma entries_ok raw : forall es fuel pre post s, Forall stream_ok es -> (List.length es <= fuel)%nat -> len (pre ++ List.concat (map es_bytes es) ++ post) = 188 -> 4 <= len post ->
  entries fuel raw (pre ++ List.concat (map es_bytes es) ++ post) (len pre) (len pre + len (List.concat (map es_bytes es))) s = Ok (fold_left (learn_es raw) es s).
Proof.
  induction es as [| e es IH]; intros fuel pre post s F Hf L HP.
  - cbn [map List.concat fold_left]. change (len (@nil Z)) with 0. destruct fuel; cbn [entries]; replace (len pre <? len pre + 0) with false by (symmetry; apply Z.ltb_ge; lia); reflexivity.
  - inversion F as [| ? ? X F']; subst. pose proof X as (XT & XP & XD). cbn [map List.concat fold_left] in *. set (body := List.concat (map es_bytes es)) in *.
    pose proof (len_nonneg pre). pose proof (len_nonneg body). pose proof (len_nonneg (desc_bytes (es_desc e))). pose proof (es_bytes_len e) as LE. rewrite !len_app in L.
    destruct fuel as [| k]; [cbn in Hf; lia |]. cbn [entries]. replace (len pre <? len pre + len (es_bytes e ++ body)) with true by (symmetry; apply Z.ltb_lt; rewrite len_app; lia).
    set (n := len (desc_bytes (es_desc e))) in *. set (m := pre ++ (es_bytes e ++ body) ++ post) in *.
    assert (M0 : m = pre ++ es_type e :: (be 2 (0xE000 + es_pid e) ++ be 2 (0xF000 + n) ++ desc_bytes (es_desc e) ++ body ++ post)) by (unfold m, es_bytes; rewrite <- !app_assoc; reflexivity).
    assert (M1 : m = (pre ++ [es_type e]) ++ be 2 (0xE000 + es_pid e) ++ (be 2 (0xF000 + n) ++ desc_bytes (es_desc e) ++ body ++ post)) by (rewrite M0, <- app_assoc; reflexivity).
    assert (M2 : m = (pre ++ [es_type e] ++ be 2 (0xE000 + es_pid e)) ++ be 2 (0xF000 + n) ++ (desc_bytes (es_desc e) ++ body ++ post)) by (rewrite M0, <- !app_assoc; reflexivity).
    assert (M3 : m = (pre ++ [es_type e] ++ be 2 (0xE000 + es_pid e) ++ be 2 (0xF000 + n)) ++ desc_bytes (es_desc e) ++ (body ++ post)) by (rewrite M0, <- !app_assoc; reflexivity).
    assert (M4 : m = (pre ++ es_bytes e) ++ body ++ post) by (unfold m; rewrite <- !app_assoc; reflexivity).
    destruct (two_at (pre ++ [es_type e]) (be 2 (0xF000 + n) ++ desc_bytes (es_desc e) ++ body ++ post) (0xE000 + es_pid e) (len pre + 1)) as (G1 & G2); [rewrite len_app; reflexivity |]. rewrite <- M1 in G1, G2.
    destruct (two_at (pre ++ [es_type e] ++ be 2 (0xE000 + es_pid e)) (desc_bytes (es_desc e) ++ body ++ post) (0xF000 + n) (len pre + 3)) as (G3 & G4); [rewrite !len_app, be_len; change (len [es_type e]) with 1; lia |]. rewrite <- M2 in G3, G4.
    assert (G0 : getb m (len pre) = Ok (es_type e)) by (rewrite M0; apply getb_at; reflexivity).
    assert (G5 : getn m (len pre + 5) n = Ok (desc_bytes (es_desc e))) by (rewrite M3; apply getn_at; [rewrite !len_app, !be_len; change (len [es_type e]) with 1; lia | reflexivity]).
    rewrite G1. replace (len pre + 2) with (len pre + 1 + 1) by lia. rewrite G2, G0, G3. replace (len pre + 4) with (len pre + 3 + 1) by lia. rewrite G4, join13, join12'. cbv zeta.
    replace ((57344 + es_pid e) mod 8192) with (es_pid e) by lia. replace ((61440 + n) mod 4096) with n by lia. rewrite G5, (learn_entry_ok raw s e X).
    rewrite M4. replace (len pre + 5 + n) with (len (pre ++ es_bytes e)) by (rewrite len_app; lia). replace (len pre + len (es_bytes e ++ body)) with (len (pre ++ es_bytes e) + len body) by (rewrite !len_app; lia).
    unfold body. apply IH; [exact F' | cbn in Hf; lia | rewrite !len_app; unfold body in *; lia | exact HP].
Qed.
Lemma es_count es : (List.length es <= List.length (List.concat (map es_bytes es)))%nat.
Proof. induction es as [| e es IH]; [apply le_n |]. cbn [map List.concat List.length]. rewrite app_length. assert (1 <= List.length (es_bytes e))%nat by (unfold es_bytes; cbn [app List.length]; lia). lia. Qed.
Lemma parsePMT_ok raw b s program version clock info es crc : holds b (pmt_section program version clock info es crc) -> len crc = 4 -> Forall stream_ok es ->
  parsePMT raw b s = Ok (fold_left (learn_es raw) es s).
Proof.
  intros H LC F. destruct (holds_table _ _ H) as (pre & rest & E & T & L & P). unfold pmt_section in E. cbv zeta in E.
  set (body := List.concat (map es_bytes es)) in *. set (n := len (desc_bytes info)) in *. pose proof (len_nonneg body). pose proof (len_nonneg (desc_bytes info)). fold n in H1. pose proof (len_nonneg rest). pose proof (len_nonneg pre).
  assert (LL : len pre + 12 + n + len body + 4 + len rest = 188) by (apply (f_equal len) in E; rewrite !len_app, !be_len, L, LC in E; change (len [2]) with 1 in E; change (len [version; 0; 0]) with 3 in E; fold n in E; lia).
  assert (SL : getSectionLength b = Ok (13 + n + len body)).
  { rewrite <- !app_assoc in E. rewrite E in T |- *. rewrite (app_assoc [2]) in T |- *. rewrite (section_length pre 2 _ _ (len pre - 1) eq_refl T). f_equal. lia. }
  assert (IL : getProgramInfoLength b = Ok n).
  { unfold getProgramInfoLength. rewrite T. assert (M : b = (pre ++ [2] ++ be 2 (45056 + (13 + n + len body)) ++ be 2 program ++ [version; 0; 0] ++ be 2 (57344 + clock)) ++ be 2 (0xF000 + n) ++ (desc_bytes info ++ body ++ crc ++ rest)) by (rewrite E, <- !app_assoc; reflexivity).
    destruct (two_at (pre ++ [2] ++ be 2 (45056 + (13 + n + len body)) ++ be 2 program ++ [version; 0; 0] ++ be 2 (57344 + clock)) (desc_bytes info ++ body ++ crc ++ rest) (0xF000 + n) (len pre - 1 + 11)) as (G1 & G2); [rewrite !len_app, !be_len; change (len [2]) with 1; change (len [version; 0; 0]) with 3; lia |].
    rewrite <- M in G1, G2. rewrite G1. replace (len pre - 1 + 12) with (len pre - 1 + 11 + 1) by lia. rewrite G2, join12. f_equal. lia. }
  unfold parsePMT. rewrite T, IL, SL.
  set (p2 := pre ++ [2] ++ be 2 (45056 + (13 + n + len body)) ++ be 2 program ++ [version; 0; 0] ++ be 2 (57344 + clock) ++ be 2 (0xF000 + n) ++ desc_bytes info).
  assert (LP : len p2 = len pre + 12 + n) by (unfold p2; rewrite !len_app, !be_len; change (len [2]) with 1; change (len [version; 0; 0]) with 3; fold n; lia).
  assert (M : b = p2 ++ body ++ (crc ++ rest)) by (unfold p2; rewrite E, <- !app_assoc; reflexivity).
  replace (len pre - 1 + 13 + n) with (len p2) by lia. replace (len pre - 1 + (13 + n + len body)) with (len p2 + len body) by lia. rewrite M at 1 2. unfold body.
  apply entries_ok; [exact F | | fold body; rewrite <- M; exact L | rewrite len_app; lia]. rewrite !app_length. pose proof (es_count es). lia.
Qed.
Lemma fold_pmt raw es s : k_pmt (fold_left (learn_es raw) es s) = k_pmt s.
Proof. revert s. induction es as [| e es IH]; intros s; cbn [fold_left]; [reflexivity |]. rewrite IH. unfold learn_es. destruct (sense_of raw e); reflexivity. Qed.
Lemma fold_codec raw pid es : forall s, k_codec (fold_left (learn_es raw) es s) pid = codec_after raw es pid (k_codec s pid).
Proof.
  unfold codec_after. induction es as [| e es IH]; intros s; cbn [fold_left]; [reflexivity |]. rewrite IH. f_equal. unfold learn_es.
  destruct (sense_of raw e) as [| c]; cbn [k_codec]; [now destruct (es_pid e =? pid) |]. unfold set. rewrite (Z.eqb_sym pid). reflexivity.
Qed.
Lemma fold_init raw pid es : forall s, k_init (fold_left (learn_es raw) es s) pid = init_after raw es pid (k_init s pid).
Proof.
  unfold init_after. induction es as [| e es IH]; intros s; cbn [fold_left]; [reflexivity |]. rewrite IH. f_equal. unfold learn_es.
  destruct (sense_of raw e) as [| c]; cbn [k_init]; [now destruct (es_pid e =? pid) |]. unfold set. rewrite (Z.eqb_sym pid). reflexivity.
Qed.
