(** Proofs about receiving H264 and HEVC frames. *)
From Verif Require Import Common CommonFacts CommonMore Bits BitsFacts Mem_Model Mem_Proofs Nal_Model Nal_Spec Nal_Proofs Nal_Props Bitstream_Model Bitstream_Spec Bitstream_Proofs Outcome_Model Scan_Model Dtmi_Spec Dtmi_Proofs Dtsc_Model Dtsc_Spec Dtsc_Proofs DtscOps_Proofs Avcc_Model Avcc_Spec Avc_Model Avc_Spec.
Import List.
Ltac Zify.zify_post_hook ::= Z.div_mod_to_equations.

(** ** Cutting a payload into units *)
Definition zeros01 (z : list Z) : Prop := z = [] \/ z = [0].
Lemma scan_next u z r : u = [] \/ nal_ok u -> zeros01 z -> bytesP (u ++ z ++ 0 :: 0 :: 1 :: r) -> scanAnnexB (u ++ z ++ 0 :: 0 :: 1 :: r) = Some (len u + len z).
Proof.
  intros U HZ B. pose proof (scan_finds_first_start _ B) as H. pose proof (len_nonneg u). pose proof (len_nonneg r).
  assert (O : occurs_at (u ++ z ++ 0 :: 0 :: 1 :: r) (len u + len z)).
  { split; [pose proof (len_nonneg z); lia|]. exists r. rewrite <- len_app, app_assoc, dropz_app_exact by reflexivity. reflexivity. }
  destruct (scanAnnexB _) as [i|]; [|now apply H in O]. destruct H as [HA HB]. f_equal. pose proof (HB _ O) as LE.
  pose proof (occurs_len _ _ HA) as [I0 I1]. apply sc_occurs in HA; [|lia|lia].
  destruct (Z_lt_ge_dec i (len u)) as [L|L].
  { destruct U as [->|U]; [change (len (@nil Z)) with 0 in *; lia|]. pose proof (sc_unit [] u (z ++ 0 :: 0 :: 1 :: r) i U) as Q. cbn [app] in Q. rewrite Q in HA; [discriminate|]. change (len (@nil Z)) with 0. lia. }
  destruct HZ as [->| ->].
  { change (len (@nil Z)) with 0 in *. lia. }
  change (len [0]) with 1 in *. destruct (Z.eq_dec i (len u)) as [->|]; [|lia]. cbn [app] in HA. rewrite (proj1 (sc_start4 u r)) in HA. discriminate.
Qed.
Lemma scan_none u : nal_ok u -> scanAnnexB u = None.
Proof.
  intros U. pose proof (scan_finds_first_start u (proj1 U)) as H. destruct (scanAnnexB u) as [i|]; [|reflexivity]. destruct H as [[_ [r H]] _].
  destruct U as (_ & _ & U & _). exfalso. apply U. exists (takez i u), r. rewrite <- H. now rewrite takez_dropz.
Qed.
Lemma end_unit u z : u = [] \/ last u 0 <> 0 -> zeros01 z -> nalEndPosition (u ++ z) = len u.
Proof.
  intros U HZ. unfold nalEndPosition. pose proof (len_nonneg u). pose proof (len_nonneg (u ++ z)).
  destruct (nalEnd_ok (length (u ++ z)) (u ++ z) (len (u ++ z))) as (H1 & H2 & H3); [lia|unfold len; lia|]. cbv zeta in *. set (e := nalEnd_loop _ _ _) in *.
  assert (LZ : len (u ++ z) = len u + len z) by apply len_app. assert (L0 : 0 <= len z <= 1) by (destruct HZ as [->| ->]; cbn; lia).
  destruct (Z.lt_trichotomy e (len u)) as [L|[L|L]]; [|exact L|].
  - exfalso. destruct U as [->|U]; [change (len (@nil Z)) with 0 in *; lia|]. apply U. rewrite <- last_nthz by (intros ->; change (len (@nil Z)) with 0 in *; lia).
    rewrite <- (nthz_app1 u z) by lia. apply H2. lia.
  - exfalso. destruct H3 as [H3|H3]; [lia|]. apply H3. rewrite nthz_app2 by lia. destruct HZ as [->| ->]; [cbn in *; lia|]. change (len [0]) with 1 in *. replace (e - 1 - len u) with 0 by lia. reflexivity.
Qed.

Section Receive.
Context (junk : Z) (fuel : nat) (tid : Z) (hevc : bool).
Let getTime := getTime (fun _ => 0) (fun _ => 0).
Definition nal_step (ts off bpos : Z) (u : list Z) (s : rcv) : res rcv :=
  bp <~ match r_bp s with Some p => Ok p | None => blank junk fuel tid ts off bpos pnew end;;
  r <~ parseNal hevc u s;;
  let '(isKey, s) := r in
  bp <~ (if isKey then setKeyFrame fuel true bp else Ok bp);;
  t <~ getTime fuel bp;;
  if t =? ts then bp <~ appendNal junk fuel u bp;; Ok (mkrcv (Some bp) (r_out s) (r_sps s) (r_pps s))
  else
    nb <~ blank junk fuel tid ts off bpos (pnull bp);;
    nb <~ appendNal junk fuel u nb;; Ok (mkrcv (Some nb) (r_out s ++ [bp]) (r_sps s) (r_pps s)).
Fixpoint nal_steps (ts off bpos : Z) (us : list (list Z)) (s : rcv) : res rcv :=
  match us with [] => Ok s | u :: r => s <~ nal_step ts off bpos u s;; nal_steps ts off bpos r s end.
Lemma bind_assoc {A} (x : res A) : (y <~ x;; Ok y) = x.
Proof. now destruct x. Qed.

Lemma annexb_cons f u us : exists z r, zeros01 z /\ annexb ((f, u) :: us) = z ++ 0 :: 0 :: 1 :: u ++ annexb us /\ r = u ++ annexb us.
Proof. exists (if f then [0] else []), (u ++ annexb us). split; [destruct f; [now right|now left]|]. split; [|reflexivity]. unfold annexb. cbn [flat_map]. destruct f; rewrite <- app_assoc; reflexivity. Qed.
Lemma annexb_bytes us : ok_units us -> bytesP (annexb us).
Proof. induction 1 as [|[f u] us (B & _) _ IH]; [constructor|]. unfold annexb. cbn [flat_map]. apply Forall_app. split; [|exact IH]. apply Forall_app. split; [destruct f; now apply all_bytes_ok|exact B]. Qed.

Lemma loop_units ts off bpos us : forall k u s, nal_ok u -> ok_units us -> len (u ++ annexb us) < 2 ^ 31 -> (length us < k)%nat ->
  nal_loop junk fuel tid hevc k ts off bpos (u ++ annexb us) (scanAnnexB (u ++ annexb us)) s = nal_steps ts off bpos (u :: map snd us) s.
Proof.
  induction us as [|[f v] us IH]; intros k u s U F L G; destruct k as [|k]; try (cbn [length] in G; lia); cbn [nal_loop map nal_steps]; pose proof (len_nonneg u).
  - change (annexb []) with (@nil Z) in *. rewrite app_nil_r in *. rewrite (scan_none u U).
    rewrite (takez_all (len u) u) by lia.
    assert (E : nalEndPosition u = len u) by (pose proof (end_unit u [] (or_intror (proj2 (proj2 (proj2 U)))) (or_introl eq_refl)) as Q; now rewrite app_nil_r in Q).
    rewrite E. assert (P : 0 < len u) by (destruct U as (_ & N & _); destruct u as [|x r]; [congruence|rewrite len_cons; pose proof (len_nonneg r); lia]).
    unfold u32. rewrite Z.mod_small by lia. replace (len u =? 0) with false by lia. rewrite (takez_all (len u) u) by lia.
    match goal with |- match ?x with _ => _ end = _ => change x with (nal_step ts off bpos u s) end. destruct (nal_step ts off bpos u s); try reflexivity. replace (len u <=? len u + 3) with true by lia. reflexivity.
  - inversion F as [|? ? V F']; subst. cbn [snd] in V. destruct (annexb_cons f v us) as (z & r & HZ & EA & ER). 
    assert (BY : bytesP (u ++ annexb ((f, v) :: us))) by (apply Forall_app; split; [apply U|now apply annexb_bytes]).
    rewrite EA in *. rewrite (scan_next u z (v ++ annexb us)) by (try assumption; now right).
    assert (LZ : 0 <= len z <= 1) by (destruct HZ as [->| ->]; cbn; lia).
    rewrite !len_app, !len_cons, len_app in L. pose proof (len_nonneg (annexb us)).
    assert (TK : takez (len u + len z) (u ++ z ++ 0 :: 0 :: 1 :: v ++ annexb us) = u ++ z) by (rewrite app_assoc; apply takez_app_exact; now rewrite len_app).
    rewrite TK, end_unit by (try assumption; right; apply U).
    assert (P : 0 < len u) by (destruct U as (_ & N & _); destruct u as [|x ur]; [congruence|rewrite len_cons; pose proof (len_nonneg ur); lia]).
    assert (PV : 0 < len v) by (destruct V as (_ & N & _); destruct v as [|x ur]; [congruence|rewrite len_cons; pose proof (len_nonneg ur); lia]).
    unfold u32. rewrite Z.mod_small by lia. replace (len u =? 0) with false by lia.
    rewrite (takez_app_exact u) by reflexivity. match goal with |- match ?x with _ => _ end = _ => change x with (nal_step ts off bpos u s) end. destruct (nal_step ts off bpos u s) as [| |s']; try reflexivity.
    rewrite !len_app, !len_cons, len_app. replace (_ <=? len u + len z + 3) with false by lia.
    assert (DR : dropz (len u + len z + 3) (u ++ z ++ 0 :: 0 :: 1 :: v ++ annexb us) = v ++ annexb us).
    { replace (u ++ z ++ 0 :: 0 :: 1 :: v ++ annexb us) with ((u ++ z ++ [0; 0; 1]) ++ v ++ annexb us) by (rewrite <- !app_assoc; reflexivity). apply dropz_app_exact. rewrite !len_app. change (len [0; 0; 1]) with 3. lia. }
    rewrite DR. apply (IH k v s' V F'); [rewrite len_app; lia|cbn [length] in G; lia].
Qed.
Lemma video_units ts off bpos aligned us s : us <> [] -> ok_units us -> len (annexb us) < 2 ^ 31 ->
  parseVideo junk fuel tid hevc ts off bpos aligned (annexb us) s = nal_steps ts off bpos (map snd us) s.
Proof.
  intros N F L. destruct us as [|[f u] us]; [congruence|]. inversion F as [|? ? U F']; subst. cbn [snd] in U.
  destruct (annexb_cons f u us) as (z & r & HZ & EA & ER). pose proof (annexb_bytes _ F) as B. pose proof (annexb_count us) as AC. unfold parseVideo. rewrite EA in *.
  pose proof (scan_next [] z (u ++ annexb us) (or_introl eq_refl) HZ B) as SC. cbn [app] in SC. change (len (@nil Z)) with 0 in SC. rewrite Z.add_0_l in SC. rewrite SC.
  assert (LZ : 0 <= len z <= 1) by (destruct HZ as [->| ->]; cbn; lia). rewrite len_app, !len_cons, len_app in L. pose proof (len_nonneg (annexb us)).
  cbn [nal_loop]. rewrite (takez_app_exact z) by reflexivity.
  pose proof (end_unit [] z (or_introl eq_refl) HZ) as EZ. cbn [app] in EZ. rewrite EZ. change (u32 (len (@nil Z)) =? 0) with true. cbv iota.
  rewrite len_app, !len_cons, len_app.
  assert (P : 0 < len u) by (destruct U as (_ & N' & _); destruct u as [|x ur]; [congruence|rewrite len_cons; pose proof (len_nonneg ur); lia]).
  replace (_ <=? len z + 3) with false by lia.
  assert (DR : dropz (len z + 3) (z ++ 0 :: 0 :: 1 :: u ++ annexb us) = u ++ annexb us).
  { replace (z ++ 0 :: 0 :: 1 :: u ++ annexb us) with ((z ++ [0; 0; 1]) ++ u ++ annexb us) by (rewrite <- !app_assoc; reflexivity). apply dropz_app_exact. rewrite !len_app. change (len [0; 0; 1]) with 3. lia. }
  rewrite DR. rewrite loop_units; try assumption; [reflexivity|rewrite len_app; lia|]. unfold len in AC. rewrite !app_length. cbn [length]. rewrite app_length. lia.
Qed.
End Receive.

(** ** Key units *)
Lemma slice_prefix fuel : forall u i b, 0 <= i -> 10 - i <= Z.of_nat fuel -> exists p r, rep_loop (dropz i u) = p ++ r /\
  slice_loop fuel u i b = mkbr (rdat b ++ p) (roff b) /\ (r = [] \/ 2 * (10 - i) <= 3 * len p).
Proof.
  induction fuel as [|fuel IH]; intros u i b I G; cbn [slice_loop].
  - exists [], (rep_loop (dropz i u)). rewrite app_nil_r. split; [reflexivity|]. split; [now destruct b|]. right. change (len (@nil Z)) with 0. lia.
  - destruct ((i <? 10) && (i <? len u)) eqn:E0.
    2:{ destruct (Z_lt_ge_dec i (len u)) as [L|L].
        - exists [], (rep_loop (dropz i u)). rewrite app_nil_r. split; [reflexivity|]. split; [now destruct b|]. right. change (len (@nil Z)) with 0. lia.
        - exists [], []. rewrite dropz_all by lia. split; [reflexivity|]. rewrite app_nil_r. split; [now destruct b|now left]. }
    destruct ((i + 2 <? len u) && beqb (takez 3 (dropz i u)) [0; 0; 3]) eqn:E1.
    + apply andb_true_iff in E1 as [E1 E2]. apply beqb_eq in E2.
      assert (D : dropz i u = 0 :: 0 :: 3 :: dropz (i + 3) u) by (rewrite <- (takez_dropz 3 (dropz i u)), E2, dropz_dropz by lia; rewrite (Z.add_comm 3 i); reflexivity).
      destruct (IH u (i + 3) (br_append b (takez 2 (dropz i u)))) as (p & r & P1 & P2 & P3); [lia|lia|].
      exists (0 :: 0 :: p), r. rewrite P2. unfold br_append. cbn [rdat roff]. rewrite D, rep_hit, P1. split; [reflexivity|]. change (takez 2 (0 :: 0 :: 3 :: dropz (i + 3) u)) with [0; 0].
      rewrite <- app_assoc. split; [reflexivity|]. rewrite !len_cons. destruct P3 as [->|P3]; [now left|right; lia].
    + assert (D : dropz i u = nthz u i :: dropz (i + 1) u) by (apply cons_nthz; lia).
      destruct (IH u (i + 1) (br_append b (takez 1 (dropz i u)))) as (p & r & P1 & P2 & P3); [lia|lia|].
      exists (nthz u i :: p), r. rewrite P2. unfold br_append. cbn [rdat roff]. rewrite len_cons.
      assert (RL : rep_loop (dropz i u) = nthz u i :: rep_loop (dropz (i + 1) u)).
      { rewrite D. destruct (dropz (i + 1) u) as [|b1 [|c r']] eqn:D1; [reflexivity|reflexivity|]. cbn [rep_loop].
        destruct ((nthz u i =? 0) && (b1 =? 0) && (c =? 3)) eqn:E2; [exfalso|reflexivity].
        assert (LL : 2 <= len (dropz (i + 1) u)) by (rewrite D1, !len_cons; pose proof (len_nonneg r'); lia). rewrite len_dropz in LL by lia.
        rewrite D in E1; rewrite ?D1 in E1. change (takez 3 (nthz u i :: b1 :: c :: r')) with [nthz u i; b1; c] in E1. cbn [beqb] in E1. lia. }
      rewrite RL, P1. split; [reflexivity|]. rewrite D. change (takez 1 (nthz u i :: dropz (i + 1) u)) with [nthz u i]. rewrite <- app_assoc. split; [reflexivity|].
      destruct P3 as [->|P3]; [now left|right; lia].
Qed.
Lemma slice_key u h payload mb t rest : u = h :: insert_ep 0 payload -> bytesP payload -> bits payload = ue_code mb ++ ue_code t ++ rest ->
  0 <= mb < 2 ^ 31 -> 0 <= t <= 9 -> len (ue_code mb ++ ue_code t) <= 48 -> key_slice u = (t mod 5 =? 2) || (t mod 5 =? 4).
Proof.
  intros -> B E M T L. unfold key_slice. destruct (slice_prefix 10 (h :: insert_ep 0 payload) 1 (mkbr [] 0)) as (p & r & P1 & P2 & P3); [lia|lia|].
  rewrite P2. cbn [rdat roff app]. change (dropz 1 (h :: insert_ep 0 payload)) with (insert_ep 0 payload) in P1. rewrite (proj1 (rep_loop_ok payload B)) in P1.
  assert (BP : bytesP p) by (rewrite P1 in B; apply Forall_app in B; tauto).
  assert (EP : exists rest', bits p = ue_code mb ++ ue_code t ++ rest').
  { destruct P3 as [->|P3]; [rewrite app_nil_r in P1; subst; now exists rest|]. rewrite P1, bits_app, app_assoc in E.
    assert (LP : len (bits p) = 8 * len p) by apply bits_len.
    exists (dropz (len (ue_code mb ++ ue_code t)) (bits p)). rewrite app_assoc.
    rewrite <- (takez_dropz (len (ue_code mb ++ ue_code t)) (bits p)) at 1. f_equal.
    pose proof (len_nonneg (ue_code mb ++ ue_code t)) as LC.
    assert (Q : takez (len (ue_code mb ++ ue_code t)) (bits p ++ bits r) = ue_code mb ++ ue_code t).
    { rewrite E. apply takez_app_exact. reflexivity. }
    rewrite <- Q at 2. unfold takez. rewrite firstn_app.
    replace (Z.to_nat (len (ue_code mb ++ ue_code t)) - length (bits p))%nat with 0%nat by (unfold len in LP; unfold len; unfold len in L; unfold len in P3; lia). now rewrite firstn_O, app_nil_r. }
  destruct EP as (rest' & EP).
  assert (RD : reader (mkbr p 0)) by (split; [exact BP|cbn [roff rdat]; pose proof (len_nonneg p); lia]).
  destruct (golombGetter_ok (mkbr p 0) mb (ue_code t ++ rest') RD) as (r1 & G1 & R1 & U1); [lia|unfold unread; cbn [roff rdat]; exact EP|].
  unfold br_get_se. rewrite G1. cbn [snd]. destruct (golombGetter_ok r1 t rest' R1) as (r2 & G2 & _); [lia|exact U1|].
  unfold br_get_ue. rewrite G2. cbn [fst]. unfold u64. replace (t + 1 - 1) with t by lia. rewrite Z.mod_small by lia.
  assert (C : t = 0 \/ t = 1 \/ t = 2 \/ t = 3 \/ t = 4 \/ t = 5 \/ t = 6 \/ t = 7 \/ t = 8 \/ t = 9) by lia.
  destruct C as [->|[->|[->|[->|[->|[->|[->|[->|[->| ->]]]]]]]]]; reflexivity.
Qed.
Definition newer (ty : Z) (hevc : bool) (u : list Z) (old : option (list Z)) : option (list Z) := if negb hevc && (avc_type u =? ty) then Some u else old.
Lemma parseNal_ok hevc u k s : bytesP u -> u <> [] -> key_unit hevc u k ->
  parseNal hevc u s = Ok (k, mkrcv (r_bp s) (r_out s) (newer 7 hevc u (r_sps s)) (newer 8 hevc u (r_pps s))).
Proof.
  intros B N K. destruct u as [|c u]; [congruence|]. inversion B as [|? ? Bc _]; subst. unfold parseNal, newer.
  assert (G : getb (c :: u) 0 = Ok c) by reflexivity. rewrite G. unfold key_unit, avc_type, hevc_type in *. cbn [hd] in *. destruct hevc; cbn [negb andb].
  - subst k. do 2 f_equal; [|now destruct s]. assert (E : (c .& 0x7E) >> 1 = (c / 2) mod 64).
    { apply Z.eqb_eq. apply (byte_sweep (fun c => ((c .& 0x7E) >> 1) =? ((c / 2) mod 64))); [reflexivity|exact Bc]. }
    now rewrite E.
  - rewrite land_31. f_equal. f_equal.
    + destruct K as [[K1 ->]|[K1 (h & payload & mb & t & rest & E1 & E2 & E3 & E4 & E5 & E6 & ->)]].
      * replace (c mod 32 =? 1) with false by lia. reflexivity.
      * rewrite K1. change (1 =? 1) with true. cbv iota. eapply slice_key; eassumption.
    + destruct (Z.eqb_spec (c mod 32) 7) as [->|]; [reflexivity|]. destruct (Z.eqb_spec (c mod 32) 8); [reflexivity|now destruct s].
Qed.

(** ** Packets *)
Section Build.
Context (junk : Z) (Hj : byteP junk).
Lemma fill_none time off track bpos p : fields_ok (mkF time off track [] bpos true) ->
  genericFill junk time off track None 0 bpos true p = Ok (mkP (Some (pkt time off track bpos (Some true) [])) true (len (pkt time off track bpos (Some true) [])) V_2 (nal p)).
Proof.
  intros (Ht & Ho & Hk & Hb & Hd & Hl). cbn [f_time f_offset f_track f_data f_bpos f_key] in *.
  change (2 ^ 32) with 4294967296 in *.
  rewrite len_pkt, len_body. unfold genericFill. cbv iota beta zeta. cbn [andb].
  set (L := 24 + (if negb (off =? 0) then 17 else 0) + (if negb (bpos =? 0) then 15 else 0) + 19 + 0 + 11).
  assert (LB : 35 <= L <= 86) by (unfold L; dif; lia).
  assert (EL : 20 + (4 + (if negb (off =? 0) then 17 else 0) + (if negb (bpos =? 0) then 15 else 0) + match Some true with Some _ => 19 | None => 0 end + 11 + len (@nil Z)) = L) by (unfold L; change (len (@nil Z)) with 0; lia).
  rewrite EL. unfold u32. rewrite (Z.mod_small L) by lia.
  assert (G : grow junk [] L = [] ++ repeat junk (Z.to_nat L)).
  { unfold grow. change (len (@nil Z)) with 0. replace (0 <? L) with true by lia. now rewrite Z.sub_0_r. }
  rewrite G. clear G.
  unfold pkt. rewrite len_body. match goal with |- context [be 4 (12 + ?x)] => replace (12 + x) with (L - 8) by (change (len (@nil Z)) with 0; unfold L; cbv iota; lia) end. clear EL.
  change (0 =? 0) with true. cbv iota.
  unfold body. rewrite enc_obj, !flat_map_app. unfold opt.
  destruct (negb (off =? 0)), (negb (bpos =? 0)); cbn [key_of key_member flat_map]; unfold encm; cbn [fst snd enc]; rewrite ?be_s64.
  all: subst L.
  all: repeat (rewrite put_fill; [|lens|lens]).
  all: match goal with |- Ok (mkP (Some (?a ++ repeat _ (Z.to_nat ?n))) _ _ _ _) = _ => replace n with 0 by lens; change (repeat junk (Z.to_nat 0)) with (@nil Z) end.
  all: f_equal; f_equal; f_equal; rewrite ?app_nil_r, <- ?app_assoc; reflexivity.
Qed.
Definition empty_fields (ts off tid bpos : Z) : fields := mkF ts off tid [] bpos false.
Lemma blank_ok ts off tid bpos p : fields_ok (empty_fields ts off tid bpos) ->
  exists p', returns (fun f => blank junk f tid ts off bpos p) p' /\ Inv (mkS (empty_fields ts off tid bpos) true None) p'.
Proof.
  intros F. unfold blank. rewrite fill_none by exact F.
  match goal with |- context [setKeyFrame _ _ ?q] => set (p0 := q) end.
  assert (V : Inv (mkS (mkF ts off tid [] bpos true) true None) p0).
  { exists (nal p). cbn [s_f s_keyed s_nal f_time f_offset f_track f_data f_bpos f_key]. split; [|split; [discriminate|exact I]]. exists []. split; [constructor|]. now rewrite app_nil_r. }
  destruct (op_ok junk Hj (SetKeyFrame false) _ _ p0 V eq_refl) as (p' & P1 & P2); [cbn; lia|]. exists p'. split; [exact P1|exact P2].
Qed.
Lemma time_ok s p fuel : Inv s p -> fields_ok (s_f s) -> Dtsc_Model.getTime (fun _ => 0) (fun _ => 0) fuel p = Ok (f_time (s_f s)).
Proof.
  intros V F. pose proof (Inv_reports s p V F) as (_ & (n & R) & _). destruct V as (m & (slack & _ & ->) & _).
  specialize (R n (le_n n)). unfold Dtsc_Model.getTime in *. exact R.
Qed.
End Build.
