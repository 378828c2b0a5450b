(** Proofs about the packetizer. *)
From Verif Require Import Common CommonFacts CommonMore Ts_Model Ts_Spec Ts_Proofs.
Import List.

Lemma takez_le {A} a b (l : list A) : 0 <= a <= b -> takez a (takez b l) = takez a l.
Proof. intros. rewrite takez_takez by lia. now rewrite Z.min_l by lia. Qed.

Definition first_flags (f : meta) : Z := if keyframe f then 0x70 else 0x10.
(** Header of packet number i of a frame. *)
Record hdr_ok (f : meta) (c i : Z) (b : list Z) : Prop := {
  h_buf : buf_ok b;
  h_sync : sync (view b) = 0x47;
  h_error : error (view b) = 0;
  h_start : unit_start (view b) = if i =? 0 then 1 else 0;
  h_prio : priority (view b) = 0;
  h_pid : pid_ (view b) = pid f;
  h_scr : scrambling (view b) = 0;
  h_cc : counter (view b) = (c + 1 + i) mod 16;
  h_pcr : (i =? 0) && video f = true -> afc (view b) = 3 /\ 7 <= nthz b 4 /\ takez 7 (dropz 5 b) = first_flags f :: pcr_bytes (time f * 27000) }.
Definition meta_ok (f : meta) : Prop := 0 <= pid f < 8192 /\ 0 <= time f /\ time f * 27000 < 2 ^ 63.

Lemma clear_ok : buf_ok (pbuf clear).
Proof. split; [apply all_bytes_ok; vm_compute; reflexivity|reflexivity]. Qed.
Lemma clear_view : view (pbuf clear) = mkp 0x47 0 0 0 0 0 1 0 (repeat 0 184). Proof. reflexivity. Qed.

Lemma building_nil_af1 p : buf_ok (pbuf p) -> afc (view (pbuf p)) = 1 -> ppos p = 4 -> building p [] /\ payload_start (pbuf p) = 4.
Proof.
  intros Hb A P. assert (S : payload_start (pbuf p) = 4) by (rewrite start_view by exact Hb; now rewrite A).
  split; [|exact S]. split; [assumption|lia|now left|lia|]. rewrite S, P. rewrite dropz_all; [reflexivity|]. rewrite len_takez; [lia|rewrite (proj2 Hb); lia].
Qed.
Lemma building_nil_af3 p : buf_ok (pbuf p) -> afc (view (pbuf p)) = 3 -> ppos p = 5 + nthz (pbuf p) 4 -> ppos p <= 188 -> building p [] /\ payload_start (pbuf p) = ppos p.
Proof.
  intros Hb A P Q. pose proof (buf_nth (pbuf p) 4 Hb) as B4. unfold byteP in B4. assert (S : payload_start (pbuf p) = ppos p) by (rewrite start_view by exact Hb; rewrite A; change (1 <? 3) with true; cbn match; lia).
  split; [|exact S]. split; [assumption|lia|now right|lia|]. rewrite S. apply dropz_all. rewrite len_takez; [lia|rewrite (proj2 Hb); lia].
Qed.

Lemma start_packet_ok f m c i : meta_ok f -> mcont m = u16 (c + i) -> mfirst m = (i =? 0) -> 0 <= i ->
  let m' := start_packet f m in
  building (mpk m') [] /\ hdr_ok f c i (pbuf (mpk m')) /\ mfirst m' = false /\ mcont m' = u16 (c + (i + 1)) /\ msent m' = msent m /\
  ppos (mpk m') = payload_start (pbuf (mpk m')) /\ ppos (mpk m') <= 12.
Proof.
  intros (Hpid & Ht & Ht2) Hc Hf Hi m'. unfold m', start_packet. rewrite Hf. cbn [mpk mfirst mcont msent].
  assert (HC : u16 (mcont m + 1) = u16 (c + (i + 1))) by (rewrite Hc; unfold u16; rewrite Z.add_mod_idemp_l by lia; f_equal; lia).
  assert (HC16 : u16 (mcont m + 1) mod 16 = (c + 1 + i) mod 16).
  { rewrite HC. unfold u16. clear. lia. }
  destruct (setPID_ok clear clear_ok (pid f)) as (B1 & V1 & P1). set (p1 := setPID clear (pid f)) in *.
  destruct (setCC_ok p1 B1 (u16 (mcont m + 1))) as (B2 & V2 & P2). set (p2 := setContinuityCounter p1 (u16 (mcont m + 1))) in *.
  rewrite V1 in V2. rewrite clear_view in V2. rewrite HC16 in V2. rewrite (Z.mod_small (pid f)) in V2 by lia. unfold with_pid, with_counter in V2; cbn [sync error unit_start priority pid_ scrambling afc counter body] in V2. rewrite P1 in P2. change (ppos clear) with 4 in P2.
  assert (PP2 : ppos p2 = 4) by lia.
  assert (Z5 : nthz (pbuf p2) 5 = 0) by (change (nthz (pbuf p2) 5) with (nthz (pbuf p2) (4 + 1)); rewrite <- (nthz_dropz (pbuf p2)) by lia; rewrite <- body_view, V2; reflexivity).
  destruct (i =? 0) eqn:Ei.
  2:{ destruct (building_nil_af1 p2 B2 ltac:(rewrite V2; reflexivity) PP2) as [G1 G2].
      split; [exact G1|]. split; [|repeat split; try assumption; lia].
      split; rewrite ?V2; try reflexivity; try assumption. rewrite Ei. reflexivity. rewrite Ei. discriminate. }
  destruct (setUS_ok p2 B2 true) as (B3 & V3 & P3). set (p3 := setUnitStart p2 true) in *. rewrite V2 in V3. unfold with_unit_start in V3; cbn [sync error unit_start priority pid_ scrambling afc counter body] in V3.
  assert (PP3 : ppos p3 = 4) by lia.
  assert (Z53 : nthz (pbuf p3) 5 = 0) by (change (nthz (pbuf p3) 5) with (nthz (pbuf p3) (4 + 1)); rewrite <- (nthz_dropz (pbuf p3)) by lia; rewrite <- body_view, V3; reflexivity).
  destruct (video f) eqn:Ev.
  2:{ destruct (building_nil_af1 p3 B3 ltac:(rewrite V3; reflexivity) PP3) as [G1 G2].
      split; [exact G1|]. split; [|repeat split; try assumption; lia].
      split; rewrite ?V3; try reflexivity; try assumption. rewrite Ei. reflexivity. rewrite Ev, andb_false_r. discriminate. }
  assert (S64 : s64 (u64 (time f * 27000)) = time f * 27000).
  { unfold s64, u64. rewrite Z.mod_mod by lia. rewrite Z.mod_small by lia. destruct (Z.ltb_spec (time f * 27000) 9223372036854775808); lia. }
  rewrite S64.
  (* the packet that setPCR is applied to *)
  assert (K : exists p4, (if keyframe f then setESPriority (setRandomAccess p3 true) true else p3) = p4 /\ buf_ok (pbuf p4) /\ same_header (pbuf p4) (pbuf p3) /\
    ppos p4 <= 12 /\ nthz (pbuf p4) 5 = (if keyframe f then 0x60 else 0)).
  { destruct (keyframe f).
    - eexists. split; [reflexivity|].
      destruct (set_flag_ok 6 p3 true ltac:(lia) B3) as (F1 & F2 & F3 & F4 & F5 & F6 & _). change (set_flag (2 ^ 6) (255 - 2 ^ 6)) with setRandomAccess in *.
      destruct (set_flag_ok 5 (setRandomAccess p3 true) true ltac:(lia) F1) as (G1 & G2 & G3 & G4 & G5 & G6 & _). change (set_flag (2 ^ 5) (255 - 2 ^ 5)) with setESPriority in *.
      split; [exact G1|]. split; [apply (same_header_trans _ _ _ G2 F2)|]. split; [lia|]. rewrite G6, F3. change (3 =? 3) with true. cbn match. rewrite F6.
      rewrite V3. cbn [afc]. reflexivity.
    - exists p3. split; [reflexivity|]. split; [exact B3|]. split; [apply same_header_refl|]. split; [lia|exact Z53]. }
  destruct K as (p4 & -> & B4 & H4 & PP4 & N54).
  destruct (setPCR_ok p4 (time f * 27000) B4 ltac:(lia)) as (B5 & H5 & A5 & P5 & N45 & N55 & T5 & _). set (p5 := setPCR p4 (time f * 27000)) in *.
  destruct (building_nil_af3 p5 B5 A5 ltac:(lia) ltac:(lia)) as [G1 G2].
  split; [exact G1|]. split; [|repeat split; try assumption; lia].
  pose proof (same_header_trans _ _ _ H5 H4) as (S1 & S2 & S3 & S4 & S5 & S6 & S7). rewrite V3 in S1, S2, S3, S4, S5, S6, S7. cbn [sync error unit_start priority pid_ scrambling afc counter body] in S1, S2, S3, S4, S5, S6, S7.
  split; try assumption; try congruence.
  - rewrite Ei. congruence.
  - intros _. split; [exact A5|]. split; [lia|].
    pose proof (proj2 B5) as L5. apply nthz_ext.
    + rewrite len_takez by (rewrite len_dropz; lia). reflexivity.
    + intros j Hj. rewrite len_takez in Hj by (rewrite len_dropz; lia). rewrite nthz_takez, nthz_dropz by lia.
      destruct (Z.eq_dec j 0) as [-> |J].
      * change (5 + 0) with 5. rewrite N55, N54. unfold first_flags. destruct (keyframe f); reflexivity.
      * replace j with ((j - 1) + 1) at 2 by lia. rewrite nthz_S by lia. rewrite <- T5. rewrite nthz_takez, nthz_dropz by lia. f_equal. lia.
Qed.

Lemma full_payload p c : building p c -> c <> [] -> ppos p = 188 -> payload (pbuf p) = Some c.
Proof.
  intros HB Hne E. pose proof (building_len p c HB) as LC. destruct HB as [Hb Hp Ha Hs Hc].
  assert (0 < len c) by (destruct c; [contradiction|rewrite len_cons; pose proof (len_nonneg c); lia]). pose proof (proj2 Hb).
  rewrite payload_eq; [|exact Hb|].
  - f_equal. rewrite <- Hc. f_equal. rewrite takez_all by lia. reflexivity.
  - destruct Ha as [A|A]; [now left|right]. split; [exact A|]. rewrite start_view in LC by exact Hb. rewrite A in LC. change (1 <? 3) with true in LC. cbn match in LC. lia.
Qed.
Lemma payloads_snoc l d b x : payloads l = Some d -> payload b = Some x -> payloads (l ++ [b]) = Some (d ++ x).
Proof.
  revert d. induction l as [|a l IH]; cbn [payloads app]; intros d H Hx.
  - injection H as <-. rewrite Hx. now rewrite app_nil_r.
  - destruct (payload a) as [y|]; [|discriminate]. destruct (payloads l) as [z|]; [|discriminate]. injection H as <-.
    rewrite (IH z eq_refl Hx). now rewrite app_assoc.
Qed.

(** Packets emitted so far for a frame. *)
Definition nthb (l : list (list Z)) (i : Z) : list Z := nth (Z.to_nat i) l [].
Definition pack_ok (f : meta) (c : Z) (pk : list (list Z)) (d : list Z) : Prop :=
  payloads pk = Some d /\ forall i, 0 <= i < len pk -> hdr_ok f c i (nthb pk i).
Lemma pack_snoc f c pk d b x : pack_ok f c pk d -> hdr_ok f c (len pk) b -> payload b = Some x -> pack_ok f c (pk ++ [b]) (d ++ x).
Proof.
  intros [P1 P2] Hh Hp. split; [now apply payloads_snoc|]. intros i Hi. rewrite len_app in Hi. change (len [b]) with 1 in Hi. unfold nthb.
  destruct (Z.eq_dec i (len pk)) as [-> |N].
  - unfold len. rewrite Nat2Z.id. rewrite app_nth2 by lia. rewrite Nat.sub_diag. exact Hh.
  - rewrite app_nth1 by (unfold len in *; lia). apply P2. lia.
Qed.
Lemma hdr_same f c i a b : hdr_ok f c i a -> buf_ok b -> same_header b a ->
  ((i =? 0) && video f = true -> afc (view b) = 3 /\ 7 <= nthz b 4 /\ takez 7 (dropz 5 b) = takez 7 (dropz 5 a)) -> hdr_ok f c i b.
Proof.
  intros [A1 A2 A3 A4 A5 A6 A7 A8 A9] Hb (S1 & S2 & S3 & S4 & S5 & S6 & S7) H. split; try congruence; try assumption.
  intros X. destruct (H X) as (Y1 & Y2 & Y3). destruct (A9 X) as (_ & _ & Z3). repeat split; congruence || assumption.
Qed.

Inductive prog (f : meta) (c : Z) (s0 : list (list Z)) : list Z -> mux -> Prop :=
| P_idle pk d m : msent m = s0 ++ pk -> mfirst m = (len pk =? 0) -> ppos (mpk m) = 4 -> mcont m = u16 (c + len pk) -> pack_ok f c pk d -> prog f c s0 d m
| P_cur pk d cur m : msent m = s0 ++ pk -> mfirst m = false -> cur <> [] -> building (mpk m) cur -> hdr_ok f c (len pk) (pbuf (mpk m)) ->
    mcont m = u16 (c + (len pk + 1)) -> pack_ok f c pk d -> prog f c s0 (d ++ cur) m.

(** Sending a full packet. *)
Definition flush (m : mux) : mux := if 188 - ppos (mpk m) =? 0 then mkmux clear (mfirst m) (mcont m) (msent m ++ [pbuf (mpk m)]) else m.
Lemma prog_pos f c s0 d m : prog f c s0 d m -> 4 <= ppos (mpk m) <= 188.
Proof. intros H. inversion H; subst; [lia|]. match goal with B : building _ _ |- _ => destruct B as [_ B _ _ _] end. lia. Qed.
Lemma len_zero_eqb {A} (l : list A) : (len l =? 0) = match l with [] => true | _ => false end.
Proof. destruct l; [reflexivity|]. rewrite len_cons. pose proof (len_nonneg l). destruct (Z.eqb_spec (1 + len l) 0); [lia|reflexivity]. Qed.
Lemma flush_ok f c s0 d m : prog f c s0 d m -> prog f c s0 d (flush m) /\ ppos (mpk (flush m)) < 188.
Proof.
  intros H. unfold flush. destruct (Z.eqb_spec (188 - ppos (mpk m)) 0) as [E|E].
  - inversion H as [pk d' m' M1 M2 M3 M4 M5|pk d' cur m' M1 M2 M3 M4 M5 M6 M7]; subst; [lia|].
    split; [|cbn; lia]. apply P_idle with (pk := pk ++ [pbuf (mpk m)]); cbn [msent mfirst mpk mcont].
    + rewrite M1. now rewrite app_assoc.
    + rewrite M2, len_app. change (len [pbuf (mpk m)]) with 1. pose proof (len_nonneg pk). destruct (Z.eqb_spec (len pk + 1) 0); [lia|reflexivity].
    + reflexivity.
    + rewrite M6, len_app. reflexivity.
    + apply pack_snoc; try assumption. apply full_payload; try assumption. lia.
  - split; [exact H|]. pose proof (prog_pos _ _ _ _ _ H). lia.
Qed.

Lemma fill_step f c s0 d m data n p : meta_ok f -> prog f c s0 d m -> ppos (mpk m) < 188 -> bytesP data -> 0 < len data < 2147483648 ->
  let m1 := if 188 - ppos (mpk m) =? 184 then start_packet f m else m in
  fillFree (mpk m1) data = Some (n, p) ->
  0 < n <= len data /\ prog f c s0 (d ++ takez n data) (mkmux p (mfirst m1) (mcont m1) (msent m1)).
Proof.
  intros Hf H Hp Hd Hl m1 HF.
  assert (K : exists pk d1 cur, d = d1 ++ cur /\ msent m1 = s0 ++ pk /\ mfirst m1 = false /\ building (mpk m1) cur /\ hdr_ok f c (len pk) (pbuf (mpk m1)) /\
    mcont m1 = u16 (c + (len pk + 1)) /\ pack_ok f c pk d1 /\ ppos (mpk m1) < 188).
  { unfold m1. inversion H as [pk d' m' M1 M2 M3 M4 M5|pk d' cur m' M1 M2 M3 M4 M5 M6 M7]; subst.
    - rewrite M3. change (188 - 4 =? 184) with true. cbn match.
      destruct (start_packet_ok f m c (len pk) Hf M4 M2 (len_nonneg pk)) as (G1 & G2 & G3 & G4 & G5 & G6 & G7).
      exists pk, d, []. rewrite app_nil_r. do 7 (split; [first [assumption | reflexivity | congruence]|]). lia.
    - pose proof (building_len _ _ M4) as LB. assert (0 < len cur) by (destruct cur; [contradiction|rewrite len_cons; pose proof (len_nonneg cur); lia]).
      pose proof (start_ge (pbuf (mpk m)) (bd_buf _ _ M4)). destruct (Z.eqb_spec (188 - ppos (mpk m)) 184); [lia|]. exists pk, d', cur. do 7 (split; [first [assumption | reflexivity | congruence]|]). assumption. }
  destruct K as (pk & d1 & cur & -> & K1 & K2 & K3 & K4 & K5 & K6 & K7).
  destruct (fillFree_ok (mpk m1) cur data K3 Hd ltac:(lia)) as (p' & E & B' & P' & T'). rewrite E in HF. assert (En : n = Z.min (188 - ppos (mpk m1)) (len data)) by congruence. assert (Ep : p = p') by congruence. clear HF. subst n p.
  pose proof (bd_pos _ _ K3). clearbody m1. split; [lia|].
  assert (TT : takez (Z.min (188 - ppos (mpk m1)) (len data)) data = takez (188 - ppos (mpk m1)) data).
  { destruct (Z.le_ge_cases (188 - ppos (mpk m1)) (len data)); [now rewrite Z.min_l by lia|rewrite Z.min_r by lia; rewrite !takez_all by lia; reflexivity]. }
  rewrite TT. rewrite <- app_assoc. apply P_cur with (pk := pk); cbn [msent mfirst mpk mcont]; try assumption.
  - intros X. apply (f_equal len) in X. rewrite len_app, len_takez_min in X by lia. pose proof (len_nonneg cur). change (len (@nil Z)) with 0 in X. lia.
  - pose proof (bd_buf _ _ K3) as Hb. pose proof (bd_buf _ _ B') as Hb'. pose proof (start_ge _ Hb) as SG.
    assert (T4 : takez 4 (pbuf p') = takez 4 (pbuf (mpk m1))) by (rewrite <- (takez_le 4 (payload_start (pbuf (mpk m1)))) by lia; rewrite T'; apply takez_le; lia).
    destruct (same_header_4 _ _ T4 (proj2 Hb') (proj2 Hb)) as [S4 A4].
    apply (hdr_same f c (len pk) (pbuf (mpk m1))); try assumption. intros X. destruct (h_pcr _ _ _ _ K4 X) as (Y1 & Y2 & Y3).
    rewrite A4. split; [exact Y1|].
    pose proof (start_view _ Hb) as SV. rewrite Y1 in SV. change (1 <? 3) with true in SV. cbn match in SV.
    assert (NN : forall j, 0 <= j < 12 -> nthz (pbuf p') j = nthz (pbuf (mpk m1)) j).
    { intros j Hj. rewrite <- (nthz_takez _ j (payload_start (pbuf (mpk m1)))) by lia. rewrite T'. apply nthz_takez. lia. }
    split; [rewrite NN by lia; exact Y2|]. pose proof (proj2 Hb). pose proof (proj2 Hb'). apply nthz_ext; [rewrite !len_takez by (rewrite len_dropz; lia); reflexivity|].
    intros j Hj. rewrite len_takez in Hj by (rewrite len_dropz; lia). rewrite !nthz_takez, !nthz_dropz by lia. apply NN. lia.
Qed.

Lemma fill_loop_ok f c s0 : meta_ok f -> forall fuel data d m, bytesP data -> len data < 2147483648 -> (List.length data < fuel)%nat ->
  prog f c s0 d m -> exists m', fill_loop fuel f data m = Some m' /\ prog f c s0 (d ++ data) m'.
Proof.
  intros Hf. induction fuel as [|k IH]; intros data d m Hd Hl Hfu H; [lia|]. cbn [fill_loop].
  pose proof (prog_pos _ _ _ _ _ H). rewrite getFree_ok by lia. fold (flush m).
  destruct (flush_ok _ _ _ _ _ H) as [H1 H2]. rewrite len_zero_eqb. destruct data as [|x data].
  - exists (flush m). split; [reflexivity|]. now rewrite app_nil_r.
  - set (D := x :: data) in *. assert (0 < len D) by (unfold D; rewrite len_cons; pose proof (len_nonneg data); lia).
    pose proof (prog_pos _ _ _ _ _ H1). rewrite getFree_ok by lia.
    set (m1 := if 188 - ppos (mpk (flush m)) =? 184 then start_packet f (flush m) else flush m).
    assert (EF : exists n p, fillFree (mpk m1) D = Some (n, p)).
    { unfold m1. inversion H1 as [pk d' m' M1 M2 M3 M4 M5|pk d' cur m' M1 M2 M3 M4 M5 M6 M7]; subst.
      - rewrite M3. change (188 - 4 =? 184) with true. cbn match.
        destruct (start_packet_ok f (flush m) c (len pk) Hf M4 M2 (len_nonneg pk)) as (G1 & _).
        destruct (fillFree_ok _ _ D G1 Hd Hl) as (p' & E & _). eauto.
      - destruct (Z.eqb_spec (188 - ppos (mpk (flush m))) 184).
        + exfalso. pose proof (building_len _ _ M4) as LB. assert (0 < len cur) by (destruct cur; [contradiction|rewrite len_cons; pose proof (len_nonneg cur); lia]).
          pose proof (start_ge _ (bd_buf _ _ M4)). lia.
        + destruct (fillFree_ok _ _ D M4 Hd Hl) as (p' & E & _). eauto. }
    destruct EF as (n & p & EF). rewrite EF.
    destruct (fill_step f c s0 d (flush m) D n p Hf H1 H2 Hd ltac:(lia) EF) as [Hn HS]. fold m1 in HS.
    rewrite len_zero_eqb. destruct (dropz n D) as [|y r] eqn:ED.
    + eexists. split; [reflexivity|]. rewrite <- (takez_dropz n D), ED, app_nil_r. exact HS.
    + rewrite <- ED. assert (LD : len (dropz n D) = len D - n) by (apply len_dropz; lia).
      destruct (IH (dropz n D) (d ++ takez n D) _ ltac:(now apply bytesP_dropz) ltac:(lia) ltac:(unfold len in *; lia) HS) as (m' & E & P).
      exists m'. split; [exact E|]. rewrite <- app_assoc, takez_dropz in P. exact P.
Qed.
Lemma fill_all_ok f c s0 : meta_ok f -> forall chunks d m, Forall (fun x => bytesP x /\ len x < 2147483648) chunks -> prog f c s0 d m ->
  exists m', fill_all f chunks m = Some m' /\ prog f c s0 (d ++ concat chunks) m'.
Proof.
  intros Hf. induction chunks as [|x r IH]; intros d m HF H; cbn [fill_all concat].
  - exists m. split; [reflexivity|]. now rewrite app_nil_r.
  - inversion HF as [|? ? [X1 X2] HR]; subst. unfold fillPacket.
    destruct (fill_loop_ok f c s0 Hf (S (List.length x)) x d m X1 X2 ltac:(lia) H) as (m1 & E1 & P1). rewrite E1.
    destruct (IH _ _ HR P1) as (m2 & E2 & P2). exists m2. split; [exact E2|]. now rewrite app_assoc.
Qed.

Lemma send_frame_ok f chunks m : meta_ok f -> Forall (fun x => bytesP x /\ len x < 2147483648) chunks -> ppos (mpk m) = 4 -> mcont m = u16 (mcont m) ->
  exists m' pk, send_frame f chunks m = Some m' /\ msent m' = msent m ++ pk /\ ppos (mpk m') = 4 /\ mcont m' = u16 (mcont m + len pk) /\
  pack_ok f (mcont m) pk (concat chunks).
Proof.
  intros Hf HF Hp Hc. unfold send_frame.
  destruct (fill_all_ok f (mcont m) (msent m) Hf chunks [] (mkmux (mpk m) true (mcont m) (msent m)) HF) as (m1 & E1 & P1).
  { apply P_idle with (pk := []); cbn [msent mfirst mpk mcont]; try assumption; try reflexivity.
    - now rewrite app_nil_r.
    - change (len (@nil (list Z))) with 0. now rewrite Z.add_0_r.
    - split; [reflexivity|]. intros i Hi. change (len (@nil (list Z))) with 0 in Hi. lia. }
  rewrite E1. cbn [app] in P1. pose proof (prog_pos _ _ _ _ _ P1). rewrite getFree_ok by lia.
  inversion P1 as [pk d' m' M1 M2 M3 M4 M5|pk d' cur m' M1 M2 M3 M4 M5 M6 M7 M8]; subst.
  - rewrite M3. change (188 - 4 <? 184) with false. cbn match. exists m1, pk. do 4 (split; [first [assumption | reflexivity | congruence]|]). assumption.
  - pose proof (building_len _ _ M4) as LB. assert (0 < len cur) by (destruct cur; [contradiction|rewrite len_cons; pose proof (len_nonneg cur); lia]).
    pose proof (start_ge _ (bd_buf _ _ M4)). destruct (Z.ltb_spec (188 - ppos (mpk m1)) 184); [|lia].
    destruct (addStuffing_ok _ _ M4 M3) as (p' & E' & [R1 R2 R3 R4 R5 R6]). rewrite E'.
    unfold fillPacket. cbn [List.length fill_loop mpk]. rewrite getFree_ok by lia. rewrite R2. change (188 - 188 =? 0) with true. cbn match.
    change (len (@nil Z) =? 0) with true. cbn match.
    eexists _, (pk ++ [pbuf p']). cbn [msent mfirst mpk mcont]. split; [reflexivity|]. split; [rewrite M1; now rewrite app_assoc|]. split; [reflexivity|].
    split; [rewrite M6, len_app; reflexivity|]. apply pack_snoc; try assumption.
    apply (hdr_same f _ _ (pbuf (mpk m1))); try assumption. intros X. destruct (h_pcr _ _ _ _ M5 X) as (Y1 & Y2 & Y3).
    destruct (R6 Y1) as [Y4 Y5]. split; [destruct R4 as [[_ W]|W]; [congruence|exact W]|]. split; [lia|].
    rewrite <- (takez_le 7 (nthz (pbuf (mpk m1)) 4)) by lia. rewrite Y5. apply takez_le. lia.
Qed.
