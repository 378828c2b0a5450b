(** Proofs about PES headers and the demuxer fed by the packetizer. *)
From Verif Require Import Common CommonFacts CommonMore Bitfields_Model Bitfields_Proofs Ts_Model Ts_Spec Ts_Proofs Ts_Mux_Proofs Ts_Pes_Proofs.
Import List.

(** ** Lead-ins are PES headers *)
Definition rate_bytes (bps : Z) : list Z := if 50 <=? bps then htob24 ((bps / 50) .| 0x800001) else [].
Lemma rate_len bps : len (rate_bytes bps) = if 50 <=? bps then 3 else 0.
Proof. unfold rate_bytes. now dif. Qed.
Lemma land_ff00 n : (n .& 0xFF00) >> 8 = n / 256 mod 256.
Proof. change 0xFF00 with (0xFF << 8). rewrite land_shift by lia. rewrite shr_div by lia. now rewrite land_ff. Qed.
Lemma be2 n : be 2 n = [n / 256 mod 256; n mod 256].
Proof. cbn [be]. change (256 ^ Z.of_nat 1) with 256. change (256 ^ Z.of_nat 0) with 1. now rewrite Z.div_1_r. Qed.
Lemma stamp_len l t : len (stamp l t) = 5. Proof. reflexivity. Qed.
Lemma rate_match bps : match rate_bytes bps with [] => 0 | _ => 16 end = if 50 <=? bps then 16 else 0.
Proof. unfold rate_bytes. destruct (50 <=? bps); reflexivity. Qed.
Lemma bps0 bps : ((if 50 <=? bps then bps else 0) =? 0) = negb (50 <=? bps).
Proof. destruct (Z.leb_spec 50 bps); [|reflexivity]. destruct (Z.eqb_spec bps 0); [lia|reflexivity]. Qed.

Lemma leadin_pes sid pts bps data : 11 + len data < 2 ^ 32 ->
  getPESLeadIn sid (len data) pts bps ++ data = pes sid true true pts None (rate_bytes bps) data.
Proof.
  intros H. pose proof (len_nonneg data). unfold getPESLeadIn, pes. rewrite bps0. rewrite len_app, stamp_len, rate_len, rate_match. change 0x20 with (2 * 16). rewrite stamp_ok by lia. rewrite be2, land_ff00, land_ff.
  unfold rate_bytes, u32. destruct (50 <=? bps); cbn [negb].
  - rewrite (Z.mod_small (len data + 3)) by (clear - H H0; lia). rewrite (Z.mod_small (len data + 3 + 8) 4294967296) by (clear - H H0; lia). replace (len data + 3 + 8) with (3 + (5 + 3) + len data) by lia.
    cbn [app]. repeat (f_equal; try reflexivity).
  - rewrite (Z.mod_small (len data + 8) 4294967296) by (clear - H H0; lia). replace (len data + 8) with (3 + (5 + 0) + len data) by lia. rewrite app_nil_r. reflexivity.
Qed.
(** For video the length is either the length of the data or 0 (unbounded). *)
Lemma video_pes bounded aligned pts off bps data : (bounded = true -> 0 < len data) -> 16 + len data < 2 ^ 32 -> 0 <= off -> 0 <= pts -> pts + off < 2 ^ 64 ->
  getPESVideoLeadIn (if bounded then len data else 0) pts off aligned bps ++ data =
  pes 0xE0 bounded aligned (pts + off) (if off =? 0 then None else Some pts) (rate_bytes bps) data.
Proof.
  intros Hn H Ho Hp Hpo. pose proof (len_nonneg data). unfold getPESVideoLeadIn, pes. rewrite bps0. rewrite !len_app, rate_len, rate_match. rewrite be2, shr_div, !land_ff by lia.
  unfold u64. rewrite (Z.mod_small (pts + off)) by lia. 
  assert (N : (if 50 <=? bps then (if (if (if bounded then len data else 0) =? 0 then if bounded then len data else 0 else u32 ((if bounded then len data else 0) + (if off =? 0 then 8 else 13))) =? 0
     then (if (if bounded then len data else 0) =? 0 then if bounded then len data else 0 else u32 ((if bounded then len data else 0) + (if off =? 0 then 8 else 13)))
     else u32 ((if (if bounded then len data else 0) =? 0 then if bounded then len data else 0 else u32 ((if bounded then len data else 0) + (if off =? 0 then 8 else 13))) + 3))
     else (if (if bounded then len data else 0) =? 0 then if bounded then len data else 0 else u32 ((if bounded then len data else 0) + (if off =? 0 then 8 else 13)))) =
     (if bounded then 3 + ((if off =? 0 then 5 else 10) + (if 50 <=? bps then 3 else 0)) + len data else 0)).
  { destruct bounded.
    - specialize (Hn eq_refl). destruct (Z.eqb_spec (len data) 0); [lia|]. unfold u32.
      assert (E : (len data + (if off =? 0 then 8 else 13)) mod 4294967296 = len data + (if off =? 0 then 8 else 13)) by (apply Z.mod_small; clear - H H0; destruct (off =? 0); lia).
      rewrite E. destruct (Z.eqb_spec (len data + (if off =? 0 then 8 else 13)) 0); [destruct (off =? 0); lia|].
      destruct (50 <=? bps); [|destruct (off =? 0); lia]. rewrite Z.mod_small by (clear - H H0; destruct (off =? 0); lia). destruct (off =? 0); lia.
    - change (0 =? 0) with true. cbn match. destruct (50 <=? bps); reflexivity. }
  rewrite N. replace (len (match (if off =? 0 then None else Some pts) with None => stamp 2 (pts + off) | Some d => stamp 3 (pts + off) ++ stamp 1 d end)) with (if off =? 0 then 5 else 10) by (destruct (off =? 0); reflexivity).
  replace (if off =? 0 then 0x20 else 0x30) with ((if off =? 0 then 2 else 3) * 16) by (destruct (off =? 0); reflexivity).
  rewrite stamp_ok by (destruct (off =? 0); lia). change 0x10 with (1 * 16) at 3. rewrite (stamp_ok 1) by lia.
  cbn [app]. unfold rate_bytes. destruct (off =? 0), (50 <=? bps), aligned; cbn [negb app]; change (2 ^ 8) with 256; repeat (f_equal; try reflexivity); rewrite <- ?app_assoc, ?app_nil_r; reflexivity.
Qed.

(** ** Reading one PES packet *)
(** What the demuxer extracts from a PES packet: time stamp and offset in ms. *)
Definition dts_of (pts : Z) (dts : option Z) : Z := match dts with None => pts | Some d => d end.
Definition ms_of (t : Z) : Z := (t mod 2 ^ 33) / 90.

Lemma flags_pts f : 0 <= f < 256 -> negb (((f >> 6) .& 2) =? 0) = (f / 128 mod 2 =? 1).
Proof. intros H. apply Bool.eqb_prop. apply (byte_sweep (fun f => Bool.eqb (negb (((f >> 6) .& 2) =? 0)) (f / 128 mod 2 =? 1))); [vm_compute; reflexivity|exact H]. Qed.

Lemma pes_one sid bounded aligned pts dts rate data d k :
  len rate = 0 \/ len rate = 3 -> (bounded = true -> 16 + len data < 65536) -> 22 + len data < 2 ^ 32 -> bytesP data -> bytesP rate ->
  (forall x, dts = Some x -> ms_of x <= ms_of pts) ->
  let '(ts, roll) := unroll (ms_of (dts_of pts dts)) (lastms d) (rollover d) in
  pes_loop (S (S k)) (pes sid bounded aligned pts dts rate data) 0 d =
  Ok (mkdmx (cache d) (seen d) ts roll (outp d ++ [(ts, ms_of pts - ms_of (dts_of pts dts), data)])).
Proof.
  intros Hr Hb HL Hd Hrb Hdts. destruct (unroll (ms_of (dts_of pts dts)) (lastms d) (rollover d)) as [ts roll] eqn:EU.
  pose proof (len_nonneg data).
  set (st := match dts with None => stamp 2 pts | Some x => stamp 3 pts ++ stamp 1 x end).
  assert (Lst : len st = match dts with None => 5 | Some _ => 10 end) by (destruct dts; reflexivity).
  set (n := if bounded then 3 + len (st ++ rate) + len data else 0).
  set (fl := 128 + (match dts with None => 0 | Some _ => 64 end) + (match rate with [] => 0 | _ => 16 end)).
  assert (EP : pes sid bounded aligned pts dts rate data = [0; 0; 1; sid; n / 256 mod 256; n mod 256; 128 + (if aligned then 4 else 0); fl; len (st ++ rate)] ++ st ++ rate ++ data).
  { unfold pes. fold st. fold n. rewrite be2. cbn [app]. now rewrite <- app_assoc. }
  rewrite EP. clear EP. set (hd := [0; 0; 1; sid; n / 256 mod 256; n mod 256; 128 + (if aligned then 4 else 0); fl; len (st ++ rate)]).
  assert (LP : len (hd ++ st ++ rate ++ data) = 9 + len st + len rate + len data) by (rewrite !len_app; change (len hd) with 9; lia).
  assert (LO : len (st ++ rate) = len st + len rate) by apply len_app.
  assert (RR : (rate = [] /\ len rate = 0) \/ (len rate = 3 /\ match rate with [] => 0 | _ => 16 end = 16)).
  { destruct rate as [|x r]; [left; now split|right]. destruct Hr as [Hr|Hr]; [rewrite len_cons in Hr; pose proof (len_nonneg r); lia|]. now split. }
  assert (B : len st <= 10 /\ 5 <= len st /\ 0 <= len rate <= 3) by (split; [|split]; [destruct dts; lia|destruct dts; lia|lia]).
  cbn [pes_loop]. rewrite dropz_0, LP. destruct (Z.ltb_spec 0 (9 + len st + len rate + len data)); [|lia]. rewrite Z.sub_0_r.
  assert (H8 : nthz (hd ++ st ++ rate ++ data) 8 = len (st ++ rate)) by reflexivity. rewrite H8.
  destruct (Z.ltb_spec (9 + len st + len rate + len data) 9); [lia|].
  destruct (Z.ltb_spec (9 + len st + len rate + len data) (9 + len (st ++ rate))); [lia|].
  change (nthz (hd ++ st ++ rate ++ data) 0) with 0. change (nthz (hd ++ st ++ rate ++ data) 1) with 0. change (nthz (hd ++ st ++ rate ++ data) 2) with 1.
  change (negb ((0 =? 0) && (0 =? 0) && (1 =? 1))) with false. cbn match.
  assert (SZ : btohs (dropz 4 (hd ++ st ++ rate ++ data)) = n mod 65536).
  { unfold btohs. change (nthz (dropz 4 (hd ++ st ++ rate ++ data)) 0) with (n / 256 mod 256). change (nthz (dropz 4 (hd ++ st ++ rate ++ data)) 1) with (n mod 256).
    rewrite lor_shl_add by (change (2 ^ 8) with 256; lia). change (2 ^ 8) with 256. unfold u16. generalize n. clear. intros. lia. }
  rewrite SZ.
  assert (SZ2 : u64 ((if n mod 65536 =? 0 then 9 + len st + len rate + len data else n mod 65536 + 6) - (9 + len (st ++ rate))) = len data).
  { unfold u64. destruct bounded.
    - specialize (Hb eq_refl). rewrite (Z.mod_small n) by (unfold n; lia). destruct (Z.eqb_spec n 0) as [E|E]; [unfold n in E; lia|].
      replace (n + 6 - (9 + len (st ++ rate))) with (len data) by (unfold n; lia). apply Z.mod_small. clear - H HL. lia.
    - change n with 0. change (0 mod 65536 =? 0) with true. cbn match. replace (9 + len st + len rate + len data - (9 + len (st ++ rate))) with (len data) by lia. apply Z.mod_small. clear - H HL. lia. }
  cbv zeta. rewrite SZ2.
  assert (FL : nthz (hd ++ st ++ rate ++ data) 7 = fl) by reflexivity. rewrite FL.
  assert (D9 : dropz 9 (hd ++ st ++ rate ++ data) = st ++ rate ++ data) by (apply (dropz_app_exact hd); reflexivity). rewrite D9.
  assert (F1 : negb (((fl >> 6) .& 2) =? 0) = true).
  { unfold fl. destruct dts, RR as [[-> _]|[_ ->]]; reflexivity. }
  rewrite F1. cbn [andb].
  assert (F2 : negb ((((fl .& 0xC0) >> 6) .& 1) =? 0) = match dts with None => false | Some _ => true end).
  { unfold fl. destruct dts, RR as [[-> _]|[_ ->]]; reflexivity. }
  rewrite F2.
  assert (F3 : (fl .& 0x20 =? 0) = true) by (unfold fl; destruct dts, RR as [[-> _]|[_ ->]]; reflexivity).
  assert (F4 : (if fl .& 0x10 =? 0 then 0 else 3) = len rate) by (unfold fl; destruct dts, RR as [[-> E]|[E ->]]; rewrite E; reflexivity).
  assert (F5 : (fl .& 0x08 =? 0) = true) by (unfold fl; destruct dts, RR as [[-> _]|[_ ->]]; reflexivity).
  assert (F6 : (fl .& 0x04 =? 0) = true) by (unfold fl; destruct dts, RR as [[-> _]|[_ ->]]; reflexivity).
  assert (F7 : (fl .& 0x02 =? 0) = true) by (unfold fl; destruct dts, RR as [[-> _]|[_ ->]]; reflexivity).
  rewrite F3, F4, F5, F6, F7.
  assert (PO : 9 + 5 + (if match dts with None => false | Some _ => true end then 5 else 0) = 9 + len st) by (destruct dts; lia). rewrite PO.
  destruct (Z.ltb_spec (9 + len st + len rate + len data) (9 + len st)); [lia|].
  set (t1 := decodePTS (st ++ rate ++ data)).
  set (t2 := if match dts with None => false | Some _ => true end then decodePTS (dropz 14 (hd ++ st ++ rate ++ data)) else 0).
  assert (T1 : t1 = ms_of pts) by (unfold t1, st, ms_of; destruct dts; rewrite <- ?app_assoc; apply decode_stamp).
  assert (TT : (if match dts with None => false | Some _ => true end then (if t1 <? t2 then (t1, t1) else (t2, t1 - t2)) else (t1, 0)) = (ms_of (dts_of pts dts), ms_of pts - ms_of (dts_of pts dts))).
  { unfold t2. destruct dts as [x|]; cbn [dts_of].
    - assert (D14 : dropz 14 (hd ++ st ++ rate ++ data) = stamp 1 x ++ rate ++ data).
      { replace 14 with (5 + 9) by lia. rewrite <- dropz_dropz by lia. rewrite D9. unfold st. rewrite <- app_assoc. apply dropz_app_exact; reflexivity. }
      rewrite D14, decode_stamp. fold (ms_of x). specialize (Hdts x eq_refl). rewrite T1. destruct (Z.ltb_spec (ms_of pts) (ms_of x)); [lia|reflexivity].
    - rewrite T1. f_equal. lia. }
  rewrite TT, EU. cbn match.
  replace (9 + len st + 0 + len rate + 0 + 0 + 0) with (9 + len st + len rate) by lia.
  assert (LL : u64 (9 + len st + len rate + len data - (9 + len st + len rate)) = len data) by (replace (9 + len st + len rate + len data - (9 + len st + len rate)) with (len data) by lia; unfold u64; apply Z.mod_small; clear - H HL; lia).
  rewrite LL, Z.eqb_refl. cbn [negb]. destruct (Z.ltb_spec (9 + len st + len rate + len data) (9 + len st + len rate + len data)); [lia|].
  assert (DP : takez (len data) (dropz (9 + len st + len rate) (hd ++ st ++ rate ++ data)) = data).
  { replace (9 + len st + len rate) with ((len st + len rate) + 9) by lia. rewrite <- dropz_dropz by lia. rewrite D9.
    rewrite app_assoc. rewrite (dropz_app_exact (st ++ rate) data) by lia. apply takez_all. lia. }
  rewrite DP.
  assert (OO : u32 (0 + len data + (9 + len (st ++ rate))) = 9 + len st + len rate + len data).
  { unfold u32. replace (0 + len data + (9 + len (st ++ rate))) with (9 + len st + len rate + len data) by lia. apply Z.mod_small. clear - H HL B. lia. }
  rewrite OO. destruct (Z.ltb_spec (9 + len st + len rate + len data) (9 + len st + len rate + len data)); [lia|reflexivity].
Qed.

(** ** Collecting the packets of a frame *)
Lemma payload_get b x : buf_ok b -> payload b = Some x -> 0 <= getPayloadLength b /\ takez (getPayloadLength b) (dropz (payload_start b) b) = x.
Proof.
  intros Hb H. pose proof (buf_nth b 4 Hb) as Q. unfold byteP in Q. pose proof (proj2 Hb) as L. pose proof (afc_range b Hb) as A.
  assert (E : getPayloadLength b = 188 - payload_start b) by (unfold getPayloadLength, payload_start; lia). rewrite E.
  pose proof (start_view b Hb) as SV. unfold payload in H. rewrite af_len_view, body_view in H by exact Hb.
  destruct (Z.eqb_spec (afc (view b)) 1) as [A1|A1].
  - rewrite A1 in SV. change (1 <? 1) with false in SV. cbn match in SV. rewrite SV. split; [lia|]. assert (x = dropz 4 b) by congruence. subst x. apply takez_all. rewrite len_dropz; lia.
  - destruct ((afc (view b) =? 3) && (nthz b 4 <=? 182)) eqn:E3.
    + apply andb_true_iff in E3. destruct E3 as [E3 E4]. apply Z.eqb_eq in E3. apply Z.leb_le in E4. rewrite E3 in SV. change (1 <? 3) with true in SV. cbn match in SV. rewrite SV.
      split; [lia|]. assert (x = dropz (1 + nthz b 4) (dropz 4 b)) by congruence. subst x. rewrite dropz_dropz by lia. replace (1 + nthz b 4 + 4) with (5 + nthz b 4) by lia. apply takez_all. rewrite len_dropz; lia.
    + destruct ((afc (view b) =? 2) && (nthz b 4 =? 183)) eqn:E2; [|discriminate]. apply andb_true_iff in E2. destruct E2 as [E2 E4]. apply Z.eqb_eq in E2. apply Z.eqb_eq in E4.
      rewrite E2 in SV. change (1 <? 2) with true in SV. cbn match in SV. rewrite SV, E4. split; [lia|]. assert (x = []) by congruence. subst x. reflexivity.
Qed.
Lemma view_cc b : buf_ok b -> getContinuityCounter b = counter (view b).
Proof. intros. unfold getContinuityCounter. now rewrite land_f. Qed.
Lemma view_us b : buf_ok b -> getUnitStart b = (unit_start (view b) =? 1).
Proof. intros. unfold getUnitStart. change 0x40 with (2 ^ 6). rewrite b_test by (lia || now apply buf_nth). reflexivity. Qed.
Lemma view_pid b : buf_ok b -> getPID b = pid_ (view b).
Proof.
  intros. unfold getPID. change 0x1F with (Z.ones 5). rewrite Z.land_ones, shl_mul by lia. reflexivity.
Qed.

Lemma collect_ok : forall pk d f c i lst, payloads pk = Some d -> (forall j, 0 <= j < len pk -> hdr_ok f c (i + j) (nthb pk j)) -> 0 <= i ->
  lst <> (c + 1 + i) mod 16 -> pes_collect pk lst = Some d.
Proof.
  induction pk as [|b r IH]; intros d f c i lst HP HH Hi Hl; cbn [payloads pes_collect] in *; [congruence|].
  pose proof (len_nonneg r). assert (H0 : hdr_ok f c i b) by (specialize (HH 0 ltac:(rewrite len_cons; lia)); rewrite Z.add_0_r in HH; exact HH).
  pose proof (h_buf _ _ _ _ H0) as Hb. destruct (payload b) as [x|] eqn:EX; [|discriminate]. destruct (payloads r) as [y|] eqn:EY; [|discriminate].
  rewrite view_cc by exact Hb. rewrite (h_cc _ _ _ _ H0). destruct (Z.eqb_spec ((c + 1 + i) mod 16) lst); [congruence|].
  destruct (payload_get b x Hb EX) as [P1 P2]. destruct (Z.ltb_spec (getPayloadLength b) 0); [lia|].
  rewrite (IH y f c (i + 1) ((c + 1 + i) mod 16) eq_refl).
  - rewrite P2. exact HP.
  - intros j Hj. specialize (HH (j + 1) ltac:(rewrite len_cons; lia)). replace (i + 1 + j) with (i + (j + 1)) by lia. unfold nthb in *.
    replace (Z.to_nat (j + 1)) with (S (Z.to_nat j)) in HH by lia. exact HH.
  - lia.
  - clear. lia.
Qed.

(** A non-empty frame: its first packet starts a unit, the others do not. *)
Lemma frame_shape f c pk d : pack_ok f c pk d -> d <> [] -> exists b r, pk = b :: r /\ getUnitStart b = true /\ Forall (fun x => getUnitStart x = false) r /\ Forall buf_ok pk /\
  Forall (fun x => getPID x = pid f) pk.
Proof.
  intros [P1 P2] Hd. destruct pk as [|b r]; [cbn in P1; congruence|]. exists b, r. pose proof (len_nonneg r).
  assert (HA : forall x, In x (b :: r) -> exists j, 0 <= j < len (b :: r) /\ nthb (b :: r) j = x).
  { intros x Hx. apply (In_nth _ _ []) in Hx. destruct Hx as (k & Hk & E). exists (Z.of_nat k). unfold nthb, len. rewrite Nat2Z.id. split; [lia|exact E]. }
  split; [reflexivity|]. split; [|split; [|split]].
  - pose proof (P2 0 ltac:(rewrite len_cons; lia)) as Q. change (nthb (b :: r) 0) with b in Q. rewrite view_us by apply Q. rewrite (h_start _ _ _ _ Q). reflexivity.
  - apply Forall_forall. intros x Hx. apply (In_nth _ _ []) in Hx. destruct Hx as (k & Hk & E).
    pose proof (P2 (Z.of_nat k + 1) ltac:(rewrite len_cons; unfold len in *; lia)) as Q. unfold nthb in Q. replace (Z.to_nat (Z.of_nat k + 1)) with (S k) in Q by lia. cbn [nth] in Q. rewrite E in Q.
    rewrite view_us by apply Q. rewrite (h_start _ _ _ _ Q). destruct (Z.eqb_spec (Z.of_nat k + 1) 0); [lia|reflexivity].
  - apply Forall_forall. intros x Hx. destruct (HA x Hx) as (j & Hj & <-). apply (P2 j Hj).
  - apply Forall_forall. intros x Hx. destruct (HA x Hx) as (j & Hj & <-). pose proof (P2 j Hj) as Q. rewrite view_pid by apply Q. apply Q.
Qed.

Lemma until_start_none r : Forall (fun x => getUnitStart x = false) r -> until_start r = List.length r.
Proof. induction 1 as [|x r Hx _ IH]; cbn [until_start List.length]; [reflexivity|]. rewrite Hx, IH. reflexivity. Qed.

(** What parsing one collected frame does. *)
Definition parses (fuel : nat) (P : list Z) (raw off : Z) (data : list Z) : Prop :=
  forall d, let '(ts, roll) := unroll raw (lastms d) (rollover d) in
  pes_loop fuel P 0 d = Ok (mkdmx (cache d) (seen d) ts roll (outp d ++ [(ts, off, data)])).

Lemma cc_pred f c i b : hdr_ok f c i b -> getContinuityCounter b - 1 <> (c + 1 + i) mod 16.
Proof. intros H. rewrite view_cc by apply H. rewrite (h_cc _ _ _ _ H). lia. Qed.

Definition after (raw off : Z) (data : list Z) (d : demux) (cache : list (list Z)) (seen : Z) : demux :=
  let '(ts, roll) := unroll raw (lastms d) (rollover d) in mkdmx cache seen ts roll (outp d ++ [(ts, off, data)]).

(** The next unit start completes the frame in the cache. *)
Lemma next_start fuel f c pk P raw off data d b : pack_ok f c pk P -> P <> [] -> parses fuel P raw off data -> cache d = pk -> seen d = 1 -> getUnitStart b = true ->
  parse_packet fuel b d = Ok (after raw off data d [b] 1).
Proof.
  intros HP HN HPar Hc Hs Hb. destruct (frame_shape f c pk P HP HN) as (b0 & r & -> & U0 & UR & BB & _). destruct HP as [P1 P2].
  unfold parse_packet. rewrite Hb, Hc, Hs. cbn [orb cache seen lastms rollover outp]. change (Z.to_nat (1 + 1)) with 2%nat. cbn [parse_tid seen]. change (1 <? 1 + 1) with true. cbn match.
  unfold parsePES. cbn [cache seen app lastms rollover outp negb andb]. 
  assert (LN : List.length (b0 :: r ++ [b]) = S (S (List.length r))) by (cbn [List.length]; rewrite app_length; cbn; lia). rewrite LN.
  destruct (Z.leb_spec (Z.of_nat (S (S (List.length r)))) 1); [lia|]. change (1 + 1 =? 2) with true. rewrite U0. cbn [andb].
  assert (LL : last (b0 :: r ++ [b]) [] = b) by (rewrite app_comm_cons; apply last_last). rewrite LL, Hb.
  replace (S (S (List.length r)) - 1)%nat with (List.length (b0 :: r)) by (cbn [List.length]; lia).
  destruct (Nat.eqb_spec (List.length (b0 :: r)) (S (S (List.length r)))); [cbn [List.length] in *; lia|].
  rewrite app_comm_cons. rewrite firstn_app, firstn_all, Nat.sub_diag, skipn_app, skipn_all, Nat.sub_diag. cbn [firstn skipn app]. rewrite app_nil_r.
  rewrite (collect_ok (b0 :: r) P f c 0 (getContinuityCounter b0 - 1)).
  - unfold parses in HPar. specialize (HPar (mkdmx [b] (1 + 1 - 1) (lastms d) (rollover d) (outp d))). cbn [lastms rollover outp cache seen] in HPar. unfold after.
    destruct (unroll raw (lastms d) (rollover d)) as [ts roll]. rewrite HPar. cbn [parse_tid seen]. change (1 <? 1 + 1 - 1) with false. cbn match. reflexivity.
  - exact P1.
  - intros j Hj. rewrite Z.add_0_l. now apply P2.
  - lia.
  - pose proof (P2 0 ltac:(rewrite len_cons; pose proof (len_nonneg r); lia)) as Q. exact (cc_pred _ _ _ _ Q).
Qed.
Lemma at_end fuel f c pk P raw off data d : pack_ok f c pk P -> P <> [] -> parses fuel P raw off data -> cache d = pk -> seen d = 1 ->
  finish fuel d = Ok (after raw off data d [] 0).
Proof.
  intros HP HN HPar Hc Hs. destruct (frame_shape f c pk P HP HN) as (b0 & r & -> & U0 & UR & BB & _). destruct HP as [P1 P2].
  unfold finish, parsePES. rewrite Hc, Hs. cbn [negb andb]. change (1 =? 2) with false. cbn [andb]. rewrite until_start_none by exact UR.
  change (S (List.length r)) with (List.length (b0 :: r)). rewrite firstn_all, skipn_all.
  rewrite (collect_ok (b0 :: r) P f c 0 (getContinuityCounter b0 - 1)).
  - unfold parses in HPar. specialize (HPar (mkdmx [] (1 - 1) (lastms d) (rollover d) (outp d))). cbn [lastms rollover outp cache seen] in HPar. unfold after.
    destruct (unroll raw (lastms d) (rollover d)) as [ts roll]. exact HPar.
  - exact P1.
  - intros j Hj. rewrite Z.add_0_l. now apply P2.
  - lia.
  - pose proof (P2 0 ltac:(rewrite len_cons; pose proof (len_nonneg r); lia)) as Q. exact (cc_pred _ _ _ _ Q).
Qed.
Lemma more fuel : forall r d, Forall (fun x => getUnitStart x = false) r -> cache d <> [] ->
  parse_all fuel r d = Ok (mkdmx (cache d ++ r) (seen d) (lastms d) (rollover d) (outp d)).
Proof.
  induction r as [|b r IH]; intros d HF Hc; cbn [parse_all].
  - rewrite app_nil_r. now destruct d.
  - inversion HF as [|? ? HB HR]; subst. unfold parse_packet. rewrite HB. cbn [orb].
    assert (E : negb (Z.of_nat (List.length (cache d)) =? 0) = true) by (destruct (cache d); [contradiction|reflexivity]). rewrite E.
    rewrite IH; [|exact HR|cbn [cache]; destruct (cache d); discriminate]. cbn [cache seen lastms rollover outp]. now rewrite <- app_assoc.
Qed.
Lemma first_frame fuel f c pk P d : pack_ok f c pk P -> P <> [] -> cache d = [] -> seen d = 0 ->
  parse_all fuel pk d = Ok (mkdmx pk 1 (lastms d) (rollover d) (outp d)).
Proof.
  intros HP HN Hc Hs. destruct (frame_shape f c pk P HP HN) as (b0 & r & -> & U0 & UR & BB & _). cbn [parse_all].
  unfold parse_packet. rewrite U0, Hc, Hs. cbn [orb app seen]. change (Z.to_nat (0 + 1)) with 1%nat. cbn [parse_tid seen]. change (1 <? 0 + 1) with false. cbn match.
  rewrite more; [reflexivity|exact UR|discriminate].
Qed.
Lemma next_frame fuel f c pk P raw off data d f' c' pk' P' : pack_ok f c pk P -> P <> [] -> parses fuel P raw off data -> cache d = pk -> seen d = 1 ->
  pack_ok f' c' pk' P' -> P' <> [] -> parse_all fuel pk' d = Ok (after raw off data d pk' 1).
Proof.
  intros HP HN HPar Hc Hs HP' HN'. destruct (frame_shape f' c' pk' P' HP' HN') as (b0 & r & -> & U0 & UR & BB & _). cbn [parse_all].
  rewrite (next_start fuel f c pk P raw off data d b0 HP HN HPar Hc Hs U0).
  rewrite more; [|exact UR|unfold after; destruct (unroll raw (lastms d) (rollover d)); discriminate].
  unfold after. destruct (unroll raw (lastms d) (rollover d)). reflexivity.
Qed.

(** A whole stream of frames. *)
Record fr := mkfr { fpack : list (list Z); fpes : list Z; fraw : Z; foff : Z; fdata : list Z }.
Definition fr_ok (fuel : nat) (x : fr) : Prop := (exists f c, pack_ok f c (fpack x) (fpes x)) /\ fpes x <> [] /\ parses fuel (fpes x) (fraw x) (foff x) (fdata x).
Fixpoint produced (l : list fr) (d : demux) : demux :=
  match l with [] => d | x :: r => produced r (after (fraw x) (foff x) (fdata x) d [] 0) end.
Lemma after_cache raw off data d c s c' s' : after raw off data (mkdmx c s (lastms d) (rollover d) (outp d)) c' s' = after raw off data d c' s'.
Proof. reflexivity. Qed.
Lemma produced_cache l d : forall c s, l <> [] -> produced l (mkdmx c s (lastms d) (rollover d) (outp d)) = produced l d.
Proof. intros c s H. destruct l; [contradiction|]. cbn [produced]. now rewrite after_cache. Qed.
Lemma parse_all_app fuel a b d : parse_all fuel (a ++ b) d = match parse_all fuel a d with Ok d' => parse_all fuel b d' | Oob => Oob | Hang => Hang end.
Proof. revert d. induction a as [|x a IH]; intros d; cbn [parse_all app]; [reflexivity|]. destruct (parse_packet fuel x d); [apply IH|reflexivity|reflexivity]. Qed.
Lemma demux_tail fuel : forall l x d, Forall (fr_ok fuel) (x :: l) -> cache d = fpack x -> seen d = 1 ->
  exists d', parse_all fuel (concat (map fpack l)) d = Ok d' /\ finish fuel d' = Ok (produced (x :: l) d).
Proof.
  induction l as [|y l IH]; intros x d HF Hc Hs; inversion HF as [|? ? HX HR]; subst; destruct HX as ((f & c & HP) & HN & HPar); cbn [map concat].
  - exists d. split; [reflexivity|]. now apply (at_end fuel f c (fpack x) (fpes x)).
  - inversion HR as [|? ? HY HR']; subst. destruct HY as ((f' & c' & HP') & HN' & HPar').
    rewrite parse_all_app. rewrite (next_frame fuel f c (fpack x) (fpes x) (fraw x) (foff x) (fdata x) d f' c' (fpack y) (fpes y)) by assumption.
    destruct (IH y (after (fraw x) (foff x) (fdata x) d (fpack y) 1) HR) as (d' & E1 & E2).
    + unfold after. now destruct (unroll (fraw x) (lastms d) (rollover d)).
    + unfold after. now destruct (unroll (fraw x) (lastms d) (rollover d)).
    + exists d'. split; [exact E1|]. rewrite E2. f_equal. cbn [produced]. unfold after. destruct (unroll (fraw x) (lastms d) (rollover d)). reflexivity.
Qed.
Lemma demux_all fuel l : Forall (fr_ok fuel) l -> l <> [] -> exists d', parse_all fuel (concat (map fpack l)) demux0 = Ok d' /\ finish fuel d' = Ok (produced l demux0).
Proof.
  intros HF Hn. destruct l as [|x l]; [contradiction|]. inversion HF as [|? ? HX HR]; subst. destruct HX as ((f & c & HP) & HN & HPar). cbn [map concat].
  rewrite parse_all_app. rewrite (first_frame fuel f c (fpack x) (fpes x)) by (assumption || reflexivity).
  destruct (demux_tail fuel l x (mkdmx (fpack x) 1 (lastms demux0) (rollover demux0) (outp demux0)) HF eq_refl eq_refl) as (d' & E1 & E2).
  exists d'. split; [exact E1|]. rewrite E2. reflexivity.
Qed.

(** ** Times *)
Lemma ms_range t : 0 <= ms_of t <= 95443717.
Proof. unfold ms_of. assert (0 <= t mod 2 ^ 33 < 2 ^ 33) by (apply Z.mod_pos_bound; lia). change (2 ^ 33) with 8589934592 in *. generalize dependent (t mod 8589934592). intros. lia. Qed.
Definition stampd (t : Z) (x : fr) : Z * Z * list Z := (unwrapped t, foff x, fdata x).
Lemma produced_times : forall l ts t0 d, steady t0 ts -> 0 <= t0 -> Forall (fun t => 90 * t < 2 ^ 64) ts -> map fraw l = map (fun t => ms_of (90 * t)) ts ->
  lastms d = unwrapped t0 -> rollover d = 90 * t0 / 2 ^ 33 ->
  outp (produced l d) = outp d ++ map (fun '(t, x) => stampd t x) (combine ts l).
Proof.
  induction l as [|x l IH]; intros ts t0 d HS H0 HU HM HL HR; destruct ts as [|t ts]; try discriminate; cbn [produced combine map].
  - now rewrite app_nil_r.
  - cbn [map] in HM. assert (E1 : fraw x = ms_of (90 * t)) by congruence. assert (E2 : map fraw l = map (fun t => ms_of (90 * t)) ts) by congruence. clear HM.
    destruct HS as (S1 & S2 & S3). inversion HU as [|? ? U1 U2]; subst.
    assert (B : unwrapped t < 2 ^ 64).
    { pose proof (unwrapped_close t ltac:(lia)). assert (90 * t / 2 ^ 33 <= t) by (apply Z.div_le_upper_bound; lia). lia. }
    pose proof (unroll_ok t0 t ltac:(lia) S1 S2 B) as U. unfold after. rewrite HL, HR, E1. unfold ms_of. rewrite U.
    rewrite (IH ts t) by (assumption || lia || reflexivity). cbn [outp]. rewrite <- app_assoc. reflexivity.
Qed.
Lemma produced_times0 l ts : steady_times ts -> Forall (fun t => 90 * t < 2 ^ 64) ts -> map fraw l = map (fun t => ms_of (90 * t)) ts ->
  outp (produced l demux0) = map (fun '(t, x) => stampd t x) (combine ts l).
Proof.
  intros HS HU HM. destruct l as [|x l], ts as [|t ts]; try discriminate; [reflexivity|]. cbn [map] in HM.
  assert (E1 : fraw x = ms_of (90 * t)) by congruence. assert (E2 : map fraw l = map (fun t => ms_of (90 * t)) ts) by congruence. clear HM.
  destruct HS as (S1 & S2 & S3). inversion HU as [|? ? U1 U2]; subst. cbn [produced combine map].
  assert (T : unroll (fraw x) (lastms demux0) (rollover demux0) = (unwrapped t, 90 * t / 2 ^ 33)).
  { rewrite E1. unfold ms_of. rewrite unwrapped_small by lia. rewrite (Z.mod_small (90 * t)) by lia. rewrite (Z.div_small _ (2 ^ 33)) by lia. rewrite Z.mul_comm, Z.div_mul by lia.
    unfold unroll. cbn [lastms rollover demux0]. change (0 * TS_PTS_ROLLOVER) with 0. rewrite Z.add_0_r. unfold u64. change (2 ^ 33) with 8589934592 in *. rewrite Z.mod_small by lia.
    destruct (Z.ltb_spec t 0); [lia|]. reflexivity. }
  unfold after. rewrite T. rewrite (produced_times l ts t) by (assumption || lia || reflexivity). reflexivity.
Qed.

(** ** Several tracks through one packetizer *)
Inductive sent : (Z -> Z) -> list (meta * list (list Z)) -> list (list (list Z)) -> Prop :=
| sent_nil c : sent c [] []
| sent_cons c f ch pk r pks : pack_ok f (c (pid f)) pk (concat ch) -> c (pid f) = u16 (c (pid f)) ->
    sent (fun q => if q =? pid f then u16 (c (pid f) + len pk) else c q) r pks -> sent c ((f, ch) :: r) (pk :: pks).
Lemma u16_u16 x : u16 (u16 x) = u16 x.
Proof. unfold u16. now rewrite Z.mod_mod by lia. Qed.
Definition frame_in (x : meta * list (list Z)) : Prop := meta_ok (fst x) /\ Forall (fun c => bytesP c /\ len c < 2147483648) (snd x).
Lemma send_all_ok : forall l c m, Forall frame_in l -> (forall q, c q = u16 (c q)) -> ppos (mpk m) = 4 ->
  exists m' pks, send_all l c m = Some m' /\ msent m' = msent m ++ concat pks /\ sent c l pks.
Proof.
  induction l as [|[f ch] l IH]; intros c m HF HC HP; cbn [send_all].
  - exists m, []. split; [reflexivity|]. split; [now rewrite app_nil_r|constructor].
  - inversion HF as [|? ? [H1 H2] HR]; subst. cbn [fst snd] in *.
    destruct (send_frame_ok f ch (mkmux (mpk m) (mfirst m) (c (pid f)) (msent m)) H1 H2 HP (HC (pid f))) as (m1 & pk & E & E1 & E2 & E3 & E4). rewrite E. cbn [msent mcont mpk] in *.
    destruct (IH (fun q => if q =? pid f then mcont m1 else c q) m1 HR) as (m2 & pks & F1 & F2 & F3).
    + intros q. destruct (q =? pid f); [rewrite E3; now rewrite u16_u16|apply HC].
    + exact E2.
    + exists m2, (pk :: pks). split; [exact F1|]. split; [rewrite F2, E1; cbn [concat]; now rewrite app_assoc|].
      constructor; [exact E4|apply HC|]. rewrite <- E3. exact F3.
Qed.

Lemma pack_all f c pk d : pack_ok f c pk d -> Forall (fun x => buf_ok x /\ getPID x = pid f) pk.
Proof.
  intros [_ P2]. apply Forall_forall. intros x Hx. apply (In_nth _ _ []) in Hx. destruct Hx as (k & Hk & E).
  pose proof (P2 (Z.of_nat k) ltac:(unfold len; lia)) as Q. unfold nthb in Q. rewrite Nat2Z.id, E in Q. split; [apply Q|]. rewrite view_pid by apply Q. apply Q.
Qed.
Lemma filter_pack f c pk d p : pack_ok f c pk d -> filter (fun b => getPID b =? p) pk = if pid f =? p then pk else [].
Proof.
  intros H. pose proof (pack_all _ _ _ _ H) as HF. clear H. induction HF as [|x l [_ Hx] _ IH]; cbn [filter]; [now destruct (pid f =? p)|]. rewrite Hx.
  destruct (pid f =? p) eqn:E; [f_equal; exact IH|exact IH].
Qed.

(** Continuity counters per PID. *)
Lemma counters_app c a b : counters c (a + b) = counters c a ++ counters (c + Z.of_nat a) b.
Proof.
  unfold counters. rewrite seq_app, map_app. f_equal. cbn [Nat.add].
  assert (G : forall b a k, map (fun i => (c + 1 + Z.of_nat i) mod 16) (seq (a + k) b) = map (fun i => (c + Z.of_nat a + 1 + Z.of_nat i) mod 16) (seq k b)).
  { clear b. intros b a' k. revert k. induction b as [|b IH]; intros k; [reflexivity|]. cbn [seq map]. f_equal; [f_equal; lia|]. rewrite <- IH. now rewrite Nat.add_succ_r. }
  rewrite <- (G b a O). now rewrite Nat.add_0_r.
Qed.
Lemma counters_mod c c' n : c mod 16 = c' mod 16 -> counters c n = counters c' n.
Proof. intros H. unfold counters. apply map_ext. intros i. rewrite <- (Z.add_assoc c), <- (Z.add_assoc c'). rewrite Z.add_mod, H, <- Z.add_mod by lia. reflexivity. Qed.
Lemma pack_counters f c pk d : pack_ok f c pk d -> map (fun b => counter (view b)) pk = counters c (List.length pk).
Proof.
  intros [_ P2]. apply (nth_ext _ _ 0 0); [unfold counters; now rewrite !map_length, seq_length|].
  intros n Hn. rewrite map_length in Hn. unfold counters. rewrite (nth_indep _ 0 (counter (view []))) by (rewrite map_length; lia). rewrite (map_nth (fun b => counter (view b))).
  rewrite (nth_indep _ 0 ((c + 1 + Z.of_nat O) mod 16)) by (rewrite map_length, seq_length; lia). rewrite (map_nth (fun i => (c + 1 + Z.of_nat i) mod 16)). rewrite seq_nth by lia.
  pose proof (P2 (Z.of_nat n) ltac:(unfold len; lia)) as Q. unfold nthb in Q. rewrite Nat2Z.id in Q. apply Q.
Qed.
Lemma sent_counters p : forall c l pks, sent c l pks ->
  map (fun b => counter (view b)) (filter (fun b => getPID b =? p) (concat pks)) = counters (c p) (List.length (filter (fun b => getPID b =? p) (concat pks))).
Proof.
  induction 1 as [c|c f ch pk r pks H1 H2 H3 IH]; [reflexivity|]. cbn [concat]. rewrite filter_app, map_app, app_length.
  rewrite (filter_pack _ _ _ _ p H1). rewrite IH. rewrite (Z.eqb_sym p). destruct (Z.eqb_spec (pid f) p) as [E|E]; [|reflexivity].
  rewrite counters_app. rewrite E in *. f_equal; [now apply (pack_counters f (c p) pk (concat ch))|]. apply counters_mod. unfold u16, len. lia.
Qed.
Lemma pack_starts f c pk d : pack_ok f c pk d -> map (fun b => unit_start (view b)) pk = starts (List.length pk).
Proof.
  intros [_ P2]. destruct pk as [|b r]; [reflexivity|]. pose proof (len_nonneg r). cbn [map List.length starts]. f_equal.
  - exact (h_start _ _ _ _ (P2 0 ltac:(rewrite len_cons; lia))).
  - assert (G : forall x, In x r -> unit_start (view x) = 0).
    { intros x Hx. apply (In_nth _ _ []) in Hx. destruct Hx as (k & Hk & E).
      pose proof (P2 (Z.of_nat k + 1) ltac:(rewrite len_cons; unfold len in *; lia)) as Q. unfold nthb in Q. replace (Z.to_nat (Z.of_nat k + 1)) with (S k) in Q by lia. cbn [nth] in Q. rewrite E in Q.
      rewrite (h_start _ _ _ _ Q). destruct (Z.eqb_spec (Z.of_nat k + 1) 0); [lia|reflexivity]. }
    clear - G. induction r as [|x r IH]; [reflexivity|]. cbn [map List.length repeat]. f_equal; [apply G; now left|]. apply IH. intros y Hy. apply G. now right.
Qed.
Lemma pack_carries f c pk d : pack_ok f c pk d -> carries (pid f) c d pk.
Proof.
  intros H. split.
  - apply Forall_forall. intros x Hx. pose proof Hx as Hx'. destruct H as [P1 P2]. apply (In_nth _ _ []) in Hx. destruct Hx as (k & Hk & E).
    pose proof (P2 (Z.of_nat k) ltac:(unfold len; lia)) as Q. unfold nthb in Q. rewrite Nat2Z.id, E in Q. destruct (h_buf _ _ _ _ Q). split; [assumption|]. split; [assumption|]. split; [apply Q|].
    clear - P1 Hx'. revert d P1. induction pk as [|b r IH]; intros d P1; [contradiction|]. cbn [payloads] in P1. destruct (payload b) as [y|] eqn:EY; [|discriminate]. destruct (payloads r) as [z|] eqn:EZ; [|discriminate].
    destruct Hx' as [-> |Hx']; [now exists y|]. now apply (IH Hx' z).
  - apply Forall_forall. intros x Hx. destruct H as [P1 P2]. apply (In_nth _ _ []) in Hx. destruct Hx as (k & Hk & E).
    pose proof (P2 (Z.of_nat k) ltac:(unfold len; lia)) as Q. unfold nthb in Q. rewrite Nat2Z.id, E in Q. destruct Q. repeat split; assumption.
  - now apply (pack_counters f c pk d).
  - now apply (pack_starts f c pk d).
  - apply H.
Qed.

(** ** sendNext's pieces *)
Definition media_off (x : media) : Z := match mkind x with Video off => off | Other _ => 0 end.
(** Conditions on a frame: 13 bit PID, times that fit, data small enough for its PES header, and an
    offset that does not straddle the wrap of the 33 bit clock. *)
Definition media_ok (x : media) : Prop :=
  meta_ok (mmeta x) /\ bytesP (mdata x) /\ len (mdata x) < 2147483648 /\ 0 <= mbps x < 2 ^ 64 /\
  match mkind x with
  | Video off => 0 <= off /\ 90 * time (mmeta x) mod 2 ^ 33 + 90 * off < 2 ^ 33 /\ 90 * (time (mmeta x) + off) < 2 ^ 64
  | Other sid => byteP sid /\ len (mdata x) < 65520
  end.
Definition pes_of (x : media) : list Z :=
  let t := 90 * time (mmeta x) in
  match mkind x with
  | Video off => pes 0xE0 false true (t + 90 * off) (if off =? 0 then None else Some t) (rate_bytes (mbps x)) (mdata x)
  | Other sid => pes sid true true t None (rate_bytes (mbps x)) (mdata x)
  end.
Lemma time_bound x : media_ok x -> 0 <= time (mmeta x) /\ 90 * time (mmeta x) < 2 ^ 64.
Proof. intros ((_ & H1 & H2) & _). lia. Qed.
Lemma chunks_pes x : media_ok x -> concat (sendNext_chunks x) = pes_of x.
Proof.
  intros H. pose proof (time_bound x H) as [T1 T2]. destruct H as (HM & HB & HL & HP & HK). unfold sendNext_chunks, pes_of.
  pose proof (len_nonneg (mdata x)).
  assert (E : u64 (time (mmeta x) * 90) = 90 * time (mmeta x)) by (unfold u64; rewrite Z.mod_small by (clear - T1 T2; lia); lia). rewrite E.
  destruct (mkind x) as [off|sid]; cbn [concat]; rewrite app_nil_r.
  - destruct HK as (K1 & K2 & K3). assert (EO : u64 (off * 90) = 90 * off) by (unfold u64; rewrite Z.mod_small by (clear - K1 K3 T1; lia); lia). rewrite EO.
    rewrite (video_pes false true (90 * time (mmeta x)) (90 * off) (mbps x) (mdata x)) by (discriminate || lia).
    replace (90 * off =? 0) with (off =? 0); [reflexivity|]. destruct (Z.eqb_spec off 0), (Z.eqb_spec (90 * off) 0); reflexivity || lia.
  - destruct HK as (K1 & K2). unfold u32. rewrite Z.mod_small by (clear - K2 H; lia). apply leadin_pes. clear - K2. lia.
Qed.
Lemma htob24_bytes v : bytesP (htob24 v).
Proof. unfold htob24. set (w := u64 v). rewrite !land_ff. unfold bytesP, byteP. assert (forall x, 0 <= x mod 256 < 256) by (intros; apply Z.mod_pos_bound; lia). repeat constructor; apply H. Qed.
Lemma rate_ok bps : bytesP (rate_bytes bps) /\ (len (rate_bytes bps) = 0 \/ len (rate_bytes bps) = 3).
Proof. split; [unfold rate_bytes; dif; [apply htob24_bytes|constructor]|rewrite rate_len; dif; [now right|now left]]. Qed.
Lemma pes_of_parses x k : media_ok x -> parses (S (S k)) (pes_of x) (ms_of (90 * time (mmeta x))) (media_off x) (mdata x).
Proof.
  intros H d. pose proof (time_bound x H) as [T1 T2]. destruct H as (HM & HB & HL & HP & HK). pose proof (len_nonneg (mdata x)). destruct (rate_ok (mbps x)) as [R1 R2].
  unfold pes_of, media_off. destruct (mkind x) as [off|sid].
  - destruct HK as (K1 & K2 & K3).
    assert (OF : (90 * time (mmeta x) + 90 * off) mod 2 ^ 33 = 90 * time (mmeta x) mod 2 ^ 33 + 90 * off).
    { rewrite Z.add_mod by lia. assert (0 <= 90 * time (mmeta x) mod 2 ^ 33) by (apply Z.mod_pos_bound; lia). rewrite (Z.mod_small (90 * off)) by lia. apply Z.mod_small. lia. }
    assert (MS : ms_of (90 * time (mmeta x) + 90 * off) = ms_of (90 * time (mmeta x)) + off).
    { unfold ms_of. rewrite OF. replace (90 * time (mmeta x) mod 2 ^ 33 + 90 * off) with (90 * time (mmeta x) mod 2 ^ 33 + off * 90) by lia. apply Z.div_add. lia. }
    assert (D : dts_of (90 * time (mmeta x) + 90 * off) (if off =? 0 then None else Some (90 * time (mmeta x))) = 90 * time (mmeta x)) by (destruct (Z.eqb_spec off 0); cbn [dts_of]; lia).
    pose proof (pes_one 0xE0 false true (90 * time (mmeta x) + 90 * off) (if off =? 0 then None else Some (90 * time (mmeta x))) (rate_bytes (mbps x)) (mdata x) d k R2) as Q.
    rewrite D, MS in Q. replace (ms_of (90 * time (mmeta x)) + off - ms_of (90 * time (mmeta x))) with off in Q by lia.
    destruct (unroll (ms_of (90 * time (mmeta x))) (lastms d) (rollover d)) as [ts roll]. apply Q; try assumption; try discriminate; [clear - HL; lia|].
    intros y Hy. destruct (off =? 0); [discriminate|]. assert (y = 90 * time (mmeta x)) by congruence. subst y. lia.
  - destruct HK as (K1 & K2).
    pose proof (pes_one sid true true (90 * time (mmeta x)) None (rate_bytes (mbps x)) (mdata x) d k R2) as Q. cbn [dts_of] in Q. rewrite Z.sub_diag in Q.
    destruct (unroll (ms_of (90 * time (mmeta x))) (lastms d) (rollover d)) as [ts roll]. apply Q; try assumption; try discriminate; [clear - K2; lia|clear - K2; lia].
Qed.
Lemma pes_nonempty x : pes_of x <> [].
Proof. unfold pes_of, pes. destruct (mkind x); discriminate. Qed.
Lemma bapp a b : bytesP a -> bytesP b -> bytesP (a ++ b).
Proof. intros. now apply Forall_app. Qed.
Lemma pes_leadin_bytes x : media_ok x -> frame_in (mmeta x, sendNext_chunks x).
Proof.
  intros H. pose proof (chunks_pes x H) as EC. pose proof (time_bound x H) as [T1 T2]. pose proof H as (HM & HB & HL & HP & HK). pose proof (len_nonneg (mdata x)).
  split; [exact HM|]. cbn [fst snd].
  assert (G : forall h, concat [h; mdata x] = pes_of x -> len h < 2147483648 -> Forall (fun c => bytesP c /\ len c < 2147483648) [h; mdata x]).
  { intros h Eh Lh. constructor; [|constructor; [now split|constructor]]. split; [|exact Lh]. cbn [concat] in Eh. rewrite app_nil_r in Eh.
    assert (BP : bytesP (pes_of x)).
    { destruct (rate_ok (mbps x)) as [R1 R2]. unfold pes_of, pes.
      assert (BE : forall v, bytesP (be 2 v)) by (intros; rewrite be2; unfold bytesP, byteP; repeat constructor; apply Z.mod_pos_bound; lia).
      destruct (mkind x) as [off|sid].
      - destruct (off =? 0); (apply bapp; [unfold bytesP, byteP; repeat constructor; lia|]); (apply bapp; [apply BE|]); rewrite ?len_app, ?stamp_len;
        (apply bapp; [unfold bytesP, byteP; repeat constructor; try lia; destruct (rate_bytes (mbps x)); lia|]); (apply bapp; [|exact HB]); (apply bapp; [|exact R1]); try (apply bapp); apply stamp_bytes; lia.
      - destruct HK as [K1 K2]. unfold byteP in K1. (apply bapp; [unfold bytesP, byteP; repeat constructor; lia|]); (apply bapp; [apply BE|]); rewrite ?len_app, ?stamp_len;
        (apply bapp; [unfold bytesP, byteP; repeat constructor; try lia; destruct (rate_bytes (mbps x)); lia|]); (apply bapp; [|exact HB]); (apply bapp; [|exact R1]); apply stamp_bytes; lia. }
    rewrite <- Eh in BP. apply Forall_app in BP; tauto. }
  unfold sendNext_chunks in *. destruct (mkind x) as [off|sid]; apply G; try assumption.
  - unfold getPESVideoLeadIn. repeat match goal with |- context [if ?b then _ else _] => destruct b end; reflexivity.
  - unfold getPESLeadIn. repeat match goal with |- context [if ?b then _ else _] => destruct b end; reflexivity.
Qed.

(** ** End to end *)
Definition on_pid (p : Z) (x : media) : bool := pid (mmeta x) =? p.
Lemma sent_frames p k : forall l c pks, Forall media_ok l -> sent c (map (fun x => (mmeta x, sendNext_chunks x)) l) pks ->
  exists frs, filter (fun b => getPID b =? p) (concat pks) = concat (map fpack frs) /\ Forall (fr_ok (S (S k))) frs /\
  map fraw frs = map (fun t => ms_of (90 * t)) (map (fun x => time (mmeta x)) (filter (on_pid p) l)) /\
  map (fun x => (foff x, fdata x)) frs = map (fun x => (media_off x, mdata x)) (filter (on_pid p) l).
Proof.
  induction l as [|x l IH]; intros c pks HF HS; cbn [map] in HS; inversion HS as [|? f ch pk r pks' P1 P2 P3]; subst.
  - exists []. repeat split; constructor.
  - inversion HF as [|? ? HX HR]; subst. destruct (IH _ _ HR P3) as (frs & F1 & F2 & F3 & F4). cbn [concat filter]. rewrite filter_app, (filter_pack _ _ _ _ p P1), F1.
    change (on_pid p x) with (pid (mmeta x) =? p). destruct (pid (mmeta x) =? p).
    + exists (mkfr pk (pes_of x) (ms_of (90 * time (mmeta x))) (media_off x) (mdata x) :: frs). cbn [map concat fpack fraw foff fdata]. split; [reflexivity|].
      split; [|split; [now rewrite F3|now rewrite F4]]. constructor; [|exact F2]. split; [|split; [apply pes_nonempty|now apply pes_of_parses]].
      exists (mmeta x), (c (pid (mmeta x))). cbn [fpack fpes]. rewrite <- chunks_pes by exact HX. exact P1.
    + exists frs. repeat split; assumption.
Qed.
Lemma round_trip p k l c : Forall media_ok l -> (forall q, c q = u16 (c q)) -> steady_times (map (fun x => time (mmeta x)) (filter (on_pid p) l)) ->
  exists m d d', sendNext_all l c mux0 = Some m /\ parse_all (S (S k)) (filter (fun b => getPID b =? p) (msent m)) demux0 = Ok d /\ finish (S (S k)) d = Ok d' /\
  outp d' = map (fun x => (unwrapped (time (mmeta x)), media_off x, mdata x)) (filter (on_pid p) l).
Proof.
  intros HF HC HS. unfold sendNext_all.
  destruct (send_all_ok (map (fun x => (mmeta x, sendNext_chunks x)) l) c mux0) as (m & pks & E1 & E2 & E3); [|exact HC|reflexivity|].
  { apply Forall_forall. intros y Hy. apply in_map_iff in Hy. destruct Hy as (x & <- & Hx). rewrite Forall_forall in HF. now apply pes_leadin_bytes, HF. }
  cbn [msent mux0 app] in E2. destruct (sent_frames p k l c pks HF E3) as (frs & F1 & F2 & F3 & F4). rewrite <- E2 in F1.
  assert (HU : Forall (fun t => 90 * t < 2 ^ 64) (map (fun x => time (mmeta x)) (filter (on_pid p) l))).
  { apply Forall_forall. intros t Ht. apply in_map_iff in Ht. destruct Ht as (x & <- & Hx). apply filter_In in Hx. rewrite Forall_forall in HF. apply time_bound, HF, Hx. }
  pose proof (produced_times0 frs _ HS HU F3) as PT.
  assert (OUT : outp (produced frs demux0) = map (fun x => (unwrapped (time (mmeta x)), media_off x, mdata x)) (filter (on_pid p) l)).
  { rewrite PT. clear - F4. set (ll := filter (on_pid p) l) in *. clearbody ll. revert ll F4. induction frs as [|y frs IH]; intros [|x ll] F4; try discriminate; [reflexivity|].
    cbn [map combine] in *. assert (EF : foff y = media_off x /\ fdata y = mdata x) by (split; congruence). destruct EF as [EF1 EF2]. f_equal; [unfold stampd; now rewrite EF1, EF2|]. apply IH. congruence. }
  destruct frs as [|y frs].
  - exists m, demux0, demux0. rewrite F1. split; [exact E1|]. split; [reflexivity|]. split; [reflexivity|exact OUT].
  - destruct (demux_all (S (S k)) (y :: frs) F2 ltac:(discriminate)) as (d & D1 & D2). exists m, d, (produced (y :: frs) demux0). rewrite F1. repeat split; assumption.
Qed.
