(** C64: packets found in received data, and the tables that tell what is in them. *)
From Verif Require Import Common CommonFacts CommonMore Mem_Model Crc_Model Crc_Spec Crc_Proofs Crc_Props Ts_Model Ts_Spec Ts_Proofs Ts_Pes_Proofs Ts_Demux_Proofs Ts_Props Outcome_Model Psi_Model Psi_Spec Psi_Proofs Psi_WProofs.
Import List.
Ltac Zify.zify_post_hook ::= Z.div_mod_to_equations.

(** ** Packets. *)
(** A stream of packets, received in any pieces: each packet that is complete is handed on once, in order, with its position; the
    beginning of the next one is kept. *)
Theorem psi_assemble : forall ds ps rest, Forall ts_packet ps -> List.concat ds ++ rest = List.concat ps -> len (List.concat ps) < 2 ^ 64 ->
  exists whole more part, ps = whole ++ more /\ List.concat ds = List.concat whole ++ part /\ len part < 188 /\ assemble_all [] ds 0 = (placed 0 whole, part).
Proof.
  intros ds ps rest F E L. rewrite <- E, len_app in L. pose proof (len_nonneg rest).
  destruct (assemble_run ds ps [] rest 0 F ltac:(reflexivity) E ltac:(change (len (@nil Z)) with 0; lia) ltac:(lia)) as (a & b & t & E1 & E2 & E3 & E4 & E5).
  exists a, b, t. repeat (split; [assumption |]). exact E5.
Qed.
(** Bytes before the first packet are skipped if none of them is the sync byte. *)
Theorem psi_assemble_junk : forall ds junk ps rest, Forall (fun x => x <> 0x47) junk -> Forall ts_packet ps -> List.concat ds ++ rest = junk ++ List.concat ps -> len junk <= len (List.concat ds) ->
  len (junk ++ List.concat ps) < 2 ^ 64 ->
  exists whole more part, ps = whole ++ more /\ List.concat ds = junk ++ List.concat whole ++ part /\ len part < 188 /\ assemble_all [] ds 0 = (placed (len junk) whole, part).
Proof.
  intros ds j ps rest FJ F E LJ L. rewrite <- E, len_app in L. pose proof (len_nonneg rest).
  destruct (assemble_junk ds j ps rest 0 FJ F E ltac:(lia) ltac:(lia) ltac:(lia) LJ) as (a & b & t & E1 & E2 & E3 & E4 & E5). exists a, b, t. repeat (split; [assumption |]). exact E5.
Qed.
Example psi_assemble_case : let p n := 0x47 :: repeat n 187 in
  assemble_all [] [p 1 ++ takez 100 (p 2); dropz 100 (p 2) ++ takez 1 (p 3); takez 187 (dropz 1 (p 3)) ++ takez 2 (p 4)] 0 = ([(0, p 1); (188, p 2); (376, p 3)], takez 2 (p 4)).
Proof. reflexivity. Qed.
(** Data that is not aligned can do lasting harm: a byte 0x47 left over from before a loss of synchronisation stays, although the
    packets after it come whole; when one of those ends in a byte 0x47, a packet that was never sent is handed on in its place (F147). *)
Theorem psi_stale_refuted : let p := 0x47 :: repeat 0 187 in let q := 0x47 :: repeat 0 186 ++ [0x47] in
  ts_packet p /\ ts_packet q /\ assemble_all [] [[0x47]; p; p; q] 0 = ([(1, p); (189, p); (376, 0x47 :: 0x47 :: repeat 0 186)], [0x47]).
Proof. split; [split; reflexivity |]. split; [split; reflexivity | reflexivity]. Qed.

(** ** Reading. *)
Lemma learn_pid b : valid b -> getPID b = pid_ (view b).
Proof. intros (B & L & _). apply view_pid. split; assumption. Qed.
Lemma learn_us b sec : holds b sec -> getUnitStart b = true.
Proof. intros ((B & L & _) & U & _). rewrite view_us by (split; assumption). now apply Z.eqb_eq. Qed.
(** A list of programs, wherever in the packet it is: the PIDs of all tables are known from then on, and nothing else changes. *)
Theorem psi_pat_read : forall raw b s id version programs crc, holds b (pat_section id version programs crc) -> pid_ (view b) = 0 -> Forall (fun x => 0 <= snd x < 8192) programs ->
  exists s', learn raw s b = Ok s' /\ (forall pid, In pid (k_pmt s') <-> In pid (map snd programs) \/ In pid (k_pmt s)) /\ k_codec s' = k_codec s /\ k_init s' = k_init s.
Proof.
  intros raw b s id version programs crc H P F. unfold learn. rewrite (learn_pid b (proj1 H)), P, (learn_us _ _ H). change (0 =? 0) with true. cbv iota.
  rewrite (parsePIDs_ok b id version programs crc (k_pmt s) H F). eexists. split; [reflexivity |]. cbn [k_pmt k_codec k_init]. split; [| split; reflexivity].
  intros pid. rewrite in_app_iff, <- in_rev. reflexivity.
Qed.
(** A program's table: every stream it lists is known by its codec and descriptors as described, and nothing else changes. *)
Theorem psi_pmt_read : forall raw b s program version clock info es crc, holds b (pmt_section program version clock info es crc) -> len crc = 4 -> Forall stream_ok es ->
  In (pid_ (view b)) (k_pmt s) -> pid_ (view b) <> 0 -> pid_ (view b) <> 1 ->
  exists s', learn raw s b = Ok s' /\ k_pmt s' = k_pmt s /\ (forall pid, k_codec s' pid = codec_after raw es pid (k_codec s pid)) /\ (forall pid, k_init s' pid = init_after raw es pid (k_init s pid)).
Proof.
  intros raw b s program version clock info es crc H LC F IN P0 P1. unfold learn. rewrite (learn_pid b (proj1 H)), (learn_us _ _ H).
  replace (pid_ (view b) =? 0) with false by (symmetry; now apply Z.eqb_neq). replace (pid_ (view b) =? 1) with false by (symmetry; now apply Z.eqb_neq).
  replace (existsb (Z.eqb (pid_ (view b))) (k_pmt s)) with true by (symmetry; apply existsb_exists; exists (pid_ (view b)); split; [exact IN | apply Z.eqb_refl]).
  rewrite (parsePMT_ok raw b s program version clock info es crc H LC F). eexists. split; [reflexivity |]. split; [apply fold_pmt |]. split; intros pid; [apply fold_codec | apply fold_init].
Qed.
(** What is not checked: a length that reaches past the packet is followed, and so is the length of a descriptor (F148). *)
Theorem psi_pmt_overread_refuted : let p n l := [0x47; 0x50; 0; 0x10; 0; 2; 0xB0 + n; l; 0; 1; 1; 0; 0; 0xE1; 0; 0xF0; 0] ++ repeat 0 171 in
  let s := mkknown [4096] (fun _ => None) (fun _ => None) in
  ts_packet (p 0 13) /\ learn 0 s (p 15 255) = Ub /\
  learn 0 s ([0x47; 0x50; 0; 0x10; 0; 2; 0xB0; 20; 0; 1; 1; 0; 0; 0xE1; 0; 0xF0; 0; 6; 0xE1; 0; 0xF0; 2; 5; 4] ++ repeat 0 164) = Ub.
Proof. split; [split; reflexivity |]. split; vm_compute; reflexivity. Qed.

(** ** Writing. *)
(** The buffer tables are written into: as it is made, and as every writing leaves it. *)
Definition table_buffer (b : list Z) : Prop := exists cc r, b = [0x47; 0x50; 0; 0x10 + cc; 0] ++ r /\ 0 <= cc < 16 /\ len r = 184 /\ bytesP r /\ (nthz r 5 = 0 \/ nthz r 5 = 1).
(** Tracks that can be told about, with what is told about each: at most one of them carries splice information, and together with
    their descriptors they fit. *)
Definition told (t : ptrack) (e : stream) : Prop :=
  exists a, announce (pt_codec t) (pt_init t) (pt_channels t) = Some a /\ e = mkes (a_type a) (pt_idx t + 255) (a_desc a ++ language (pt_lang t)).
Definition splice_info (t : ptrack) : bool := beqb (pt_codec t) (bs "SCTE35").
Definition program_info (ts : list ptrack) : list desc := if existsb splice_info ts then [(5, bs "CUEI")] else [].
Definition selection (ts : list ptrack) (es : list stream) : Prop :=
  ts <> [] /\ Forall2 told ts es /\ Forall (fun t => 0 <= pt_idx t < 3841 /\ bytesP (pt_init t) /\ bytesP (pt_lang t) /\ (pt_codec t = bs "ID3" -> pt_init t = [])) ts /\
  len (filter splice_info ts) <= 1 /\ len (List.concat (map es_bytes es)) + len (desc_bytes (program_info ts)) <= 167.
(** The clock is with the first video track, or the first track. *)
Definition clock_of (ts : list ptrack) (pid : Z) : Prop :=
  exists t, pid = pt_idx t + 255 /\ (find pt_video ts = Some t \/ find pt_video ts = None /\ hd_error ts = Some t).

Theorem psi_buffer_new : table_buffer new_table.
Proof. exists 0, (repeat 0 184). split; [reflexivity |]. split; [lia |]. split; [reflexivity |]. split; [apply all_bytes_ok; vm_compute; reflexivity | now left]. Qed.
Lemma first_find ts : first_video ts = find pt_video ts.
Proof. induction ts as [| t ts IH]; [reflexivity |]. cbn [first_video find]. now rewrite IH. Qed.
Lemma desc_bytes_P ds : Forall desc_ok ds -> bytesP (desc_bytes ds).
Proof.
  intros F. induction F as [| d ds (A & B & C) F IH]; [constructor |]. rewrite desc_len_cons. pose proof (len_nonneg (snd d)). constructor; [exact A |]. constructor; [unfold byteP; lia |]. apply bytesP_app. now split.
Qed.
Lemma told_stream t e : told t e -> 0 <= pt_idx t < 3841 -> bytesP (pt_init t) -> bytesP (pt_lang t) -> stream_ok e.
Proof.
  intros (a & A & ->) I BI BL. unfold stream_ok. cbn [es_type es_pid es_desc].
  assert (G : byteP (a_type a) /\ Forall desc_ok (a_desc a)).
  { unfold announce in A. set (codec := pt_codec t) in *.
    repeat match type of A with (if beqb codec ?c then _ else _) = _ => destruct (beqb codec c); [injection A as <-; cbn [a_type a_desc] |] end; [.. | discriminate].
    all: split; [unfold byteP; lia |]. all: repeat constructor; cbn [fst snd]; try (unfold byteP; lia); try (vm_compute; reflexivity); try (apply all_bytes_ok; vm_compute; reflexivity).
    all: try (rewrite four; lia). all: try (apply bytesP_takez, bytesP_app; split; [assumption | apply all_bytes_ok; vm_compute; reflexivity]). }
  destruct G as (G1 & G2). split; [exact G1 |]. split; [lia |]. apply Forall_app. split; [exact G2 |]. unfold language. destruct (Z.eqb_spec (len (pt_lang t)) 3) as [L | L]; [| constructor]. destruct (beqb (pt_lang t) (bs "und")); [constructor |].
  cbn [andb negb]. constructor; [| constructor]. split; [unfold byteP; cbn; lia |]. cbn [snd]. split; [apply bytesP_app; split; [exact BL | apply all_bytes_ok; vm_compute; reflexivity] | rewrite len_app, L; reflexivity].
Qed.
Lemma es_bytes_P e : stream_ok e -> bytesP (es_bytes e).
Proof. intros (A & B & C). unfold es_bytes. apply bytesP_app. split; [repeat constructor; unfold byteP in A; lia |]. apply bytesP_app. split; [apply be_bytes |]. apply bytesP_app. split; [apply be_bytes | now apply desc_bytes_P]. Qed.
Lemma selection_streams ts es : selection ts es -> Forall stream_ok es.
Proof. intros (_ & F & I & _). revert I. induction F as [| t e ts es A F IH]; intros I; [constructor |]. inversion I as [| ? ? (I1 & I2 & I3 & _) I']; subst. constructor; [now apply (told_stream t) | auto]. Qed.
Lemma concat_P l : Forall (fun e => bytesP (es_bytes e)) l -> bytesP (List.concat (map es_bytes l)).
Proof. intros F. induction F as [| e l H F IH]; cbn [map List.concat]; [constructor |]. apply bytesP_app. now split. Qed.
Lemma pmt_len program version clock info es crc : len (pmt_section program version clock info es crc) = 12 + len (desc_bytes info) + len (List.concat (map es_bytes es)) + len crc.
Proof. unfold pmt_section. cbv zeta. rewrite !len_app, !be_len. change (len [2]) with 1. change (len [version; 0; 0]) with 3. lia. Qed.
Lemma pmt_crc program version clock info es crc : pmt_section program version clock info es crc = pmt_section program version clock info es [] ++ crc.
Proof. unfold pmt_section. cbv zeta. rewrite <- !app_assoc. reflexivity. Qed.
Lemma rep_P n : bytesP (repeat 255 n).
Proof. apply Forall_forall. intros x H. apply repeat_spec in H. subst. unfold byteP. lia. Qed.
(** The table for any such tracks is written: one packet of PID 4096 with the counter, the section right at its start, with all
    streams in order, a good checksum, and stuffing behind it. *)
Theorem psi_pmt_written : forall b ts es cont, table_buffer b -> selection ts es ->
  exists b' clock crc, createPMT b ts cont = Ok b' /\ table_buffer b' /\ clock_of ts clock /\ len crc = 4 /\
  let p := takez 188 b' in let sec := pmt_section 1 1 clock (program_info ts) es crc in
  holds p sec /\ checked sec /\ pid_ (view p) = 4096 /\ counter (view p) = cont mod 16 /\ payload p = Some ([0] ++ sec ++ repeat 0xFF (Z.to_nat (183 - len sec))).
Proof.
  intros b ts es cont (cc & r & -> & C & LR & BR & R5) S. pose proof S as (N & F & I & SC & T).
  change (Forall2 announced ts es) in F. change (len (filter scte ts) <= 1) in SC. change (program_info ts) with (info_of ts) in *.
  destruct (createPMT_ok cc r ts es cont C LR R5 F) as (t & CK & IN & E); [| | exact N | exact SC | exact T |].
  { apply Forall_forall. intros x X. rewrite Forall_forall in I. exact (proj2 (proj2 (proj2 (I x X)))). } { apply Forall_forall. intros x X. rewrite Forall_forall in I. destruct (I x X) as (Q & _). lia. }
  cbv zeta in E. set (clock := pt_idx t + 255) in *. set (sec0 := pmt_section 1 1 clock (info_of ts) es []) in *. set (crc := le 4 (crc32 0xFFFFFFFF sec0)) in *. set (sec := pmt_section 1 1 clock (info_of ts) es crc) in *.
  pose proof (pmt_len 1 1 clock (info_of ts) es crc) as LS. fold sec in LS. change (len crc) with 4 in LS. pose proof (len_nonneg (desc_bytes (info_of ts))). pose proof (len_nonneg (List.concat (map es_bytes es))).
  assert (B0 : bytesP sec0).
  { unfold sec0, pmt_section. cbv zeta. pose proof (selection_streams ts es S) as SS. repeat (apply bytesP_app; split); try apply be_bytes; try (apply all_bytes_ok; vm_compute; reflexivity).
    - apply desc_bytes_P. unfold info_of. destruct (existsb scte ts); [| constructor]. repeat constructor; cbn [fst snd]; try (unfold byteP; lia). all: apply all_bytes_ok; vm_compute; reflexivity.
    - apply concat_P. apply Forall_forall. intros e E0. apply es_bytes_P. rewrite Forall_forall in SS. auto. }
  assert (BC : bytesP crc) by (apply Forall_rev, be_bytes). assert (BS : bytesP sec) by (unfold sec; rewrite pmt_crc; apply bytesP_app; now split).
  set (stuff := repeat 255 (Z.to_nat (183 - len sec))) in *. assert (LST : len stuff = 183 - len sec) by (unfold stuff, len at 1; rewrite repeat_length; lia).
  assert (BST : bytesP (sec ++ stuff)) by (apply bytesP_app; split; [exact BS | apply rep_P]).
  exists (hdr 80 0 (cont mod 16) (sec ++ stuff ++ [nthz r 183])), clock, crc. split; [exact E |].
  assert (TK : takez 188 (hdr 80 0 (cont mod 16) (sec ++ stuff ++ [nthz r 183])) = hdr 80 0 (cont mod 16) (sec ++ stuff)).
  { change (hdr 80 0 (cont mod 16) (sec ++ stuff ++ [nthz r 183])) with ([71; 80; 0; 16 + cont mod 16; 0] ++ sec ++ stuff ++ [nthz r 183]). rewrite (app_assoc sec), (app_assoc _ (sec ++ stuff)).
    rewrite (takez_app_exact ([71; 80; 0; 16 + cont mod 16; 0] ++ sec ++ stuff)); [reflexivity |]. rewrite !len_app. change (len [71; 80; 0; 16 + cont mod 16; 0]) with 5. lia. }
  split.
  { exists (cont mod 16), (sec ++ stuff ++ [nthz r 183]). split; [reflexivity |]. split; [lia |]. split; [rewrite !len_app; change (len [nthz r 183]) with 1; lia |]. split; [| right; reflexivity].
    rewrite app_assoc. apply bytesP_app. split; [exact BST |]. constructor; [apply bytesP_nthz, BR | constructor]. }
  split.
  { destruct (clock_ok ts N) as (u & _ & CU & CV). rewrite CK in CU. exists u. split; [unfold clock; congruence |]. rewrite first_find in CV. exact CV. }
  split; [reflexivity |]. cbv zeta. rewrite TK.
  destruct (hdr_view 80 0 (cont mod 16) (sec ++ stuff)) as (V & P); [unfold byteP; lia | unfold byteP; lia | exact BST | lia | rewrite len_app; lia |].
  assert (P2 : payload (hdr 80 0 (cont mod 16) (sec ++ stuff)) = Some ([0] ++ sec ++ stuff)) by exact P.
  split; [split; [exact V | split; [reflexivity | exists [], stuff; exact P2]] |].
  split; [unfold sec; rewrite pmt_crc; apply checked_ok; exact B0 |]. split; [reflexivity |]. split; [| exact P2].
  cbn [view counter]. change (nthz (hdr 80 0 (cont mod 16) (sec ++ stuff)) 3) with (16 + cont mod 16). lia.
Qed.
(** A track that is told about is what its codec is, also for a receiver that was told what raw data is, except that AV1 is taken
    for JSON if raw data was said to be JSON. *)
Definition codec_id (t : ptrack) (c : Z) : Prop := exists a, announce (pt_codec t) (pt_init t) (pt_channels t) = Some a /\ a_codec a = c.
Definition understood (raw : Z) (ts : list ptrack) : Prop := raw = 0x060002 -> Forall (fun t => pt_codec t <> bs "AV1") ts.
Lemma told_sense raw t e c : told t e -> codec_id t c -> (raw = 0x060002 -> pt_codec t <> bs "AV1") -> sense_of raw e = Codec (Some c).
Proof.
  intros (a & A & ->) (a' & A' & <-) U. rewrite A in A'. injection A' as <-. unfold sense_of. cbn [es_type es_desc]. unfold announce in A. set (codec := pt_codec t) in *.
  repeat match type of A with (if beqb codec ?c then _ else _) = _ => let E := fresh "E" in destruct (beqb codec c) eqn:E; [apply beqb_eq in E; injection A as <-; cbn [a_type a_desc a_codec app] |] end; [.. | discriminate]; try reflexivity.
  cbn [registration fst snd]. change (6 =? 6) with true. change (5 =? 5) with true. cbv iota zeta. change (beqb [65; 86; 48; 49] (bs "Opus")) with false. change (beqb [65; 86; 48; 49] (bs "JSON")) with false. change (beqb [65; 86; 48; 49] (bs "AV01")) with true. cbv iota.
  destruct (Z.eqb_spec raw 0x060002) as [R | R]; [exfalso; exact (U R E7) | reflexivity].
Qed.
Lemma codec_absent raw es pid old : ~ In pid (map es_pid es) -> codec_after raw es pid old = old.
Proof.
  unfold codec_after. revert old. induction es as [| e es IH]; intros old N; cbn [fold_left]; [reflexivity |]. cbn [map In] in N.
  replace (es_pid e =? pid) with false by (symmetry; apply Z.eqb_neq; tauto). apply IH. tauto.
Qed.
Lemma told_pids ts es : Forall2 told ts es -> map es_pid es = map (fun t => pt_idx t + 255) ts.
Proof. intros F. induction F as [| t e ts es (a & _ & ->) F IH]; [reflexivity |]. cbn [map es_pid]. now rewrite IH. Qed.
Lemma codec_present raw ts es : Forall2 told ts es -> NoDup (map pt_idx ts) -> understood raw ts -> forall t c old, In t ts -> codec_id t c -> codec_after raw es (pt_idx t + 255) old = Some c.
Proof.
  intros F. induction F as [| t0 e ts es T F IH]; intros ND U t c old IN C; [destruct IN |]. cbn [map] in ND. inversion ND as [| ? ? N1 N2]; subst. unfold codec_after. cbn [fold_left].
  assert (U' : understood raw ts) by (intros R; specialize (U R); now inversion U).
  destruct IN as [<- | IN].
  - assert (EP : es_pid e = pt_idx t0 + 255) by (destruct T as (a & _ & ->); reflexivity). rewrite EP, Z.eqb_refl. rewrite (told_sense raw t0 e c T C) by (intros R; specialize (U R); now inversion U).
    fold (codec_after raw es (pt_idx t0 + 255) (Some c)). apply codec_absent. rewrite (told_pids ts es F). intros X. apply in_map_iff in X. destruct X as (t' & E & X). apply N1. apply in_map_iff. exists t'. split; [lia | exact X].
  - fold (codec_after raw es (pt_idx t + 255) (if es_pid e =? pt_idx t + 255 then match sense_of raw e with Ignored => old | Codec x => x end else old)). apply (IH N2 U' t c _ IN C).
Qed.
(** What was written is understood: from the list of programs and the table, whatever was known before, each track's PID is known by
    its codec, and the codec of no other PID changes. *)
Lemma pat_holds c : holds (createPAT c) (pat_section 1 0xC1 [(1, 4096)] [0x2A; 0xB1; 4; 0xB2]) /\ pid_ (view (createPAT c)) = 0 /\ counter (view (createPAT c)) = c mod 16 /\ getPID (createPAT c) = 0.
Proof.
  assert (E : createPAT c = hdr 64 0 (c mod 16) ([0; 0xB0; 0x0D; 0; 1; 0xC1; 0; 0; 0; 1; 0xF0; 0; 0x2A; 0xB1; 4; 0xB2] ++ repeat 255 167)).
  { rewrite <- (setcc_hdr 64 0 0) by lia. reflexivity. }
  rewrite E. destruct (hdr_view 64 0 (c mod 16) ([0; 0xB0; 0x0D; 0; 1; 0xC1; 0; 0; 0; 1; 0xF0; 0; 0x2A; 0xB1; 4; 0xB2] ++ repeat 255 167)) as (V & P); [unfold byteP; lia | unfold byteP; lia | apply all_bytes_ok; vm_compute; reflexivity | lia | reflexivity |].
  split; [split; [exact V | split; [reflexivity |]]; exists [], (repeat 255 167); exact P |]. split; [reflexivity |]. split; [| reflexivity]. cbn [view counter]. match goal with |- ?x mod 16 = _ => change x with (16 + c mod 16) end. lia.
Qed.
Theorem psi_pat_written : forall c, let sec := pat_section 1 0xC1 [(1, 4096)] [0x2A; 0xB1; 4; 0xB2] in holds (createPAT c) sec /\ checked sec /\ pid_ (view (createPAT c)) = 0 /\ counter (view (createPAT c)) = c mod 16.
Proof. intros c sec. destruct (pat_holds c) as (H & P & C & _). split; [exact H |]. split; [vm_compute; reflexivity |]. now split. Qed.
Theorem psi_round_trip : forall raw b ts es cont c s, table_buffer b -> selection ts es -> NoDup (map pt_idx ts) -> understood raw ts ->
  exists b' s1 s2, createPMT b ts cont = Ok b' /\ learn raw s (createPAT c) = Ok s1 /\ learn raw s1 (takez 188 b') = Ok s2 /\
  (forall t x, In t ts -> codec_id t x -> k_codec s2 (pt_idx t + 255) = Some x) /\ (forall pid, (forall t, In t ts -> pid <> pt_idx t + 255) -> k_codec s2 pid = k_codec s pid).
Proof.
  intros raw b ts es cont c s TB S ND U. pose proof S as (_ & F & _). destruct (psi_pmt_written b ts es cont TB S) as (b' & clock & crc & E & _ & _ & LC & H & _ & PID & _).
  destruct (pat_holds c) as (HP & PP & _). destruct (psi_pat_read raw _ s _ _ _ _ HP PP) as (s1 & E1 & K1 & C1 & _); [constructor; [cbn; lia | constructor] |].
  destruct (psi_pmt_read raw (takez 188 b') s1 _ _ _ _ _ _ H LC (selection_streams ts es S)) as (s2 & E2 & _ & C2 & _); [rewrite PID; apply K1; left; now left | lia | lia |].
  exists b', s1, s2. split; [exact E |]. split; [exact E1 |]. split; [exact E2 |]. split.
  - intros t x IN X. rewrite C2. now apply (codec_present raw ts es F ND U).
  - intros pid N. rewrite C2, codec_absent, C1; [reflexivity |]. rewrite (told_pids ts es F). intros X. apply in_map_iff in X. destruct X as (t & <- & IN). now apply (N t IN).
Qed.
Definition some_tracks : list ptrack := [mkpt 0 (bs "H264") true [] [] 0; mkpt 1 (bs "AAC") false [] (bs "nld") 2; mkpt 2 (bs "opus") false [] [] 6; mkpt 3 (bs "SCTE35") false [] [] 0; mkpt 7 (bs "AV1") true [0x81; 8; 12] [] 0].
Definition some_streams : list stream := [mkes 0x1B 255 []; mkes 15 256 [(124, [81; 0]); (10, bs "nld" ++ [0])]; mkes 6 257 [(5, bs "Opus"); (127, [128; 6])]; mkes 0x86 258 [(0, [0]); (5, bs "CUEI")]; mkes 6 262 [(5, bs "AV01"); (128, [0x81; 8; 12; 0])]].
Example psi_selection_case : selection some_tracks some_streams /\ NoDup (map pt_idx some_tracks) /\ understood 0 some_tracks /\
  exists b s1 s2, createPMT new_table some_tracks 5 = Ok b /\ learn 0 known0 (createPAT 3) = Ok s1 /\ learn 0 s1 (takez 188 b) = Ok s2 /\
  map (k_codec s2) [255; 256; 257; 258; 262; 263] = [Some 0x1B; Some 15; Some 0x060001; Some 0x86; Some 0x060003; None].
Proof.
  split; [| split; [| split; [intros X; discriminate X | do 3 eexists; split; [vm_compute; reflexivity | split; [vm_compute; reflexivity | split; [vm_compute; reflexivity | vm_compute; reflexivity]]]]]].
  - split; [discriminate |]. split; [repeat constructor; eexists; (split; [vm_compute; reflexivity | reflexivity]) |]. split; [| split; vm_compute; discriminate].
    repeat (constructor; [split; [cbn; lia | split; [apply all_bytes_ok; vm_compute; reflexivity | split; [apply all_bytes_ok; vm_compute; reflexivity | vm_compute; intros X; discriminate X]]] |]). constructor.
  - repeat constructor; cbn; intuition discriminate.
Qed.

(** ** Services. *)
(** The buffer of this table, before its first use and after any. *)
Definition service_buffer (b : list Z) : Prop :=
  exists y z cc r, b = [0x47; y; z; 0x10 + cc; 0] ++ r /\ byteP y /\ y / 32 = 2 /\ 0 <= cc < 16 /\ len r = 184 /\ bytesP r /\ (nthz r 5 = 0 \/ nthz r 5 = 1) /\ nthz r 10 = 0 /\ nthz r 13 = 0.
Theorem psi_service_buffer_new : service_buffer new_table.
Proof. exists 80, 0, 0, (repeat 0 184). repeat (split; [reflexivity || (unfold byteP; lia) || lia || (apply all_bytes_ok; vm_compute; reflexivity) |]). split; [now left | split; reflexivity]. Qed.
Lemma sdt_len v re fl info crc : len (sdt_section v re fl info crc) = 16 + len info + len crc.
Proof. unfold sdt_section. rewrite !len_app, !be_len. change (len [0x42]) with 1. change (len [v; 0; 0]) with 3. change (len [re]) with 1. change (len [fl]) with 1. lia. Qed.
Lemma sdt_crc v re fl info crc : sdt_section v re fl info crc = sdt_section v re fl info [] ++ crc.
Proof. unfold sdt_section. rewrite <- !app_assoc. reflexivity. Qed.
Lemma sdt_P info crc : bytesP info -> bytesP crc -> bytesP (sdt_section 1 0 0 info crc).
Proof. intros BI BC. unfold sdt_section. repeat (apply bytesP_app; split); try apply be_bytes; try assumption; apply all_bytes_ok; vm_compute; reflexivity. Qed.
(** The table that names the stream: one packet of PID 17 with the counter, a good checksum, the product as provider and the stream's
    name.  The length in the descriptor is one too large, and the bit that says that the service is scrambled is set (0x9000), although
    it is not (F149, F150). *)
Theorem psi_sdt_written_partial : forall b name cont, service_buffer b -> bytesP name -> len name <= 148 ->
  exists b' crc, createSDT b name cont = Ok b' /\ service_buffer b' /\ len crc = 4 /\
  let p := takez 188 b' in let sec := sdt_section 1 0 0 (service (bs "MistServer") name (14 + len name)) crc in
  holds p sec /\ checked sec /\ pid_ (view p) = 0x11 /\ counter (view p) = cont mod 16 /\ payload p = Some ([0] ++ sec ++ repeat 0xFF (Z.to_nat (183 - len sec))).
Proof.
  intros b name cont (y & z & cc & r & -> & Y & Y2 & C & LR & BR & R5 & R10 & R13) BN LN. pose proof (createSDT_ok y z cc r name cont Y Y2 C LR BR R5 LN) as E. cbv zeta in E. rewrite R10, R13 in E.
  change (4 + len APPNAME + len name) with (14 + len name) in E. change APPNAME with (bs "MistServer") in E. set (inf := service (bs "MistServer") name (14 + len name)) in *. pose proof (len_nonneg name).
  assert (LI : len inf = 15 + len name) by (unfold inf, service; rewrite !len_app, !len_cons; change (len (bs "MistServer")) with 10; change (len (@nil Z)) with 0; lia).
  set (sec0 := sdt_section 1 0 0 inf []) in *. set (crc := le 4 (crc32 0xFFFFFFFF sec0)) in *. set (sec := sdt_section 1 0 0 inf crc) in *. pose proof (sdt_len 1 0 0 inf crc) as LS. fold sec in LS. change (len crc) with 4 in LS.
  assert (BI : bytesP inf).
  { unfold inf, service. change (len (bs "MistServer")) with 10. repeat (apply bytesP_app; split); try exact BN; try (apply all_bytes_ok; vm_compute; reflexivity). - repeat constructor; unfold byteP; lia. - repeat constructor; unfold byteP; lia. }
  assert (B0 : bytesP sec0) by (apply sdt_P; [exact BI | constructor]).
  assert (BC : bytesP crc) by (apply Forall_rev, be_bytes). assert (BS : bytesP sec) by (unfold sec; rewrite sdt_crc; apply bytesP_app; now split).
  set (stuff := repeat 255 (Z.to_nat (183 - len sec))) in *. assert (LST : len stuff = 183 - len sec) by (unfold stuff, len at 1; rewrite repeat_length; lia).
  assert (BST : bytesP (sec ++ stuff)) by (apply bytesP_app; split; [exact BS | apply rep_P]).
  exists (hdr 64 17 (cont mod 16) (sec ++ stuff ++ [nthz r 183])), crc. split; [exact E |].
  assert (TK : takez 188 (hdr 64 17 (cont mod 16) (sec ++ stuff ++ [nthz r 183])) = hdr 64 17 (cont mod 16) (sec ++ stuff)).
  { change (hdr 64 17 (cont mod 16) (sec ++ stuff ++ [nthz r 183])) with ([71; 64; 17; 16 + cont mod 16; 0] ++ sec ++ stuff ++ [nthz r 183]). rewrite (app_assoc sec), (app_assoc _ (sec ++ stuff)).
    rewrite (takez_app_exact ([71; 64; 17; 16 + cont mod 16; 0] ++ sec ++ stuff)); [reflexivity |]. rewrite !len_app. change (len [71; 64; 17; 16 + cont mod 16; 0]) with 5. lia. }
  split.
  { exists 64, 17, (cont mod 16), (sec ++ stuff ++ [nthz r 183]). split; [reflexivity |]. split; [unfold byteP; lia |]. split; [reflexivity |]. split; [lia |]. split; [rewrite !len_app; change (len [nthz r 183]) with 1; lia |].
    split; [| split; [right; reflexivity | split; reflexivity]]. rewrite app_assoc. apply bytesP_app. split; [exact BST |]. constructor; [apply bytesP_nthz, BR | constructor]. }
  split; [reflexivity |]. cbv zeta. rewrite TK.
  destruct (hdr_view 64 17 (cont mod 16) (sec ++ stuff)) as (V & P); [unfold byteP; lia | unfold byteP; lia | exact BST | lia | rewrite len_app; lia |].
  assert (P2 : payload (hdr 64 17 (cont mod 16) (sec ++ stuff)) = Some ([0] ++ sec ++ stuff)) by exact P.
  split; [split; [exact V | split; [reflexivity | exists [], stuff; exact P2]] |].
  split; [unfold sec; rewrite sdt_crc; apply checked_ok; exact B0 |]. split; [reflexivity |]. split; [| exact P2].
  cbn [view counter]. change (nthz (hdr 64 17 (cont mod 16) (sec ++ stuff)) 3) with (16 + cont mod 16). lia.
Qed.
(** No name makes the descriptor's length right. *)
Theorem psi_sdt_descriptor_refuted : forall name, desc_bytes [(0x48, [1; 10] ++ bs "MistServer" ++ [len name] ++ name)] = service (bs "MistServer") name (13 + len name) /\
  service (bs "MistServer") name (14 + len name) <> service (bs "MistServer") name (13 + len name).
Proof.
  intros name. split.
  - unfold desc_bytes. cbn [map List.concat fst snd]. rewrite app_nil_r. unfold service. change (len (bs "MistServer")) with 10. rewrite !len_app. change (len [1; 10]) with 2. change (len (bs "MistServer")) with 10. change (len [len name]) with 1. cbn [app]. do 2 f_equal. lia.
  - unfold service. cbn [app]. intros E. apply (f_equal (fun l => nthz l 1)) in E. change (14 + len name = 13 + len name) in E. lia.
Qed.
Example psi_sdt_case : exists b b', createSDT new_table (bs "live+cam") 9 = Ok b /\ createSDT b (bs "x") 10 = Ok b' /\
  takez 55 b = [0x47; 0x40; 0x11; 0x19; 0; 0x42; 0x80; 40; 0; 1; 1; 0; 0; 0xE0; 1; 0; 0; 1; 0; 0x90; 23; 0x48; 22; 1; 10] ++ bs "MistServer" ++ [8] ++ bs "live+cam" ++ takez 4 (dropz 44 b) ++ [255; 255; 255; 255; 255; 255; 255].
Proof. do 2 eexists. split; [vm_compute; reflexivity |]. split; [vm_compute; reflexivity |]. vm_compute. reflexivity. Qed.

(** ** Everything together. *)
Lemma codec_once raw es pid : (forall old, codec_after raw es pid old = old) \/ exists c, forall old, codec_after raw es pid old = c.
Proof.
  unfold codec_after. induction es as [| e es IH]; [left; reflexivity |]. cbn [fold_left]. destruct IH as [IH | (c & IH)].
  - destruct (es_pid e =? pid); [| left; exact IH]. destruct (sense_of raw e) as [| x]; [left; exact IH | right; exists x; intros old; apply IH].
  - right. exists c. intros old. apply IH.
Qed.
Lemma codec_twice raw es pid old : codec_after raw es pid (codec_after raw es pid old) = codec_after raw es pid old.
Proof. destruct (codec_once raw es pid) as [H | (c & H)]; rewrite !H; reflexivity. Qed.
Section Whole.
Variable raw : Z.
Variable ts : list ptrack.
Variable es : list stream.
Hypothesis HS : selection ts es.
Hypothesis HN : NoDup (map pt_idx ts).
Hypothesis HU : understood raw ts.
Let pids := map (fun t => pt_idx t + 255) ts.
Let good (k : known) : Prop := (forall x, In x (k_pmt k) <-> x = 4096) /\ forall pid, k_codec k pid = codec_after raw es pid None.
Let pat_like (b : list Z) : Prop := exists id version crc, holds b (pat_section id version [(1, 4096)] crc) /\ pid_ (view b) = 0.
Let pmt_like (b : list Z) : Prop := exists version clock info crc, holds b (pmt_section 1 version clock info es crc) /\ len crc = 4 /\ pid_ (view b) = 4096.
Let media_like (b : list Z) : Prop := In (getPID b) pids.
Let other (b : list Z) : Prop := getPID b <> 0 /\ getPID b <> 4096 /\ ~ In (getPID b) pids.
Lemma pid_range p : In p pids -> 255 <= p < 4096.
Proof. intros H. unfold pids in H. apply in_map_iff in H. destruct H as (t & <- & IN). destruct HS as (_ & _ & I & _). rewrite Forall_forall in I. destruct (I t IN) as (Q & _). lia. Qed.
Lemma known_codec p : In p pids -> exists c, codec_after raw es p None = Some c.
Proof.
  intros H. unfold pids in H. apply in_map_iff in H. destruct H as (t & <- & IN). destruct HS as (_ & F & _). assert (X : exists c, codec_id t c).
  { clear - F IN. induction F as [| t0 e ts es (a & A & _) F IH]; [destruct IN |]. destruct IN as [<- | IN]; [exists (a_codec a), a; split; [exact A | reflexivity] | auto]. }
  destruct X as (c & C). exists c. now apply (codec_present raw ts es F HN HU).
Qed.
Lemma unknown_codec p : ~ In p pids -> codec_after raw es p None = None.
Proof. intros H. destruct HS as (_ & F & _). apply codec_absent. rewrite (told_pids ts es F). exact H. Qed.
Lemma receive_one b s (fuel : nat) : good (r_known s) -> pat_like b \/ pmt_like b \/ media_like b \/ other b ->
  (forall d, In (getPID b) pids -> parse_packet fuel b (r_demux s (getPID b)) = Ts_Model.Ok d -> exists s', receive1 raw fuel s b = Ok s' /\ good (r_known s') /\ forall q, r_demux s' q = if q =? getPID b then d else r_demux s q) /\
  (~ In (getPID b) pids -> exists s', receive1 raw fuel s b = Ok s' /\ good (r_known s') /\ forall q, r_demux s' q = r_demux s q).
Proof.
  intros (G1 & G2) K. destruct HS as (_ & F & _).
  assert (L : exists k, learn raw (r_known s) b = Ok k /\ good k).
  { destruct K as [(id & version & crc & H & P) | [(version & clock & info & crc & H & LC & P) | [M | (O1 & O2 & O3)]]].
    - destruct (psi_pat_read raw b (r_known s) _ _ _ _ H P) as (k & E & K1 & K2 & _); [constructor; [cbn; lia | constructor] |]. exists k. split; [exact E |]. split; [| intros pid; now rewrite K2].
      intros x. rewrite K1, G1. cbn [map snd In]. split; [intros [[<- | []] | ->]; reflexivity | auto].
    - destruct (psi_pmt_read raw b (r_known s) _ _ _ _ _ _ H LC (selection_streams ts es HS)) as (k & E & K1 & K2 & _); [rewrite P; now apply G1 | lia | lia |]. exists k. split; [exact E |]. split; [now rewrite K1 | intros pid; now rewrite K2, G2, codec_twice].
    - exists (r_known s). split; [| now split]. pose proof (pid_range _ M) as R. unfold learn. replace (getPID b =? 0) with false by (symmetry; apply Z.eqb_neq; lia). replace (getPID b =? 1) with false by (symmetry; apply Z.eqb_neq; lia).
      replace (existsb (Z.eqb (getPID b)) (k_pmt (r_known s))) with false; [reflexivity |]. symmetry. apply not_true_is_false. intros X. apply existsb_exists in X. destruct X as (x & X1 & X2). apply G1 in X1. apply Z.eqb_eq in X2. lia.
    - exists (r_known s). split; [| now split]. unfold learn. replace (getPID b =? 0) with false by (symmetry; now apply Z.eqb_neq). destruct (getPID b =? 1); [reflexivity |].
      replace (existsb (Z.eqb (getPID b)) (k_pmt (r_known s))) with false; [reflexivity |]. symmetry. apply not_true_is_false. intros X. apply existsb_exists in X. destruct X as (x & X1 & X2). apply G1 in X1. apply Z.eqb_eq in X2. lia. }
  destruct L as (k & E & GK). unfold receive1. rewrite E, G2. split.
  - intros d M PP. destruct (known_codec _ M) as (c & C). rewrite C. pose proof (pid_range _ M) as R. replace (getPID b =? 0) with false by (symmetry; apply Z.eqb_neq; lia). replace (getPID b =? 1) with false by (symmetry; apply Z.eqb_neq; lia).
    replace (existsb (Z.eqb (getPID b)) (k_pmt (r_known s))) with false by (symmetry; apply not_true_is_false; intros X; apply existsb_exists in X; destruct X as (x & X1 & X2); apply G1 in X1; apply Z.eqb_eq in X2; lia).
    cbn [orb]. rewrite PP. eexists. split; [reflexivity |]. split; [exact GK |]. reflexivity.
  - intros M. rewrite (unknown_codec _ M). eexists. split; [reflexivity |]. split; [exact GK |]. reflexivity.
Qed.
Lemma receive_rest (fuel : nat) : forall l s, good (r_known s) -> Forall (fun b => pat_like b \/ pmt_like b \/ media_like b \/ other b) l ->
  (forall p, In p pids -> exists d, parse_all fuel (filter (fun b => getPID b =? p) l) (r_demux s p) = Ts_Model.Ok d) ->
  exists s', receive raw fuel s l = Ok s' /\ good (r_known s') /\ forall p, In p pids -> parse_all fuel (filter (fun b => getPID b =? p) l) (r_demux s p) = Ts_Model.Ok (r_demux s' p).
Proof.
  induction l as [| b l IH]; intros s G F D; cbn [receive].
  - exists s. split; [reflexivity |]. split; [exact G |]. reflexivity.
  - inversion F as [| ? ? F1 F2]; subst. destruct (receive_one b s fuel G F1) as (M1 & M2). destruct (in_dec Z.eq_dec (getPID b) pids) as [M | M].
    + destruct (D _ M) as (d & Dd). cbn [filter] in Dd. rewrite Z.eqb_refl in Dd. cbn [parse_all] in Dd. destruct (parse_packet fuel b (r_demux s (getPID b))) as [d1 | |] eqn:PP; try discriminate.
      destruct (M1 d1 M eq_refl) as (s1 & E1 & G1 & Q1). rewrite E1.
      assert (ST : forall p, In p pids -> parse_all fuel (filter (fun b => getPID b =? p) (b :: l)) (r_demux s p) = parse_all fuel (filter (fun b => getPID b =? p) l) (r_demux s1 p)).
      { intros p Hp. cbn [filter]. rewrite (Q1 p), (Z.eqb_sym p). destruct (Z.eqb_spec (getPID b) p) as [<- | N]; [cbn [parse_all]; now rewrite PP | reflexivity]. }
      destruct (IH s1 G1 F2) as (s' & E2 & G2 & Q2); [intros p Hp; rewrite <- (ST p Hp); now apply D |]. exists s'. split; [exact E2 |]. split; [exact G2 |]. intros p Hp. rewrite (ST p Hp). now apply Q2.
    + destruct (M2 M) as (s1 & E1 & G1 & Q1). rewrite E1.
      assert (ST : forall p, In p pids -> parse_all fuel (filter (fun b => getPID b =? p) (b :: l)) (r_demux s p) = parse_all fuel (filter (fun b => getPID b =? p) l) (r_demux s1 p)).
      { intros p Hp. cbn [filter]. rewrite (Q1 p). destruct (Z.eqb_spec (getPID b) p) as [<- | N]; [contradiction | reflexivity]. }
      destruct (IH s1 G1 F2) as (s' & E2 & G2 & Q2); [intros p Hp; rewrite <- (ST p Hp); now apply D |]. exists s'. split; [exact E2 |]. split; [exact G2 |]. intros p Hp. rewrite (ST p Hp). now apply Q2.
Qed.
End Whole.
(** What a sender puts between the packets of its tracks: tables, and packets of other PIDs. *)
Definition sent_pat (b : list Z) : Prop := exists c, b = createPAT c.
Definition sent_pmt (ts : list ptrack) (b : list Z) : Prop := exists buffer c b', table_buffer buffer /\ createPMT buffer ts c = Ok b' /\ b = takez 188 b'.
Definition track_pids (ts : list ptrack) : list Z := map (fun t => pt_idx t + 255) ts.
Definition foreign (ts : list ptrack) (b : list Z) : Prop := ts_packet b /\ getPID b <> 0 /\ getPID b <> 4096 /\ ~ In (getPID b) (track_pids ts).
Lemma placed_snd ps : forall pos, map snd (placed pos ps) = ps.
Proof. induction ps as [| p ps IH]; intros pos; [reflexivity |]. cbn [placed map snd]. now rewrite IH. Qed.
Lemma filter_sub (f g : list Z -> bool) l : (forall b, f b = true -> g b = true) -> filter f (filter g l) = filter f l.
Proof. intros H. induction l as [| b l IH]; [reflexivity |]. cbn [filter]. destruct (g b) eqn:G; cbn [filter]; [now rewrite IH |]. rewrite IH. destruct (f b) eqn:E; [rewrite (H b E) in G; discriminate | reflexivity]. Qed.
Lemma sent_valid c l pks : sent c l pks -> Forall (fun b => ts_packet b /\ exists x, In x l /\ getPID b = pid (fst x)) (List.concat pks).
Proof.
  intros S. induction S as [c | c f ch pk r pks P _ S IH]; cbn [List.concat]; [constructor |]. apply Forall_app. split.
  - apply Forall_forall. intros b B. apply (In_nth _ _ []) in B. destruct B as (k & Hk & E). pose proof (proj2 P (Z.of_nat k) ltac:(unfold len; lia)) as Q. unfold Ts_Mux_Proofs.nthb in Q. rewrite Nat2Z.id, E in Q. destruct Q as [Q1 Q2 _ _ _ Q6].
    split; [split; [apply Q1 | exact Q2] |]. exists (f, ch). split; [now left |]. rewrite (view_pid _ Q1). exact Q6.
  - eapply Forall_impl; [| exact IH]. intros b (B1 & x & B2 & B3). split; [exact B1 |]. exists x. split; [now right | exact B3].
Qed.
(** The whole way: a list of programs and a table come first, then, in any order with more tables and foreign packets, the packets of
    frames of the tracks; the stream arrives in any pieces.  The receiver then knows every track by its codec and delivers all its frames in
    order, with their data, offsets and (up to the drift of the wrapping clock) times. *)
Theorem psi_whole_way : forall raw ts es l conts first second rest ds, selection ts es -> NoDup (map pt_idx ts) -> understood raw ts ->
  Forall sendable l -> (forall x, In x l -> In (pid (mmeta x)) (track_pids ts)) -> (forall q, 0 <= conts q < 65536) -> (forall p, In p (track_pids ts) -> steady_times (map (fun x => time (mmeta x)) (of_track p l))) ->
  sent_pat first -> sent_pmt ts second ->
  exists m, sendNext_all l conts mux0 = Some m /\
  (filter (fun b => existsb (Z.eqb (getPID b)) (track_pids ts)) rest = msent m -> Forall (fun b => In b (msent m) \/ sent_pat b \/ sent_pmt ts b \/ foreign ts b) rest ->
   List.concat ds = List.concat (first :: second :: rest) -> len (List.concat ds) < 2 ^ 64 ->
   exists got s, assemble_all [] ds 0 = (got, []) /\ map snd got = first :: second :: rest /\ receive raw 2 receiver0 (map snd got) = Ok s /\
   forall t, In t ts -> let p := pt_idx t + 255 in exists c d, codec_id t c /\ k_codec (r_known s) p = Some c /\ finish 2 (r_demux s p) = Ts_Model.Ok d /\
     Forall2 (fun x '(time_, off, data) => about (time (mmeta x)) time_ /\ off = offset_of x /\ data = mdata x) (of_track p l) (outp d)).
Proof.
  intros raw ts es l conts first second rest ds HS HN HU HL HP HC HT (c1 & ->) (buf & c2 & b2 & TB & EB & ->).
  assert (HM : Forall media_ok l) by exact HL. assert (HC' : forall q, conts q = u16 (conts q)) by (intros q; unfold u16; now rewrite Z.mod_small by apply HC).
  destruct (send_all_ok (map (fun x => (mmeta x, sendNext_chunks x)) l) conts mux0) as (m & pks & E1 & E2 & E3); [| exact HC' | reflexivity |].
  { apply Forall_forall. intros y Hy. apply in_map_iff in Hy. destruct Hy as (x & <- & Hx). rewrite Forall_forall in HM. now apply pes_leadin_bytes, HM. }
  cbn [msent mux0 app] in E2. exists m. split; [exact E1 |]. intros HF HR HD HL64. pose proof (sent_valid _ _ _ E3) as SV. rewrite <- E2 in SV.
  assert (KP : forall b, sent_pat b -> ts_packet b /\ exists id version crc, holds b (pat_section id version [(1, 4096)] crc) /\ pid_ (view b) = 0).
  { intros b (c & ->). destruct (pat_holds c) as (H & P & _). split; [split; apply H |]. do 3 eexists. split; [exact H | exact P]. }
  assert (KM : forall b, sent_pmt ts b -> ts_packet b /\ exists version clock info crc, holds b (pmt_section 1 version clock info es crc) /\ len crc = 4 /\ pid_ (view b) = 4096).
  { intros b (bu & c & b' & T & E & ->). destruct (psi_pmt_written bu ts es c T HS) as (b'' & clock & crc & E' & _ & _ & LC & H & _ & P & _). rewrite E in E'. injection E' as <-. split; [split; apply H |]. do 4 eexists. split; [exact H | split; [exact LC | exact P]]. }
  assert (PK : Forall ts_packet (createPAT c1 :: takez 188 b2 :: rest)).
  { constructor; [apply KP; now exists c1 |]. constructor; [apply KM; now exists buf, c2, b2 |]. eapply Forall_impl; [| exact HR]. intros b [B | [B | [B | B]]]; [rewrite Forall_forall in SV; apply (SV b B) | apply (KP b B) | apply (KM b B) | apply B]. }
  destruct (psi_assemble ds _ [] PK ltac:(now rewrite app_nil_r) ltac:(now rewrite <- HD)) as (whole & more & part & W1 & W2 & W3 & W4).
  assert (M0 : more = [] /\ part = []).
  { rewrite HD, W1, concat_app in W2. apply app_inv_head in W2. destruct more as [| p more]; [split; [reflexivity | now rewrite <- W2] |]. exfalso. rewrite W1 in PK. apply Forall_app in PK. destruct PK as (_ & PK). inversion PK as [| ? ? (Q & _) _]; subst.
    cbn [List.concat] in W3. rewrite len_app in W3. pose proof (len_nonneg (List.concat more)). lia. }
  destruct M0 as (-> & ->). rewrite app_nil_r in W1. subst whole.
  destruct (KP _ (ex_intro _ c1 eq_refl)) as (_ & id & ver & crc1 & H1 & P1). destruct (KM (takez 188 b2) (ex_intro _ buf (ex_intro _ c2 (ex_intro _ b2 (conj TB (conj EB eq_refl)))))) as (_ & version & clock & info & crc2 & H2 & LC2 & P2).
  destruct (psi_pat_read raw _ known0 _ _ _ _ H1 P1) as (k1 & L1 & K1 & C1 & _); [constructor; [cbn; lia | constructor] |].
  destruct (psi_pmt_read raw _ k1 _ _ _ _ _ _ H2 LC2 (selection_streams ts es HS)) as (k2 & L2 & K2 & C2 & _); [rewrite P2; apply K1; left; now left | lia | lia |].
  set (s2 := mkrcv k2 (fun _ => demux0)).
  assert (R2 : forall r, receive raw 2 receiver0 (createPAT c1 :: takez 188 b2 :: r) = receive raw 2 s2 r).
  { intros r. cbn [receive]. unfold receive1 at 1. cbn [r_known receiver0]. rewrite L1. change (k_codec known0 (getPID (createPAT c1))) with (@None Z). cbv iota. unfold receive1 at 1. cbn [r_known r_demux]. rewrite L2, C1. reflexivity. }
  assert (G : (forall x, In x (k_pmt (r_known s2)) <-> x = 4096) /\ forall q, k_codec (r_known s2) q = codec_after raw es q None).
  { cbn [r_known s2]. split; [intros x; rewrite K2, K1; cbn [map snd In known0 k_pmt]; split; [intros [[<- | []] | []]; reflexivity | intros ->; auto] |]. intros q. rewrite C2, C1. reflexivity. }
  assert (RT : forall p, In p (track_pids ts) -> exists d d', parse_all 2 (filter (fun b => getPID b =? p) rest) demux0 = Ts_Model.Ok d /\ finish 2 d = Ts_Model.Ok d' /\
    Forall2 (fun x '(time_, off, data) => about (time (mmeta x)) time_ /\ off = offset_of x /\ data = mdata x) (of_track p l) (outp d')).
  { intros p Hp. destruct (round_trip p 0 l conts HM HC' (HT p Hp)) as (m' & d & d' & A1 & A2 & A3 & A4). unfold sendNext_all in A1. rewrite E1 in A1. injection A1 as <-. exists d, d'. rewrite <- HF in A2. rewrite filter_sub in A2.
    - split; [exact A2 |]. split; [exact A3 |]. rewrite A4. assert (GS : Forall sendable (of_track p l)) by (apply Forall_forall; intros x Hx; apply filter_In in Hx; rewrite Forall_forall in HL; now apply HL).
      change (filter (on_pid p) l) with (of_track p l). revert GS. generalize (of_track p l). clear. intros l G. induction G as [| x l Hx _ IH]; constructor; [| exact IH]. split; [apply Ts_Pes_Proofs.unwrapped_close; destruct Hx as ((_ & X & _) & _); exact X |]. now split.
    - intros b B. apply Z.eqb_eq in B. apply existsb_exists. exists p. split; [exact Hp | now apply Z.eqb_eq]. }
  assert (KI : Forall (fun b => (exists id version crc, holds b (pat_section id version [(1, 4096)] crc) /\ pid_ (view b) = 0) \/
     (exists version clock info crc, holds b (pmt_section 1 version clock info es crc) /\ len crc = 4 /\ pid_ (view b) = 4096) \/ In (getPID b) (track_pids ts) \/ (getPID b <> 0 /\ getPID b <> 4096 /\ ~ In (getPID b) (track_pids ts))) rest).
  { eapply Forall_impl; [| exact HR]. intros b [B | [B | [B | B]]].
    - right. right. left. rewrite Forall_forall in SV. destruct (SV b B) as (_ & x & X1 & ->). apply in_map_iff in X1. destruct X1 as (y & <- & Y). cbn [fst]. now apply HP.
    - left. apply (KP b B). - right. left. apply (KM b B). - right. right. right. apply B. }
  destruct (receive_rest raw ts es HS HN HU 2 rest s2 G KI) as (s' & R1 & (G1 & G2) & Q); [intros p Hp; destruct (RT p Hp) as (d & d' & X & _); exists d; exact X |].
  exists (placed 0 (createPAT c1 :: takez 188 b2 :: rest)), s'. split; [exact W4 |]. rewrite placed_snd. split; [reflexivity |]. split; [now rewrite R2 |].
  intros t IN p. assert (Hp : In p (track_pids ts)) by (apply in_map_iff; exists t; split; [reflexivity | exact IN]). destruct (RT p Hp) as (d & d' & X1 & X2 & X3).
  pose proof (Q p Hp) as Y. cbn [r_demux s2] in Y. rewrite X1 in Y. injection Y as Y. pose proof HS as (_ & F & _).
  assert (X : exists c, codec_id t c).
  { clear - F IN. induction F as [| t0 e ts es (a & A & _) F IH]; [destruct IN |]. destruct IN as [<- | IN]; [exists (a_codec a), a; split; [exact A | reflexivity] | auto]. }
  destruct X as (c & CI). exists c, d'. split; [exact CI |]. split; [rewrite G2; now apply (codec_present raw ts es F HN HU) |]. split; [now rewrite <- Y | exact X3].
Qed.
Definition some_media : list media := [mkmedia (mkmeta true true 255 40) (Video 80) 100000 (repeat 5 300); mkmedia (mkmeta false false 257 45) (Other 0xC0) 0 [1; 2; 3]].
Definition nothing : list Z := [0x47; 0x1F; 0xFF; 0x10] ++ repeat 0 184.
Example psi_whole_way_case : exists m b b' rest ds s d, sendNext_all some_media (fun _ => 15) mux0 = Some m /\ createPMT new_table some_tracks 5 = Ok b /\ createPMT b some_tracks 6 = Ok b' /\
  rest = takez 1 (msent m) ++ [nothing; takez 188 b'; createPAT 4] ++ dropz 1 (msent m) /\ Forall sendable some_media /\ foreign some_tracks nothing /\
  filter (fun q => existsb (Z.eqb (getPID q)) (track_pids some_tracks)) rest = msent m /\ List.concat ds = List.concat (createPAT 3 :: takez 188 b :: rest) /\ len ds = 3 /\
  receive 0 2 receiver0 (map snd (fst (assemble_all [] ds 0))) = Ok s /\ finish 2 (r_demux s 255) = Ts_Model.Ok d /\ outp d = [(40, 80, repeat 5 300)].
Proof.
  set (m0 := sendNext_all some_media (fun _ => 15) mux0). vm_compute in m0.
  let v := eval vm_compute in (createPMT new_table some_tracks 5) in match v with Ok ?b => pose (b0 := b) end. let v := eval vm_compute in (createPMT b0 some_tracks 6) in match v with Ok ?b => pose (b1 := b) end.
  let v := eval vm_compute in m0 in match v with Some ?m => pose (m1 := m) end. pose (r := takez 1 (msent m1) ++ [nothing; takez 188 b1; createPAT 4] ++ dropz 1 (msent m1)). pose (all := List.concat (createPAT 3 :: takez 188 b0 :: r)).
  pose (ds := [takez 100 all; takez 400 (dropz 100 all); dropz 500 all]).
  let v := eval vm_compute in (receive 0 2 receiver0 (map snd (fst (assemble_all [] ds 0)))) in match v with Ok ?s => pose (s1 := s) end. let v := eval vm_compute in (finish 2 (r_demux s1 255)) in match v with Ts_Model.Ok ?d => pose (d1 := d) end.
  exists m1, b0, b1, r, ds, s1, d1. split; [reflexivity |]. split; [vm_compute; reflexivity |]. split; [vm_compute; reflexivity |]. split; [reflexivity |].
  split; [repeat constructor; unfold byteP; cbn; try lia; apply all_bytes_ok; vm_compute; reflexivity |]. split; [split; [split; reflexivity | vm_compute; intuition discriminate] |].
  split; [vm_compute; reflexivity |]. split; [vm_compute; reflexivity |]. split; [reflexivity |]. split; [vm_compute; reflexivity |]. split; [vm_compute; reflexivity | vm_compute; reflexivity].
Qed.

(** ** What cannot be told. *)
Definition heard (ts : list ptrack) (pids : list Z) : option (list (option Z)) :=
  match createPMT new_table ts 0 with Ok b => match learn 0 (mkknown [4096] (fun _ => None) (fun _ => None)) (takez 188 b) with Ok s => Some (map (k_codec s) pids) | _ => None end | _ => None end.
(** Too many tracks are written past the end of the buffer: twelve with a language (F151). *)
Theorem psi_many_tracks_refuted : let t i := mkpt i (bs "AAC") false [] (bs "eng") 2 in createPMT new_table (map t [0; 1; 2; 3; 4; 5; 6; 7; 8; 9; 10; 11]) 0 = Ub.
Proof. vm_compute. reflexivity. Qed.
(** The initialisation data of an ID3 track is counted, written and then written over, so that what is left of it at the end is read as
    streams that do not exist: here one of H264 on PID 0x123 (F152). *)
Theorem psi_id3_init_refuted : heard [mkpt 0 (bs "H264") true [] [] 0; mkpt 1 (bs "ID3") false [0x1B; 0x01; 0x23; 0xF0; 0] [] 0] [255; 256; 0x123] = Some [Some 0x1B; Some 0x15; Some 0x1B].
Proof. vm_compute. reflexivity. Qed.
(** A raw track is announced as private data without a registration, which the receiver does not know (F153). *)
Theorem psi_raw_refuted : heard [mkpt 0 (bs "H264") true [] [] 0; mkpt 1 (bs "RAW") false [] [] 0] [255; 256] = Some [Some 0x1B; None].
Proof. vm_compute. reflexivity. Qed.
(** With two tracks of splice information the section is said to be six bytes longer than what is written of it, and has what was
    there before in their place (F154). *)
Theorem psi_two_splices_refuted : exists b, createPMT new_table [mkpt 0 (bs "SCTE35") false [] [] 0; mkpt 1 (bs "SCTE35") false [] [] 0] 0 = Ok b /\
  let e i := mkes 0x86 (255 + i) [(0, [0]); (5, bs "CUEI")] in
  takez (3 + 53) (dropz 5 b) = takez 52 ([2] ++ be 2 (0xB000 + 53) ++ dropz 3 (pmt_section 1 1 255 [(5, bs "CUEI")] [e 0; e 1] (repeat 0 6))) ++ takez 4 (dropz 57 b).
Proof. eexists. split; [vm_compute; reflexivity |]. vm_compute. reflexivity. Qed.
(** A stream that a later table gives a type that is not supported stays what it was (F155). *)
Theorem psi_changed_type_refuted : exists b s1 s2, createPMT new_table [mkpt 0 (bs "H264") true [] [] 0] 0 = Ok b /\ learn 0 (mkknown [4096] (fun _ => None) (fun _ => None)) (takez 188 b) = Ok s1 /\
  learn 0 s1 (splice (takez 188 b) 17 [0x10]) = Ok s2 /\ k_codec s1 255 = Some 0x1B /\ k_codec s2 255 = Some 0x1B.
Proof. do 3 eexists. split; [vm_compute; reflexivity |]. split; [vm_compute; reflexivity |]. split; [vm_compute; reflexivity |]. split; reflexivity. Qed.
(** AV1 with its registration is taken for JSON by a receiver that was told that raw data is JSON (F156). *)
Theorem psi_av1_json_refuted : exists b s, createPMT new_table [mkpt 0 (bs "AV1") true [] [] 0] 0 = Ok b /\ learn 0x060002 (mkknown [4096] (fun _ => None) (fun _ => None)) (takez 188 b) = Ok s /\ k_codec s 255 = Some 0x060002.
Proof. do 2 eexists. split; [vm_compute; reflexivity |]. split; [vm_compute; reflexivity |]. reflexivity. Qed.

Print Assumptions psi_assemble.
Print Assumptions psi_assemble_junk.
Print Assumptions psi_stale_refuted.
Print Assumptions psi_pat_read.
Print Assumptions psi_pmt_read.
Print Assumptions psi_pmt_overread_refuted.
Print Assumptions psi_buffer_new.
Print Assumptions psi_pmt_written.
Print Assumptions psi_pat_written.
Print Assumptions psi_round_trip.
Print Assumptions psi_service_buffer_new.
Print Assumptions psi_sdt_written_partial.
Print Assumptions psi_sdt_descriptor_refuted.
Print Assumptions psi_whole_way.
Print Assumptions psi_many_tracks_refuted.
Print Assumptions psi_id3_init_refuted.
Print Assumptions psi_raw_refuted.
Print Assumptions psi_two_splices_refuted.
Print Assumptions psi_changed_type_refuted.
Print Assumptions psi_av1_json_refuted.
