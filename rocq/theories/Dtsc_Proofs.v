(** Proofs about DTSC packets. *)
From Verif Require Import Common CommonFacts CommonMore Mem_Model Mem_Proofs Outcome_Model JsonVal_Model Scan_Model Dtmi_Spec Dtmi_Proofs DtmiScan_Proofs Dtsc_Model Dtsc_Spec.

(** ** Reading *)
(** Like [wire_packet], with the key member absent, set or cleared in place. *)
Definition key_member (k : option bool) : list (list Z * wv) :=
  match k with None => [] | Some true => [(bs "keyframe", WInt 1)] | Some false => [(bs "Keyframe", WInt 0)] end.
Definition body (off bpos : Z) (k : option bool) (data : list Z) : wv :=
  WObj 224 (opt (negb (off =? 0)) (bs "offset", WInt off) ++ opt (negb (bpos =? 0)) (bs "bpos", WInt (s64 bpos))
    ++ key_member k ++ [(bs "data", WStr data)]).
Definition pkt (time off track bpos : Z) (k : option bool) (data : list Z) : list Z :=
  bs "DTP2" ++ be 4 (12 + len (enc (body off bpos k data))) ++ be 4 track ++ be 8 time ++ enc (body off bpos k data).
Definition kflag (k : option bool) : bool := match k with Some true => true | _ => false end.

Lemma s64_range x : - 2 ^ 63 <= s64 x < 2 ^ 63.
Proof. unfold s64, u64. cbv zeta. change (2 ^ 63) with 9223372036854775808. dif; lia. Qed.
Lemma u64_s64 x : 0 <= x < 2 ^ 64 -> u64 (s64 x) = x.
Proof. unfold s64, u64. cbv zeta. change (2 ^ 64) with 18446744073709551616. intros H. dif; lia. Qed.
Lemma be_s64 x : be 8 (s64 x) = be 8 x.
Proof.
  rewrite <- (be_mod 8 (s64 x)), <- (be_mod 8 x). f_equal. change (256 ^ Z.of_nat 8) with 18446744073709551616. unfold s64, u64. cbv zeta. dif; lia.
Qed.

Lemma body_ok off bpos k data : - 2 ^ 63 <= off < 2 ^ 63 -> bytesP data -> len data < 2 ^ 32 -> wok (body off bpos k data).
Proof.
  intros O B D. constructor; [now left|]. rewrite !Forall_app.
  assert (K : Forall (fun e => 0 < len (fst e) < 65536 /\ bytesP (fst e) /\ wok (snd e)) (key_member k)).
  { destruct k as [[|]|]; cbn [key_member]; [| |constructor]; (constructor; [|constructor]); cbn [fst snd];
    (split; [vm_compute; split; reflexivity|]); (split; [now apply all_bytes_ok|]); constructor; change (2 ^ 63) with 9223372036854775808; lia. }
  split; [|split; [|split; [exact K|]]].
  - unfold opt. destruct (negb (off =? 0)); constructor; [|constructor]. cbn [fst snd].
    split; [vm_compute; split; reflexivity|]. split; [now apply all_bytes_ok|]. now constructor.
  - unfold opt. destruct (negb (bpos =? 0)); constructor; [|constructor]. cbn [fst snd].
    split; [vm_compute; split; reflexivity|]. split; [now apply all_bytes_ok|]. constructor. apply s64_range.
  - constructor; [|constructor]. cbn [fst snd]. split; [vm_compute; split; reflexivity|]. split; [now apply all_bytes_ok|]. now constructor.
Qed.

Lemma len_body off bpos k data : len (enc (body off bpos k data)) =
  4 + (if negb (off =? 0) then 17 else 0) + (if negb (bpos =? 0) then 15 else 0) + (match k with None => 0 | _ => 19 end) + 11 + len data.
Proof.
  unfold body. rewrite enc_obj, len_cons, len_app. change (len [0; 0; 238]) with 3.
  rewrite !flat_map_app, !len_app. unfold opt.
  assert (E1 : len (flat_map encm (if negb (off =? 0) then [(bs "offset", WInt off)] else [])) = if negb (off =? 0) then 17 else 0).
  { destruct (negb (off =? 0)); [|reflexivity]. cbn [flat_map]. unfold encm. cbn [fst snd enc]. rewrite app_nil_r, !len_app, len_cons, !be_len. reflexivity. }
  assert (E2 : len (flat_map encm (if negb (bpos =? 0) then [(bs "bpos", WInt (s64 bpos))] else [])) = if negb (bpos =? 0) then 15 else 0).
  { destruct (negb (bpos =? 0)); [|reflexivity]. cbn [flat_map]. unfold encm. cbn [fst snd enc]. rewrite app_nil_r, !len_app, len_cons, !be_len. reflexivity. }
  assert (E3 : len (flat_map encm (key_member k)) = match k with None => 0 | _ => 19 end) by (destruct k as [[|]|]; reflexivity).
  assert (E4 : len (flat_map encm [(bs "data", WStr data)]) = 11 + len data).
  { cbn [flat_map]. unfold encm. cbn [fst snd enc]. rewrite app_nil_r, !len_app, len_cons, len_app, !be_len. change (len (bs "data")) with 4. lia. }
  rewrite E1, E2, E3, E4. lia.
Qed.

Lemma no0 s : forallb (fun c => negb (c =? 0)) s = true -> ~ In 0 s.
Proof. intros H I. rewrite forallb_forall in H. now specialize (H 0 I). Qed.

Section Reports.
Context (time off track bpos : Z) (k : option bool) (data slack : list Z) (p : packet).
Context (Ht : 0 <= time < 2 ^ 64) (Ho : - 2 ^ 63 <= off < 2 ^ 63) (Hk : 0 <= track < 2 ^ 32) (Hb : 0 <= bpos < 2 ^ 64)
  (Hd : bytesP data) (Hl : len data + 86 < 2 ^ 32) (Hs : bytesP slack).
Context (Hp : pdata p = Some (pkt time off track bpos k data ++ slack)) (Hn : dlen p = len (pkt time off track bpos k data)) (Hv : ver p = V_2).
Let B := enc (body off bpos k data).
Let m := pkt time off track bpos k data ++ slack.

Lemma len_pkt : len (pkt time off track bpos k data) = 20 + len B.
Proof. unfold pkt. rewrite !len_app, !be_len. change (len (bs "DTP2")) with 4. unfold B. lia. Qed.
Lemma B_bound : 0 < len B /\ 20 + len B < 2 ^ 32.
Proof. unfold B. rewrite len_body. pose proof (len_nonneg data). destruct k; dif; lia. Qed.
Lemma m_parts : has m 0 (bs "DTP2") /\ has m 4 (be 4 (12 + len B)) /\ has m 8 (be 4 track) /\ has m 12 (be 8 time) /\ has m 20 B.
Proof.
  assert (H : has m 0 (pkt time off track bpos k data)) by (now exists [], slack).
  unfold pkt in H. fold B in H. apply has_app in H as [H1 H]. change (0 + len (bs "DTP2")) with 4 in H.
  apply has_app in H as [H2 H]. rewrite be_len in H. apply has_app in H as [H3 H]. rewrite be_len in H. apply has_app in H as [H4 H]. rewrite be_len in H.
  auto.
Qed.
Lemma m_bytes : bytesP m.
Proof.
  unfold m, pkt. rewrite !bytesP_app. repeat split; try apply be_bytes; try assumption; [now apply all_bytes_ok|].
  unfold body. rewrite enc_obj, bytesP_cons, bytesP_app. split; [unfold byteP; lia|]. split; [|now apply all_bytes_ok].
  rewrite !flat_map_app, !bytesP_app. unfold opt, encm. repeat split.
  - destruct (negb (off =? 0)); [|constructor]. cbn [flat_map fst snd enc]. rewrite app_nil_r, !bytesP_app, bytesP_cons. repeat split; try apply be_bytes; try (now apply all_bytes_ok); try (unfold byteP; lia).
  - destruct (negb (bpos =? 0)); [|constructor]. cbn [flat_map fst snd enc]. rewrite app_nil_r, !bytesP_app, bytesP_cons. repeat split; try apply be_bytes; try (now apply all_bytes_ok); try (unfold byteP; lia).
  - destruct k as [[|]|]; now apply all_bytes_ok.
  - cbn [flat_map fst snd enc]. rewrite app_nil_r, !bytesP_app, bytesP_cons, bytesP_app. repeat split; try apply be_bytes; try assumption; try (now apply all_bytes_ok); try (unfold byteP; lia).
Qed.
Lemma getScan_ok : getScan p = Ok (Some (mkScan 20 (len B))) /\ valid p = Ok true.
Proof.
  pose proof B_bound as [B1 B2]. change (2 ^ 32) with 4294967296 in *.
  assert (V : valid p = Ok true).
  { unfold valid. rewrite Hp, Hn, Hv, len_pkt. fold m. replace (20 + len B <? 8) with false by lia. change (V_2 =? V_INVALID) with false. cbv iota.
    destruct m_parts as (_ & H & _). rewrite <- (app_nil_r (be 4 _)) in H. rewrite (has_getbe _ _ 4 _ _ _ H) by reflexivity.
    change (256 ^ Z.of_nat 4) with 4294967296. rewrite (Z.mod_small (12 + len B)) by lia. rewrite u32_id by lia. f_equal. lia. }
  split; [|exact V]. unfold getScan. rewrite V. unfold getPayloadLen. rewrite Hv, Hn, len_pkt. change (V_2 =? V_2) with true. cbv iota.
  rewrite u32_id by lia. cbn [negb orb]. replace (20 + len B =? 0) with false by lia. replace (20 + len B - 20 =? 0) with false by lia.
  replace (20 + len B <=? 20 + len B - 20) with false by lia. cbn [orb]. do 3 f_equal; lia.
Qed.

Lemma look name w : ~ In 0 name ->
  first_of name (opt (negb (off =? 0)) (bs "offset", WInt off) ++ opt (negb (bpos =? 0)) (bs "bpos", WInt (s64 bpos)) ++ key_member k ++ [(bs "data", WStr data)]) = Some w ->
  exists s, returns (fun n => member n name p) (Some s) /\ reads m (Some s) w.
Proof.
  intros N F.
  assert (R : reads m (Some (mkScan 20 (len B))) (body off bpos k data)).
  { apply (reads_enc m m_bytes); [apply body_ok; try assumption; lia|apply m_parts|unfold B; lia]. }
  inversion R as [| | | | |s0 t0 l0 R1 R2 R3 R4 R5 R6]; subst. destruct (R5 _ _ N F) as (s & S1 & S2).
  exists s. split; [|exact S2]. unfold member. destruct getScan_ok as [-> _]. rewrite Hp. exact S1.
Qed.
Lemma look_none name : ~ In 0 name ->
  first_of name (opt (negb (off =? 0)) (bs "offset", WInt off) ++ opt (negb (bpos =? 0)) (bs "bpos", WInt (s64 bpos)) ++ key_member k ++ [(bs "data", WStr data)]) = None ->
  returns (fun n => member n name p) None.
Proof.
  intros N F.
  assert (R : reads m (Some (mkScan 20 (len B))) (body off bpos k data)).
  { apply (reads_enc m m_bytes); [apply body_ok; try assumption; lia|apply m_parts|unfold B; lia]. }
  inversion R as [| | | | |s0 t0 l0 R1 R2 R3 R4 R5 R6]; subst.
  unfold member. destruct getScan_ok as [-> _]. rewrite Hp. exact (R6 _ N F).
Qed.

Lemma getInt_some d t name n : ~ In 0 name ->
  first_of name (opt (negb (off =? 0)) (bs "offset", WInt off) ++ opt (negb (bpos =? 0)) (bs "bpos", WInt (s64 bpos)) ++ key_member k ++ [(bs "data", WStr data)]) = Some (WInt n) ->
  returns (fun f => getInt d t f name p) (u64 n).
Proof.
  intros N F. destruct (look name (WInt n) N F) as (s & S1 & S2). unfold getInt.
  apply (returns_bind _ (fun s _ => x <~ match pdata p with Some b => asInt b d t s | None => Ok 0 end;; Ok (u64 x)) (Some s)); [exact S1|].
  rewrite Hp. fold m. inversion S2 as [s' n' T A| | | | |]; subst. rewrite A. apply returns_ok.
Qed.
Lemma getInt_none d t name : ~ In 0 name ->
  first_of name (opt (negb (off =? 0)) (bs "offset", WInt off) ++ opt (negb (bpos =? 0)) (bs "bpos", WInt (s64 bpos)) ++ key_member k ++ [(bs "data", WStr data)]) = None ->
  returns (fun f => getInt d t f name p) 0.
Proof.
  intros N F. pose proof (look_none name N F) as S1. unfold getInt.
  apply (returns_bind _ (fun s _ => x <~ match pdata p with Some b => asInt b d t s | None => Ok 0 end;; Ok (u64 x)) None); [exact S1|].
  rewrite Hp. apply returns_ok.
Qed.

Lemma reports_pkt : reports p (mkF time off track data bpos (kflag k)).
Proof.
  destruct getScan_ok as [_ V]. destruct m_parts as (_ & P4 & P8 & P12 & _). pose proof B_bound as [B1 B2]. change (2 ^ 32) with 4294967296 in *.
  unfold reports. cbn [f_time f_offset f_track f_data f_bpos f_key].
  split; [exact V|]. split; [|split; [|split; [|split; [|split; [|split]]]]].
  - unfold getTime, with_data. rewrite Hv, Hp. fold m. change (negb (V_2 =? V_2)) with false. cbv iota.
    rewrite <- (app_nil_r (be 8 time)) in P12. rewrite (has_getbe _ _ 8 _ _ _ P12) by reflexivity.
    change (256 ^ Z.of_nat 8) with (2 ^ 64). rewrite Z.mod_small by assumption. apply returns_ok.
  - unfold getTrackId, with_data. rewrite Hv, Hp. fold m. change (negb (V_2 =? V_2)) with false. cbv iota.
    rewrite <- (app_nil_r (be 4 track)) in P8. rewrite (has_getbe _ _ 4 _ _ _ P8) by reflexivity.
    change (256 ^ Z.of_nat 4) with 4294967296. rewrite Z.mod_small by assumption. apply returns_ok.
  - intros d t. destruct (off =? 0) eqn:E.
    + replace (u64 off) with 0 by (replace off with 0 by lia; reflexivity). apply getInt_none; [now apply no0|].
      unfold opt. rewrite E. cbn [negb app]. destruct (bpos =? 0); destruct k as [[|]|]; reflexivity.
    + apply getInt_some; [now apply no0|]. unfold opt. rewrite E. reflexivity.
  - intros d t. destruct (bpos =? 0) eqn:E.
    + assert (bpos = 0) as E0 by lia. rewrite E0. apply getInt_none; [now apply no0|].
      unfold opt. rewrite E. destruct (off =? 0); destruct k as [[|]|]; reflexivity.
    + rewrite <- (u64_s64 bpos) by assumption. apply getInt_some; [now apply no0|]. unfold opt. rewrite E. destruct (off =? 0); reflexivity.
  - intros d t. unfold getFlag.
    apply (returns_bind _ (fun x _ => Ok (negb (x =? 0))) (if kflag k then u64 1 else 0)); [|destruct (kflag k); apply returns_ok].
    destruct (kflag k) eqn:Ek.
    + apply getInt_some; [now apply no0|]. unfold opt. destruct k as [[|]|]; try discriminate Ek; destruct (off =? 0), (bpos =? 0); reflexivity.
    + apply getInt_none; [now apply no0|]. unfold opt. destruct k as [[|]|]; try discriminate Ek; destruct (off =? 0), (bpos =? 0); reflexivity.
  - destruct (look (bs "data") (WStr data)) as (s & S1 & S2); [now apply no0| |].
    { unfold opt. destruct (off =? 0), (bpos =? 0), k as [[|]|]; reflexivity. }
    unfold getStr. apply (returns_bind _ (fun s _ => match pdata p with Some b => getText b s | None => Ok [] end) (Some s)); [exact S1|].
    rewrite Hp. fold m. inversion S2 as [|s' x T A| | | |]; subst. rewrite A. apply returns_ok.
  - exists m. split; [exact Hp|]. split; [rewrite Hn; unfold m; rewrite len_app; pose proof (len_nonneg slack); lia|].
    rewrite <- (app_nil_r (be 4 (12 + len B))) in P4. rewrite (has_getbe _ _ 4 _ _ _ P4) by reflexivity.
    change (256 ^ Z.of_nat 4) with 4294967296. rewrite Z.mod_small by lia. rewrite Hn, len_pkt. f_equal. lia.
Qed.
End Reports.

(** ** Writing *)
Lemma put_mid a x y c o : o = len a -> len x = len y -> put (a ++ x ++ c) o y = Ok (a ++ y ++ c).
Proof.
  intros -> H. unfold put. pose proof (len_nonneg a). pose proof (len_nonneg c). rewrite poke_some; [|assumption|rewrite !len_app; lia].
  f_equal. unfold splice. rewrite takez_app_exact by reflexivity. rewrite dropz_app_ge by (pose proof (len_nonneg y); lia).
  rewrite dropz_app_exact by lia. reflexivity.
Qed.
Lemma put_next a c b o : o = len a -> len b <= len c -> put (a ++ c) o b = Ok (a ++ b ++ dropz (len b) c).
Proof.
  intros H1 H. rewrite <- (takez_dropz (len b) c) at 1. apply put_mid; [assumption|].
  apply len_takez. pose proof (len_nonneg b). lia.
Qed.
Lemma put_fill j a b k o : o = len a -> len b <= k -> put (a ++ repeat j (Z.to_nat k)) o b = Ok ((a ++ b) ++ repeat j (Z.to_nat (k - len b))).
Proof.
  intros H1 H2. pose proof (len_nonneg b).
  rewrite put_next; [|assumption|unfold len at 2; rewrite repeat_length; lia]. f_equal. rewrite <- app_assoc. do 2 f_equal.
  replace (Z.to_nat k) with (Z.to_nat (len b) + Z.to_nat (k - len b))%nat by lia. rewrite repeat_app.
  apply dropz_app_exact. unfold len at 2. rewrite repeat_length. lia.
Qed.

Lemma l_dtp2 : len (bs "DTP2") = 4. Proof. reflexivity. Qed.
Lemma l_offset : len (bs "offset") = 6. Proof. reflexivity. Qed.
Lemma l_bpos : len (bs "bpos") = 4. Proof. reflexivity. Qed.
Lemma l_data : len (bs "data") = 4. Proof. reflexivity. Qed.
Lemma l_key : len (bs "keyframe") = 8. Proof. reflexivity. Qed.
Lemma l_nokey : len (bs "Keyframe") = 8. Proof. reflexivity. Qed.
Lemma l_nil : len (@nil Z) = 0. Proof. reflexivity. Qed.
Ltac lens := repeat progress (rewrite ?len_app, ?be_len, ?len_cons, ?l_dtp2, ?l_offset, ?l_bpos, ?l_data, ?l_key, ?l_nokey, ?l_nil in * ); lia.

Definition key_of (b : bool) : option bool := if b then Some true else None.
Lemma wire_pkt f : wire_packet f = pkt (f_time f) (f_offset f) (f_track f) (f_bpos f) (key_of (f_key f)) (f_data f).
Proof. unfold wire_packet, pkt, object_of, body. now destruct (f_key f). Qed.

Section Build.
Context (junk : Z).
Lemma genericFill_ok f p : fields_ok f -> f_data f <> [] ->
  genericFill junk (f_time f) (f_offset f) (f_track f) (Some (f_data f)) (len (f_data f)) (f_bpos f) (f_key f) p =
  Ok (mkP (Some (wire_packet f)) true (len (wire_packet f)) V_2 (nal p)).
Proof.
  intros (Ht & Ho & Hk & Hb & Hd & Hl) Hne. rewrite wire_pkt.
  destruct f as [time off track data bpos key]. cbn [f_time f_offset f_track f_data f_bpos f_key] in *.
  assert (0 < len data) by (destruct data; [congruence|rewrite len_cons; pose proof (len_nonneg data); lia]).
  change (2 ^ 32) with 4294967296 in *.
  rewrite len_pkt, len_body. unfold genericFill. replace (len data <? 1) with false by lia. cbv iota beta zeta.
  change (match Some data with Some _ => true | None => false end) with true. cbv iota. cbn [andb].
  set (L := 24 + (if negb (off =? 0) then 17 else 0) + (if negb (bpos =? 0) then 15 else 0) + (if key then 19 else 0) + len data + 11).
  assert (LB : 35 <= L - len data <= 86) by (unfold L; dif; lia).
  assert (EL : 20 + (4 + (if negb (off =? 0) then 17 else 0) + (if negb (bpos =? 0) then 15 else 0) + match key_of key with Some _ => 19 | None => 0 end + 11 + len data) = L) by (unfold L; destruct key; cbn [key_of]; lia).
  rewrite EL. unfold u32. rewrite (Z.mod_small L) by lia.
  assert (G : grow junk [] L = [] ++ repeat junk (Z.to_nat L)).
  { unfold grow. change (len (@nil Z)) with 0. replace (0 <? L) with true by lia. now rewrite Z.sub_0_r. }
  rewrite G. clear G.
  unfold pkt. rewrite len_body. replace (12 + _) with (L - 8) by lia. clear EL.
  change (match Some data with Some x => getn x 0 (len data) | None => if len data =? 0 then Ok [] else Ub end) with (getn data 0 (len data)).
  rewrite (has_getn data 0 data) by (try reflexivity; apply has_self).
  unfold body. rewrite enc_obj, !flat_map_app. unfold opt.
  destruct (negb (off =? 0)), (negb (bpos =? 0)), key; cbn [key_of key_member flat_map]; unfold encm; cbn [fst snd enc]; rewrite ?be_s64.
  all: subst L.
  all: repeat (rewrite put_fill; [|lens|lens]).
  all: match goal with |- Ok (mkP (Some (?a ++ repeat _ (Z.to_nat ?n))) _ _ _ _) = _ => replace n with 0 by lens; change (repeat junk (Z.to_nat 0)) with (@nil Z) end.
  all: f_equal; f_equal; f_equal; rewrite ?app_nil_r, <- ?app_assoc; reflexivity.
Qed.
End Build.
