From Verif Require Import Common CommonFacts Outcome_Model Mp4_Model Mp4_Spec Mp4_Proofs Meta_Model Meta_Spec MetaFind_Model MetaFind_Spec Cmaf_Model Cmaf_Spec.

(** ** Fields added to a box *)
Lemma pad_int b ty pl n v i g : (0 < n)%nat -> rep b ty pl [] -> i = len pl + g -> 0 <= g -> i + Z.of_nat n + 8 < 2 ^ 31 ->
  exists b', setInt n v i b = Ok b' /\ rep b' ty (pl ++ zeros g ++ be n v) [].
Proof.
  intros Hn R -> Hg L. destruct (setInt_end b ty pl [] n v (len pl + g) Hn R ltac:(lia) ltac:(cbn; lia)) as (b' & gap & s' & E & R' & _ & Z1 & _).
  destruct (Z1 eq_refl) as (-> & ->). exists b'. split; [exact E |]. replace (len pl + g - len pl) with g in R' by lia. exact R'.
Qed.
Lemma add_int b ty pl n v i : (0 < n)%nat -> rep b ty pl [] -> i = len pl -> i + Z.of_nat n + 8 < 2 ^ 31 ->
  exists b', setInt n v i b = Ok b' /\ rep b' ty (pl ++ be n v) [].
Proof. intros Hn R -> L. apply (pad_int b ty pl n v (len pl) 0 Hn R); lia. Qed.
Lemma put_int b ty a x c n v i : (0 < n)%nat -> rep b ty (a ++ x ++ c) [] -> i = len a -> len x = Z.of_nat n ->
  exists b', setInt n v i b = Ok b' /\ rep b' ty (a ++ be n v ++ c) [].
Proof.
  intros Hn R -> Lx. pose proof (len_nonneg a). pose proof (len_nonneg c). destruct (setInt_in b ty (a ++ x ++ c) [] n v (len a) Hn R ltac:(lia) ltac:(rewrite !len_app; lia)) as (b' & E & R').
  exists b'. split; [exact E |]. rewrite splice_parts in R' by (rewrite be_len; exact Lx). exact R'.
Qed.
Lemma at_int b ty a v c n i : (0 < n)%nat -> rep b ty (a ++ be n v ++ c) [] -> i = len a -> 0 <= v < 256 ^ Z.of_nat n -> getIntC n i b = Ok v /\ getInt n i b = Ok (b, v).
Proof.
  intros Hn R -> B. pose proof (len_nonneg a). pose proof (len_nonneg c).
  rewrite (getIntC_in _ _ _ _ _ _ Hn R), (getInt_in _ _ _ _ _ _ Hn R) by (rewrite ?len_app, ?be_len; lia).
  rewrite dropz_app_exact by reflexivity. rewrite takez_app_exact by (rewrite be_len; reflexivity). rewrite unbe_be, Z.mod_small by exact B. auto.
Qed.

(** ** The boxes *)
Definition mfhd_pl (seq : Z) : list Z := be 4 0 ++ be 4 (u32 seq).
Lemma mfhd_ok seq : exists b, mfhd seq = Ok b /\ rep b (bs "mfhd") (mfhd_pl seq) [].
Proof.
  unfold mfhd. destruct (add_int (newBox (bs "mfhd")) (bs "mfhd") [] 4 0 0 ltac:(lia) (rep_new (bs "mfhd") eq_refl) eq_refl ltac:(lia)) as (b & E & R). rewrite E.
  destruct (add_int b _ _ 4 (u32 seq) 4 ltac:(lia) R ltac:(rewrite len_app, be_len; reflexivity) ltac:(lia)) as (b2 & E2 & R2). rewrite E2. exists b2. split; [reflexivity | exact R2].
Qed.
Definition tflags : Z := 131106.
Definition default_flags (v : bool) : Z := if v then 16842752 else 33554432.
Definition tfhd_pl (v : bool) (id : Z) : list Z := zeros 1 ++ be 3 tflags ++ be 4 id ++ be 4 1 ++ be 4 (default_flags v).
Lemma tfhd_ok t track : exists b, tfhdOf t track = Ok b /\ rep b (bs "tfhd") (tfhd_pl (video t) (u32 (track + 1))) [].
Proof.
  unfold tfhdOf. change (tfhdSampleFlag .| tfhdBaseIsMoof .| tfhdSampleDesc) with tflags.
  destruct (pad_int (newBox (bs "tfhd")) (bs "tfhd") [] 3 tflags 1 1 ltac:(lia) (rep_new (bs "tfhd") eq_refl) eq_refl ltac:(lia) ltac:(lia)) as (b1 & E1 & R1). rewrite E1. cbn [app] in R1.
  destruct (add_int b1 _ _ 4 (u32 (track + 1)) 4 ltac:(lia) R1 ltac:(rewrite len_app, len_zeros, be_len by lia; reflexivity) ltac:(lia)) as (b2 & E2 & R2). rewrite E2.
  rewrite <- app_assoc in R2.
  assert (G : forall b r, rep b (bs "tfhd") (zeros 1 ++ be 3 tflags ++ r) [] -> getInt 3 1 b = Ok (b, tflags)) by (intros b r R; apply (at_int b _ _ _ _ 3 1 ltac:(lia) R); [rewrite len_zeros by lia; reflexivity | unfold tflags; cbn; lia]).
  unfold setDefaultSampleDuration, setDefaultSampleSize, setDefaultSampleFlags, setSampleDescriptionIndex, tfhd_set. rewrite (G _ _ R2). cbn [snd fst].
  change (has tflags tfhdSampleDura) with false. cbv iota. rewrite (G _ _ R2). cbn [snd fst]. change (has tflags tfhdSampleSize) with false. cbv iota. rewrite (G _ _ R2). cbn [snd fst fold_left].
  change (has tflags tfhdSampleFlag) with true. change (has tflags tfhdBaseOffset) with false. change (has tflags tfhdSampleDesc) with true. change (has tflags tfhdSampleDura) with false. change (has tflags tfhdSampleSize) with false. cbv iota.
  change (if video t then noIPicture .| noKeySample else isIPicture .| isKeySample) with (default_flags (video t)).
  destruct (pad_int b2 _ _ 4 (default_flags (video t)) (8 + 4) 4 ltac:(lia) R2 ltac:(rewrite !len_app, len_zeros, !be_len by lia; reflexivity) ltac:(lia) ltac:(lia)) as (b3 & E3 & R3). rewrite E3. rewrite <- !app_assoc in R3. rewrite (G _ _ R3). cbn [snd fst fold_left].
  change (has tflags tfhdBaseOffset) with false. cbv iota. rewrite (app_assoc (zeros 1)), (app_assoc (zeros 1 ++ be 3 tflags)) in R3.
  destruct (put_int b3 _ _ (zeros 4) _ 4 1 8 ltac:(lia) R3 ltac:(rewrite !len_app, len_zeros, !be_len by lia; reflexivity) ltac:(rewrite len_zeros; lia)) as (b4 & E4 & R4). rewrite E4. exists b4. split; [reflexivity |].
  unfold tfhd_pl. rewrite <- !app_assoc in R4. exact R4.
Qed.
Definition tfdt_pl (time : Z) : list Z := be 1 1 ++ be 3 0 ++ be 8 time.
Lemma tfdt_ok time : exists b d, tfdt = Ok d /\ setBaseMediaDecodeTime time d = Ok b /\ rep b (bs "tfdt") (tfdt_pl time) [].
Proof.
  unfold tfdt. destruct (add_int (newBox (bs "tfdt")) (bs "tfdt") [] 1 1 0 ltac:(lia) (rep_new (bs "tfdt") eq_refl) eq_refl ltac:(lia)) as (b & E & R). rewrite E.
  destruct (add_int b _ _ 3 0 1 ltac:(lia) R ltac:(rewrite len_app, be_len; reflexivity) ltac:(lia)) as (b2 & E2 & R2). rewrite E2. cbn [app] in R2.
  assert (G : forall b r, rep b (bs "tfdt") (be 1 1 ++ r) [] -> getIntC 1 0 b = Ok 1) by (intros b' r R'; apply (at_int b' _ [] _ _ 1 0 ltac:(lia) R'); [reflexivity | cbn; lia]).
  unfold setBaseMediaDecodeTime at 1. rewrite (G _ _ R2). cbn [Z.eqb Pos.eqb].
  destruct (add_int b2 _ _ 8 0 4 ltac:(lia) R2 ltac:(rewrite len_app, !be_len; reflexivity) ltac:(lia)) as (b3 & E3 & R3). rewrite <- app_assoc in R3.
  unfold setBaseMediaDecodeTime. rewrite app_assoc in R3. rewrite <- (app_nil_r (be 8 0)) in R3.
  destruct (put_int b3 _ _ _ _ 8 time 4 ltac:(lia) R3 ltac:(rewrite len_app, !be_len; reflexivity) ltac:(rewrite be_len; reflexivity)) as (b4 & E4 & R4).
  exists b4, b3. split; [exact E3 |]. rewrite <- app_assoc in R3. rewrite (G _ _ R3). cbn [Z.eqb Pos.eqb]. split; [exact E4 |]. rewrite app_nil_r, <- app_assoc in R4. exact R4.
Qed.

(** ** The run *)
Definition rflags : Z := 2821.
Definition entry (e : Z * Z * Z) : list Z := be 4 (fst (fst e)) ++ be 4 (snd (fst e)) ++ be 4 (snd e).
Definition entries (l : list (Z * Z * Z)) : list Z := List.concat (map entry l).
Definition trun_pl (off : Z) (l : list (Z * Z * Z)) : list Z := zeros 1 ++ be 3 rflags ++ be 4 (len l) ++ be 4 off ++ be 4 33554432 ++ entries l.
Lemma entries_len l : len (entries l) = 12 * len l.
Proof.
  induction l as [| e l IH]; [reflexivity |]. unfold entries in *. cbn [map List.concat]. rewrite len_app, IH, len_cons. unfold entry. rewrite !len_app, !be_len. lia.
Qed.
Lemma entries_app k l : entries (k ++ l) = entries k ++ entries l.
Proof. unfold entries. rewrite map_app, concat_app. reflexivity. Qed.
Lemma trun_flags b c r : rep b (bs "trun") (zeros 1 ++ be 3 rflags ++ be 4 c ++ r) [] -> getIntC 3 1 b = Ok rflags.
Proof. intros R. apply (at_int b _ _ _ _ 3 1 ltac:(lia) R); [rewrite len_zeros by lia; reflexivity | unfold rflags; cbn; lia]. Qed.
Lemma sample_ok b off l d s g o : rep b (bs "trun") (trun_pl off l) [] -> 12 * len l + 100 < 2 ^ 31 ->
  exists b', setSampleInformation d s g o (len l) b = Ok b' /\ rep b' (bs "trun") (trun_pl off (l ++ [(d, s, o)])) [].
Proof.
  intros R L. pose proof (len_nonneg l). unfold setSampleInformation. unfold trun_pl in R. rewrite (trun_flags b _ _ R).
  change (has rflags trunsampleDuration) with true. change (has rflags trunsampleSize) with true. change (has rflags trunsampleFlags) with false. change (has rflags trunsampleOffsets) with true.
  change (has rflags trundataOffset) with true. change (has rflags trunfirstSampleFlags) with true. cbv iota zeta. cbn [fst snd].
  assert (LP : len (zeros 1 ++ be 3 rflags ++ be 4 (len l) ++ be 4 off ++ be 4 33554432 ++ entries l) = 16 + 12 * len l) by (rewrite !len_app, !be_len, len_zeros, entries_len by lia; lia).
  destruct (add_int b _ _ 4 d (u32 (8 + 4 + 4 + len l * (4 * (1 + 1 + 0 + 1)) + 0)) ltac:(lia) R ltac:(rewrite LP, u32_id by lia; lia) ltac:(rewrite u32_id by lia; lia)) as (b1 & E1 & R1). rewrite E1. cbn [fst snd].
  destruct (add_int b1 _ _ 4 s (u32 (8 + 4 + 4 + len l * (4 * (1 + 1 + 0 + 1)) + (0 + 4))) ltac:(lia) R1 ltac:(rewrite len_app, LP, be_len, u32_id by lia; lia) ltac:(rewrite u32_id by lia; lia)) as (b2 & E2 & R2). rewrite E2. cbn [fst snd].
  destruct (add_int b2 _ _ 4 o (u32 (8 + 4 + 4 + len l * (4 * (1 + 1 + 0 + 1)) + (0 + 4 + 4))) ltac:(lia) R2 ltac:(rewrite (len_app _ (be 4 s)), (len_app _ (be 4 d)), LP, !be_len, u32_id by lia; lia) ltac:(rewrite u32_id by lia; lia)) as (b3 & E3 & R3). rewrite E3. cbn [fst snd].
  replace ((((zeros 1 ++ be 3 rflags ++ be 4 (len l) ++ be 4 off ++ be 4 33554432 ++ entries l) ++ be 4 d) ++ be 4 s) ++ be 4 o) with ((zeros 1 ++ be 3 rflags) ++ be 4 (len l) ++ be 4 off ++ be 4 33554432 ++ entries (l ++ [(d, s, o)])) in R3
    by (rewrite entries_app; unfold entries at 2; cbn [map List.concat]; unfold entry; cbn [fst snd]; rewrite app_nil_r, <- !app_assoc; reflexivity).
  destruct (at_int b3 _ _ _ _ 4 4 ltac:(lia) R3 ltac:(rewrite len_app, len_zeros, be_len by lia; reflexivity) ltac:(cbn; lia)) as (G & _). rewrite G. rewrite u32_id by lia.
  destruct (Z.ltb_spec (len l) (len l + 1)); [| lia].
  destruct (put_int b3 _ _ _ _ 4 (len l + 1) 4 ltac:(lia) R3 ltac:(rewrite len_app, len_zeros, be_len by lia; reflexivity) ltac:(rewrite be_len; reflexivity)) as (b4 & E4 & R4). exists b4. split; [exact E4 |].
  unfold trun_pl. rewrite len_app. change (len [(d, s, o)]) with 1. rewrite <- app_assoc in R4. exact R4.
Qed.
(** The packets of a segment, the data of each, and the time of the packet after them. *)
Notation seg := (list (packet * list Z)).
Definition next_time (r : seg) (nxt : Z) : Z := match r with (q, _) :: _ => p_time q | [] => nxt end.
Fixpoint parts_are (t : track) (a : Z) (l : seg) (nxt : Z) : Prop :=
  match l with
  | [] => True
  | (p, d) :: r =>
      Meta_Model.at_ (parts t) a = mkpart (len d) (next_time r nxt - p_time p) (p_off p) /\ parts_are t (a + 1) r nxt
  end.
Fixpoint ord (a pos : Z) (l : seg) : list sortPart :=
  match l with [] => [] | (p, d) :: r => (p_time p, a, pos) :: ord (a + 1) (pos + len d) r end.
Fixpoint rows (until : Z) (l : seg) : list (Z * Z * Z) :=
  match l with [] => [] | (p, d) :: r => (next_time r until - p_time p, len d, u32 (p_off p)) :: rows until r end.
Lemma rows_len until l : len (rows until l) = len l.
Proof. induction l as [| (p, d) l IH]; [reflexivity |]. cbn [rows]. rewrite !len_cons, IH. reflexivity. Qed.
Fixpoint rising (l : seg) (until : Z) : Prop :=
  match l with [] => True | (p, _) :: r => 0 <= p_time p < next_time r until /\ rising r until end.
Fixpoint short (l : seg) (until : Z) : Prop :=
  match l with [] => True | (p, _) :: r => next_time r until - p_time p < 2 ^ 32 /\ short r until end.
Lemma trun_loop_ok t until nxt off l : forall a pos done b, parts_are t a l nxt -> rising l until -> short l until -> until < 2 ^ 64 -> Forall (fun x => 0 <= len (snd x) < 2 ^ 32) l ->
  rep b (bs "trun") (trun_pl off done) [] -> 12 * (len done + len l) + 100 < 2 ^ 31 ->
  exists b', trun_loop t until (ord a pos l) (len done) b = Ok b' /\ rep b' (bs "trun") (trun_pl off (done ++ rows until l)) [].
Proof.
  induction l as [| (p, d) l IH]; intros a pos done b P Ri Sh U Sz R L; cbn [ord trun_loop rows].
  - exists b. rewrite app_nil_r. auto.
  - destruct P as (Pa & P). destruct Ri as (R1 & Ri). destruct Sh as (S1 & Sh). inversion Sz as [| ? ? Sz1 Sz2]; subst. cbn [snd] in Sz1. cbn [s_part fst snd]. rewrite Pa. cbn [pt_size pt_dur pt_off]. rewrite len_cons in L. pose proof (len_nonneg l). pose proof (len_nonneg done).
    assert (D : u32 (match ord (a + 1) (pos + len d) l with [] => u64 (until - s_time (p_time p, a, pos)) | _ => next_time l nxt - p_time p end) = next_time l until - p_time p).
    { destruct l as [| (q, e) l]; cbn [ord next_time] in *; unfold s_time; cbn [fst]; [unfold u64; rewrite Z.mod_small by lia |]; apply u32_id; lia. }
    rewrite D. destruct (sample_ok b off done (next_time l until - p_time p) (len d) 0 (u32 (p_off p)) R ltac:(lia)) as (b1 & E1 & R1'). rewrite E1.
    replace (len done + 1) with (len (done ++ [(next_time l until - p_time p, len d, u32 (p_off p))])) by (rewrite len_app; reflexivity).
    destruct (IH (a + 1) (pos + len d) _ b1 P Ri Sh U Sz2 R1') as (b2 & E2 & R2); [rewrite len_app; change (len [_]) with 1; lia |]. exists b2. split; [exact E2 |]. rewrite <- app_assoc in R2. exact R2.
Qed.
Lemma trun_ok t until nxt a pos l : l <> [] -> 0 <= pos < 2 ^ 32 -> parts_are t a l nxt -> rising l until -> short l until -> until < 2 ^ 64 -> Forall (fun x => 0 <= len (snd x) < 2 ^ 32) l -> 12 * len l + 100 < 2 ^ 31 ->
  exists b, trunOf t until (ord a pos l) = Ok b /\ rep b (bs "trun") (trun_pl pos (rows until l)) [].
Proof.
  intros NE HP P Ri Sh U Sz L. unfold trunOf. change (trundataOffset .| trunfirstSampleFlags .| trunsampleSize .| trunsampleDuration .| trunsampleOffsets) with rflags.
  destruct (pad_int (newBox (bs "trun")) (bs "trun") [] 3 rflags 1 1 ltac:(lia) (rep_new (bs "trun") eq_refl) eq_refl ltac:(lia) ltac:(lia)) as (b1 & E1 & R1). rewrite E1. cbn [app] in R1.
  destruct l as [| (p, d) l]; [congruence |]. cbn [ord]. change (s_pos (p_time p, a, pos)) with pos. rewrite u32_id by lia.
  assert (G : forall b r, rep b (bs "trun") (zeros 1 ++ be 3 rflags ++ r) [] -> getIntC 3 1 b = Ok rflags) by (intros b r R; apply (at_int b _ _ _ _ 3 1 ltac:(lia) R); [rewrite len_zeros by lia; reflexivity | unfold rflags; cbn; lia]).
  unfold setDataOffset. assert (R1' := R1). rewrite <- (app_nil_r (be 3 rflags)) in R1'. rewrite (G _ _ R1'). change (has rflags trundataOffset) with true. cbv iota.
  destruct (pad_int b1 _ _ 4 pos 8 4 ltac:(lia) R1 ltac:(rewrite len_app, len_zeros, be_len by lia; reflexivity) ltac:(lia) ltac:(lia)) as (b2 & E2 & R2). rewrite E2. rewrite <- app_assoc in R2.
  unfold setFirstSampleFlags. rewrite (G _ _ R2). change (has rflags trunfirstSampleFlags) with true. change (has rflags trundataOffset) with true. cbn [negb]. change (isIPicture .| isKeySample) with 33554432.
  destruct (add_int b2 _ _ 4 33554432 12 ltac:(lia) R2 ltac:(rewrite !len_app, !len_zeros, !be_len by lia; reflexivity) ltac:(lia)) as (b3 & E3 & R3). rewrite E3.
  replace ((zeros 1 ++ be 3 rflags ++ zeros 4 ++ be 4 pos) ++ be 4 33554432) with (trun_pl pos []) in R3 by (unfold trun_pl; rewrite <- !app_assoc; reflexivity).
  apply (trun_loop_ok t until nxt pos ((p, d) :: l) a pos [] b3 P Ri Sh U Sz R3). change (len []) with 0. lia.
Qed.

(** ** The order of the packets *)
Lemma insert_last x l : Forall (fun y => s_time y < s_time x) l -> insert x l = l ++ [x].
Proof.
  induction 1 as [| y l Hy Hl IH]; [reflexivity |]. cbn [insert app]. destruct (Z.ltb_spec (s_time x) (s_time y)); [lia |]. destruct (Z.ltb_spec (s_time y) (s_time x)); [| lia]. rewrite IH. reflexivity.
Qed.
Definition data_of (l : seg) : list Z := List.concat (map snd l).
Lemma order_ok t nxt l : forall a pos acc, parts_are t a l nxt -> rising l nxt -> nxt < 2 ^ 64 -> 0 <= pos -> pos + len (data_of l) < 2 ^ 64 ->
  Forall (fun y => s_time y < next_time l nxt) acc ->
  order_loop (List.length l) t a (next_time l nxt, a, pos) acc = acc ++ ord a pos l.
Proof.
  induction l as [| (p, d) l IH]; intros a pos acc P Ri U Hp Sz Lt; cbn [List.length order_loop ord].
  - rewrite app_nil_r. reflexivity.
  - destruct P as (Pa & P). destruct Ri as (R1 & Ri). unfold data_of in Sz. cbn [map List.concat snd] in Sz. rewrite len_app in Sz. fold (data_of l) in Sz. pose proof (len_nonneg (data_of l)). pose proof (len_nonneg d).
    cbn [next_time] in *. cbn [s_time s_part s_pos fst snd]. rewrite Pa. cbn [pt_dur pt_size].
    assert (NB : next_time l nxt < 2 ^ 64). { destruct l as [| (q, e) l]; cbn [next_time]; [exact U |]. cbn [rising next_time] in Ri. clear - Ri U. revert q Ri. induction l as [| (q', e') l IH]; intros q Ri; cbn [next_time] in *; destruct Ri as (A & B); [lia |]. specialize (IH q' B). lia. }
    unfold u64. rewrite (Z.mod_small (p_time p + _)), (Z.mod_small (pos + len d)) by lia. replace (p_time p + (next_time l nxt - p_time p)) with (next_time l nxt) by lia.
    rewrite insert_last by exact Lt. rewrite IH; [rewrite <- app_assoc; reflexivity | exact P | exact Ri | exact U | lia | lia |].
    apply Forall_app. split; [eapply Forall_impl; [| exact Lt]; cbn; lia | constructor; [unfold s_time; cbn [fst]; lia | constructor]].
Qed.
Lemma sum_ok t nxt l : forall a acc, parts_are t a l nxt -> 0 <= acc -> acc + len (data_of l) < 2 ^ 64 -> sum_sizes (List.length l) t a acc = acc + len (data_of l).
Proof.
  induction l as [| (p, d) l IH]; intros a acc P Ha Sz; cbn [List.length sum_sizes]; [cbn; lia |]. destruct P as (Pa & P). unfold data_of in *. cbn [map List.concat snd] in *. rewrite len_app in *. pose proof (len_nonneg (List.concat (map snd l))). pose proof (len_nonneg d).
  rewrite Pa. cbn [pt_size]. unfold u64 at 1. rewrite Z.mod_small by lia. rewrite IH; [lia | exact P | lia | lia].
Qed.

(** ** The header *)
Definition traf_kids (v : bool) (id time off until : Z) (l : seg) : list (list Z * list Z) :=
  [(bs "tfhd", tfhd_pl v id); (bs "tfdt", tfdt_pl time); (bs "trun", trun_pl off (rows until l))].
Definition moof_kids (v : bool) (seq id time off until : Z) (l : seg) : list (list Z * list Z) :=
  [(bs "mfhd", mfhd_pl seq); (bs "traf", children (traf_kids v id time off until l))].
Lemma trun_len off l : len (trun_pl off l) = 16 + 12 * len l.
Proof. unfold trun_pl. rewrite !len_app, !be_len, len_zeros, entries_len by lia. lia. Qed.
Lemma traf_len v id time off until l : len (children (traf_kids v id time off until l)) = 68 + 12 * len l.
Proof.
  unfold traf_kids. rewrite !children_cons. cbn [fst snd children map List.concat]. rewrite !len_app, !len_iso by reflexivity. rewrite trun_len, rows_len. unfold tfhd_pl, tfdt_pl. rewrite !len_app, !be_len, len_zeros by lia. change (len []) with 0. lia.
Qed.
Lemma moof_len v seq id time off until l : len (children (moof_kids v seq id time off until l)) = 92 + 12 * len l.
Proof.
  unfold moof_kids. rewrite !children_cons. cbn [fst snd]. rewrite !len_app, !len_iso by reflexivity. rewrite traf_len. unfold mfhd_pl. rewrite !len_app, !be_len. change (len (children [])) with 0. lia.
Qed.
Lemma nonempty_app (a b : list Z) : a <> [] -> a ++ b <> [].
Proof. destruct a; [congruence | discriminate]. Qed.
Lemma header_ok t track vod utc from until seq nxt l a : l <> [] -> getPartIndex t from = a -> getPartIndex t until = a + len l -> parts_are t a l nxt -> from = next_time l nxt ->
  rising l until -> short l until -> until < 2 ^ 64 -> until <= nxt < 2 ^ 64 -> 12 * len l + len (data_of l) + 1000 < 2 ^ 31 ->
  keyHeader t track vod utc from until seq = Ok (iso (bs "moof") (children (moof_kids (video t) seq (u32 (track + 1)) (baseTime t vod utc from) (108 + 12 * len l) until l))).
Proof.
  intros NE Ea Ee P Ef Ri Sh U HU B. pose proof (len_nonneg l) as Ll. pose proof (len_nonneg (data_of l)) as Ld.
  assert (Rn : rising l nxt). { clear - Ri HU. induction l as [| (p, d) l IH]; [exact I |]. destruct Ri as (A & Ri). split; [| exact (IH Ri)]. destruct l as [| (q, e) l]; cbn [next_time] in *; lia. }
  assert (Sz : Forall (fun x : packet * list Z => 0 <= len (snd x) < 2 ^ 32) l).
  { assert (K : len (data_of l) < 2 ^ 31) by lia. clear - K. induction l as [| (p, d) l IH]; constructor; unfold data_of in K; cbn [map List.concat snd] in *; rewrite len_app in K; fold (data_of l) in K; pose proof (len_nonneg (data_of l)); pose proof (len_nonneg d); [lia | apply IH; lia]. }
  assert (HS : keyHeaderSize t from until = 100 + 12 * len l). { unfold keyHeaderSize. rewrite Ea, Ee. replace (a + len l - a) with (len l) by lia. unfold u64. rewrite !Z.mod_small by (rewrite ?Z.mod_small by lia; lia). lia. }
  assert (O : trunOrder t from until = ord a (108 + 12 * len l) l).
  { unfold trunOrder. rewrite HS, Ea, Ee. replace (a + len l - a) with (len l) by lia. replace (Z.to_nat (len l)) with (List.length l) by (unfold len; lia).
    rewrite Ef. replace (u64 (100 + 12 * len l + 8)) with (108 + 12 * len l) by (unfold u64; rewrite Z.mod_small; lia).
    apply (order_ok t nxt l a (108 + 12 * len l) [] P Rn ltac:(lia) ltac:(lia) ltac:(lia)). constructor. }
  unfold keyHeader. destruct (mfhd_ok seq) as (m & Em & Rm). rewrite Em.
  destruct (tfhd_ok t track) as (h & Eh & Rh). destruct (tfdt_ok (baseTime t vod utc from)) as (d2 & d1 & Ed1 & Ed2 & Rd).
  destruct (trun_ok t until nxt a (108 + 12 * len l) l NE ltac:(lia) P Ri Sh U Sz ltac:(lia)) as (r & Er & Rr).
  destruct (fill_ok (bs "traf") [h; d2; r] (traf_kids (video t) (u32 (track + 1)) (baseTime t vod utc from) (108 + 12 * len l) until l) [] (newBox (bs "traf")) [] (rep_new (bs "traf") eq_refl) eq_refl ltac:(constructor)) as (tr & Et & Rt).
  { intros k c Q. destruct k; discriminate. }
  { constructor; [| constructor; [| constructor; [| constructor]]]; apply is_box_rep; exists []; assumption. }
  { constructor; [| constructor; [| constructor; [| constructor]]]; discriminate. }
  { cbn [app]. rewrite traf_len. lia. }
  destruct (fill_ok (bs "moof") [m; tr] (moof_kids (video t) seq (u32 (track + 1)) (baseTime t vod utc from) (108 + 12 * len l) until l) [] (newBox (bs "moof")) [] (rep_new (bs "moof") eq_refl) eq_refl ltac:(constructor)) as (mo & Eo & Ro).
  { intros k c Q. destruct k; discriminate. }
  { constructor; [| constructor; [| constructor]]; apply is_box_rep; exists []; assumption. }
  { constructor; [| constructor; [| constructor]]; discriminate. }
  { cbn [app]. rewrite moof_len. lia. }
  cbn [fill List.length Z.of_nat] in Et, Eo. cbn [Z.add Pos.add Pos.succ] in Et, Eo.
  destruct (setContent m 0 (newBox (bs "moof"))) as [| | mo1]; try discriminate Eo. rewrite Eh.
  destruct (setContent h 0 (newBox (bs "traf"))) as [| | t1]; try discriminate Et. rewrite Ed1, Ed2.
  destruct (setContent d2 1 t1) as [| | t2]; try discriminate Et. rewrite O, Er.
  destruct (setContent r 2 t2) as [| | t3]; try discriminate Et. injection Et as ->.
  destruct (setContent tr 1 mo1) as [| | mo2]; try discriminate Eo. injection Eo as ->.
  rewrite (rep_size _ _ _ _ Ro). apply (rep_bytes _ _ _ _ Ro).
Qed.

(** ** The player *)
Lemma boxes_ok l : forall fuel, Forall child_ok l -> len (children l) < 2 ^ 32 -> (List.length l < fuel)%nat -> boxes fuel (children l) = Some l.
Proof.
  induction l as [| c l IH]; intros fuel F B Fu; (destruct fuel as [| fuel]; [cbn in Fu; lia |]); cbn [boxes]; [reflexivity |].
  inversion F as [| ? ? Fc Fl]; subst. rewrite children_cons, len_app, (len_iso _ _ Fc) in *. pose proof (len_nonneg (snd c)). pose proof (len_nonneg (children l)).
  destruct (Z.eqb_spec (8 + len (snd c) + len (children l)) 0); [lia |].
  assert (N : unbe (takez 4 (iso (fst c) (snd c) ++ children l)) = 8 + len (snd c)).
  { unfold iso. rewrite <- app_assoc, takez_app_exact by (rewrite be_len; reflexivity). rewrite unbe_be, Z.mod_small; [reflexivity |]. change (256 ^ Z.of_nat 4) with (2 ^ 32). lia. }
  rewrite N. destruct (Z.ltb_spec (8 + len (snd c) + len (children l)) 8); [lia |]. destruct (Z.ltb_spec (8 + len (snd c)) 8); [lia |]. destruct (Z.ltb_spec (8 + len (snd c) + len (children l)) (8 + len (snd c))); [lia |]. cbn [orb].
  rewrite dropz_app_exact by (rewrite len_iso by exact Fc; reflexivity). rewrite (IH fuel Fl ltac:(lia) ltac:(cbn in Fu; lia)). cbv beta iota.
  replace (takez 4 (dropz 4 (iso (fst c) (snd c) ++ children l))) with (fst c).
  2:{ unfold iso. rewrite <- !app_assoc, dropz_app_exact by (rewrite be_len; reflexivity). symmetry. apply takez_app_exact. symmetry. exact Fc. }
  replace (takez (8 + len (snd c) - 8) (dropz 8 (iso (fst c) (snd c) ++ children l))) with (snd c).
  2:{ unfold iso. rewrite <- !app_assoc, (app_assoc (be 4 _)), dropz_app_exact by (rewrite len_app, be_len, Fc; reflexivity). symmetry. apply takez_app_exact. lia. }
  rewrite <- surjective_pairing. reflexivity.
Qed.
Lemma inside_ok l : Forall child_ok l -> len (children l) < 2 ^ 32 -> inside (children l) = Some l.
Proof. intros F B. apply boxes_ok; [exact F | exact B |]. pose proof (len_children_ge l F). unfold len in *. lia. Qed.
Lemma num_at (a c : list Z) n v i k : i = len a -> k = Z.of_nat n -> 0 <= v < 256 ^ Z.of_nat n -> num (a ++ be n v ++ c) i k = Some v.
Proof.
  intros -> -> B. unfold num. pose proof (len_nonneg c). rewrite !len_app, be_len. destruct (Z.leb_spec (len a + Z.of_nat n) (len a + (Z.of_nat n + len c))); [| lia].
  rewrite dropz_app_exact by reflexivity. rewrite takez_app_exact by (rewrite be_len; reflexivity). rewrite unbe_be, Z.mod_small by exact B. reflexivity.
Qed.
Lemma num_front (c : list Z) n v k : k = Z.of_nat n -> 0 <= v < 256 ^ Z.of_nat n -> num (be n v ++ c) 0 k = Some v.
Proof. intros E B. exact (num_at [] c n v 0 k eq_refl E B). Qed.
Lemma opt_at f m v c d : flag f m = true -> 0 <= v < 2 ^ 32 -> opt f m (be 4 v ++ c) d = Some (v, c).
Proof.
  intros F B. unfold opt. rewrite F. rewrite (num_front c 4 v 4 eq_refl); [| change (256 ^ Z.of_nat 4) with (2 ^ 32); exact B]. rewrite dropz_app_exact by (rewrite be_len; reflexivity). reflexivity.
Qed.
Fixpoint table_of (first later : Z) (l : list (Z * Z * Z)) : list (Z * Z * Z * Z) :=
  match l with [] => [] | (d, s, o) :: r => (d, s, first, o) :: table_of later later r end.
Lemma table_ok l : forall first later, Forall (fun e => 0 <= fst (fst e) < 2 ^ 32 /\ 0 <= snd (fst e) < 2 ^ 32 /\ 0 <= snd e < 2 ^ 32) l ->
  table (List.length l) rflags first later (entries l) = Some (table_of first later l).
Proof.
  induction l as [| ((d, s), o) l IH]; intros first later F; [reflexivity |]. inversion F as [| ? ? (F1 & F2 & F3) Fl]; subst. cbn [fst snd] in *. cbn [List.length table table_of].
  unfold entries. cbn [map List.concat]. fold (entries l). unfold entry. cbn [fst snd]. rewrite <- !app_assoc.
  rewrite opt_at by (first [reflexivity | assumption]). cbn [fst snd]. rewrite opt_at by (first [reflexivity | assumption]). cbn [fst snd].
  unfold opt at 1. change (flag rflags 1024) with false. cbn [fst snd]. rewrite opt_at by (first [reflexivity | assumption]). cbn [fst snd].
  rewrite (IH later later Fl). reflexivity.
Qed.
Definition first_flags : Z := 33554432.
Lemma place_ok v until from base l : forall (first : bool) pre g, rising l until -> g = (if first then first_flags else default_flags v) -> Forall (fun x => 0 <= p_off (fst x) < 2 ^ 32) l ->
  place (base + (next_time l until - from)) (len pre) (pre ++ data_of l) (table_of g (default_flags v) (rows until l)) = Some (shown v first base from until l).
Proof.
  induction l as [| (p, d) l IH]; intros first pre g Ri Hg Po; [reflexivity |]. destruct Ri as (R1 & Ri). inversion Po as [| ? ? Po1 Po2]; subst g. cbn [fst] in Po1. cbn [rows table_of place shown]. cbn [next_time].
  unfold data_of. cbn [map List.concat snd]. fold (data_of l). pose proof (len_nonneg pre). pose proof (len_nonneg (data_of l)). rewrite !len_app.
  destruct (Z.ltb_spec (len pre) 0); [lia |]. destruct (Z.ltb_spec (len pre + (len d + len (data_of l))) (len pre + len d)); [lia |]. cbn [orb].
  replace (base + (p_time p - from) + (next_time l until - p_time p)) with (base + (next_time l until - from)) by lia. replace (len pre + len d) with (len (pre ++ d)) by apply len_app.
  rewrite app_assoc, (IH false (pre ++ d) (default_flags v) Ri eq_refl Po2). cbv beta iota. rewrite <- app_assoc, dropz_app_exact, takez_app_exact by reflexivity. rewrite u32_id by exact Po1.
  assert (Sy : negb (flag (if first then first_flags else default_flags v) 65536) = first || negb v) by (destruct first, v; reflexivity). rewrite Sy. destruct l as [| (q, e) l]; reflexivity.
Qed.
Lemma play_ok v seq id time until from l : 0 <= id < 2 ^ 32 -> 0 <= time < 2 ^ 64 -> rising l until -> short l until -> 12 * len l + len (data_of l) + 1000 < 2 ^ 31 -> Forall (fun x => 0 <= p_off (fst x) < 2 ^ 32) l ->
  from = next_time l until ->
  play ((iso (bs "moof") (children (moof_kids v seq id time (108 + 12 * len l) until l)) ++ be 4 (8 + len (data_of l)) ++ bs "mdat") ++ data_of l) = Some (id, shown v true time from until l).
Proof.
  intros Hid Ht Ri Sh B Po Ef. pose proof (len_nonneg l) as Ll. pose proof (len_nonneg (data_of l)) as Ld.
  set (K := moof_kids v seq id time (108 + 12 * len l) until l). set (head := iso (bs "moof") (children K) ++ be 4 (8 + len (data_of l)) ++ bs "mdat").
  assert (LK : len (children K) = 92 + 12 * len l) by apply moof_len.
  assert (LH : len head = 108 + 12 * len l). { unfold head. rewrite !len_app, len_iso, be_len by reflexivity. change (len (bs "mdat")) with 4. lia. }
  assert (EF : head ++ data_of l = children [(bs "moof", children K); (bs "mdat", data_of l)]).
  { rewrite !children_cons. cbn [fst snd children map List.concat]. rewrite app_nil_r. unfold head, iso. rewrite <- !app_assoc. reflexivity. }
  unfold play. rewrite EF at 1. rewrite inside_ok; [| repeat constructor |].
  2:{ rewrite <- EF, len_app, LH. lia. }
  cbn [find]. change (beqb (bs "moof") (bs "moof")) with true. change (beqb (bs "moof") (bs "mdat")) with false. change (beqb (bs "mdat") (bs "mdat")) with true. cbv iota. cbv beta iota.
  rewrite inside_ok; [| repeat constructor | lia]. unfold K, moof_kids. cbn [find]. change (beqb (bs "mfhd") (bs "traf")) with false. change (beqb (bs "traf") (bs "traf")) with true. cbv iota. cbv beta iota.
  rewrite inside_ok; [| repeat constructor | rewrite traf_len; lia]. unfold traf_kids. cbn [find].
  change (beqb (bs "tfhd") (bs "tfhd")) with true. change (beqb (bs "tfhd") (bs "tfdt")) with false. change (beqb (bs "tfdt") (bs "tfdt")) with true. change (beqb (bs "tfhd") (bs "trun")) with false. change (beqb (bs "tfdt") (bs "trun")) with false. change (beqb (bs "trun") (bs "trun")) with true.
  cbv iota. cbv beta iota.
  unfold tfhd_pl at 1. rewrite (num_at (zeros 1) _ 3 tflags 1 3); [| reflexivity | reflexivity | unfold tflags; cbn; lia]. cbv beta iota.
  unfold tfhd_pl at 1. rewrite (app_assoc (zeros 1)). rewrite (num_at (zeros 1 ++ be 3 tflags) _ 4 id 4 4); [| rewrite len_app, be_len; reflexivity | reflexivity | change (256 ^ Z.of_nat 4) with (2 ^ 32); exact Hid]. cbv beta iota.
  change (flag tflags 131072) with true. cbn [negb].
  unfold tfhd_pl. rewrite (app_assoc (zeros 1)), (app_assoc (zeros 1 ++ be 3 tflags)), dropz_app_exact by (rewrite !len_app, !be_len; reflexivity).
  unfold opt at 1. change (flag tflags 1) with false. cbn [fst snd]. rewrite opt_at by (first [reflexivity | lia]). cbn [fst snd].
  unfold opt at 1. change (flag tflags 8) with false. cbn [fst snd]. unfold opt at 1. change (flag tflags 16) with false. cbn [fst snd].
  rewrite <- (app_nil_r (be 4 (default_flags v))), opt_at by (first [reflexivity | unfold default_flags; destruct v; lia]). cbn [fst snd].
  unfold tfdt_pl at 1. rewrite (num_front _ 1 1 1); [| reflexivity | cbn; lia]. cbn [Z.eqb Pos.eqb].
  unfold tfdt_pl. rewrite (app_assoc (be 1 1)), <- (app_nil_r (be 8 time)). rewrite (num_at (be 1 1 ++ be 3 0) [] 8 time 4 8); [| reflexivity | reflexivity | change (256 ^ Z.of_nat 8) with (2 ^ 64); exact Ht]. cbv beta iota.
  unfold trun_pl at 1. change (zeros 1) with (be 1 0). rewrite (num_front _ 1 0 1); [| reflexivity | cbn; lia]. cbv beta iota.
  unfold trun_pl at 1. change (zeros 1) with (be 1 0). rewrite (num_at (be 1 0) _ 3 rflags 1 3); [| reflexivity | reflexivity | unfold rflags; cbn; lia]. cbv beta iota.
  unfold trun_pl at 1. change (zeros 1) with (be 1 0). rewrite (app_assoc (be 1 0)). rewrite (num_at (be 1 0 ++ be 3 rflags) _ 4 (len (rows until l)) 4 4); [| reflexivity | reflexivity | rewrite rows_len; change (256 ^ Z.of_nat 4) with (2 ^ 32); lia]. cbv beta iota.
  unfold trun_pl at 1. change (zeros 1) with (be 1 0). rewrite (app_assoc (be 1 0)), (app_assoc (be 1 0 ++ be 3 rflags)), dropz_app_exact by (rewrite !len_app, !be_len; reflexivity).
  rewrite opt_at by (first [reflexivity | lia]). cbn [fst snd]. rewrite opt_at by (first [reflexivity | lia]). cbn [fst snd].
  change (flag rflags 256) with true. change (flag rflags 512) with true. cbn [Z.eqb negb orb].
  replace (Z.to_nat (len (rows until l))) with (List.length (rows until l)) by (unfold len; lia).
  rewrite table_ok.
  - cbv beta iota. rewrite <- LH. replace time with (time + (next_time l until - from)) at 1 by lia. rewrite (place_ok v until from time l true head 33554432 Ri eq_refl Po). reflexivity.
  - clear - Ri Sh B Po. assert (K : len (data_of l) < 2 ^ 32) by (pose proof (len_nonneg l); lia). clear B. induction l as [| (p, d) l IH]; constructor.
    + destruct Ri as (R1 & Ri). destruct Sh as (S1 & Sh). inversion Po as [| ? ? P1 P2]; subst. cbn [fst snd] in *. unfold data_of in K. cbn [map List.concat snd] in K. rewrite len_app in K. fold (data_of l) in K. pose proof (len_nonneg (data_of l)). pose proof (len_nonneg d).
      split; [lia |]. split; [lia |]. rewrite u32_id by lia. lia.
    + destruct Ri as (R1 & Ri). destruct Sh as (S1 & Sh). inversion Po as [| ? ? P1 P2]; subst. apply IH; [exact Ri | exact Sh | exact P2 |]. unfold data_of in K. cbn [map List.concat snd] in K. rewrite len_app in K. fold (data_of l) in K. pose proof (len_nonneg d). lia.
Qed.

(** ** From the history of the track *)
Definition time_at_nth ps i p : nth_error ps i = Some p -> time_at ps (Z.of_nat i) = p_time p.
Proof. intros H. unfold time_at. rewrite Nat2Z.id, H. reflexivity. Qed.
Lemma parts_ok t ps d : holds (parts t) d ps (part_of ps) -> Forall packet_ok ps -> forall (l : seg) pre q post, ps = pre ++ map fst l ++ q :: post -> (d <= List.length pre)%nat -> Forall (fun x => len (snd x) = p_size (fst x)) l ->
  parts_are t (Z.of_nat (List.length pre)) l (p_time q).
Proof.
  intros (_ & _ & _ & H) Ok l. induction l as [| (p, x) l IH]; intros pre q post E D Sz; [exact I |]. inversion Sz as [| ? ? Sz1 Sz2]; subst. cbn [map fst snd app] in *. split.
  - rewrite (H (List.length pre) p) by (first [exact D | rewrite nth_error_app2 by lia; rewrite Nat.sub_diag; reflexivity]). unfold part_of. rewrite Sz1. f_equal.
    rewrite nth_error_app2 by lia. replace (S (List.length pre) - List.length pre)%nat with 1%nat by lia. cbn [nth_error]. destruct l as [| (q', e') l]; cbn [map fst app nth_error next_time]; reflexivity.
  - replace (Z.of_nat (List.length pre) + 1) with (Z.of_nat (List.length (pre ++ [p]))) by (rewrite app_length; cbn [List.length]; lia).
    apply (IH (pre ++ [p]) q post); [rewrite <- app_assoc; reflexivity | rewrite app_length; cbn [List.length]; lia | exact Sz2].
Qed.
Lemma next_unique gs d ps T j k : distinct ps -> next_at gs d ps T j -> next_at gs d ps T k -> 0 <= before d gs -> j = k.
Proof.
  intros D ((K1 & K2) & A & B) ((K3 & K4) & A' & B') Z0. pose proof (B k (conj K3 K4) A') as C1. pose proof (B' j (conj K1 K2) A) as C2.
  destruct (Z.lt_trichotomy j k) as [Q | [Q | Q]]; [| exact Q |]; exfalso; [specialize (D j k ltac:(lia) ltac:(unfold len; lia)) | specialize (D k j ltac:(lia) ltac:(unfold len; lia))]; lia.
Qed.
Lemma next_first gs d ps T i : distinct ps -> kept_packet gs d ps i -> 0 <= before d gs -> T <= time_at ps i -> (forall k, kept_packet gs d ps k -> k < i -> time_at ps k < T) -> next_at gs d ps T i.
Proof.
  intros D K Z0 A B. split; [exact K |]. split; [exact A |]. intros k Kk Ak. destruct (Z.lt_trichotomy k i) as [Q | [-> | Q]]; [specialize (B k Kk Q); lia | lia |].
  specialize (D i k ltac:(unfold kept_packet in K; lia) ltac:(unfold kept_packet, len in *; lia)). lia.
Qed.
Lemma rising_ok ps : distinct ps -> Forall packet_ok ps -> forall (l : seg) pre q post until, ps = pre ++ map fst l ++ q :: post -> until <= p_time q -> (match rev l with (p, _) :: _ => p_time p < until | [] => True end) -> rising l until.
Proof.
  intros D Ok l. induction l as [| (p, x) l IH]; intros pre q post until E Q LA; [exact I |]. cbn [map fst app] in E. split.
  - assert (0 <= p_time p). { assert (P : packet_ok p). { rewrite Forall_forall in Ok. apply Ok. subst ps. apply in_or_app. right. left. reflexivity. } unfold packet_ok in P. lia. }
    split; [assumption |]. destruct l as [| (p2, x2) l]; cbn [next_time]; [cbn in LA; exact LA |].
    specialize (D (len pre) (len pre + 1) ltac:(pose proof (len_nonneg pre); lia) ltac:(subst ps; rewrite len_app; cbn [map fst app]; rewrite !len_cons; pose proof (len_nonneg (map fst l ++ q :: post)); lia)).
    unfold len in D. replace (Z.of_nat (List.length pre) + 1) with (Z.of_nat (S (List.length pre))) in D by lia.
    rewrite (time_at_nth ps (List.length pre) p), (time_at_nth ps (S (List.length pre)) p2) in D; [exact D | |]; subst ps; rewrite nth_error_app2 by lia; [replace (S (List.length pre) - List.length pre)%nat with 1%nat by lia | rewrite Nat.sub_diag]; reflexivity.
  - apply (IH (pre ++ [p]) q post until); [rewrite <- app_assoc; exact E | exact Q |]. cbn [rev] in LA. destruct (rev l) as [| y r] eqn:R; [exact I |]. cbn [app] in LA. exact LA.
Qed.
