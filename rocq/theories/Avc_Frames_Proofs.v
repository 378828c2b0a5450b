(** Proofs about the packets made of received H264 and HEVC frames. *)
From Verif Require Import Common CommonFacts CommonMore Mem_Model Mem_Proofs Nal_Model Nal_Spec Nal_Proofs Outcome_Model Scan_Model Dtmi_Spec Dtmi_Proofs Dtsc_Model Dtsc_Spec Dtsc_Proofs DtscOps_Proofs Psi_Proofs Avcc_Model Avcc_Spec Avc_Model Avc_Spec Avc_Recv_Proofs.
From Verif Require Mp4_Proofs.
Import List.
Ltac Zify.zify_post_hook ::= Z.div_mod_to_equations.

Section Frames.
Context (junk : Z) (Hj : byteP junk) (tid : Z) (hevc : bool).
Notation step ts off bpos u s := (fun fuel => nal_step junk fuel tid hevc ts off bpos u s).
Notation steps ts off bpos us s := (fun fuel => nal_steps junk fuel tid hevc ts off bpos us s).
Definition cur (s : rcv) (f : fields) : Prop := exists p nl, r_bp s = Some p /\ Inv (mkS f true nl) p.
Definition add (u : list Z) (k : bool) (f : fields) : fields := mkF (f_time f) (f_offset f) (f_track f) (f_data f ++ be 4 (len u) ++ u) (f_bpos f) (f_key f || k).
Definition setk (k : bool) (f : fields) : fields := mkF (f_time f) (f_offset f) (f_track f) (f_data f) (f_bpos f) (f_key f || k).
Definition sets_of (u : list Z) (s s' : rcv) : Prop := r_sps s' = newer 7 hevc u (r_sps s) /\ r_pps s' = newer 8 hevc u (r_pps s).
Definition good_unit (u : list Z) (k : bool) : Prop := bytesP u /\ u <> [] /\ key_unit hevc u k.

Lemma setk_ok (k : bool) f nl p : Inv (mkS f true nl) p -> len (f_data f) + 86 < 2 ^ 32 ->
  exists p', returns (fun fuel => if k then setKeyFrame fuel true p else Ok p) p' /\ Inv (mkS (setk k f) true nl) p'.
Proof.
  intros V L. destruct k.
  - destruct (op_ok junk Hj (SetKeyFrame true) _ _ p V eq_refl) as (p' & P1 & P2); [exact L|]. exists p'. split; [exact P1|]. cbn [s_f s_keyed s_nal andb] in P2. unfold setk. rewrite orb_true_r. exact P2.
  - exists p. split; [apply returns_ok|]. unfold setk. rewrite orb_false_r. now destruct f.
Qed.
Lemma app_nal u f nl p : u <> [] -> Inv (mkS f true nl) p -> len (f_data f) + 4 + len u + 86 < 2 ^ 32 ->
  exists p' nl', returns (fun fuel => appendNal junk fuel u p) p' /\ Inv (mkS (add u false f) true nl') p'.
Proof.
  intros N V L. destruct u as [|x u]; [congruence|].
  destruct (op_ok junk Hj (AppendNal (x :: u)) _ _ p V eq_refl) as (p' & P1 & P2); [cbn [s_f f_data with_payload]; rewrite !len_app, be_len; lia|].
  exists p'. eexists. split; [exact P1|]. unfold add. rewrite orb_false_r. exact P2.
Qed.
Lemma add_setk u k f : add u k f = add u false (setk k f).
Proof. unfold add, setk. cbn [f_time f_offset f_track f_data f_bpos f_key]. now rewrite orb_false_r. Qed.
Lemma fields_setk k f : fields_ok f -> fields_ok (setk k f).
Proof. now intros H. Qed.

Lemma first_step ts off bpos u k s : good_unit u k -> r_bp s = None -> fields_ok (empty_fields ts off tid bpos) -> 4 + len u + 86 < 2 ^ 32 ->
  exists s', returns (step ts off bpos u s) s' /\ cur s' (add u k (empty_fields ts off tid bpos)) /\ r_out s' = r_out s /\ sets_of u s s'.
Proof.
  intros (B & N & K) E F L. pose proof (len_nonneg u). destruct (blank_ok junk Hj ts off tid bpos pnew F) as (p0 & (n0 & R0) & V0).
  destruct (setk_ok k _ _ _ V0) as (p1 & (n1 & R1) & V1); [cbn; lia|].
  destruct (app_nal u _ _ _ N V1) as (p2 & nl & (n2 & R2) & V2); [cbn [f_data setk empty_fields]; change (len (@nil Z)) with 0; lia|].
  exists (mkrcv (Some p2) (r_out s) (newer 7 hevc u (r_sps s)) (newer 8 hevc u (r_pps s))). split.
  - exists (n0 + n1 + n2)%nat. intros fuel Hf. unfold nal_step. rewrite E, R0 by lia. rewrite (parseNal_ok hevc u k) by assumption. rewrite R1 by lia.
    rewrite (time_ok _ p1 fuel V1) by (apply fields_setk, F). cbn [s_f setk empty_fields f_time]. rewrite Z.eqb_refl, R2 by lia. reflexivity.
  - split; [|split; [reflexivity|split; reflexivity]]. exists p2, nl. split; [reflexivity|]. now rewrite add_setk.
Qed.
Lemma same_step ts off bpos u k s f : good_unit u k -> cur s f -> f_time f = ts -> fields_ok f -> len (f_data f) + 4 + len u + 86 < 2 ^ 32 ->
  exists s', returns (step ts off bpos u s) s' /\ cur s' (add u k f) /\ r_out s' = r_out s /\ sets_of u s s'.
Proof.
  intros (B & N & K) (p0 & nl0 & E & V0) T F L. pose proof (len_nonneg u).
  destruct (setk_ok k _ _ _ V0) as (p1 & (n1 & R1) & V1); [lia|].
  destruct (app_nal u _ _ _ N V1) as (p2 & nl & (n2 & R2) & V2); [cbn [f_data setk]; lia|].
  exists (mkrcv (Some p2) (r_out s) (newer 7 hevc u (r_sps s)) (newer 8 hevc u (r_pps s))). split.
  - exists (n1 + n2)%nat. intros fuel Hf. unfold nal_step. rewrite E. rewrite (parseNal_ok hevc u k) by assumption. rewrite R1 by lia.
    rewrite (time_ok _ p1 fuel V1) by (apply fields_setk, F). cbn [s_f setk f_time]. rewrite T, Z.eqb_refl, R2 by lia. reflexivity.
  - split; [|split; [reflexivity|split; reflexivity]]. exists p2, nl. split; [reflexivity|]. now rewrite add_setk.
Qed.
Lemma next_step ts off bpos u k s f : good_unit u k -> cur s f -> f_time f <> ts -> fields_ok f -> fields_ok (empty_fields ts off tid bpos) -> 4 + len u + 86 < 2 ^ 32 ->
  exists s' p, returns (step ts off bpos u s) s' /\ cur s' (add u false (empty_fields ts off tid bpos)) /\ r_out s' = r_out s ++ [p] /\ reports p (setk k f) /\ sets_of u s s'.
Proof.
  intros (B & N & K) (p0 & nl0 & E & V0) T F F' L. pose proof (len_nonneg u).
  destruct (setk_ok k _ _ _ V0) as (p1 & (n1 & R1) & V1); [destruct F as (_ & _ & _ & _ & _ & F); lia|].
  destruct (blank_ok junk Hj ts off tid bpos (pnull p1) F') as (p2 & (n2 & R2) & V2).
  destruct (app_nal u _ _ _ N V2) as (p3 & nl & (n3 & R3) & V3); [cbn [f_data empty_fields]; change (len (@nil Z)) with 0; lia|].
  exists (mkrcv (Some p3) (r_out s ++ [p1]) (newer 7 hevc u (r_sps s)) (newer 8 hevc u (r_pps s))), p1. split.
  - exists (n1 + n2 + n3)%nat. intros fuel Hf. unfold nal_step. rewrite E. rewrite (parseNal_ok hevc u k) by assumption. rewrite R1 by lia.
    rewrite (time_ok _ p1 fuel V1) by (apply fields_setk, F). cbn [s_f setk f_time]. replace (f_time f =? ts) with false by lia. rewrite R2, R3 by lia. reflexivity.
  - split; [exists p3, nl; split; [reflexivity|exact V3]|]. split; [reflexivity|]. split; [exact (Inv_reports _ _ V1 (fields_setk k f F))|split; reflexivity].
Qed.

(** The units of a frame behind its first one. *)
Definition adds (us : list (list Z)) (ks : list bool) (f : fields) : fields :=
  mkF (f_time f) (f_offset f) (f_track f) (f_data f ++ length_prefixed us) (f_bpos f) (f_key f || existsb (fun k => k) ks).
Definition newest (ty : Z) (us : list (list Z)) (old : option (list Z)) : option (list Z) := fold_left (fun o u => newer ty hevc u o) us old.
Lemma same_steps ts off bpos us ks : Forall2 good_unit us ks -> forall s f, cur s f -> f_time f = ts -> fields_ok f -> len (f_data f) + len (length_prefixed us) + 86 < 2 ^ 32 ->
  exists s', returns (steps ts off bpos us s) s' /\ cur s' (adds us ks f) /\ r_out s' = r_out s /\ r_sps s' = newest 7 us (r_sps s) /\ r_pps s' = newest 8 us (r_pps s).
Proof.
  induction 1 as [|u k us ks G _ IH]; intros s f C T F L; cbn [nal_steps].
  - exists s. split; [apply returns_ok|]. split; [|repeat split; reflexivity]. unfold adds. cbn [length_prefixed flat_map existsb]. rewrite app_nil_r, orb_false_r. now destruct f.
  - unfold length_prefixed in L. cbn [flat_map] in L. fold (length_prefixed us) in L. rewrite !len_app, be_len in L. pose proof (len_nonneg (length_prefixed us)). pose proof (len_nonneg u).
    destruct (same_step ts off bpos u k s f G C T F ltac:(lia)) as (s1 & R1 & C1 & O1 & S1 & S2).
    destruct (IH s1 (add u k f) C1 T) as (s2 & R2 & C2 & O2 & S3 & S4).
    + destruct F as (F1 & F2 & F3 & F4 & F5 & F6). destruct G as (G1 & _). unfold fields_ok, add; cbn [f_time f_offset f_track f_data f_bpos f_key]. repeat (split; [assumption|]). split.
      * apply Forall_app. split; [exact F5|]. apply Forall_app. split; [apply be_bytes|exact G1].
      * rewrite !len_app, be_len. lia.
    + cbn [add f_data]. rewrite !len_app, be_len. lia.
    + exists s2. split; [exact (returns_bind _ (fun s fuel => nal_steps junk fuel tid hevc ts off bpos us s) _ _ R1 R2)|]. split.
      * unfold adds, add in *. cbn [f_time f_offset f_track f_data f_bpos f_key existsb] in *. unfold length_prefixed. cbn [flat_map]. fold (length_prefixed us). rewrite <- !app_assoc in *. rewrite <- orb_assoc in C2. exact C2.
      * split; [congruence|]. cbn [newest fold_left]. unfold newest in *. now rewrite S3, S4, S1, S2.
Qed.

Lemma unit_keys us ks : Forall2 (fun (u : bool * list Z) k => nal_ok (snd u) /\ key_unit hevc (snd u) k) us ks -> Forall2 good_unit (map snd us) ks /\ ok_units us.
Proof. induction 1 as [|u k us ks [(U1 & U2 & U3) K] _ [I1 I2]]; [split; constructor|]. split; constructor; try assumption. now repeat split. now repeat split. Qed.
Lemma annexb_len us : len (length_prefixed (map snd us)) <= 2 * len (annexb us).
Proof.
  induction us as [|[f u] us IH]; [cbn; lia|]. cbn [map snd]. unfold length_prefixed, annexb in *. cbn [flat_map fst snd]. rewrite !len_app, be_len. pose proof (len_nonneg u). destruct f; cbn [start_code]; lia || (change (len [0; 0; 1]) with 3; lia) || (change (len [0; 0; 0; 1]) with 4; lia).
Qed.
Definition of_arrival (x : arrival) : Z * Z * Z * list Z := (a_time x, a_off x, a_pos x, annexb (a_units x)).
Lemma empty_ok x : arrival_ok hevc tid x -> fields_ok (empty_fields (a_time x) (a_off x) tid (a_pos x)).
Proof. intros (H1 & H2 & H3 & H4 & _). unfold fields_ok, empty_fields. cbn [f_time f_offset f_track f_data f_bpos f_key]. repeat (split; [assumption|]). split; [constructor|]. change (len (@nil Z)) with 0. lia. Qed.
Lemma arrived_ok x k : arrival_ok hevc tid x -> fields_ok (arrived tid k x).
Proof.
  intros (H1 & H2 & H3 & H4 & _ & H5 & H6). unfold fields_ok, arrived. cbn [f_time f_offset f_track f_data f_bpos f_key]. repeat (split; [assumption|]). split.
  - clear H6. induction H5 as [|u k' us ks [(U & _) _] _ IH]; [constructor|]. cbn [map]. unfold length_prefixed. cbn [flat_map]. apply Forall_app. split; [|exact IH]. apply Forall_app. split; [apply be_bytes|exact U].
  - pose proof (annexb_len (a_units x)). lia.
Qed.
Definition units_of (l : list arrival) : list (list Z) := flat_map (fun x => map snd (a_units x)) l.

Lemma frame_steps x s : arrival_ok hevc tid x ->
  (r_bp s = None -> exists s', returns (fun fuel => parseVideo junk fuel tid hevc (a_time x) (a_off x) (a_pos x) true (annexb (a_units x)) s) s' /\
     cur s' (arrived tid (first_key x || other_key x) x) /\ r_out s' = r_out s /\ r_sps s' = newest 7 (map snd (a_units x)) (r_sps s) /\ r_pps s' = newest 8 (map snd (a_units x)) (r_pps s)) /\
  (forall f, cur s f -> f_time f <> a_time x -> fields_ok f -> exists s' p, returns (fun fuel => parseVideo junk fuel tid hevc (a_time x) (a_off x) (a_pos x) true (annexb (a_units x)) s) s' /\
     cur s' (arrived tid (other_key x) x) /\ r_out s' = r_out s ++ [p] /\ reports p (setk (first_key x) f) /\ r_sps s' = newest 7 (map snd (a_units x)) (r_sps s) /\ r_pps s' = newest 8 (map snd (a_units x)) (r_pps s)).
Proof.
  intros A. pose proof (empty_ok x A) as FE. pose proof A as (_ & _ & _ & _ & N & U & L). destruct (unit_keys _ _ U) as [G O]. pose proof (annexb_len (a_units x)) as AL.
  assert (PV : forall fuel, parseVideo junk fuel tid hevc (a_time x) (a_off x) (a_pos x) true (annexb (a_units x)) s = nal_steps junk fuel tid hevc (a_time x) (a_off x) (a_pos x) (map snd (a_units x)) s) by (intros; apply video_units; try assumption; lia).
  unfold first_key, other_key, arrived. destruct (map snd (a_units x)) as [|u us] eqn:EM; [destruct (a_units x); [congruence|discriminate]|].
  destruct (a_keys x) as [|k ks]; [inversion G|]. inversion G as [|? ? ? ? Gu Gs]; subst. cbn [hd tl].
  unfold length_prefixed in AL. cbn [flat_map] in AL. fold (length_prefixed us) in AL. rewrite !len_app, be_len in AL. pose proof (len_nonneg (length_prefixed us)). pose proof (len_nonneg u).
  assert (FA : forall k', fields_ok (add u k' (empty_fields (a_time x) (a_off x) tid (a_pos x)))).
  { intros k'. destruct FE as (F1 & F2 & F3 & F4 & F5 & F6). destruct Gu as (G1 & _). unfold fields_ok, add; cbn [f_time f_offset f_track f_data f_bpos f_key empty_fields app] in *. repeat (split; [assumption|]). split.
    - apply Forall_app. split; [apply be_bytes|exact G1].
    - rewrite !len_app, be_len. lia. }
  assert (EQ : forall b, adds us ks (add u b (empty_fields (a_time x) (a_off x) tid (a_pos x))) = mkF (a_time x) (a_off x) tid (length_prefixed (u :: us)) (a_pos x) (b || existsb (fun k => k) ks)).
  { intros b. unfold adds, add, empty_fields. cbn [f_time f_offset f_track f_data f_bpos f_key app]. unfold length_prefixed. cbn [flat_map orb]. now rewrite <- app_assoc. }
  split.
  - intros E. destruct (first_step (a_time x) (a_off x) (a_pos x) u k s Gu E FE ltac:(lia)) as (s1 & R1 & C1 & O1 & S1 & S2).
    destruct (same_steps (a_time x) (a_off x) (a_pos x) us ks Gs s1 _ C1 eq_refl (FA k)) as (s2 & R2 & C2 & O2 & S3 & S4); [cbn [add empty_fields f_data app]; rewrite !len_app, be_len; lia|].
    exists s2. split; [apply (returns_ext _ _ _ PV); exact (returns_bind _ (fun s fuel => nal_steps junk fuel tid hevc _ _ _ us s) _ _ R1 R2)|].
    rewrite EQ in C2. split; [exact C2|]. split; [congruence|]. cbn [newest fold_left]. unfold newest in *. now rewrite S3, S4, S1, S2.
  - intros f C T F. destruct (next_step (a_time x) (a_off x) (a_pos x) u k s f Gu C T F FE ltac:(lia)) as (s1 & p & R1 & C1 & O1 & RP & S1 & S2).
    destruct (same_steps (a_time x) (a_off x) (a_pos x) us ks Gs s1 _ C1 eq_refl (FA false)) as (s2 & R2 & C2 & O2 & S3 & S4); [cbn [add empty_fields f_data app]; rewrite !len_app, be_len; lia|].
    exists s2, p. split; [apply (returns_ext _ _ _ PV); exact (returns_bind _ (fun s fuel => nal_steps junk fuel tid hevc _ _ _ us s) _ _ R1 R2)|].
    rewrite EQ in C2. split; [exact C2|]. split; [congruence|]. split; [exact RP|]. cbn [newest fold_left]. unfold newest in *. now rewrite S3, S4, S1, S2.
Qed.
Lemma newest_app ty a b o : newest ty (a ++ b) o = newest ty b (newest ty a o).
Proof. apply fold_left_app. Qed.

Lemma frames_steps l : forall x k s, arrival_ok hevc tid x -> Forall (arrival_ok hevc tid) l -> apart (x :: l) -> cur s (arrived tid (k || other_key x) x) ->
  exists s' ps p, returns (fun fuel => parseVideos junk fuel tid hevc true (map of_arrival l) s) s' /\ r_out s' = r_out s ++ ps /\
  r_bp s' = Some p /\ (exists y, cur s' y /\ f_data y <> [] /\ len (f_data y) < 2 ^ 32) /\ Forall2 reports (ps ++ [p]) (flagged tid k (x :: l)) /\
  r_sps s' = newest 7 (units_of l) (r_sps s) /\ r_pps s' = newest 8 (units_of l) (r_pps s).
Proof.
  induction l as [|y l IH]; intros x k s X F (D & AP) C; cbn [map parseVideos flagged].
  - destruct C as (p & nl & E & V). exists s, [], p. split; [apply returns_ok|]. split; [now rewrite app_nil_r|]. split; [exact E|]. split; [|split; [|split; reflexivity]].
    + exists (arrived tid (k || other_key x) x). split; [exists p, nl; now split|]. split; [|destruct (arrived_ok x (k || other_key x) X) as (_ & _ & _ & _ & _ & LL); lia]. cbn [arrived f_data]. destruct X as (_ & _ & _ & _ & N & _). destruct (a_units x) as [|[b u] r]; [congruence|]. cbn [map]. intros Q. apply (f_equal len) in Q. unfold length_prefixed in Q. cbn [flat_map] in Q. rewrite !len_app, be_len in Q. pose proof (len_nonneg u). pose proof (len_nonneg (flat_map (fun u => be 4 (len u) ++ u) (map snd r))). change (len (@nil Z)) with 0 in Q. cbn [snd] in Q. lia.
    + cbn [app]. rewrite orb_false_r. constructor; [|constructor]. exact (Inv_reports _ _ V (arrived_ok x _ X)).
  - inversion F as [|? ? Y F']; subst. destruct (proj2 (frame_steps y s Y) _ C D (arrived_ok x _ X)) as (s1 & p1 & R1 & C1 & O1 & RP & S1 & S2).
    destruct (IH y false s1 Y F' AP) as (s2 & ps & p & R2 & O2 & B2 & D2 & RS & S3 & S4); [exact C1|].
    exists s2, (p1 :: ps), p. split.
    { apply (returns_ext _ (fun fuel => s' <~ parseVideo junk fuel tid hevc (a_time y) (a_off y) (a_pos y) true (annexb (a_units y)) s;; parseVideos junk fuel tid hevc true (map of_arrival l) s')); [reflexivity|].
      exact (returns_bind _ (fun s fuel => parseVideos junk fuel tid hevc true (map of_arrival l) s) _ _ R1 R2). }
    split; [rewrite O2, O1, <- app_assoc; reflexivity|]. split; [exact B2|]. split; [exact D2|]. split; [constructor; [exact RP|exact RS]|].
    unfold units_of in *. cbn [flat_map]. rewrite !newest_app. now rewrite S3, S4, S1, S2.
Qed.

Lemma flush_ok s p f : r_bp s = Some p -> cur s f -> f_data f <> [] -> len (f_data f) < 2 ^ 32 ->
  returns (fun fuel => flush fuel s) (mkrcv None (r_out s ++ [p]) (r_sps s) (r_pps s)).
Proof.
  intros E (p' & nl & E' & V) N L. assert (p' = p) by congruence. subst p'. destruct V as (n & (slack & B & EP) & _). cbn [s_f s_keyed] in EP.
  unfold flush. rewrite E. unfold Dtsc_Model.with_data. rewrite EP. cbn [pdata]. rewrite <- EP.
  set (m := pkt _ _ _ _ _ _ ++ slack).
  assert (HM : has m 21 (fbytes (f_offset f) (f_bpos f) (Some (f_key f)) ++ [0; 4] ++ bs "data" ++ [2] ++ be 4 (len (f_data f)) ++ f_data f ++ [0; 0; 238])).
  { exists (bs "DTP2" ++ be 4 (27 + flen (f_offset f) (f_bpos f) (Some (f_key f)) + len (f_data f)) ++ be 4 (f_track f) ++ be 8 (f_time f) ++ [224]), slack. split; [|Dtsc_Proofs.lens].
    unfold m. rewrite pkt_shape. unfold mid. rewrite <- !app_assoc. reflexivity. }
  pose proof (dlo _ _ _ _ _ HM) as D.
  assert (GB : getbe m (28 + flen (f_offset f) (f_bpos f) (Some (f_key f))) 4 = Ok (len (f_data f))).
  { unfold m. rewrite pkt_shape. rewrite (app_assoc (be 4 (27 + flen (f_offset f) (f_bpos f) (Some (f_key f)) + len (f_data f)))). rewrite (app_assoc (bs "DTP2")). rewrite <- (app_assoc _ (be 4 (len (f_data f)) ++ f_data f ++ [0; 0; 238]) slack). rewrite <- (app_assoc (be 4 (len (f_data f)))).
    apply Mp4_Proofs.getbe_at; [rewrite !len_app, len_mid, be_len; Dtsc_Proofs.lens|reflexivity|pose proof (len_nonneg (f_data f)); lia]. }
  destruct D as (n0 & D). exists n0. intros fuel Hf. rewrite D by exact Hf. rewrite GB.
  assert (0 < len (f_data f)) by (destruct (f_data f) as [|x r]; [congruence|rewrite len_cons; pose proof (len_nonneg r); lia]).
  replace (len (f_data f) =? 0) with false by lia. reflexivity.
Qed.
End Frames.
