(** Proofs about audio framing. *)
From Verif Require Import Common CommonFacts Bits BitsFacts Mem_Model Mem_Proofs Outcome_Model Bitstream_Model Bitstream_Spec Bitstream_Proofs Mp4_Proofs Audio_Model Audio_Spec.
Ltac Zify.zify_post_hook ::= Z.div_mod_to_equations.

Lemma getb_ok (m : list Z) i : 0 <= i < len m -> getb m i = Ok (nthz m i).
Proof. intros H. unfold getb. rewrite rd_some by exact H. reflexivity. Qed.

(** ** Headers. *)
Definition hdr (f : frame) : list Z :=
  let n := frame_length f in
  [255;
   240 + f_id f * 8 + f_layer f * 2 + (match f_crc f with None => 1 | Some _ => 0 end);
   f_profile f * 64 + f_rate f * 4 + f_private f * 2 + f_channels f / 4;
   (f_channels f mod 4) * 64 + f_flags f * 4 + n / 2048;
   (n / 8) mod 256;
   (n mod 8) * 32 + f_fullness f / 64;
   (f_fullness f mod 64) * 4 + f_blocks f].
Lemma frame_hdr f : frame_bytes f = hdr f ++ (match f_crc f with None => [] | Some c => c end) ++ f_data f.
Proof. reflexivity. Qed.
Lemma len_hdr f : len (hdr f) = 7. Proof. reflexivity. Qed.
Lemma good_len f : good f -> len (frame_bytes f) = frame_length f /\ 7 <= header_length f <= 9 /\ 0 < len (f_data f) /\ 8 <= frame_length f < 8192.
Proof.
  intros (_ & _ & C & _ & _ & _ & _ & _ & _ & _ & D & L). rewrite frame_hdr, !len_app, len_hdr. unfold frame_length, header_length in *.
  assert (0 < len (f_data f)). { destruct (f_data f); [congruence |]. rewrite len_cons. pose proof (len_nonneg l). lia. }
  destruct (f_crc f) as [c |]; [rewrite C | rewrite len_nil]; lia.
Qed.
Lemma hdr_at f r i : 0 <= i < 7 -> getb (hdr f ++ r) i = Ok (nthz (hdr f) i).
Proof. intros H. pose proof (len_nonneg r). rewrite getb_ok by (rewrite len_app, len_hdr; lia). rewrite nthz_app1 by (rewrite len_hdr; lia). reflexivity. Qed.
Lemma len_hdr_app f r : len (hdr f ++ r) = 7 + len r.
Proof. rewrite len_app, len_hdr. reflexivity. Qed.

Lemma hdr_profile f r : good f -> getAACProfile (hdr f ++ r) = Ok (f_profile f + 1).
Proof.
  intros G. unfold getAACProfile. pose proof (len_nonneg r). rewrite len_hdr_app. destruct (Z.eqb_spec (7 + len r) 0); [lia |].
  rewrite (hdr_at f r 2) by lia. f_equal. f_equal. change (nthz (hdr f) 2) with (f_profile f * 64 + f_rate f * 4 + f_private f * 2 + f_channels f / 4).
  destruct G as (?&?&?&?&?&?&?&?&?&?&?&?). rewrite shr_div, land_3 by lia. change (2 ^ 6) with 64. lia.
Qed.
Lemma hdr_rate f r : good f -> getFrequencyIndex (hdr f ++ r) = Ok (f_rate f).
Proof.
  intros G. unfold getFrequencyIndex. pose proof (len_nonneg r). rewrite len_hdr_app. destruct (Z.eqb_spec (7 + len r) 0); [lia |].
  rewrite (hdr_at f r 2) by lia. f_equal. change (nthz (hdr f) 2) with (f_profile f * 64 + f_rate f * 4 + f_private f * 2 + f_channels f / 4).
  destruct G as (?&?&?&?&?&?&?&?&?&?&?&?). rewrite shr_div, land_15 by lia. change (2 ^ 2) with 4. lia.
Qed.
Lemma rate_of_table i : 0 <= i < 13 -> rate_of i = nthz rates i /\ 0 < rate_of i.
Proof. intros H. assert (i = 0 \/ i = 1 \/ i = 2 \/ i = 3 \/ i = 4 \/ i = 5 \/ i = 6 \/ i = 7 \/ i = 8 \/ i = 9 \/ i = 10 \/ i = 11 \/ i = 12) as E by lia.
  repeat (destruct E as [-> | E]; [split; reflexivity |]). subst. split; reflexivity. Qed.
Lemma hertz_pos f : good f -> 0 < hertz f.
Proof. intros (?&?&?&?&R&?). unfold hertz. pose proof (rate_of_table _ R) as [E P]. rewrite <- E. exact P. Qed.
Lemma hdr_freq f r : good f -> getFrequency (hdr f ++ r) = Ok (hertz f).
Proof.
  intros G. unfold getFrequency. pose proof (len_nonneg r). rewrite len_hdr_app. destruct (Z.ltb_spec (7 + len r) 3); [lia |].
  rewrite hdr_rate by exact G. f_equal. destruct G as (?&?&?&?&R&?). apply rate_of_table. exact R.
Qed.
Lemma hdr_config f r : good f -> getChannelConfig (hdr f ++ r) = Ok (f_channels f).
Proof.
  intros G. unfold getChannelConfig. pose proof (len_nonneg r). rewrite len_hdr_app. destruct (Z.eqb_spec (7 + len r) 0); [lia |].
  rewrite (hdr_at f r 2), (hdr_at f r 3) by lia. f_equal. pose proof (good_len f G) as (_ & _ & _ & L).
  change (nthz (hdr f) 2) with (f_profile f * 64 + f_rate f * 4 + f_private f * 2 + f_channels f / 4).
  change (nthz (hdr f) 3) with ((f_channels f mod 4) * 64 + f_flags f * 4 + frame_length f / 2048).
  destruct G as (?&?&?&?&?&?&?&?&?&?&?&?). rewrite land_1, shr_div, land_3 by lia. change (2 ^ 6) with 64.
  rewrite (lor_shl_add' _ _ 2 4); [| lia | reflexivity | apply Z.mod_pos_bound; lia]. lia.
Qed.
Lemma hdr_channels f r : good f -> getChannelCount (hdr f ++ r) = Ok (channels f).
Proof.
  intros G. unfold getChannelCount. pose proof (len_nonneg r). rewrite len_hdr_app. destruct (Z.eqb_spec (7 + len r) 0); [lia |].
  rewrite hdr_config by exact G. reflexivity.
Qed.
Lemma channels_pos f : good f -> 0 < channels f.
Proof. intros (?&?&?&?&?&?&C&?). unfold channels. destruct (f_channels f =? 7); lia. Qed.
Lemma hdr_head f r : good f -> getHeaderSize (hdr f ++ r) = Ok (header_length f).
Proof.
  intros G. unfold getHeaderSize. pose proof (len_nonneg r). rewrite len_hdr_app. destruct (Z.eqb_spec (7 + len r) 0); [lia |].
  rewrite (hdr_at f r 1) by lia. f_equal. rewrite land_1.
  change (nthz (hdr f) 1) with (240 + f_id f * 8 + f_layer f * 2 + (match f_crc f with None => 1 | Some _ => 0 end)).
  unfold header_length. destruct (f_crc f).
  - replace ((240 + f_id f * 8 + f_layer f * 2 + 0) mod 2) with 0 by lia. reflexivity.
  - replace ((240 + f_id f * 8 + f_layer f * 2 + 1) mod 2) with 1 by lia. reflexivity.
Qed.
Lemma size_bits a b c n fl fu : 0 <= n < 8192 -> 0 <= fl -> 0 <= fu < 2048 -> a mod 4 = n / 2048 -> b = (n / 8) mod 256 -> c = (n mod 8) * 32 + fu / 64 ->
  (((a .& 3) << 11) .| (b << 3) .| ((c >> 5) .& 7)) = n.
Proof.
  intros N FL FU A B C. rewrite land_3, A, shr_div, land_7 by lia. change (2 ^ 5) with 32.
  assert (E1 : ((n / 2048) << 11 .| (b << 3)) = (n / 2048 * 256 + b) * 8).
  { rewrite (shl_mul b 3) by lia. change (2 ^ 3) with 8. rewrite (lor_shl_add' _ _ 11 2048); [lia | lia | reflexivity |]. subst b. lia. }
  rewrite E1. change 8 with (2 ^ 3) at 1. rewrite (lor_add _ _ 3); [| lia | change (2 ^ 3) with 8; lia]. change (2 ^ 3) with 8. subst b c. lia.
Qed.
Lemma hdr_size f r : good f -> getCompleteSize (hdr f ++ r) = Ok (frame_length f).
Proof.
  intros G. unfold getCompleteSize. pose proof (len_nonneg r). rewrite len_hdr_app. destruct (Z.ltb_spec (7 + len r) 6); [lia |].
  rewrite (hdr_at f r 3), (hdr_at f r 4), (hdr_at f r 5) by lia. f_equal. pose proof (good_len f G) as (_ & _ & _ & L).
  destruct G as (?&?&?&?&?&?&?&?&?&?&?&?).
  apply (size_bits _ _ _ (frame_length f) 0 (f_fullness f)); try lia; try reflexivity.
  change (nthz (hdr f) 3) with ((f_channels f mod 4) * 64 + f_flags f * 4 + frame_length f / 2048). lia.
Qed.
Lemma hdr_payload f r : good f -> getPayloadSize (hdr f ++ r) = Ok (len (f_data f)).
Proof.
  intros G. unfold getPayloadSize. rewrite hdr_size, hdr_head by exact G. pose proof (good_len f G) as (_ & _ & P & L).
  destruct (Z.eqb_spec (frame_length f) 0); [lia |]. unfold frame_length. destruct (Z.leb_spec (header_length f) (header_length f + len (f_data f))); [f_equal; lia | lia].
Qed.
Lemma hdr_samples f r : good f -> getSampleCount (hdr f ++ r) = Ok (samples f).
Proof.
  intros G. unfold getSampleCount. pose proof (len_nonneg r). rewrite len_hdr_app. destruct (Z.ltb_spec (7 + len r) 7); [lia |].
  rewrite (hdr_at f r 6) by lia. f_equal. unfold samples. f_equal. f_equal.
  change (nthz (hdr f) 6) with ((f_fullness f mod 64) * 4 + f_blocks f). destruct G as (?&?&?&?&?&?&?&?&?&?&?&?). rewrite land_3. lia.
Qed.
Lemma hdr_duration f r : good f -> duration (hdr f ++ r) = Ok (lasts f).
Proof. intros G. unfold duration. rewrite hdr_samples, hdr_freq by exact G. reflexivity. Qed.
Lemma hdr_sync f r : good f -> hasSync (hdr f ++ r) = Ok true.
Proof.
  intros G. unfold hasSync. pose proof (len_nonneg r). rewrite len_hdr_app. destruct (Z.eqb_spec (7 + len r) 0); [lia |].
  rewrite (hdr_at f r 0), (hdr_at f r 1) by lia. f_equal. change (nthz (hdr f) 0) with 255.
  change (nthz (hdr f) 1) with (240 + f_id f * 8 + f_layer f * 2 + (match f_crc f with None => 1 | Some _ => 0 end)).
  destruct G as (?&?&?&?&?&?&?&?&?&?&?&?). rewrite shr_div, land_15 by lia. change (2 ^ 4) with 16.
  replace (((240 + f_id f * 8 + f_layer f * 2 + match f_crc f with Some _ => 0 | None => 1 end) / 16) mod 16) with 15 by (destruct (f_crc f); lia). reflexivity.
Qed.
Lemma hdr_valid f r : good f -> header_length f <= 7 + len r -> valid (hdr f ++ r) = Ok true.
Proof.
  intros G L. unfold valid. rewrite hdr_sync by exact G. cbn [negb]. rewrite len_hdr_app. pose proof (len_nonneg r). destruct (Z.eqb_spec (7 + len r) 0); [lia |].
  rewrite hdr_head by exact G. destruct (Z.ltb_spec (7 + len r) (header_length f)); [lia |]. rewrite hdr_freq by exact G. pose proof (hertz_pos f G). destruct (Z.eqb_spec (hertz f) 0); [lia |].
  rewrite hdr_channels by exact G. pose proof (channels_pos f G). destruct (Z.eqb_spec (channels f) 0); [lia |]. rewrite hdr_samples by exact G.
  unfold samples. destruct G as (?&?&?&?&?&?&?&?&?&B&?&?). destruct (Z.eqb_spec ((f_blocks f + 1) * 1024) 0); [lia | reflexivity].
Qed.
Lemma frame_app f r : frame_bytes f ++ r = hdr f ++ ((match f_crc f with None => [] | Some c => c end) ++ f_data f ++ r).
Proof. rewrite frame_hdr, <- !app_assoc. reflexivity. Qed.
Lemma frame_payload f r : good f -> getPayload (frame_bytes f ++ r) = Ok (f_data f).
Proof.
  intros G. unfold getPayload. rewrite frame_app, hdr_head, hdr_payload by exact G. rewrite (app_assoc (hdr f)). apply getn_at; [| reflexivity].
  rewrite len_app, len_hdr. destruct G as (_ & _ & C & _). unfold header_length. destruct (f_crc f) as [c |]; [rewrite C; reflexivity | reflexivity].
Qed.

(** ** Learning the header. *)
Definition known (info : option (list Z)) : Prop := match info with None => True | Some d => exists f r, good f /\ d = hdr f ++ r /\ header_length f <= 7 + len r end.
Definition alike (f g : frame) : bool := (f_profile f =? f_profile g) && (f_rate f =? f_rate g) && (f_channels f =? f_channels g).
Lemma same_ok f r g s : good f -> good g -> header_length f <= 7 + len r -> header_length g <= 7 + len s -> sameHeader (hdr f ++ r) (hdr g ++ s) = Ok (alike f g).
Proof.
  intros F G A B. unfold sameHeader, alike. rewrite !hdr_valid, !hdr_profile, !hdr_rate, !hdr_config by assumption. cbn [negb].
  replace (f_profile f + 1 =? f_profile g + 1) with (f_profile f =? f_profile g) by (destruct (Z.eqb_spec (f_profile f) (f_profile g)), (Z.eqb_spec (f_profile f + 1) (f_profile g + 1)); lia || reflexivity).
  destruct (f_profile f =? f_profile g); [| reflexivity]. cbn [negb andb]. destruct (f_rate f =? f_rate g); reflexivity.
Qed.
(** What is known tells the profile, rate and channels of [f]. *)
Definition tells (info : option (list Z)) (f : frame) : Prop :=
  exists d, info = Some d /\ exists g r, good g /\ d = hdr g ++ r /\ header_length g <= 7 + len r /\ alike g f = true.
Lemma tells_known i f : tells i f -> known i.
Proof. intros (d & -> & g & r & G & E & L & _). exists g, r. auto. Qed.
Lemma alike_refl f : alike f f = true. Proof. unfold alike. rewrite !Z.eqb_refl. reflexivity. Qed.
Lemma learn_ok info f r : known info -> good f -> header_length f <= 7 + len r -> exists i, learn info (hdr f ++ r) = Ok i /\ tells i f.
Proof.
  intros K G L. unfold learn. destruct info as [d |].
  - destruct K as (g & s & H & -> & M). rewrite same_ok by assumption. destruct (alike g f) eqn:E.
    + exists (Some (hdr g ++ s)). split; [reflexivity |]. exists (hdr g ++ s). split; [reflexivity |]. exists g, s. auto.
    + exists (Some (hdr f ++ r)). split; [reflexivity |]. exists (hdr f ++ r). split; [reflexivity |]. exists f, r. auto using alike_refl.
  - exists (Some (hdr f ++ r)). split; [reflexivity |]. exists (hdr f ++ r). split; [reflexivity |]. exists f, r. auto using alike_refl.
Qed.

(** ** One PES packet. *)
Definition show (x : Z * Z * frame) : packet := let '(t, b, f) := x in Frame (u64 t) b (f_data f).
(** The state of a track, with the open frame. *)
Definition holds_open (r : remainder) (o : open) : Prop :=
  match o with
  | None => r_len r = 0
  | Some (f, b, x, y) => good f /\ frame_bytes f = x ++ y /\ y <> [] /\ header_length f <= len x /\ r = mkrem x (frame_length f) b
  end.
Definition last_known (info info' : option (list Z)) (l : list frame) : Prop := match l with [] => info' = info | _ => tells info' (List.last l (List.hd (mkframe 0 0 None 0 0 0 0 0 0 0 []) l)) end.

Lemma header_split f x y : good f -> frame_bytes f = x ++ y -> header_length f <= len x -> exists r, x = hdr f ++ r /\ header_length f <= 7 + len r.
Proof.
  intros G E L. pose proof (good_len f G) as (_ & H & _ & _). exists (dropz 7 x).
  assert (hdr f = takez 7 x). { rewrite <- (takez_app 7 x y) by lia. rewrite <- E, frame_hdr. symmetry. apply takez_app_exact. reflexivity. }
  rewrite H0, takez_dropz. split; [reflexivity |]. rewrite len_dropz by lia. lia.
Qed.
Lemma head_fits f : good f -> header_length f <= 7 + len ((match f_crc f with None => [] | Some c => c end) ++ f_data f).
Proof. intros G. rewrite len_app. pose proof (len_nonneg (f_data f)). destruct G as (_ & _ & C & _). unfold header_length. destruct (f_crc f) as [c |]; [rewrite C | rewrite len_nil]; lia. Qed.
Lemma head_fits_app f r : good f -> header_length f <= 7 + len ((match f_crc f with None => [] | Some c => c end) ++ f_data f ++ r).
Proof. intros G. pose proof (head_fits f G). rewrite app_assoc, len_app. pose proof (len_nonneg r). lia. Qed.

Lemma last_cons_known {A} (f : A) l d : List.last (f :: l) d = match l with [] => f | _ => List.last l (List.hd d l) end.
Proof.
  destruct l as [| g l]; [reflexivity |]. change (List.last (f :: g :: l) d) with (List.last (g :: l) d). cbn [List.hd].
  revert g. induction l as [| h l IH]; intros g; [reflexivity |].
  change (List.last (g :: h :: l) d) with (List.last (h :: l) d). change (List.last (g :: h :: l) g) with (List.last (h :: l) g).
  clear IH. revert h. induction l as [| i l IH]; intros h; [reflexivity |]. change (List.last (h :: i :: l) d) with (List.last (i :: l) d). change (List.last (h :: i :: l) g) with (List.last (i :: l) g). apply IH.
Qed.

Lemma loop_frames l : forall fuel t pre tail o1 ts bpos ms, Forall good l -> ends bpos tail o1 -> known (t_info t) -> r_len (t_rem t) = 0 ->
  len (List.concat (map frame_bytes l) ++ tail) <= Z.of_nat fuel ->
  exists t', aac_loop fuel t (pre ++ List.concat (map frame_bytes l) ++ tail) ts bpos (len pre) ms = Ok (map show (timed (ts + ms) bpos l), t') /\
    holds_open (t_rem t') o1 /\ known (t_info t') /\ last_known (t_info t) (t_info t') l.
Proof.
  induction l as [| f l IH]; intros fuel t pre tail o1 ts bpos ms G E K R FU.
  - cbn [map List.concat app] in *. destruct E as [| f x y GF B NE HL].
    + exists t. rewrite app_nil_r. destruct fuel; cbn [aac_loop]; rewrite Z.ltb_irrefl; (split; [reflexivity |]; split; [exact R |]; split; [exact K | reflexivity]).
    + pose proof (good_len f GF) as (LB & HB & _ & LL). destruct fuel as [| fuel]; [lia |]. cbn [aac_loop]. rewrite len_app.
      destruct (Z.ltb_spec (len pre) (len pre + len x)); [| lia]. rewrite dropz_app_exact by reflexivity.
      destruct (header_split f x y GF B HL) as (r & -> & HL'). rewrite hdr_valid by assumption. rewrite hdr_size by exact GF. cbn [andb negb].
      assert (0 < len y) by (destruct y; [congruence | rewrite len_cons; pose proof (len_nonneg y); lia]).
      assert (frame_length f = len (hdr f ++ r) + len y) by (rewrite <- LB, B, len_app; reflexivity).
      destruct (Z.leb_spec (frame_length f + len pre) (len pre + len (hdr f ++ r))); [lia |].
      unfold setRemainder. rewrite hdr_size by exact GF. destruct (Z.eqb_spec (frame_length f) 0); [lia |]. destruct (Z.ltb_spec (frame_length f) (len (hdr f ++ r))); [lia |].
      eexists. split; [reflexivity |]. cbn [t_rem t_info holds_open].
      split; [split; [exact GF | split; [exact B | split; [exact NE | split; [exact HL | reflexivity]]]] |]. split; [exact K | reflexivity].
  - inversion G as [| ? ? GF GL]; subst. cbn [map List.concat] in *. rewrite <- app_assoc in *. set (rest := List.concat (map frame_bytes l) ++ tail) in *.
    pose proof (good_len f GF) as (LB & HB & LD & LL). rewrite len_app, LB in FU. pose proof (len_nonneg rest). destruct fuel as [| fuel]; [lia |].
    cbn [aac_loop]. rewrite !len_app, LB. destruct (Z.ltb_spec (len pre) (len pre + (frame_length f + len rest))); [| lia].
    rewrite dropz_app_exact by reflexivity. rewrite frame_app. pose proof (head_fits_app f rest GF) as HF. rewrite hdr_valid, hdr_size by assumption. cbn [andb].
    destruct (Z.leb_spec (frame_length f + len pre) (len pre + (frame_length f + len rest))); [| lia].
    destruct (learn_ok (t_info t) f _ K GF HF) as (i & -> & T). rewrite hdr_payload by exact GF. destruct (Z.eqb_spec (len (f_data f)) 0); [lia |]. cbn [negb].
    rewrite hdr_duration by exact GF. rewrite <- frame_app. rewrite frame_payload by exact GF.
    destruct (IH fuel (mktrk (t_rem t) i) (pre ++ frame_bytes f) tail o1 ts bpos (ms + lasts f)) as (t' & EQ & HO & KN & LK); auto; [cbn; eapply tells_known; exact T | fold rest; lia |].
    fold rest in EQ. rewrite <- app_assoc in EQ. rewrite len_app, LB in EQ. rewrite EQ.
    exists t'. cbn [fst snd map timed show]. split; [f_equal; f_equal; f_equal; f_equal; f_equal; lia |]. split; [exact HO |]. split; [exact KN |].
    cbn [t_info] in LK. unfold last_known in *. cbn [List.hd]. rewrite last_cons_known. destruct l as [| g l]; [rewrite LK; exact T | exact LK].
Qed.

(** ** Packets one after the other. *)
Lemma len_pos {A} (l : list A) : l <> [] -> 0 < len l.
Proof. destruct l; [congruence |]. intros _. rewrite len_cons. pose proof (len_nonneg l). lia. Qed.
Lemma to_nat_len {A} (l : list A) : Z.of_nat (List.length l) = len l. Proof. reflexivity. Qed.
Lemma pes_none t l tail o1 ts bpos : Forall good l -> ends bpos tail o1 -> known (t_info t) -> r_len (t_rem t) = 0 ->
  exists t', parse_aac t ts bpos (List.concat (map frame_bytes l) ++ tail) = Ok (map show (timed ts bpos l), t') /\
    holds_open (t_rem t') o1 /\ known (t_info t') /\ last_known (t_info t) (t_info t') l.
Proof.
  intros G E K R. unfold parse_aac. rewrite R. cbn [negb Z.eqb].
  destruct (loop_frames l (List.length (List.concat (map frame_bytes l) ++ tail)) t [] tail o1 ts bpos 0 G E K R) as (t' & EQ & H); [rewrite to_nat_len; lia |].
  cbn [app] in EQ. change (len (@nil Z)) with 0 in EQ. rewrite EQ. exists t'. rewrite Z.add_0_r. split; [reflexivity | exact H].
Qed.
Lemma pes_middle t f b0 x y z ts bpos : z <> [] -> known (t_info t) -> holds_open (t_rem t) (Some (f, b0, x, y ++ z)) ->
  exists t', parse_aac t ts bpos y = Ok ([], t') /\ holds_open (t_rem t') (Some (f, b0, x ++ y, z)) /\ t_info t' = t_info t.
Proof.
  intros NZ K (G & E & NE & HL & R). destruct t as [rm info]. cbn [t_rem t_info] in *. subst rm. unfold parse_aac. cbn [t_rem t_info r_len r_data r_bpos].
  pose proof (good_len f G) as (LB & HB & _ & LL). destruct (Z.eqb_spec (frame_length f) 0); [lia |]. cbn [negb].
  pose proof (len_pos z NZ). pose proof (len_nonneg y). rewrite E, !len_app in LB. replace (Z.min (frame_length f - len x) (len y)) with (len y) by lia.
  rewrite takez_all by lia. unfold rem_append. cbn [r_len r_data r_bpos]. destruct (Z.ltb_spec (frame_length f) (len x + len y)); [lia |]. cbn [r_len r_data r_bpos].
  rewrite len_app. destruct (Z.eqb_spec (frame_length f) (len x + len y)); [lia |]. cbn [fst snd].
  exists (mktrk (mkrem (x ++ y) (frame_length f) b0) info). split.
  - destruct (List.length y); cbn [aac_loop]; rewrite Z.ltb_irrefl; reflexivity.
  - split; [| reflexivity]. cbn [t_rem]. split; [exact G |]. split; [rewrite E; apply app_assoc |]. split; [exact NZ |]. split; [rewrite len_app; lia | reflexivity].
Qed.
Lemma pes_end t f b0 x y l tail o1 ts bpos : y <> [] -> Forall good l -> ends bpos tail o1 -> known (t_info t) -> holds_open (t_rem t) (Some (f, b0, x, y)) ->
  exists t', parse_aac t ts bpos (y ++ List.concat (map frame_bytes l) ++ tail) = Ok (map show ((ts - lasts f, b0, f) :: timed ts bpos l), t') /\
    holds_open (t_rem t') o1 /\ known (t_info t') /\ tells (t_info t') (List.last (f :: l) f).
Proof.
  intros NY G E K (GF & B & NE & HL & R). destruct t as [rm info]. cbn [t_rem t_info] in *. subst rm. unfold parse_aac. cbn [t_rem t_info r_len r_data r_bpos].
  pose proof (good_len f GF) as (LB & HB & _ & LL). destruct (Z.eqb_spec (frame_length f) 0); [lia |]. cbn [negb].
  pose proof (len_pos y NY). set (rest := List.concat (map frame_bytes l) ++ tail) in *. pose proof (len_nonneg rest). rewrite B, !len_app in LB.
  rewrite len_app. replace (Z.min (frame_length f - len x) (len y + len rest)) with (len y) by lia.
  rewrite takez_app_exact by reflexivity. unfold rem_append. cbn [r_len r_data r_bpos]. destruct (Z.ltb_spec (frame_length f) (len x + len y)); [lia |]. cbn [r_len r_data r_bpos].
  rewrite len_app. destruct (Z.eqb_spec (frame_length f) (len x + len y)); [| lia]. rewrite <- B.
  pose proof (head_fits f GF) as HF. assert (V : valid (frame_bytes f) = Ok true) by (rewrite frame_hdr; apply hdr_valid; assumption).
  assert (LR : exists i, learn info (frame_bytes f) = Ok i /\ tells i f) by (rewrite frame_hdr; apply learn_ok; assumption). destruct LR as (i & LR & T).
  assert (P : getPayload (frame_bytes f) = Ok (f_data f)) by (pose proof (frame_payload f [] GF) as P; rewrite app_nil_r in P; exact P).
  assert (D : duration (frame_bytes f) = Ok (lasts f)) by (rewrite frame_hdr; apply hdr_duration; exact GF). rewrite V, LR, P, D. cbn [fst snd].
  destruct (loop_frames l (List.length (y ++ rest)) (mktrk rem_none i) y tail o1 ts bpos 0 G E) as (t' & EQ & HO & KN & LK);
    [cbn; eapply tells_known; exact T | reflexivity | rewrite to_nat_len; fold rest; rewrite len_app; lia |].
  fold rest in EQ. rewrite EQ. exists t'. rewrite Z.add_0_r. cbn [fst snd map app show]. split; [reflexivity |]. split; [exact HO |]. split; [exact KN |].
  cbn [t_info] in LK. unfold last_known in LK. rewrite last_cons_known. destruct l as [| g l]; [rewrite LK; exact T | exact LK].
Qed.
Lemma last_app {A} (a : list A) x b d : List.last (a ++ x :: b) d = List.last (x :: b) d.
Proof. induction a as [| y a IH]; [reflexivity |]. cbn [app]. rewrite <- IH. destruct a; reflexivity. Qed.
Lemma sent_ok o l out o' : sent o l out o' -> forall t, holds_open (t_rem t) o -> known (t_info t) ->
  exists t', parse_all_aac t l = Ok (map show out, t') /\ holds_open (t_rem t') o' /\ known (t_info t') /\
    (out = [] -> t_info t' = t_info t) /\ (forall x, List.last (map (fun p => Some (snd p)) out) None = Some x -> tells (t_info t') x).
Proof.
  induction 1 as [o | f b0 x y z ts bpos l out o NZ S IH | l1 tail o1 ts bpos l out o G E S IH | f b0 x y l1 tail o1 ts bpos l out o NY G E S IH]; intros t HO K.
  - exists t. cbn. split; [reflexivity |]. split; [exact HO |]. split; [exact K |]. split; [reflexivity | discriminate].
  - destruct (pes_middle t f b0 x y z ts bpos NZ K HO) as (t1 & E1 & H1 & I1). cbn [parse_all_aac]. rewrite E1. cbn [fst snd].
    destruct (IH t1 H1 ltac:(rewrite I1; exact K)) as (t' & E2 & H2 & K2 & N2 & L2). rewrite E2. exists t'. cbn [fst snd app]. split; [reflexivity |]. split; [exact H2 |]. split; [exact K2 |]. split; [rewrite <- I1; exact N2 | exact L2].
  - destruct (pes_none t l1 tail o1 ts bpos G E K HO) as (t1 & E1 & H1 & K1 & LK). cbn [parse_all_aac]. rewrite E1. cbn [fst snd].
    destruct (IH t1 H1 K1) as (t' & E2 & H2 & K2 & N2 & L2). rewrite E2. exists t'. cbn [fst snd]. rewrite map_app. split; [reflexivity |]. split; [exact H2 |]. split; [exact K2 |].
    split.
    + intros N. apply app_eq_nil in N as [N M]. rewrite (N2 M). destruct l1 as [| f l1]; [exact LK | discriminate].
    + intros w. rewrite map_app. destruct out as [| p out].
      * rewrite app_nil_r, (N2 eq_refl). destruct l1 as [| f l1]; [discriminate |]. unfold last_known in LK. cbn [List.hd] in LK. intros W.
        assert (Q : forall ts d d', List.last (map (fun p => Some (snd p)) (timed ts bpos (f :: l1))) d' = Some (List.last (f :: l1) d)).
        { clear. revert f. induction l1 as [| g l1 IH]; intros f ts d d'; [reflexivity |]. specialize (IH g (ts + lasts f) d d'). cbn [timed map List.last] in *. exact IH. }
        rewrite (Q ts f None) in W. injection W as <-. exact LK.
      * intros W. apply L2. rewrite <- W. symmetry. cbn [map]. generalize (map (fun p0 : Z * Z * frame => Some (snd p0)) (timed ts bpos l1)). intros q.
        induction q as [| a q IHq]; [reflexivity |]. cbn [app List.last]. destruct (q ++ Some (snd p) :: map (fun p0 : Z * Z * frame => Some (snd p0)) out) eqn:Z0; [destruct q; discriminate | exact IHq].
  - destruct (pes_end t f b0 x y l1 tail o1 ts bpos NY G E K HO) as (t1 & E1 & H1 & K1 & LK). cbn [parse_all_aac]. rewrite E1. cbn [fst snd].
    destruct (IH t1 H1 K1) as (t' & E2 & H2 & K2 & N2 & L2). rewrite E2. exists t'. cbn [fst snd map app]. rewrite map_app. split; [reflexivity |]. split; [exact H2 |]. split; [exact K2 |].
    split; [discriminate |]. intros w. destruct out as [| p out].
    + rewrite app_nil_r, (N2 eq_refl). intros W.
      assert (Q : forall l1 f ts0 d d', List.last (Some f :: map (fun p => Some (snd p)) (timed ts0 bpos l1)) d' = Some (List.last (f :: l1) d)).
      { clear. induction l1 as [| g l1 IH]; intros f ts d d'; [reflexivity |]. specialize (IH g (ts + lasts g) d d'). cbn [timed map List.last snd] in *. exact IH. }
      change (Some f :: map (fun p : Z * Z * frame => Some (snd p)) (timed ts bpos l1)) with (Some f :: map (fun p : Z * Z * frame => Some (snd p)) (timed ts bpos l1)) in W.
      cbn [snd] in W. rewrite (Q l1 f ts f None) in W. injection W as <-. exact LK.
    + intros W. apply L2. rewrite <- W. symmetry. rewrite map_app. cbn [map]. exact (last_app (Some f :: map (fun p0 : Z * Z * frame => Some (snd p0)) (timed ts bpos l1)) _ _ _).
Qed.
(** The bytes of the packets are those of the frames. *)
Lemma sent_bytes o l out o' : sent o l out o' ->
  (match o with None => [] | Some (_, _, x, _) => x end) ++ List.concat (map snd l) =
  List.concat (map (fun p => frame_bytes (snd p)) out) ++ (match o' with None => [] | Some (_, _, x, _) => x end) \/
  (exists f b x y, o = Some (f, b, x, y) /\ frame_bytes f <> x ++ y).
Proof.
  assert (T : forall l1 ts bpos, map (fun p => frame_bytes (snd p)) (timed ts bpos l1) = map frame_bytes l1) by (induction l1 as [| g l1 IH]; intros ts bpos; [reflexivity |]; cbn [timed map snd]; rewrite IH; reflexivity).
  assert (N : forall bpos tail o1, ends bpos tail o1 -> tail = match o1 with None => [] | Some (_, _, x, _) => x end /\ (forall f b x y, o1 = Some (f, b, x, y) -> frame_bytes f = x ++ y)).
  { intros bpos tail o1 [| f x y GF B NE HL]; (split; [reflexivity |]); intros ? ? ? ? Q; [discriminate |]. injection Q as <- <- <- <-. exact B. }
  induction 1 as [o | f b0 x y z ts bpos l out o NZ S IH | l1 tail o1 ts bpos l out o G E S IH | f b0 x y l1 tail o1 ts bpos l out o NY G E S IH].
  - left. cbn. rewrite app_nil_r. reflexivity.
  - destruct IH as [IH | (g & c & u & v & Q & IH)].
    + left. cbn [map List.concat snd]. rewrite app_assoc. exact IH.
    + injection Q as <- <- <- <-. right. exists f, b0, x, (y ++ z). split; [reflexivity |]. rewrite app_assoc. exact IH.
  - destruct (N _ _ _ E) as [-> P]. destruct IH as [IH | (g & c & u & v & Q & IH)]; [| destruct (IH (P _ _ _ _ Q))].
    left. cbn [map List.concat snd app]. rewrite map_app, concat_app, T, <- !app_assoc. f_equal. exact IH.
  - destruct (N _ _ _ E) as [-> P]. destruct IH as [IH | (g & c & u & v & Q & IH)]; [| destruct (IH (P _ _ _ _ Q))].
    destruct (list_eq_dec Z.eq_dec (frame_bytes f) (x ++ y)) as [B | B]; [| right; exists f, b0, x, y; auto].
    left. cbn [map List.concat snd app]. rewrite map_app, concat_app, T, B, <- !app_assoc. f_equal. f_equal. f_equal. exact IH.
Qed.

(** ** Reading init data. *)
Lemma get_bits r n v rest : reader r -> (n <= 64)%nat -> 0 <= v < 2 ^ Z.of_nat n -> unread r = bits_of n v ++ rest ->
  exists r', br_get r (Z.of_nat n) = (v, r') /\ br_skip r (Z.of_nat n) = r' /\ reader r' /\ unread r' = rest.
Proof.
  intros R N V E. destruct (br_get_ok r (bits_of n v) rest R E) as (r' & G & R' & U); [rewrite bits_of_len; lia |].
  rewrite bits_of_len in G. rewrite bits_val_of, Z.mod_small in G by lia. exists r'. split; [exact G |]. split; [| split; assumption].
  unfold br_get in G. pose proof (remaining_len r R) as L. rewrite E, len_app, bits_of_len in L. pose proof (len_nonneg rest).
  destruct (Z.leb_spec (Z.of_nat n) (br_size r)); [| lia]. injection G as _ G. exact G.
Qed.
Lemma reader_new conf : bytesP conf -> reader (br_append (mkbr [] 0) conf) /\ unread (br_append (mkbr [] 0) conf) = bits conf.
Proof. intros B. split; [split; [exact B |]; cbn [br_append rdat roff app]; pose proof (len_nonneg conf); lia |]. unfold unread, br_append. cbn [rdat roff app]. apply dropz_0. Qed.
Lemma conf_ok conf ot rate chan fl rest : bytesP conf -> conf_good ot rate chan fl -> bits conf = conf_bits ot rate chan fl ++ rest ->
  asc_objtype conf = ot /\ asc_rate conf = (match rate with inl i => nthz rates i | inr hz => hz end) /\
  asc_channels conf = (if (chan =? 0) || (6 <? chan) then 8 else chan) /\ asc_samples conf = (if fl =? 1 then 960 else 1024).
Proof.
  intros B (T & RT & C & F) E. destruct (reader_new conf B) as [R U]. rewrite E in U. set (r0 := br_append (mkbr [] 0) conf) in *. unfold conf_bits in U.
  assert (S1 : exists r1, asc_objtype conf = ot /\ skip_type r0 = r1 /\ reader r1 /\ unread r1 = ((match rate with inl i => bits_of 4 i | inr hz => bits_of 4 15 ++ bits_of 24 hz end) ++ bits_of 4 chan ++ bits_of 1 fl) ++ rest).
  { unfold asc_objtype, skip_type. fold r0. destruct (Z.ltb_spec ot 31).
    - rewrite <- app_assoc in U. destruct (get_bits r0 5 ot _ R ltac:(lia) ltac:(change (2 ^ Z.of_nat 5) with 32; lia) U) as (r1 & G & _ & R1 & U1).
      change (Z.of_nat 5) with 5 in G. rewrite G. destruct (Z.eqb_spec ot 31); [lia |]. exists r1. auto.
    - rewrite <- !app_assoc in U. destruct (get_bits r0 5 31 _ R ltac:(lia) ltac:(change (2 ^ Z.of_nat 5) with 32; lia) U) as (r1 & G & _ & R1 & U1).
      destruct (get_bits r1 6 (ot - 32) _ R1 ltac:(lia) ltac:(change (2 ^ Z.of_nat 6) with 64; lia) U1) as (r2 & G2 & S2 & R2 & U2).
      change (Z.of_nat 5) with 5 in G. change (Z.of_nat 6) with 6 in *. rewrite G. change (31 =? 31) with true. cbv iota. rewrite G2, S2. cbn [fst]. exists r2.
      split; [unfold u8; lia |]. split; [reflexivity |]. split; [exact R2 |]. rewrite <- !app_assoc. exact U2. }
  destruct S1 as (r1 & O & SK & R1 & U1). split; [exact O |].
  unfold asc_rate, asc_channels, asc_samples. fold r0. rewrite SK.
  assert (S2 : exists r2 i, br_get r1 4 = (i, r2) /\ (if i =? 15 then u32 (fst (br_get r2 24)) else rate_of i) = (match rate with inl i => nthz rates i | inr hz => hz end) /\
    reader (if i =? 15 then br_skip r2 24 else r2) /\ unread (if i =? 15 then br_skip r2 24 else r2) = bits_of 4 chan ++ bits_of 1 fl ++ rest).
  { destruct rate as [i | hz]; rewrite <- !app_assoc in U1.
    - destruct (get_bits r1 4 i _ R1 ltac:(lia) ltac:(change (2 ^ Z.of_nat 4) with 16; lia) U1) as (r2 & G & _ & R2 & U2). exists r2, i. change (Z.of_nat 4) with 4 in G.
      destruct (Z.eqb_spec i 15); [lia |]. split; [exact G |]. split; [apply rate_of_table; exact RT |]. auto.
    - destruct (get_bits r1 4 15 _ R1 ltac:(lia) ltac:(change (2 ^ Z.of_nat 4) with 16; lia) U1) as (r2 & G & _ & R2 & U2).
      destruct (get_bits r2 24 hz _ R2 ltac:(lia) ltac:(exact RT) U2) as (r3 & G3 & S3 & R3 & U3).
      exists r2, 15. change (Z.of_nat 4) with 4 in G. change (Z.of_nat 24) with 24 in *. change (15 =? 15) with true. cbv iota. split; [exact G |]. rewrite G3, S3. cbn [fst]. split; [apply u32_id; lia |]. auto. }
  destruct S2 as (r2 & i & G & RV & R3 & U3). rewrite G. split; [exact RV |]. set (r3 := if i =? 15 then br_skip r2 24 else r2) in *.
  destruct (get_bits r3 4 chan _ R3 ltac:(lia) ltac:(change (2 ^ Z.of_nat 4) with 16; lia) U3) as (r4 & G4 & S4 & R4 & U4).
  destruct (get_bits r4 1 fl _ R4 ltac:(lia) ltac:(change (2 ^ Z.of_nat 1) with 2; lia) U4) as (r5 & G5 & S5 & R5 & U5).
  change (Z.of_nat 4) with 4 in *. change (Z.of_nat 1) with 1 in *. rewrite G4, S4. cbn [fst]. rewrite G5. cbn [fst]. split.
  - destruct (Z.eqb_spec chan 0); [reflexivity |]. cbn [orb]. destruct (Z.ltb_spec 7 chan), (Z.ltb_spec 6 chan), (Z.eqb_spec chan 7); lia || reflexivity.
  - destruct (Z.eqb_spec fl 0), (Z.eqb_spec fl 1); cbn [negb]; lia || reflexivity.
Qed.
Lemma bits_of_split n m a b : 0 <= b < 2 ^ Z.of_nat m -> bits_of (n + m) (a * 2 ^ Z.of_nat m + b) = bits_of n a ++ bits_of m b.
Proof.
  intros B. induction n as [| n IH].
  - cbn [plus bits_of app]. assert (forall k x y, (forall i, (i < k)%nat -> Z.testbit x (Z.of_nat i) = Z.testbit y (Z.of_nat i)) -> bits_of k x = bits_of k y) as X.
    { induction k as [| k IHk]; intros x y H; [reflexivity |]. cbn [bits_of]. rewrite H by lia. f_equal. apply IHk. intros i I. apply H. lia. }
    apply X. intros i I. rewrite <- (Z.mod_pow2_bits_low _ (Z.of_nat m) (Z.of_nat i)) by lia. rewrite Z.add_comm, Z.mod_add by lia. rewrite Z.mod_small by exact B. reflexivity.
  - cbn [plus bits_of app]. f_equal; [| exact IH]. rewrite Nat2Z.inj_add.
    replace (Z.testbit (a * 2 ^ Z.of_nat m + b) (Z.of_nat n + Z.of_nat m)) with (Z.testbit (Z.shiftr (a * 2 ^ Z.of_nat m + b) (Z.of_nat m)) (Z.of_nat n)) by (rewrite Z.shiftr_spec by lia; reflexivity).
    f_equal. rewrite Z.shiftr_div_pow2 by lia. rewrite Z.div_add_l by lia. rewrite (Z.div_small b) by exact B. lia.
Qed.
Lemma split2 n m a b x : 0 <= b < 2 ^ Z.of_nat m -> x = a * 2 ^ Z.of_nat m + b -> bits_of (n + m) x = bits_of n a ++ bits_of m b.
Proof. intros B ->. apply bits_of_split. exact B. Qed.
Lemma config_bits ot rate chan fl : 0 <= ot < 31 -> 0 <= rate < 13 -> 0 <= chan < 16 -> 0 <= fl < 8 ->
  bytesP (specific_config ot rate chan fl) /\ bits (specific_config ot rate chan fl) = conf_bits ot (inl rate) chan (fl / 4) ++ bits_of 2 (fl mod 4).
Proof.
  intros O R C F. split. { constructor; [unfold byteP; lia |]. constructor; [unfold byteP; lia | constructor]. }
  unfold specific_config, bits. cbn [flat_map]. rewrite app_nil_r. unfold conf_bits. destruct (Z.ltb_spec ot 31); [| lia].
  rewrite <- (split2 8 8 _ _ ((((ot * 16 + rate) * 16 + chan) * 2 + fl / 4) * 4 + fl mod 4)); [| change (2 ^ Z.of_nat 8) with 256; lia | change (2 ^ Z.of_nat 8) with 256; lia].
  rewrite (split2 14 2 (((ot * 16 + rate) * 16 + chan) * 2 + fl / 4) (fl mod 4)); [| change (2 ^ Z.of_nat 2) with 4; lia | reflexivity]. f_equal.
  rewrite (split2 13 1 ((ot * 16 + rate) * 16 + chan) (fl / 4)); [| change (2 ^ Z.of_nat 1) with 2; lia | reflexivity].
  rewrite (split2 9 4 (ot * 16 + rate) chan); [| change (2 ^ Z.of_nat 4) with 16; lia | reflexivity].
  rewrite (split2 5 4 ot rate); [| change (2 ^ Z.of_nat 4) with 16; lia | reflexivity]. rewrite <- !app_assoc. reflexivity.
Qed.

(** ** Init data of a frame, and headers from init data. *)
Lemma land_14 x : 0 <= x < 16 -> (x .& 14) = x - x mod 2.
Proof. intros H. assert (x = 0 \/ x = 1 \/ x = 2 \/ x = 3 \/ x = 4 \/ x = 5 \/ x = 6 \/ x = 7 \/ x = 8 \/ x = 9 \/ x = 10 \/ x = 11 \/ x = 12 \/ x = 13 \/ x = 14 \/ x = 15) as E by lia.
  repeat (destruct E as [-> | E]; [reflexivity |]). subst. reflexivity. Qed.
Lemma init_ok f r : good f -> getInit (hdr f ++ r) = Ok (specific_config (f_profile f + 1) (f_rate f) (f_channels f) 0).
Proof.
  intros G. unfold getInit. rewrite hdr_profile, hdr_rate, hdr_config by exact G. destruct G as (?&?&?&P&R&?&C&?&?&?&?&?). unfold specific_config. f_equal.
  rewrite land_31, land_1, land_15, land_14 by lia. rewrite !shr_div by lia. change (2 ^ 1) with 2.
  rewrite (lor_shl_add' _ _ 3 8); [| lia | reflexivity | lia]. rewrite (shl_mul (f_channels f mod 16) 3) by lia. change (2 ^ 3) with 8.
  rewrite (lor_shl_add' _ _ 7 128); [| lia | reflexivity | lia]. unfold u8. f_equal; [lia |]. f_equal. lia.
Qed.
Lemma header_ok ot rate chan fl more data : 1 <= ot <= 4 -> 0 <= rate < 13 -> 0 < chan < 8 -> 0 <= fl < 8 -> len data + 7 < 8192 ->
  getAudioHeader (len data) (specific_config ot rate chan fl ++ more) ++ data = frame_bytes (mkframe 0 0 None (ot - 1) rate 0 chan 0 2047 0 data).
Proof.
  intros O R C F L. pose proof (len_nonneg data). pose proof (len_nonneg more). unfold getAudioHeader, specific_config, frame_bytes, frame_length, header_length. cbn [f_crc f_id f_layer f_profile f_rate f_private f_channels f_flags f_fullness f_blocks f_data app].
  rewrite !len_cons. destruct (Z.ltb_spec 0 (1 + (1 + len more))); [| lia]. destruct (Z.ltb_spec 1 (1 + (1 + len more))); [| lia].
  change (nthz (ot * 8 + rate / 2 :: rate mod 2 * 128 + chan * 8 + fl :: more) 0) with (ot * 8 + rate / 2).
  change (nthz (ot * 8 + rate / 2 :: rate mod 2 * 128 + chan * 8 + fl :: more) 1) with (rate mod 2 * 128 + chan * 8 + fl).
  set (n := len data + 7). set (i0 := ot * 8 + rate / 2). set (i1 := rate mod 2 * 128 + chan * 8 + fl).
  assert (A : (n .& 6144) >> 11 = n / 2048). { rewrite Z.shiftr_land. change (Z.shiftr 6144 11) with 3. rewrite land_3, shr_div by lia. change (2 ^ 11) with 2048. unfold n. lia. }
  assert (B : u8 ((n .& 2040) >> 3) = (7 + len data) / 8 mod 256). { rewrite Z.shiftr_land. change (Z.shiftr 2040 3) with 255. rewrite land_255, shr_div by lia. change (2 ^ 3) with 8. unfold u8, n. rewrite Z.mod_mod by lia. f_equal. f_equal. lia. }
  assert (D : u8 (31 .| ((n .& 7) << 5)) = (7 + len data) mod 8 * 32 + 2047 / 64).
  { rewrite land_7, Z.lor_comm, (lor_shl_add' _ _ 5 32); [| lia | reflexivity | lia]. unfold u8, n. change (2047 / 64) with 31. rewrite (Z.add_comm (len data) 7). lia. }
  assert (T3 : (i1 .& 24) << 3 = (chan mod 4) * 64).
  { rewrite (Z.shiftl_mul_pow2 _ 3) by lia. change (2 ^ 3) with 8. replace (i1 .& 24) with (((i1 >> 3) .& 3) << 3).
    - rewrite land_3, shr_div, shl_mul by lia. change (2 ^ 3) with 8. unfold i1. lia.
    - rewrite Z.shiftl_land. change (Z.shiftl 3 3) with 24. apply Z.bits_inj'. intros j J. rewrite !Z.land_spec.
      destruct (Z.testbit 24 j) eqn:T; [| rewrite !andb_false_r; reflexivity]. rewrite !andb_true_r.
      assert (3 <= j). { destruct (Z.le_gt_cases 3 j); [assumption |]. assert (j = 0 \/ j = 1 \/ j = 2) as [-> | [-> | ->]] by lia; discriminate. }
      rewrite Z.shiftl_spec by lia. rewrite Z.shiftr_spec by lia. f_equal. lia. }
  assert (H3 : u8 (u8 ((i1 .& 24) << 3) .| ((n .& 6144) >> 11)) = chan mod 4 * 64 + 0 * 4 + (7 + len data) / 2048).
  { rewrite A, T3. rewrite (Z.add_comm 7). fold n. replace (u8 (chan mod 4 * 64)) with (chan mod 4 * 2 ^ 6) by (unfold u8; change (2 ^ 6) with 64; lia).
    rewrite (lor_add _ _ 6); [| lia | change (2 ^ 6) with 64; unfold n; lia]. change (2 ^ 6) with 64. unfold u8, n. lia. }
  assert (P6 : ((((i0 >> 3) - 1) << 6) .& 192) = (ot - 1) * 64).
  { assert (E : i0 >> 3 = ot) by (rewrite shr_div by lia; change (2 ^ 3) with 8; unfold i0; lia). rewrite E. assert (ot = 1 \/ ot = 2 \/ ot = 3 \/ ot = 4) as [-> | [-> | [-> | ->]]] by lia; reflexivity. }
  assert (F4 : (((i0 .& 7) << 1) .| ((i1 >> 7) .& 1)) = rate).
  { rewrite land_7, land_1, shr_div by lia. change (2 ^ 7) with 128. rewrite (lor_shl_add' _ _ 1 2); [| lia | reflexivity | lia]. unfold i0, i1. lia. }
  assert (C1 : (i1 .& 32) >> 5 = chan / 4). { rewrite Z.shiftr_land. change (Z.shiftr 32 5) with 1. rewrite land_1, shr_div by lia. change (2 ^ 5) with 32. unfold i1. lia. }
  assert (E2 : u8 (((((i0 >> 3) - 1) << 6) .& 192) .| ((((i0 .& 7) << 1) .| ((i1 >> 7) .& 1)) << 2) .| ((i1 .& 32) >> 5)) = (ot - 1) * 64 + rate * 4 + 0 * 2 + chan / 4).
  { rewrite P6, F4, C1. rewrite (shl_mul rate 2) by lia. change (2 ^ 2) with 4.
    replace ((ot - 1) * 64) with ((ot - 1) * 2 ^ 6) by lia. rewrite (lor_add _ (rate * 4) 6); [| lia | change (2 ^ 6) with 64; lia]. change (2 ^ 6) with 64.
    replace ((ot - 1) * 64 + rate * 4) with (((ot - 1) * 16 + rate) * 2 ^ 2) by (change (2 ^ 2) with 4; lia). rewrite (lor_add _ _ 2); [| lia | change (2 ^ 2) with 4; lia]. change (2 ^ 2) with 4. unfold u8. lia. }
  rewrite E2, H3, B, D. reflexivity.
Qed.

(** ** The clock of a transport stream. *)
Lemma align_frame n freq : 0 <= n < 2 ^ 36 -> 1000 <= freq <= 255000 -> align (90 * (n * 1024000 / freq)) freq = n * 1024 * 90000 / freq.
Proof.
  intros N F. unfold align. destruct (Z.eqb_spec freq 0); [lia |]. set (ms := n * 1024000 / freq).
  assert (A : ms * freq <= n * 1024000 < ms * freq + freq). { unfold ms. pose proof (Z.mul_div_le (n * 1024000) freq ltac:(lia)). pose proof (Z.mul_succ_div_gt (n * 1024000) freq ltac:(lia)). lia. }
  replace (90 * ms * freq) with (90 * (ms * freq)) by lia. set (m := ms * freq) in *. assert (0 <= m). { unfold m, ms. apply Z.mul_nonneg_nonneg; [apply Z.div_pos; lia | lia]. }
  rewrite (u64_id (90 * m)) by lia. rewrite (u64_id (90 * m / 90000 + 256)) by lia.
  replace (90 * m / 90000 + 256 - (90 * m / 90000 + 256) mod 1024) with (n * 1024) by (clear - A F N H; lia).
  rewrite u64_id by lia. reflexivity.
Qed.
Lemma align_near t freq : 0 <= t -> 0 < freq -> t * freq + 2 ^ 40 < 2 ^ 64 ->
  align t freq * freq <= t * freq + 256 * 90000 /\ t * freq < align t freq * freq + 768 * 90000 + freq.
Proof.
  intros T F L. unfold align. destruct (Z.eqb_spec freq 0); [lia |]. assert (0 <= t * freq) by (apply Z.mul_nonneg_nonneg; lia). set (x := t * freq) in *.
  rewrite (u64_id x) by lia. rewrite (u64_id (x / 90000 + 256)) by lia. set (k := x / 90000 + 256 - (x / 90000 + 256) mod 1024).
  assert (K : k * 90000 <= x + 256 * 90000 /\ x < (k + 768) * 90000 /\ 0 <= k) by (unfold k; lia). rewrite (u64_id (k * 90000)) by lia.
  pose proof (Z.mul_div_le (k * 90000) freq F). pose proof (Z.mul_succ_div_gt (k * 90000) freq F). lia.
Qed.
Lemma align_mono t t' freq : 0 <= t <= t' -> 0 < freq -> t' * freq + 2 ^ 40 < 2 ^ 64 -> align t freq <= align t' freq.
Proof.
  intros T F L. unfold align. destruct (Z.eqb_spec freq 0); [lia |]. assert (0 <= t * freq <= t' * freq) by (split; [apply Z.mul_nonneg_nonneg; lia | apply Z.mul_le_mono_nonneg_r; lia]).
  set (x := t * freq) in *. set (y := t' * freq) in *. rewrite (u64_id x), (u64_id y) by lia. rewrite (u64_id (x / 90000 + 256)), (u64_id (y / 90000 + 256)) by lia.
  set (k := x / 90000 + 256 - (x / 90000 + 256) mod 1024). set (j := y / 90000 + 256 - (y / 90000 + 256) mod 1024).
  assert (0 <= k <= j /\ j * 90000 <= y + 256 * 90000) by (unfold k, j; lia). rewrite !u64_id by lia. apply Z.div_le_mono; lia.
Qed.

(** ** AAC files. *)
Fixpoint in_file (ts pos : Z) (l : list frame) : list (Z * Z * list Z) :=
  match l with [] => [] | f :: l => (ts, pos + 1, f_data f) :: in_file (ts + lasts f) (pos + frame_length f) l end.
Lemma file_frame pre f rest ts : good f -> file_step (pre ++ frame_bytes f ++ rest) (len pre) ts =
  Ok (Some ((ts, len pre + 1, f_data f), len pre + frame_length f, ts + lasts f)).
Proof.
  intros G. pose proof (good_len f G) as (LB & HB & LD & LL). pose proof (len_nonneg rest). set (file := pre ++ frame_bytes f ++ rest).
  assert (LF : len file = len pre + frame_length f + len rest) by (unfold file; rewrite !len_app, LB; lia).
  assert (DF : dropz (len pre) file = frame_bytes f ++ rest) by (apply dropz_app_exact; reflexivity).
  assert (TH : takez 6 (frame_bytes f ++ rest) = takez 6 (hdr f)) by (rewrite frame_app; apply takez_app; rewrite len_hdr; lia).
  assert (D6 : dropz (len pre + 6) file = dropz 6 (frame_bytes f ++ rest)) by (rewrite Z.add_comm, <- dropz_dropz, DF by (pose proof (len_nonneg pre); lia); reflexivity).
  assert (TX : takez 6 (hdr f) ++ takez (frame_length f - 6) (dropz 6 (frame_bytes f ++ rest)) = frame_bytes f).
  { rewrite <- TH. rewrite (takez_app 6) by lia. rewrite dropz_app by lia. rewrite takez_app_exact by (rewrite len_dropz; lia). apply takez_dropz. }
  assert (NX : getNext file (len pre) ts = Ok (Got ts (len pre + 1) (f_data f) (len pre + frame_length f))).
  { unfold getNext. destruct (Z.leb_spec (len file) (len pre)); [lia |]. rewrite DF, TH. change (len (takez 6 (hdr f))) with 6. change (6 <? 6) with false. cbv iota.
    change (nthz (takez 6 (hdr f)) 0) with 255. change (nthz (takez 6 (hdr f)) 1) with (nthz (hdr f) 1). change (nthz (takez 6 (hdr f)) 3) with (nthz (hdr f) 3).
    change (nthz (takez 6 (hdr f)) 4) with (nthz (hdr f) 4). change (nthz (takez 6 (hdr f)) 5) with (nthz (hdr f) 5).
    assert (S1 : (nthz (hdr f) 1 .& 240) = 240).
    { change (nthz (hdr f) 1) with (240 + f_id f * 8 + f_layer f * 2 + (match f_crc f with None => 1 | Some _ => 0 end)). destruct G as (I&La&?).
      assert (f_id f = 0 \/ f_id f = 1) as [-> | ->] by lia; (assert (f_layer f = 0 \/ f_layer f = 1 \/ f_layer f = 2 \/ f_layer f = 3) as [-> | [-> | [-> | ->]]] by lia); destruct (f_crc f); reflexivity. }
    rewrite S1. change (255 =? 255) with true. change (240 =? 240) with true. cbn [negb orb].
    assert (SZ : (((nthz (hdr f) 3 .& 3) << 11) .| (nthz (hdr f) 4 << 3) .| ((nthz (hdr f) 5 >> 5) .& 7)) = frame_length f).
    { pose proof (hdr_size f [] G) as Q. unfold getCompleteSize in Q. rewrite len_hdr_app in Q. change (7 + len (@nil Z) <? 6) with false in Q. cbv iota in Q.
      rewrite (hdr_at f [] 3), (hdr_at f [] 4), (hdr_at f [] 5) in Q by lia. injection Q as Q. exact Q. }
    rewrite SZ. destruct (Z.ltb_spec (frame_length f) 6); [lia |]. rewrite D6.
    assert (LX : len (takez (frame_length f - 6) (dropz 6 (frame_bytes f ++ rest))) = frame_length f - 6) by (rewrite len_takez; [reflexivity |]; rewrite len_dropz by (rewrite len_app; lia); rewrite len_app; lia).
    rewrite LX, Z.ltb_irrefl, TX. rewrite (frame_hdr f) at 1. rewrite hdr_valid by (auto using head_fits). cbn [negb].
    pose proof (frame_payload f [] G) as P. rewrite app_nil_r in P. rewrite P. rewrite (frame_hdr f). rewrite hdr_duration by exact G. reflexivity. }
  unfold file_step. rewrite NX. replace (len pre + frame_length f - len pre) with (frame_length f) by lia. rewrite DF, takez_app_exact by lia.
  rewrite frame_hdr, hdr_duration by exact G. reflexivity.
Qed.
Lemma file_frames l : forall fuel pre ts, Forall good l -> (List.length l < fuel)%nat ->
  file_loop fuel (pre ++ List.concat (map frame_bytes l)) (len pre) ts = Ok (in_file ts (len pre) l).
Proof.
  induction l as [| f l IH]; intros fuel pre ts G F; (destruct fuel as [| fuel]; [cbn in F; lia |]).
  - cbn [map List.concat file_loop]. rewrite app_nil_r. unfold file_step, getNext. rewrite Z.leb_refl. reflexivity.
  - inversion G; subst. cbn [map List.concat file_loop]. rewrite file_frame by assumption. pose proof (good_len f H1) as (LB & _).
    specialize (IH fuel (pre ++ frame_bytes f) (ts + lasts f) H2 ltac:(cbn in F; lia)). rewrite <- app_assoc, len_app, LB in IH. rewrite IH. reflexivity.
Qed.
Lemma file_ok l : Forall good l -> aac_file (List.concat (map frame_bytes l)) = Ok (in_file 0 0 l).
Proof.
  intros G. unfold aac_file. apply (file_frames l _ [] 0 G).
  assert (List.length l <= List.length (List.concat (map frame_bytes l)))%nat; [| lia].
  clear - G. induction G as [| f l G _ IH]; [cbn; lia |]. cbn [map List.concat List.length]. rewrite app_length. pose proof (good_len f G) as (LB & _ & _ & LL). unfold len in LB. lia.
Qed.

(** ** Opus. *)
Lemma opus_size_ok k : forall fuel p o n m, (forall j, 0 <= j < Z.of_nat k -> nthz p (o + 2 + j) = 255) -> nthz p (o + 2 + Z.of_nat k) = m -> m <> 255 ->
  0 <= o -> o + 2 + Z.of_nat k < len p -> (k < fuel)%nat -> opus_size fuel p o n = Ok (o + Z.of_nat k, n + 255 * Z.of_nat k + m).
Proof.
  induction k as [| k IH]; intros fuel p o n m A B C O L F; (destruct fuel as [| fuel]; [lia |]); cbn [opus_size].
  - rewrite getb_ok by lia. change (Z.of_nat 0) with 0 in *. rewrite Z.add_0_r in B. rewrite B. destruct (Z.eqb_spec m 255); [congruence |]. f_equal. f_equal; lia.
  - rewrite getb_ok by lia. specialize (A 0 ltac:(lia)) as A0. rewrite Z.add_0_r in A0. rewrite A0. change (255 =? 255) with true. cbv iota.
    rewrite (IH fuel p (o + 1) (n + 255) m); try lia.
    + f_equal. f_equal; lia.
    + intros j J. replace (o + 1 + 2 + j) with (o + 2 + (j + 1)) by lia. apply A. lia.
    + rewrite <- B. f_equal. lia.
Qed.
Lemma opus_frame_table c : 0 <= c < 32 -> opus_frame2 c * 5 = nthz opus_table c.
Proof.
  intros H. assert (Q : (opus_frame2 c * 5 =? nthz opus_table c) = true) by (apply (range_sweep 32 (fun c => opus_frame2 c * 5 =? nthz opus_table c)); [vm_compute; reflexivity | exact H]). lia.
Qed.
Lemma nthz_repeat x n i : 0 <= i < Z.of_nat n -> nthz (repeat x n) i = x.
Proof. revert i. induction n as [| n IH]; intros i H; [lia |]. cbn [repeat]. destruct (Z.eq_dec i 0) as [-> | N]; [reflexivity |]. rewrite nthz_S by lia. apply IH. lia. Qed.
Lemma nthz_mid (a x c : list Z) i : 0 <= i < len x -> nthz (a ++ x ++ c) (len a + i) = nthz x i.
Proof. intros H. rewrite nthz_app2 by lia. replace (len a + i - len a) with i by lia. apply nthz_app1. exact H. Qed.
Lemma opus_duration_ok pre d rest : bytesP d -> (match d with [] => False | b :: r => b mod 4 = 3 -> r <> [] end) -> opus_duration (pre ++ d ++ rest) (len pre) = Ok (opus_lasts d / 10).
Proof.
  intros B D. destruct d as [| b r]; [destruct D |]. inversion B as [| ? ? BB BR]; subst. unfold byteP in BB. pose proof (len_nonneg pre). pose proof (len_nonneg rest). pose proof (len_nonneg r).
  unfold opus_duration. rewrite getb_ok by (rewrite !len_app, len_cons; lia). assert (N0 : nthz (pre ++ (b :: r) ++ rest) (len pre) = b) by (rewrite <- (Z.add_0_r (len pre)) at 1; rewrite nthz_mid by (rewrite len_cons; lia); reflexivity).
  rewrite N0, shr_div, land_3 by lia. change (2 ^ 3) with 8. unfold opus_lasts, opus_count. change (nthz (b :: r) 0) with b.
  rewrite <- (opus_frame_table (b / 8)) by lia. generalize (opus_frame2 (b / 8)). intros h.
  destruct (Z.eqb_spec (b mod 4) 0); [apply f_equal; clear; lia |]. destruct (Z.ltb_spec (b mod 4) 3); [apply f_equal; clear; lia |].
  assert (r <> []) as NR by (apply D; lia). pose proof (len_pos r NR). rewrite getb_ok by (rewrite !len_app, len_cons; lia). rewrite nthz_mid by (rewrite len_cons; lia). rewrite land_63.
  set (x := nthz (b :: r) 1). f_equal. set (q := x mod 64). set (w := h * q). replace (h * 5 * q) with (5 * w) by (unfold w; lia). lia.
Qed.
Lemma len_unit u : unit_good u -> 4 <= len (unit_bytes u).
Proof.
  intros (_ & _ & _ & _ & D). unfold unit_bytes. rewrite !len_app. change (len [127; _]) with 2. change (len [_]) with 1. rewrite len_repeat.
  pose proof (len_nonneg (trim (u_start u))). pose proof (len_nonneg (trim (u_end u))). pose proof (len_nonneg (match u_ext u with None => [] | Some x => len x :: x end)).
  destruct (u_data u) as [| b r] eqn:E; [destruct D |]. rewrite !len_cons. pose proof (len_nonneg r). lia.
Qed.
Lemma opus_units l : forall fuel pre ts bpos, Forall unit_good l -> Forall (fun '(t, _, _) => 0 <= t < 2 ^ 64) (opus_timed ts bpos l) ->
  len (List.concat (map unit_bytes l)) <= Z.of_nat fuel ->
  opus_loop fuel (pre ++ List.concat (map unit_bytes l)) ts bpos (len pre) = Ok (opus_timed ts bpos l).
Proof.
  induction l as [| u l IH]; intros fuel pre ts bpos G T F.
  - cbn [map List.concat]. rewrite app_nil_r. destruct fuel; cbn [opus_loop]; (destruct (Z.ltb_spec (len pre + 1) (len pre)); [lia | reflexivity]).
  - inversion G as [| ? ? GU GL]; subst. cbn [map List.concat opus_timed] in *. inversion T as [| ? ? T0 TL]; subst. rewrite len_app in F.
    pose proof (len_unit u GU) as LU. set (rest := List.concat (map unit_bytes l)) in *. pose proof (len_nonneg rest). destruct fuel as [| fuel]; [lia |].
    assert (LP : forall pre ts, opus_loop (S fuel) (pre ++ unit_bytes u ++ rest) ts bpos (len pre) =
      (r <~ opus_loop fuel (pre ++ unit_bytes u ++ rest) (u64 (ts + opus_lasts (u_data u) / 10)) bpos (len (pre ++ unit_bytes u));; Ok ((ts, bpos, u_data u) :: r))); [| rewrite LP].
    + clear pre ts T T0 TL IH F. intros pre ts. set (p := pre ++ unit_bytes u ++ rest). destruct GU as (GS & GE & GX & BD & DD). pose proof (len_nonneg pre). pose proof (len_nonneg (u_data u)) as ND.
      set (k := len (u_data u) / 255). set (m := len (u_data u) mod 255). set (b := 224 + given (u_start u) * 16 + given (u_end u) * 8 + given (u_ext u) * 4).
      set (X := match u_ext u with None => [] | Some x => len x :: x end).
      assert (P0 : p = pre ++ [127; b] ++ repeat 255 (Z.to_nat k) ++ [m] ++ trim (u_start u) ++ trim (u_end u) ++ X ++ u_data u ++ rest) by (unfold p, unit_bytes; fold b k m X; rewrite <- !app_assoc; reflexivity).
      assert (LPN : len p = len pre + len (unit_bytes u) + len rest) by (unfold p; rewrite !len_app; lia).
      assert (LUB : len (unit_bytes u) = 2 + k + 1 + len (trim (u_start u)) + len (trim (u_end u)) + len X + len (u_data u)).
      { unfold unit_bytes. fold k m b X. rewrite !len_app, len_repeat. change (len [127; b]) with 2. change (len [m]) with 1. assert (0 <= k) by (unfold k; lia). lia. }
      pose proof (len_nonneg (trim (u_start u))). pose proof (len_nonneg (trim (u_end u))). pose proof (len_nonneg X).
      assert (0 <= k) by (unfold k; lia).
      cbn [opus_loop]. fold p. destruct (Z.ltb_spec (len pre + 1) (len p)); [| lia].
      assert (B1 : getb p (len pre + 1) = Ok b). { rewrite getb_ok by lia. f_equal. rewrite P0. rewrite nthz_mid by (change (len [127; b]) with 2; lia). reflexivity. }
      rewrite B1.
      assert (S1 : opus_size (S (List.length p)) p (len pre) 0 = Ok (len pre + k, len (u_data u))).
      { rewrite (opus_size_ok (Z.to_nat k) _ p (len pre) 0 m).
        - rewrite Z2Nat.id by lia. f_equal. f_equal. unfold k, m. lia.
        - intros j J. rewrite Z2Nat.id in J by lia. rewrite P0, app_assoc. replace (len pre + 2 + j) with (len (pre ++ [127; b]) + j) by (rewrite len_app; change (len [127; b]) with 2; lia).
          rewrite nthz_mid by (rewrite len_repeat; lia). apply nthz_repeat. lia.
        - rewrite Z2Nat.id by lia. rewrite P0, app_assoc, (app_assoc (pre ++ [127; b])). replace (len pre + 2 + k) with (len ((pre ++ [127; b]) ++ repeat 255 (Z.to_nat k)) + 0) by (rewrite !len_app, len_repeat; change (len [127; b]) with 2; lia).
          rewrite nthz_mid by (change (len [m]) with 1; lia). reflexivity.
        - unfold m. lia.
        - lia.
        - rewrite Z2Nat.id by lia. lia.
        - unfold len in LPN at 1. lia. }
      rewrite S1. cbn [fst snd].
      assert (HD : 2 + (if negb ((b .& 16) =? 0) then 2 else 0) + (if negb ((b .& 8) =? 0) then 2 else 0) = 2 + len (trim (u_start u)) + len (trim (u_end u))).
      { unfold b. destruct (u_start u) as [s |], (u_end u) as [e |], (u_ext u) as [x |]; cbn [given trim]; try rewrite GS; try rewrite GE; reflexivity. }
      rewrite HD.
      set (Q := pre ++ [127; b] ++ repeat 255 (Z.to_nat k) ++ [m] ++ trim (u_start u) ++ trim (u_end u)).
      assert (LQ : len Q = len pre + k + 1 + (2 + len (trim (u_start u)) + len (trim (u_end u)))) by (unfold Q; rewrite !len_app, len_repeat; change (len [127; b]) with 2; change (len [m]) with 1; lia).
      assert (P1 : p = Q ++ X ++ u_data u ++ rest) by (rewrite P0; unfold Q; rewrite <- !app_assoc; reflexivity).
      rewrite <- LQ.
      assert (XS : (if negb ((b .& 4) =? 0) then c <~ getb p (len Q);; Ok (len Q + c + 1) else Ok (len Q)) = Ok (len (Q ++ X))).
      { unfold b, X. destruct (u_ext u) as [x |] eqn:EX.
        - replace ((224 + given (u_start u) * 16 + given (u_end u) * 8 + given (Some x) * 4) .& 4) with 4 by (destruct (u_start u), (u_end u); reflexivity). change (negb (4 =? 0)) with true. cbv iota.
          assert (LX : X = len x :: x) by reflexivity. assert (NX : getb p (len Q) = Ok (len x)).
          { rewrite getb_ok by (pose proof (len_nonneg Q); rewrite LX, len_cons in LUB; pose proof (len_nonneg x); lia). f_equal. rewrite P1, LX. rewrite <- (Z.add_0_r (len Q)). rewrite nthz_mid by (rewrite len_cons; pose proof (len_nonneg x); lia). reflexivity. }
          rewrite NX, len_app, len_cons. f_equal. lia.
        - replace ((224 + given (u_start u) * 16 + given (u_end u) * 8 + given (@None (list Z)) * 4) .& 4) with 0 by (destruct (u_start u), (u_end u); reflexivity). change (negb (0 =? 0)) with false. cbv iota. rewrite app_nil_r. reflexivity. }
      rewrite XS. rewrite len_app at 1. destruct (Z.ltb_spec (len p) (len Q + len X + len (u_data u))); [lia |].
      assert (P2 : p = (Q ++ X) ++ u_data u ++ rest) by (rewrite P1, <- !app_assoc; reflexivity).
      rewrite P2 at 1. rewrite getn_at by reflexivity. rewrite P2 at 1. rewrite opus_duration_ok by assumption. fold p.
      replace (len (Q ++ X) + len (u_data u)) with (len (pre ++ unit_bytes u)); [reflexivity |]. rewrite !len_app, LQ, LUB. lia.
    + assert (TN : Forall (fun '(t, _, _) => 0 <= t < 2 ^ 64) (opus_timed (u64 (ts + opus_lasts (u_data u) / 10)) bpos l) /\ opus_timed (u64 (ts + opus_lasts (u_data u) / 10)) bpos l = opus_timed (ts + opus_lasts (u_data u) / 10) bpos l).
      { destruct l as [| v l]; [split; [constructor | reflexivity] |]. cbn [opus_timed] in TL. inversion TL as [| ? ? T1 T2]; subst. rewrite u64_id by lia. split; [exact TL | reflexivity]. }
      destruct TN as [TN TE]. specialize (IH fuel (pre ++ unit_bytes u) (u64 (ts + opus_lasts (u_data u) / 10)) bpos GL TN ltac:(fold rest; lia)). fold rest in IH. rewrite <- app_assoc in IH. rewrite IH, TE. reflexivity.
Qed.
Lemma opus_ok l ts bpos : Forall unit_good l -> Forall (fun '(t, _, _) => 0 <= t < 2 ^ 64) (opus_timed ts bpos l) ->
  parse_opus ts bpos (List.concat (map unit_bytes l)) = Ok (opus_timed ts bpos l).
Proof. intros G T. unfold parse_opus. apply (opus_units l _ [] ts bpos G T). unfold len. lia. Qed.
Lemma opus_lead_ok d : opus_lead (len d) ++ d = unit_bytes (mkunit None None None d).
Proof.
  unfold opus_lead, unit_bytes. cbn [u_start u_end u_ext u_data given trim app]. pose proof (len_nonneg d). rewrite <- !app_assoc. cbn [app]. f_equal. f_equal. f_equal. f_equal. unfold u8. lia.
Qed.

(** ** Any bytes. *)
Lemma valid_total d : len d <> 1 -> exists b, valid d = Ok b.
Proof.
  intros L. unfold valid, hasSync. pose proof (len_nonneg d). destruct (Z.eqb_spec (len d) 0); [eexists; reflexivity |].
  rewrite !getb_ok by lia. destruct (negb _); [eexists; reflexivity |]. destruct (Z.eqb_spec (len d) 0); [lia |].
  assert (H7 : exists h, getHeaderSize d = Ok h /\ 7 <= h <= 9). { unfold getHeaderSize. destruct (Z.eqb_spec (len d) 0); [lia |]. rewrite getb_ok by lia. destruct (negb _); eexists; (split; [reflexivity | lia]). }
  destruct H7 as (h & -> & HB). destruct (Z.ltb_spec (len d) h); [eexists; reflexivity |].
  unfold getFrequency. destruct (Z.ltb_spec (len d) 3); [lia |]. unfold getFrequencyIndex. destruct (Z.eqb_spec (len d) 0); [lia |]. rewrite getb_ok by lia. destruct (_ =? 0); [eexists; reflexivity |].
  unfold getChannelCount, getChannelConfig. destruct (Z.eqb_spec (len d) 0); [lia |]. rewrite !getb_ok by lia. destruct (_ =? 0); [eexists; reflexivity |].
  unfold getSampleCount. destruct (Z.ltb_spec (len d) 7); [lia |]. rewrite getb_ok by lia. eexists. reflexivity.
Qed.
Lemma valid_one d : len d = 1 -> valid d = Ub.
Proof. intros L. destruct d as [| b [| c d]]; [discriminate | reflexivity | rewrite !len_cons in L; pose proof (len_nonneg d); lia]. Qed.
Lemma valid_short d : 1 < len d < 7 -> valid d = Ok false.
Proof.
  intros L. unfold valid, hasSync. destruct (Z.eqb_spec (len d) 0); [lia |]. rewrite !getb_ok by lia. destruct (negb _); [reflexivity |]. destruct (Z.eqb_spec (len d) 0); [lia |].
  unfold getHeaderSize. destruct (Z.eqb_spec (len d) 0); [lia |]. rewrite getb_ok by lia.
  destruct (negb _); [destruct (Z.ltb_spec (len d) 7) | destruct (Z.ltb_spec (len d) 9)]; lia || reflexivity.
Qed.
Lemma tail_ub k : forall t p ts bpos o ms, 0 <= o -> 0 < len p - o < 7 -> len p - o <= Z.of_nat k -> aac_loop k t p ts bpos o ms = Ub.
Proof.
  induction k as [| k IH]; intros t p ts bpos o ms O L F; [lia |]. cbn [aac_loop]. destruct (Z.ltb_spec o (len p)); [| lia].
  assert (LD : len (dropz o p) = len p - o) by (apply len_dropz; lia).
  destruct (Z.eq_dec (len p - o) 1) as [E | E]; [rewrite valid_one by lia; reflexivity |]. rewrite valid_short by lia. cbn [andb negb]. apply IH; lia.
Qed.
