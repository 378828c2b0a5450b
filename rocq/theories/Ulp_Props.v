(** Redundant packets and error correction packets of WebRTC: the properties. *)
From Verif Require Import Common CommonFacts CommonMore Bitfields_Model Bitfields_Proofs Mem_Model Mem_Proofs Rtp_Model Fec_Spec Ulp_Model Ulp_Spec.
Import List.
Ltac Zify.zify_post_hook ::= Z.div_mod_to_equations.

(** ** Redundant packets with media *)
Lemma all_below (P : Z -> bool) n : forallb P (map Z.of_nat (seq 0 n)) = true -> forall x, 0 <= x < Z.of_nat n -> P x = true.
Proof. intros H x Hx. rewrite forallb_forall in H. apply H. apply in_map_iff. exists (Z.to_nat x). split; [lia|]. apply in_seq. lia. Qed.
Lemma type_byte marker t : 0 <= t < 128 -> marker = 0 \/ marker = 128 -> (marker .| t) .& 0x7F = t /\ (marker .| t) .& 0x80 = marker /\ 0 <= marker .| t < 256.
Proof.
  intros H M. pose (ok := fun t => forallb (fun m => ((m .| t) .& 0x7F =? t) && ((m .| t) .& 0x80 =? m) && (0 <=? (m .| t)) && ((m .| t) <? 256)) [0; 128]).
  assert (K : ok t = true) by (apply (all_below ok 128); [vm_compute; reflexivity|lia]). unfold ok in K. cbn [forallb] in K. rewrite !andb_true_iff in K. destruct K as (K1 & K2 & _). destruct M; subst marker; lia.
Qed.
Lemma find_put k v h : find (fun x => fst x =? k) (put k v h) = Some (k, v).
Proof.
  induction h as [|[k' v'] h IH]; cbn [put find fst]; [now rewrite Z.eqb_refl|]. destruct (Z.ltb_spec k k'); [cbn [find fst]; now rewrite Z.eqb_refl|]. destruct (Z.eqb_spec k k'); cbn [find fst]; [now rewrite Z.eqb_refl|]. rewrite (proj2 (Z.eqb_neq k' k)) by lia. exact IH.
Qed.
Lemma find_forget k limit h : limit <= k -> find (fun x => fst x =? k) (forget h limit) = find (fun x => fst x =? k) h.
Proof. intros L. induction h as [|[k' v'] h IH]; [reflexivity|]. cbn [forget]. destruct (Z.ltb_spec k' limit); [|reflexivity]. cbn [find fst]. rewrite (proj2 (Z.eqb_neq k' k)) by lia. exact IH. Qed.

(** A media packet that comes in a redundant packet, whatever its header is, is given to the sorter as it was sent, and
    kept in the history. *)
Theorem redundant_media h head b0 marker red codec ulp payload :
  0 <= red < 128 -> 0 <= codec < 128 -> marker = 0 \/ marker = 128 ->
  getHsize (b0 :: (marker .| red) :: head ++ codec :: payload) = Some (2 + len head) -> 10 <= len head ->
  let p := b0 :: (marker .| codec) :: head ++ payload in
  exists h', addRED h (b0 :: (marker .| red) :: head ++ codec :: payload) codec red ulp = Some (h', [p]) /\
    exists s, getSequence p = Some s /\ get s h' = Some p.
Proof.
  intros HR HC HM HS HL p. destruct (type_byte marker red HR HM) as (T1 & T2 & T3). destruct (type_byte marker codec HC HM) as (U1 & U2 & U3).
  set (d := b0 :: (marker .| red) :: head ++ codec :: payload) in *. pose proof (len_nonneg payload).
  assert (LD : len d = 3 + len head + len payload) by (unfold d; rewrite !len_cons, len_app, len_cons; lia).
  assert (LP : len p = 2 + len head + len payload) by (unfold p; rewrite !len_cons, len_app; lia).
  assert (ED : d = ([b0; marker .| red] ++ head) ++ codec :: payload) by (unfold d; cbn [app]; reflexivity).
  assert (LH : len ([b0; marker .| red] ++ head) = 2 + len head) by (rewrite len_app; reflexivity).
  unfold addRED, getPayloadType. rewrite (rd_some d 1) by lia. change (nthz d 1) with (marker .| red). rewrite T1, Z.eqb_refl. cbn [negb]. rewrite HS.
  assert (E1 : rd d (2 + len head) = Some codec). { rewrite rd_some by lia. f_equal. rewrite ED. unfold nthz. rewrite app_nth2 by (unfold len in *; lia). replace (_ - _)%nat with 0%nat by (unfold len in *; lia). reflexivity. }
  rewrite E1. assert (E2 : codec .& 0x7F = codec) by (rewrite land_127; apply Z.mod_small; lia). rewrite E2, Z.eqb_refl.
  assert (E3 : peek d (2 + len head + 1) (len d - (2 + len head) - 1) = Some payload).
  { rewrite peek_some by lia. rewrite LD. f_equal. replace d with (([b0; marker .| red] ++ head ++ [codec]) ++ payload) by (rewrite ED, <- !app_assoc; reflexivity). rewrite dropz_app_exact by (rewrite !len_app; change (len [b0; marker .| red]) with 2; change (len [codec]) with 1; lia). apply takez_all. lia. }
  rewrite E3. assert (E4 : exists z, poke d (2 + len head) payload = Some (b0 :: (marker .| red) :: head ++ payload ++ [z])).
  { rewrite poke_some by lia. unfold splice. assert (ET : takez (2 + len head) d = [b0; marker .| red] ++ head) by (rewrite ED; apply takez_app_exact; lia). rewrite ET. set (z := dropz (2 + len head + len payload) d).
    assert (LZ : len z = 1) by (unfold z; rewrite len_dropz; lia). destruct z as [|y [|y2 z']]; try (unfold len in LZ; cbn in LZ; lia). exists y. now rewrite <- !app_assoc. }
  destruct E4 as (z & E4). rewrite E4. rewrite rd_some by (rewrite !len_cons; pose proof (len_nonneg (head ++ payload ++ [z])); lia). change (nthz _ 1) with (marker .| red) at 1.
  rewrite T2. assert (E5 : u8 (marker .| codec) = marker .| codec) by (unfold u8; apply Z.mod_small; lia). rewrite E5.
  assert (E6 : poke (b0 :: (marker .| red) :: head ++ payload ++ [z]) 1 [marker .| codec] = Some (p ++ [z])).
  { rewrite poke_some by (change (len [marker .| codec]) with 1; unfold len; cbn [length]; lia). unfold splice. unfold p. cbn [app]. rewrite <- app_assoc. reflexivity. }
  rewrite E6. rewrite takez_app_exact by lia. unfold addPacket, getSequence. rewrite peek_some by lia. eexists. split; [reflexivity|]. eexists. split; [reflexivity|]. unfold get. rewrite find_forget by lia. rewrite find_put. reflexivity.
Qed.
Print Assumptions redundant_media.
Example redundant_media_case : addRED [] (redundant 0x80 128 1000 90 5 116 96 [1; 2; 3]) 96 116 117 = Some ([(1000, rtp 0x80 (128 .| 96) 1000 90 5 [1; 2; 3])], [rtp 0x80 (128 .| 96) 1000 90 5 [1; 2; 3]]) /\
  getHsize (redundant 0x80 128 1000 90 5 116 96 [1; 2; 3]) = Some 12.
Proof. split; vm_compute; reflexivity. Qed.

(** ** Which packets an error correction packet protects *)
Definition chosen (b : Z) (bits : list bool) : list Z := map (fun i => u16 (b + Z.of_nat i)) (filter (fun i => nth i bits false) (seq 0 (length bits))).
Definition tested (m : Z) : list bool := map (fun bit => negb (m .& ((1 << 7) - Z.of_nat bit) =? 0)) (seq 0 8).
Lemma chosen_app b x : forall y, chosen b (x ++ y) = chosen b x ++ chosen (b + Z.of_nat (length x)) y.
Proof.
  intros y. unfold chosen. rewrite app_length, seq_app, filter_app, map_app. f_equal.
  - f_equal. apply filter_ext_in. intros i Hi. apply in_seq in Hi. apply app_nth1. lia.
  - cbn [Nat.add]. assert (SQ : seq (length x) (length y) = map (fun i => length x + i)%nat (seq 0 (length y))).
    { rewrite <- (Nat.add_0_r (length x)) at 1. generalize 0%nat. induction (length y) as [|k IH]; intros a; [reflexivity|]. cbn [seq map]. f_equal. rewrite <- Nat.add_succ_r. apply IH. }
    rewrite SQ. generalize (seq 0 (length y)). intros l. induction l as [|i l IH]; [reflexivity|]. cbn [map filter]. rewrite app_nth2 by lia. replace (length x + i - length x)%nat with i by lia. destruct (nth i y false); cbn [map]; rewrite IH; [|reflexivity]. f_equal. f_equal. lia.
Qed.
Lemma byte_covered (f : nat -> Z) (t : nat -> bool) l : flat_map (fun bit => if t bit then [] else [f bit]) l = map f (filter (fun bit => negb (t bit)) l).
Proof. induction l as [|x l IH]; [reflexivity|]. cbn [flat_map filter]. rewrite IH. destruct (t x); reflexivity. Qed.
Lemma covered_byte base i m : flat_map (fun bit => if m .& ((1 << 7) - Z.of_nat bit) =? 0 then [] else [u16 (base + (i << 3) + Z.of_nat bit)]) (seq 0 8) = chosen (base + 8 * i) (tested m).
Proof.
  rewrite byte_covered. unfold chosen. change (length (tested m)) with 8%nat. f_equal.
  - rewrite Z.shiftl_mul_pow2 by lia. replace (i * 2 ^ 3) with (8 * i) by lia. reflexivity.
Qed.

Lemma covered_short b0 b1 b t n m1 m2 body : 0 <= b < 65536 -> b0 .& 0x40 = 0 -> len t = 6 -> len n = 2 ->
  covered ([b0; b1] ++ be 2 b ++ t ++ n ++ [m1; m2] ++ body) = Some (Some (chosen b (tested m1 ++ tested m2))).
Proof.
  intros HB L T N. unfold covered. set (fd := [b0; b1] ++ be 2 b ++ t ++ n ++ [m1; m2] ++ body). pose proof (len_nonneg body).
  assert (LF : len fd = 14 + len body) by (unfold fd; rewrite !len_app, be_len; change (len [b0; b1]) with 2; change (len [m1; m2]) with 2; lia).
  rewrite (proj2 (Z.eqb_neq _ _)) by lia. rewrite (rd_some fd 0), (rd_some fd 2), (rd_some fd 3) by lia. change (nthz fd 0) with b0. rewrite L. change (0 >> 6 =? 0) with true. cbv iota.
  assert (E : peek fd 12 2 = Some [m1; m2]). { rewrite peek_some by lia. f_equal. replace fd with (([b0; b1] ++ be 2 b ++ t ++ n) ++ [m1; m2] ++ body) by (unfold fd; now rewrite <- !app_assoc). rewrite dropz_app_exact by (rewrite !len_app, be_len; change (len [b0; b1]) with 2; lia). now apply takez_app_exact. }
  rewrite E. change (nthz fd 2) with (nthz (be 2 b) 0). change (nthz fd 3) with (nthz (be 2 b) 1).
  assert (EB : u16 (nthz (be 2 b) 0 << 8) .| nthz (be 2 b) 1 = b).
  { change (nthz (be 2 b) 0) with ((b / 256) mod 256). change (nthz (be 2 b) 1) with ((b / 1) mod 256). rewrite Z.div_1_r. assert (E1 : u16 (((b / 256) mod 256) << 8) = (b / 256) << 8) by (rewrite !Z.shiftl_mul_pow2 by lia; unfold u16; change (2 ^ 8) with 256; lia). rewrite E1. rewrite (lor_shl_add' (b / 256) (b mod 256) 8 256); [lia|lia|reflexivity|lia]. }
  rewrite EB. change (seq 0 (Z.to_nat 2)) with [0; 1]%nat. cbn [flat_map].
  change (nthz [m1; m2] (Z.of_nat 0)) with m1. change (nthz [m1; m2] (Z.of_nat 1)) with m2. do 2 f_equal. rewrite app_nil_r.
  rewrite chosen_app. pose proof (covered_byte b 0 m1) as C0. pose proof (covered_byte b 1 m2) as C1. replace (b + 8 * 0) with b in C0 by lia. change (Z.of_nat (length (tested m1))) with (8 * 1). f_equal; [exact C0|exact C1].
Qed.
Lemma protected_short b m1 m2 : protected b [m1; m2] = chosen b (mask_bits m1 ++ mask_bits m2).
Proof. unfold protected. cbn [flat_map]. rewrite app_nil_r. reflexivity. Qed.
Lemma in_chosen b bits p : (length bits <= 100)%nat -> (p < length bits)%nat -> (In (u16 (b + Z.of_nat p)) (chosen b bits) <-> nth p bits false = true).
Proof.
  intros L H. unfold chosen. rewrite in_map_iff. split.
  - intros (i & E & I). apply filter_In in I as (I & B). apply in_seq in I. assert (i = p) by (unfold u16 in E; lia). now subst.
  - intros B. exists p. split; [reflexivity|]. apply filter_In. split; [apply in_seq; lia|exact B].
Qed.
Lemma chosen_inj b x y : length x = 16%nat -> length y = 16%nat -> chosen b x = chosen b y -> x = y.
Proof.
  intros X Y E. apply (nth_ext _ _ false false); [lia|]. intros p Hp. apply Bool.eq_iff_eq_true. rewrite <- (in_chosen b x p), <- (in_chosen b y p) by lia. rewrite E. reflexivity.
Qed.
Definition right_bytes : list Z := [0; 127; 128; 255].
Lemma right_byte m : 0 <= m < 256 -> (tested m = mask_bits m <-> In m right_bytes).
Proof.
  intros H. pose (ok := fun m => Bool.eqb (if list_eq_dec Bool.bool_dec (tested m) (mask_bits m) then true else false) (existsb (Z.eqb m) right_bytes)).
  assert (K : ok m = true) by (apply (all_below ok 256); [vm_compute; reflexivity|lia]). unfold ok in K. apply Bool.eqb_prop in K.
  split; intros E.
  - destruct (list_eq_dec _ _ _); [|congruence]. symmetry in K. apply existsb_exists in K as (x & I & EQ). apply Z.eqb_eq in EQ. now subst.
  - destruct (list_eq_dec _ _ _) as [Q|]; [exact Q|]. exfalso. assert (existsb (Z.eqb m) right_bytes = true) by (apply existsb_exists; exists m; split; [exact E|apply Z.eqb_refl]). congruence.
Qed.
(** Of the 256 values a byte of the mask can have, four are understood: for a mask with any other, the packets taken as
    protected are not those that are. *)
Theorem mask_understood b0 b1 b t n m1 m2 body : 0 <= b < 65536 -> b0 .& 0x40 = 0 -> len t = 6 -> len n = 2 -> 0 <= m1 < 256 -> 0 <= m2 < 256 ->
  (covered ([b0; b1] ++ be 2 b ++ t ++ n ++ [m1; m2] ++ body) = Some (Some (protected b [m1; m2])) <-> In m1 [0; 127; 128; 255] /\ In m2 [0; 127; 128; 255]).
Proof.
  intros HB L T N H1 H2. rewrite covered_short by assumption. rewrite protected_short. fold right_bytes. rewrite <- (right_byte m1 H1), <- (right_byte m2 H2). split.
  - intros E. assert (E' : chosen b (tested m1 ++ tested m2) = chosen b (mask_bits m1 ++ mask_bits m2)) by congruence. apply chosen_inj in E'; [|reflexivity..].
    assert (firstn 8 (tested m1 ++ tested m2) = firstn 8 (mask_bits m1 ++ mask_bits m2)) by congruence. assert (skipn 8 (tested m1 ++ tested m2) = skipn 8 (mask_bits m1 ++ mask_bits m2)) by congruence. split; assumption.
  - intros (-> & ->). reflexivity.
Qed.
Print Assumptions mask_understood.

(** ** Recovery *)
Definition video (i : Z) (payload : list Z) : list Z := rtp 0x80 96 i (9000 + i) 5 payload.
Definition errfix (seq b : Z) (mask : list Z) (ms : list (list Z)) : list Z := redundant 0x80 0 seq 9100 5 116 117 (ulpfec b mask ms).
Definition bodies : list (list Z) := map (fun i => [i; 17 * i; 255 - i; 3; 4; 5; 6; 7; 8; 9; 10; 11; 12; 13; 14; 15; i]) [1; 2; 3; 4; 5; 6; 7; 8].
Definition eight : list (Z * list Z) := map (fun x => (fst x, video (fst x) (snd x))) (combine [1; 2; 3; 4; 5; 6; 7; 8] bodies).
Definition but (i : Z) (h : history) : history := filter (fun x => negb (fst x =? i)) h.

(** A correct error correction packet for two packets, both of which came: a packet that was lost and that it does not
    protect is made up from it. *)
Theorem made_up_refuted : ~ (forall h b mask l seq h' out, map fst l = protected b mask -> Forall (fun x => get (fst x) h = Some (snd x)) l ->
  addRED h (errfix seq b mask (map snd l)) 96 116 117 = Some (h', out) -> out = []).
Proof.
  intros H. specialize (H (but 5 eight) 1 [0xC0; 0] (firstn 2 eight) 9). destruct (addRED (but 5 eight) (errfix 9 1 [0xC0; 0] (map snd (firstn 2 eight))) 96 116 117) as [[h' out]|] eqn:E; [|vm_compute in E; discriminate].
  specialize (H h' out ltac:(vm_compute; reflexivity) ltac:(repeat constructor) eq_refl). subst out. vm_compute in E. discriminate.
Qed.
Print Assumptions made_up_refuted.
(** With a mask that is understood, and packets of one size: what is recovered lacks the last 12 bytes, and has another
    source. *)
Theorem recovered_refuted : ~ (forall b mask l i p seq h' out, map fst l = protected b mask -> In (i, p) l ->
  addRED (but i l) (errfix seq b mask (map snd l)) 96 116 117 = Some (h', out) -> out = [p]).
Proof.
  intros H. specialize (H 1 [0xFF; 0] eight 5 (video 5 (nth 4 bodies [])) 9). destruct (addRED (but 5 eight) (errfix 9 1 [0xFF; 0] (map snd eight)) 96 116 117) as [[h' out]|] eqn:E; [|vm_compute in E; discriminate].
  specialize (H h' out ltac:(vm_compute; reflexivity) ltac:(vm_compute; tauto) eq_refl). subst out. vm_compute in E. discriminate.
Qed.
Print Assumptions recovered_refuted.
(** What it is in that case: the packet without its last 12 bytes, with bytes 8 to 11 (the source) from elsewhere. *)
Example recovered_case : exists src h', len src = 4 /\ addRED (but 5 eight) (errfix 9 1 [0xFF; 0] (map snd eight)) 96 116 117 =
  Some (h', [takez 8 (video 5 (nth 4 bodies [])) ++ src ++ takez 5 (nth 4 bodies [])]).
Proof. eexists [_; _; _; _]. eexists. split; [reflexivity|]. vm_compute. reflexivity. Qed.
(** Packets of different sizes: the other packets are read past their end. *)
Theorem sizes_refuted : ~ (forall b mask l i p seq, map fst l = protected b mask -> In (i, p) l ->
  addRED (but i l) (errfix seq b mask (map snd l)) 96 116 117 <> None).
Proof.
  intros H. pose (l := [(1, video 1 (repeat 7 30)); (2, video 2 [1; 2; 3]); (3, video 3 [4; 5; 6]); (4, video 4 [7]); (5, video 5 [7]); (6, video 6 [7]); (7, video 7 [7]); (8, video 8 [7])]).
  apply (H 1 [0xFF; 0] l 1 (video 1 (repeat 7 30)) 9); [vm_compute; reflexivity|left; reflexivity|vm_compute; reflexivity].
Qed.
Print Assumptions sizes_refuted.
(** A short error correction packet: a null pointer. *)
Theorem short_packet_refuted : ~ (forall h d, 13 <= len d -> getHsize d = Some 12 -> addRED h d 96 116 117 <> None).
Proof. intros H. apply (H [] (redundant 0x80 0 9 9100 5 116 117 [0; 0])); vm_compute; congruence. Qed.
Print Assumptions short_packet_refuted.
(** The history is of the last 500 packets, but not when the numbers wrap: a packet from before stays. *)
Definition kept (l : list (list Z)) : option history := fold_left (fun h p => h <- h;; addPacket h p) l (Some []).
Theorem history_refuted : ~ (forall l h k p last, Forall (fun x => exists i, x = video i [7] /\ 0 <= i < 65536) l -> kept (l ++ [video last [7]]) = Some h -> 0 <= last < 65536 -> get k h = Some p -> u16 (last - k) <= 500).
Proof.
  intros H. specialize (H [video 65500 [7]; video 400 [7]; video 800 [7]; video 1200 [7]] [(1200, video 1200 [7]); (1600, video 1600 [7]); (65500, video 65500 [7])] 65500 (video 65500 [7]) 1600).
  assert (B : u16 (1600 - 65500) <= 500) by (apply H; [repeat constructor; eexists; (split; [reflexivity|lia])|vm_compute; reflexivity|lia|reflexivity]). vm_compute in B. congruence.
Qed.
Print Assumptions history_refuted.
