(** Forward error correction of transport streams over RTP: the properties. *)
From Verif Require Import Common CommonFacts CommonMore Bitfields_Model Bitfields_Proofs Mem_Model Mem_Proofs Rtp_Model Fec_Model Fec_Spec Fec_Xor_Proofs Fec_Packet_Proofs Fec_Run_Proofs.
Import List.
Ltac Zify.zify_post_hook ::= Z.div_mod_to_equations.

(** The media packets for payloads at times (in ms of the clock), numbered from [seq]. *)
Fixpoint sent (ssrc seq : Z) (l : list (Z * list Z)) : list (list Z) :=
  match l with [] => [] | (ms, payload) :: l => media ssrc (u16 seq) (u32 (ms * 90)) payload :: sent ssrc (seq + 1) l end.

Lemma pieces (d : list Z) k : 0 <= k <= len d -> exists a b, d = a ++ b /\ len a = k.
Proof. intros H. exists (takez k d), (dropz k d). split; [symmetry; apply takez_dropz|apply len_takez; lia]. Qed.
Lemma start junk s ts ssrc d : 12 <= len junk -> newPacket junk 33 s ts ssrc 0 = Some d -> exists rest, len rest = len junk - 12 /\ d = buffer ssrc (s - 1) ts rest.
Proof.
  intros H. destruct (pieces junk 2) as (a & j1 & -> & La); [lia|]. rewrite len_app in H. destruct (pieces j1 2) as (b & j2 & -> & Lb); [lia|]. rewrite len_app in H. destruct (pieces j2 4) as (c & j3 & -> & Lc); [lia|]. rewrite len_app in H. destruct (pieces j3 4) as (e & rest & -> & Le); [lia|].
  unfold newPacket, setSequence, setTimestamp, setSSRC. change [u8 (2 << 6 .| 0 .& 15); u8 (33 .& 127)] with [0x80; 33].
  rewrite <- (app_nil_l (a ++ _)). change 0 with (len (@nil Z)) at 1. rewrite poke_mid by (rewrite La; reflexivity). cbn [app].
  rewrite wr_htobs, !wr_htobl. change (0x80 :: 33 :: ?x) with ([0x80; 33] ++ x). change 2 with (len [0x80; 33]) at 1. rewrite poke_mid by (rewrite be_len, Lb; reflexivity).
  rewrite app_assoc. replace 4 with (len ([0x80; 33] ++ be 2 (s - 1))) at 1 by (rewrite len_app, be_len; reflexivity). rewrite poke_mid by (rewrite be_len, Lc; reflexivity).
  rewrite (app_assoc _ (be 4 ts)). replace 8 with (len (([0x80; 33] ++ be 2 (s - 1)) ++ be 4 ts)) at 1 by (rewrite !len_app, !be_len; reflexivity). rewrite poke_mid by (rewrite be_len, Le; reflexivity).
  intros E. exists rest. split; [rewrite !len_app; lia|]. unfold buffer. rewrite <- !app_assoc in E. congruence.
Qed.
Lemma row_in C j k i : (1 <= C)%nat -> (j < rows_done C k)%nat -> In i (row_of C j) -> (i < k)%nat.
Proof.
  intros HC HJ HI. unfold row_of in HI. apply in_seq in HI. unfold rows_done in HJ. pose proof (Nat.div_mod (k - 1) C ltac:(lia)). nia.
Qed.
Lemma column_in R C j k i : (2 <= R)%nat -> (1 <= C)%nat -> (j < columns_done R C k)%nat -> In i (column_of R C j) -> (i < k)%nat.
Proof.
  intros HR HC HJ HI. unfold column_of in HI. apply in_map_iff in HI as (r & <- & Hr). apply in_seq in Hr. unfold columns_done in HJ. assert (RC : (R * C <> 0)%nat) by nia.
  pose proof (Nat.div_mod k (R * C) RC). pose proof (Nat.mod_upper_bound k (R * C) RC). pose proof (Nat.div_mod j C ltac:(lia)). pose proof (Nat.mod_upper_bound j C ltac:(lia)).
  set (q := (k / (R * C))%nat) in *. set (w := (k mod (R * C))%nat) in *. set (a := (j / C)%nat) in *. set (b := (j mod C)%nat) in *. clearbody q w a b. assert (M : (r * C <= (R - 1) * C)%nat) by (apply Nat.mul_le_mono_r; lia). assert (M2 : ((R - 1) * C + C = R * C)%nat) by nia.
  destruct (Nat.lt_ge_cases a q) as [L|L].
  - assert ((a + 1) * (R * C) <= q * (R * C))%nat by (apply Nat.mul_le_mono_r; lia). lia.
  - assert (w - (R - 1) * C <= C)%nat by lia. assert (a = q \/ (q + 1 <= a)%nat) as [->|G] by lia; [|assert ((q + 1) * C <= a * C)%nat by (apply Nat.mul_le_mono_r; lia); lia]. lia.
Qed.
Lemma sent_map ssrc (l : list (Z * list Z)) : forall seq (g : nat -> pk) k, (forall i x, nth_error l i = Some x -> g (k + i)%nat = mkpk (u16 (seq + Z.of_nat i)) (u32 (fst x * 90)) (snd x)) ->
  map (fun i => bytes_of ssrc (g i)) (List.seq k (length l)) = sent ssrc seq l.
Proof.
  induction l as [|[ms p] l IH]; intros sq g k H; [reflexivity|]. cbn [length List.seq map sent]. f_equal.
  - specialize (H 0%nat _ eq_refl). rewrite Nat.add_0_r in H. rewrite H. unfold bytes_of. cbn [k_seq k_ts k_pl fst snd]. rewrite Z.add_0_r. reflexivity.
  - apply (IH (sq + 1)). intros i x Hx. specialize (H (S i) x Hx). replace (S k + i)%nat with (k + S i)%nat by lia. rewrite H. do 2 f_equal. lia.
Qed.
Lemma pick_map (g : nat -> list Z) k is : (forall i, In i is -> (i < k)%nat) -> pick (map g (seq 0 k)) is = map g is.
Proof.
  intros H. unfold pick. apply map_ext_in. intros i Hi. specialize (H i Hi). rewrite (nth_indep _ [] (g 0%nat)) by (rewrite map_length, seq_length; exact H). rewrite map_nth, seq_nth by exact H. reflexivity.
Qed.
Lemma between_nth g a j k : (a + j < k)%nat -> nth j (between g a k) [] = g (a + j)%nat.
Proof. intros H. unfold between. rewrite (nth_indep _ [] (g 0%nat)) by (rewrite map_length, seq_length; lia). rewrite map_nth, seq_nth by lia. reflexivity. Qed.

Lemma parse_init f d p : f_len f = None -> parseFEC f d p = parseFEC (initFEC f (len p + 12)) d p.
Proof. intros H. unfold parseFEC. rewrite H. reflexivity. Qed.

(** Sending [l] with [rows] and [cols] and any start: every packet is sent; a row packet is sent for each complete row (when
    the next row begins), a column packet for each complete column, in order, numbered from 1; each names the packets it
    protects, and any one of those that is lost comes back from it and the others, to the last byte. *)
Theorem error_correction_corrects rows cols f junk s ts ssrc d n l :
  configureFEC rows cols = Some f -> newPacket junk 33 s ts ssrc 0 = Some d -> 12 + n <= len junk -> 0 <= n < 65536 ->
  Forall (fun x => len (snd x) = n) l ->
  let R := Z.to_nat rows in let C := Z.to_nat cols in let k := length l in
  exists rowps colps, sendAll f d l = Some (sent ssrc (s - 1) l, rowps, colps) /\
    length rowps = rows_done C k /\ length colps = columns_done R C k /\
    (forall j, (j < rows_done C k)%nat -> let p := nth j rowps [] in
       corrects ssrc p (pick (sent ssrc (s - 1) l) (row_of C j)) /\ proper false (Z.of_nat j + 1) p) /\
    (forall i, (i < columns_done R C k)%nat -> let p := nth i colps [] in
       corrects ssrc p (pick (sent ssrc (s - 1) l) (column_of R C i)) /\ proper true (Z.of_nat i + 1) p).
Proof.
  intros CF NP LJ HN HL R C k. destruct (start junk s ts ssrc d ltac:(lia) NP) as (rest & LR & ->).
  assert (RC : 4 <= rows <= 20 /\ 1 <= cols <= 20 /\ f = mkfec rows cols None false 0 0 0 None (fun _ => None)).
  { unfold configureFEC in CF. destruct (Z.ltb_spec rows 4), (Z.ltb_spec 20 rows), (Z.ltb_spec cols 1), (Z.ltb_spec 20 cols), (Z.ltb_spec 100 (rows * cols)); cbn [orb] in CF; try discriminate. injection CF as <-. repeat split; lia. }
  destruct RC as (HR & HC & EF).
  set (m := fun i => let x := nth i l (0, repeat 0 (Z.to_nat n)) in mkpk (u16 (s - 1 + Z.of_nat i)) (u32 (fst x * 90)) (snd x)).
  assert (M : forall i, k_seq (m i) = u16 (s - 1 + Z.of_nat i) /\ 0 <= k_ts (m i) < 2 ^ 32 /\ len (k_pl (m i)) = n).
  { intros i. unfold m. cbn [k_seq k_ts k_pl]. split; [reflexivity|]. split; [unfold u32; apply Z.mod_pos_bound; lia|]. destruct (nth_in_or_default i l (0, repeat 0 (Z.to_nat n))) as [I|E]; [now apply (proj1 (Forall_forall _ _) HL)|]. rewrite E. cbn [snd]. unfold len. rewrite repeat_length. lia. }
  assert (HMl : forall i x, nth_error l i = Some x -> m (0 + i)%nat = mkpk (u16 (s - 1 + Z.of_nat i)) (u32 (fst x * 90)) (snd x)).
  { intros i x E. unfold m. cbn [Nat.add]. rewrite (nth_error_nth _ _ _ E). reflexivity. }
  assert (HR' : (2 <= R)%nat) by lia. assert (HC' : (1 <= C)%nat) by lia.
  pose proof (sent_map ssrc l (s - 1) m 0 HMl) as SM. fold k in SM.
  assert (RUN : sendAll f (buffer ssrc (s - 1) ts rest) l = Some (sent ssrc (s - 1) l, between (row_packet C n m) 0 (rows_done C k), between (column_packet R C n m) 0 (columns_done R C k))).
  { rewrite <- SM. set (f0 := initFEC f (n + 12)).
    assert (ST : counts R C n m 0 f0).
    { exists 0%nat, 0%nat, 0%nat. repeat split; try lia; subst f f0; unfold initFEC; cbn [f_rows f_cols f_len f_first f_index f_rowSN f_colSN f_row f_col]; try lia; try reflexivity.
      - f_equal. unfold u16. lia.
      - unfold cols_sent. rewrite (proj2 (Nat.eqb_neq 0 (R - 1))) by lia. reflexivity.
      - unfold pos. lia. }
    assert (E0 : sendAll f (buffer ssrc (s - 1) ts rest) l = sendAll f0 (buffer ssrc (s - 1) ts rest) l).
    { destruct l as [|[ms p] l']; [reflexivity|]. inversion HL as [|x y Lp HL']; subst x y. cbn [snd] in Lp. destruct (sendTS_ok ssrc (s - 1) ts rest p ms ltac:(lia)) as (rest' & _ & ES). cbn [sendAll]. rewrite ES. cbn [fst snd].
      assert (EP : parseFEC f (buffer ssrc (s - 1 + 1) (u32 (ms * 90)) rest') p = parseFEC f0 (buffer ssrc (s - 1 + 1) (u32 (ms * 90)) rest') p).
      { unfold f0. rewrite <- Lp. apply parse_init. subst f. reflexivity. }
      rewrite EP. reflexivity. }
    rewrite E0. pose proof (run R C n (s - 1) ssrc m HR' HC' HN M l 0%nat f0 ts rest ST ltac:(lia)) as RN. change (Z.of_nat 0) with 0 in RN. rewrite Z.add_0_r in RN. rewrite RN.
    - cbn [Nat.add]. fold k. do 3 f_equal.
      + f_equal. unfold rows_done. cbn [Nat.sub]. apply Nat.div_0_l. lia.
      + f_equal. unfold columns_done. rewrite Nat.div_0_l, Nat.mod_0_l by nia. reflexivity.
    - intros i x Hi. rewrite (HMl i x Hi). split; reflexivity. }
  rewrite RUN. eexists. eexists. split; [reflexivity|]. split; [unfold between; rewrite map_length, seq_length; lia|]. split; [unfold between; rewrite map_length, seq_length; lia|].
  split.
  - intros j Hj p. assert (EP : p = row_packet C n m j) by (unfold p; now rewrite between_nth by lia). rewrite EP. rewrite <- SM. rewrite pick_map by (intros i Hi; apply (row_in C j k i HC' Hj Hi)). clear EP p. split; [apply (row_corrects R C n (s - 1) ssrc m HR' HC' HN M j); lia|].
    apply fec_proper. unfold row_of. destruct C; [lia|discriminate].
  - intros i Hi p. assert (EP : p = column_packet R C n m i) by (unfold p; now rewrite between_nth by lia). rewrite EP. rewrite <- SM. rewrite pick_map by (intros q Hq; apply (column_in R C i k q HR' HC' Hi Hq)). clear EP p. split; [apply (column_corrects R C n (s - 1) ssrc m HR' HC' HN M i)|].
    apply fec_proper. unfold column_of. destruct R; [lia|discriminate].
Qed.

Print Assumptions error_correction_corrects.

(** Four rows of two, nine packets of three bytes: four rows (the last one ends when the ninth packet is sent), two columns. *)
Definition some_packets : list (Z * list Z) := map (fun i => (1000 + i, [i; 7 * i; 255 - i])) [0; 1; 2; 3; 4; 5; 6; 7; 8].
Example error_correction_case : exists f d,
  configureFEC 4 2 = Some f /\ newPacket (repeat 0 100) 33 65533 0 77 0 = Some d /\ Forall (fun x => len (snd x) = 3) some_packets /\
  match sendAll f d some_packets with
  | Some (ms, rows, cols) => length ms = 9%nat /\ length rows = 4%nat /\ length cols = 2%nat /\
    (let r := nth 1 rows [] in protects r = [65534; 65535] /\ recover 77 r [nth 2 ms []] 65535 = nth 3 ms []) /\
    (let c := nth 1 cols [] in protects c = [65533; 65535; 1; 3] /\ recover 77 c [nth 1 ms []; nth 3 ms []; nth 7 ms []] 1 = nth 5 ms [])
  | None => False
  end.
Proof. eexists. eexists. split; [reflexivity|]. split; [reflexivity|]. split; [repeat constructor|]. vm_compute. repeat split. Qed.

(** A packet of another size than the first is sent, but left out: the next row packet names other packets than those it is
    made of, and what comes back is wrong. *)
Theorem other_size_refuted : ~ (forall f d l ms rows cols, configureFEC 4 2 = Some f -> newPacket (repeat 0 100) 33 1 0 77 0 = Some d ->
  sendAll f d l = Some (ms, rows, cols) ->
  forall j, (j < length rows)%nat -> protects (nth j rows []) = map (fun m => unbe (takez 2 (dropz 2 m))) (pick ms (row_of 2 j)) /\
    recover 77 (nth j rows []) [nth (2 * j) ms []] (unbe (takez 2 (dropz 2 (nth (2 * j + 1) ms [])))) = nth (2 * j + 1) ms []).
Proof.
  intros H. pose (l := [(0, [1; 2]); (0, [3]); (0, [4; 5]); (0, [6; 7])]).
  destruct (configureFEC 4 2) as [f|] eqn:CF; [|discriminate]. destruct (newPacket (repeat 0 100) 33 1 0 77 0) as [d|] eqn:ND; [|discriminate].
  destruct (sendAll f d l) as [[[ms rows] cols]|] eqn:E.
  - specialize (H f d l ms rows cols eq_refl eq_refl E 0%nat). injection CF as <-. injection ND as <-. vm_compute in E. injection E as <- <- <-. specialize (H ltac:(vm_compute; lia)). vm_compute in H. destruct H. discriminate.
  - injection CF as <-. injection ND as <-. vm_compute in E. discriminate.
Qed.
Print Assumptions other_size_refuted.
