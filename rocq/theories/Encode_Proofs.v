From Verif Require Import Common CommonFacts Encode_Model Encode_Spec.

(** Induction three elements at a time. *)
Lemma list_ind3 {A} (P : list A -> Prop) :
  P [] -> (forall a, P [a]) -> (forall a b, P [a; b]) ->
  (forall a b c r, P r -> P (a :: b :: c :: r)) -> forall l, P l.
Proof.
  intros H0 H1 H2 H3.
  fix F 1. intros [|a [|b [|c r]]]; [exact H0|apply H1|apply H2|apply H3, F].
Qed.

(** ** Base64: sextet values *)
Definition sx0 (t0 : Z) := Z.shiftr (Z.land t0 252) 2.
Definition sx1 (t0 t1 : Z) := Z.lor (Z.shiftl (Z.land t0 3) 4) (Z.shiftr (Z.land t1 240) 4).
Definition sx2 (t1 t2 : Z) := Z.lor (Z.shiftl (Z.land t1 15) 2) (Z.shiftr (Z.land t2 192) 6).
Definition sx3 (t2 : Z) := Z.land t2 63.

Definition sextet_b (v : Z) := (0 <=? v) && (v <? 64).

Lemma sx0_ok a : byteP a -> 0 <= sx0 a < 64.
Proof. intros H. pose proof (byte_sweep (fun a => sextet_b (sx0 a)) eq_refl a H) as E. unfold sextet_b in E; lia. Qed.
Lemma sx3_ok a : byteP a -> 0 <= sx3 a < 64.
Proof. intros H. pose proof (byte_sweep (fun a => sextet_b (sx3 a)) eq_refl a H) as E. unfold sextet_b in E; lia. Qed.
Lemma sx1_ok a b : byteP a -> byteP b -> 0 <= sx1 a b < 64.
Proof.
  intros Ha Hb. assert (E : sextet_b (sx1 a b) = true).
  { revert a b Ha Hb. apply byte_sweep2. vm_compute. reflexivity. }
  unfold sextet_b in E; lia.
Qed.
Lemma sx2_ok a b : byteP a -> byteP b -> 0 <= sx2 a b < 64.
Proof.
  intros Ha Hb. assert (E : sextet_b (sx2 a b) = true).
  { revert a b Ha Hb. apply byte_sweep2. vm_compute. reflexivity. }
  unfold sextet_b in E; lia.
Qed.

Lemma sx0_bits a : byteP a -> sx0 a = bits_val (firstn 6 (bits_of 8 a)).
Proof. intros H. apply Z.eqb_eq. revert a H. apply byte_sweep. vm_compute. reflexivity. Qed.
Lemma sx1_bits a b : byteP a -> byteP b -> sx1 a b = bits_val (skipn 6 (bits_of 8 a) ++ firstn 4 (bits_of 8 b)).
Proof. intros H1 H2. apply Z.eqb_eq. revert a b H1 H2. apply byte_sweep2. vm_compute. reflexivity. Qed.
Lemma sx2_bits a b : byteP a -> byteP b -> sx2 a b = bits_val (skipn 4 (bits_of 8 a) ++ firstn 2 (bits_of 8 b)).
Proof. intros H1 H2. apply Z.eqb_eq. revert a b H1 H2. apply byte_sweep2. vm_compute. reflexivity. Qed.
Lemma sx3_bits a : byteP a -> sx3 a = bits_val (skipn 2 (bits_of 8 a)).
Proof. intros H. apply Z.eqb_eq. revert a H. apply byte_sweep. vm_compute. reflexivity. Qed.

Lemma chars_rfc url v : 0 <= v < 64 -> nthz (b64_chars url) v = rfc_char url v.
Proof.
  intros H. apply Z.eqb_eq. revert v H.
  destruct url; apply (range_sweep 64); vm_compute; reflexivity.
Qed.

Lemma byte0 : byteP 0. Proof. unfold byteP; lia. Qed.

(** What the encoder emits, without padding: the sextets of the input. *)
Fixpoint enc_sx (l : list Z) : list Z :=
  match l with
  | [] => []
  | [a] => [sx0 a; sx1 a 0]
  | [a; b] => [sx0 a; sx1 a b; sx2 b 0]
  | a :: b :: c :: r => [sx0 a; sx1 a b; sx2 b c; sx3 c] ++ enc_sx r
  end.

Lemma enc_sx_range l : bytesP l -> Forall (fun v => 0 <= v < 64) (enc_sx l).
Proof.
  induction l as [|a|a b|a b c r IH] using list_ind3; intros H; rewrite ?bytesP_cons in H; cbn [enc_sx];
    repeat first [apply Forall_nil | apply Forall_cons | apply Forall_app; split];
    try (apply sx0_ok || apply sx1_ok || apply sx2_ok || apply sx3_ok); try apply byte0; try tauto.
Qed.

Definition bitsof_open n x := bits_of n x.

Lemma enc_sx_sextets l : bytesP l -> enc_sx l = sextets (bits l).
Proof.
  induction l as [|a|a b|a b c r IH] using list_ind3; intros H; rewrite ?bytesP_cons in H.
  - reflexivity.
  - destruct H as [Ha _]. cbn [enc_sx]. rewrite sx0_bits, sx1_bits by (assumption || apply byte0). reflexivity.
  - destruct H as [Ha [Hb _]]. cbn [enc_sx]. rewrite sx0_bits, sx1_bits, sx2_bits by (assumption || apply byte0). reflexivity.
  - destruct H as [Ha [Hb [Hc Hr]]]. cbn [enc_sx]. rewrite IH by assumption.
    rewrite sx0_bits, sx1_bits, sx2_bits, sx3_bits by assumption.
    unfold bits. reflexivity.
Qed.

Lemma enc_sx_len l : len (enc_sx l) = len l + (len l + 2) / 3.
Proof.
  induction l as [|a|a b|a b c r IH] using list_ind3; try reflexivity.
  cbn [enc_sx]. rewrite len_app, IH, !len_cons, len_nil. lia.
Qed.

Lemma enc_loop_sx url l : bytesP l ->
  b64_enc_loop (b64_chars url) l =
  map (rfc_char url) (enc_sx l) ++ repeat 61 (Z.to_nat ((- len (enc_sx l)) mod 4)).
Proof.
  induction l as [|a|a b|a b c r IH] using list_ind3; intros H; rewrite ?bytesP_cons in H.
  - reflexivity.
  - destruct H as [Ha _]. cbn [b64_enc_loop enc_sx]. unfold b64_quad.
    fold (sx0 a) (sx1 a 0).
    rewrite !chars_rfc by (apply sx0_ok || apply sx1_ok; assumption || apply byte0). reflexivity.
  - destruct H as [Ha [Hb _]]. cbn [b64_enc_loop enc_sx]. unfold b64_quad.
    fold (sx0 a) (sx1 a b) (sx2 b 0).
    rewrite !chars_rfc by (apply sx0_ok || apply sx1_ok || apply sx2_ok; assumption || apply byte0). reflexivity.
  - destruct H as [Ha [Hb [Hc Hr]]]. cbn [b64_enc_loop enc_sx]. rewrite IH by assumption.
    unfold b64_quad. fold (sx0 a) (sx1 a b) (sx2 b c) (sx3 c).
    rewrite !chars_rfc by (apply sx0_ok || apply sx1_ok || apply sx2_ok || apply sx3_ok; assumption).
    cbn [app map]. rewrite !len_cons.
    replace ((- (1 + (1 + (1 + (1 + len (enc_sx r)))))) mod 4) with ((- len (enc_sx r)) mod 4) by lia.
    reflexivity.
Qed.

Lemma rfc_char_not_pad url v : 0 <= v < 64 -> rfc_char url v <> 61.
Proof. intros H. unfold rfc_char. dif; lia. Qed.

Lemma strip_front_app k l : (forall c, In c (firstn 1 l) -> c <> 61) ->
  strip_eq_front (repeat 61 k ++ l) = l.
Proof.
  intros Hl. induction k as [|k IH]; cbn [repeat app strip_eq_front].
  - destruct l as [|c r]; [reflexivity|]. cbn [strip_eq_front].
    replace (c =? ch "=") with false; [reflexivity|]. symmetry. apply Z.eqb_neq. apply Hl. now left.
  - exact IH.
Qed.
Lemma rev_repeat {A} (x : A) k : rev (repeat x k) = repeat x k.
Proof.
  induction k as [|k IH]; [reflexivity|]. cbn [repeat rev]. rewrite IH.
  clear. induction k as [|k IH]; [reflexivity|]. cbn. now rewrite IH.
Qed.
Lemma strip_eq_app k l : Forall (fun c => c <> 61) l -> strip_eq (l ++ repeat 61 k) = l.
Proof.
  intros H. unfold strip_eq. rewrite rev_app_distr, rev_repeat, strip_front_app; [apply rev_involutive|].
  intros c Hc. rewrite Forall_forall in H. apply H.
  apply in_rev. destruct (rev l); [destruct Hc|]. cbn in Hc. left. tauto.
Qed.

Lemma map_rfc_nopad url l : Forall (fun v => 0 <= v < 64) l -> Forall (fun c => c <> 61) (map (rfc_char url) l).
Proof.
  intros H. rewrite Forall_forall in *. intros c Hc. apply in_map_iff in Hc as [v [<- Hv]].
  apply rfc_char_not_pad. now apply H.
Qed.

Lemma b64_encode_rfc_lem url l : bytesP l -> b64_encode l url = rfc4648 url l.
Proof.
  intros H. unfold b64_encode, rfc4648. rewrite enc_loop_sx by assumption.
  rewrite <- enc_sx_sextets by assumption. rewrite len_map.
  destruct url; [|reflexivity].
  apply strip_eq_app. apply map_rfc_nopad, enc_sx_range, H.
Qed.

(** ** Base64 decoding *)
Lemma charval_rfc url v : 0 <= v < 64 -> b64CharVal (rfc_char url v) = v /\ rfc_char url v <> 61.
Proof.
  intros H. split; [|now apply rfc_char_not_pad].
  apply Z.eqb_eq. revert v H. destruct url; apply (range_sweep 64); vm_compute; reflexivity.
Qed.

Lemma dec_step url v r arr ret : 0 <= v < 64 ->
  b64_dec_loop (rfc_char url v :: r) arr ret =
  let arr' := arr ++ [rfc_char url v] in
  if len arr' =? 4 then
    b64_dec_loop r [] (ret ++ b64_triple (b64CharVal (nthz arr' 0)) (b64CharVal (nthz arr' 1))
                         (b64CharVal (nthz arr' 2)) (b64CharVal (nthz arr' 3)))
  else b64_dec_loop r arr' ret.
Proof.
  intros H. destruct (charval_rfc url v H) as [H1 H2]. cbn [b64_dec_loop]. rewrite H1.
  replace (rfc_char url v =? ch "=") with false by (change (ch "=") with 61; lia).
  replace (v =? 64) with false by lia. reflexivity.
Qed.

Lemma triple01 a b v2 v3 : byteP a -> byteP b -> nthz (b64_triple (sx0 a) (sx1 a b) v2 v3) 0 = a.
Proof. intros H1 H2. apply Z.eqb_eq. revert a b H1 H2. apply (byte_sweep2 (fun a b => u8 (Z.shiftl (sx0 a) 2 + Z.shiftr (Z.land (sx1 a b) 48) 4) =? a)). vm_compute. reflexivity. Qed.

Lemma sx1_low a b : byteP a -> byteP b -> Z.land (sx1 a b) 15 = Z.shiftr (Z.land b 240) 4.
Proof. intros H1 H2. apply Z.eqb_eq. revert a b H1 H2. apply byte_sweep2. vm_compute. reflexivity. Qed.
Lemma sx2_low a b : byteP a -> byteP b -> Z.land (sx2 a b) 3 = Z.shiftr (Z.land b 192) 6.
Proof. intros H1 H2. apply Z.eqb_eq. revert a b H1 H2. apply byte_sweep2. vm_compute. reflexivity. Qed.

Lemma triple_mid b c : byteP b -> byteP c ->
  u8 (Z.shiftl (Z.shiftr (Z.land b 240) 4) 4 + Z.shiftr (Z.land (sx2 b c) 60) 2) = b.
Proof. intros H1 H2. apply Z.eqb_eq. revert b c H1 H2. apply byte_sweep2. vm_compute. reflexivity. Qed.
Lemma triple_last c : byteP c -> u8 (Z.shiftl (Z.shiftr (Z.land c 192) 6) 6 + sx3 c) = c.
Proof. intros H1. apply Z.eqb_eq. revert c H1. apply byte_sweep. vm_compute. reflexivity. Qed.

Lemma triple_full a b c : byteP a -> byteP b -> byteP c ->
  b64_triple (sx0 a) (sx1 a b) (sx2 b c) (sx3 c) = [a; b; c].
Proof.
  intros Ha Hb Hc. pose proof (triple01 a b (sx2 b c) (sx3 c) Ha Hb) as E.
  unfold b64_triple in *. cbn in E. f_equal; [exact E|].
  rewrite sx1_low, triple_mid by assumption. f_equal.
  rewrite sx2_low, triple_last by assumption. reflexivity.
Qed.

Lemma b64_triple_2 a b v2 v3 : byteP a -> byteP b -> takez 1 (b64_triple (sx0 a) (sx1 a b) v2 v3) = [a].
Proof. intros Ha Hb. pose proof (triple01 a b v2 v3 Ha Hb) as E. unfold b64_triple in *. cbn in E. cbn. now rewrite E. Qed.
Lemma b64_triple_3 a b v3 : byteP a -> byteP b -> takez 2 (b64_triple (sx0 a) (sx1 a b) (sx2 b 0) v3) = [a; b].
Proof.
  intros Ha Hb. pose proof (triple01 a b (sx2 b 0) v3 Ha Hb) as E. unfold b64_triple in *. cbn in E.
  change (takez 2 [?x; ?y; ?z]) with [x; y]. f_equal; [exact E|].
  rewrite sx1_low, triple_mid by (assumption || apply byte0). reflexivity.
Qed.

Lemma dec_tail k arr ret : b64_dec_loop (repeat 61 k) arr ret = b64_finish arr ret.
Proof. destruct k; reflexivity. Qed.

Lemma dec_loop_sx url l k ret : bytesP l ->
  b64_dec_loop (map (rfc_char url) (enc_sx l) ++ repeat 61 k) [] ret = ret ++ l.
Proof.
  revert ret. induction l as [|a|a b|a b c r IH] using list_ind3; intros ret H; rewrite ?bytesP_cons in H.
  - cbn [enc_sx map app]. rewrite dec_tail. cbn. now rewrite app_nil_r.
  - destruct H as [Ha _]. cbn [enc_sx map app].
    pose proof (sx0_ok a Ha) as R0. pose proof (sx1_ok a 0 Ha byte0) as R1.
    rewrite dec_step by assumption. cbn [app len List.length]. cbv zeta. cbn [Z.eqb Pos.eqb].
    change (len [?x] =? 4) with false. cbv iota.
    rewrite dec_step by assumption. cbn [app]. cbv zeta.
    change (len [?x; ?y] =? 4) with false. cbv iota.
    rewrite dec_tail. unfold b64_finish.
    change (len [?x; ?y] =? 0) with false. cbv iota.
    change (len [?x; ?y]) with 2. cbn [Z.ltb Z.compare Pos.compare Pos.compare_cont].
    rewrite nthz_0, nthz_S, nthz_0 by lia.
    destruct (charval_rfc url _ R0) as [-> _]. destruct (charval_rfc url _ R1) as [-> _].
    change (2 - 1) with 1. rewrite b64_triple_2 by (assumption || apply byte0). reflexivity.
  - destruct H as [Ha [Hb _]]. cbn [enc_sx map app].
    pose proof (sx0_ok a Ha) as R0. pose proof (sx1_ok a b Ha Hb) as R1. pose proof (sx2_ok b 0 Hb byte0) as R2.
    rewrite dec_step by assumption. cbn [app]. cbv zeta. change (len [?x] =? 4) with false. cbv iota.
    rewrite dec_step by assumption. cbn [app]. cbv zeta. change (len [?x; ?y] =? 4) with false. cbv iota.
    rewrite dec_step by assumption. cbn [app]. cbv zeta. change (len [?x; ?y; ?z] =? 4) with false. cbv iota.
    rewrite dec_tail. unfold b64_finish.
    change (len [?x; ?y; ?z] =? 0) with false. cbv iota.
    change (len [?x; ?y; ?z]) with 3. cbn [Z.ltb Z.compare Pos.compare Pos.compare_cont].
    change (nthz [?x; ?y; ?z] 0) with x. change (nthz [?x; ?y; ?z] 1) with y. change (nthz [?x; ?y; ?z] 2) with z.
    destruct (charval_rfc url _ R0) as [-> _]. destruct (charval_rfc url _ R1) as [-> _].
    destruct (charval_rfc url _ R2) as [-> _].
    change (3 - 1) with 2. rewrite b64_triple_3 by assumption. reflexivity.
  - destruct H as [Ha [Hb [Hc Hr]]]. cbn [enc_sx map app].
    pose proof (sx0_ok a Ha) as R0. pose proof (sx1_ok a b Ha Hb) as R1. pose proof (sx2_ok b c Hb Hc) as R2.
    pose proof (sx3_ok c Hc) as R3.
    rewrite dec_step by assumption. cbn [app]. cbv zeta. change (len [?x] =? 4) with false. cbv iota.
    rewrite dec_step by assumption. cbn [app]. cbv zeta. change (len [?x; ?y] =? 4) with false. cbv iota.
    rewrite dec_step by assumption. cbn [app]. cbv zeta. change (len [?x; ?y; ?z] =? 4) with false. cbv iota.
    rewrite dec_step by assumption. cbn [app]. cbv zeta. change (len [?x; ?y; ?z; ?w] =? 4) with true. cbv iota.
    change (nthz [?x; ?y; ?z; ?w] 0) with x. change (nthz [?x; ?y; ?z; ?w] 1) with y.
    change (nthz [?x; ?y; ?z; ?w] 2) with z. change (nthz [?x; ?y; ?z; ?w] 3) with w.
    destruct (charval_rfc url _ R0) as [-> _]. destruct (charval_rfc url _ R1) as [-> _].
    destruct (charval_rfc url _ R2) as [-> _]. destruct (charval_rfc url _ R3) as [-> _].
    rewrite triple_full by assumption. rewrite IH by assumption. rewrite <- app_assoc. reflexivity.
Qed.

Lemma b64_roundtrip_lem url l : bytesP l -> b64_decode (b64_encode l url) = l.
Proof.
  intros H. rewrite b64_encode_rfc_lem by assumption. unfold rfc4648, b64_decode.
  rewrite <- enc_sx_sextets by assumption. rewrite len_map.
  destruct url.
  - rewrite <- (app_nil_r (map _ _)). change (@nil Z) with (repeat 61 0) at 1. now rewrite dec_loop_sx.
  - now rewrite dec_loop_sx.
Qed.

Lemma b64_len_lem l : bytesP l -> len (b64_encode l false) = 4 * ((len l + 2) / 3).
Proof.
  intros H. rewrite b64_encode_rfc_lem by assumption. unfold rfc4648.
  rewrite <- enc_sx_sextets by assumption.
  rewrite len_app, len_repeat, len_map, enc_sx_len. pose proof (len_nonneg l). lia.
Qed.

Lemma b64_text_lem url l : bytesP l -> exists body k,
  b64_encode l url = body ++ repeat (ch "=") k /\ (k <= 2)%nat /\ Forall (b64_alpha url) body
  /\ (url = true -> k = O).
Proof.
  intros H. rewrite b64_encode_rfc_lem by assumption. unfold rfc4648.
  rewrite <- enc_sx_sextets by assumption.
  exists (map (rfc_char url) (enc_sx l)).
  exists (if url then O else Z.to_nat ((- len (map (rfc_char url) (enc_sx l))) mod 4)).
  split; [|split; [|split]].
  - destruct url; [now rewrite app_nil_r|reflexivity].
  - destruct url; [lia|]. rewrite len_map, enc_sx_len. pose proof (len_nonneg l). lia.
  - pose proof (enc_sx_range l H) as R. rewrite Forall_forall in *. intros c Hc.
    apply in_map_iff in Hc as [v [<- Hv]]. specialize (R v Hv).
    unfold b64_alpha, rfc_char. dif; lia.
  - now intros ->.
Qed.

(** ** Hex *)
Lemma hex_ord_chr b : byteP b ->
  u8 (Z.lor (u8 (Z.lor 0 (Z.shiftl (hex_ord (nthz (hex_chr b) 0)) 4))) (Z.shiftl (hex_ord (nthz (hex_chr b) 1)) 0)) = b.
Proof. intros H. apply Z.eqb_eq. revert b H. apply byte_sweep. vm_compute. reflexivity. Qed.


Lemma hex_ord_upper b : byteP b ->
  u8 (Z.lor (u8 (Z.lor 0 (Z.shiftl (hex_ord (upper (nthz (hex_chr b) 0))) 4))) (Z.shiftl (hex_ord (upper (nthz (hex_chr b) 1))) 0)) = b.
Proof. intros H. apply Z.eqb_eq. revert b H. apply byte_sweep. vm_compute. reflexivity. Qed.

(** One pair of hex characters. *)
Lemma hex_pair c1 c2 r p done rest : p = 2 * len done -> 
  hex_dec_loop (c1 :: c2 :: r) p (done ++ 0 :: rest) =
  hex_dec_loop r (p + 2)
    (done ++ u8 (Z.lor (u8 (Z.lor 0 (Z.shiftl (hex_ord c1) 4))) (Z.shiftl (hex_ord c2) 0)) :: rest).
Proof.
  intros ->. pose proof (len_nonneg done) as Hd. pose proof (len_nonneg rest) as Hr.
  assert (S1 : Z.shiftr (2 * len done) 1 = len done) by (rewrite shr_div by lia; change (2 ^ 1) with 2; lia).
  assert (S2 : Z.shiftr (2 * len done + 1) 1 = len done) by (rewrite shr_div by lia; change (2 ^ 1) with 2; lia).
  assert (L1 : Z.land (2 * len done) 1 = 0).
  { change 1 with (Z.ones 1). rewrite Z.land_ones by lia. change (2 ^ 1) with 2. lia. }
  assert (L2 : Z.land (2 * len done + 1) 1 = 1).
  { change 1 with (Z.ones 1) at 2. rewrite Z.land_ones by lia. change (2 ^ 1) with 2. lia. }
  assert (SP : forall x y, splice (done ++ x :: rest) (len done) [y] = done ++ y :: rest).
  { intros x y. unfold splice. rewrite takez_app_exact by reflexivity. cbn [app]. do 2 f_equal.
    replace (done ++ x :: rest) with ((done ++ [x]) ++ rest) by (rewrite <- app_assoc; reflexivity).
    apply dropz_app_exact. now rewrite len_app. }
  assert (NT : forall x, nthz (done ++ x :: rest) (len done) = x).
  { intros x. rewrite nthz_app2 by lia. now rewrite Z.sub_diag. }
  assert (LT : forall x, (len done <? len (done ++ x :: rest)) = true).
  { intros x. rewrite len_app, len_cons. lia. }
  cbn [hex_dec_loop]. rewrite S1, LT, L1. cbn [Z.eqb]. rewrite NT, SP.
  cbn [hex_dec_loop]. rewrite S2, LT, L2. cbn [Z.eqb Pos.eqb]. rewrite NT, SP.
  f_equal. lia.
Qed.

Lemma hex_loop_gen (f : Z -> Z) l done :
  (forall b, byteP b ->
    u8 (Z.lor (u8 (Z.lor 0 (Z.shiftl (hex_ord (f (nthz (hex_chr b) 0))) 4))) (Z.shiftl (hex_ord (f (nthz (hex_chr b) 1))) 0)) = b) ->
  bytesP l ->
  hex_dec_loop (map f (hex_encode l)) (2 * len done) (done ++ repeat 0 (List.length l)) = Some (done ++ l).
Proof.
  intros Hf. revert done. induction l as [|b l IH]; intros done H; [reflexivity|].
  apply bytesP_cons in H as [Hb Hl].
  unfold hex_encode. cbn [flat_map]. fold (hex_encode l). rewrite map_app.
  change (map f (hex_chr b)) with [f (nthz (hex_chr b) 0); f (nthz (hex_chr b) 1)].
  cbn [app List.length repeat].
  rewrite hex_pair by reflexivity. rewrite Hf by assumption.
  replace (done ++ b :: repeat 0 (List.length l)) with ((done ++ [b]) ++ repeat 0 (List.length l))
    by (rewrite <- app_assoc; reflexivity).
  replace (2 * len done + 2) with (2 * len (done ++ [b])) by (rewrite len_app, len_cons, len_nil; lia).
  rewrite IH by assumption. now rewrite <- app_assoc.
Qed.

Lemma hex_encode_len l : len (hex_encode l) = 2 * len l.
Proof.
  induction l as [|b l IH]; [reflexivity|]. unfold hex_encode in *. cbn [flat_map].
  rewrite len_app, IH, len_cons. change (len (hex_chr b)) with 2. lia.
Qed.

Lemma hex_text_lem l : bytesP l ->
  hex_encode l = flat_map (fun b => [nthz (bs "0123456789abcdef") (b / 16);
                                     nthz (bs "0123456789abcdef") (b mod 16)]) l.
Proof.
  intros H. induction l as [|b l IH]; [reflexivity|]. apply bytesP_cons in H as [Hb Hl].
  unfold hex_encode. cbn [flat_map]. fold (hex_encode l). rewrite <- IH by assumption. f_equal.
  apply beqb_eq. revert b Hb. apply byte_sweep. vm_compute. reflexivity.
Qed.

Lemma hex_rt_gen (f : Z -> Z) l :
  (forall b, byteP b ->
    u8 (Z.lor (u8 (Z.lor 0 (Z.shiftl (hex_ord (f (nthz (hex_chr b) 0))) 4))) (Z.shiftl (hex_ord (f (nthz (hex_chr b) 1))) 0)) = b) ->
  bytesP l -> hex_decode (map f (hex_encode l)) = Some l.
Proof.
  intros Hf H. unfold hex_decode. rewrite len_map, hex_encode_len.
  replace (Z.to_nat (2 * len l / 2)) with (List.length l) by (unfold len; lia).
  exact (hex_loop_gen f l [] Hf H).
Qed.

Lemma hex_roundtrip_lem l : bytesP l -> hex_decode (hex_encode l) = Some l.
Proof. intros H. rewrite <- (map_id (hex_encode l)). apply hex_rt_gen; [exact hex_ord_chr|exact H]. Qed.
Lemma hex_roundtrip_upper_lem l : bytesP l -> hex_decode (map upper (hex_encode l)) = Some l.
Proof. intros H. apply hex_rt_gen; [exact hex_ord_upper|exact H]. Qed.

Lemma hex_loop_len l i ret : 0 <= i ->
  (hex_dec_loop l i ret = None <-> (l <> [] /\ len ret <= (i + len l - 1) / 2)).
Proof.
  revert i ret. induction l as [|c l IH]; intros i ret Hi.
  - cbn. split; [discriminate|]. intros [E _]. congruence.
  - cbn [hex_dec_loop]. rewrite shr_div by lia. change (2 ^ 1) with 2.
    rewrite len_cons. pose proof (len_nonneg l) as Hl.
    destruct (i / 2 <? len ret) eqn:E.
    + rewrite IH by lia. rewrite len_splice by (rewrite ?len_cons, ?len_nil; lia).
      split.
      * intros [H1 H2]. split; [discriminate|]. replace (i + (1 + len l) - 1) with (i + 1 + len l - 1) by lia. exact H2.
      * intros [_ H2]. split.
        -- intros ->. unfold len in H2 at 2. cbn in H2. lia.
        -- replace (i + 1 + len l - 1) with (i + (1 + len l) - 1) by lia. exact H2.
    + split; [intros _; split; [discriminate|]; lia | reflexivity].
Qed.

Lemma hex_decode_safe_lem l : hex_decode l = None <-> len l mod 2 = 1.
Proof.
  unfold hex_decode. rewrite hex_loop_len by lia. rewrite len_repeat.
  pose proof (len_nonneg l). split.
  - intros [H1 H2]. destruct l; [congruence|]. lia.
  - intros H1. split; [intros ->; cbn in H1; lia|lia].
Qed.

Lemma hex_loop_len_some l i ret out : hex_dec_loop l i ret = Some out -> 0 <= i -> len out = len ret.
Proof.
  revert i ret. induction l as [|c l IH]; intros i ret H Hi; cbn [hex_dec_loop] in H.
  - now injection H as ->.
  - destruct (Z.shiftr i 1 <? len ret) eqn:E; [|discriminate].
    apply IH in H; [|lia]. rewrite H. apply len_splice.
    + apply Z.shiftr_nonneg; lia.
    + rewrite len_cons, len_nil. lia.
Qed.

(** ** URL *)
Lemma hexpair_dec b : byteP b ->
  u8 (u8 (Z.shiftl (hex_ord (nthz (hex_chr b) 0)) 4) + hex_ord (nthz (hex_chr b) 1)) = b.
Proof. intros H. apply Z.eqb_eq. revert b H. apply byte_sweep. vm_compute. reflexivity. Qed.

Lemma url_dec_plain c r q : c <> ch "%" -> (q = true -> c <> ch "+") ->
  url_decode (c :: r) q = c :: url_decode r q.
Proof.
  intros H1 H2. cbn [url_decode]. replace (c =? ch "%") with false by lia.
  destruct q; [|now rewrite andb_false_r]. specialize (H2 eq_refl).
  now replace (c =? ch "+") with false by lia.
Qed.

Lemma url_safe_not c : url_safe c = true -> c <> ch "%" /\ c <> ch "+".
Proof. unfold url_safe, ch; cbn. lia. Qed.

Lemma exempt_In ign c : url_exempt ign c = true <-> In c ign.
Proof.
  unfold url_exempt. rewrite existsb_exists. split.
  - intros [x [H1 H2]]. apply Z.eqb_eq in H2. now subst.
  - intros H. exists c. split; [exact H|apply Z.eqb_refl].
Qed.

Lemma url_roundtrip_lem l ign q : bytesP l -> ~ In (ch "%") ign -> (q = true -> ~ In (ch "+") ign) ->
  url_decode (url_encode l ign q) q = l.
Proof.
  intros H Hp Hq. induction l as [|c l IH]; [reflexivity|].
  apply bytesP_cons in H as [Hc Hl]. specialize (IH Hl).
  unfold url_encode. cbn [flat_map]. fold (url_encode l ign q). unfold url_enc_char.
  destruct (url_safe c || url_exempt ign c) eqn:E.
  - cbn [app]. rewrite url_dec_plain, IH; [reflexivity| |].
    + apply orb_true_iff in E as [E|E]; [now apply url_safe_not in E|].
      apply exempt_In in E. intros ->. contradiction.
    + intros Q ->. apply orb_true_iff in E as [E|E]; [now apply url_safe_not in E|].
      apply exempt_In in E. now apply Hq in Q.
  - destruct ((c =? ch " ") && q) eqn:E2.
    + apply andb_true_iff in E2 as [E2 ->]. apply Z.eqb_eq in E2. subst c. cbn [app].
      change (ch " " :: url_decode (url_encode l ign true) true = ch " " :: l). now rewrite IH.
    + change (hex_chr c) with [nthz (hex_chr c) 0; nthz (hex_chr c) 1]. cbn [app url_decode].
      rewrite Z.eqb_refl. rewrite hexpair_dec by assumption. now rewrite IH.
Qed.

Lemma url_safe_unreserved c : byteP c -> url_safe c = true -> In c url_unreserved.
Proof.
  intros Hc H. apply exempt_In. revert H. apply implb_true_iff. revert c Hc. apply byte_sweep. vm_compute. reflexivity.
Qed.

Lemma hex_chr_digits b : byteP b -> In (nthz (hex_chr b) 0) (bs "0123456789abcdef") /\ In (nthz (hex_chr b) 1) (bs "0123456789abcdef").
Proof.
  intros H. rewrite <- !exempt_In. apply andb_true_iff.
  revert b H. apply byte_sweep. vm_compute. reflexivity.
Qed.

Lemma url_encode_grammar_lem l ign q : bytesP l -> pct_text ign q (url_encode l ign q).
Proof.
  intros H. induction l as [|c l IH]; [constructor|].
  apply bytesP_cons in H as [Hc Hl]. specialize (IH Hl).
  unfold url_encode. cbn [flat_map]. fold (url_encode l ign q). unfold url_enc_char.
  destruct (url_safe c || url_exempt ign c) eqn:E.
  - apply pct_plain; [|exact IH]. apply orb_true_iff in E as [E|E]; [left; now apply url_safe_unreserved|right; left; now apply exempt_In].
  - destruct ((c =? ch " ") && q) eqn:E2.
    + apply pct_plain; [|exact IH]. apply andb_true_iff in E2 as [_ E2]. auto.
    + destruct (hex_chr_digits c Hc) as [D1 D2].
      change (hex_chr c) with [nthz (hex_chr c) 0; nthz (hex_chr c) 1]. cbn [app].
      now apply pct_esc.
Qed.

Lemma url_decode_len l q : len (url_decode l q) <= len l.
Proof.
  enough (G : forall n l, len l <= Z.of_nat n -> len (url_decode l q) <= len l).
  { apply (G (List.length l)). unfold len; lia. }
  clear l. induction n as [|n IH]; intros l Hn.
  - replace l with (@nil Z); [cbn; lia|]. symmetry. apply len_zero. pose proof (len_nonneg l). lia.
  - destruct l as [|c r]; [cbn; lia|]. rewrite len_cons in Hn. cbn [url_decode].
    pose proof (IH r ltac:(lia)) as Hr.
    destruct (c =? ch "%"); [|destruct ((c =? ch "+") && q); rewrite !len_cons; lia].
    destruct r as [|a [|b r']]; [cbn; lia|cbn; lia|].
    rewrite !len_cons in *. pose proof (IH r' ltac:(lia)). lia.
Qed.
