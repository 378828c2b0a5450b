From Verif Require Import Common CommonFacts Mem_Model Mem_Proofs Wav_Model Wav_Spec.
Local Ltac Zify.zify_post_hook ::= Z.div_mod_to_equations.

Lemma len_le n v : len (le n v) = Z.of_nat n.
Proof. unfold le, len. rewrite rev_length. pose proof (be_len n v) as B. unfold len in B. exact B. Qed.
Lemma unle_le n v : unle (le n v) = v mod 256 ^ Z.of_nat n.
Proof. unfold unle, le. rewrite rev_involutive. apply unbe_be. Qed.
Lemma le_u32 v : le 4 (u32 v) = le 4 v.
Proof. unfold le. f_equal. unfold u32. pose proof (be_mod 4 v) as B. change (256 ^ Z.of_nat 4) with (2 ^ 32) in B. first [exact B|symmetry; exact B]. Qed.
Lemma swap2_ok samples : Forall (fun s => len s = 2) samples -> swap2 (List.concat samples) = Some (List.concat (map (@rev Z) samples)).
Proof.
  induction 1 as [|s l Hs _ IH]; [reflexivity|]. destruct s as [|a [|b [|c s]]].
  1, 2: discriminate Hs. 2: rewrite !len_cons in Hs; pose proof (len_nonneg s); lia.
  cbn [List.concat map app rev swap2]. rewrite IH. reflexivity.
Qed.
Lemma swap3_ok samples : Forall (fun s => len s = 3) samples -> swap3 (List.concat samples) = Some (List.concat (map (@rev Z) samples)).
Proof.
  induction 1 as [|s l Hs _ IH]; [reflexivity|]. destruct s as [|a [|b [|c [|e s]]]].
  1, 2, 3: discriminate Hs. 2: rewrite !len_cons in Hs; pose proof (len_nonneg s); lia.
  cbn [List.concat map app rev swap3]. rewrite IH. reflexivity.
Qed.
Lemma total_sum keys : forall a, 0 <= a < 2 ^ 32 -> fold_left (fun a k => u32 (a + k)) keys a = u32 (a + fold_right Z.add 0 keys).
Proof.
  induction keys as [|k keys IH]; intros a H; cbn [fold_left fold_right].
  - unfold u32. rewrite Z.mod_small; lia.
  - rewrite IH by (unfold u32; apply Z.mod_pos_bound; lia). unfold u32. rewrite Zplus_mod_idemp_l. f_equal. lia.
Qed.
Lemma field_at pre n v post : field (pre ++ le n v ++ post) (len pre) (Z.of_nat n) = Some (v mod 256 ^ Z.of_nat n).
Proof.
  unfold field. rewrite <- (len_le n v). rewrite peek_some by (rewrite ?len_app; pose proof (len_nonneg pre); pose proof (len_nonneg post); pose proof (len_nonneg (le n v)); lia).
  rewrite dropz_app_exact by reflexivity. rewrite takez_app_exact by reflexivity. rewrite unle_le, len_le. reflexivity.
Qed.
Lemma payload_chunk id payload more : len id = 4 -> len payload < 2 ^ 32 -> payloadSize (chunk id payload ++ more) = Some (len payload).
Proof.
  intros L P. unfold chunk. rewrite <- !app_assoc. pose proof (field_at id 4 (len payload) (payload ++ (if Z.odd (len payload) then [0] else []) ++ more)) as F.
  rewrite L in F. unfold field in F. change (Z.of_nat 4) with 4 in F. unfold payloadSize. rewrite F. f_equal. change (256 ^ 4) with (2 ^ 32). apply Z.mod_small. pose proof (len_nonneg payload); lia.
Qed.
Lemma len_chunk id payload : len id = 4 -> Z.odd (len payload) = false -> len (chunk id payload) = 8 + len payload.
Proof. intros L O. unfold chunk. rewrite O, !len_app, len_le, L. change (len (@nil Z)) with 0. lia. Qed.

(** Walking over the chunks of a list: chunks that have an even size. *)
Definition plain (c : list Z) : Prop := exists id payload, c = chunk id payload /\ len id = 4 /\ Z.odd (len payload) = false.
Lemma walk_ok l : Forall plain l -> forall fuel p n i pre post, (List.length l < fuel)%nat -> p = pre ++ List.concat l ++ post -> len pre = i -> n = i + len (List.concat l) -> n + 8 < 2 ^ 32 ->
  walk fuel p n i = WEnd (positions i l).
Proof.
  induction 1 as [|c l (id & payload & -> & Li & Lo) _ IH]; intros fuel p n i pre post F E L N B.
  - destruct fuel as [|k]; [cbn in F; lia|]. cbn [walk positions]. cbn [List.concat] in N. change (len (@nil Z)) with 0 in N. pose proof (len_nonneg pre).
    assert (u32 (i + 8) = i + 8) as -> by (unfold u32; apply Z.mod_small; lia). destruct (Z.leb_spec (i + 8) n); [lia|reflexivity].
  - destruct fuel as [|k]; [cbn in F; lia|]. cbn [walk positions]. cbn [List.concat] in N, E. rewrite len_app, (len_chunk _ _ Li Lo) in N.
    pose proof (len_nonneg pre). pose proof (len_nonneg payload). pose proof (len_nonneg (List.concat l)).
    assert (u32 (i + 8) = i + 8) as -> by (unfold u32; apply Z.mod_small; lia). destruct (Z.leb_spec (i + 8) n); [|lia].
    assert (dropz i p = chunk id payload ++ (List.concat l ++ post)) as D by (rewrite E, <- app_assoc; apply dropz_app_exact; symmetry; exact L).
    rewrite D, payload_chunk by (assumption || lia).
    assert (u32 (i + u32 (len payload + 8)) = i + len (chunk id payload)) as ->.
    { rewrite (len_chunk _ _ Li Lo). unfold u32. rewrite (Z.mod_small (len payload + 8)) by lia. rewrite Z.mod_small by lia. lia. }
    rewrite (IH k p n (i + len (chunk id payload)) (pre ++ chunk id payload) post); [reflexivity|cbn in F; lia| | | |exact B].
    + rewrite E, <- !app_assoc. reflexivity.
    + rewrite len_app. lia.
    + rewrite (len_chunk _ _ Li Lo). lia.
Qed.

Lemma len_fmt f c h b k s : len (fmt_generate f c h b k s) = 26.
Proof. unfold fmt_generate. rewrite !len_app, !len_le. reflexivity. Qed.
Lemma fmt_chunk f c h b k s : fmt_generate f c h b k s = wav_format f c h b k s.
Proof.
  unfold wav_format, chunk, fmt_generate. assert (X : len (le 2 f ++ le 2 c ++ le 4 h ++ le 4 b ++ le 2 k ++ le 2 s ++ le 2 0) = 18) by (rewrite !len_app, !len_le; reflexivity).
  rewrite X. change (Z.odd 18) with false. cbv iota. rewrite app_nil_r. reflexivity.
Qed.
Lemma fact_chunk n : fact_generate n = chunk (bs "fact") (le 4 n).
Proof. unfold chunk, fact_generate. rewrite len_le. change (Z.odd (Z.of_nat 4)) with false. cbv iota. rewrite app_nil_r. reflexivity. Qed.
