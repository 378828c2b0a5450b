From Verif Require Import RelAccX_Proofs Common CommonFacts CommonMore Bitfields_Model Bitfields_Spec Bitfields_Proofs Mem_Model Mem_Proofs Rtp_Model Rtp_Spec Rtp_Proofs RtpNal_Proofs.

Lemma addRTPs_app hevc : forall a b r xa ra, addRTPs hevc r a = Some (xa, ra) ->
  addRTPs hevc r (a ++ b) = (y <- addRTPs hevc ra b;; Some (xa ++ fst y, snd y)).
Proof.
  induction a as [|p a IH]; intros b r xa ra H; cbn [app addRTPs] in *.
  - injection H as <- <-. destruct (addRTPs hevc r b) as [[x y]|]; reflexivity.
  - destruct (addRTP hevc r p) as [[x1 r1]|]; [|discriminate]. cbn [fst snd] in *.
    destruct (addRTPs hevc r1 a) as [[x2 r2]|] eqn:E2; [|discriminate]. injection H as <- <-.
    rewrite (IH b r1 x2 r2 E2). cbn [fst snd]. destruct (addRTPs hevc r2 b) as [[x3 r3]|]; [|reflexivity]. cbn [fst snd]. now rewrite app_assoc.
Qed.

Section Frame.
Variables (pl : list Z) (hs N : Z).
Hypothesis Hpl : bytesP pl.
Definition fits (u : list Z) : Prop := 0 < len u /\ 1 <= nthz u 0 mod 32 <= 23 /\ len u + hs + 2 <= N.
(** The delayed unit is somewhere in the frame. *)
Definition held (prev : option (Z * Z)) (us : list (list Z)) : Prop :=
  match prev with
  | None => us = []
  | Some (o, l) => exists a u b, pl = a ++ u ++ b /\ o = len a /\ l = len u /\ us = [u] /\ fits u
  end.
Definition marks (us : list (list Z)) : list Z :=
  match us with [] => [] | _ => repeat 0 (List.length us - 1) ++ [frame_marker (last us [])] end.

Definition good (s : sender) (sq : Z) : Prop := sendable (sdata s) hs /\ len (sdata s) = N /\ rfc_sequence (sdata s) = sq mod 65536.

Lemma send_one s sq a u b lastu : good s sq -> pl = a ++ u ++ b -> fits u ->
  exists p s', sendH264 s pl (len a) (len u) lastu = Some ([p], s') /\ good s' (sq + 1) /\ len p <= N /\
    rfc_sequence p = sq mod 65536 /\ rfc_marker p = (if lastu then frame_marker u else 0) /\
    forall r, exists r', addRTPs false r [p] = Some ([prefixed u], r') /\ fuaBuffer r' = fuaBuffer r.
Proof.
  intros (G1 & G2 & G3) E (F1 & F2 & F3). subst pl.
  destruct (h264_whole s hs a u b lastu G1 Hpl F1 F2 ltac:(lia)) as (p & s' & W1 & W2 & W3 & W4 & W5 & W6 & W7 & W8).
  exists p, s'. split; [exact W1|]. split. { split; [assumption|]. split; [lia|]. rewrite W6, G3. rewrite Zplus_mod_idemp_l. reflexivity. }
  split; [lia|]. split; [lia|]. split. { rewrite W7. destruct lastu; reflexivity. }
  intros r. rewrite W8. eexists. split; [reflexivity|reflexivity].
Qed.

Lemma frame_ok : forall rest k done s sq prev us,
  (List.length rest < k)%nat -> pl = done ++ frame_of rest -> good s sq -> held prev us ->
  Forall fits rest -> (rest = [] \/ 4 <= len (last rest [])) -> len pl < 2 ^ 31 ->
  exists pkts s', h264_frame k s pl (len done) prev = Some (pkts, s') /\
    good s' (sq + len pkts) /\ Forall (fun p => len p <= N) pkts /\ numbered sq pkts /\
    map rfc_marker pkts = marks (us ++ not_filler rest) /\
    forall r, exists r', addRTPs false r pkts = Some (map prefixed (us ++ not_filler rest), r') /\ fuaBuffer r' = fuaBuffer r.
Proof.
  induction rest as [|u rest IH]; intros k done s sq prev us Hk Epl G Hh Hf Hl H31; (destruct k as [|k]; [cbn [List.length] in Hk; lia|]); cbn [h264_frame].
  - cbn [frame_of flat_map] in Epl. rewrite app_nil_r in Epl. subst done. rewrite Z.ltb_irrefl.
    cbn [not_filler filter]. rewrite app_nil_r. destruct prev as [[o l]|]; cbn [held] in Hh.
    + destruct Hh as (a & u & b & E & -> & -> & -> & Fu).
      destruct (send_one s sq a u b true G E Fu) as (p & s' & W1 & W2 & W3 & W4 & W5 & W6). exists [p], s'.
      split; [exact W1|]. split; [exact W2|]. split; [now repeat constructor|]. split; [split; [exact W4|exact I]|].
      split. { cbn. now rewrite W5. } exact W6.
    + subst us. exists [], s. split; [reflexivity|]. split. { change (len (@nil (list Z))) with 0. rewrite Z.add_0_r. exact G. }
      split; [constructor|]. split; [exact I|]. split; [reflexivity|]. intros r. exists r. now split.
  - inversion Hf as [|? ? Fu Hf']; subst. pose proof Fu as (F1 & F2 & F3).
    cbn [frame_of flat_map] in Epl. fold (frame_of rest) in Epl. unfold prefixed in Epl.
    pose proof (len_nonneg done). pose proof (len_nonneg (frame_of rest)).
    assert (LP : len pl = len done + 4 + len u + len (frame_of rest)) by (rewrite Epl, !len_app, be_len; lia).
    assert (Bu : bytesP u). { rewrite Epl in Hpl. apply bytesP_app in Hpl. destruct Hpl as [_ X]. apply bytesP_app in X. destruct X as [X _]. apply bytesP_app in X. apply X. }
    destruct (len done <? len pl) eqn:E1; [|lia].
    assert (L8 : len done + 8 <= len pl).
    { destruct rest as [|v rest]; [cbn in Hl; destruct Hl as [Hl|Hl]; [discriminate|]; lia|].
      cbn [frame_of flat_map] in LP. unfold prefixed at 1 in LP. rewrite !len_app, be_len in LP. pose proof (len_nonneg v). pose proof (len_nonneg (flat_map prefixed rest)). lia. }
    rewrite peek_some by lia.
    assert (EN : btohl (takez 8 (dropz (len done) pl)) = len u).
    { rewrite rd_btohl.
      2:{ now apply bytesP_takez, bytesP_dropz. }
      2:{ rewrite len_takez by (rewrite len_dropz by lia; lia). lia. }
      change (firstn 4 (takez 8 (dropz (len done) pl))) with (takez 4 (takez 8 (dropz (len done) pl))).
      rewrite takez_takez. change (Z.min 4 8) with 4. rewrite Epl, dropz_app_exact by reflexivity. rewrite <- app_assoc, takez_app_exact by now rewrite be_len.
      rewrite unbe_be. apply Z.mod_small. change (256 ^ Z.of_nat 4) with (2 ^ 32). lia. }
    rewrite EN.
    assert (ET : rd pl (len done + 4) = Some (nthz u 0)).
    { rewrite rd_some by lia. f_equal. rewrite Epl, nthz_app2 by lia. rewrite <- app_assoc, nthz_app2 by (rewrite be_len; lia). rewrite be_len.
      replace (len done + 4 - len done - Z.of_nat 4) with 0 by lia. apply nthz_app1. lia. }
    rewrite ET, land_31.
    assert (EP2 : pl = (done ++ be 4 (len u) ++ u) ++ frame_of rest) by (rewrite Epl, <- !app_assoc; reflexivity).
    assert (LD : len (done ++ be 4 (len u) ++ u) = len done + len u + 4) by (rewrite !len_app, be_len; lia).
    assert (Hl' : rest = [] \/ 4 <= len (last rest [])).
    { destruct rest as [|v rest]; [now left|right]. destruct Hl as [Hl|Hl]; [discriminate|]. exact Hl. }
    assert (Hk' : (List.length rest < k)%nat) by (cbn [List.length] in Hk; lia).
    destruct (nthz u 0 mod 32 =? 12) eqn:E12; cbn [negb].
    + unfold not_filler. cbn [filter]. rewrite E12. cbn [negb]. fold (not_filler rest).
      destruct (IH k _ s sq prev us Hk' EP2 G Hh Hf' Hl' H31) as (pkts & s' & I1 & R). rewrite LD in I1. exists pkts, s'. split; [exact I1|exact R].
    + unfold not_filler. cbn [filter]. rewrite E12. cbn [negb]. fold (not_filler rest).
      assert (Hheld : held (Some (len done + 4, len u)) [u]).
      { exists (done ++ be 4 (len u)), u, (frame_of rest). rewrite len_app, be_len. split; [rewrite Epl, <- !app_assoc; reflexivity|]. split; [lia|]. split; [reflexivity|]. split; [reflexivity|exact Fu]. }
      destruct prev as [[o l]|].
      * destruct Hh as (a & v & b & E & -> & -> & -> & Fv).
        destruct (send_one s sq a v b false G E Fv) as (p & s1 & -> & W2 & W3 & W4 & W5 & W6). cbn [fst snd].
        destruct (IH k _ s1 (sq + 1) _ [u] Hk' EP2 W2 Hheld Hf' Hl' H31) as (pkts & s' & I1 & I2 & I3 & I4 & I5 & I6). rewrite LD in I1. rewrite I1.
        exists (p :: pkts), s'. cbn [fst snd app]. split; [reflexivity|]. split. { rewrite len_cons. now replace (sq + (1 + len pkts)) with (sq + 1 + len pkts) by lia. }
        split; [now constructor|]. split; [split; assumption|].
        split. { cbn [map]. rewrite W5, I5. unfold marks. cbn [app List.length last repeat Nat.sub]. rewrite Nat.sub_0_r. reflexivity. }
        intros r. destruct (W6 r) as (r1 & X1 & X2). destruct (I6 r1) as (r2 & X3 & X4).
        change (p :: pkts) with ([p] ++ pkts). rewrite (addRTPs_app false [p] pkts r _ _ X1), X3. cbn [fst snd].
        exists r2. split; [reflexivity|]. now rewrite X4.
      * cbn [held] in Hh. subst us. cbn [fst snd app].
        destruct (IH k _ s sq _ [u] Hk' EP2 G Hheld Hf' Hl' H31) as (pkts & s' & I1 & I2 & I3 & I4 & I5 & I6). rewrite LD in I1. rewrite I1.
        exists pkts, s'. cbn [fst snd app] in *. split; [reflexivity|]. conjs; assumption.
Qed.
End Frame.
