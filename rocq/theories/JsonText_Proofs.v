(** Proofs about the JSON text form. *)
From Verif Require Import Common CommonFacts CommonMore Outcome_Model JsonVal_Model JsonText_Model Dtmi_Spec Dtmi_Proofs DtmiDec_Proofs JsonText_Spec.

Lemma hex_ok h : 0 <= h < 16 -> c2hex (hex2c h) = h /\ hex2c h =? 34 = false.
Proof. intros H. unfold c2hex, hex2c. dif; cbn [andb]; dif; split; lia. Qed.
Lemma nib x n : 0 <= n -> (x >> n) .& 15 = (x / 2 ^ n) mod 16.
Proof. intros H. now rewrite land_15, shr_div. Qed.

Section Strings.
Context (junk : Z).
Notation rs := (read_string junk).

Lemma rs_plain f c r out : c <> 34 -> c <> 92 -> rs (S f) 34 (c :: r, true) false 0 out = rs f 34 (r, true) false 0 (out ++ [c]).
Proof.
  intros H1 H2. cbn [read_string snd negb get1 andb]. replace (c =? 92) with false by lia. replace (c =? 34) with false by lia.
  cbv iota zeta. change (flushc 0) with (@nil Z). now rewrite app_nil_r.
Qed.
Lemma rs_end f r out : rs (S f) 34 (34 :: r, true) false 0 out = Ok (out, (r, true)).
Proof. cbn [read_string snd negb get1 andb Z.eqb]. cbv iota zeta. change (flushc 0) with (@nil Z). now rewrite app_nil_r. Qed.
Lemma rs_esc f c r out x : In (c, x) [(34, 34); (92, 92); (ch "n", 10); (ch "b", 8); (ch "f", 12); (ch "r", 13); (ch "t", 9)] ->
  rs (S (S f)) 34 (92 :: c :: r, true) false 0 out = rs f 34 (r, true) false 0 (out ++ [x]).
Proof. intros I. cbn [In] in I. repeat (destruct I as [I|I]; [injection I as <- <-; reflexivity|]). destruct I. Qed.

Definition after_u (f : nat) (c : Z) (r : list Z) (full : Z) (out : list Z) : res (list Z * stream) :=
  let '(out, full) := if negb (full =? 0) && ((c <? 0xDC00) || (0xDFFF <? c)) then (out ++ UTF8 (full >> 16), 0) else (out, full) in
  let full := full .| c in
  if (0xD800 <=? full) && (full <=? 0xDBFF) then rs f 34 (r, true) false (u32 (full << 16)) out
  else rs f 34 (r, true) false 0 (out ++ UTF8 full).
Lemma rs_u f c r full out : 0 <= c < 65536 -> rs (S (S f)) 34 (u16esc c ++ r, true) false full out = after_u f c r full out.
Proof.
  intros H. unfold u16esc. rewrite !nib by lia. rewrite land_15. change (bs "\u") with [92; 117]. cbn [app].
  change (2 ^ 12) with 4096. change (2 ^ 8) with 256. change (2 ^ 4) with 16.
  set (h1 := c / 4096 mod 16). set (h2 := c / 256 mod 16). set (h3 := c / 16 mod 16). set (h4 := c mod 16).
  assert (B : 0 <= h1 < 16 /\ 0 <= h2 < 16 /\ 0 <= h3 < 16 /\ 0 <= h4 < 16) by (unfold h1, h2, h3, h4; lia).
  destruct (hex_ok h1) as [A1 A2]; [lia|]. destruct (hex_ok h2) as [B1 B2]; [lia|]. destruct (hex_ok h3) as [C1 C2]; [lia|]. destruct (hex_ok h4) as [D1 D2]; [lia|].
  cbn [read_string snd negb get1 andb]. change (92 =? 92) with true. cbv iota. change (ch "u") with 117. change (ch "b") with 98. change (ch "f") with 102. change (ch "n") with 110. change (ch "r") with 114. change (ch "t") with 116. change (ch "x") with 120.
  change (117 =? 117) with true. cbn [negb]. rewrite andb_false_r. cbn [Z.eqb Pos.eqb]. rewrite A2, B2, C2, D2, A1, B1, C1, D1.
  replace (h4 + (h3 << 4) + (h2 << 8) + (h1 << 12)) with c by (rewrite !shl_mul by lia; change (2 ^ 12) with 4096; change (2 ^ 8) with 256; change (2 ^ 4) with 16; unfold h1, h2, h3, h4; lia).
  reflexivity.
Qed.
(** A code unit that is no surrogate. *)
Lemma rs_unit f c r out : 0 <= c < 0xD800 -> rs (S (S f)) 34 (u16esc c ++ r, true) false 0 out = rs f 34 (r, true) false 0 (out ++ UTF8 c).
Proof.
  intros H. rewrite rs_u by lia. unfold after_u. change (negb (0 =? 0)) with false. cbn [andb]. rewrite Z.lor_0_l.
  replace ((55296 <=? c) && (c <=? 56319)) with false by lia. reflexivity.
Qed.
(** A surrogate pair. *)
Lemma rs_pair f h l r out : 0 <= h < 1024 -> 0 <= l < 1024 ->
  rs (S (S (S (S f)))) 34 (u16esc (0xD800 + h) ++ u16esc (0xDC00 + l) ++ r, true) false 0 out =
  rs f 34 (r, true) false 0 (out ++ UTF8 ((0xD800 + h) * 65536 + (0xDC00 + l))).
Proof.
  intros H L. rewrite rs_u by lia. unfold after_u at 1. change (negb (0 =? 0)) with false. cbn [andb]. rewrite Z.lor_0_l.
  replace ((55296 <=? 55296 + h) && (55296 + h <=? 56319)) with true by lia.
  rewrite shl_mul by lia. change (2 ^ 16) with 65536. rewrite u32_id by lia.
  rewrite rs_u by lia. unfold after_u.
  replace (negb ((55296 + h) * 65536 =? 0)) with true by lia. replace ((56320 + l <? 56320) || (57343 <? 56320 + l)) with false by lia. cbn [andb].
  change 65536 with (2 ^ 16). rewrite lor_add by lia. change (2 ^ 16) with 65536.
  replace ((55296 <=? (55296 + h) * 65536 + (56320 + l)) && ((55296 + h) * 65536 + (56320 + l) <=? 56319)) with false by lia. reflexivity.
Qed.

Lemma esc1_unit c : 0 <= c < 256 -> esc1 c = u16esc c.
Proof.
  intros H. unfold esc1, u16esc. rewrite !nib by lia. replace (c / 2 ^ 12 mod 16) with 0 by lia. replace (c / 2 ^ 8 mod 16) with 0 by (change (2 ^ 8) with 256; lia). reflexivity.
Qed.
Lemma utf8_ascii c : 0 <= c < 128 -> UTF8 c = [c].
Proof. intros H. unfold UTF8. replace (c <=? 127) with true by lia. reflexivity. Qed.
Lemma lead2 a : 0xC2 <= a <= 0xDF -> a .& 0xC0 = 0xC0 /\ a .& 0xE0 = 0xC0 /\ a .& 0x1F = a - 0xC0 /\ 0xC0 .| (a - 0xC0) = a.
Proof.
  intros H. assert (B : byteP a) by (unfold byteP; lia).
  pose proof (byte_sweep (fun a => negb ((194 <=? a) && (a <=? 223)) || ((a .& 192 =? 192) && (a .& 224 =? 192) && (a .& 31 =? a - 192) && (192 .| (a - 192) =? a))) ltac:(vm_compute; reflexivity) a B) as S. cbv beta in S. lia.
Qed.
Lemma lead4 a : 0xF0 <= a <= 0xF4 -> a .& 0xC0 = 0xC0 /\ a .& 0xE0 = 0xE0 /\ a .& 0xF0 = 0xF0 /\ a .& 0xF8 = 0xF0 /\ a .& 0x1F = a - 0xE0 /\ 0xF0 .| (a - 0xF0) = a.
Proof.
  intros H. assert (B : byteP a) by (unfold byteP; lia).
  pose proof (byte_sweep (fun a => negb ((240 <=? a) && (a <=? 244)) || ((a .& 192 =? 192) && (a .& 224 =? 224) && (a .& 240 =? 240) && (a .& 248 =? 240) && (a .& 31 =? a - 224) && (240 .| (a - 240) =? a))) ltac:(vm_compute; reflexivity) a B) as S. cbv beta in S. lia.
Qed.
Lemma trail_ok b : trail b -> cont b = true /\ b .& 0x3F = b - 0x80 /\ 0x80 .| (b - 0x80) = b.
Proof.
  intros H. unfold trail in H. assert (B : byteP b) by (unfold byteP; lia). unfold cont.
  pose proof (byte_sweep (fun b => negb ((128 <=? b) && (b <=? 191)) || ((b .& 192 =? 128) && (b .& 63 =? b - 128) && (128 .| (b - 128) =? b))) ltac:(vm_compute; reflexivity) b B) as S. cbv beta in S. lia.
Qed.
Lemma utf8_two a b : 0xC2 <= a <= 0xDF -> trail b -> UTF8 ((a - 0xC0) * 64 + (b - 0x80)) = [a; b].
Proof.
  intros A B. destruct (lead2 a A) as (_ & _ & _ & A4). destruct (trail_ok b B) as (_ & _ & B3). unfold trail in B.
  unfold UTF8. replace (_ <=? 127) with false by lia. replace (_ <=? 2047) with true by lia.
  rewrite shr_div, land_63 by lia. change (2 ^ 6) with 64.
  replace (((a - 192) * 64 + (b - 128)) / 64) with (a - 192) by lia. replace (((a - 192) * 64 + (b - 128)) mod 64) with (b - 128) by lia.
  now rewrite A4, B3.
Qed.
Lemma utf8_four a b c d : 0xF0 <= a <= 0xF4 -> (a = 0xF0 -> 0x90 <= b) -> (a = 0xF4 -> b <= 0x8F) -> trail b -> trail c -> trail d ->
  let x := (a - 0xF0) * 262144 + (b - 0x80) * 4096 + (c - 0x80) * 64 + (d - 0x80) in
  UTF8 ((0xD800 + (x - 65536) / 1024) * 65536 + (0xDC00 + (x - 65536) mod 1024)) = [a; b; c; d].
Proof.
  intros A AB AB' B C D x. destruct (lead4 a A) as (_ & _ & _ & _ & _ & A6).
  destruct (trail_ok b B) as (_ & _ & B3). destruct (trail_ok c C) as (_ & _ & C3). destruct (trail_ok d D) as (_ & _ & D3). unfold trail in *.
  assert (X : 65536 <= x < 1114112) by (unfold x; lia).
  unfold UTF8. set (h := (x - 65536) / 1024). set (l := (x - 65536) mod 1024).
  assert (HL : 0 <= h < 1024 /\ 0 <= l < 1024 /\ h * 1024 + l = x - 65536) by (unfold h, l; lia). clearbody h l. destruct HL as (H1 & L1 & HL).
  replace (_ <=? 127) with false by lia. replace (_ <=? 2047) with false by lia. cbv zeta.
  change 65535 with (Z.ones 16). change 1023 with (Z.ones 10). rewrite !Z.land_ones by lia. change (2 ^ 16) with 65536. change (2 ^ 10) with 1024.
  rewrite !shr_div, shl_mul by lia. rewrite land_7, !land_63. change (2 ^ 16) with 65536. change (2 ^ 10) with 1024. change (2 ^ 18) with 262144. change (2 ^ 12) with 4096. change (2 ^ 6) with 64.
  replace (((55296 + h) * 65536 + (56320 + l)) / 65536) with (55296 + h) by lia.
  replace ((55296 + h) mod 1024) with h by lia.
  replace ((((55296 + h) * 65536 + (56320 + l)) mod 65536) mod 1024) with l by lia.
  replace (h * 1024 + l + 65536) with x by lia. unfold x.
  replace ((((a - 240) * 262144 + (b - 128) * 4096 + (c - 128) * 64 + (d - 128)) / 262144) mod 8) with (a - 240) by lia.
  replace ((((a - 240) * 262144 + (b - 128) * 4096 + (c - 128) * 64 + (d - 128)) / 4096) mod 64) with (b - 128) by lia.
  replace ((((a - 240) * 262144 + (b - 128) * 4096 + (c - 128) * 64 + (d - 128)) / 64) mod 64) with (c - 128) by lia.
  replace (((a - 240) * 262144 + (b - 128) * 4096 + (c - 128) * 64 + (d - 128)) mod 64) with (d - 128) by lia.
  now rewrite A6, B3, C3, D3.
Qed.

(** ** Reading an escaped string *)
Lemma read_esc s : text s -> forall rest out, returns (fun f => rs f 34 (esc s ++ 34 :: rest, true) false 0 out) (out ++ s, (rest, true)).
Proof.
  induction 1 as [|c r C T IH|a b r A B T IH|a b c d r A A' A'' B C D T IH]; intros rest out.
  - cbn [esc app]. rewrite app_nil_r. refine (returns_step _ (fun _ => Ok _) _ _ (returns_ok _)). intros f. apply rs_end.
  - replace (out ++ c :: r) with ((out ++ [c]) ++ r) by (now rewrite <- app_assoc). specialize (IH rest (out ++ [c])).
    assert (E : forall e, In (e, c) [(34, 34); (92, 92); (ch "n", 10); (ch "b", 8); (ch "f", 12); (ch "r", 13); (ch "t", 9)] -> esc (c :: r) = 92 :: e :: esc r ->
      returns (fun f => rs f 34 (esc (c :: r) ++ 34 :: rest, true) false 0 out) ((out ++ [c]) ++ r, (rest, true))).
    { intros e I ->. refine (returns_step _ _ _ (fun f => eq_refl) (returns_step _ _ _ _ IH)). intros f. apply (rs_esc f e (esc r ++ 34 :: rest) out c I). }
    destruct (Z.eqb_spec c 34) as [->|N1]; [apply (E 34); [cbn; tauto|reflexivity]|].
    destruct (Z.eqb_spec c 92) as [->|N2]; [apply (E 92); [cbn; tauto|reflexivity]|].
    destruct (Z.eqb_spec c 10) as [->|N3]; [apply (E (ch "n")); [cbn; tauto|reflexivity]|].
    destruct (Z.eqb_spec c 8) as [->|N4]; [apply (E (ch "b")); [cbn; tauto|reflexivity]|].
    destruct (Z.eqb_spec c 12) as [->|N5]; [apply (E (ch "f")); [cbn; tauto|reflexivity]|].
    destruct (Z.eqb_spec c 13) as [->|N6]; [apply (E (ch "r")); [cbn; tauto|reflexivity]|].
    destruct (Z.eqb_spec c 9) as [->|N7]; [apply (E (ch "t")); [cbn; tauto|reflexivity]|].
    clear E.
    destruct ((c <? 32) || (126 <? c)) eqn:F.
    + assert (E : esc (c :: r) = u16esc c ++ esc r).
      { cbn [esc]. replace (c =? 34) with false by lia. replace (c =? 92) with false by lia. replace (c =? 10) with false by lia. replace (c =? 8) with false by lia.
        replace (c =? 12) with false by lia. replace (c =? 13) with false by lia. replace (c =? 9) with false by lia. rewrite F.
        replace (c .& 192 =? 192) with false.
        - now rewrite esc1_unit by lia.
        - pose proof (byte_sweep (fun c => negb (c <? 128) || negb (c .& 192 =? 192)) ltac:(vm_compute; reflexivity) c ltac:(unfold byteP; lia)) as S. cbv beta in S. lia. }
      rewrite E, <- app_assoc. refine (returns_step _ _ _ (fun f => eq_refl) (returns_step _ _ _ _ IH)). intros f.
      rewrite rs_unit by lia. now rewrite utf8_ascii.
    + assert (E : esc (c :: r) = c :: esc r).
      { cbn [esc]. replace (c =? 34) with false by lia. replace (c =? 92) with false by lia. replace (c =? 10) with false by lia. replace (c =? 8) with false by lia.
        replace (c =? 12) with false by lia. replace (c =? 13) with false by lia. replace (c =? 9) with false by lia. now rewrite F. }
      rewrite E. refine (returns_step _ _ _ _ IH). intros f. now apply rs_plain.
  - specialize (IH rest (out ++ [a; b])). rewrite <- app_assoc in IH. cbn [app] in IH.
    destruct (lead2 a A) as (A1 & A2 & A3 & A4). destruct (trail_ok b B) as (B1 & B2 & B3).
    assert (E : esc (a :: b :: r) = u16esc ((a - 192) * 64 + (b - 128)) ++ esc r).
    { cbn [esc]. replace (a =? 34) with false by lia. replace (a =? 92) with false by lia. replace (a =? 10) with false by lia. replace (a =? 8) with false by lia.
      replace (a =? 12) with false by lia. replace (a =? 13) with false by lia. replace (a =? 9) with false by lia. replace ((a <? 32) || (126 <? a)) with true by lia.
      rewrite A1, A2, B1, A3, B2. cbn [Z.eqb Pos.eqb andb]. rewrite (lor_shl_add' _ _ 6 64) by (try reflexivity; unfold trail in B; lia).
      unfold UTF16. unfold trail in B. replace (65535 <? (a - 192) * 64 + (b - 128)) with false by lia. reflexivity. }
    rewrite E, <- app_assoc. refine (returns_step _ _ _ (fun f => eq_refl) (returns_step _ _ _ _ IH)). intros f.
    unfold trail in B. rewrite rs_unit by lia. now rewrite utf8_two.
  - specialize (IH rest (out ++ [a; b; c; d])). rewrite <- app_assoc in IH. cbn [app] in IH.
    destruct (lead4 a A) as (A1 & A2 & A3 & A4 & A5 & A6). destruct (trail_ok b B) as (B1 & B2 & B3). destruct (trail_ok c C) as (C1 & C2 & C3). destruct (trail_ok d D) as (D1 & D2 & D3).
    pose (x := (a - 240) * 262144 + (b - 128) * 4096 + (c - 128) * 64 + (d - 128)).
    assert (X : 65536 <= x < 1114112) by (unfold x, trail in *; lia).
    assert (E : esc (a :: b :: c :: d :: r) = u16esc (0xD800 + (x - 65536) / 1024) ++ u16esc (0xDC00 + (x - 65536) mod 1024) ++ esc r).
    { cbn [esc]. replace (a =? 34) with false by lia. replace (a =? 92) with false by lia. replace (a =? 10) with false by lia. replace (a =? 8) with false by lia.
      replace (a =? 12) with false by lia. replace (a =? 13) with false by lia. replace (a =? 9) with false by lia. replace ((a <? 32) || (126 <? a)) with true by lia.
      rewrite A1, A2, A3, A4, B1, C1, D1, A5, B2, C2, D2. change (192 =? 192) with true. change (224 =? 192) with false. change (240 =? 224) with false. change (240 =? 240) with true. cbn [andb]. cbv iota.
      unfold trail in *.
      replace ((((a - 224) << 18) .| ((b - 128) << 12) .| ((c - 128) << 6)) .| (d - 128)) with (4194304 + x).
      2: { rewrite (shl_mul (b - 128)), (shl_mul (c - 128)) by lia. rewrite (lor_shl_add' (a - 224) _ 18 262144) by (try reflexivity; change (2 ^ 12) with 4096; lia).
           change (2 ^ 12) with 4096. change (2 ^ 6) with 64.
           replace ((a - 224) * 262144 + (b - 128) * 4096) with (((a - 224) * 64 + (b - 128)) * 2 ^ 12) by (change (2 ^ 12) with 4096; lia).
           rewrite lor_add by (change (2 ^ 12) with 4096; lia). change (2 ^ 12) with 4096.
           replace (((a - 224) * 64 + (b - 128)) * 4096 + (c - 128) * 64) with ((((a - 224) * 64 + (b - 128)) * 64 + (c - 128)) * 2 ^ 6) by (change (2 ^ 6) with 64; lia).
           rewrite lor_add by (change (2 ^ 6) with 64; lia). change (2 ^ 6) with 64. unfold x. lia. }
      unfold UTF16. replace (65535 <? 4194304 + x) with true by lia. cbv zeta.
      change 1023 with (Z.ones 10). rewrite !Z.land_ones, shr_div by lia. change (2 ^ 10) with 1024.
      replace ((4194304 + x - 65536) / 1024 mod 1024) with ((x - 65536) / 1024) by lia.
      replace ((4194304 + x - 65536) mod 1024) with ((x - 65536) mod 1024) by lia.
      now rewrite <- app_assoc. }
    rewrite E, <- !app_assoc.
    refine (returns_step _ _ _ (fun f => eq_refl) (returns_step _ _ _ (fun f => eq_refl) (returns_step _ _ _ (fun f => eq_refl) (returns_step _ _ _ _ IH)))). intros f.
    rewrite rs_pair by lia. unfold x. now rewrite utf8_four.
Qed.
End Strings.

Definition delim (rest : list Z) : Prop := match rest with [] => True | c :: _ => c = ch "," \/ c = ch "]" \/ c = ch "}" end.

Lemma commas_cons x l : commas (x :: l) = x ++ flat_map (fun y => ch "," :: y) l.
Proof. revert x. induction l as [|y l IH]; intros x; [cbn; now rewrite app_nil_r|]. change (commas (x :: y :: l)) with (x ++ [ch ","] ++ commas (y :: l)). rewrite IH. reflexivity. Qed.
Lemma flat_map_map {A B C} (g : A -> B) (f : B -> list C) l : flat_map f (map g l) = flat_map (fun x => f (g x)) l.
Proof. induction l as [|a l IH]; [reflexivity|]. cbn. now rewrite IH. Qed.
Lemma skip_delim rest : delim rest -> exists g, (rest <> [] -> g = true) /\ skipToEnd rest = (rest, g).
Proof.
  destruct rest as [|c r]; [exists false; split; [congruence|reflexivity]|]. cbn [delim skipToEnd]. intros H. exists true. split; [reflexivity|].
  replace ((c =? ch ",") || (c =? ch "]") || (c =? ch "}")) with true by (destruct H as [-> | [-> | ->]]; reflexivity). reflexivity.
Qed.

Section RoundTrip.
Context (dshow : Z -> list Z) (junk : Z) (D : Type) (dint : Z -> D) (dstep : D -> D -> Z -> D * D) (dbits : D -> Z).
Notation parse := (parse junk D dint dstep dbits).
Notation pst := (pst D).
Notation pst0 := (pst0 D dint).
Notation show := (toString dshow).

Definition setint (p : pst) (n : Z) : pst := mkPst D TInt n (dv D p) (dd D p) (sv D p) (av D p) (ov D p) (ro D p) (ra D p) (neg D p).
Lemma parse_digit f p d r : 0 <= d < 10 -> ty D p <> TDouble -> iv D p * 10 + d < 2 ^ 63 ->
  parse (S f) p (48 + d :: r, true) = parse f (setint p (iv D p * 10 + d)) (r, true).
Proof.
  intros H T B. cbn [JsonText_Model.parse snd fst negb].
  replace (48 + d =? ch "{") with false by (change (ch "{") with 123; lia). replace (48 + d =? ch "[") with false by (change (ch "[") with 91; lia).
  replace ((48 + d =? 39) || (48 + d =? 34)) with false by lia. replace (48 + d =? ch "-") with false by (change (ch "-") with 45; lia).
  unfold is_digit. replace ((48 <=? 48 + d) && (48 + d <=? 57)) with true by lia. replace (48 + d - 48) with d by lia.
  replace (iv D p * 10 + d <? 2 ^ 63) with true by lia. destruct (ty D p); try reflexivity. congruence.
Qed.
Lemma parse_digits k : forall n p r x, 0 <= n < 10 ^ Z.of_nat k -> n < 2 ^ 63 -> (0 < k)%nat -> ty D p <> TDouble -> iv D p = 0 ->
  returns (fun f => parse f (setint p n) (r, true)) x -> returns (fun f => parse f p (digits k n ++ r, true)) x.
Proof.
  induction k as [|k IH]; intros n p r x H B K T I R; [lia|]. cbn [digits].
  destruct (Z.ltb_spec n 10) as [L|L].
  - cbn [app]. refine (returns_step _ _ _ _ R). intros f. rewrite Z.mod_small by lia. rewrite parse_digit by (try assumption; lia). now rewrite I.
  - rewrite <- app_assoc. rewrite Nat2Z.inj_succ, Z.pow_succ_r in H by lia.
    assert (K' : (0 < k)%nat) by (destruct k; [cbn in H; lia|lia]).
    apply IH; [lia|lia|exact K'|exact T|exact I|]. refine (returns_step _ _ _ _ R). intros f. cbn [app].
    rewrite parse_digit by (cbn; try discriminate; lia). cbn [iv setint]. unfold setint. cbn. replace (n / 10 * 10 + n mod 10) with n by lia. reflexivity.
Qed.

Definition parses (v : jv) : Prop := forall rest, delim rest ->
  exists g, (rest <> [] -> g = true) /\ returns (fun f => parse f pst0 (show v ++ rest, true)) (v, (rest, g)).

(** A value that stands alone stops before a delimiter. *)
Lemma stop_delim p rest : delim rest -> ro D p = false -> ra D p = false ->
  exists g, (rest <> [] -> g = true) /\ returns (fun f => parse f p (rest, true)) (value_of D dbits p, (rest, g)).
Proof.
  intros H O A. destruct rest as [|c r].
  - exists false. split; [congruence|]. refine (returns_step _ _ _ (fun f => eq_refl) (returns_step _ _ _ (fun f => eq_refl) (returns_ok _))).
  - exists true. split; [reflexivity|]. cbn [delim] in H.
    destruct H as [-> | [-> | ->]]; (refine (returns_step _ _ _ _ (returns_ok _)); intros f; cbn; now rewrite ?O, ?A).
Qed.

Lemma parses_int n : - 2 ^ 63 < n < 2 ^ 63 -> parses (JInt n).
Proof.
  intros H rest R. cbn [toString]. unfold show_int. destruct (Z.ltb_spec n 0) as [L|L].
  - pose (p := mkPst D TUnset 0 (dint 0) (dint 1) [] [] [] false false true).
    destruct (stop_delim (setint p (- n)) rest R eq_refl eq_refl) as (g & G & S). exists g. split; [exact G|].
    refine (returns_step _ (fun f => parse f p (digits 20 (- n) ++ rest, true)) _ (fun f => eq_refl) _).
    apply parse_digits; [change (10 ^ Z.of_nat 20) with 100000000000000000000; lia|lia|lia|discriminate|reflexivity|].
    cbn in S. rewrite Z.opp_involutive in S. exact S.
  - destruct (stop_delim (setint pst0 n) rest R eq_refl eq_refl) as (g & G & S). exists g. split; [exact G|].
    apply parse_digits; [change (10 ^ Z.of_nat 20) with 100000000000000000000; lia|lia|lia|discriminate|reflexivity|exact S].
Qed.

Lemma show_nonempty v : printable v -> show v <> [].
Proof.
  intros P. destruct P; cbn [toString]; try discriminate.
  - destruct H as [-> | ->]; discriminate.
  - unfold show_int. dif; [discriminate|]. cbn [digits]. destruct (n <? 10); [discriminate|]. intros E. apply app_eq_nil in E. destruct E as [_ E]. discriminate.
Qed.
Lemma or_null_show v : printable v -> or_null (show v) = show v.
Proof. intros P. pose proof (show_nonempty v P). destruct (show v); [congruence|reflexivity]. Qed.

Definition inarr (acc : list jv) : pst := mkPst D TArray 0 (dint 0) (dint 1) [] acc [] false true false.
Definition inobj (acc : list (list Z * jv)) : pst := mkPst D TObject 0 (dint 0) (dint 1) [] [] acc true false false.

Lemma arr_loop l : Forall parses l -> forall acc rest,
  returns (fun f => parse f (inarr acc) (flat_map (fun x => ch "," :: show x) l ++ ch "]" :: rest, true)) (JArr (acc ++ l), (rest, true)).
Proof.
  induction 1 as [|v l V F IH]; intros acc rest.
  - rewrite app_nil_r. exact (returns_step _ _ _ (fun f => eq_refl) (returns_ok _)).
  - cbn [flat_map]. rewrite <- app_assoc. cbn [app].
    destruct (V (flat_map (fun x => ch "," :: show x) l ++ ch "]" :: rest)) as (g & G & R); [destruct l; cbn; tauto|].
    rewrite G in R by (destruct l; discriminate). clear G.
    refine (returns_step _ _ _ (fun f => eq_refl) _).
    refine (returns_bind _ (fun x f => parse f (p_append D dint (fst x) (inarr acc)) (snd x)) _ _ R _).
    cbn [fst snd p_append inarr ty av iv dv dd sv ov ro ra neg].
    replace (acc ++ v :: l) with ((acc ++ [v]) ++ l) by (now rewrite <- app_assoc). apply IH.
Qed.

Lemma parses_arr l : Forall printable l -> Forall parses l -> parses (JArr l).
Proof.
  intros P F rest _. exists true. split; [reflexivity|]. cbn [toString].
  destruct l as [|v l].
  - cbn [map commas app]. refine (returns_step _ _ _ (fun f => eq_refl) _).
    refine (returns_bind _ (fun x f => parse f (match fst x with JUnset => inarr [] | v => p_append D dint v (inarr []) end) (snd x)) (JUnset, (ch "]" :: rest, true)) _ _ _).
    + exact (returns_step _ _ _ (fun f => eq_refl) (returns_ok _)).
    + cbn [fst snd]. exact (returns_step _ _ _ (fun f => eq_refl) (returns_ok _)).
  - inversion P as [|? ? Pv Pl]; subst. inversion F as [|? ? Fv Fl]; subst.
    assert (E : map (fun x => or_null (show x)) l = map show l).
    { clear - Pl. induction Pl as [|x l X P IH]; [reflexivity|]. cbn [map]. now rewrite IH, or_null_show. }
    cbn [map]. rewrite commas_cons, E, or_null_show by exact Pv. rewrite flat_map_map. rewrite <- !app_assoc. cbn [app].
    destruct (Fv (flat_map (fun x => ch "," :: show x) l ++ ch "]" :: rest)) as (g & G & R); [destruct l; cbn; tauto|].
    rewrite G in R by (destruct l; discriminate). clear G.
    refine (returns_step _ _ _ (fun f => eq_refl) _).
    refine (returns_bind _ (fun x f => parse f (match fst x with JUnset => inarr [] | v => p_append D dint v (inarr []) end) (snd x)) _ _ R _).
    cbn [fst snd]. pose proof (arr_loop l Fl [v] rest) as A. cbn [app] in A. destruct v; try exact A. inversion Pv.
Qed.

Definition mem (e : list Z * jv) : list Z := string_escape (fst e) ++ [ch ":"] ++ show (snd e).
Lemma mem_step e rest acc x : text (fst e) -> parses (snd e) -> rest <> [] -> delim rest -> (forall a, In a acc -> sltb (fst a) (fst e) = true) ->
  returns (fun f => parse f (inobj (acc ++ [e])) (rest, true)) x -> returns (fun f => parse f (inobj acc) (mem e ++ rest, true)) x.
Proof.
  destruct e as [k v]. cbn [fst snd]. intros T P NE D' O R. unfold mem, string_escape. cbn [fst snd]. rewrite <- !app_assoc. cbn [app].
  refine (returns_step _ _ _ (fun f => eq_refl) _).
  refine (returns_bind _ (fun x f => y <~ parse f pst0 (snd x);; parse f (p_member D dint (fst x) (fst y) (inobj acc)) (snd y)) _ _ (read_esc junk k T (ch ":" :: show v ++ rest) []) _).
  cbn [fst snd app]. destruct (P rest D') as (g & G & Q). rewrite (G NE) in Q.
  refine (returns_bind (fun f => parse f pst0 (ch ":" :: show v ++ rest, true)) (fun y f => parse f (p_member D dint k (fst y) (inobj acc)) (snd y)) (v, (rest, true)) _ _ _).
  - exact (returns_step _ _ _ (fun f => eq_refl) Q).
  - unfold p_member. cbn [fst snd inobj ty av iv dv dd sv ov ro ra neg]. rewrite oset_last by exact O. exact R.
Qed.
Lemma obj_loop l : Forall (fun e => text (fst e)) l -> Forall (fun e => parses (snd e)) l -> increasing (map fst l) ->
  forall acc rest, (forall a e, In a acc -> In e l -> sltb (fst a) (fst e) = true) ->
  returns (fun f => parse f (inobj acc) (flat_map (fun e => ch "," :: mem e) l ++ ch "}" :: rest, true)) (JObj (acc ++ l), (rest, true)).
Proof.
  induction l as [|e l IH]; intros T P I acc rest O.
  - rewrite app_nil_r. exact (returns_step _ _ _ (fun f => eq_refl) (returns_ok _)).
  - inversion T as [|? ? Te Tl]; subst. inversion P as [|? ? Pe Pl]; subst. cbn [map] in I.
    cbn [flat_map]. rewrite <- app_assoc. cbn [app]. refine (returns_step _ _ _ (fun f => eq_refl) _).
    apply mem_step; [exact Te|exact Pe|destruct l; discriminate|destruct l; cbn; tauto|intros a A; apply O; [exact A|now left]|].
    replace (acc ++ e :: l) with ((acc ++ [e]) ++ l) by (now rewrite <- app_assoc).
    apply IH; [exact Tl|exact Pl|exact (increasing_tail _ _ I)|].
    intros a x A X. apply in_app_or in A. destruct A as [A|[<-|[]]]; [apply O; [exact A|now right]|].
    apply (increasing_head _ _ I). now apply in_map.
Qed.
Lemma parses_obj l : Forall (fun e => text (fst e) /\ printable (snd e)) l -> increasing (map fst l) -> Forall (fun e => parses (snd e)) l -> parses (JObj l).
Proof.
  intros T I P rest _. exists true. split; [reflexivity|]. cbn [toString].
  refine (returns_step _ (fun f => parse f (inobj []) ((commas (map (fun e => string_escape (fst e) ++ [ch ":"] ++ or_null (show (snd e))) l) ++ [ch "}"]) ++ rest, true)) _ (fun f => eq_refl) _).
  rewrite <- app_assoc. cbn [app].
  assert (E : map (fun e => string_escape (fst e) ++ [ch ":"] ++ or_null (show (snd e))) l = map mem l).
  { clear - T. induction T as [|x l [X1 X2] T IH]; [reflexivity|]. cbn [map]. rewrite IH, or_null_show by exact X2. reflexivity. }
  cbn [app] in E. rewrite E. clear E. destruct l as [|e l].
  - exact (returns_step _ _ _ (fun f => eq_refl) (returns_ok _)).
  - cbn [map]. rewrite commas_cons, flat_map_map, <- app_assoc.
    inversion T as [|? ? [Te _] Tl]; subst. inversion P as [|? ? Pe Pl]; subst.
    apply mem_step; [exact Te|exact Pe|destruct l; discriminate|destruct l; cbn; tauto|intros a []|].
    apply (obj_loop l) with (acc := [e]); [|exact Pl|exact (increasing_tail _ _ I)|].
    + eapply Forall_impl; [|exact Tl]. cbn. tauto.
    + intros a x [<-|[]] X. apply (increasing_head _ _ I). now apply in_map.
Qed.

Lemma parse_ok v : printable v -> parses v.
Proof.
  induction v using jv_induction; intros P; inversion P; subst.
  - intros rest R. destruct (skip_delim rest R) as (g & G & S). exists g. split; [exact G|].
    refine (returns_step _ _ _ _ (returns_ok _)). intros f. cbn [toString app]. change (bs "null") with [110; 117; 108; 108]. cbn [app].
    transitivity (Ok (JNull, skipToEnd rest) : res (jv * stream)); [reflexivity|]. now rewrite S.
  - intros rest R. destruct (skip_delim rest R) as (g & G & S). exists g. split; [exact G|].
    refine (returns_step _ _ _ _ (returns_ok _)). intros f. destruct H0 as [-> | ->]; cbn [toString Z.eqb negb app].
    + change (bs "false") with [102; 97; 108; 115; 101]. cbn [app]. transitivity (Ok (JBool 0, skipToEnd rest) : res (jv * stream)); [reflexivity|]. now rewrite S.
    + change (bs "true") with [116; 114; 117; 101]. cbn [app]. transitivity (Ok (JBool 1, skipToEnd rest) : res (jv * stream)); [reflexivity|]. now rewrite S.
  - now apply parses_int.
  - intros rest R. exists true. split; [reflexivity|]. cbn [toString]. unfold string_escape. rewrite <- !app_assoc. cbn [app].
    refine (returns_step _ _ _ (fun f => eq_refl) _).
    refine (returns_bind _ (fun x f => Ok (JStr (fst x), snd x)) _ _ (read_esc junk _ H0 rest []) (returns_ok _)).
  - apply parses_obj; [assumption|assumption|].
    match goal with F : Forall (fun e => text (fst e) /\ _) _ |- _ => clear - H F; induction F as [|e l [E1 E2] F IH]; [constructor|] end.
    inversion H; subst. constructor; [auto|now apply IH].
  - apply parses_arr; [assumption|].
    match goal with F : Forall printable _ |- _ => clear - H F; induction F as [|e l E F IH]; [constructor|] end.
    inversion H; subst. constructor; [auto|now apply IH].
Qed.
Lemma fromString_ok v : printable v -> returns (fun f => fromString junk D dint dstep dbits f (show v)) v.
Proof.
  intros P. destruct (parse_ok v P [] I) as (g & _ & R). rewrite app_nil_r in R.
  exact (returns_bind _ (fun x _ => Ok (fst x)) _ _ R (returns_ok _)).
Qed.
End RoundTrip.
