(** The receiver decodes every well sent chunk stream. *)
From Verif Require Import Common CommonFacts CommonMore Bitfields_Model Bitfields_Proofs Rtmp_Model Rtmp_Spec.
Import List.

Lemma is_basic_len : forall fmt id b, is_basic fmt id b -> 1 <= len b <= 3.
Proof. intros fmt id b H. destruct H; lens; lia. Qed.
Lemma head_at : forall b X k, 0 <= k -> len b + k < 18 -> nthz (takez 18 (b ++ X)) (len b + k) = nthz X k.
Proof.
  intros b X k Hk Hl. rewrite nthz_takez by (pose proof (len_nonneg b); lia).
  rewrite nthz_app2 by (pose proof (len_nonneg b); lia). f_equal. lia.
Qed.
Lemma fmt_cases : forall fmt, 0 <= fmt <= 3 -> fmt = 0 \/ fmt = 1 \/ fmt = 2 \/ fmt = 3.
Proof. intros. lia. Qed.
Lemma head_byte : forall fmt id b X, 0 <= fmt <= 3 -> is_basic fmt id b ->
  nthz (takez 18 (b ++ X)) 0 .& 0xC0 = fmt * 64.
Proof.
  intros fmt id b X Hf Hb.
  assert (Hs : forall y, 0 <= y < 64 -> (fmt * 64 + y) .& 0xC0 = fmt * 64).
  { intros y Hy. apply Z.eqb_eq. apply (range_sweep 64 (fun y => (fmt * 64 + y) .& 0xC0 =? fmt * 64)); [|exact Hy].
    destruct (fmt_cases _ Hf) as [-> | [-> | [-> | ->]]]; reflexivity. }
  rewrite nthz_takez by lia.
  destruct Hb; cbn [app]; rewrite nthz_0.
  - apply Hs. lia.
  - rewrite <- (Z.add_0_r (fmt * 64)) at 1. apply Hs. lia.
  - apply Hs. lia.
Qed.
Lemma read_id_ok : forall fmt id b X, 0 <= fmt <= 3 -> is_basic fmt id b ->
  read_id (takez 18 (b ++ X)) = (id, len b).
Proof.
  intros fmt id b X Hf Hb. unfold read_id.
  assert (Hs : forall y, 0 <= y < 64 -> (fmt * 64 + y) .& 0x3F = y).
  { intros y Hy. apply Z.eqb_eq. apply (range_sweep 64 (fun y => (fmt * 64 + y) .& 0x3F =? y)); [|exact Hy].
    destruct (fmt_cases _ Hf) as [-> | [-> | [-> | ->]]]; reflexivity. }
  rewrite !nthz_takez by lia.
  destruct Hb; cbn [app]; rewrite nthz_0.
  - rewrite Hs by lia. replace (id =? 0) with false by lia. replace (id =? 1) with false by lia. reflexivity.
  - rewrite <- (Z.add_0_r (fmt * 64)) at 1. rewrite Hs by lia.
    change (nthz (fmt * 64 :: id - 64 :: X) 1) with (id - 64). change (0 =? 0) with true. cbv iota. f_equal. lia.
  - rewrite !Hs by lia. change (1 =? 0) with false. change (1 =? 1) with true. cbv iota.
    change (nthz (fmt * 64 + 1 :: (id - 64) mod 256 :: (id - 64) / 256 :: X) 1) with ((id - 64) mod 256).
    change (nthz (fmt * 64 + 1 :: (id - 64) mod 256 :: (id - 64) / 256 :: X) 2) with ((id - 64) / 256).
    f_equal. lia.
Qed.

Lemma in24_ok : forall b X k v, 0 <= v < 2 ^ 24 -> 0 <= k -> len b + k + 2 < 18 ->
  nthz X k = v / 65536 mod 256 -> nthz X (k + 1) = v / 256 mod 256 -> nthz X (k + 2) = v mod 256 ->
  in24 (takez 18 (b ++ X)) (len b + k) = v.
Proof.
  intros b X k v Hv Hk Hl H0 H1 H2. unfold in24.
  replace (len b + k + 1) with (len b + (k + 1)) by lia.
  replace (len b + k + 2) with (len b + (k + 2)) by lia.
  rewrite !head_at by lia. rewrite H0, H1, H2.
  rewrite <- Z.lor_assoc. rewrite (lor_shl_add (v / 256 mod 256) (v mod 256) 8) by lia.
  rewrite lor_shl_add by lia. lia.
Qed.
Lemma be3 : forall v, be 3 v = [v / 65536 mod 256; v / 256 mod 256; v mod 256].
Proof. intros v. cbn -[Z.div Z.modulo]. rewrite Z.div_1_r. reflexivity. Qed.
Lemma le4 : forall v, le 4 v = [v mod 256; v / 256 mod 256; v / 65536 mod 256; v / 16777216 mod 256].
Proof. intros v. unfold le. cbn -[Z.div Z.modulo]. rewrite Z.div_1_r. reflexivity. Qed.
Lemma be4 : forall v, be 4 v = [v / 16777216 mod 256; v / 65536 mod 256; v / 256 mod 256; v mod 256].
Proof. intros v. cbn -[Z.div Z.modulo]. rewrite Z.div_1_r. reflexivity. Qed.

(** Header fields, format by format. *)
Lemma len_d : forall b X : list Z, len (takez 18 (b ++ X)) = Z.min 18 (len b + len X).
Proof. intros b X. rewrite len_takez_min by lia. rewrite len_app. reflexivity. Qed.
Lemma sid_ok : forall a, 0 <= a < 2 ^ 32 ->
  u32 ((a mod 256) .| ((a / 256 mod 256) << 8) .| ((a / 65536 mod 256) << 16) .| ((a / 16777216 mod 256) << 24)) = a.
Proof.
  intros a Ha. rewrite Z.lor_comm. rewrite (Z.lor_comm (a mod 256)).
  rewrite (lor_shl_add (a / 256 mod 256) (a mod 256) 8) by lia.
  rewrite (Z.lor_comm (_ + _)). rewrite (lor_shl_add (a / 65536 mod 256) _ 16) by lia.
  rewrite lor_shl_add by lia. rewrite u32_id; lia.
Qed.
Lemma read_header_0 : forall id b p t l ty sid Y,
  is_basic 0 id b -> 0 <= t < 2 ^ 24 -> 0 <= l < 2 ^ 24 -> 0 <= sid < 2 ^ 32 ->
  read_header (takez 18 (b ++ be 3 t ++ be 3 l ++ [ty] ++ le 4 sid ++ Y)) p id (len b) =
  Some (mkch id t t t l 0 ty sid [], len b + 11).
Proof.
  intros id b p t l ty sid Y Hb Ht Hl Hs. pose proof (is_basic_len _ _ _ Hb) as Hlb.
  unfold read_header. rewrite (head_byte 0 id) by (exact Hb || lia). change (0 * 64 =? 0) with true. cbv iota.
  rewrite len_d. rewrite be3, be3, le4. cbn [app].
  set (X := _ :: _). assert (HX : len X = 11 + len Y) by (unfold X; lens; lia).
  pose proof (len_nonneg Y). replace (Z.min 18 (len b + len X) <? len b + 11) with false by lia. cbv iota.
  replace (in24 _ (len b)) with t.
  2:{ rewrite <- (Z.add_0_r (len b)). symmetry. apply in24_ok; try lia; reflexivity. }
  rewrite (in24_ok b X 3 l) by (lia || reflexivity).
  rewrite !head_at by lia.
  change (nthz X 6) with ty. change (nthz X 7) with (sid mod 256). change (nthz X 8) with (sid / 256 mod 256).
  change (nthz X 9) with (sid / 65536 mod 256). change (nthz X 10) with (sid / 16777216 mod 256).
  rewrite sid_ok by lia. reflexivity.
Qed.
Lemma read_header_1 : forall id b p t l ty Y,
  is_basic 1 id b -> 0 <= t < 0xffffff -> 0 <= l < 2 ^ 24 -> 0 <= ts p -> ts p + t < 2 ^ 64 ->
  read_header (takez 18 (b ++ be 3 t ++ be 3 l ++ [ty] ++ Y)) p id (len b) =
  Some (mkch id (ts p + t) t t l 0 ty (msid p) [], len b + 7).
Proof.
  intros id b p t l ty Y Hb Ht Hl Hp Hs. pose proof (is_basic_len _ _ _ Hb) as Hlb.
  unfold read_header. rewrite (head_byte 1 id) by (exact Hb || lia). change (1 * 64) with 64.
  change (64 =? 0) with false. change (64 =? 0x40) with true. cbv iota.
  rewrite len_d. rewrite be3, be3. cbn [app].
  set (X := _ :: _). assert (HX : len X = 7 + len Y) by (unfold X; lens; lia).
  pose proof (len_nonneg Y). replace (Z.min 18 (len b + len X) <? len b + 7) with false by lia. cbv iota.
  replace (in24 _ (len b)) with t.
  2:{ rewrite <- (Z.add_0_r (len b)). symmetry. apply in24_ok; try lia; reflexivity. }
  rewrite (in24_ok b X 3 l) by (lia || reflexivity).
  rewrite !head_at by lia. change (nthz X 6) with ty.
  replace (t =? 0xffffff) with false by lia. cbv iota. rewrite u64_id by lia. reflexivity.
Qed.
Lemma read_header_2 : forall id b p t Y,
  is_basic 2 id b -> 0 <= t < 0xffffff -> 0 <= ts p -> ts p + t < 2 ^ 64 ->
  read_header (takez 18 (b ++ be 3 t ++ Y)) p id (len b) =
  Some (mkch id (ts p + t) t t (mlen p) (left p) (mtype p) (msid p) [], len b + 3).
Proof.
  intros id b p t Y Hb Ht Hp Hs. pose proof (is_basic_len _ _ _ Hb) as Hlb.
  unfold read_header. rewrite (head_byte 2 id) by (exact Hb || lia). change (2 * 64) with 128.
  change (128 =? 0) with false. change (128 =? 0x40) with false. change (128 =? 0x80) with true. cbv iota.
  rewrite len_d. rewrite be3. cbn [app].
  set (X := _ :: _). assert (HX : len X = 3 + len Y) by (unfold X; lens; lia).
  pose proof (len_nonneg Y). replace (Z.min 18 (len b + len X) <? len b + 3) with false by lia. cbv iota.
  replace (in24 _ (len b)) with t.
  2:{ rewrite <- (Z.add_0_r (len b)). symmetry. apply in24_ok; try lia; reflexivity. }
  replace (t =? 0xffffff) with false by lia. cbv iota. rewrite u64_id by lia. reflexivity.
Qed.
Lemma read_header_3 : forall id b p Y, is_basic 3 id b ->
  read_header (takez 18 (b ++ Y)) p id (len b) =
  Some (mkch id (if 0 <? left p then ts p else u64 (ts p + delta p)) (delta p) (tsh p) (mlen p) (left p) (mtype p) (msid p) [], len b).
Proof.
  intros id b p Y Hb. unfold read_header. rewrite (head_byte 3 id) by (exact Hb || lia). reflexivity.
Qed.
Lemma read_ext_ok : forall b H t Y p, len b + len H + 4 <= 18 -> 0 <= t < 2 ^ 31 ->
  read_ext (takez 18 (b ++ H ++ be 4 t ++ Y)) p (len b + len H) = (t, t).
Proof.
  intros b H t Y p Hl Ht. unfold read_ext. rewrite be4.
  assert (Hn : forall k, 0 <= k < 4 -> nthz (takez 18 (b ++ H ++ [t / 16777216 mod 256; t / 65536 mod 256; t / 256 mod 256; t mod 256] ++ Y)) (len b + len H + k) =
     nthz [t / 16777216 mod 256; t / 65536 mod 256; t / 256 mod 256; t mod 256] k).
  { intros k Hk. rewrite <- Z.add_assoc. pose proof (len_nonneg H). rewrite head_at by lia.
    rewrite nthz_app2 by lia. replace (len H + k - len H) with k by lia. apply nthz_app1. lens. lia. }
  replace (nthz _ (len b + len H)) with (t / 16777216 mod 256).
  2:{ rewrite <- (Z.add_0_r (len b + len H)). rewrite Hn by lia. reflexivity. }
  rewrite !Hn by lia.
  replace (nthz [t / 16777216 mod 256; t / 65536 mod 256; t / 256 mod 256; t mod 256] 1) with (t / 65536 mod 256) by reflexivity.
  replace (nthz [t / 16777216 mod 256; t / 65536 mod 256; t / 256 mod 256; t mod 256] 2) with (t / 256 mod 256) by reflexivity.
  replace (nthz [t / 16777216 mod 256; t / 65536 mod 256; t / 256 mod 256; t mod 256] 3) with (t mod 256) by reflexivity.
  assert (Ht2 : u64 (s32 ((t / 16777216 mod 256) << 24)) = (t / 16777216) << 24).
  { rewrite (Z.mod_small (t / 16777216) 256) by lia. rewrite shl_mul by lia.
    unfold s32. cbv zeta. unfold u32. change (2 ^ 24) with 16777216.
    rewrite (Z.mod_small (t / 16777216 * 16777216) 4294967296) by lia.
    replace (t / 16777216 * 16777216 <? 2147483648) with true by lia. rewrite u64_id by lia. reflexivity. }
  rewrite Ht2. rewrite <- !Z.lor_assoc.
  rewrite (lor_shl_add (t / 256 mod 256) (t mod 256) 8) by lia.
  rewrite (lor_shl_add (t / 65536 mod 256) _ 16) by lia.
  rewrite lor_shl_add by lia.
  replace (t / 16777216 * 2 ^ 24 + (t / 65536 mod 256 * 2 ^ 16 + (t / 256 mod 256 * 2 ^ 8 + t mod 256))) with t by lia.
  replace (0xFFFF8000 <? t) with false by lia. cbn [andb]. cbv iota. rewrite u32_id by lia. reflexivity.
Qed.

Definition mk (c0 : chunk) (id tm dl lft : Z) (data : list Z) : chunk :=
  mkch id tm dl (tsh c0) (mlen c0) lft (mtype c0) (msid c0) data.
Lemma parse_chunk_ok : forall maxc st fmt id b H ext pl more c0 tm dl,
  0 <= fmt <= 3 -> is_basic fmt id b -> 0 < maxc ->
  3 <= len (b ++ H ++ ext ++ pl ++ more) ->
  read_header (takez 18 (b ++ H ++ ext ++ pl ++ more)) (st id) id (len b) = Some (c0, len b + len H) ->
  (tsh c0 = 0xffffff /\ (exists t, 0 <= t < 2 ^ 31 /\ ext = be 4 t /\ tm = t /\ dl = t) /\ len H <= 11 \/
   tsh c0 <> 0xffffff /\ ext = [] /\ tm = ts c0 /\ dl = delta c0) ->
  0 <= left c0 < 2 ^ 24 -> 0 <= mlen c0 < 2 ^ 24 ->
  let real := if 0 <? left c0 then left c0 else mlen c0 in
  len pl = Z.min real maxc -> (left (st id) <> 0 -> real <> 0) ->
  let data := (if left (st id) =? 0 then [] else cdata (st id)) ++ pl in
  if real <=? maxc then
    exists pd, parse_chunk maxc st (b ++ H ++ ext ++ pl ++ more) = Done (mk c0 id tm dl 0 data) (upd st id (mk c0 id tm dl 0 pd)) more
  else parse_chunk maxc st (b ++ H ++ ext ++ pl ++ more) = More (upd st id (mk c0 id tm dl (real - maxc) data)) more.
Proof.
  intros maxc st fmt id b H ext pl more c0 tm dl Hf Hb Hm H3 Hr Hx Hl1 Hl2 real Hpl Hrl data.
  pose proof (is_basic_len _ _ _ Hb) as Hlb. pose proof (len_nonneg H) as HlH. pose proof (len_nonneg pl) as Hlp.
  pose proof (len_nonneg more) as Hlm. pose proof (len_nonneg ext) as Hle.
  assert (Hreal : 0 <= real < 2 ^ 24) by (unfold real; destruct (0 <? left c0); lia).
  set (buf := b ++ H ++ ext ++ pl ++ more) in *.
  assert (Hlen : len buf = len b + len H + len ext + len pl + len more) by (unfold buf; lens; lia).
  assert (Hd : dropz (len b + len H + len ext) buf = pl ++ more).
  { unfold buf. rewrite !app_assoc. rewrite <- app_assoc. apply dropz_app_exact. lens. lia. }
  assert (Hd2 : forall i, i = len b + len H + len ext + len pl -> dropz i buf = more).
  { intros i ->. rewrite (Z.add_comm _ (len pl)). rewrite <- dropz_dropz by lia. rewrite Hd. apply dropz_app_exact. reflexivity. }
  assert (Ht : takez (len pl) (pl ++ more) = pl) by (apply takez_app_exact; reflexivity).
  assert (Hid : read_id (takez 18 buf) = (id, len b)) by (exact (read_id_ok fmt id b _ Hf Hb)).
  unfold parse_chunk. rewrite Hid, Hr.
  assert (Hn : len (takez 18 buf) = Z.min 18 (len buf)) by (rewrite len_takez_min by lia; reflexivity).
  rewrite Hn. replace (Z.min 18 (len buf) <? 3) with false by lia. cbv iota beta zeta. fold real.
  set (rl := if maxc <? real then _ else _).
  assert (Erl : rl = (len pl, real - len pl)).
  { unfold rl. destruct (Z.ltb_spec maxc real).
    - rewrite u32_id by lia. f_equal; lia.
    - f_equal; lia. }
  rewrite Erl. clear rl Erl.
  assert (Hext : (tsh c0 =? 0xffffff) && (Z.min 18 (len buf) <? len b + len H + 4) = false /\
     (if tsh c0 =? 0xffffff then let '(t, d) := read_ext (takez 18 buf) (st id) (len b + len H) in (t, d, len b + len H + 4)
      else (ts c0, delta c0, len b + len H)) = (tm, dl, len b + len H + len ext)).
  { destruct Hx as [(E & (t & Ht1 & Ht2 & -> & ->) & HH)|(E & -> & -> & ->)].
    - rewrite E. change (0xffffff =? 0xffffff) with true. cbv iota. cbn [andb].
      assert (El : len ext = 4) by (rewrite Ht2; reflexivity).
      split; [lia|]. unfold buf. rewrite Ht2. rewrite read_ext_ok by lia. rewrite <- Ht2, El. reflexivity.
    - replace (tsh c0 =? 0xffffff) with false by lia. cbn [andb]. split; [reflexivity|]. rewrite Z.add_0_r. reflexivity. }
  destruct Hext as [He1 He2]. rewrite He1. cbv iota. cbv zeta in He2. rewrite He2. cbv iota beta zeta.
  replace (len buf <? len b + len H + len ext + len pl) with false by lia. cbv iota.
  rewrite Hd, Ht. rewrite (Hd2 _ eq_refl).
  assert (Epl : (len pl =? 0) = (real =? 0)) by lia.
  assert (Edata : (if len pl =? 0 then [] else (if negb (len pl =? 0) && negb (left (st id) =? 0) then cdata (st id) else []) ++ pl) = data).
  { unfold data. rewrite Epl. destruct (Z.eqb_spec real 0) as [Er|Er].
    - destruct (Z.eqb_spec (left (st id)) 0) as [_|E]; [|contradiction (Hrl E)].
      assert (len pl = 0) as E0 by lia. destruct pl; [reflexivity|]. revert E0. lens. pose proof (len_nonneg pl). lia.
    - cbn [negb andb]. destruct (left (st id) =? 0); reflexivity. }
  rewrite Edata.
  destruct (Z.leb_spec real maxc).
  - replace (real - len pl =? 0) with true by lia. cbv iota. rewrite orb_true_r. cbv iota.
    eexists. replace (real - len pl) with 0 by lia. reflexivity.
  - replace (real - len pl =? 0) with false by lia. cbv iota.
    replace (len pl =? 0) with false by lia. cbn [orb]. cbv iota. replace (real - len pl) with (real - maxc) by lia. reflexivity.
Qed.

(** What the receiver knows about a chunk stream between messages and inside one. *)
Definition idle (h : history) (r : chunk) : Prop :=
  left r = 0 /\
  match h with
  | None => True
  | Some (p, d, x) =>
    ts r = m_ts p /\ delta r = d /\ (tsh r = 0xffffff <-> x = true) /\ mlen r = len (m_data p) /\
    mtype r = m_type p /\ msid r = m_sid p /\ valid_msg p
  end.
Definition inside (m : msg) (d : Z) (x : bool) (rest : list Z) (r : chunk) : Prop :=
  rest <> [] /\ left r = len rest /\ cdata r ++ rest = m_data m /\ valid_msg m /\
  ts r = m_ts m /\ delta r = d /\ (tsh r = 0xffffff <-> x = true) /\ mlen r = len (m_data m) /\
  mtype r = m_type m /\ msid r = m_sid m /\ (x = true -> d = m_ts m).
Definition elsewhere (id : Z) (st st' : Z -> chunk) : Prop := forall j, j <> id -> st' j = st j.
Lemma upd_same : forall st id c, upd st id c id = c.
Proof. intros. unfold upd. rewrite Z.eqb_refl. reflexivity. Qed.
Lemma upd_elsewhere : forall st id c, elsewhere id st (upd st id c).
Proof. intros st id c j Hj. unfold upd. apply Z.eqb_neq in Hj. rewrite Hj. reflexivity. Qed.

(** One chunk: the receiver ends in [k] for the payload [d] sent with chunk size [n]. *)
Definition step_ok (id n : Z) (m : msg) (dl : Z) (x : bool) (d : list Z) (st : Z -> chunk) (bytes more : list Z) : Prop :=
  if len d <=? n then
    exists c st', parse_chunk n st (bytes ++ more) = Done c st' more /\ to_msg c = m /\
      elsewhere id st st' /\ idle (Some (m, dl, x)) (st' id)
  else exists st', parse_chunk n st (bytes ++ more) = More st' more /\ elsewhere id st st' /\ inside m dl x (dropz n d) (st' id).

Ltac conjs := repeat match goal with |- _ /\ _ => split end.
Lemma takez_min : forall {A} n (l : list A), 0 <= n -> len (takez n l) = Z.min (len l) n.
Proof. intros A n l H. rewrite len_takez_min by lia. lia. Qed.
Lemma first_chunk : forall id h m fmt d x hb n b st more,
  m_cs m = id -> valid_msg m -> header h m fmt d x hb -> is_basic fmt id b -> 0 < n -> idle h (st id) ->
  3 <= len ((b ++ hb ++ takez n (m_data m)) ++ more) ->
  step_ok id n m d x (m_data m) st (b ++ hb ++ takez n (m_data m)) more.
Proof.
  intros id h m fmt d x hb n b st more Hid Hv Hh Hb Hn Hi H3.
  pose proof Hv as (Hcs & Hts & Hty & Hsid & Hlen & _).
  pose proof (len_nonneg (m_data m)) as Hl0.
  destruct Hi as [Hleft Hi].
  (* common part: a header [H], an extension and the fields read from them *)
  assert (Hcommon : forall H ext c0, 0 <= fmt <= 3 -> hb = H ++ ext ->
    read_header (takez 18 (b ++ H ++ ext ++ takez n (m_data m) ++ more)) (st id) id (len b) = Some (c0, len b + len H) ->
    left c0 = 0 -> mlen c0 = len (m_data m) -> mtype c0 = m_type m -> msid c0 = m_sid m ->
    (tsh c0 = 0xffffff <-> x = true) -> 
    (x = true /\ ext = be 4 (m_ts m) /\ d = m_ts m /\ len H <= 11 \/ x = false /\ ext = [] /\ ts c0 = m_ts m /\ delta c0 = d) ->
    step_ok id n m d x (m_data m) st (b ++ hb ++ takez n (m_data m)) more).
  { intros H ext c0 Hf -> Hr E1 E2 E3 E4 E5 E6. unfold step_ok.
    rewrite <- !app_assoc in *.
    pose proof (parse_chunk_ok n st fmt id b H ext (takez n (m_data m)) more c0 (m_ts m) d Hf Hb Hn H3 Hr) as Hp.
    rewrite E1 in Hp. change (0 <? 0) with false in Hp. cbv iota zeta in Hp. rewrite E2 in Hp. rewrite Hleft in Hp.
    change (0 =? 0) with true in Hp. cbv iota in Hp. cbn [app] in Hp.
    assert (Hp2 : if len (m_data m) <=? n then
      exists pd, parse_chunk n st (b ++ H ++ ext ++ takez n (m_data m) ++ more) =
        Done (mk c0 id (m_ts m) d 0 (takez n (m_data m))) (upd st id (mk c0 id (m_ts m) d 0 pd)) more
      else parse_chunk n st (b ++ H ++ ext ++ takez n (m_data m) ++ more) =
        More (upd st id (mk c0 id (m_ts m) d (len (m_data m) - n) (takez n (m_data m)))) more).
    { apply Hp.
      - destruct E6 as [(X1 & X2 & X3 & X4)|(X1 & X2 & X3 & X4)].
        + left. split; [apply E5; exact X1|]. split; [|exact X4]. exists (m_ts m). repeat split; try assumption; lia.
        + right. split; [intros X; apply E5 in X; congruence|]. repeat split; congruence.
      - lia.
      - lia.
      - apply takez_min. lia.
      - congruence. }
    destruct (Z.leb_spec (len (m_data m)) n).
    - destruct Hp2 as [pd ->]. eexists. eexists. split; [reflexivity|]. split; [|split].
      + unfold to_msg, mk. cbn [cs ts mtype msid cdata]. rewrite E3, E4, takez_all by lia. rewrite <- Hid. destruct m; reflexivity.
      + apply upd_elsewhere.
      + rewrite upd_same. unfold idle, mk. cbn [left ts delta tsh mlen mtype msid]. conjs; try assumption; congruence.
    - rewrite Hp2. eexists. split; [reflexivity|]. split; [apply upd_elsewhere|].
      rewrite upd_same. unfold inside, mk. cbn [left ts delta tsh mlen mtype msid cdata].
      assert (Hdl : len (dropz n (m_data m)) = len (m_data m) - n) by (rewrite len_dropz; lia).
      conjs; try assumption; try congruence.
      + intros X. rewrite X in Hdl. revert Hdl. lnil. lia.
      + apply takez_dropz.
      + intros X. destruct E6 as [(_ & _ & X3 & _)|(X1 & _)]; [exact X3|congruence]. }
  destruct Hh as [h m|p dp xp m Hs Ht|p dp xp m Hs Ht Hl Hy|p dp m Hs Ht Hl Hy].
  - eapply (Hcommon (be 3 (Z.min (m_ts m) 0xffffff) ++ be 3 (len (m_data m)) ++ [m_type m] ++ le 4 (m_sid m)) (ext_bytes m)).
    + lia.
    + rewrite <- !app_assoc. reflexivity.
    + rewrite <- !app_assoc. rewrite read_header_0; try assumption; try lia. reflexivity.
    + reflexivity.
    + reflexivity.
    + reflexivity.
    + reflexivity.
    + cbn [tsh]. unfold extended. lia.
    + unfold ext_bytes. destruct (extended m) eqn:Ex; unfold extended in Ex.
      * left. repeat split. rewrite be3, be3, le4. lens. lia.
      * right. cbn [ts delta]. repeat split; lia.
  - destruct Hi as (I1 & I2 & I3 & I4 & I5 & I6 & I7). pose proof I7 as (_ & Hpt & _ & _ & Hpl & _). eapply (Hcommon (be 3 (m_ts m - m_ts p) ++ be 3 (len (m_data m)) ++ [m_type m]) []).
    + lia.
    + rewrite app_nil_r. reflexivity.
    + cbn [app]. rewrite <- !app_assoc. rewrite read_header_1; try assumption; try lia. reflexivity.
    + reflexivity.
    + reflexivity.
    + reflexivity.
    + cbn [msid]. congruence.
    + cbn [tsh]. split; [lia|discriminate].
    + right. cbn [ts delta]. repeat split; lia.
  - destruct Hi as (I1 & I2 & I3 & I4 & I5 & I6 & I7). pose proof I7 as (_ & Hpt & _ & _ & Hpl & _). eapply (Hcommon (be 3 (m_ts m - m_ts p)) []).
    + lia.
    + rewrite app_nil_r. reflexivity.
    + cbn [app]. rewrite read_header_2; try assumption; try lia. reflexivity.
    + cbn [left]. exact Hleft.
    + cbn [mlen]. congruence.
    + cbn [mtype]. congruence.
    + cbn [msid]. congruence.
    + cbn [tsh]. split; [lia|discriminate].
    + right. cbn [ts delta]. repeat split; lia.
  - destruct Hi as (I1 & I2 & I3 & I4 & I5 & I6 & I7). eapply (Hcommon [] []).
    + lia.
    + reflexivity.
    + cbn [app]. rewrite read_header_3; try assumption; try lia. rewrite Z.add_0_r. reflexivity.
    + cbn [left]. exact Hleft.
    + cbn [mlen]. congruence.
    + cbn [mtype]. congruence.
    + cbn [msid]. congruence.
    + cbn [tsh]. exact I3.
    + right. cbn [ts delta]. rewrite Hleft, I1, I2. change (0 <? 0) with false. cbv iota. rewrite u64_id by lia. repeat split; lia.
Qed.
Lemma next_chunk : forall id m dl x rest n b st more,
  m_cs m = id -> is_basic 3 id b -> 0 < n -> inside m dl x rest (st id) ->
  let ext := if x then ext_bytes m else [] in
  (x = true -> extended m = true) ->
  3 <= len ((b ++ ext ++ takez n rest) ++ more) ->
  step_ok id n m dl x rest st (b ++ ext ++ takez n rest) more.
Proof.
  intros id m dl x rest n b st more Hid Hb Hn (I0 & I1 & I2 & I3 & I4 & I5 & I6 & I7 & I8 & I9 & I10) ext Hx H3.
  pose proof I3 as (Hcs & Hts & Hty & Hsid & Hlen & _).
  assert (Hr0 : 0 < len rest) by (destruct rest; [congruence|lens; pose proof (len_nonneg rest); lia]).
  assert (Hrl : len rest <= len (m_data m)) by (rewrite <- I2; lens; pose proof (len_nonneg (cdata (st id))); lia).
  unfold step_ok. rewrite <- !app_assoc in *.
  set (c0 := mkch id (if 0 <? left (st id) then ts (st id) else u64 (ts (st id) + delta (st id))) (delta (st id)) (tsh (st id)) (mlen (st id)) (left (st id)) (mtype (st id)) (msid (st id)) []).
  pose proof (parse_chunk_ok n st 3 id b [] ext (takez n rest) more c0 (m_ts m) dl ltac:(lia) Hb Hn) as Hp.
  cbn [app] in Hp. specialize (Hp H3).
  rewrite read_header_3 in Hp by exact Hb. rewrite Z.add_0_r in Hp. specialize (Hp eq_refl).
  change (left c0) with (left (st id)) in Hp. change (mlen c0) with (mlen (st id)) in Hp. change (tsh c0) with (tsh (st id)) in Hp.
  rewrite I1 in Hp. replace (0 <? len rest) with true in Hp by lia. replace (len rest =? 0) with false in Hp by lia. cbv iota zeta in Hp.
  assert (Hp2 : if len rest <=? n then
      exists pd, parse_chunk n st (b ++ ext ++ takez n rest ++ more) =
        Done (mk c0 id (m_ts m) dl 0 (cdata (st id) ++ takez n rest)) (upd st id (mk c0 id (m_ts m) dl 0 pd)) more
      else parse_chunk n st (b ++ ext ++ takez n rest ++ more) =
        More (upd st id (mk c0 id (m_ts m) dl (len rest - n) (cdata (st id) ++ takez n rest))) more).
  { apply Hp.
    - destruct x.
      + left. split; [apply I6; reflexivity|]. split; [|lnil; lia]. exists (m_ts m). unfold ext, ext_bytes. rewrite Hx by reflexivity.
        repeat split; lia.
      + right. split; [intros X; apply I6 in X; congruence|]. unfold ext, c0. cbn [ts delta]. rewrite I1. replace (0 <? len rest) with true by lia.
        repeat split; congruence.
    - lia.
    - lia.
    - apply takez_min. lia.
    - lia. }
  assert (E3 : mtype c0 = m_type m) by (unfold c0; cbn [mtype]; exact I8).
  assert (E4 : msid c0 = m_sid m) by (unfold c0; cbn [msid]; exact I9).
  destruct (Z.leb_spec (len rest) n).
  - destruct Hp2 as [pd ->]. eexists. eexists. split; [reflexivity|]. split; [|split].
    + unfold to_msg, mk. cbn [cs ts mtype msid cdata]. rewrite E3, E4, takez_all by lia. rewrite I2. rewrite <- Hid. destruct m; reflexivity.
    + apply upd_elsewhere.
    + rewrite upd_same. unfold idle, mk. cbn [left ts delta tsh mlen mtype msid]. unfold c0. cbn [tsh mlen mtype msid]. conjs; try assumption; congruence.
  - rewrite Hp2. eexists. split; [reflexivity|]. split; [apply upd_elsewhere|].
    rewrite upd_same. unfold inside, mk. cbn [left ts delta tsh mlen mtype msid cdata]. unfold c0. cbn [tsh mlen mtype msid].
    assert (Hdl : len (dropz n rest) = len rest - n) by (rewrite len_dropz; lia).
    conjs; try assumption; try congruence.
    + intros X. rewrite X in Hdl. revert Hdl. lnil. lia.
    + rewrite <- app_assoc, takez_dropz. exact I2.
Qed.
