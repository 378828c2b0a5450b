(** Proofs about the tables that are written. *)
From Verif Require Import Common CommonFacts CommonMore Mem_Model Crc_Model Crc_Spec Crc_Proofs Crc_Props Ts_Model Ts_Spec Ts_Proofs Outcome_Model Psi_Model Psi_Spec Psi_Proofs.
From Verif Require Mp4_Proofs.
Import List.
Ltac Zify.zify_post_hook ::= Z.div_mod_to_equations.

Lemma put_at (a x c y : list Z) i : i = len a -> len x = len y -> put (a ++ x ++ c) i y = Ok (a ++ y ++ c).
Proof. intros. unfold put. rewrite Mp4_Proofs.poke_at by assumption. reflexivity. Qed.
(** Writing at a number. *)
Fixpoint upd (b : list Z) (k : nat) (ys : list Z) : list Z :=
  match b with [] => [] | x :: b' => match k with S k => x :: upd b' k ys | O => match ys with [] => b | y :: ys => y :: upd b' O ys end end end.
Lemma upd_split a x c y : len x = len y -> upd (a ++ x ++ c) (List.length a) y = a ++ y ++ c.
Proof.
  intros H. induction a as [| z a IH]; cbn [app List.length upd]; [| now f_equal]. revert y H. induction x as [| u x IH]; intros y H; destruct y as [| v y]; cbn [app].
  - destruct c; reflexivity.
  - rewrite len_cons in H. pose proof (len_nonneg y). change (len (@nil Z)) with 0 in H. lia.
  - rewrite len_cons in H. pose proof (len_nonneg x). change (len (@nil Z)) with 0 in H. lia.
  - cbn [upd]. f_equal. apply IH. rewrite !len_cons in H. lia.
Qed.
Lemma split3 (b : list Z) i n : 0 <= i -> 0 <= n -> i + n <= len b -> b = takez i b ++ takez n (dropz i b) ++ dropz (n + i) b /\ len (takez i b) = i /\ len (takez n (dropz i b)) = n.
Proof. intros I N L. rewrite <- (dropz_dropz n i) by lia. rewrite !takez_dropz. split; [reflexivity |]. rewrite (len_takez i) by lia. split; [lia |]. pose proof (len_dropz i b). rewrite len_takez by lia. lia. Qed.
Lemma split_ex (b : list Z) i n : 0 <= i -> 0 <= n -> i + n <= len b -> exists a x c, b = a ++ x ++ c /\ len a = i /\ len x = n.
Proof. intros I N L. destruct (split3 b i n I N L) as (E & L1 & L2). do 3 eexists. split; [exact E | split; assumption]. Qed.
Lemma put_upd b i ys : 0 <= i -> i + len ys <= len b -> put b i ys = Ok (upd b (Z.to_nat i) ys).
Proof.
  intros I L. pose proof (len_nonneg ys). destruct (split_ex b i (len ys) I H L) as (a & x & c & -> & L1 & L2).
  rewrite put_at by (assumption || (symmetry; assumption)). replace (Z.to_nat i) with (List.length a) by (unfold len in L1; lia). now rewrite upd_split.
Qed.
Lemma wr_upd b i v : 0 <= i < len b -> wr b i v = upd b (Z.to_nat i) [v].
Proof.
  intros I. destruct (split_ex b i 1 ltac:(lia) ltac:(lia) ltac:(lia)) as (a & x & c & -> & L1 & L2). unfold wr. rewrite Mp4_Proofs.splice_at by ((rewrite L2; reflexivity) || (symmetry; assumption)).
  replace (Z.to_nat i) with (List.length a) by (unfold len in L1; lia). now rewrite upd_split by (rewrite L2; reflexivity).
Qed.

Definition hdr (y z cc : Z) (r : list Z) : list Z := 71 :: y :: z :: 16 + cc :: 0 :: r.
Lemma hdr_len y z cc r : len (hdr y z cc r) = 5 + len r.
Proof. unfold hdr. rewrite !len_cons. lia. Qed.
Lemma af_hdr y z cc r : 0 <= cc < 16 -> getAdaptationField (hdr y z cc r) = 1.
Proof. intros H. unfold getAdaptationField. change (nthz (hdr y z cc r) 3) with (16 + cc). rewrite b_30 by (unfold byteP; lia). lia. Qed.
Lemma table_hdr y z cc r : 0 <= cc < 16 -> table (hdr y z cc r) = Ok 4.
Proof.
  intros H. unfold table, payload_start. rewrite af_hdr by exact H. change (1 <? 1) with false. change (4 + 0) with 4.
  rewrite getb_ok by (rewrite hdr_len; pose proof (len_nonneg r); lia). reflexivity.
Qed.
Lemma nthz_hdr y z cc r k : 0 <= k -> nthz (hdr y z cc r) (5 + k) = nthz r k.
Proof. intros H. change (hdr y z cc r) with ([71; y; z; 16 + cc; 0] ++ r). rewrite nthz_app2 by (change (len [71; y; z; 16 + cc; 0]) with 5; lia). f_equal. change (len [71; y; z; 16 + cc; 0]) with 5. lia. Qed.
Lemma upd_hdr y z cc r k ys : 0 <= k -> upd (hdr y z cc r) (Z.to_nat (5 + k)) ys = hdr y z cc (upd r (Z.to_nat k) ys).
Proof. intros H. replace (Z.to_nat (5 + k)) with (S (S (S (S (S (Z.to_nat k)))))) by lia. reflexivity. Qed.
Lemma set1_hdr y z cc r k f : 0 <= cc < 16 -> 0 <= k < len r -> set1 (hdr y z cc r) (k + 1) f = Ok (hdr y z cc (upd r (Z.to_nat k) [u8 (f (nthz r k))])).
Proof.
  intros C K. unfold set1. rewrite table_hdr by exact C. replace (4 + (k + 1)) with (5 + k) by lia. rewrite getb_ok by (rewrite hdr_len; lia). rewrite nthz_hdr by lia.
  rewrite put_upd by (rewrite ?hdr_len; change (len [u8 (f (nthz r k))]) with 1; lia). now rewrite upd_hdr by lia.
Qed.
Lemma set2_hdr y z cc r k v : 0 <= cc < 16 -> 0 <= k -> k + 2 <= len r -> set2 (hdr y z cc r) (k + 1) v = Ok (hdr y z cc (upd r (Z.to_nat k) (be 2 v))).
Proof.
  intros C K L. unfold set2. rewrite table_hdr by exact C. replace (4 + (k + 1)) with (5 + k) by lia.
  rewrite put_upd by (rewrite ?hdr_len, ?be_len; lia). now rewrite upd_hdr by lia.
Qed.
Lemma setpid_hdr y z cc r pid y' : byteP y -> 0 <= pid < 8192 -> y' = y / 32 * 32 + pid / 256 -> b_setPID (hdr y z cc r) pid = hdr y' (pid mod 256) cc r.
Proof.
  intros B P ->. unfold b_setPID, setPID. cbn [pbuf ppos]. unfold updPos. cbn [ppos]. change (188 <? 2) with false. cbn [pbuf].
  pose proof (len_nonneg r). rewrite (wr_upd (hdr y z cc r) 1) by (rewrite hdr_len; lia). change (Z.to_nat 1) with 1%nat. unfold hdr at 1 2. cbn [upd]. change (upd (z :: 16 + cc :: 0 :: r) 0 []) with (z :: 16 + cc :: 0 :: r).
  rewrite wr_upd by (rewrite !len_cons; lia). change (Z.to_nat 2) with 2%nat. cbn [upd]. change (upd (16 + cc :: 0 :: r) 0 []) with (16 + cc :: 0 :: r). unfold hdr. f_equal. f_equal.
  - change (nthz (71 :: y :: z :: 16 + cc :: 0 :: r) 1) with y. unfold byteP in B. change 224 with (Z.shiftl 7 5). f_equal.
    + apply Z.bits_inj'. intros n N. rewrite Z.land_spec. change (Z.shiftl 7 5) with 224. replace (y / 32 * 32) with (Z.shiftl (Z.shiftr y 5) 5) by (rewrite Z.shiftl_mul_pow2, Z.shiftr_div_pow2 by lia; reflexivity).
      destruct (Z.lt_ge_cases n 5). { rewrite Z.shiftl_spec_low by lia. assert (n = 0 \/ n = 1 \/ n = 2 \/ n = 3 \/ n = 4) as [-> | [-> | [-> | [-> | ->]]]] by lia; apply andb_false_r. }
      rewrite Z.shiftl_spec_high by lia. rewrite Z.shiftr_spec by lia. replace (n - 5 + 5) with n by lia.
      destruct (Z.lt_ge_cases n 8). { assert (n = 5 \/ n = 6 \/ n = 7) as [-> | [-> | ->]] by lia; apply andb_true_r. }
      replace (Z.testbit y n) with false; [reflexivity |]. symmetry. destruct (Z.eq_dec y 0) as [-> | Y]; [apply Z.bits_0 |]. apply Z.bits_above_log2; [lia |]. apply (Z.lt_le_trans _ 8); [apply Z.log2_lt_pow2; [lia | change (2 ^ 8) with 256; lia] | assumption].
    + rewrite Z.shiftr_land. change (Z.shiftr 7936 8) with 31. rewrite land_31, Z.shiftr_div_pow2 by lia. change (2 ^ 8) with 256. lia.
  - f_equal. apply land_255.
Qed.
Lemma setcc_hdr y z cc r c : 0 <= cc < 16 -> b_setCC (hdr y z cc r) c = hdr y z (c mod 16) r.
Proof.
  intros H. unfold b_setCC, setContinuityCounter. cbn [pbuf ppos]. unfold updPos. cbn [ppos]. change (188 <? 3) with false. cbn [pbuf]. pose proof (len_nonneg r). rewrite wr_upd by (rewrite hdr_len; lia).
  change (Z.to_nat 3) with 3%nat. unfold hdr at 1. cbn [upd]. change (upd (0 :: r) 0 []) with (0 :: r). unfold hdr. do 3 f_equal. f_equal. change (nthz (71 :: y :: z :: 16 + cc :: 0 :: r) 3) with (16 + cc).
  replace ((16 + cc) .& 240) with 16. - rewrite land_15. pose proof (lor_add 1 (c mod 16) 4) as X. change (1 * 2 ^ 4) with 16 in X. change (2 ^ 4) with 16 in X. apply X; lia.
  - assert (cc = 0 \/ cc = 1 \/ cc = 2 \/ cc = 3 \/ cc = 4 \/ cc = 5 \/ cc = 6 \/ cc = 7 \/ cc = 8 \/ cc = 9 \/ cc = 10 \/ cc = 11 \/ cc = 12 \/ cc = 13 \/ cc = 14 \/ cc = 15) as X by lia. repeat destruct X as [-> | X]; try reflexivity. subst. reflexivity.
Qed.

(** ** Entries. *)
Lemma two_bytes n hi m : 0 <= n < hi * 256 -> (hi = 16 /\ m = 240 \/ hi = 32 /\ m = 224) -> [((n >> 8) .& (hi - 1)) .| m; n .& 255] = be 2 (m * 256 + n).
Proof.
  intros N H. rewrite be2, land_255, (shr_div n 8) by lia. change (2 ^ 8) with 256. f_equal; [| f_equal; lia].
  destruct H as [(-> & ->) | (-> & ->)]; cbn [Z.sub]; [change (16 - 1) with 15; rewrite land_15 | change (32 - 1) with 31; rewrite land_31]; rewrite Z.lor_comm.
  - pose proof (lor_add 15 (n / 256 mod 16) 4) as X. change (15 * 2 ^ 4) with 240 in X. change (2 ^ 4) with 16 in X. rewrite X by lia. lia.
  - pose proof (lor_add 7 (n / 256 mod 32) 5) as X. change (7 * 2 ^ 5) with 224 in X. change (2 ^ 5) with 32 in X. rewrite X by lia. lia.
Qed.
Lemma info_bytes n : 0 <= n < 4096 -> [((n >> 8) .& 15) .| 240; n .& 255] = be 2 (0xF000 + n).
Proof. intros H. apply (two_bytes n 16 240); [lia | now left]. Qed.
Lemma pid_bytes n : 0 <= n < 8192 -> [((n >> 8) .& 31) .| 224; n .& 255] = be 2 (0xE000 + n).
Proof. intros H. apply (two_bytes n 32 224); [lia | now right]. Qed.
Lemma be2_eq x y n : 0 <= y < 256 -> [x; y] = be 2 n -> 0 <= n < 65536 -> (x << 8) .| y = n.
Proof. intros Y E N. rewrite be2 in E. injection E as -> E. rewrite E. rewrite (lor_shl_add' _ _ 8 256) by lia. lia. Qed.

Definition announced (t : ptrack) (e : stream) : Prop :=
  exists a, announce (pt_codec t) (pt_init t) (pt_channels t) = Some a /\ e = mkes (a_type a) (pt_idx t + 255) (a_desc a ++ language (pt_lang t)).
Definition scte (t : ptrack) : bool := beqb (pt_codec t) (bs "SCTE35").
Definition id3_plain (t : ptrack) : Prop := pt_codec t = bs "ID3" -> pt_init t = [].
Lemma desc_bytes_app a b : desc_bytes (a ++ b) = desc_bytes a ++ desc_bytes b.
Proof. unfold desc_bytes. now rewrite map_app, concat_app. Qed.
Lemma four l : len (takez 4 (l ++ [0; 0; 0; 0])) = 4.
Proof. apply len_takez. rewrite len_app. change (len [0; 0; 0; 0]) with 4. pose proof (len_nonneg l). lia. Qed.
Lemma ann_ok t e : announced t e -> id3_plain t -> entry_type t = Some (es_type e) /\ es_info t = desc_bytes (es_desc e) /\ add_len t = len (es_bytes e) + (if scte t then 6 else 0) /\
  (if is t (bs "ID3") || is t (bs "RAW") then pt_init t else []) = [].
Proof.
  intros (a & A & ->) I. rewrite es_bytes_len. cbn [es_type es_desc]. rewrite desc_bytes_app, len_app. destruct t as [idx codec video init lang channels]. unfold id3_plain in I. cbn [pt_codec pt_init pt_channels pt_lang] in *.
  unfold entry_type, es_info, add_len, has_lang, is, scte. cbn [pt_codec pt_init pt_channels pt_lang].
  assert (L : (if (len lang =? 3) && negb (beqb lang (bs "und")) then [10; 4] ++ lang ++ [0] else []) = desc_bytes (language lang) /\ (if (len lang =? 3) && negb (beqb lang (bs "und")) then 6 else 0) = len (desc_bytes (language lang))).
  { unfold language. destruct (Z.eqb_spec (len lang) 3) as [E | E]; [| split; reflexivity]. destruct (beqb lang (bs "und")); [split; reflexivity |]. cbn [andb negb]. unfold desc_bytes. cbn [map List.concat fst snd]. rewrite app_nil_r, !len_cons, len_app, E. split; reflexivity. }
  destruct L as (L1 & L2). rewrite L1, L2. clear L1 L2. set (lb := desc_bytes (language lang)) in *.
  unfold announce in A.
  repeat match type of A with (if beqb codec ?c then _ else _) = _ => let E := fresh "E" in destruct (beqb codec c) eqn:E; [apply beqb_eq in E; subst codec; injection A as <-; cbn [a_type a_desc] |] end; [.. | discriminate].
  all: repeat match goal with |- context [beqb (bs ?x) (bs ?y)] => let v := eval vm_compute in (beqb (bs x) (bs y)) in change (beqb (bs x) (bs y)) with v end; cbn [orb]; cbv iota.
  all: try rewrite (I eq_refl).
  all: try (split; [reflexivity | split; [reflexivity | split; [| reflexivity]]]; change (desc_bytes []) with (@nil Z); change (len (@nil Z)) with 0; try lia).
  - change (len (desc_bytes [(124, [81; 0])])) with 4. lia.
  - change (len (desc_bytes _)) with 10. lia.
  - change (len (desc_bytes _)) with 6. lia.
  - pose proof (four init) as F. set (q := takez 4 (init ++ [0; 0; 0; 0])) in *. unfold desc_bytes. cbn [map List.concat fst snd]. rewrite F, app_nil_r. split; [reflexivity | split; [reflexivity | split; [| reflexivity]]].
    change (len [65; 86; 48; 49]) with 4. rewrite !len_app, !len_cons, F. change (len (@nil Z)) with 0. lia.
  - change (len (desc_bytes _)) with 9. lia.
Qed.

Lemma setESInfo_ok pre u v j c info : len j = len info -> len info < 4096 -> setESInfo (pre ++ u :: v :: j ++ c) (len pre - 3) info = Ok (pre ++ be 2 (0xF000 + len info) ++ info ++ c).
Proof.
  intros J I. unfold setESInfo. pose proof (len_nonneg info). rewrite info_bytes by lia. change (pre ++ u :: v :: j ++ c) with (pre ++ [u; v] ++ j ++ c).
  rewrite put_at; [| lia | rewrite be_len; reflexivity]. rewrite app_assoc. rewrite put_at; [now rewrite <- app_assoc | rewrite len_app, be_len; lia | exact J].
Qed.
Lemma write_entry_ok pre x c t e stop : announced t e -> id3_plain t -> len x = len (es_bytes e) -> len (desc_bytes (es_desc e)) < 4096 -> 0 <= pt_idx t -> pt_idx t + 255 < 8192 -> len pre < stop ->
  write_entry (pre ++ x ++ c) (len pre) stop t = Ok (pre ++ es_bytes e ++ c, len pre + len (es_bytes e)).
Proof.
  intros A I L D I0 I1 S. destruct (ann_ok t e A I) as (T & N & _ & Z0). rewrite es_bytes_len in *. pose proof (len_nonneg (desc_bytes (es_desc e))) as ND.
  assert (EP : es_pid e = pt_idx t + 255) by (destruct A as (a & _ & ->); reflexivity).
  destruct x as [| x0 [| x1 [| x2 [| x3 [| x4 j]]]]]; rewrite ?len_cons in L; try (change (len (@nil Z)) with 0 in L; lia).
  unfold write_entry. unfold getUniqTrackID. rewrite pid_bytes by lia.
  change (pre ++ (x0 :: x1 :: x2 :: x3 :: x4 :: j) ++ c) with (pre ++ [x0] ++ [x1; x2] ++ x3 :: x4 :: j ++ c). rewrite (app_assoc pre [x0]).
  rewrite put_at; [| rewrite len_app; reflexivity | rewrite be_len; reflexivity]. rewrite T. rewrite <- (app_assoc pre [x0]). rewrite put_at by reflexivity.
  rewrite N. set (P3 := pre ++ [es_type e] ++ be 2 (57344 + (pt_idx t + 255))).
  assert (LP : len pre = len P3 - 3) by (unfold P3; rewrite !len_app, be_len; change (len [es_type e]) with 1; lia).
  replace (pre ++ [es_type e] ++ be 2 (57344 + (pt_idx t + 255)) ++ x3 :: x4 :: j ++ c) with (P3 ++ x3 :: x4 :: j ++ c) by (unfold P3; now rewrite <- !app_assoc).
  assert (G : exists y3 y4, (if is t (bs "ID3") || is t (bs "RAW") then setESInfo (P3 ++ x3 :: x4 :: j ++ c) (len pre) (pt_init t) else Ok (P3 ++ x3 :: x4 :: j ++ c)) = Ok (P3 ++ y3 :: y4 :: j ++ c)).
  { destruct (is t (bs "ID3") || is t (bs "RAW")); [| do 2 eexists; reflexivity]. rewrite Z0, LP. pose proof (setESInfo_ok P3 x3 x4 [] (j ++ c) [] eq_refl eq_refl) as Q. cbn [app] in Q. rewrite Q, be2. do 2 eexists. reflexivity. }
  destruct G as (y3 & y4 & G). rewrite G. rewrite LP at 1. rewrite setESInfo_ok by lia.
  replace (len pre <? stop) with true by (symmetry; now apply Z.ltb_lt).
  destruct (two_at P3 (desc_bytes (es_desc e) ++ c) (0xF000 + len (desc_bytes (es_desc e))) (len pre + 3)) as (G1 & G2); [lia |]. rewrite G1. replace (len pre + 4) with (len pre + 3 + 1) by lia. rewrite G2.
  change 4095 with 4095. rewrite join12'. replace ((61440 + len (desc_bytes (es_desc e))) mod 4096) with (len (desc_bytes (es_desc e))) by lia. f_equal. f_equal; [| lia].
  unfold P3, es_bytes. rewrite EP, <- !app_assoc. reflexivity.
Qed.
Lemma write_entries_ok : forall ts es pre x c stop, Forall2 announced ts es -> Forall id3_plain ts -> Forall (fun t => 0 <= pt_idx t < 7937) ts -> len x = len (List.concat (map es_bytes es)) -> len x < 4096 -> stop = len pre + len x ->
  write_entries (pre ++ x ++ c) (len pre) stop ts = Ok (pre ++ List.concat (map es_bytes es) ++ c).
Proof.
  intros ts es pre x c stop F. revert pre x c stop. induction F as [| t e ts es A F IH]; intros pre x c stop P I L B S; cbn [write_entries map List.concat] in *.
  - change (len (@nil Z)) with 0 in L. destruct x as [| x0 x]; [reflexivity | rewrite len_cons in L; pose proof (len_nonneg x); lia].
  - inversion P as [| ? ? P1 P2]; subst x0 l. inversion I as [| ? ? I1 I2]; subst x0 l. rewrite len_app in L. pose proof (len_nonneg (List.concat (map es_bytes es))) as N. pose proof (es_bytes_len e) as EL. pose proof (len_nonneg (desc_bytes (es_desc e))).
    destruct (split_ex x 0 (len (es_bytes e))) as (a & x1 & x2 & E & La & L1); [lia | lia | lia |]. destruct a as [| a0 a]; [| rewrite len_cons in La; pose proof (len_nonneg a); lia]. cbn [app] in E. subst x. rewrite len_app in *.
    rewrite <- app_assoc. rewrite (write_entry_ok pre x1 (x2 ++ c) t e stop A P1) by lia. cbn [fst snd]. rewrite app_assoc. rewrite <- len_app.
    rewrite (IH (pre ++ es_bytes e) x2 c stop P2 I2) by (rewrite ?len_app; lia). now rewrite <- !app_assoc.
Qed.

(** ** The checksum, and the whole table. *)
Lemma upd_nil b : upd b 0 [] = b.
Proof. destruct b; reflexivity. Qed.
Lemma set1_k y z cc r k f : 0 <= cc < 16 -> 1 <= k <= len r -> set1 (hdr y z cc r) k f = Ok (hdr y z cc (upd r (Z.to_nat (k - 1)) [u8 (f (nthz r (k - 1)))])).
Proof. intros C K. replace k with (k - 1 + 1) at 1 by lia. apply set1_hdr; lia. Qed.
Lemma set2_k y z cc r k v : 0 <= cc < 16 -> 1 <= k < len r -> set2 (hdr y z cc r) k v = Ok (hdr y z cc (upd r (Z.to_nat (k - 1)) (be 2 v))).
Proof. intros C K. replace k with (k - 1 + 1) at 1 by lia. apply set2_hdr; lia. Qed.
Lemma calc_ok y z cc t0 v body x j last : 0 <= cc < 16 -> v mod 4096 = len body + 4 -> len x = 4 -> len j = 176 - len body ->
  calcCRC (hdr y z cc (([t0] ++ be 2 v ++ body) ++ x ++ j ++ [last])) =
  Ok (hdr y z cc (([t0] ++ be 2 v ++ body) ++ le 4 (crc32 0xFFFFFFFF ([t0] ++ be 2 v ++ body)) ++ repeat 255 (Z.to_nat (176 - len body)) ++ [last])).
Proof.
  intros C V X J. pose proof (len_nonneg body). pose proof (len_nonneg j). set (sec := [t0] ++ be 2 v ++ body). set (h := [71; y; z; 16 + cc; 0]).
  assert (LS : len sec = 3 + len body) by (unfold sec; rewrite !len_app, be_len; change (len [t0]) with 1; lia).
  assert (HD : forall r, hdr y z cc r = h ++ r) by reflexivity. assert (LH : len h = 5) by reflexivity.
  unfold calcCRC. rewrite table_hdr by exact C.
  assert (SL : getSectionLength (hdr y z cc (sec ++ x ++ j ++ [last])) = Ok (len body + 4)).
  { rewrite <- V. rewrite HD. unfold sec. replace (h ++ ([t0] ++ be 2 v ++ body) ++ x ++ j ++ [last]) with (h ++ ([t0] ++ be 2 v) ++ body ++ x ++ j ++ [last]) by (now rewrite <- !app_assoc).
    apply (section_length h t0 v _ 4); [lia |]. apply (table_hdr y z cc). exact C. }
  rewrite SL. cbv zeta. rewrite HD. rewrite (getn_at h sec) by lia.
  rewrite (app_assoc h sec). rewrite put_at; [| rewrite len_app; lia | exact X].
  replace (184 <? 4 + (len body + 4)) with false by (symmetry; apply Z.ltb_ge; lia). rewrite (app_assoc (h ++ sec)).
  assert (L4 : len (le 4 (crc32 4294967295 sec)) = 4) by reflexivity.
  rewrite put_at.
  - rewrite HD, <- !app_assoc. replace (184 - (4 + (len body + 4))) with (176 - len body) by lia. reflexivity.
  - rewrite !len_app. lia.
  - unfold len at 2. rewrite repeat_length. lia.
Qed.
Lemma clock_ok ts : ts <> [] -> exists t, In t ts /\ clock_track ts = Ok (pt_idx t) /\ (first_video ts = Some t \/ first_video ts = None /\ hd_error ts = Some t).
Proof.
  intros N. unfold clock_track. destruct (first_video ts) as [t |] eqn:E.
  - exists t. split; [| split; [reflexivity | now left]]. clear N. induction ts as [| u ts IH]; [discriminate |]. cbn [first_video] in E. destruct (pt_video u); [injection E as ->; now left | right; auto].
  - destruct ts as [| t ts]; [now destruct N |]. exists t. split; [now left | split; [reflexivity | right; split; reflexivity]].
Qed.
Definition info_of (ts : list ptrack) : list desc := if existsb scte ts then [(5, bs "CUEI")] else [].
Lemma add_total : forall ts es, Forall2 announced ts es -> Forall id3_plain ts -> fold_right (fun t n => add_len t + n) 0 ts = len (List.concat (map es_bytes es)) + 6 * len (filter scte ts).
Proof.
  intros ts es F. induction F as [| t e ts es A F IH]; intros P; cbn [fold_right map List.concat filter]; [reflexivity |]. inversion P as [| ? ? P1 P2]; subst.
  rewrite (IH P2). destruct (ann_ok t e A P1) as (_ & _ & L & _). rewrite L, len_app. destruct (scte t); rewrite ?len_cons; lia.
Qed.
Lemma info_total ts : len (filter scte ts) <= 1 -> len (desc_bytes (info_of ts)) = 6 * len (filter scte ts).
Proof.
  intros H. unfold info_of. induction ts as [| t ts IH]; [reflexivity |]. cbn [existsb filter] in *. destruct (scte t) eqn:E; cbn [orb] in *.
  - rewrite len_cons in *. pose proof (len_nonneg (filter scte ts)). replace (len (filter scte ts)) with 0 by lia. reflexivity.
  - apply IH. exact H.
Qed.
Lemma put_hdr y z cc H x c ys i : i = 5 + len H -> len x = len ys -> put (hdr y z cc (H ++ x ++ c)) i ys = Ok (hdr y z cc (H ++ ys ++ c)).
Proof.
  intros -> L. change (hdr y z cc (H ++ x ++ c)) with ([71; y; z; 16 + cc; 0] ++ H ++ x ++ c). rewrite (app_assoc _ H). rewrite put_at; [| rewrite len_app; reflexivity | exact L]. now rewrite <- app_assoc.
Qed.
Lemma createPMT_ok cc r ts es cont : 0 <= cc < 16 -> len r = 184 -> nthz r 5 = 0 \/ nthz r 5 = 1 -> Forall2 announced ts es -> Forall id3_plain ts -> Forall (fun t => 0 <= pt_idx t < 7937) ts -> ts <> [] -> len (filter scte ts) <= 1 ->
  len (List.concat (map es_bytes es)) + len (desc_bytes (info_of ts)) <= 167 ->
  exists t, clock_track ts = Ok (pt_idx t) /\ In t ts /\
  let s := fun crc => pmt_section 1 1 (pt_idx t + 255) (info_of ts) es crc in let crc := le 4 (crc32 0xFFFFFFFF (s [])) in
  createPMT (hdr 80 0 cc r) ts cont = Ok (hdr 80 0 (cont mod 16) (s crc ++ repeat 255 (Z.to_nat (183 - len (s crc))) ++ [nthz r 183])).
Proof.
  intros C LR R5 A P I N SC T. destruct (clock_ok ts N) as (t & IN & CK & _). exists t. split; [exact CK | split; [exact IN |]]. cbv zeta.
  pose proof (proj1 (Forall_forall _ _) I t IN) as IT. cbv beta in IT.
  unfold createPMT. rewrite (setpid_hdr 80 0 cc r 4096 80) by (unfold byteP; lia || reflexivity). change (4096 mod 256) with 0.
  rewrite (add_total ts es A P). rewrite <- (info_total ts SC). set (body := List.concat (map es_bytes es)) in *. set (inf := desc_bytes (info_of ts)) in *.
  replace (if existsb (fun t0 => is t0 (bs "SCTE35")) ts then [5; 4] ++ bs "CUEI" else []) with inf by (unfold inf, info_of; change (existsb (fun t0 => is t0 (bs "SCTE35")) ts) with (existsb scte ts); destruct (existsb scte ts); reflexivity).
  pose proof (len_nonneg body) as NB. pose proof (len_nonneg inf) as NI.
  destruct (split_ex r 12 (len inf)) as (a & jx & rest0 & E & La & Lj); [lia | lia | lia |].
  do 12 (destruct a as [| ?b a]; [repeat rewrite len_cons in La; change (len (@nil Z)) with 0 in La; lia |]). destruct a as [| ? a]; [| repeat rewrite len_cons in La; pose proof (len_nonneg a); lia]. subst r. cbn [app] in *.
  change (nthz (b :: b0 :: b1 :: b2 :: b3 :: b4 :: b5 :: b6 :: b7 :: b8 :: b9 :: b10 :: jx ++ rest0) 5) with b4 in R5.
  set (tl := jx ++ rest0) in *. assert (LT : len tl = 172) by (rewrite !len_cons in LR; lia).
  rewrite set1_k by (rewrite ?len_cons; lia). change (Z.to_nat (1 - 1)) with 0%nat. cbn [upd]. change (u8 2) with 2.
  rewrite set2_k by (rewrite ?len_cons; lia). change (Z.to_nat (2 - 1)) with 1%nat. rewrite be2. cbn [upd].
  rewrite set2_k by (rewrite ?len_cons; lia). change (Z.to_nat (4 - 1)) with 3%nat. rewrite be2. cbn [upd].
  rewrite set1_k by (rewrite ?len_cons; lia). change (Z.to_nat (6 - 1)) with 5%nat. cbn [upd]. match goal with |- context [nthz (?a :: ?b :: ?c :: ?d :: ?e :: ?f :: ?r) (6 - 1)] => change (nthz (a :: b :: c :: d :: e :: f :: r) (6 - 1)) with f end.
  rewrite set1_k by (rewrite ?len_cons; lia). change (Z.to_nat (6 - 1)) with 5%nat. cbn [upd]. match goal with |- context [nthz (?a :: ?b :: ?c :: ?d :: ?e :: ?f :: ?r) (6 - 1)] => change (nthz (a :: b :: c :: d :: e :: f :: r) (6 - 1)) with f end.
  replace (u8 (1 .| (u8 (b4 .& 193) .& 254))) with 1 by (destruct R5 as [-> | ->]; reflexivity).
  rewrite set1_k by (rewrite ?len_cons; lia). change (Z.to_nat (7 - 1)) with 6%nat. cbn [upd]. change (u8 0) with 0.
  rewrite set1_k by (rewrite ?len_cons; lia). change (Z.to_nat (8 - 1)) with 7%nat. cbn [upd]. change (u8 0) with 0.
  rewrite setcc_hdr by exact C. rewrite CK. unfold getUniqTrackID.
  assert (CM : 0 <= cont mod 16 < 16) by lia.
  rewrite set2_k by (rewrite ?len_cons; lia). change (Z.to_nat (9 - 1)) with 8%nat.
  rewrite (be2_eq (((pt_idx t + 255) >> 8 .& 31) .| 224) (u8 (pt_idx t + 255)) (0xE000 + (pt_idx t + 255))); [| unfold u8; lia | rewrite <- pid_bytes by lia; f_equal; f_equal; unfold u8; now rewrite land_255 | lia].
  rewrite be2. cbn [upd].
  unfold setProgramInfo. rewrite set2_k by (rewrite ?len_cons; lia). change (Z.to_nat (11 - 1)) with 10%nat.
  rewrite (be2_eq ((len inf >> 8 .& 15) .| 240) (u8 (len inf)) (0xF000 + len inf)); [| unfold u8; lia | rewrite <- info_bytes by lia; f_equal; f_equal; unfold u8; now rewrite land_255 | lia].
  rewrite be2. cbn [upd]. rewrite upd_nil.
  set (v := 45056 + (13 + len inf + len body)). set (H := [2] ++ be 2 v ++ be 2 1 ++ [1; 0; 0] ++ be 2 (0xE000 + (pt_idx t + 255)) ++ be 2 (0xF000 + len inf)). assert (LH : len H = 12) by reflexivity.
  match goal with |- context [table (hdr 80 0 (cont mod 16) ?l)] => replace l with (H ++ jx ++ rest0) by (unfold H; rewrite !be2; replace (45069 + (len body + len inf)) with v by (unfold v; lia); reflexivity) end.
  rewrite table_hdr by exact CM. rewrite put_hdr by lia. rewrite table_hdr by exact CM.
  assert (IL : getProgramInfoLength (hdr 80 0 (cont mod 16) (H ++ inf ++ rest0)) = Ok (len inf)).
  { unfold getProgramInfoLength. rewrite table_hdr by exact CM. destruct (two_at ([71; 80; 0; 16 + cont mod 16; 0] ++ [2] ++ be 2 v ++ be 2 1 ++ [1; 0; 0] ++ be 2 (0xE000 + (pt_idx t + 255))) (inf ++ rest0) (0xF000 + len inf) (4 + 11) eq_refl) as (G1 & G2).
    change (hdr 80 0 (cont mod 16) (H ++ inf ++ rest0)) with (([71; 80; 0; 16 + cont mod 16; 0] ++ [2] ++ be 2 v ++ be 2 1 ++ [1; 0; 0] ++ be 2 (0xE000 + (pt_idx t + 255))) ++ be 2 (61440 + len inf) ++ inf ++ rest0).
    rewrite G1. change (4 + 12) with (4 + 11 + 1). rewrite G2, join12. f_equal. lia. }
  rewrite IL.
  assert (SL : getSectionLength (hdr 80 0 (cont mod 16) (H ++ inf ++ rest0)) = Ok (13 + len inf + len body)).
  { change (hdr 80 0 (cont mod 16) (H ++ inf ++ rest0)) with ([71; 80; 0; 16 + cont mod 16; 0] ++ ([2] ++ be 2 v) ++ be 2 1 ++ [1; 0; 0] ++ be 2 (0xE000 + (pt_idx t + 255)) ++ be 2 (0xF000 + len inf) ++ inf ++ rest0).
    rewrite (section_length _ 2 v _ 4); [| reflexivity | apply (table_hdr 80 0 (cont mod 16) _ CM)]. f_equal. unfold v. lia. }
  rewrite SL.
  assert (LR0 : len rest0 = 172 - len inf) by (unfold tl in LT; rewrite len_app in LT; lia).
  destruct (split_ex rest0 0 (len body)) as (a0 & x & c & E & La0 & Lx); [lia | lia | lia |]. destruct a0 as [| ? a0]; [| rewrite len_cons in La0; pose proof (len_nonneg a0); lia]. cbn [app] in E. subst rest0. rewrite len_app in LR0.
  destruct (split_ex c 0 4) as (a0 & x4 & c' & E & La1 & L4); [lia | lia | lia |]. destruct a0 as [| ? a0]; [| rewrite len_cons in La1; pose proof (len_nonneg a0); lia]. cbn [app] in E. subst c. rewrite len_app in LR0.
  destruct (split_ex c' (167 - len inf - len body) 1) as (j & lst & e0 & E & Lj' & Ll); [lia | lia | lia |]. subst c'. rewrite !len_app, Ll in LR0. pose proof (len_nonneg e0).
  destruct lst as [| last [| ? lst]]; [discriminate Ll | | rewrite !len_cons in Ll; pose proof (len_nonneg lst); lia]. destruct e0 as [| ? e0]; [| rewrite len_cons in LR0; pose proof (len_nonneg e0); lia].
  pose proof (write_entries_ok ts es (hdr 80 0 (cont mod 16) (H ++ inf)) x (x4 ++ j ++ [last]) (4 + (13 + len inf + len body)) A P I Lx ltac:(lia) ltac:(rewrite hdr_len, len_app; lia)) as W.
  assert (LP : len (hdr 80 0 (cont mod 16) (H ++ inf)) = 4 + 13 + len inf) by (rewrite hdr_len, len_app; lia). rewrite LP in W.
  assert (HA : forall p q, hdr 80 0 (cont mod 16) p ++ q = hdr 80 0 (cont mod 16) (p ++ q)) by reflexivity. rewrite !HA, <- !app_assoc in W. rewrite ?app_nil_r. rewrite W. fold body.
  set (B := be 2 1 ++ [1; 0; 0] ++ be 2 (0xE000 + (pt_idx t + 255)) ++ be 2 (0xF000 + len inf) ++ inf ++ body).
  assert (LB : len B = 9 + len inf + len body) by (unfold B; rewrite !len_app, !be_len; change (len [1; 0; 0]) with 3; lia).
  replace (H ++ inf ++ body ++ x4 ++ j ++ [last]) with (([2] ++ be 2 v ++ B) ++ x4 ++ j ++ [last]) by (unfold H, B; rewrite <- !app_assoc; reflexivity).
  rewrite calc_ok; [| exact CM | unfold v; lia | exact L4 | lia].
  assert (S0 : forall crc, pmt_section 1 1 (pt_idx t + 255) (info_of ts) es crc = ([2] ++ be 2 v ++ B) ++ crc) by (intros crc; unfold pmt_section, B, v; fold inf; fold body; rewrite <- !app_assoc; reflexivity).
  rewrite !S0, app_nil_r. f_equal. f_equal. rewrite <- !app_assoc. do 5 f_equal.
  - f_equal. f_equal. rewrite !len_app, be_len. change (len [2]) with 1. change (len (le 4 _)) with 4. lia.
  - f_equal. unfold tl. rewrite ?app_nil_r.
    change (b :: b0 :: b1 :: b2 :: b3 :: b4 :: b5 :: b6 :: b7 :: b8 :: b9 :: b10 :: jx ++ x ++ x4 ++ j ++ [last]) with ([b; b0; b1; b2; b3; b4; b5; b6; b7; b8; b9; b10] ++ jx ++ x ++ x4 ++ j ++ [last]).
    rewrite (app_assoc x4), (app_assoc x), (app_assoc jx), (app_assoc _ (jx ++ x ++ x4 ++ j)). rewrite nthz_app2; rewrite !len_app, La, Lj, Lx, L4, Lj'; [| lia]. match goal with |- _ = nthz _ ?i => replace i with 0 by lia end. reflexivity.
Qed.
(** What was written is a table. *)
Lemma hdr_view y z cc r : byteP y -> byteP z -> bytesP r -> 0 <= cc < 16 -> len r = 183 -> valid (hdr y z cc r) /\ payload (hdr y z cc r) = Some (0 :: r).
Proof.
  intros Y Z0 R C L. assert (P : payload (hdr y z cc r) = Some (0 :: r)).
  { unfold payload. replace (afc (view (hdr y z cc r))) with 1; [reflexivity |]. cbn [view afc]. change (nthz (hdr y z cc r) 3) with (16 + cc). lia. }
  split; [| exact P]. split; [| split; [rewrite hdr_len; lia | split; [reflexivity | eexists; exact P]]]. unfold hdr. repeat (constructor; [unfold byteP in *; lia |]). exact R.
Qed.
Lemma checked_ok sec : bytesP sec -> checked (sec ++ le 4 (crc32 0xFFFFFFFF sec)).
Proof.
  intros B. unfold checked. pose proof (crc32_self_check 0xFFFFFFFF sec B ltac:(lia)) as E. assert (Hle : bytesP (le 4 (crc32 4294967295 sec))) by (apply Forall_rev, be_bytes).
  rewrite crc32_is_division in E by (try lia; apply bytesP_app; split; assumption). change (swap32 4294967295) with 4294967295 in E. apply (f_equal swap32) in E. rewrite swap32_invol in E; [exact E |]. apply msb_range; lia.
Qed.
(** ** Services. *)
Lemma createSDT_ok y z cc r name cont : byteP y -> y / 32 = 2 -> 0 <= cc < 16 -> len r = 184 -> bytesP r -> nthz r 5 = 0 \/ nthz r 5 = 1 -> len name <= 148 ->
  let s := fun crc => sdt_section 1 (nthz r 10) (nthz r 13) (service APPNAME name (4 + len APPNAME + len name)) crc in let crc := le 4 (crc32 0xFFFFFFFF (s [])) in
  createSDT (hdr y z cc r) name cont = Ok (hdr 64 17 (cont mod 16) (s crc ++ repeat 255 (Z.to_nat (183 - len (s crc))) ++ [nthz r 183])).
Proof.
  intros Y Y2 C LR BR R5 LN. cbv zeta. pose proof (len_nonneg name) as NN. unfold createSDT. rewrite (setpid_hdr y z cc r 0x11 64) by (assumption || lia). change (17 mod 256) with 17.
  assert (LA : len APPNAME = 10) by reflexivity. assert (SI : sdt_info name = service APPNAME name (4 + len APPNAME + len name)) by (unfold sdt_info, service, u8; rewrite LA, !Z.mod_small by lia; reflexivity). rewrite SI. set (inf := service APPNAME name (4 + len APPNAME + len name)).
  assert (LI : len inf = 15 + len name) by (unfold inf, service; rewrite !len_app, !len_cons, LA; change (len (@nil Z)) with 0; lia).
  destruct (split_ex r 16 (len inf)) as (a & jx & rest0 & E & La & Lj); [lia | lia | lia |].
  do 16 (destruct a as [| ?b a]; [repeat rewrite len_cons in La; change (len (@nil Z)) with 0 in La; lia |]). destruct a as [| ? a]; [| repeat rewrite len_cons in La; pose proof (len_nonneg a); lia].
  assert (B13 : byteP b13 /\ byteP b14) by (subst r; split; [apply (bytesP_nthz _ 14 BR) | apply (bytesP_nthz _ 15 BR)]).
  pose proof (f_equal (fun l => nthz l 10) E) as E10. pose proof (f_equal (fun l => nthz l 13) E) as E13. pose proof (f_equal (fun l => nthz l 5) E) as E5. pose proof (f_equal (fun l => nthz l 183) E) as E183. cbv beta in E10, E13, E5, E183.
  change (nthz ([b; b0; b1; b2; b3; b4; b5; b6; b7; b8; b9; b10; b11; b12; b13; b14] ++ jx ++ rest0) 10) with b9 in E10. change (nthz ([b; b0; b1; b2; b3; b4; b5; b6; b7; b8; b9; b10; b11; b12; b13; b14] ++ jx ++ rest0) 13) with b12 in E13. change (nthz ([b; b0; b1; b2; b3; b4; b5; b6; b7; b8; b9; b10; b11; b12; b13; b14] ++ jx ++ rest0) 5) with b4 in E5.
  rewrite E10, E13, E183. rewrite E5 in R5. clear E10 E13 E5 E183. subst r. rewrite !len_app, La, Lj in LR.
  set (tl := jx ++ rest0) in *. assert (LT : len tl = 168) by (unfold tl; rewrite len_app; lia). cbn [app].
  rewrite set1_k by (rewrite ?len_cons; lia). change (Z.to_nat (1 - 1)) with 0%nat. cbn [upd]. change (u8 0x42) with 0x42.
  rewrite set2_k by (rewrite ?len_cons; lia). change (Z.to_nat (2 - 1)) with 1%nat. rewrite be2. cbn [upd].
  rewrite set2_k by (rewrite ?len_cons; lia). change (Z.to_nat (4 - 1)) with 3%nat. rewrite be2. cbn [upd].
  rewrite set1_k by (rewrite ?len_cons; lia). change (Z.to_nat (6 - 1)) with 5%nat. cbn [upd]. match goal with |- context [nthz (?a :: ?b :: ?c :: ?d :: ?e :: ?f :: ?r) (6 - 1)] => change (nthz (a :: b :: c :: d :: e :: f :: r) (6 - 1)) with f end.
  rewrite set1_k by (rewrite ?len_cons; lia). change (Z.to_nat (6 - 1)) with 5%nat. cbn [upd]. match goal with |- context [nthz (?a :: ?b :: ?c :: ?d :: ?e :: ?f :: ?r) (6 - 1)] => change (nthz (a :: b :: c :: d :: e :: f :: r) (6 - 1)) with f end.
  replace (u8 (1 .| (u8 (b4 .& 193) .& 254))) with 1 by (destruct R5 as [-> | ->]; reflexivity).
  rewrite set1_k by (rewrite ?len_cons; lia). change (Z.to_nat (7 - 1)) with 6%nat. cbn [upd]. change (u8 0) with 0.
  rewrite set1_k by (rewrite ?len_cons; lia). change (Z.to_nat (8 - 1)) with 7%nat. cbn [upd]. change (u8 0) with 0.
  rewrite set2_k by (rewrite ?len_cons; lia). change (Z.to_nat (9 - 1)) with 8%nat. rewrite be2. cbn [upd].
  rewrite table_hdr by exact C. cbv zeta.
  set (v := 32800 + len name). set (H := [66] ++ be 2 v ++ be 2 1 ++ [1; 0; 0] ++ be 2 0xE001 ++ [b9]). assert (LH : len H = 11) by reflexivity.
  match goal with |- context [put (hdr 64 17 cc ?l)] => replace l with (H ++ [b10; b11] ++ b12 :: b13 :: b14 :: tl) by (unfold H; rewrite !be2; reflexivity) end.
  rewrite put_hdr by (rewrite ?be_len; lia || reflexivity).
  set (H2 := H ++ be 2 1 ++ [b12]). assert (LH2 : len H2 = 14) by reflexivity.
  assert (EQ : forall q, hdr 64 17 cc (H ++ be 2 1 ++ b12 :: q) = hdr 64 17 cc (H2 ++ q)) by (intros q; unfold H2; rewrite <- !app_assoc; reflexivity). rewrite EQ.
  assert (GB : forall w q, getb (hdr 64 17 cc (H2 ++ w :: q)) (4 + 12 + 3) = Ok w).
  { intros w q. rewrite getb_ok by (rewrite hdr_len, len_app, len_cons, LH2; pose proof (len_nonneg q); lia). reflexivity. }
  assert (PB : forall w q w', put (hdr 64 17 cc (H2 ++ w :: q)) (4 + 12 + 3) [w'] = Ok (hdr 64 17 cc (H2 ++ w' :: q))) by (intros w q w'; change (w :: q) with ([w] ++ q); change (w' :: q) with ([w'] ++ q); apply put_hdr; [rewrite LH2; reflexivity | reflexivity]).
  rewrite GB, PB, GB, PB, GB.
  replace (((len inf >> 8) .& 15) .| (((((b13 .& 31) .| 128) .& 239) .| 16) .& 240)) with 144.
  2:{ rewrite (shr_div (len inf) 8) by lia. change (2 ^ 8) with 256. replace (len inf / 256) with 0 by lia. change (0 .& 15) with 0. rewrite Z.lor_0_l. rewrite !Z.land_lor_distr_l, <- !Z.land_assoc. change (239 .& 240) with 224. change (31 .& 224) with 0. rewrite Z.land_0_r. reflexivity. }
  match goal with |- context [put (hdr 64 17 cc (H2 ++ ?w :: b14 :: tl)) _ ?q] => change (H2 ++ w :: b14 :: tl) with (H2 ++ [w; b14] ++ tl) end. rewrite put_hdr by (rewrite ?LH2; reflexivity).
  assert (BI : [144; len inf .& 255] = be 2 (0x9000 + len inf)) by (rewrite be2, land_255; f_equal; [lia | f_equal; lia]). rewrite BI.
  rewrite (app_assoc H2). unfold tl. rewrite put_hdr by (rewrite ?len_app, ?be_len, ?LH2; lia). rewrite setcc_hdr by exact C.
  destruct (split_ex rest0 0 4) as (a0 & x4 & c' & E & La1 & L4); [lia | lia | lia |]. destruct a0 as [| ? a0]; [| rewrite len_cons in La1; pose proof (len_nonneg a0); lia]. cbn [app] in E. subst rest0. rewrite len_app in LR.
  destruct (split_ex c' (148 - len name) 1) as (j & lst & e0 & E & Lj' & Ll); [lia | lia | lia |]. subst c'. rewrite !len_app, Ll in LR. pose proof (len_nonneg e0).
  destruct lst as [| last [| ? lst]]; [discriminate Ll | | rewrite !len_cons in Ll; pose proof (len_nonneg lst); lia]. destruct e0 as [| ? e0]; [| rewrite len_cons in LR; pose proof (len_nonneg e0); lia].
  set (B := be 2 1 ++ [1; 0; 0] ++ be 2 0xE001 ++ [b9] ++ be 2 1 ++ [b12] ++ be 2 (0x9000 + len inf) ++ inf).
  assert (LB : len B = 13 + len inf) by (unfold B; rewrite !len_app, !be_len; change (len [1; 0; 0]) with 3; change (len [b9]) with 1; change (len [b12]) with 1; lia). rewrite app_nil_r.
  replace ((H2 ++ be 2 (0x9000 + len inf)) ++ inf ++ x4 ++ j ++ [last]) with (([66] ++ be 2 v ++ B) ++ x4 ++ j ++ [last]) by (unfold H2, H, B; rewrite <- !app_assoc; reflexivity).
  rewrite calc_ok; [| lia | unfold v; lia | exact L4 | lia].
  assert (S0 : forall crc, sdt_section 1 b9 b12 inf crc = ([66] ++ be 2 v ++ B) ++ crc) by (intros crc; unfold sdt_section, B, v; replace (0x8000 + (8 + 5 + len inf + 4)) with (32800 + len name) by lia; rewrite <- !app_assoc; reflexivity).
  rewrite !S0, app_nil_r. f_equal. f_equal. rewrite <- !app_assoc. do 5 f_equal.
  - f_equal. f_equal. rewrite !len_app, be_len. change (len [66]) with 1. change (len (le 4 _)) with 4. lia.
  - f_equal. rewrite ?app_nil_r. match goal with |- _ = nthz ?l _ => replace l with (([b; b0; b1; b2; b3; b4; b5; b6; b7; b8; b9; b10; b11; b12; b13; b14] ++ jx ++ x4 ++ j) ++ [last]) by (rewrite <- !app_assoc; reflexivity) end. rewrite nthz_app2; rewrite !len_app, La, Lj, L4, Lj'; [| lia]. match goal with |- _ = nthz _ ?i => replace i with 0 by lia end. reflexivity.
Qed.
