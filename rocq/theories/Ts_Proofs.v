(** Proofs about transport stream packets. *)
From Verif Require Import Common CommonFacts CommonMore Ts_Model Ts_Spec.
Import List.

Lemma nthz_wr b i v j : 0 <= i < len b -> 0 <= j -> nthz (wr b i v) j = if j =? i then v else nthz b j.
Proof.
  intros Hi Hj. unfold wr. destruct (Z.eqb_spec j i) as [->|Hn].
  - rewrite splice_in by (lens; lia). rewrite Z.sub_diag. apply nthz_0.
  - rewrite splice_out by (lens; lia). reflexivity.
Qed.
Lemma len_wr b i v : 0 <= i < len b -> len (wr b i v) = len b.
Proof. intros. unfold wr. apply len_splice; lens; lia. Qed.
Lemma bytesP_wr b i v : bytesP b -> byteP v -> bytesP (wr b i v).
Proof. intros. unfold wr. apply bytesP_splice; [assumption|]. repeat constructor; apply H0. Qed.
Lemma dropz_wr b i v k : 0 <= i < k -> k <= len b -> dropz k (wr b i v) = dropz k b.
Proof.
  intros Hi Hk. apply nthz_ext.
  - rewrite !len_dropz by (rewrite ?len_wr by lia; lia). rewrite len_wr by lia. reflexivity.
  - intros j Hj. rewrite len_dropz, len_wr in Hj by (rewrite ?len_wr by lia; lia).
    rewrite !nthz_dropz by lia. rewrite nthz_wr by lia. destruct (Z.eqb_spec (k + j) i); [lia|reflexivity].
Qed.
Lemma dropz_wr_in b i v k : 0 <= k <= i -> i < len b -> dropz k (wr b i v) = wr (dropz k b) (i - k) v.
Proof.
  intros Hi Hk. apply nthz_ext.
  - rewrite len_dropz, len_wr by (rewrite ?len_wr by lia; lia). rewrite len_wr by (rewrite len_dropz; lia). rewrite len_dropz; lia.
  - intros j Hj. rewrite len_dropz, len_wr in Hj by (rewrite ?len_wr by lia; lia).
    rewrite nthz_dropz by lia. rewrite !nthz_wr by (rewrite ?len_dropz; lia). rewrite nthz_dropz by lia.
    destruct (Z.eqb_spec (k + j) i), (Z.eqb_spec j (i - k)); lia || reflexivity.
Qed.

(** A buffer of 188 bytes. *)
Definition buf_ok (b : list Z) : Prop := bytesP b /\ len b = 188.

Lemma buf_wr b i v : buf_ok b -> 0 <= i < 188 -> byteP v -> buf_ok (wr b i v).
Proof. intros [H1 H2] Hi Hv. split; [now apply bytesP_wr|rewrite len_wr; lia]. Qed.
Lemma buf_nth b i : buf_ok b -> byteP (nthz b i).
Proof. intros [H _]. now apply bytesP_nthz. Qed.

Lemma updPos_buf p n : pbuf (updPos p n) = pbuf p.
Proof. unfold updPos. now dif. Qed.
Lemma updPos_pos p n : ppos (updPos p n) = Z.max (ppos p) n.
Proof. unfold updPos. dif; cbn; lia. Qed.

Lemma land_shift v m k : 0 <= k -> Z.shiftr (Z.land v (Z.shiftl m k)) k = Z.land (Z.shiftr v k) m.
Proof. intros. rewrite Z.shiftr_land, Z.shiftr_shiftl_l by lia. now rewrite Z.sub_diag, Z.shiftl_0_r. Qed.
Lemma pid_hi v : (v .& 0x1F00) >> 8 = v / 256 mod 32.
Proof. change 0x1F00 with (31 << 8). rewrite land_shift by lia. rewrite shr_div by lia. change 31 with (Z.ones 5). now rewrite Z.land_ones by lia. Qed.
Lemma land_ff v : v .& 0xFF = v mod 256.
Proof. change 0xFF with (Z.ones 8). now rewrite Z.land_ones by lia. Qed.
Lemma land_f v : v .& 0x0F = v mod 16.
Proof. change 0x0F with (Z.ones 4). now rewrite Z.land_ones by lia. Qed.
Ltac sweep b f Hb := apply Z.eqb_eq; apply (byte_sweep f); [vm_compute; reflexivity|exact Hb].
Lemma b_E0 b : byteP b -> b .& 0xE0 = b / 32 * 32.
Proof. intros H. sweep b (fun b => b .& 0xE0 =? b / 32 * 32) H. Qed.
Lemma b_F0 b : byteP b -> b .& 0xF0 = b / 16 * 16.
Proof. intros H. sweep b (fun b => b .& 0xF0 =? b / 16 * 16) H. Qed.
Lemma b_CF b : byteP b -> b .& 0xCF = b / 64 * 64 + b mod 16.
Proof. intros H. sweep b (fun b => b .& 0xCF =? b / 64 * 64 + b mod 16) H. Qed.
Lemma b_30 b : byteP b -> (b .& 0x30) >> 4 = b / 16 mod 4.
Proof. intros H. sweep b (fun b => (b .& 0x30) >> 4 =? b / 16 mod 4) H. Qed.
Lemma lor_F b c : byteP b -> 0 <= c < 16 -> (b / 16 * 16) .| c = b / 16 * 16 + c.
Proof. intros H Hc. change 16 with (2 ^ 4) at 2 4. apply lor_add; lia. Qed.
(** Setting and clearing bit k of a byte. *)
Definition setbit (b k v : Z) : Z := b - (b / 2 ^ k mod 2) * 2 ^ k + v * 2 ^ k.
Definition bitk (b k : Z) : bool := negb (Z.land b (2 ^ k) =? 0).
Lemma kcase k (P : Z -> Prop) : 0 <= k < 8 -> P 0 -> P 1 -> P 2 -> P 3 -> P 4 -> P 5 -> P 6 -> P 7 -> P k.
Proof. intros. assert (E : k = 0 \/ k = 1 \/ k = 2 \/ k = 3 \/ k = 4 \/ k = 5 \/ k = 6 \/ k = 7) by lia. repeat (destruct E as [-> |E]; [assumption|]). now subst. Qed.
Lemma b_or b k : byteP b -> 0 <= k < 8 -> b .| 2 ^ k = setbit b k 1.
Proof. intros H Hk. revert k Hk. intros k Hk. apply (kcase k (fun k => b .| 2 ^ k = setbit b k 1) Hk); match goal with |- _ = setbit _ ?k _ => sweep b (fun b => b .| 2 ^ k =? setbit b k 1) H end. Qed.
Lemma b_and b k : byteP b -> 0 <= k < 8 -> b .& (255 - 2 ^ k) = setbit b k 0.
Proof. intros H Hk. apply (kcase k (fun k => b .& (255 - 2 ^ k) = setbit b k 0) Hk); match goal with |- _ = setbit _ ?k _ => sweep b (fun b => b .& (255 - 2 ^ k) =? setbit b k 0) H end. Qed.
Lemma b_test b k : byteP b -> 0 <= k < 8 -> negb (b .& 2 ^ k =? 0) = (b / 2 ^ k mod 2 =? 1).
Proof.
  intros H Hk. apply Bool.eqb_prop. apply (kcase k (fun k => Bool.eqb (negb (b .& 2 ^ k =? 0)) (b / 2 ^ k mod 2 =? 1) = true) Hk);
  match goal with |- context [negb (b .& 2 ^ ?k =? 0)] => apply (byte_sweep (fun b => Bool.eqb (negb (b .& 2 ^ k =? 0)) (b / 2 ^ k mod 2 =? 1))); [vm_compute; reflexivity|exact H] end.
Qed.
Lemma setbit_byte b k v : byteP b -> 0 <= k < 8 -> v = 0 \/ v = 1 -> byteP (setbit b k v).
Proof. intros H Hk Hv. unfold byteP, setbit in *. apply (kcase k (fun k => 0 <= b - (b / 2 ^ k mod 2) * 2 ^ k + v * 2 ^ k < 256) Hk); destruct Hv; subst v; lia. Qed.
Lemma setbit_same b k v : byteP b -> 0 <= k < 8 -> v = 0 \/ v = 1 -> setbit b k v / 2 ^ k mod 2 = v.
Proof. intros H Hk Hv. unfold byteP, setbit in *. apply (kcase k (fun k => (b - (b / 2 ^ k mod 2) * 2 ^ k + v * 2 ^ k) / 2 ^ k mod 2 = v) Hk); destruct Hv; subst v; lia. Qed.
Lemma setbit_other b k v j : byteP b -> 0 <= k < 8 -> 0 <= j < 8 -> j <> k -> v = 0 \/ v = 1 -> setbit b k v / 2 ^ j mod 2 = b / 2 ^ j mod 2.
Proof.
  intros H Hk Hj Hn Hv. assert (E : (fun b => (setbit b k v / 2 ^ j mod 2 =? b / 2 ^ j mod 2)) b = true); [|now apply Z.eqb_eq].
  revert Hn. apply (kcase k (fun k => j <> k -> (setbit b k v / 2 ^ j mod 2 =? b / 2 ^ j mod 2) = true) Hk);
  (apply (kcase j (fun j => forall Hn : j <> _, (setbit b _ v / 2 ^ j mod 2 =? b / 2 ^ j mod 2) = true) Hj); intros Hn; try (now contradiction Hn);
  destruct Hv; subst v; match goal with |- (setbit b ?k ?v / 2 ^ ?j mod 2 =? _) = true => apply (byte_sweep (fun b => setbit b k v / 2 ^ j mod 2 =? b / 2 ^ j mod 2)); [vm_compute; reflexivity|exact H] end).
Qed.

(** ** Header fields *)
Lemma body_view b : body (view b) = dropz 4 b. Proof. reflexivity. Qed.

Section Setters.
Variable p : pkt.
Hypothesis Hb : buf_ok (pbuf p).
Let L : len (pbuf p) = 188 := proj2 Hb.
Let B i : byteP (nthz (pbuf p) i) := buf_nth (pbuf p) i Hb.

Lemma pid_byte v : byteP (nthz (pbuf p) 1 / 32 * 32 + v / 256 mod 32).
Proof. pose proof (B 1) as H. unfold byteP in *. lia. Qed.
Lemma setPID_ok v : buf_ok (pbuf (setPID p v)) /\ view (pbuf (setPID p v)) = with_pid (v mod 8192) (view (pbuf p)) /\ ppos (setPID p v) = Z.max (ppos p) 2.
Proof.
  pose proof (B 1) as H1. pose proof (B 2) as H2. pose proof (pid_byte v) as H3.
  unfold setPID. rewrite updPos_buf, updPos_pos, pid_hi, land_ff, b_E0 by assumption. cbn [pbuf ppos].
  split; [|split; [|reflexivity]].
  - apply buf_wr; [apply buf_wr; [exact Hb|lia|exact H3]|lia|]. unfold byteP. lia.
  - unfold view, with_pid; cbn [sync error unit_start priority pid_ scrambling afc counter body].
    rewrite !nthz_wr by (rewrite ?len_wr by lia; lia). rewrite !dropz_wr by (rewrite ?len_wr by lia; lia).
    change (0 =? 2) with false. change (0 =? 1) with false. change (1 =? 2) with false. change (1 =? 1) with true.
    change (2 =? 2) with true. change (3 =? 2) with false. change (3 =? 1) with false. cbn match.
    unfold byteP in H1. set (x := nthz (pbuf p) 1) in *. clearbody x. f_equal; lia.
Qed.
Lemma setCC_ok v : buf_ok (pbuf (setContinuityCounter p v)) /\
  view (pbuf (setContinuityCounter p v)) = with_counter (v mod 16) (view (pbuf p)) /\ ppos (setContinuityCounter p v) = Z.max (ppos p) 3.
Proof.
  pose proof (B 3) as H1. unfold setContinuityCounter. rewrite updPos_buf, updPos_pos, land_f, b_F0 by assumption. cbn [pbuf ppos].
  rewrite lor_F by (try assumption; lia). unfold byteP in H1.
  split; [|split; [|reflexivity]].
  - apply buf_wr; [exact Hb|lia|unfold byteP; lia].
  - unfold view, with_counter; cbn [sync error unit_start priority pid_ scrambling afc counter body].
    rewrite !nthz_wr by lia. rewrite !dropz_wr by lia.
    change (0 =? 3) with false. change (1 =? 3) with false. change (2 =? 3) with false. change (3 =? 3) with true. cbn match.
    set (x := nthz (pbuf p) 3) in *. clearbody x. f_equal; lia.
Qed.
Lemma setUS_ok v : buf_ok (pbuf (setUnitStart p v)) /\
  view (pbuf (setUnitStart p v)) = with_unit_start (if v then 1 else 0) (view (pbuf p)) /\ ppos (setUnitStart p v) = ppos p.
Proof.
  pose proof (B 1) as H1. unfold setUnitStart. cbn [pbuf ppos].
  assert (E : (if v then nthz (pbuf p) 1 .| 64 else nthz (pbuf p) 1 .& 191) = setbit (nthz (pbuf p) 1) 6 (if v then 1 else 0)).
  { destruct v; [apply (b_or _ 6)|apply (b_and _ 6)]; assumption || lia. }
  rewrite E. assert (Hv : (if v then 1 else 0) = 0 \/ (if v then 1 else 0) = 1) by (destruct v; auto).
  split; [|split; [|reflexivity]].
  - apply buf_wr; [exact Hb|lia|apply setbit_byte; [assumption|lia|exact Hv]].
  - unfold view, with_unit_start; cbn [sync error unit_start priority pid_ scrambling afc counter body].
    rewrite !nthz_wr by lia. rewrite !dropz_wr by lia.
    change (0 =? 1) with false. change (1 =? 1) with true. change (2 =? 1) with false. change (3 =? 1) with false. cbn match.
    unfold byteP in H1. unfold setbit. change (2 ^ 6) with 64. set (x := nthz (pbuf p) 1) in *. clearbody x. set (w := if v then 1 else 0) in *. clearbody w. f_equal; lia.
Qed.
Lemma af_byte v : byteP (nthz (pbuf p) 3 / 64 * 64 + nthz (pbuf p) 3 mod 16 + v mod 4 * 16).
Proof. pose proof (B 3) as H. unfold byteP in *. lia. Qed.
Lemma land_2 v : (v .& 2 =? 0) = negb (v / 2 mod 2 =? 1).
Proof.
  assert (E : v .& 2 = (v / 2 mod 2) * 2).
  { change 2 with (1 << 1) at 1. apply (Z.shiftr_div_pow2 _ 1 ltac:(lia)) || idtac.
    assert (F : Z.shiftr (v .& (1 << 1)) 1 = (v >> 1) .& 1) by (apply land_shift; lia).
    rewrite land_1 in F. rewrite shr_div in F by lia. rewrite shr_div in F by lia. change (2 ^ 1) with 2 in F. change (1 << 1) with 2 in *.
    assert (G : (v .& 2) mod 2 = 0).
    { rewrite <- land_1. rewrite <- Z.land_assoc. now rewrite Z.land_0_r. }
    lia. }
  rewrite E. destruct (Z.eqb_spec (v / 2 mod 2) 1); destruct (Z.eqb_spec (v / 2 mod 2 * 2) 0); lia || reflexivity.
Qed.
Lemma setAF_ok v : buf_ok (pbuf (setAdaptationField p v)) /\
  view (pbuf (setAdaptationField p v)) = with_afc (v mod 4) (with_body (if v / 2 mod 2 =? 1 then wr (body (view (pbuf p))) 0 0 else body (view (pbuf p))) (view (pbuf p))) /\
  ppos (setAdaptationField p v) = (if v / 2 mod 2 =? 1 then ppos p else 4).
Proof.
  pose proof (B 3) as H1. pose proof (af_byte v) as H3. unfold setAdaptationField.
  rewrite land_2, b_CF, land_3, shl_mul by (assumption || lia). change (2 ^ 4) with 16. remember (nthz (pbuf p) 3) as x eqn:Ex.
  assert (W : buf_ok (wr (pbuf p) 3 (x / 64 * 64 + x mod 16 + v mod 4 * 16))) by (apply buf_wr; [exact Hb|lia|exact H3]).
  unfold byteP in H1.
  destruct (v / 2 mod 2 =? 1); cbn [negb]; cbn match; cbn [pbuf ppos].
  - split; [apply buf_wr; [exact W|lia|unfold byteP; lia]|]. split; [|reflexivity].
    unfold view, with_afc, with_body; cbn [sync error unit_start priority pid_ scrambling afc counter body].
    rewrite !nthz_wr by (rewrite ?len_wr by lia; lia).
    rewrite dropz_wr_in by (rewrite ?len_wr by lia; lia). rewrite dropz_wr by lia. change (4 - 4) with 0.
    change (0 =? 3) with false. change (1 =? 3) with false. change (2 =? 3) with false. change (3 =? 3) with true.
    change (0 =? 4) with false. change (1 =? 4) with false. change (2 =? 4) with false. change (3 =? 4) with false. cbn match. rewrite <- ?Ex.
    f_equal; lia.
  - split; [exact W|]. split; [|reflexivity].
    unfold view, with_afc, with_body; cbn [sync error unit_start priority pid_ scrambling afc counter body].
    rewrite !nthz_wr by lia. rewrite !dropz_wr by lia.
    change (0 =? 3) with false. change (1 =? 3) with false. change (2 =? 3) with false. change (3 =? 3) with true. cbn match. rewrite <- ?Ex.
    f_equal; lia.
Qed.
End Setters.

(** ** Splices *)
Lemma dropz_splice_after l i xs k : 0 <= i -> i + len xs <= k -> k <= len l -> dropz k (splice l i xs) = dropz k l.
Proof.
  intros Hi H Hk. pose proof (len_nonneg xs). apply nthz_ext.
  - rewrite !len_dropz by (rewrite ?len_splice; lia). rewrite len_splice by lia. reflexivity.
  - intros j Hj. rewrite len_dropz in Hj by (rewrite len_splice; lia). rewrite !nthz_dropz by lia. apply splice_out; lia.
Qed.
Lemma takez_splice_before l i xs k : 0 <= k <= i -> i + len xs <= len l -> takez k (splice l i xs) = takez k l.
Proof.
  intros Hk H. pose proof (len_nonneg xs). apply nthz_ext.
  - rewrite !len_takez by (rewrite ?len_splice; lia). reflexivity.
  - intros j Hj. rewrite len_takez in Hj by (rewrite len_splice; lia). rewrite !nthz_takez by lia. apply splice_out; lia.
Qed.
Lemma dropz_splice_end l i xs : 0 <= i -> i + len xs = len l -> dropz i (splice l i xs) = xs.
Proof.
  intros Hi H. pose proof (len_nonneg xs). unfold splice. rewrite dropz_app_exact by (rewrite len_takez; lia).
  rewrite H. unfold dropz, len. rewrite Nat2Z.id, skipn_all. apply app_nil_r.
Qed.
Lemma takez_dropz_comm {A} a b (l : list A) : 0 <= a -> 0 <= b -> takez a (dropz b l) = dropz b (takez (a + b) l).
Proof. intros. unfold takez, dropz. rewrite Z2Nat.inj_add by lia. rewrite firstn_skipn_comm. now rewrite Nat.add_comm. Qed.
Lemma buf_splice b i xs : buf_ok b -> bytesP xs -> 0 <= i -> i + len xs <= 188 -> buf_ok (splice b i xs).
Proof. intros [H1 H2] Hx Hi Hl. split; [now apply bytesP_splice|rewrite len_splice; lia]. Qed.

(** ** Views of bytes *)
Lemma view_af b : buf_ok b -> getAdaptationField b = afc (view b).
Proof. intros H. unfold getAdaptationField. rewrite b_30 by now apply buf_nth. reflexivity. Qed.
Lemma afc_range b : buf_ok b -> 0 <= afc (view b) < 4.
Proof. intros. unfold view; cbn [afc]. lia. Qed.
Lemma af_len_view b : buf_ok b -> nthz (body (view b)) 0 = nthz b 4.
Proof. intros [_ H]. rewrite body_view, nthz_dropz by lia. reflexivity. Qed.
Lemma start_view b : buf_ok b -> payload_start b = if 1 <? afc (view b) then 5 + nthz b 4 else 4.
Proof.
  intros H. unfold payload_start, getAdaptationFieldLen. rewrite !(view_af b H). pose proof (afc_range b H).
  destruct (1 <? afc (view b)) eqn:E; destruct (Z.eqb_spec (afc (view b)) 0); lia.
Qed.

(** A packet being filled; [c] is what was put in so far. *)
Record building (p : pkt) (c : list Z) : Prop := {
  bd_buf : buf_ok (pbuf p);
  bd_pos : 4 <= ppos p <= 188;
  bd_afc : afc (view (pbuf p)) = 1 \/ afc (view (pbuf p)) = 3;
  bd_start : payload_start (pbuf p) <= ppos p;
  bd_cont : dropz (payload_start (pbuf p)) (takez (ppos p) (pbuf p)) = c }.
Lemma start_ge b : buf_ok b -> 4 <= payload_start b.
Proof. intros H. rewrite start_view by assumption. pose proof (buf_nth b 4 H) as Q. unfold byteP in Q. dif; lia. Qed.

Lemma building_len p c : building p c -> len c = ppos p - payload_start (pbuf p).
Proof.
  intros [[H1 H2] Hp _ Hs <-]. pose proof (start_ge (pbuf p) (conj H1 H2)). rewrite len_dropz by (rewrite len_takez; lia). rewrite len_takez by lia. reflexivity.
Qed.
Lemma view_same4 a b : takez 4 a = takez 4 b -> dropz 4 a = dropz 4 b -> view a = view b.
Proof.
  intros H1 H2. rewrite <- (takez_dropz 4 a), <- (takez_dropz 4 b). now rewrite H1, H2.
Qed.
Lemma nthz_take4 a b i : takez 4 a = takez 4 b -> 4 <= len a -> 4 <= len b -> 0 <= i < 4 -> nthz a i = nthz b i.
Proof. intros H La Lb Hi. rewrite <- (nthz_takez a i 4), <- (nthz_takez b i 4) by lia. now rewrite H. Qed.
Definition same_header (a b : list Z) : Prop :=
  sync (view a) = sync (view b) /\ error (view a) = error (view b) /\ unit_start (view a) = unit_start (view b) /\
  priority (view a) = priority (view b) /\ pid_ (view a) = pid_ (view b) /\ scrambling (view a) = scrambling (view b) /\
  counter (view a) = counter (view b).
Lemma same_header_4 a b : takez 4 a = takez 4 b -> len a = 188 -> len b = 188 -> same_header a b /\ afc (view a) = afc (view b).
Proof.
  intros H La Lb. unfold same_header, view. cbn [sync error unit_start priority pid_ scrambling afc counter].
  rewrite !(nthz_take4 a b) by (assumption || lia). now repeat split.
Qed.
Lemma same_header_refl a : same_header a a. Proof. now repeat split. Qed.
Lemma same_header_trans a b c : same_header a b -> same_header b c -> same_header a c.
Proof. unfold same_header. intros (?&?&?&?&?&?&?) (?&?&?&?&?&?&?). repeat split; congruence. Qed.

Lemma payload_eq b : buf_ok b -> afc (view b) = 1 \/ (afc (view b) = 3 /\ nthz b 4 <= 182) -> payload b = Some (dropz (payload_start b) b).
Proof.
  intros H Ha. pose proof (buf_nth b 4 H) as Q. unfold byteP in Q. unfold payload. rewrite af_len_view, body_view, start_view by assumption.
  destruct Ha as [E|[E Hn]]; rewrite E.
  - reflexivity.
  - change (3 =? 1) with false. change (3 =? 3) with true. change (1 <? 3) with true. cbn [andb]. cbn match.
    destruct (Z.leb_spec (nthz b 4) 182); [|lia]. rewrite dropz_dropz by lia. do 2 f_equal. lia.
Qed.

Lemma fillFree_ok p c d : building p c -> bytesP d -> len d < 2147483648 ->
  exists p', fillFree p d = Some (Z.min (188 - ppos p) (len d), p') /\ building p' (c ++ takez (188 - ppos p) d) /\
  ppos p' = Z.min 188 (ppos p + len d) /\ takez (payload_start (pbuf p)) (pbuf p') = takez (payload_start (pbuf p)) (pbuf p).
Proof.
  intros HB Hd Hl. pose proof (building_len p c HB) as LC. destruct HB as [Hb Hp Ha Hs Hc]. pose proof (len_nonneg d).
  pose proof (start_ge (pbuf p) Hb) as SG. destruct Hb as [Hb1 Hb2].
  assert (S32 : s32 (len d) = len d) by (unfold s32, u32; rewrite Z.mod_small by lia; destruct (Z.ltb_spec (len d) 2147483648); lia).
  unfold fillFree, getBytesFree. destruct (Z.ltb_spec 188 (ppos p)); [lia|]. rewrite S32.
  destruct (Z.ltb_spec (Z.min (188 - ppos p) (len d)) 0); [lia|].
  set (n := Z.min (188 - ppos p) (len d)) in *. eexists. split; [reflexivity|]. cbn [pbuf ppos].
  assert (Ln : len (takez n d) = n) by (apply len_takez; lia).
  assert (B' : buf_ok (splice (pbuf p) (ppos p) (takez n d))) by (apply buf_splice; [split; assumption|now apply bytesP_takez|lia|lia]).
  assert (T : takez (payload_start (pbuf p)) (splice (pbuf p) (ppos p) (takez n d)) = takez (payload_start (pbuf p)) (pbuf p)) by (apply takez_splice_before; lia).
  assert (T4 : takez 4 (splice (pbuf p) (ppos p) (takez n d)) = takez 4 (pbuf p)) by (apply takez_splice_before; lia).
  destruct (same_header_4 _ _ T4 (proj2 B') Hb2) as [_ A4].
  assert (S' : payload_start (splice (pbuf p) (ppos p) (takez n d)) = payload_start (pbuf p)).
  { rewrite !start_view by (assumption || (split; assumption)). rewrite A4. destruct (1 <? afc (view (pbuf p))) eqn:E1; [|reflexivity].
    f_equal. rewrite splice_out; [reflexivity|lia|lia|]. left. rewrite start_view in Hs by (split; assumption). rewrite E1 in Hs.
    pose proof (buf_nth (pbuf p) 4 (conj Hb1 Hb2)) as Q. unfold byteP in Q. lia. }
  split; [|split; [lia|exact T]]. split; cbn [pbuf ppos].
  - exact B'.
  - lia.
  - rewrite A4. exact Ha.
  - rewrite S'. lia.
  - rewrite S'. replace (takez (188 - ppos p) d) with (takez n d)
      by (unfold n; destruct (Z.le_ge_cases (188 - ppos p) (len d)); [now rewrite Z.min_l by lia|rewrite Z.min_r by lia; rewrite !takez_all by lia; reflexivity]).
    subst c. unfold splice. rewrite app_assoc. rewrite takez_app_exact by (rewrite len_app, len_takez; lia).
    apply dropz_app. rewrite len_takez by lia. lia.
Qed.

(** ** Stuffing *)
Lemma filler_len : len filler = 184. Proof. reflexivity. Qed.
Lemma filler_bytes : bytesP filler. Proof. apply all_bytes_ok. vm_compute. reflexivity. Qed.
Lemma getFree_ok p : ppos p <= 188 -> getBytesFree p = Some (188 - ppos p).
Proof. intros. unfold getBytesFree. destruct (Z.ltb_spec 188 (ppos p)); [lia|reflexivity]. Qed.
Lemma mm_ok b dst src n : 0 <= n -> dst + n <= 188 -> src + n <= 188 -> mm b dst src n = Some (splice b dst (takez n (dropz src b))).
Proof.
  intros. unfold mm. destruct (Z.ltb_spec n 0); [lia|]. destruct (Z.ltb_spec 188 (dst + n)); [lia|]. destruct (Z.ltb_spec 188 (src + n)); [lia|]. reflexivity.
Qed.
Lemma ms_ok b dst xs : 0 <= dst -> dst + len xs <= 188 -> ms b dst xs = Some (splice b dst xs).
Proof. intros. unfold ms. destruct (Z.ltb_spec dst 0); [lia|]. destruct (Z.ltb_spec 188 (dst + len xs)); [lia|]. reflexivity. Qed.

(** The second half: stuffing an existing adaptation field of length s. *)
Definition stuff3 (p : pkt) : option pkt :=
  n <- getBytesFree p;;
  p <- (if (getAdaptationField (pbuf p) =? 3) && negb (n =? 0) then
          let s := nthz (pbuf p) 4 in
          b <- mm (pbuf p) (5 + s + n) (5 + s) (188 - 5 - s - n);;
          b <- ms b (5 + s) (repeat (ch "$") (Z.to_nat n));;
          Some (mkpkt (wr b 4 (u8 (nthz b 4 + n))) (ppos p + n))
        else Some p);;
  if n =? 0 then Some p
  else
    let '(b, n) := if n =? nthz (pbuf p) 4 then (wr (pbuf p) 5 0, n - 1) else (pbuf p, n) in
    b <- ms b (5 + (nthz b 4 - n)) (takez n filler);;
    Some (mkpkt b (ppos p)).

Record stuffed (p : pkt) (c : list Z) (p' : pkt) : Prop := {
  st_buf : buf_ok (pbuf p');
  st_pos : ppos p' = 188;
  st_head : same_header (pbuf p') (pbuf p);
  st_afc : afc (view (pbuf p')) = 1 /\ afc (view (pbuf p)) = 1 \/ afc (view (pbuf p')) = 3;
  st_payload : payload (pbuf p') = Some c;
  st_field : afc (view (pbuf p)) = 3 -> nthz (pbuf p) 4 <= nthz (pbuf p') 4 /\
     takez (nthz (pbuf p) 4) (dropz 5 (pbuf p')) = takez (nthz (pbuf p) 4) (dropz 5 (pbuf p)) }.

Lemma stuff3_ok p c : building p c -> afc (view (pbuf p)) = 3 -> c <> [] -> exists p', stuff3 p = Some p' /\ stuffed p c p'.
Proof.
  intros HB A3 Hne. pose proof (building_len p c HB) as LC. destruct HB as [Hb Hp Ha Hs Hc].
  assert (0 < len c) by (destruct c; [contradiction|rewrite len_cons; pose proof (len_nonneg c); lia]).
  pose proof (start_view (pbuf p) Hb) as SV. rewrite A3 in SV. change (1 <? 3) with true in SV. cbn match in SV. rewrite SV in *.
  pose proof (buf_nth (pbuf p) 4 Hb) as Q. unfold byteP in Q. pose proof (proj2 Hb) as HL. set (b := pbuf p) in *. set (s := nthz b 4) in *.
  unfold stuff3. rewrite getFree_ok by lia. fold b. rewrite view_af by exact Hb. rewrite A3. change (3 =? 3) with true. cbn [andb].
  set (n := 188 - ppos p) in *. fold s. destruct (Z.eqb_spec n 0) as [N0|N0]; cbn [negb].
  - exists p. split; [reflexivity|]. assert (ppos p = 188) by lia.
    split; fold b; try assumption; try (now right); try (now intros; split; [lia|reflexivity]).
    + apply same_header_refl.
    + rewrite payload_eq by (first [assumption | right; split; [assumption|lia]]). rewrite SV. f_equal. rewrite <- Hc. f_equal. rewrite takez_all by lia. reflexivity.
  - rewrite mm_ok by lia. set (x1 := takez (188 - 5 - s - n) (dropz (5 + s) b)). set (b1 := splice b (5 + s + n) x1).
    assert (L1 : len x1 = 183 - s - n) by (unfold x1; rewrite len_takez; [lia|rewrite len_dropz by lia; lia]).
    assert (B1 : buf_ok b1) by (apply buf_splice; [exact Hb|apply bytesP_takez, bytesP_dropz, Hb|lia|lia]).
    assert (Lr : len (repeat (ch "$") (Z.to_nat n)) = n) by (rewrite len_repeat; lia).
    rewrite ms_ok by lia. set (b2 := splice b1 (5 + s) (repeat (ch "$") (Z.to_nat n))).
    assert (B2 : buf_ok b2).
    { apply buf_splice; [exact B1| |lia|lia]. apply Forall_forall. intros y Hy. apply repeat_spec in Hy. subst y. unfold byteP, ch. vm_compute. intuition discriminate. }
    assert (N4 : nthz b2 4 = s) by (unfold b2; rewrite splice_out by (rewrite ?(proj2 B1); lia); unfold b1; rewrite splice_out by lia; reflexivity).
    rewrite N4. unfold u8. rewrite Z.mod_small by lia. cbn [pbuf ppos].
    set (b3 := wr b2 4 (s + n)). assert (B3 : buf_ok b3) by (apply buf_wr; [exact B2|lia|unfold byteP; lia]).
    assert (N43 : nthz b3 4 = s + n) by (unfold b3; rewrite nthz_wr by (rewrite ?(proj2 B2); lia); reflexivity).
    assert (T3 : takez 4 b3 = takez 4 b).
    { unfold b3, wr. rewrite takez_splice_before by (lens; rewrite ?(proj2 B2); lia). unfold b2. rewrite takez_splice_before by (rewrite ?(proj2 B1); lia).
      unfold b1. apply takez_splice_before; lia. }
    assert (D3 : dropz (5 + s + n) b3 = c).
    { unfold b3, wr. rewrite dropz_splice_after by (lens; rewrite ?(proj2 B2); lia). unfold b2. rewrite dropz_splice_after by (rewrite ?(proj2 B1); lia).
      unfold b1. rewrite dropz_splice_end by lia. unfold x1. rewrite takez_dropz_comm by lia. rewrite <- Hc. do 2 f_equal. lia. }
    assert (F3 : takez s (dropz 5 b3) = takez s (dropz 5 b)).
    { rewrite !takez_dropz_comm by lia. apply nthz_ext.
      - pose proof (proj2 B3). rewrite !len_dropz, !len_takez by (rewrite ?len_takez; lia). lia.
      - intros j Hj. pose proof (proj2 B3). rewrite len_dropz, len_takez in Hj by (rewrite ?len_takez; lia). rewrite !nthz_dropz, !nthz_takez by lia.
        unfold b3. rewrite nthz_wr by (rewrite ?(proj2 B2); lia). destruct (Z.eqb_spec (5 + j) 4); [lia|].
        unfold b2. rewrite splice_out by (rewrite ?(proj2 B1); lia). unfold b1. apply splice_out; lia. }
    rewrite N43. destruct (Z.eqb_spec n (s + n)) as [E|E].
    + (* all of it is new stuffing *)
      assert (s = 0) by lia. set (b4 := wr b3 5 0). assert (B4 : buf_ok b4) by (apply buf_wr; [exact B3|lia|unfold byteP; lia]).
      assert (N44 : nthz b4 4 = s + n) by (unfold b4; rewrite nthz_wr by (rewrite ?(proj2 B3); lia); exact N43). rewrite N44.
      assert (Lf : len (takez (n - 1) filler) = n - 1) by (apply len_takez; rewrite filler_len; lia).
      rewrite ms_ok by lia. eexists. split; [reflexivity|].
      set (b5 := splice b4 (5 + (s + n - (n - 1))) (takez (n - 1) filler)).
      assert (B5 : buf_ok b5) by (apply buf_splice; [exact B4|apply bytesP_takez, filler_bytes|lia|lia]).
      assert (N45 : nthz b5 4 = s + n) by (unfold b5; rewrite splice_out by (rewrite ?(proj2 B4); lia); exact N44).
      assert (T5 : takez 4 b5 = takez 4 b).
      { unfold b5. rewrite takez_splice_before by (rewrite ?(proj2 B4); lia). unfold b4, wr. rewrite takez_splice_before by (lens; rewrite ?(proj2 B3); lia). exact T3. }
      assert (D5 : dropz (5 + s + n) b5 = c).
      { unfold b5. rewrite dropz_splice_after by (rewrite ?(proj2 B4); lia). unfold b4, wr. rewrite dropz_splice_after by (lens; rewrite ?(proj2 B3); lia). exact D3. }
      destruct (same_header_4 b5 b T5 (proj2 B5) HL) as [S5 A5].
      split; cbn [pbuf ppos]; fold b5 b.
      * exact B5.
      * lia.
      * exact S5.
      * right. congruence.
      * rewrite payload_eq by (first [exact B5 | right; split; [congruence|lia]]). rewrite start_view by exact B5. rewrite A5, A3, N45. change (1 <? 3) with true. cbn match.
        replace (5 + (s + n)) with (5 + s + n) by lia. now rewrite D5.
      * intros _. rewrite N45. fold s. split; [lia|]. replace s with 0 by lia. now rewrite !takez_0.
    + assert (Lf : len (takez n filler) = n) by (apply len_takez; rewrite filler_len; lia).
      rewrite N43. rewrite ms_ok by lia. eexists. split; [reflexivity|].
      set (b5 := splice b3 (5 + (s + n - n)) (takez n filler)).
      assert (B5 : buf_ok b5) by (apply buf_splice; [exact B3|apply bytesP_takez, filler_bytes|lia|lia]).
      assert (N45 : nthz b5 4 = s + n) by (unfold b5; rewrite splice_out by (rewrite ?(proj2 B3); lia); exact N43).
      assert (T5 : takez 4 b5 = takez 4 b).
      { unfold b5. rewrite takez_splice_before by (rewrite ?(proj2 B3); lia). exact T3. }
      assert (D5 : dropz (5 + s + n) b5 = c).
      { unfold b5. rewrite dropz_splice_after by (rewrite ?(proj2 B3); lia). exact D3. }
      destruct (same_header_4 b5 b T5 (proj2 B5) HL) as [S5 A5].
      split; cbn [pbuf ppos]; fold b5 b.
      * exact B5.
      * lia.
      * exact S5.
      * right. congruence.
      * rewrite payload_eq by (first [exact B5 | right; split; [congruence|lia]]). rewrite start_view by exact B5. rewrite A5, A3, N45. change (1 <? 3) with true. cbn match.
        replace (5 + (s + n)) with (5 + s + n) by lia. now rewrite D5.
      * intros _. rewrite N45. fold s. split; [lia|]. rewrite <- F3. rewrite !takez_dropz_comm by lia. f_equal. unfold b5. apply takez_splice_before; rewrite ?(proj2 B3); lia.
Qed.

Lemma addStuffing_split p : getAdaptationField (pbuf p) = 3 -> ppos p < 188 -> addStuffing p = stuff3 p.
Proof.
  intros H Hp. unfold addStuffing, stuff3. rewrite getFree_ok by lia. rewrite H. change (3 =? 2) with false. change (3 =? 1) with false. cbn match.
  rewrite getFree_ok by lia. destruct (Z.eqb_spec (188 - ppos p) 0); [lia|]. rewrite ?H. reflexivity.
Qed.
Lemma addStuffing_ok p c : building p c -> c <> [] -> exists p', addStuffing p = Some p' /\ stuffed p c p'.
Proof.
  intros HB Hne. pose proof (building_len p c HB) as LC. pose proof HB as [Hb Hp Ha Hs Hc].
  assert (0 < len c) by (destruct c; [contradiction|rewrite len_cons; pose proof (len_nonneg c); lia]).
  pose proof (proj2 Hb) as HL.
  destruct Ha as [A1|A3].
  - pose proof (start_view (pbuf p) Hb) as SV. rewrite A1 in SV. change (1 <? 1) with false in SV. cbn match in SV. rewrite SV in *.
    destruct (Z.eq_dec (ppos p) 188) as [E|E].
    + exists p. unfold addStuffing. rewrite getFree_ok by lia. rewrite E. split; [reflexivity|].
      split; try assumption; try (now left); try (intros; lia).
      * apply same_header_refl.
      * rewrite payload_eq by (try assumption; now left). rewrite SV. f_equal. rewrite <- Hc. f_equal. rewrite takez_all by lia. reflexivity.
    + unfold addStuffing. rewrite getFree_ok by lia. rewrite view_af by assumption. rewrite A1.
      destruct (Z.eqb_spec (188 - ppos p) 0); [lia|]. change (1 =? 2) with false. change (1 =? 1) with true. cbn match.
      destruct (Z.eqb_spec (188 - ppos p) 184); [lia|]. rewrite mm_ok by lia.
      set (b1 := splice (pbuf p) 5 (takez 183 (dropz 4 (pbuf p)))).
      assert (L1 : len (takez 183 (dropz 4 (pbuf p))) = 183) by (rewrite len_takez; [lia|rewrite len_dropz by lia; lia]).
      assert (B1 : buf_ok b1) by (apply buf_splice; [exact Hb|apply bytesP_takez, bytesP_dropz, Hb|lia|lia]).
      set (p1 := mkpkt b1 (ppos p + 1)).
      assert (T1 : takez 4 b1 = takez 4 (pbuf p)) by (apply takez_splice_before; lia).
      destruct (same_header_4 b1 (pbuf p) T1 (proj2 B1) HL) as [S1 _].
      destruct (setAF_ok p1 B1 3) as (B2 & V2 & P2). change (3 / 2 mod 2 =? 1) with true in *. cbn match in V2, P2.
      set (p2 := setAdaptationField p1 3) in *. change (3 mod 4) with 3 in V2.
      assert (A2 : afc (view (pbuf p2)) = 3) by (rewrite V2; reflexivity).
      assert (N2 : nthz (pbuf p2) 4 = 0).
      { rewrite <- (af_len_view _ B2), V2. cbn [body with_afc with_body]. rewrite body_view. rewrite nthz_wr; [reflexivity| |lia]. pose proof (proj2 B1). cbn [pbuf p1]. rewrite len_dropz; lia. }
      assert (D2 : dropz 5 (pbuf p2) = takez 183 (dropz 4 (pbuf p))).
      { unfold p2, setAdaptationField. change (3 .& 2 =? 0) with false. cbn match. cbn [pbuf p1]. pose proof (proj2 B1) as LB1.
        rewrite !dropz_wr by (rewrite ?len_wr by lia; lia). unfold b1. apply dropz_splice_end; lia. }
      assert (HB2 : building p2 c).
      { split; try assumption.
        - rewrite P2. cbn [ppos p1]. lia.
        - now right.
        - rewrite start_view by exact B2. rewrite A2, N2, P2. cbn [ppos p1]. change (1 <? 3) with true. cbn match. lia.
        - rewrite start_view by exact B2. rewrite A2, N2, P2. cbn [ppos p1]. change (1 <? 3) with true. cbn match. change (5 + 0) with 5.
          replace (ppos p + 1) with ((ppos p - 4) + 5) by lia. rewrite <- takez_dropz_comm by lia. rewrite D2. rewrite takez_takez by lia.
          rewrite takez_dropz_comm by lia. rewrite <- Hc. do 2 f_equal. lia. }
      destruct (stuff3_ok p2 c HB2 A2 Hne) as (p3 & E3 & [R1 R2 R3 R4 R5 R6]).
      exists p3. fold p1. fold p2. split; [exact E3|].
      split; try assumption.
      * apply (same_header_trans _ _ _ R3). apply (same_header_trans _ b1); [|exact S1]. unfold same_header. rewrite V2. cbn [with_afc with_body sync error unit_start priority pid_ scrambling counter]. now repeat split.
      * destruct R4 as [[_ X]|X]; [congruence|now right].
      * intros; congruence.
  - destruct (Z.eq_dec (ppos p) 188) as [E|E].
    + exists p. unfold addStuffing. rewrite getFree_ok by lia. rewrite E. split; [reflexivity|].
      pose proof (start_view (pbuf p) Hb) as SV. rewrite A3 in SV. change (1 <? 3) with true in SV. cbn match in SV.
      split; try assumption; try (now right); try (intros; split; [lia|reflexivity]).
      * apply same_header_refl.
      * rewrite payload_eq by (first [assumption | right; split; [assumption|lia]]). f_equal. rewrite <- Hc. f_equal. rewrite takez_all by lia. reflexivity.
    + rewrite addStuffing_split by first [rewrite view_af by exact Hb; exact A3 | lia]. now apply stuff3_ok.
Qed.

(** ** Flags and clock reference *)
Lemma setAF3_bytes p : buf_ok (pbuf p) -> let b := pbuf (setAdaptationField p 3) in
  buf_ok b /\ same_header b (pbuf p) /\ afc (view b) = 3 /\ nthz b 4 = 0 /\ (forall j, 5 <= j -> nthz b j = nthz (pbuf p) j) /\
  ppos (setAdaptationField p 3) = ppos p.
Proof.
  intros Hb b. destruct (setAF_ok p Hb 3) as (B2 & V2 & P2). change (3 / 2 mod 2 =? 1) with true in *. cbn match in V2, P2. fold b in B2, V2.
  pose proof (proj2 Hb) as L.
  do 2 (split; [first [exact B2 | unfold same_header; rewrite V2; cbn [with_afc with_body sync error unit_start priority pid_ scrambling counter]; now repeat split]|]).
  split; [rewrite V2; reflexivity|]. split; [|split; [|exact P2]].
  - rewrite <- (af_len_view _ B2), V2. cbn [body with_afc with_body]. rewrite body_view. rewrite nthz_wr; [reflexivity| |lia]. rewrite len_dropz; lia.
  - intros j Hj. unfold b, setAdaptationField. change (3 .& 2 =? 0) with false. cbn match. cbn [pbuf]. rewrite !nthz_wr by (rewrite ?len_wr by lia; lia).
    destruct (Z.eqb_spec j 4); [lia|]. destruct (Z.eqb_spec j 3); [lia|]. reflexivity.
Qed.
Lemma same_header_wr b i v : len b = 188 -> 4 <= i < 188 -> same_header (wr b i v) b /\ afc (view (wr b i v)) = afc (view b).
Proof.
  intros L Hi. apply same_header_4; [|rewrite len_wr; lia|assumption]. unfold wr. apply takez_splice_before; [lia|]. unfold len in *; cbn [List.length]; lia.
Qed.
Lemma set_flag_ok k p v : 0 <= k < 8 -> buf_ok (pbuf p) ->
  let q := set_flag (2 ^ k) (255 - 2 ^ k) p v in
  let a := (afc (view (pbuf p)) =? 3) in
  buf_ok (pbuf q) /\ same_header (pbuf q) (pbuf p) /\ afc (view (pbuf q)) = 3 /\ ppos q = Z.max (ppos p) 6 /\
  nthz (pbuf q) 4 = (if a && negb (nthz (pbuf p) 4 =? 0) then nthz (pbuf p) 4 else 1) /\
  nthz (pbuf q) 5 = setbit (if a then nthz (pbuf p) 5 else 0) k (if v then 1 else 0) /\
  (forall j, 6 <= j -> nthz (pbuf q) j = nthz (pbuf p) j).
Proof.
  intros Hk Hb q a. pose proof (proj2 Hb) as L.
  assert (Hv : (if v then 1 else 0) = 0 \/ (if v then 1 else 0) = 1) by (destruct v; auto).
  unfold q, set_flag. rewrite updPos_buf. rewrite view_af by exact Hb. fold a. destruct a eqn:Ea; unfold a in Ea.
  - apply Z.eqb_eq in Ea. cbn [andb]. set (b := if nthz (pbuf p) 4 =? 0 then wr (pbuf p) 4 1 else pbuf p).
    assert (Bb : buf_ok b) by (unfold b; dif; [apply buf_wr; [exact Hb|lia|unfold byteP; lia]|exact Hb]).
    assert (Sb : same_header b (pbuf p) /\ afc (view b) = afc (view (pbuf p))) by (unfold b; dif; [apply same_header_wr; lia|now split; [apply same_header_refl|]]).
    assert (N4 : nthz b 4 = if negb (nthz (pbuf p) 4 =? 0) then nthz (pbuf p) 4 else 1).
    { unfold b. destruct (Z.eqb_spec (nthz (pbuf p) 4) 0); cbn [negb]; [rewrite nthz_wr by lia; reflexivity|reflexivity]. }
    assert (NJ : forall j, 5 <= j -> nthz b j = nthz (pbuf p) j).
    { intros j Hj. unfold b. dif; [|reflexivity]. rewrite nthz_wr by lia. destruct (Z.eqb_spec j 4); [lia|reflexivity]. }
    assert (Ev : (if v then nthz b 5 .| 2 ^ k else nthz b 5 .& (255 - 2 ^ k)) = setbit (nthz (pbuf p) 5) k (if v then 1 else 0)).
    { rewrite NJ by lia. destruct v; [apply b_or|apply b_and]; try assumption; now apply buf_nth. }
    rewrite Ev. cbn [pbuf ppos]. pose proof (proj2 Bb) as Lb. destruct (same_header_wr b 5 (setbit (nthz (pbuf p) 5) k (if v then 1 else 0)) Lb ltac:(lia)) as [S1 S2].
    split; [apply buf_wr; [exact Bb|lia|apply setbit_byte; [now apply buf_nth|assumption|exact Hv]]|].
    split; [apply (same_header_trans _ _ _ S1), Sb|]. split; [rewrite S2; destruct Sb as [_ ->]; exact Ea|].
    split; [apply updPos_pos|]. rewrite !nthz_wr by lia. change (4 =? 5) with false. change (5 =? 5) with true. cbn match.
    split; [exact N4|]. split; [reflexivity|]. intros j Hj. rewrite nthz_wr by lia. destruct (Z.eqb_spec j 5); [lia|]. apply NJ; lia.
  - cbn [andb]. set (p1 := updPos p 6). assert (Hb1 : buf_ok (pbuf p1)) by (unfold p1; rewrite updPos_buf; exact Hb).
    destruct (setAF3_bytes p1 Hb1) as (B2 & S2 & A2 & N4 & NJ & P2). set (b := pbuf (setAdaptationField p1 3)) in *. cbn [pbuf ppos].
    pose proof (proj2 B2) as L2.
    assert (B3 : buf_ok (wr b 4 1)) by (apply buf_wr; [exact B2|lia|unfold byteP; lia]). pose proof (proj2 B3) as L3.
    assert (Ev : (if v then 2 ^ k else 0) = setbit 0 k (if v then 1 else 0)).
    { unfold setbit. rewrite Z.div_0_l by lia. destruct v; lia. }
    rewrite Ev. destruct (same_header_wr b 4 1 L2 ltac:(lia)) as [Q1 Q2]. destruct (same_header_wr (wr b 4 1) 5 (setbit 0 k (if v then 1 else 0)) L3 ltac:(lia)) as [R1 R2].
    split; [apply buf_wr; [exact B3|lia|apply setbit_byte; [unfold byteP; lia|assumption|exact Hv]]|].
    split; [apply (same_header_trans _ _ _ R1), (same_header_trans _ _ _ Q1); unfold p1 in S2; rewrite updPos_buf in S2; exact S2|].
    split; [congruence|]. split; [rewrite P2; apply updPos_pos|].
    rewrite !nthz_wr by (rewrite ?L3; lia). change (4 =? 5) with false. change (5 =? 5) with true. change (4 =? 4) with true. cbn match.
    split; [reflexivity|]. split; [reflexivity|]. intros j Hj. rewrite !nthz_wr by (rewrite ?L3; lia). destruct (Z.eqb_spec j 5); [lia|]. destruct (Z.eqb_spec j 4); [lia|].
    rewrite NJ by lia. unfold p1. now rewrite updPos_buf.
Qed.

Definition pcr_bytes (v : Z) : list Z := be 4 (v / 600) ++ [v / 300 mod 2 * 128 + 126 + v mod 300 / 256; v mod 300 mod 256].
Lemma pcr_len v : len (pcr_bytes v) = 6. Proof. reflexivity. Qed.
Lemma setPCR_ok p v : buf_ok (pbuf p) -> 0 <= v ->
  let q := setPCR p v in
  buf_ok (pbuf q) /\ same_header (pbuf q) (pbuf p) /\ afc (view (pbuf q)) = 3 /\ ppos q = Z.max (ppos p) 12 /\
  nthz (pbuf q) 4 = 7 /\ nthz (pbuf q) 5 = setbit (nthz (pbuf p) 5) 4 1 /\ takez 6 (dropz 6 (pbuf q)) = pcr_bytes v /\
  (forall j, 12 <= j -> nthz (pbuf q) j = nthz (pbuf p) j).
Proof.
  intros Hb Hv q. unfold q, setPCR.
  set (p1 := updPos p 12). assert (Hb1 : buf_ok (pbuf p1)) by (unfold p1; rewrite updPos_buf; exact Hb).
  destruct (setAF3_bytes p1 Hb1) as (B2 & S2 & A2 & N4 & NJ & P2). set (b := pbuf (setAdaptationField p1 3)) in *. cbn [pbuf ppos].
  assert (NP : pbuf p1 = pbuf p) by (unfold p1; apply updPos_buf). rewrite NP in *.
  pose proof (proj2 B2) as L2. rewrite Z.quot_div_nonneg, Z.rem_mod_nonneg by lia.
  assert (N5 : nthz (wr b 4 7) 5 .| 0x10 = setbit (nthz (pbuf p) 5) 4 1).
  { rewrite nthz_wr by lia. change (5 =? 4) with false. cbn match. rewrite NJ by lia. apply (b_or _ 4); [now apply buf_nth|lia]. }
  rewrite N5. rewrite !land_ff, land_1. rewrite !shr_div by lia. rewrite !shl_mul by lia.
  assert (E8 : (v mod 300 .& 0x100) / 2 ^ 8 = v mod 300 / 256).
  { rewrite <- shr_div by lia. change 0x100 with (1 << 8). rewrite land_shift by lia. rewrite land_1, shr_div by lia. change (2 ^ 8) with 256.
    clear. pose proof (Z.mod_pos_bound v 300 ltac:(lia)). apply Z.mod_small. change (1 << 8) with 256. lia. }
  rewrite E8.
  assert (ED : v / 300 / 2 ^ 1 = v / 600) by (rewrite Z.div_div by lia; reflexivity). rewrite ED.
  set (x5 := setbit (nthz (pbuf p) 5) 4 1). assert (X5 : byteP x5) by (apply setbit_byte; [now apply buf_nth|lia|now right]).
  set (x10 := 126 + v / 300 mod 2 * 2 ^ 7 + v mod 300 / 256).
  assert (X10 : byteP x10) by (unfold x10, byteP; change (2 ^ 7) with 128; lia).
  set (b1 := wr b 4 7). set (b2 := wr b1 5 x5). set (b3 := wr b2 6 _). set (b4 := wr b3 7 _). set (b5 := wr b4 8 _). set (b6 := wr b5 9 _). set (b7 := wr b6 10 _). set (b8 := wr b7 11 _).
  assert (M : forall z, byteP (z mod 256)) by (intros; unfold byteP; lia).
  assert (B3 : buf_ok b1) by (apply buf_wr; [exact B2|lia|unfold byteP; lia]).
  assert (B4 : buf_ok b2) by (apply buf_wr; [exact B3|lia|exact X5]).
  assert (B5 : buf_ok b3) by (apply buf_wr; [exact B4|lia|apply M]).
  assert (B6 : buf_ok b4) by (apply buf_wr; [exact B5|lia|apply M]).
  assert (B7 : buf_ok b5) by (apply buf_wr; [exact B6|lia|apply M]).
  assert (B8 : buf_ok b6) by (apply buf_wr; [exact B7|lia|apply M]).
  assert (B9 : buf_ok b7) by (apply buf_wr; [exact B8|lia|exact X10]).
  assert (B10 : buf_ok b8) by (apply buf_wr; [exact B9|lia|apply M]).
  assert (H8 : same_header b8 b /\ afc (view b8) = afc (view b)).
  { destruct (same_header_wr b 4 7 L2 ltac:(lia)) as [Q1 R1].
    destruct (same_header_wr b1 5 x5 (proj2 B3) ltac:(lia)) as [Q2 R2].
    destruct (same_header_wr b2 6 ((v / 600 / 2 ^ 24) mod 256) (proj2 B4) ltac:(lia)) as [Q3 R3].
    destruct (same_header_wr b3 7 ((v / 600 / 2 ^ 16) mod 256) (proj2 B5) ltac:(lia)) as [Q4 R4].
    destruct (same_header_wr b4 8 ((v / 600 / 2 ^ 8) mod 256) (proj2 B6) ltac:(lia)) as [Q5 R5].
    destruct (same_header_wr b5 9 ((v / 600) mod 256) (proj2 B7) ltac:(lia)) as [Q6 R6].
    destruct (same_header_wr b6 10 x10 (proj2 B8) ltac:(lia)) as [Q7 R7].
    destruct (same_header_wr b7 11 (v mod 300 mod 256) (proj2 B9) ltac:(lia)) as [Q8 R8].
    split.
    - exact (same_header_trans _ _ _ Q8 (same_header_trans _ _ _ Q7 (same_header_trans _ _ _ Q6 (same_header_trans _ _ _ Q5 (same_header_trans _ _ _ Q4 (same_header_trans _ _ _ Q3 (same_header_trans _ _ _ Q2 Q1))))))).
    - unfold b8, b7, b6, b5, b4, b3, b2, b1 in *. congruence. }
  split; [exact B10|]. split; [apply (same_header_trans _ b); [apply H8|exact S2]|]. split; [destruct H8 as [_ ->]; exact A2|].
  split; [rewrite P2; apply updPos_pos|].
  assert (NT : forall j, 0 <= j -> nthz b8 j =
    if j =? 11 then v mod 300 mod 256 else if j =? 10 then x10 else if j =? 9 then (v / 600) mod 256 else if j =? 8 then (v / 600 / 2 ^ 8) mod 256
    else if j =? 7 then (v / 600 / 2 ^ 16) mod 256 else if j =? 6 then (v / 600 / 2 ^ 24) mod 256 else if j =? 5 then x5 else if j =? 4 then 7 else nthz b j).
  { intros j Hj. unfold b8. rewrite nthz_wr by (rewrite ?(proj2 B9); lia). unfold b7. rewrite nthz_wr by (rewrite ?(proj2 B8); lia).
    unfold b6. rewrite nthz_wr by (rewrite ?(proj2 B7); lia). unfold b5. rewrite nthz_wr by (rewrite ?(proj2 B6); lia).
    unfold b4. rewrite nthz_wr by (rewrite ?(proj2 B5); lia). unfold b3. rewrite nthz_wr by (rewrite ?(proj2 B4); lia).
    unfold b2. rewrite nthz_wr by (rewrite ?(proj2 B3); lia). unfold b1. rewrite nthz_wr by lia. reflexivity. }
  split; [rewrite NT by lia; reflexivity|]. split; [rewrite NT by lia; reflexivity|]. split.
  - apply nthz_ext.
    + rewrite len_takez by (rewrite len_dropz; rewrite ?(proj2 B10); lia). reflexivity.
    + intros j Hj. rewrite len_takez in Hj by (rewrite len_dropz; rewrite ?(proj2 B10); lia).
      rewrite nthz_takez, nthz_dropz by lia. rewrite NT by lia.
      assert (E : j = 0 \/ j = 1 \/ j = 2 \/ j = 3 \/ j = 4 \/ j = 5) by lia.
      destruct E as [-> |[-> |[-> |[-> |[-> | ->]]]]].
      * reflexivity.
      * reflexivity.
      * reflexivity.
      * change (nthz (pcr_bytes v) 3) with ((v / 600 / 1) mod 256). rewrite Z.div_1_r. reflexivity.
      * change (nthz (pcr_bytes v) 4) with (v / 300 mod 2 * 128 + 126 + v mod 300 / 256). change (6 + 4 =? 11) with false. change (6 + 4 =? 10) with true. cbn match. unfold x10. change (2 ^ 7) with 128. lia.
      * reflexivity.
  - intros j Hj. rewrite NT by lia. do 8 (match goal with |- context [j =? ?c] => destruct (Z.eqb_spec j c); [lia|] end). apply NJ. lia.
Qed.
Lemma pcr_value b v : buf_ok b -> 0 <= v -> afc (view b) = 3 -> 7 <= nthz b 4 -> nthz b 5 / 16 mod 2 = 1 -> takez 6 (dropz 6 b) = pcr_bytes v ->
  pcr b = Some (v mod (2 ^ 33 * 300)).
Proof.
  intros Hb Hv A N4 N5 HT. pose proof (proj2 Hb) as L. unfold pcr. rewrite A. rewrite af_len_view by exact Hb.
  change (2 <=? 3) with true. destruct (Z.leb_spec 7 (nthz b 4)); [|lia]. unfold af_bit, PCR_FLAG. rewrite body_view. rewrite nthz_dropz by lia.
  change (4 + 1) with 5. change (2 ^ 4) with 16. rewrite N5. change (1 =? 1) with true. cbn [andb]. cbn match.
  rewrite dropz_dropz by lia. change (4 + 2) with 6. change (2 + 4) with 6. rewrite !nthz_dropz by lia.
  assert (E : forall j, 0 <= j < 6 -> nthz b (6 + j) = nthz (pcr_bytes v) j) by (intros j Hj; rewrite <- HT, nthz_takez, nthz_dropz by lia; reflexivity).
  change (4 + 6) with (6 + 4). change (4 + 7) with (6 + 5). rewrite !E by lia.
  assert (T4 : takez 4 (dropz 6 b) = be 4 (v / 600)).
  { rewrite <- (takez_takez 4 6) by lia. rewrite HT. unfold pcr_bytes. apply takez_app_exact. reflexivity. }
  rewrite T4, unbe_be. change (nthz (pcr_bytes v) 4) with (v / 300 mod 2 * 128 + 126 + v mod 300 / 256). change (nthz (pcr_bytes v) 5) with (v mod 300 mod 256).
  change (256 ^ Z.of_nat 4) with (2 ^ 32). f_equal.
  assert (X : (v / 300 mod 2 * 128 + 126 + v mod 300 / 256) / 128 = v / 300 mod 2) by lia.
  assert (Y : (v / 300 mod 2 * 128 + 126 + v mod 300 / 256) mod 2 = v mod 300 / 256) by lia.
  rewrite X, Y. assert (W : v mod 300 / 256 * 256 + v mod 300 mod 256 = v mod 300) by lia. rewrite W.
  assert (W2 : (v / 600) mod 2 ^ 32 * 2 + v / 300 mod 2 = (v / 300) mod 2 ^ 33).
  { replace (v / 600) with (v / 300 / 2) by (rewrite Z.div_div by lia; reflexivity). change (2 ^ 33) with (2 * 2 ^ 32). rewrite (Z.rem_mul_r (v / 300) 2 (2 ^ 32)) by lia. lia. }
  rewrite W2. rewrite (Z.mul_comm (2 ^ 33) 300). rewrite (Z.rem_mul_r v 300 (2 ^ 33)) by lia. lia.
Qed.
