From Verif Require Import Common CommonFacts Encode_Model Str_Model Str_Proofs JsonVal_Model Url_Model UrlText_Proofs Http_Model Http_Spec HttpRun_Proofs HttpVars_Proofs.

(** ** Blanks *)
Lemma trim_front_blanks b s : blanks b -> trim_front (b ++ s) = trim_front s.
Proof. induction 1 as [|c b H H1 IH]; [reflexivity|]. cbn [app trim_front]. replace ((c =? 32) || (c =? 9)) with true by lia. exact IH. Qed.
Lemma trim_front_tight s t : (forall c r, s = c :: r -> c <> 32 /\ c <> 9) -> s <> [] -> trim_front (s ++ t) = s ++ t.
Proof.
  intros T N. destruct s as [|c s]; [congruence|]. cbn [app trim_front]. destruct (T c s eq_refl). now replace ((c =? 32) || (c =? 9)) with false by lia.
Qed.
Lemma blanks_rev b : blanks b -> blanks (rev b).
Proof. intros B. apply Forall_rev. exact B. Qed.
Lemma Trim_tight b1 s b2 : blanks b1 -> blanks b2 -> tight s -> Trim (b1 ++ s ++ b2) = s.
Proof.
  intros B1 B2 T. unfold Trim. rewrite trim_front_blanks by assumption. destruct s as [|c s].
  - cbn [app]. rewrite <- (app_nil_r b2) at 1. rewrite trim_front_blanks by assumption. reflexivity.
  - rewrite trim_front_tight; [|intros x r E; apply (T x r); now left|discriminate]. rewrite rev_app_distr.
    rewrite trim_front_blanks by now apply blanks_rev. rewrite <- (app_nil_r (rev (c :: s))). rewrite trim_front_tight.
    + now rewrite app_nil_r, rev_involutive.
    + intros x r E. apply (T x (rev r)). right. rewrite <- (rev_involutive (c :: s)), E. reflexivity.
    + intros E. apply (f_equal (@rev Z)) in E. rewrite rev_involutive in E. discriminate E.
Qed.

(** ** Names of headers *)
Lemma same_case_ok a : forall b, len a = len b -> ~ In 0 b -> same_case a b = true <-> folded a = folded b.
Proof.
  induction a as [|x a IH]; intros [|y b] L Z0; rewrite ?len_cons in L.
  - cbn. tauto.
  - pose proof (len_nonneg b). change (len (@nil Z)) with 0 in L. lia.
  - pose proof (len_nonneg a). change (len (@nil Z)) with 0 in L. lia.
  - cbn [same_case folded map]. fold (folded a). fold (folded b). change (if (65 <=? x) && (x <=? 90) then x + 32 else x) with (lower x).
    change (if (65 <=? y) && (y <=? 90) then y + 32 else y) with (lower y).
    destruct (lower x =? lower y) eqn:E; cbn [negb].
    + assert (X : x <> 0). { intros ->. apply Z0. left. change (lower 0) with 0 in E. unfold lower in E. destruct ((65 <=? y) && (y <=? 90)) eqn:Q; lia. }
      replace (x =? 0) with false by lia. rewrite IH; [|lia|intros I; apply Z0; now right].
      split; [intros ->; f_equal; lia|intros K; now injection K].
    + split; [discriminate|]. intros K. injection K as K1 K2. lia.
Qed.
Lemma folded_len s : len (folded s) = len s.
Proof. unfold folded. apply len_map. Qed.
Lemma hit_ok n i : ~ In 0 i -> (len n =? len i) && same_case n i = true <-> folded n = folded i.
Proof.
  intros Z0. destruct (len n =? len i) eqn:L; cbn [andb].
  - apply same_case_ok; [lia|assumption].
  - split; [discriminate|]. intros E. apply (f_equal len) in E. rewrite !folded_len in E. lia.
Qed.
Lemma sget_in k l v : sget k l = Some v -> In (k, v) l.
Proof.
  induction l as [|[a b] l IH]; cbn [sget]; intros E; [discriminate E|]. destruct (beqb k a) eqn:B; [|right; now apply IH].
  apply beqb_eq in B. injection E as <-. subst. now left.
Qed.
Lemma last_value_in k l v : last_value k l = Some v -> In (k, v) l.
Proof.
  unfold last_value. destruct (find _ (rev l)) as [[a b]|] eqn:E; [|discriminate]. intros K. injection K as <-.
  apply find_some in E. destruct E as [I B]. apply in_rev in I. apply beqb_eq in B. cbn [fst] in B. now subst.
Qed.
Lemma last_value_none k l : last_value k l = None -> forall v, ~ In (k, v) l.
Proof.
  unfold last_value. destruct (find _ (rev l)) as [[a b]|] eqn:E; [discriminate|]. intros _ v I. apply in_rev in I.
  pose proof (find_none _ _ E _ I) as B. cbn [fst] in B. now rewrite beqb_refl in B.
Qed.
Lemma find_sget f l a b : (forall x y, fst x = fst y -> f x = f y) -> find f l = Some (a, b) -> sget a l = Some b.
Proof.
  intros F. induction l as [|[c d] l IH]; cbn [find sget]; [discriminate|]. intros E. destruct (f (c, d)) eqn:Fc.
  - injection E as <- <-. now rewrite beqb_refl.
  - destruct (beqb a c) eqn:B; [|now apply IH]. apply beqb_eq in B. subst c. apply find_some in E. destruct E as [_ E].
    rewrite (F (a, d) (a, b) eq_refl) in Fc. congruence.
Qed.
Lemma GetHeader_ok h hs name : (forall k, sget k h = last_value k hs) -> ~ In 0 name ->
  (forall v, says hs name v -> find_header name h = Some v) /\ (silent hs name -> find_header name h = None).
Proof.
  intros K Z0. unfold find_header. rewrite K.
  assert (F : forall x y : list Z * list Z, fst x = fst y -> (len (fst x) =? len name) && same_case (fst x) name = (len (fst y) =? len name) && same_case (fst y) name)
    by (intros x y ->; reflexivity).
  split.
  - intros v [(e & I & E) S]. destruct (last_value name hs) as [w|] eqn:L.
    + apply last_value_in in L. f_equal. apply (S (name, w) L eq_refl).
    + destruct (find _ h) as [[a b]|] eqn:D.
      * pose proof (find_sget _ _ _ _ F D) as G. rewrite K in G. apply last_value_in in G. apply find_some in D. destruct D as [_ D].
        cbn [fst] in D. apply hit_ok in D; [|assumption]. cbn [snd]. f_equal. apply (S (a, b) G D).
      * exfalso. destruct (last_value (fst e) hs) as [w|] eqn:L2.
        -- rewrite <- K in L2. apply sget_in in L2. pose proof (find_none _ _ D _ L2) as N. cbn [fst] in N.
           apply hit_ok in E; [|assumption]. congruence.
        -- apply (last_value_none _ _ L2 (snd e)). now destruct e.
  - intros S. destruct (last_value name hs) as [w|] eqn:L; [apply last_value_in in L; now destruct (S _ L)|].
    destruct (find _ h) as [[a b]|] eqn:D; [|reflexivity]. exfalso.
    pose proof (find_sget _ _ _ _ F D) as G. rewrite K in G. apply last_value_in in G. apply find_some in D. destruct D as [_ D].
    cbn [fst] in D. apply hit_ok in D; [|assumption]. now destruct (S _ G).
Qed.

(** ** The head *)
Lemma cut_cr_eol s : ~ In 13 s -> cut_cr (s ++ [13]) = s.
Proof. intros N. unfold cut_cr. rewrite (findc_at 13 s [] N). apply take_line. Qed.
Lemma blanks_notin b c : blanks b -> c <> 32 -> c <> 9 -> ~ In c b.
Proof. intros B N1 N2 I. unfold blanks in B. rewrite Forall_forall in B. apply B in I. lia. Qed.
Section Head.
Variable headerOnly cb : bool.
Notation R := (R headerOnly cb).
Lemma R_line st s rest : seenHeaders st = false -> line_text s ->
  R st (s ++ eol ++ rest) = match head_line cb st (s ++ [13]) with None => None | Some st => R st rest end.
Proof.
  intros E [N1 N2]. rewrite R_head by assumption. unfold eol. replace (s ++ [13; 10] ++ rest) with ((s ++ [13]) ++ 10 :: rest) by (rewrite <- app_assoc; reflexivity).
  assert (N : ~ In 10 (s ++ [13])) by (intros I; apply in_app_iff in I; destruct I as [I|[I|[]]]; [tauto|discriminate I]).
  now rewrite (findc_at 10 _ rest N), take_line, drop_line.
Qed.
Definition put_header (h : list Z * list Z) (st : hp) : hp :=
  let x := m st in with_msg st (mkMsg (method x) (url x) (protocol x) (assign (headers x) h) (vars x)) true.
Lemma R_header st h t rest : seenHeaders st = false -> seenReq st = true -> header_written h t ->
  R st (t ++ rest) = R (put_header h st) rest.
Proof.
  intros E Q (L1 & Nc & T1 & L2 & T2 & b1 & b2 & b3 & b4 & B1 & B2 & B3 & B4 & ->).
  set (name := b1 ++ fst h ++ b2). set (val := b3 ++ snd h ++ b4).
  assert (Et : b1 ++ fst h ++ b2 ++ bs ":" ++ b3 ++ snd h ++ b4 ++ eol = (name ++ 58 :: val) ++ eol).
  { unfold name, val. change (bs ":") with [58]. rewrite <- !app_assoc. cbn [app]. now rewrite <- !app_assoc. }
  rewrite Et. rewrite <- app_assoc.
  assert (Nn : forall c, c <> 32 -> c <> 9 -> ~ In c (fst h) -> ~ In c name).
  { intros c C1 C2 C3 I. unfold name in I. rewrite !in_app_iff in I. pose proof (blanks_notin b1 c B1 C1 C2). pose proof (blanks_notin b2 c B2 C1 C2). tauto. }
  assert (Nv : forall c, c <> 32 -> c <> 9 -> ~ In c (snd h) -> ~ In c val).
  { intros c C1 C2 C3 I. unfold val in I. rewrite !in_app_iff in I. pose proof (blanks_notin b3 c B3 C1 C2). pose proof (blanks_notin b4 c B4 C1 C2). tauto. }
  assert (Lt : line_text (name ++ 58 :: val)).
  { destruct L1, L2. split; intros I; apply in_app_iff in I; destruct I as [I|[I|I]]; try discriminate I; revert I; [apply Nn|apply Nv|apply Nn|apply Nv]; (assumption || lia). }
  rewrite R_line by assumption. unfold head_line. rewrite cut_cr_eol by apply Lt. rewrite Q. cbn [negb].
  replace (len (name ++ 58 :: val) =? 0) with false; [|symmetry; apply Z.eqb_neq; rewrite len_app, len_cons; pose proof (len_nonneg name); pose proof (len_nonneg val); lia].
  unfold header_line. rewrite findc_at by (apply Nn; [lia|lia|assumption]). rewrite take_line, dropz_S1.
  unfold SetHeader, name, val. rewrite !Trim_tight by assumption. reflexivity.
Qed.
Lemma R_headers hs ls : Forall2 header_written hs ls -> forall st rest, seenHeaders st = false -> seenReq st = true ->
  R st (List.concat ls ++ rest) = R (fold_left (fun st h => put_header h st) hs st) rest.
Proof.
  induction 1 as [|h t hs ls Hw H IH]; intros st rest E Q; [reflexivity|]. cbn [List.concat fold_left]. rewrite <- app_assoc.
  rewrite R_header with (h := h) by assumption. apply IH; [exact E|reflexivity].
Qed.
Lemma put_headers hs : forall st, seenReq st = true -> fold_left (fun st h => put_header h st) hs st =
  with_msg st (mkMsg (method (m st)) (url (m st)) (protocol (m st)) (fold_left assign hs (headers (m st))) (vars (m st))) true.
Proof.
  induction hs as [|h hs IH]; intros st Q.
  - cbn. destruct st as [[] ? sr]. cbn in *. subst sr. reflexivity.
  - cbn [fold_left]. rewrite IH by reflexivity. destruct st as [[]]. reflexivity.
Qed.

(** First lines. *)
Lemma first_line_ok t mt u pr path vs x : line_read t mt u pr -> url_read u path vs -> vars x = [] -> line_text t /\
  first_line x t = (mkMsg mt path pr (headers x) vs, true).
Proof.
  intros Lr U Vx.
  assert (U2 : set_url u (vars x) = (path, vs)).
  { unfold set_url. rewrite Vx. destruct U as [(N & -> & ->)|(p & q & -> & N & -> & ->)].
    - now rewrite findc_no.
    - rewrite findc_at by assumption. now rewrite take_line, dropz_S1. }
  destruct Lr as [((L1 & N1) & (L2 & N2) & L3 & H4 & ->)|((L1 & N1) & (L2 & N2) & L3 & H4 & ->)].
  - split.
    { unfold line_text in *. split; intros I; rewrite !in_app_iff in I; cbn [In] in I; intuition discriminate. }
    unfold first_line. cbn [app]. rewrite findc_at by assumption.
    rewrite take_line, dropz_S1.
    assert (Hf : beqb (takez 4 (mt ++ 32 :: u ++ 32 :: pr)) (bs "HTTP") = false).
    { apply beqb_neq. intros E. apply H4. rewrite <- E. destruct (Z.leb 4 (len mt + 1)) eqn:Q.
      - replace (mt ++ 32 :: u ++ 32 :: pr) with ((mt ++ [32]) ++ u ++ 32 :: pr) by (rewrite <- app_assoc; reflexivity).
        symmetry. apply takez_app. rewrite len_app. change (len [32]) with 1. lia.
      - exfalso. destruct mt as [|a [|b [|c [|d mt]]]]; cbn in E; try discriminate E; rewrite ?len_cons in Q; pose proof (len_nonneg mt); lia. }
    rewrite Hf. rewrite findc_at by assumption. rewrite take_line, dropz_S1, U2. reflexivity.
  - split.
    { unfold line_text in *. split; intros I; rewrite !in_app_iff in I; cbn [In] in I; intuition discriminate. }
    unfold first_line. cbn [app]. rewrite findc_at by assumption.
    rewrite take_line, dropz_S1.
    assert (Hf : beqb (takez 4 (pr ++ 32 :: u ++ 32 :: mt)) (bs "HTTP") = true).
    { apply beqb_eq. rewrite <- H4. apply takez_app. assert (Lp : len (takez 4 pr) = 4) by (rewrite H4; reflexivity).
      rewrite len_takez_min in Lp by lia. lia. }
    rewrite Hf. rewrite findc_at by assumption. rewrite take_line, dropz_S1, U2. reflexivity.
Qed.

(** The whole head of a message. *)
Lemma R_head_text first mt u pr path vs hs t cur rest : line_read first mt u pr -> url_read u path vs -> head_written first hs t ->
  R (clean cur) (t ++ rest) =
  match head_end cb (with_msg (clean cur) (mkMsg mt path pr (fold_left assign hs []) vs) true) with None => None | Some st => R st rest end.
Proof.
  intros Lr U (ls & Fw & ->). destruct (first_line_ok first mt u pr path vs (m (clean cur)) Lr U eq_refl) as (Lt & Fl).
  rewrite <- !app_assoc. rewrite R_line; [|reflexivity|assumption]. unfold head_line at 1. cbn [seenReq clean negb].
  rewrite cut_cr_eol by apply Lt. cbn [m clean] in Fl |- *. rewrite Fl. set (st1 := with_msg _ _ true).
  rewrite (R_headers hs ls Fw) by reflexivity. rewrite put_headers by reflexivity.
  change (eol ++ rest) with ([] ++ eol ++ rest). rewrite R_line; [|reflexivity|split; intros []]. unfold head_line. cbn [seenReq with_msg negb].
  change (cut_cr ([] ++ [13])) with (@nil Z). change (len (@nil Z) =? 0) with true. cbv iota. unfold st1. cbn [m with_msg method url protocol headers vars clean]. reflexivity.
Qed.

(** Lines without a blank in front of a message are ignored. *)
Lemma R_skip_line s cur rest : line_text s -> ~ In 32 s -> R (clean cur) (s ++ eol ++ rest) = R (clean cur) rest.
Proof.
  intros L N. rewrite R_line; [|reflexivity|assumption]. unfold head_line. cbn [seenReq clean negb]. rewrite cut_cr_eol by apply L.
  unfold first_line. now rewrite (findc_no 32 s N).
Qed.

(** *** The end of the head *)
Lemma headers_ok hs : headers_read (fold_left assign hs []) hs.
Proof.
  assert (K : forall k, sget k (fold_left assign hs []) = last_value k hs) by (intros k; rewrite sget_fold; now destruct (last_value k hs)).
  split; [|split].
  - intros k v L. unfold GetHeader, hasHeader, find_header. rewrite K, L. now split.
  - intros k v Z0 S. destruct (GetHeader_ok _ hs k K Z0) as [G _]. unfold GetHeader, hasHeader. now rewrite (G v S).
  - intros k Z0 S. destruct (GetHeader_ok _ hs k K Z0) as [_ G]. unfold GetHeader, hasHeader. now rewrite (G S).
Qed.
Lemma number_digits s : forall a, Forall digit s -> digits_val a s = fold_left (fun v c => v * 10 + (c - 48)) s a.
Proof.
  induction s as [|c s IH]; intros a F; [reflexivity|]. inversion F as [|? ? D F']. subst. unfold digit in D. cbn [digits_val fold_left].
  replace ((48 <=? c) && (c <=? 57)) with true by lia. now apply IH.
Qed.
Lemma fold_nonneg s : forall a, 0 <= a -> Forall digit s -> 0 <= fold_left (fun v c => v * 10 + (c - 48)) s a.
Proof.
  induction s as [|c s IH]; intros a A F; [exact A|]. inversion F as [|? ? D F']. subst. unfold digit in D. cbn [fold_left]. apply IH; [lia|assumption].
Qed.
Lemma number_atoll s n : number s n -> n < 2 ^ 63 -> atoll s = n /\ 0 <= n.
Proof.
  intros (N & F & ->) L. destruct s as [|c s]; [congruence|]. pose proof F as F0. inversion F as [|? ? D F']. subst. unfold digit in D. unfold atoll. cbn [skip_space].
  replace ((c =? 32) || (9 <=? c) && (c <=? 13)) with false by lia. replace (c =? 45) with false by lia. replace (c =? 43) with false by lia.
  rewrite number_digits by assumption. pose proof (fold_nonneg (c :: s) 0 ltac:(lia) F0). lia.
Qed.
Lemma number_atoi s n : number s n -> n < 2 ^ 31 -> atoi s = n /\ 0 <= n.
Proof.
  intros N L. destruct (number_atoll s n N) as [A P]; [lia|]. unfold atoi. rewrite A. unfold s32, u32. rewrite Z.mod_small by lia.
  replace (n <? 2147483648) with true by lia. now split.
Qed.
Lemma has_body_no path : has_body path -> no_body path = false.
Proof.
  unfold no_body. intros [H|(code & N & L & H)]; destruct path as [|c r]; try reflexivity.
  - specialize (H c r eq_refl). unfold digit in H. now replace ((48 <=? c) && (c <=? 57)) with false by lia.
  - destruct ((48 <=? c) && (c <=? 57)); [|reflexivity]. destruct (number_atoi _ _ N L) as [A P]. rewrite A. unfold u32. rewrite Z.mod_small by lia. lia.
Qed.
Lemma bodyless_no path : bodyless path -> no_body path = true.
Proof.
  intros (code & N & L & H). unfold no_body. destruct path as [|c r]; [destruct N; congruence|]. pose proof N as (_ & F & _). inversion F as [|? ? D _]. subst. unfold digit in D.
  replace ((48 <=? c) && (c <=? 57)) with true by lia. destruct (number_atoi _ _ N L) as [A P]. rewrite A. unfold u32. rewrite Z.mod_small by lia. lia.
Qed.
Lemma zero_cl : ~ In 0 (bs "Content-Length"). Proof. intros I. cbn in I. intuition discriminate. Qed.
Lemma zero_te : ~ In 0 (bs "Transfer-Encoding"). Proof. intros I. cbn in I. intuition discriminate. Qed.
Lemma zero_ct : ~ In 0 (bs "Content-Type"). Proof. intros I. cbn in I. intuition discriminate. Qed.

Definition told (mt path pr : list Z) (hs vs : smap) : msg := mkMsg mt path pr (fold_left assign hs []) vs.
Section Ends.
Variables (mt path pr : list Z) (hs vs : smap) (cur : Z).
Notation x := (told mt path pr hs vs).
Definition start (x : msg) (chunks : bool) (n : Z) (known : bool) : hp := mkHp x true true false chunks 0 [] n known 0 [].
Lemma x_read : head_read x mt path pr hs vs.
Proof. do 4 (split; [reflexivity|]). apply headers_ok. Qed.
Lemma head_end_known v n : says hs (bs "Content-Length") v -> number v n -> n < 2 ^ 31 -> not_chunked hs ->
  head_end cb (with_msg (clean cur) x true) = Some (start x false n true).
Proof.
  intros S N L C. destruct (headers_ok hs) as (_ & G & G0). destruct (G _ _ zero_cl S) as [G1 _].
  assert (T : beqb (GetHeader (bs "Transfer-Encoding") (headers x)) (bs "chunked") = false).
  { apply beqb_neq. cbn [headers told]. destruct C as [C|(w & C & D)]; [destruct (G0 _ zero_te C) as [-> _]; discriminate|]. destruct (G _ _ zero_te C) as [-> _]. exact D. }
  unfold head_end. cbn [m with_msg]. rewrite T. cbn [headers told]. rewrite G1. destruct (number_atoi v n N L) as [-> P].
  replace (beqb v []) with false by (symmetry; apply beqb_neq; apply N). cbn [negb]. unfold u64. rewrite Z.mod_small by lia.
  replace (true && negb cb && (n >? 2 ^ 63)) with false by (symmetry; rewrite andb_false_iff; right; lia). reflexivity.
Qed.
Lemma head_end_chunked : says hs (bs "Transfer-Encoding") (bs "chunked") -> silent hs (bs "Content-Length") ->
  head_end cb (with_msg (clean cur) x true) = Some (start x true 0 false).
Proof.
  intros S N. destruct (headers_ok hs) as (_ & G & G0). destruct (G _ _ zero_te S) as [G1 _]. destruct (G0 _ zero_cl N) as [G2 _].
  unfold head_end. cbn [m with_msg]. cbn [headers told]. rewrite G1, G2. reflexivity.
Qed.
Lemma head_end_open : not_chunked hs -> silent hs (bs "Content-Length") ->
  head_end cb (with_msg (clean cur) x true) = Some (start x false 0 false).
Proof.
  intros C N. destruct (headers_ok hs) as (_ & G & G0). destruct (G0 _ zero_cl N) as [G2 _].
  assert (T : beqb (GetHeader (bs "Transfer-Encoding") (headers x)) (bs "chunked") = false).
  { apply beqb_neq. cbn [headers told]. destruct C as [C|(w & C & D)]; [destruct (G0 _ zero_te C) as [-> _]; discriminate|]. destruct (G _ _ zero_te C) as [-> _]. exact D. }
  unfold head_end. cbn [m with_msg]. rewrite T. cbn [headers told]. rewrite G2. reflexivity.
Qed.
End Ends.

(** *** Bodies *)
Lemma hex_ord_val c : hexdigit c -> hex_ord c = hexval c /\ 0 <= hexval c < 16.
Proof.
  intros H. assert (B : byteP c) by (unfold hexdigit, byteP in *; lia).
  pose proof (byte_sweep (fun b => negb (((48 <=? b) && (b <=? 57)) || ((65 <=? b) && (b <=? 70)) || ((97 <=? b) && (b <=? 102))) || ((hex_ord b =? hexval b) && (0 <=? hexval b) && (hexval b <? 16)))
    ltac:(vm_compute; reflexivity) c B) as K. cbn beta in K. unfold hexdigit in H. lia.
Qed.
Lemma hexnum_len l : forall a, 0 <= a -> Forall hexdigit l -> fold_left (fun v c => v * 16 + hexval c) l a < 2 ^ 32 ->
  a <= fold_left (fun v c => v * 16 + hexval c) l a /\
  fold_left (fun n c => u32 (u32 (n << 4) .| hex_ord c)) l a = fold_left (fun v c => v * 16 + hexval c) l a.
Proof.
  induction l as [|c l IH]; intros a A F L; [now split|]. inversion F as [|? ? D F']. subst. destruct (hex_ord_val c D) as [E R1]. cbn [fold_left] in *.
  destruct (IH (a * 16 + hexval c)) as [M Q]; [lia|assumption|assumption|].
  split; [lia|]. rewrite E.
  replace (u32 (a << 4)) with (a * 16) by (unfold u32; rewrite Z.shiftl_mul_pow2 by lia; change (2 ^ 4) with 16; rewrite Z.mod_small; lia).
  replace (Z.lor (a * 16) (hexval c)) with (a * 16 + hexval c).
  2:{ change 16 with (2 ^ 4) at 1. rewrite Z.add_nocarry_lxor; [rewrite Z.lxor_lor; [reflexivity|]|]; (apply Z.bits_inj'; intros i I; rewrite Z.land_spec, Z.bits_0, Z.mul_pow2_bits by lia;
      destruct (Z.ltb i 4) eqn:Qi; [rewrite Z.testbit_neg_r by lia; reflexivity|]; rewrite andb_comm; replace (Z.testbit (hexval c) i) with false; [reflexivity|];
      symmetry; rewrite <- (Z.mod_small (hexval c) (2 ^ 4)) by (change (2 ^ 4) with 16; lia); apply Z.mod_pow2_bits_high; lia). }
  replace (u32 (a * 16 + hexval c)) with (a * 16 + hexval c) by (unfold u32; rewrite Z.mod_small; lia). exact Q.
Qed.
Lemma chunk_len_hex l n : hexnum l n -> n < 2 ^ 32 -> chunk_len l = n.
Proof. intros (_ & F & ->) L. unfold chunk_len. now apply hexnum_len. Qed.
Lemma hex_line l n : hexnum l n -> line_text l /\ ~ In 32 l.
Proof.
  intros (_ & F & _). rewrite Forall_forall in F. repeat split; intros I; apply F in I; unfold hexdigit in I; lia.
Qed.
Definition chunk_mode (st : hp) : Prop := seenHeaders st = true /\ headerOnly || no_body (url (m st)) = false /\ getChunks st = true /\ doingChunk st = 0 /\ currentLength st = 0.
Lemma R_size_line st l n rest : chunk_mode st -> hexnum l n -> 0 < n < 2 ^ 32 ->
  R st (l ++ eol ++ rest) = R (set_counts st true n 0) rest.
Proof.
  intros (E & NB & G & D & _) H L. rewrite R_chunk by assumption. unfold chunk_step. rewrite D. change (negb (0 =? 0)) with false. cbv iota.
  destruct (hex_line l n H) as [[N1 N2] _].
  unfold eol. replace (l ++ [13; 10] ++ rest) with ((l ++ [13]) ++ 10 :: rest) by (rewrite <- app_assoc; reflexivity).
  assert (N : ~ In 10 (l ++ [13])) by (intros I; apply in_app_iff in I; destruct I as [I|[I|[]]]; [tauto|discriminate I]).
  rewrite (findc_at 10 _ rest N), take_line, drop_line. cbn zeta. rewrite cut_cr_eol by assumption. rewrite (chunk_len_hex l n H) by lia.
  replace (n =? 0) with false by lia. rewrite andb_false_r. destruct l as [|c l]; [destruct H; congruence|].
  replace (len (c :: l) =? 0) with false; [reflexivity|]. symmetry. apply Z.eqb_neq. rewrite len_cons. pose proof (len_nonneg l). lia.
Qed.
Lemma R_chunk_text st d t rest : chunk_mode st -> chunk_written d t -> R st (t ++ rest) = R (deliver cb st d) rest /\ chunk_mode (deliver cb st d).
Proof.
  intros C (l & H & L & ->). assert (C' : chunk_mode (deliver cb st d)) by exact C. split; [|exact C']. rewrite <- !app_assoc. rewrite R_size_line with (n := len d) by assumption.
  destruct C as (E & NB & G & D & Cu). rewrite R_chunk by (assumption || reflexivity). unfold chunk_step at 1. cbn [doingChunk set_counts].
  replace (len d =? 0) with false by lia. cbn [negb]. destruct d as [|c d]; [change (len (@nil Z)) with 0 in L; lia|].
  remember (c :: d) as dd eqn:Ed. replace (dd ++ eol ++ rest) with ((c :: d ++ eol ++ rest)) at 1 by (rewrite Ed; reflexivity). cbv iota. cbn zeta.
  pose proof (len_nonneg (eol ++ rest)). rewrite len_app. rewrite (Z.max_r 1) by lia. rewrite Z.min_l by lia. rewrite takez_app_exact, dropz_app_exact by reflexivity.
  rewrite R_chunk by (assumption || reflexivity). unfold chunk_step. cbn [doingChunk set_counts]. rewrite Z.sub_diag. change (negb (0 =? 0)) with false. cbv iota.
  unfold eol. change ([13; 10] ++ rest) with ([13] ++ 10 :: rest). rewrite (findc_at 10 [13] rest) by (intros [I|[]]; discriminate I). rewrite take_line, drop_line.
  change (cut_cr [13]) with (@nil Z). change (len (@nil Z) =? 0) with true. cbn [negb andb]. f_equal. clear Ed. destruct st. cbn in G, D, Cu. subst. reflexivity.
Qed.
Lemma R_chunks ds ts : Forall2 chunk_written ds ts -> forall st rest, chunk_mode st ->
  R st (List.concat ts ++ rest) = R (deliver cb st (List.concat ds)) rest /\ chunk_mode (deliver cb st (List.concat ds)).
Proof.
  induction 1 as [|d t ds ts Hd H IH]; intros st rest C; cbn [List.concat].
  - rewrite deliver_nil. now split.
  - destruct (R_chunk_text st d t (List.concat ts ++ rest) C Hd) as [E C1]. rewrite <- app_assoc, E.
    destruct (IH (deliver cb st d) rest C1) as [E2 C2]. rewrite E2. rewrite deliver_twice in *. now split.
Qed.
Lemma R_last_chunk st z rest : chunk_mode st -> hexnum z 0 -> R st (z ++ eol ++ rest) = Some (true, set_counts st false 0 0, z ++ eol ++ rest).
Proof.
  intros (E & NB & G & D & _) H. rewrite R_chunk by assumption. unfold chunk_step. rewrite D. change (negb (0 =? 0)) with false. cbv iota.
  destruct (hex_line z 0 H) as [[N1 N2] _].
  unfold eol. replace (z ++ [13; 10] ++ rest) with ((z ++ [13]) ++ 10 :: rest) by (rewrite <- app_assoc; reflexivity).
  assert (N : ~ In 10 (z ++ [13])) by (intros I; apply in_app_iff in I; destruct I as [I|[I|[]]]; [tauto|discriminate I]).
  rewrite (findc_at 10 _ rest N), take_line. cbn zeta. rewrite cut_cr_eol by assumption. rewrite (chunk_len_hex z 0 H) by lia.
  destruct z as [|c z]; [destruct H; congruence|].
  replace (len (c :: z) =? 0) with false; [reflexivity|]. symmetry. apply Z.eqb_neq. rewrite len_cons. pose proof (len_nonneg z). lia.
Qed.
End Head.
