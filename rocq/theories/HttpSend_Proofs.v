From Verif Require Import Common CommonFacts Encode_Model Encode_Proofs Str_Model Str_Proofs JsonVal_Model Url_Model UrlText_Proofs
  Http_Model Http_Spec HttpRun_Proofs HttpVars_Proofs HttpText_Proofs.
From Verif Require Dtmi_Spec DtmiDec_Proofs Url_Spec.

(** ** Text of requests *)
Definition bad_chars : string := String (Ascii.ascii_of_nat 13) (String (Ascii.ascii_of_nat 10) " ?").
Definition calm (s : list Z) : Prop := Url_Spec.without bad_chars s.
Lemma calm_word s : calm s -> word s /\ ~ In 63 s.
Proof.
  unfold calm, Url_Spec.without. rewrite Forall_forall. intros F. repeat split; intros I; apply F in I; apply I; cbn; tauto.
Qed.
Lemma calm_enc l ign : ign = [] \/ ign = bs "/:=@[]" -> bytesP l -> calm (url_encode l ign false).
Proof. intros [-> | ->] B; apply enc_without; (vm_compute; reflexivity) || assumption. Qed.
Lemma calm_app a b : calm a -> calm b -> calm (a ++ b).
Proof. intros A B. apply Forall_app. now split. Qed.
Lemma calm_eq : calm (bs "="). Proof. constructor; [|constructor]. cbn. intuition discriminate. Qed.
Lemma calm_amp : calm (bs "&"). Proof. constructor; [|constructor]. cbn. intuition discriminate. Qed.
Lemma calm_args l : Forall (fun e => bytesP (fst e) /\ bytesP (snd e)) l -> calm (argStr l false).
Proof.
  intros F. rewrite argStr_joined. assert (F' : Forall (fun e => bytesP (fst e) /\ bytesP (snd e)) (filter named l)).
  { rewrite Forall_forall in *. intros e I. apply filter_In in I. now apply F. }
  destruct (filter named l) as [|e r]; [constructor|]. rewrite app_nil_l. revert F'. generalize (e :: r). clear. intros l F.
  assert (P : Forall calm (map part_text (map enc_part l))).
  { apply Forall_forall. intros t I. apply in_map_iff in I. destruct I as (p & <- & I). apply in_map_iff in I. destruct I as (x & <- & I).
    rewrite Forall_forall in F. destruct (F x I) as [F1 F2]. unfold part_text, enc_part. cbn [fst snd].
    apply calm_app; [apply calm_enc; [now left|assumption]|]. apply calm_app; [exact calm_eq|]. apply calm_enc; [now left|assumption]. }
  induction P as [|t ts Ht Hts IH]; [constructor|]. destruct ts as [|t2 ts]; [exact Ht|]. cbn [joined]. apply calm_app; [exact Ht|]. apply calm_app; [exact calm_amp|exact IH].
Qed.

Lemma header_out_ok h : fst h <> [] -> snd h <> [] -> line_text (fst h) -> ~ In 58 (fst h) -> tight (fst h) -> line_text (snd h) -> tight (snd h) ->
  header_written h (header_out h).
Proof.
  intros N1 N2 L1 C T1 L2 T2. do 5 (split; [assumption|]). exists [], [], [32], []. repeat split; try constructor; try (constructor; fail); [now left|].
  unfold header_out. replace (beqb (fst h) []) with false by (symmetry; now apply beqb_neq). replace (beqb (snd h) []) with false by (symmetry; now apply beqb_neq). reflexivity.
Qed.
Lemma headers_out hs : sendable_headers hs -> Forall2 header_written hs (map header_out hs) /\ fold_left assign hs [] = hs.
Proof.
  intros ((I & _) & F). split; [|now apply (fold_sorted hs [])]. induction F as [|h hs H F IH]; [constructor|]. constructor.
  - destruct H as (H1 & H2 & H3 & H4 & H5 & H6 & H7). now apply header_out_ok.
  - apply IH. cbn [map] in I. destruct (map fst hs); [exact Logic.I|now destruct I].
Qed.
Lemma protocol_out_ok p : versioned p -> protocol_out p = p.
Proof.
  intros (_ & a & b & -> & L). unfold protocol_out. rewrite !len_app. change (len (bs "/")) with 1. pose proof (len_nonneg b).
  replace (len a + (1 + len b) <? 5) with false by lia. replace (nthz (a ++ bs "/" ++ b) 4) with 47; [reflexivity|].
  symmetry. rewrite <- L. apply nthz_middle.
Qed.
Definition query_of (x : msg) : list Z := match vars x with [] => [] | _ => argStr (vars x) true end.
Lemma BuildRequest_ok x b : versioned (protocol x) -> (vars x = [] \/ ~ In 63 (url x)) -> not_form (method x) (headers x) ->
  fold_left assign (headers x) [] = headers x -> 
  exists first, first = method x ++ [32] ++ (url_encode (url x) (bs "/:=@[]") false ++ query_of x) ++ [32] ++ protocol x /\
  BuildRequest x b = (first ++ eol ++ List.concat (map header_out (headers x)) ++ eol) ++ b.
Proof.
  intros V Q Nf Hf. eexists. split; [reflexivity|]. unfold BuildRequest.
  assert (Nf' : beqb (method x) (bs "POST") && beqb (GetHeader (bs "Content-Type") (headers x)) (bs "application/x-www-form-urlencoded") = false).
  { destruct (headers_ok (headers x)) as (_ & G & G0). rewrite Hf in *.
    destruct Nf as [N|[S|(v & S & N)]]; apply andb_false_iff; [left; now apply beqb_neq|right..]; apply beqb_neq.
    - destruct (G0 _ zero_ct S) as [-> _]. discriminate.
    - destruct (G _ _ zero_ct S) as [-> _]. exact N. }
  rewrite Nf'. cbn [negb andb]. rewrite protocol_out_ok by assumption.
  assert (Eq : (if negb (len (vars x) =? 0) && match findc 63 (url x) with None => true | _ => false end then argStr (vars x) true else []) = query_of x).
  { unfold query_of. destruct (vars x) as [|e r] eqn:E; [reflexivity|]. destruct Q as [Q|Q]; [discriminate Q|]. rewrite (findc_no 63 _ Q).
    rewrite len_cons. pose proof (len_nonneg r). now replace (1 + len r =? 0) with false by lia. }
  rewrite Eq. rewrite flat_map_concat_map. change (bs " ") with [32]. change [13; 10] with eol. now rewrite <- !app_assoc.
Qed.
Lemma request_ok x : word (method x) -> takez 4 (method x ++ [32]) <> bs "HTTP" -> bytesP (url x) -> versioned (protocol x) ->
  var_map (vars x) -> Forall (fun e => named e = true) (vars x) ->
  let u := url_encode (url x) (bs "/:=@[]") false ++ query_of x in
  request_line (method x ++ [32] ++ u ++ [32] ++ protocol x) (method x) u (protocol x) /\ url_read u (url x) (vars x).
Proof.
  intros W Nh Bu V (I & Bv) Nm. cbn zeta. pose proof (calm_enc (url x) _ (or_intror eq_refl) Bu) as Cu. destruct (calm_word _ Cu) as [Wu Nu].
  assert (Ud : url_decode (url_encode (url x) (bs "/:=@[]") false) false = url x).
  { apply url_roundtrip_lem; [assumption| |discriminate]. intros K. cbn in K. intuition discriminate. }
  assert (Fn : filter named (vars x) = vars x).
  { revert Nm. generalize (vars x). clear. intros l F. induction F as [|e l H F IH]; [reflexivity|]. cbn [filter]. now rewrite H, IH. }
  assert (Qc : query_of x = [] /\ vars x = [] \/ query_of x = 63 :: argStr (vars x) false /\ vars x <> []).
  { unfold query_of. destruct (vars x) as [|e r] eqn:E; [now left|]. right. split; [|discriminate]. rewrite <- E in *. rewrite !argStr_joined, Fn.
    destruct (vars x); [discriminate E|reflexivity]. }
  split.
  - split; [exact W|]. split; [|split; [apply V|split; [exact Nh|reflexivity]]].
    destruct Qc as [[-> _]|[-> _]]; [now rewrite app_nil_r|]. pose proof (calm_args _ Bv) as Ca. destruct (calm_word _ Ca) as [[[A1 A2] A3] _].
    destruct Wu as [[W1 W2] W3]. repeat split; intros K; apply in_app_iff in K; destruct K as [K|[K|K]]; try discriminate K; tauto.
  - destruct Qc as [[-> Ev]|[-> _]].
    + left. rewrite app_nil_r, Ud, Ev. now repeat split.
    + right. eexists _, _. split; [reflexivity|]. split; [exact Nu|]. rewrite Ud. split; [reflexivity|].
      rewrite vars_roundtrip_lem; [now rewrite Fn|]. now split.
Qed.

(** ** Chunks *)
Lemma hex_char n : 0 <= n < 16 -> let c := nthz (bs "0123456789abcdef") n in hexdigit c /\ hexval c = n.
Proof.
  intros H. assert (K : n = 0 \/ n = 1 \/ n = 2 \/ n = 3 \/ n = 4 \/ n = 5 \/ n = 6 \/ n = 7 \/ n = 8 \/ n = 9 \/ n = 10 \/ n = 11 \/ n = 12 \/ n = 13 \/ n = 14 \/ n = 15) by lia.
  unfold hexdigit. repeat (destruct K as [->|K]; [vm_compute; intuition discriminate|]). subst. vm_compute. intuition discriminate.
Qed.
Lemma len_digits_ok k : forall n, 0 <= n < 16 ^ Z.of_nat k ->
  exists d, len_digits k n = Some d /\ Forall hexdigit d /\ fold_left (fun v c => v * 16 + hexval c) (rev d) 0 = n /\ (0 < n -> d <> []).
Proof.
  induction k as [|k IH]; intros n Hn.
  { change (16 ^ Z.of_nat 0) with 1 in Hn. assert (n = 0) by lia. subst. exists []. cbn. repeat split; [constructor|lia]. }
  cbn [len_digits]. destruct (n =? 0) eqn:N0; [exists []; repeat split; [constructor|cbn; lia|lia]|].
  rewrite Nat2Z.inj_succ, Z.pow_succ_r in Hn by lia. rewrite Z.shiftr_div_pow2 by lia. change (2 ^ 4) with 16.
  destruct (IH (n / 16)) as (d & E & F & V & _); [split; [apply Z.div_pos; lia|apply Z.div_lt_upper_bound; lia]|]. rewrite E.
  exists (nthz (bs "0123456789abcdef") (n .& 15) :: d). split; [reflexivity|].
  assert (M15 : n .& 15 = n mod 16) by (change 15 with (Z.ones 4); now rewrite Z.land_ones by lia). rewrite M15.
  pose proof (Z.mod_pos_bound n 16 ltac:(lia)) as M. pose proof (hex_char (n mod 16) M) as H. cbv zeta in H.
  generalize dependent (nthz (bs "0123456789abcdef") (n mod 16)). intros c [H1 H2].
  split; [constructor; assumption|]. split; [|discriminate].
  cbn [rev]. rewrite fold_left_app. cbn [fold_left]. rewrite V, H2. pose proof (Z.div_mod n 16 ltac:(lia)). lia.
Qed.
Lemma send_chunk_ok d : 0 < len d < 2 ^ 32 -> exists t, send_chunk d = Some t /\ chunk_written d t.
Proof.
  intros L. unfold send_chunk. replace (len d =? 0) with false by lia. destruct (len_digits_ok 8 (len d)) as (h & E & F & V & N); [change (16 ^ Z.of_nat 8) with (2 ^ 32); lia|].
  rewrite E. eexists. split; [reflexivity|]. exists (rev h). clear E. split; [|split; [exact L|reflexivity]]. split; [|split; [now apply Forall_rev|symmetry; exact V]].
  intros K. apply (f_equal (@rev Z)) in K. rewrite rev_involutive in K. apply N; [lia|exact K].
Qed.
Lemma len_digits_full k : forall n, 16 ^ Z.of_nat k <= n -> len_digits k n = None.
Proof.
  induction k as [|k IH]; intros n Hn; cbn [len_digits].
  - change (16 ^ Z.of_nat 0) with 1 in Hn. now replace (n =? 0) with false by lia.
  - rewrite Nat2Z.inj_succ, Z.pow_succ_r in Hn by lia. assert (0 < 16 ^ Z.of_nat k) by (apply Z.pow_pos_nonneg; lia). replace (n =? 0) with false by lia.
    rewrite Z.shiftr_div_pow2 by lia. change (2 ^ 4) with 16. rewrite IH; [reflexivity|]. apply Z.div_le_lower_bound; lia.
Qed.
