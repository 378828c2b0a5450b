From Verif Require Import Common CommonFacts Encode_Model Encode_Spec Encode_Proofs Str_Model Str_Proofs Url_Model Url_Spec Url_Proofs.

(** ** Searching in composed texts *)
Lemma findp_at f x c y i : Forall (fun d => f d = false) x -> f c = true -> findp f (x ++ c :: y) i = Some (i + len x).
Proof.
  revert i. induction x as [|d x IH]; intros i F C; simpl.
  - rewrite C. f_equal. rewrite len_nil. lia.
  - inversion F; subst. rewrite H1, IH by easy. f_equal. rewrite len_cons. lia.
Qed.
Lemma findp_no f x i : Forall (fun d => f d = false) x -> findp f x i = None.
Proof. revert i. induction x as [|d x IH]; intros i F; simpl; [easy|]. inversion F; subst. now rewrite H1, IH. Qed.
Lemma eqb_notin c x : ~ In c x -> Forall (fun d => (c =? d) = false) x.
Proof. intros N. apply Forall_forall. intros d D. destruct (c =? d) eqn:E; [|easy]. exfalso. apply N. now replace c with d by lia. Qed.
Lemma findc_at c x y : ~ In c x -> findc c (x ++ c :: y) = Some (len x).
Proof. intros N. unfold findc. rewrite findp_at; [f_equal; lia|now apply eqb_notin|apply Z.eqb_refl]. Qed.
Lemma findc_no c x : ~ In c x -> findc c x = None.
Proof. intros N. apply findp_no. now apply eqb_notin. Qed.
Lemma rfindc_at c x y : ~ In c y -> rfindc c (x ++ c :: y) = Some (len x).
Proof.
  intros N. unfold rfindc. rewrite rev_app_distr. simpl rev. rewrite <- app_assoc.
  change ([c] ++ rev x) with (c :: rev x). rewrite findc_at by (now rewrite <- in_rev).
  f_equal. rewrite len_app, len_cons, len_rev. lia.
Qed.
Lemma rfindc_no c x : ~ In c x -> rfindc c x = None.
Proof. intros N. unfold rfindc. rewrite findc_no; [easy|]. now rewrite <- in_rev. Qed.
Lemma find_str_at c p x y i : ~ In c x -> find_str (c :: p) (x ++ (c :: p) ++ y) i = Some (i + len x).
Proof.
  revert i. induction x as [|d x IH]; intros i N.
  - cbn [app]. assert (P : prefixb (c :: p) (c :: p ++ y) = true) by (apply prefixb_ok; now exists y).
    change (find_str (c :: p) (c :: p ++ y) i) with
      (if prefixb (c :: p) (c :: p ++ y) then Some i else find_str (c :: p) (p ++ y) (i + 1)).
    rewrite P. f_equal. rewrite len_nil. lia.
  - change ((d :: x) ++ (c :: p) ++ y) with (d :: x ++ (c :: p) ++ y).
    assert (P : prefixb (c :: p) (d :: x ++ (c :: p) ++ y) = false).
    { cbn [prefixb]. destruct (c =? d) eqn:E; [|easy]. exfalso. apply N. left. lia. }
    change (find_str (c :: p) (d :: x ++ (c :: p) ++ y) i) with
      (if prefixb (c :: p) (d :: x ++ (c :: p) ++ y) then Some i else find_str (c :: p) (x ++ (c :: p) ++ y) (i + 1)).
    rewrite P, IH; [f_equal; rewrite len_cons; lia|]. intros K. apply N. now right.
Qed.

Lemma without_notin bad s c : without bad s -> In c (bs bad) -> ~ In c s.
Proof. intros W C K. unfold without in W. rewrite Forall_forall in W. now apply (W c K). Qed.
Lemma without_app bad a b : without bad (a ++ b) <-> without bad a /\ without bad b.
Proof. apply Forall_app. Qed.
Lemma without_nil bad : without bad []. Proof. constructor. Qed.

(** ** The constructor on a composed text *)
Definition path_start (t : list Z) : Prop := t = [] \/ exists c r, t = c :: r /\ In c (bs "/?#").
Lemma URL_text proto auth t : ~ In 58 proto -> without "/?#" auth -> path_start t ->
  URL (proto ++ bs "://" ++ auth ++ t) =
  let '(p, a, f) := match t with [] => ([], [], []) | _ => parse_path proto t end in
  let '(u, w, hp) := parse_creds auth in
  let '(h, n, v) := parse_host hp in mkUrl h proto n p a f u w v.
Proof.
  intros P A T. unfold URL, split_proto.
  assert (F : find_str (bs "://") (proto ++ bs "://" ++ auth ++ t) 0 = Some (0 + len proto)) by exact (find_str_at 58 (bs "//") proto (auth ++ t) 0 P).
  rewrite F.
  change (0 + len proto) with (len proto). rewrite takez_app_exact by reflexivity.
  replace (dropz (len proto + 3) (proto ++ bs "://" ++ auth ++ t)) with (auth ++ t).
  2:{ rewrite app_assoc. symmetry. apply dropz_app_exact. rewrite len_app. reflexivity. }
  assert (AF : Forall (fun d => ((d =? 47) || (d =? 63) || (d =? 35)) = false) auth).
  { eapply Forall_impl; [|exact A]. intros c K. simpl in K. lia. }
  destruct T as [->|(c & r & -> & C)].
  - rewrite app_nil_r. rewrite findp_no by exact AF. reflexivity.
  - rewrite findp_at; [|exact AF|simpl in C; lia]. change (0 + len auth) with (len auth).
    rewrite dropz_app_exact, takez_app_exact by reflexivity. reflexivity.
Qed.

Lemma creds_none hp : without "@" hp -> parse_creds hp = ([], [], hp).
Proof. intros N. unfold parse_creds. rewrite findc_no; [easy|]. apply (without_notin _ _ _ N). now left. Qed.
Lemma creds_user U hp : without ":@" U -> parse_creds (U ++ bs "@" ++ hp) = (url_decode U false, [], hp).
Proof.
  intros N. unfold parse_creds. change (bs "@" ++ hp) with (64 :: hp).
  rewrite findc_at by (apply (without_notin _ _ _ N); simpl; auto).
  rewrite takez_app_exact by reflexivity.
  rewrite findc_no by (apply (without_notin _ _ _ N); simpl; auto).
  repeat f_equal. change (64 :: hp) with ([64] ++ hp). rewrite app_assoc. apply dropz_app_exact. now rewrite len_app.
Qed.
Lemma creds_both U W hp : without ":@" U -> without "@" W ->
  parse_creds (U ++ bs ":" ++ W ++ bs "@" ++ hp) = (url_decode U false, url_decode W false, hp).
Proof.
  intros N M. unfold parse_creds.
  replace (U ++ bs ":" ++ W ++ bs "@" ++ hp) with ((U ++ 58 :: W) ++ 64 :: hp) by (now rewrite <- app_assoc).
  rewrite findc_at.
  2:{ intros K. apply in_app_or in K. destruct K as [K|[K|K]]; [|lia|].
      - apply (without_notin _ _ 64 N) in K; [easy|simpl; auto].
      - apply (without_notin _ _ 64 M) in K; [easy|simpl; auto]. }
  rewrite takez_app_exact by reflexivity.
  rewrite findc_at by (apply (without_notin _ _ _ N); simpl; auto).
  rewrite takez_app_exact by reflexivity.
  assert (D : forall (a : list Z) c b, dropz (len a + 1) (a ++ c :: b) = b).
  { intros a c b. change (c :: b) with ([c] ++ b). rewrite app_assoc. apply dropz_app_exact. now rewrite len_app. }
  now rewrite !D.
Qed.

Lemma numeric_digits n : Forall digit n -> is_numeric n = true.
Proof.
  induction n as [|c n IH]; intros F; [easy|]. inversion F; subst. unfold digit in *. simpl. rewrite IH by easy.
  destruct (c =? 0) eqn:?; [easy|]. destruct ((c <? 48) || (c >? 57)) eqn:?; [lia|easy].
Qed.
Lemma hostname_not h : hostname h -> negb (len h =? 0) && is_numeric h = false.
Proof.
  intros [->|(a & c & b & -> & A & C & D)]; [easy|]. apply andb_false_intro2.
  induction a as [|d a IH]; simpl.
  - unfold digit in D. destruct (c =? 0) eqn:?; [lia|]. destruct ((c <? 48) || (c >? 57)) eqn:?; [easy|lia].
  - inversion A; subst. unfold digit in *. destruct (d =? 0) eqn:?; [lia|]. destruct ((d <? 48) || (d >? 57)) eqn:?; [lia|auto].
Qed.
Lemma dropz_S1 (a : list Z) c b : dropz (len a + 1) (a ++ c :: b) = b.
Proof. change (c :: b) with ([c] ++ b). rewrite app_assoc. apply dropz_app_exact. now rewrite len_app. Qed.
Lemma digits_nocolon n : Forall digit n -> ~ In 58 n.
Proof. intros F K. rewrite Forall_forall in F. apply F in K. unfold digit in K. lia. Qed.
Lemma existsb_no c h : ~ In c h -> existsb (Z.eqb c) h = false.
Proof.
  intros N. destruct (existsb (Z.eqb c) h) eqn:E; [|easy]. apply existsb_exists in E. destruct E as (d & D & E).
  exfalso. apply N. now replace c with d by lia.
Qed.
Lemma nth0_not h c : ~ In c h -> c <> 0 -> (nthz h 0 =? c) = false.
Proof.
  intros N C. destruct h as [|d h]; [change (nthz [] 0) with 0; lia|].
  change (nthz (d :: h) 0) with d. destruct (d =? c) eqn:E; [|easy]. exfalso. apply N. left. lia.
Qed.

Lemma host_plain h : ~ In 58 h -> nthz h 0 <> 91 -> hostname h -> parse_host h = (h, [], false).
Proof.
  intros C B H. unfold parse_host. replace (nthz h 0 =? 91) with false by lia.
  rewrite rfindc_no by exact C. rewrite existsb_no by exact C. cbn [orb]. now rewrite hostname_not.
Qed.
Lemma host_port h n : ~ In 58 h -> nthz h 0 <> 91 -> hostname h -> Forall digit n ->
  parse_host (h ++ bs ":" ++ n) = (h, n, false).
Proof.
  intros C B H N. unfold parse_host. change (bs ":" ++ n) with (58 :: n).
  replace (nthz (h ++ 58 :: n) 0 =? 91) with false.
  2:{ destruct h as [|d h]; [reflexivity|]. change (nthz ((d :: h) ++ 58 :: n) 0) with d. change (nthz (d :: h) 0) with d in B. lia. }
  rewrite rfindc_at by now apply digits_nocolon.
  rewrite dropz_S1, takez_app_exact by reflexivity. rewrite numeric_digits by exact N.
  rewrite existsb_no by exact C. cbn [orb]. now rewrite hostname_not.
Qed.
Lemma host_v6 h : ~ In 93 h -> hostname h -> parse_host (bs "[" ++ h ++ bs "]") = (h, [], true).
Proof.
  intros C H. unfold parse_host. change (bs "[" ++ h ++ bs "]") with (91 :: h ++ 93 :: []).
  change (nthz (91 :: h ++ [93]) 0 =? 91) with true. cbn [negb].
  change (91 :: h ++ [93]) with ((91 :: h) ++ 93 :: []).
  rewrite findc_at by (intros [K|K]; [lia|now apply C]).
  rewrite len_cons. unfold find_from. rewrite len_app, !len_cons, len_nil.
  pose proof (len_nonneg h). replace (1 + len h <=? 1 + len h + (1 + 0)) with true by lia.
  rewrite dropz_app_exact by (rewrite len_cons; lia). cbn [findp].
  change (58 =? 93) with false. cbn [findp].
  change (dropz 1 ((91 :: h) ++ [93])) with (h ++ [93]). replace (1 + len h - 1) with (len h) by lia.
  rewrite takez_app_exact by reflexivity. now rewrite hostname_not.
Qed.
Lemma host_v6_port h n : ~ In 93 h -> hostname h -> Forall digit n ->
  parse_host (bs "[" ++ h ++ bs "]" ++ bs ":" ++ n) = (h, n, true).
Proof.
  intros C H N. unfold parse_host. change (bs "[" ++ h ++ bs "]" ++ bs ":" ++ n) with ((91 :: h) ++ 93 :: 58 :: n).
  change (nthz ((91 :: h) ++ 93 :: 58 :: n) 0 =? 91) with true. cbn [negb].
  rewrite findc_at by (intros [K|K]; [lia|now apply C]).
  rewrite len_cons. unfold find_from. rewrite len_app, !len_cons.
  pose proof (len_nonneg h). pose proof (len_nonneg n). replace (1 + len h <=? 1 + len h + (1 + (1 + len n))) with true by lia.
  rewrite dropz_app_exact by (rewrite len_cons; lia). cbn [findp].
  change (58 =? 93) with false. rewrite Z.eqb_refl.
  replace (1 + len h + 1 + 1) with (len ((91 :: h) ++ [93]) + 1) by (rewrite len_app, len_cons; change (len [93]) with 1; lia).
  replace ((91 :: h) ++ 93 :: 58 :: n) with (((91 :: h) ++ [93]) ++ 58 :: n) by (now rewrite <- app_assoc).
  rewrite dropz_S1. rewrite numeric_digits by exact N.
  change (dropz 1 (((91 :: h) ++ [93]) ++ 58 :: n)) with ((h ++ [93]) ++ 58 :: n).
  replace (1 + len h - 1) with (len h) by lia. rewrite <- app_assoc. rewrite takez_app_exact by reflexivity.
  now rewrite hostname_not.
Qed.

(** ** The path part *)
Lemma resolve_tame p : tame p -> resolve p = p /\ ~ odd_end p.
Proof.
  intros (l & F & K). unfold odd_end, resolve, dirlike.
  assert (NS : Forall (fun g => ~ In 47 g) l) by (eapply Forall_impl; [|exact F]; intros g G; apply G).
  destruct K as [->|(N & ->)].
  - destruct l as [|g l] using rev_ind; [split; [reflexivity|]; intros (K & _); discriminate K|]. clear IHl.
    unfold walk. rewrite segs_slashed by (auto; now destruct l). rewrite walk_names by exact F. rewrite last_last.
    apply Forall_app in F. destruct F as (_ & G). inversion G as [|g' l' (A & B & C & D) _]; subst.
    apply beqb_neq in B, C, D. rewrite B, C, D. cbn [app orb]. apply beqb_neq in D.
    split; [now destruct l|]. intros (K & _). now apply D.
  - change (slashed l ++ [47]) with (slashed l ++ 47 :: []). 
    rewrite walk_app, last_segs_app. change (segs []) with [@nil Z]. cbn [fold_left last].
    unfold walk. rewrite segs_slashed, walk_names by assumption. cbn [app beqb orb].
    change (visit l []) with l. split; [now destruct l|]. intros (K & _). discriminate K.
Qed.

Lemma parse_path_gen proto p a f : proto <> bs "rtsp" -> without "?#" p -> without "#" a -> ~ odd_end p ->
  forall t, (t = 47 :: p ++ a ++ f \/ p = [] /\ t = a ++ f /\ t <> []) ->
    (a = [] \/ exists a', a = bs "?" ++ a') -> (f = [] \/ exists f', f = bs "#" ++ f') ->
  parse_path proto t =
    (if beqb proto (bs "file") || (len proto =? 0) then resolve p else url_decode (resolve p) false,
     dropz 1 a, url_decode (dropz 1 f) false).
Proof.
  intros NR P A O t T Qa Qf. unfold parse_path.
  assert (T' : (if nthz t 0 =? 47 then dropz 1 t else t) = p ++ a ++ f).
  { destruct T as [->|(-> & -> & N)]; [reflexivity|]. cbn [app].
    destruct Qa as [->|(a' & ->)]; [|reflexivity]. destruct Qf as [->|(f' & ->)]; reflexivity. }
  rewrite T'. apply beqb_neq in NR. rewrite NR. clear T T' t NR.
  assert (NA : ~ In 35 (p ++ a)).
  { intros K. apply in_app_or in K. destruct K as [K|K].
    - revert K. apply (without_notin _ _ _ P). simpl; auto.
    - revert K. apply (without_notin _ _ _ A). simpl; auto. }
  assert (NP : ~ In 63 p) by (apply (without_notin _ _ _ P); simpl; auto).
  assert (E1 : match findc 35 (p ++ a ++ f) with
    | Some hmark => (takez hmark (p ++ a ++ f), url_decode (dropz (hmark + 1) (p ++ a ++ f)) false)
    | None => (p ++ a ++ f, [])
    end = (p ++ a, url_decode (dropz 1 f) false)).
  { destruct Qf as [->|(f' & ->)].
    - rewrite app_nil_r. now rewrite findc_no.
    - rewrite app_assoc. change (bs "#" ++ f') with (35 :: f'). rewrite findc_at by exact NA.
      rewrite takez_app_exact, dropz_S1 by reflexivity. reflexivity. }
  rewrite E1.
  assert (E2 : match findc 63 (p ++ a) with
    | Some qmark => (takez qmark (p ++ a), dropz (qmark + 1) (p ++ a), url_decode (dropz 1 f) false)
    | None => (p ++ a, [], url_decode (dropz 1 f) false)
    end = (p, dropz 1 a, url_decode (dropz 1 f) false)).
  { destruct Qa as [->|(a' & ->)].
    - rewrite app_nil_r. now rewrite findc_no.
    - change (bs "?" ++ a') with (63 :: a'). rewrite findc_at by exact NP.
      rewrite takez_app_exact, dropz_S1 by reflexivity. reflexivity. }
  rewrite E2. rewrite (proj1 (normalise_ok p) O).
  unfold isLocalPath. cbn [protocol host port]. change (len [] =? 0) with true. cbn [andb]. rewrite andb_true_r.
  destruct p as [|c p]; [|reflexivity].
  cbn [len]. change (len [] =? 0) with true. cbn iota. change (resolve []) with (@nil Z). now destruct (_ || _).
Qed.
Lemma parse_path_rtsp p : ~ odd_end p -> parse_path (bs "rtsp") (47 :: p) = (url_decode (resolve p) false, [], []).
Proof.
  intros O. unfold parse_path. change (nthz (47 :: p) 0 =? 47) with true. change (dropz 1 (47 :: p)) with p.
  change (beqb (bs "rtsp") (bs "rtsp")) with true. cbn iota. rewrite (proj1 (normalise_ok p) O).
  unfold isLocalPath. cbn [protocol host port]. change (beqb (bs "rtsp") (bs "file")) with false. cbn iota.
  change (len (bs "rtsp") =? 0) with false. rewrite andb_false_r. cbn [andb].
  destruct p; reflexivity.
Qed.

(** ** Encoded texts *)
Lemma enc_app a b ign q : url_encode (a ++ b) ign q = url_encode a ign q ++ url_encode b ign q.
Proof. apply flat_map_app. Qed.
Lemma enc_without bad ign l :
  forallb (fun b => forallb (fun c => negb (existsb (Z.eqb c) (bs bad))) (url_enc_char ign false b)) all_bytes = true ->
  bytesP l -> without bad (url_encode l ign false).
Proof.
  intros Sw B. induction B as [|b l Hb Hl IH]; [constructor|].
  change (url_encode (b :: l) ign false) with (url_enc_char ign false b ++ url_encode l ign false).
  apply without_app. split; [|exact IH].
  pose proof (byte_sweep _ Sw b Hb) as K. cbn beta in K. unfold without. apply Forall_forall. intros c C.
  rewrite forallb_forall in K. specialize (K c C). intros N. apply negb_true_iff in K.
  assert (existsb (Z.eqb c) (bs bad) = true); [|congruence]. apply existsb_exists. exists c. split; [exact N|lia].
Qed.
Definition slash_ign (ign : list Z) : Prop := In 47 ign /\ ~ In 37 ign.
Lemma enc_noslash ign l : bytesP l -> ~ In 47 l -> ~ In 47 (url_encode l ign false).
Proof.
  intros B. induction B as [|b l Hb Hl IH]; intros N; [easy|].
  change (url_encode (b :: l) ign false) with (url_enc_char ign false b ++ url_encode l ign false).
  intros K. apply in_app_or in K. destruct K as [K|K].
  - unfold url_enc_char in K. destruct (_ || _); [destruct K as [K|[]]; apply N; now left|].
    rewrite andb_false_r in K. destruct K as [K|K]; [change (ch "%") with 37 in K; lia|].
    assert (S : forallb (fun b => negb (existsb (Z.eqb 47) (hex_chr b))) all_bytes = true) by reflexivity.
    pose proof (byte_sweep _ S b Hb) as Q. cbn beta in Q. apply negb_true_iff in Q.
    assert (existsb (Z.eqb 47) (hex_chr b) = true); [|congruence]. apply existsb_exists. exists 47. split; [exact K|lia].
  - apply IH; [|exact K]. intros Q. apply N. now right.
Qed.
Lemma enc_inj ign a b : bytesP a -> bytesP b -> ~ In 37 ign -> url_encode a ign false = url_encode b ign false -> a = b.
Proof.
  intros A B N E. rewrite <- (url_roundtrip_lem a ign false), <- (url_roundtrip_lem b ign false), E; auto; discriminate.
Qed.
Lemma enc_name ign g : ~ In 37 ign -> bytesP g -> name g -> name (url_encode g ign false).
Proof.
  intros I B (N1 & N2 & N3 & N4). repeat split.
  - now apply enc_noslash.
  - intros K. apply N2. apply (enc_inj ign g []); auto. constructor.
  - intros K. apply N3. apply (enc_inj ign g (bs ".")); auto. repeat constructor; lia.
  - intros K. apply N4. apply (enc_inj ign g (bs "..")); auto. repeat constructor; lia.
Qed.
Lemma enc_slashed ign l : In 47 ign -> url_encode (slashed l) ign false = slashed (map (fun g => url_encode g ign false) l).
Proof.
  intros I. induction l as [|g l IH]; [reflexivity|]. destruct l as [|h l]; [reflexivity|].
  rewrite slashed_cons by easy. rewrite enc_app. cbn [map]. rewrite (slashed_cons (url_encode g ign false)) by easy. f_equal.
  change (url_encode (47 :: slashed (h :: l)) ign false) with (url_enc_char ign false 47 ++ url_encode (slashed (h :: l)) ign false).
  rewrite IH. unfold url_enc_char. assert (url_exempt ign 47 = true) as -> by now apply exempt_In. now rewrite orb_true_r.
Qed.
Lemma bytes_slashed l : bytesP (slashed l) <-> Forall bytesP l.
Proof.
  induction l as [|g l IH]; [split; constructor|]. destruct l as [|h l].
  - simpl. split; [now repeat constructor|now inversion 1].
  - rewrite slashed_cons by easy. rewrite bytesP_app, bytesP_cons, IH. split.
    + intros (A & _ & B). now constructor.
    + intros F. inversion F; subst. repeat split; auto; lia.
Qed.
Lemma enc_tame ign p : In 47 ign -> ~ In 37 ign -> bytesP p -> tame p -> tame (url_encode p ign false).
Proof.
  intros I J B (l & F & K).
  assert (M : bytesP (slashed l) -> Forall name (map (fun g => url_encode g ign false) l)).
  { rewrite bytes_slashed. intros Bl. apply Forall_map. rewrite Forall_forall in *. intros g G. apply enc_name; auto. }
  exists (map (fun g => url_encode g ign false) l).
  destruct K as [->|(N & ->)].
  - split; [auto|left; now apply enc_slashed].
  - apply bytesP_app in B. split; [apply M; apply B|]. right. split; [now destruct l|].
    rewrite enc_app, enc_slashed by exact I. f_equal. unfold url_encode. simpl. unfold url_enc_char.
    assert (url_exempt ign 47 = true) as -> by now apply exempt_In. now rewrite orb_true_r.
Qed.
Lemma enc_id ign l : Forall (fun c => In c url_unreserved \/ In c ign) l -> url_encode l ign false = l.
Proof.
  induction 1 as [|c l C _ IH]; [reflexivity|].
  change (url_encode (c :: l) ign false) with (url_enc_char ign false c ++ url_encode l ign false). rewrite IH.
  unfold url_enc_char. destruct C as [C|C].
  - assert (S : forallb url_safe url_unreserved = true) by reflexivity.
    rewrite forallb_forall in S. now rewrite (S c C).
  - assert (url_exempt ign c = true) as -> by now apply exempt_In. now rewrite orb_true_r.
Qed.
