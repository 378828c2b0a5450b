From Verif Require Import Common CommonFacts Encode_Model Encode_Proofs Str_Model Str_Proofs JsonVal_Model Url_Model UrlText_Proofs Http_Model Http_Spec HttpRun_Proofs.
From Verif Require Dtmi_Spec DtmiDec_Proofs Url_Spec.

(** ** Maps *)
Definition assign (l : smap) (e : list Z * list Z) : smap := sset (fst e) (snd e) l.
Lemma sget_sset k k' v l : sget k (sset k' v l) = if beqb k k' then Some v else sget k l.
Proof.
  induction l as [|[a b] l IH]; cbn [sset sget]; [reflexivity|]. destruct (sltb k' a); [reflexivity|].
  destruct (beqb k' a) eqn:E; cbn [sget].
  - apply beqb_eq in E. subst a. now destruct (beqb k k').
  - rewrite IH. destruct (beqb k a) eqn:F; [|reflexivity]. apply beqb_eq in F. subst a.
    destruct (beqb k k') eqn:G; [|reflexivity]. apply beqb_eq in G. subst k'. now rewrite beqb_refl in E.
Qed.
Lemma last_value_app k a b : last_value k (a ++ b) = match last_value k b with Some v => Some v | None => last_value k a end.
Proof.
  unfold last_value. rewrite rev_app_distr. induction (rev b) as [|e l IH]; [reflexivity|]. cbn [app find]. now destruct (beqb k (fst e)).
Qed.
Lemma sget_fold k l : forall st, sget k (fold_left assign l st) = match last_value k l with Some v => Some v | None => sget k st end.
Proof.
  induction l as [|e l IH]; intros st; [reflexivity|]. cbn [fold_left]. rewrite IH. change (e :: l) with ([e] ++ l). rewrite last_value_app.
  destruct (last_value k l); [reflexivity|]. unfold assign. rewrite sget_sset. unfold last_value. cbn. now destruct (beqb k (fst e)).
Qed.
Lemma sset_last k v l : (forall e, In e l -> sltb (fst e) k = true) -> sset k v l = l ++ [(k, v)].
Proof.
  induction l as [|[a b] l IH]; intros F; [reflexivity|]. cbn [sset app].
  destruct (DtmiDec_Proofs.sltb_not_eq _ _ (F (a, b) (or_introl eq_refl))) as [E1 E2]. cbn [fst] in *. rewrite E2, E1, IH; [reflexivity|].
  intros e I. apply F. now right.
Qed.
Lemma fold_sorted l : forall st, Dtmi_Spec.increasing (map fst (st ++ l)) -> fold_left assign l st = st ++ l.
Proof.
  induction l as [|[k v] l IH]; intros st S; [now rewrite app_nil_r|]. cbn [fold_left]. unfold assign at 2. cbn [fst snd].
  rewrite sset_last.
  - rewrite IH; [now rewrite <- app_assoc|]. now rewrite <- app_assoc.
  - intros e I. clear IH. induction st as [|x st IH]; [destruct I|]. cbn [app map] in S. destruct I as [<-|I].
    + apply (DtmiDec_Proofs.increasing_head _ _ S). rewrite map_app. apply in_app_iff. right. now left.
    + apply IH; [|exact I]. destruct (map fst (st ++ (k, v) :: l)) eqn:E; [exact Logic.I|]. now destruct S.
Qed.

(** ** Assignments *)
Lemma find_str_no c p x i : ~ In c x -> find_str (c :: p) x i = None.
Proof.
  revert i. induction x as [|d x IH]; intros i N; [reflexivity|]. cbn [find_str].
  replace (prefixb (c :: p) (d :: x)) with false; [|symmetry; cbn; destruct (c =? d) eqn:E; [|reflexivity]; exfalso; apply N; left; lia].
  apply IH. intros I. apply N. now right.
Qed.
(** One round of the loop. *)
Lemma parse_round k data st sep q : data <> [] -> parseVars_loop (S k) data st sep q =
  let nextpos := match find_str sep data 0 with Some i => i | None => len data end in
  let '(varname, varval) :=
    match findc 61 data with
    | Some eq_pos => if eq_pos <? nextpos
                     then (takez eq_pos data, takez (nextpos - eq_pos - 1) (dropz (eq_pos + 1) data))
                     else (takez nextpos data, [])
    | None => (takez nextpos data, [])
    end in
  parseVars_loop k (dropz (nextpos + len sep) data)
    (if negb (len varname =? 0) then sset (url_decode varname q) (url_decode varval q) st else st) sep q.
Proof. intros N. cbn [parseVars_loop]. destruct data; [congruence|]. reflexivity. Qed.
Definition assign_part (q : bool) (st : smap) (e : list Z * option (list Z)) : smap :=
  if named e then assign st (part_value q e) else st.
Lemma named_len {A} (e : list Z * A) : negb (len (fst e) =? 0) = named e.
Proof.
  unfold named. destruct e as [[|c n] a]; cbn [fst]; [reflexivity|]. rewrite len_cons. pose proof (len_nonneg n). cbn [beqb]. cbn [negb]. lia.
Qed.
Lemma part_split e y : ~ In 61 (fst e) -> (y = [] \/ ~ In 61 (part_text e) \/ True) ->
  let n := len (part_text e) in
  match findc 61 (part_text e ++ y) with
  | Some eq_pos => if eq_pos <? n
                   then (takez eq_pos (part_text e ++ y), takez (n - eq_pos - 1) (dropz (eq_pos + 1) (part_text e ++ y)))
                   else (takez n (part_text e ++ y), [])
  | None => (takez n (part_text e ++ y), [])
  end = (fst e, match snd e with Some v => v | None => [] end).
Proof.
  intros N _. cbn zeta. unfold part_text. destruct e as [nm [v|]]; cbn [fst snd] in *.
  - change (bs "=" ++ v) with (61 :: v). rewrite <- app_assoc. cbn [app]. rewrite findc_at by assumption.
    rewrite !len_app, !len_cons. pose proof (len_nonneg nm). pose proof (len_nonneg v). replace (len nm <? len nm + (1 + len v)) with true by lia.
    rewrite take_line, dropz_S1. f_equal. replace (len nm + (1 + len v) - len nm - 1) with (len v) by lia. apply take_line.
  - rewrite app_nil_r. rewrite take_line. rewrite findc_app. rewrite (findc_no 61 nm N). pose proof (len_nonneg nm).
    destruct (findc 61 y) as [f|] eqn:F; [|reflexivity]. apply findc_some in F. destruct F as (a & b & _ & _ & ->). pose proof (len_nonneg a).
    now replace (len nm + len a <? len nm) with false by lia.
Qed.
Lemma parse_parts q sep : sep <> [] -> forall ps fuel st, Forall (part_plain sep) ps ->
  (List.length (joined sep (map part_text ps)) <= fuel)%nat ->
  parseVars_loop fuel (joined sep (map part_text ps)) st sep q = fold_left (assign_part q) ps st.
Proof.
  intros S. induction ps as [|e ps IH]; intros fuel st F L.
  { cbn. destruct fuel; reflexivity. }
  inversion F as [|? ? [F1 F2] F3]. subst. destruct sep as [|c sep]; [congruence|]. cbn [hd] in F2.
  set (data := joined (c :: sep) (map part_text (e :: ps))) in *.
  destruct (list_eq_dec Z.eq_dec data []) as [D|D].
  { assert (ps = [] /\ part_text e = []) as [-> Pe].
    { unfold data in D. destruct ps as [|e2 ps]; [now split|]. cbn [map joined] in D. apply app_eq_nil in D. destruct D as [_ D]. discriminate D. }
    unfold part_text in Pe. apply app_eq_nil in Pe. destruct Pe as [Pe _]. rewrite D. cbn [fold_left]. unfold assign_part, named. rewrite Pe. cbn [beqb negb].
    destruct fuel; reflexivity. }
  destruct fuel as [|fuel]; [destruct data; [congruence|cbn in L; lia]|]. rewrite parse_round by assumption.
  assert (K : exists y, data = part_text e ++ y /\
     match find_str (c :: sep) data 0 with Some i => i | None => len data end = len (part_text e) /\
     (ps = [] /\ y = [] \/ ps <> [] /\ y = (c :: sep) ++ joined (c :: sep) (map part_text ps))).
  { unfold data. destruct ps as [|e2 ps].
    - cbn [map joined]. exists []. rewrite app_nil_r. split; [reflexivity|]. split; [now rewrite find_str_no|left; now split].
    - exists ((c :: sep) ++ joined (c :: sep) (map part_text (e2 :: ps))). split; [reflexivity|]. split; [|right; split; [discriminate|reflexivity]].
      change (joined (c :: sep) (map part_text (e :: e2 :: ps))) with (part_text e ++ (c :: sep) ++ joined (c :: sep) (map part_text (e2 :: ps))).
      rewrite find_str_at by assumption. lia. }
  destruct K as (y & Ed & En & Ey). cbn zeta. rewrite En. clearbody data.
  pose proof (part_split e y F1 (or_intror (or_intror Logic.I))) as Ps. cbn zeta in Ps. rewrite <- Ed in Ps. rewrite Ps. cbn zeta iota beta.
  replace (dropz (len (part_text e) + len (c :: sep)) data) with (joined (c :: sep) (map part_text ps)).
  2:{ rewrite Ed. destruct Ey as [[-> ->]|[_ ->]].
      - rewrite app_nil_r. rewrite dropz_all; [reflexivity|]. rewrite len_cons. pose proof (len_nonneg sep). lia.
      - rewrite app_assoc. symmetry. apply dropz_app_exact. now rewrite len_app. }
  cbn [fold_left]. rewrite IH.
  - f_equal. unfold assign_part, assign, part_value. rewrite <- named_len. cbn [fst snd]. destruct (negb _); [|reflexivity]. now destruct (snd e).
  - assumption.
  - destruct Ey as [[-> ->]|[_ ->]]; [cbn; lia|]. rewrite Ed in L. rewrite !app_length in L. cbn [List.length] in L. lia.
Qed.
Lemma parseVars_parts q sep ps st : sep <> [] -> Forall (part_plain sep) ps ->
  parseVars (joined sep (map part_text ps)) st sep q = fold_left (assign_part q) ps st.
Proof. intros S F. unfold parseVars. now apply parse_parts. Qed.
Lemma fold_parts q ps : forall st, fold_left (assign_part q) ps st = fold_left assign (map (part_value q) (filter named ps)) st.
Proof.
  induction ps as [|e ps IH]; intros st; [reflexivity|]. cbn [fold_left filter]. rewrite IH. unfold assign_part at 1. now destruct (named e).
Qed.

(** ** Printing *)
Definition enc_part (e : list Z * list Z) : list Z * option (list Z) := (url_encode (fst e) [] false, Some (url_encode (snd e) [] false)).
Lemma argStr_join l : forall ret w, 1 < len ret ->
  fold_left (argStr_step w) l ret = ret ++ flat_map (fun e => bs "&" ++ part_text (enc_part e)) (filter named l).
Proof.
  induction l as [|e l IH]; intros ret w L; [now rewrite app_nil_r|]. cbn [fold_left filter]. unfold argStr_step at 2.
  rewrite <- named_len. destruct (len (fst e) =? 0); cbn [negb]; [now apply IH|]. replace (len ret >? 1) with true by lia.
  rewrite IH.
  - cbn [flat_map]. unfold part_text, enc_part. cbn [fst snd]. now rewrite <- !app_assoc.
  - rewrite !len_app. pose proof (len_nonneg (url_encode (fst e) [] false)). pose proof (len_nonneg (url_encode (snd e) [] false)).
    pose proof (len_nonneg (bs "&")). pose proof (len_nonneg (bs "=")). lia.
Qed.
Lemma joined_flat sep t l : joined sep (t :: l) = t ++ flat_map (fun x => sep ++ x) l.
Proof. revert t. induction l as [|x l IH]; intros t; [cbn; now rewrite app_nil_r|]. cbn [flat_map]. rewrite <- app_assoc, <- IH. reflexivity. Qed.
Lemma enc_nonempty s : s <> [] -> 0 < len (url_encode s [] false).
Proof.
  destruct s as [|c s]; [congruence|]. intros _. unfold url_encode. cbn [flat_map]. rewrite len_app. pose proof (len_nonneg (flat_map (url_enc_char [] false) s)).
  assert (0 < len (url_enc_char [] false c)); [|lia].
  unfold url_enc_char. destruct (_ || _); [reflexivity|]. destruct (_ && _); [reflexivity|]. rewrite len_cons. pose proof (len_nonneg (hex_chr c)). lia.
Qed.
Lemma argStr_joined l w : argStr l w =
  match filter named l with [] => [] | ps => (if w then bs "?" else []) ++ joined (bs "&") (map part_text (map enc_part ps)) end.
Proof.
  unfold argStr. induction l as [|e l IH]; [reflexivity|]. cbn [fold_left filter]. unfold argStr_step at 2. rewrite <- named_len.
  destruct (len (fst e) =? 0) eqn:Z0; cbn [negb]; [exact IH|]. change (len (@nil Z) >? 1) with false. cbv iota. rewrite app_nil_l.
  assert (Ne : 0 < len (url_encode (fst e) [] false)) by (apply enc_nonempty; intros E; rewrite E in Z0; discriminate Z0).
  rewrite argStr_join.
  - cbn [map]. rewrite joined_flat. rewrite <- !app_assoc. unfold part_text at 2, enc_part at 2. cbn [fst snd]. rewrite <- !app_assoc.
    assert (Fm : flat_map (fun e0 => bs "&" ++ part_text (enc_part e0)) (filter named l) =
      flat_map (fun x => bs "&" ++ x) (map part_text (map enc_part (filter named l)))).
    { generalize (filter named l). intros r. induction r as [|x r IHr]; [reflexivity|]. cbn [flat_map map]. now rewrite IHr. }
    rewrite Fm. destruct w; reflexivity.
  - rewrite !len_app. change (len (bs "=")) with 1. pose proof (len_nonneg (url_encode (snd e) [] false)).
    pose proof (len_nonneg (if w then bs "?" else [])). lia.
Qed.
Lemma enc_q l : bytesP l -> url_decode (url_encode l [] false) true = l.
Proof.
  intros B. rewrite <- (url_roundtrip_lem l [] false B) at 2; [|intros []|discriminate].
  assert (N : ~ In 43 (url_encode l [] false)).
  { intros I. pose proof (enc_without "+" [] l ltac:(vm_compute; reflexivity) B) as W. unfold Url_Spec.without in W. rewrite Forall_forall in W.
    specialize (W 43 I). cbn in W. tauto. }
  revert N. generalize (url_encode l [] false). intros t. remember (List.length t) as n eqn:En. revert t En.
  induction n as [n IH] using lt_wf_ind. intros t -> N. destruct t as [|c t]; [reflexivity|]. cbn [url_decode].
  destruct (c =? ch "%").
  - destruct t as [|x [|y t]]; [reflexivity|reflexivity|]. f_equal. apply (IH (List.length t)); [cbn; lia|reflexivity|].
    intros I. apply N. right. right. now right.
  - replace (c =? ch "+") with false; [|symmetry; apply Z.eqb_neq; intros E; apply N; left; now rewrite E]. cbn [andb].
    f_equal. apply (IH (List.length t)); [cbn; lia|reflexivity|]. intros I. apply N. now right.
Qed.

Lemma enc_plain e : bytesP (fst e) -> bytesP (snd e) -> part_plain (bs "&") (enc_part e).
Proof.
  intros B1 B2.
  assert (N : forall l, bytesP l -> ~ In 61 (url_encode l [] false) /\ ~ In 38 (url_encode l [] false)).
  { intros l B. pose proof (enc_without "&=" [] l ltac:(vm_compute; reflexivity) B) as W. unfold Url_Spec.without in W. rewrite Forall_forall in W.
    split; intros I; specialize (W _ I); cbn in W; tauto. }
  destruct (N _ B1) as [N1 N2]. destruct (N _ B2) as [N3 N4]. unfold part_plain, part_text, enc_part. cbn [fst snd].
  split; [exact N1|]. change (hd 0 (bs "&")) with 38. intros I. rewrite !in_app_iff in I.
  destruct I as [I|[I|I]]; [tauto| |tauto]. destruct I as [I|[]]. discriminate I.
Qed.
Lemma increasing_filter (l : smap) f : Dtmi_Spec.increasing (map fst l) -> Dtmi_Spec.increasing (map fst (filter f l)).
Proof.
  induction l as [|e l IH]; intros S; [exact Logic.I|]. assert (S' : Dtmi_Spec.increasing (map fst l)).
  { cbn [map] in S. destruct (map fst l); [exact Logic.I|now destruct S]. }
  cbn [filter]. destruct (f e); [|now apply IH]. cbn [map]. specialize (IH S').
  destruct (map fst (filter f l)) as [|k r] eqn:E; [exact Logic.I|]. split; [|exact IH].
  apply (DtmiDec_Proofs.increasing_head _ _ S). assert (I : In k (map fst (filter f l))) by (rewrite E; now left).
  apply in_map_iff in I. destruct I as (x & <- & I). apply filter_In in I. apply in_map. tauto.
Qed.
Lemma enc_named e : named (enc_part e) = named e.
Proof.
  rewrite <- !named_len. unfold enc_part. cbn [fst]. destruct (fst e) as [|c n] eqn:E; [reflexivity|].
  pose proof (enc_nonempty (c :: n) ltac:(discriminate)). rewrite len_cons. pose proof (len_nonneg n). lia.
Qed.
Lemma vars_roundtrip_lem l : var_map l -> parseVars (argStr l false) [] (bs "&") true = filter named l.
Proof.
  intros [S B]. rewrite argStr_joined. destruct (filter named l) as [|x r] eqn:E; [reflexivity|]. rewrite app_nil_l.
  assert (Bf : Forall (fun e => bytesP (fst e) /\ bytesP (snd e)) (x :: r)).
  { rewrite <- E. apply Forall_forall. intros e I. apply filter_In in I. rewrite Forall_forall in B. now apply B. }
  assert (Nf : Forall (fun e => named e = true) (x :: r)).
  { rewrite <- E. apply Forall_forall. intros e I. now apply filter_In in I. }
  pose proof (increasing_filter l named S) as S'. rewrite E in S'. clear E. revert S' Bf Nf. generalize (x :: r). intros ps S' Bf Nf.
  rewrite parseVars_parts; [|discriminate|].
  - rewrite fold_parts.
    assert (F1 : map (part_value true) (filter named (map enc_part ps)) = ps).
    { clear S'. induction ps as [|e ps IH]; [reflexivity|]. inversion Bf as [|? ? [B1 B2] B3]. subst. inversion Nf. subst. cbn [map filter].
      rewrite enc_named. match goal with H : named e = true |- _ => rewrite H end. cbn [map]. rewrite IH by assumption.
      unfold part_value, enc_part. cbn [fst snd]. rewrite !enc_q by assumption. now destruct e. }
    rewrite F1. apply (fold_sorted ps []). exact S'.
  - apply Forall_forall. intros e I. apply in_map_iff in I. destruct I as (e' & <- & I). rewrite Forall_forall in Bf. destruct (Bf e' I). now apply enc_plain.
Qed.
