From Verif Require Import Common CommonFacts Encode_Model Encode_Spec Encode_Proofs Str_Model Str_Proofs Url_Model Url_Spec Url_Proofs UrlText_Proofs UrlLink_Proofs UrlRel_Proofs.

(** ** Texts that decode to something in every context *)
Definition dec_ok (t d : list Z) : Prop := forall r, url_decode (t ++ r) false = d ++ url_decode r false.
Lemma dec_nil : dec_ok [] []. Proof. intros r. reflexivity. Qed.
Lemma dec_app a b c d : dec_ok a c -> dec_ok b d -> dec_ok (a ++ b) (c ++ d).
Proof. intros A B r. rewrite <- !app_assoc. now rewrite A, B. Qed.
Lemma dec_done t d : dec_ok t d -> url_decode t false = d.
Proof. intros K. specialize (K []). simpl in K. now rewrite !app_nil_r in K. Qed.
Lemma dec_char c : c <> 37 -> dec_ok [c] [c].
Proof.
  intros N r. cbn [app url_decode]. change (ch "%") with 37. replace (c =? 37) with false by lia. now rewrite andb_false_r.
Qed.
Lemma dec_plain t : ~ In 37 t -> dec_ok t t.
Proof.
  induction t as [|c t IH]; intros N; [exact dec_nil|]. apply (dec_app [c] t [c] t).
  - apply dec_char. intros ->. apply N. now left.
  - apply IH. intros K. apply N. now right.
Qed.
Lemma dec_enc ign g : bytesP g -> ~ In 37 ign -> dec_ok (url_encode g ign false) g.
Proof.
  intros B N. induction B as [|b g Hb Hg IH]; [exact dec_nil|].
  change (url_encode (b :: g) ign false) with (url_enc_char ign false b ++ url_encode g ign false).
  apply (dec_app _ _ [b] g); [|exact IH]. unfold url_enc_char.
  destruct (url_safe b || url_exempt ign b) eqn:E.
  - apply dec_char. intros ->. apply orb_true_iff in E. destruct E as [E|E]; [discriminate E|]. now apply exempt_In in E.
  - rewrite andb_false_r. intros r. pose proof (hexpair_dec b Hb) as K. unfold hex_chr in *. cbn [app].
    cbn [url_decode]. change (ch "%" =? ch "%") with true. cbn iota. f_equal. exact K.
Qed.
Lemma dec_slashed l m : Forall2 dec_ok l m -> dec_ok (slashed l) (slashed m).
Proof.
  induction 1 as [|a c l m A F IH]; [exact dec_nil|]. destruct F as [|b d l m B F]; [exact A|].
  rewrite !slashed_cons by easy. apply dec_app; [exact A|]. apply (dec_app [47] _ [47] _); [|exact IH]. now apply dec_char.
Qed.

(** ** The base of a link *)
Lemma segs_folder p P : segs (folder p ++ P) = removelast (segs p) ++ segs P.
Proof.
  unfold folder. pose proof (segs_noslash p) as NS. rewrite (app_removelast_last [] (segs_nonnil p)) in NS.
  apply Forall_app in NS. destruct NS as (NS & _). destruct (removelast (segs p)) as [|g l]; [reflexivity|].
  rewrite slashed_snoc by easy. rewrite <- app_assoc. cbn [app]. now rewrite segs_app, segs_slashed.
Qed.
Lemma base_text u : isLocalPath u = false ->
  getBase u = (print_proto u ++ print_creds u ++ print_host u) ++ 47 :: folder (getEncodedPath u).
Proof.
  intros L. unfold getBase. rewrite L. unfold getBareUrl.
  set (X := print_proto u ++ print_creds u ++ print_host u).
  replace (print_proto u ++ print_creds u ++ print_host u ++ bs "/" ++ getEncodedPath u) with (X ++ 47 :: getEncodedPath u)
    by (unfold X; now rewrite <- !app_assoc).
  set (E := getEncodedPath u). unfold folder.
  pose proof (slashed_segs E) as P. pose proof (segs_noslash E) as NS.
  rewrite (app_removelast_last [] (segs_nonnil E)) in P, NS. apply Forall_app in NS. destruct NS as (_ & NS).
  inversion NS as [|z' l' Nz _]; subst. set (z := last (segs E) []) in *.
  destruct (removelast (segs E)) as [|g l].
  - simpl in P. rewrite <- P. rewrite rfindc_at by exact Nz.
    change (47 :: z) with ([47] ++ z). rewrite app_assoc. apply takez_app_exact. rewrite len_app. reflexivity.
  - rewrite slashed_snoc in P by easy. rewrite slashed_snoc by easy. rewrite <- P.
    replace (X ++ 47 :: slashed (g :: l) ++ 47 :: z) with ((X ++ 47 :: slashed (g :: l)) ++ 47 :: z) by (now rewrite <- app_assoc).
    rewrite rfindc_at by exact Nz.
    replace ((X ++ 47 :: slashed (g :: l)) ++ 47 :: z) with ((X ++ 47 :: slashed (g :: l) ++ [47]) ++ z)
      by (rewrite <- !app_assoc; cbn [app]; now rewrite <- !app_assoc).
    apply takez_app_exact. rewrite !len_app, !len_cons, len_app. change (len [47]) with 1. lia.
Qed.

Lemma map_removelast {A B} (f : A -> B) l : map f (removelast l) = removelast (map f l).
Proof.
  induction l as [|a l IH]; [reflexivity|]. destruct l as [|b l]; [reflexivity|].
  rewrite removelast_cons by easy. cbn [map]. rewrite IH. reflexivity.
Qed.
Lemma last_map {A B} (f : A -> B) l d : l <> [] -> last (map f l) (f d) = f (last l d).
Proof. intros N. destruct (exists_last N) as (m & z & ->). rewrite map_app. cbn [map]. now rewrite !last_last. Qed.

Section Enc.
Variable ign : list Z.
Hypothesis I1 : In 47 ign.
Hypothesis I2 : ~ In 37 ign.
Local Notation E := (fun g => url_encode g ign false).

Lemma bytes_segs p : bytesP p -> Forall bytesP (segs p).
Proof. rewrite <- (slashed_segs p) at 1. apply bytes_slashed. Qed.
Lemma segs_enc p : bytesP p -> segs (E p) = map E (segs p).
Proof.
  intros B. cbn beta. rewrite <- (slashed_segs p) at 1. rewrite enc_slashed by exact I1. apply segs_slashed.
  - pose proof (segs_nonnil p). now destruct (segs p).
  - apply Forall_map. pose proof (bytes_segs p B) as Bs. pose proof (segs_noslash p) as NS.
    rewrite Forall_forall in *. intros g G. apply enc_noslash; auto.
Qed.
Lemma enc_is g t : bytesP g -> bytesP t -> E t = t -> beqb (E g) t = beqb g t.
Proof.
  intros B T Et. destruct (beqb g t) eqn:K.
  - apply beqb_eq in K. subst g. cbn beta in *. rewrite Et. apply beqb_refl.
  - apply beqb_neq in K. apply beqb_neq. intros Q. apply K. apply (enc_inj ign); auto. cbn beta in *. congruence.
Qed.
Lemma bytes_dots : bytesP [] /\ bytesP (bs ".") /\ bytesP (bs ".."). Proof. repeat split; repeat constructor; lia. Qed.
Lemma visit_enc w g : bytesP g -> visit (map E w) (E g) = map E (visit w g).
Proof.
  intros B. destruct bytes_dots as (B0 & B1 & B2). unfold visit. rewrite !enc_is by auto.
  destruct (_ || _); [reflexivity|]. destruct (beqb g (bs "..")); [now rewrite map_removelast|now rewrite map_app].
Qed.
Lemma visits_enc l w : Forall bytesP l -> fold_left visit (map E l) (map E w) = map E (fold_left visit l w).
Proof. intros F. revert w. induction F as [|g l G F IH]; intros w; [reflexivity|]. cbn [map fold_left]. now rewrite visit_enc, IH. Qed.

Lemma enc_snoc g x : bytesP g -> E g = x ++ [46] -> exists g', g = g' ++ [46] /\ E g' = x.
Proof.
  intros B K. destruct g as [|c g _] using rev_ind; [now destruct x|]. cbn beta in K. rewrite enc_app in K.
  apply bytesP_app in B. destruct B as (B & Bc). inversion Bc as [|c' l' Hc _]; subst.
  unfold url_encode at 2 in K. cbn [flat_map] in K. rewrite app_nil_r in K.
  unfold url_enc_char in K. destruct (_ || _) in K.
  - apply app_inj_tail in K. destruct K as (K & ->). now exists g.
  - exfalso. rewrite andb_false_r in K. unfold hex_chr in K.
    change (ch "%" :: [?a; ?b]) with ([ch "%"; a] ++ [b]) in K. rewrite app_assoc in K. apply app_inj_tail in K.
    destruct K as (_ & K).
    assert (S : forallb (fun c => negb (hex_digit (c .& 15) =? 46)) all_bytes = true) by reflexivity.
    pose proof (byte_sweep _ S c Hc). cbn beta in *. lia.
Qed.
Lemma enc_ends g x : bytesP g -> E g = x ++ bs ".." -> exists y, g = y ++ bs "..".
Proof.
  intros B K. change (bs "..") with ([46] ++ [46]) in K. rewrite app_assoc in K.
  destruct (enc_snoc g _ B K) as (g1 & -> & K1). apply bytesP_app in B. destruct (enc_snoc g1 _ (proj1 B) K1) as (g2 & -> & _).
  exists g2. now rewrite <- app_assoc.
Qed.

(** An encoded place and the place itself: an encoded beginning, then plain names. *)
Definition par (w w' : list (list Z)) : Prop :=
  exists A B, w = map E A ++ B /\ w' = A ++ B /\ Forall bytesP A /\ Forall (fun b => ~ In 37 b) B.
Lemma visit_par w w' g : par w w' -> ~ In 37 g -> par (visit w g) (visit w' g).
Proof.
  intros (A & B & -> & -> & FA & FB) G. unfold visit. destruct (_ || _); [now exists A, B|].
  destruct (beqb g (bs "..")).
  - destruct B as [|b B _] using rev_ind.
    + rewrite !app_nil_r. exists (removelast A), []. rewrite !app_nil_r, map_removelast. repeat split; auto.
      destruct A as [|a A _] using rev_ind; [constructor|]. rewrite removelast_last. now apply Forall_app in FA.
    + exists A, B. rewrite !app_assoc, !removelast_last. repeat split; auto. now apply Forall_app in FB.
  - exists A, (B ++ [g]). rewrite <- !app_assoc. repeat split; auto. apply Forall_app. split; [exact FB|now repeat constructor].
Qed.
Lemma visits_par l w w' : par w w' -> Forall (fun b => ~ In 37 b) l -> par (fold_left visit l w) (fold_left visit l w').
Proof. intros P F. revert w w' P. induction F as [|g l G F IH]; intros w w' P; [exact P|]. cbn [fold_left]. apply IH. now apply visit_par. Qed.
Lemma par_dec w w' : par w w' -> Forall2 dec_ok w w'.
Proof.
  intros (A & B & -> & -> & FA & FB). apply Forall2_app.
  - induction FA as [|a A Ha FA IH]; [constructor|]. cbn [map]. constructor; [now apply dec_enc|exact IH].
  - induction FB as [|b B Hb FB IH]; [constructor|]. constructor; [now apply dec_plain|exact IH].
Qed.
Lemma par_ends w w' : par w w' -> (exists x, last w [] = x ++ bs "..") -> exists x, last w' [] = x ++ bs "..".
Proof.
  intros (A & B & -> & -> & FA & FB) (x & K). destruct B as [|b B _] using rev_ind.
  - rewrite app_nil_r in *. destruct A as [|a A _] using rev_ind; [now destruct x|].
    rewrite map_app in K. cbn [map] in K. rewrite last_last in *. apply Forall_app in FA. destruct FA as (_ & FA). inversion FA; subst.
    now apply (enc_ends a x).
  - rewrite app_assoc, last_last in *. now exists x.
Qed.
Lemma noper_segs P : ~ In 37 P -> Forall (fun b => ~ In 37 b) (segs P).
Proof. intros N. apply Forall_forall. intros g G K. apply N. now apply (in_segs 37 P g). Qed.
Lemma resolve_rel p P : bytesP p -> ~ In 37 P -> Forall name (removelast (segs p)) ->
  (odd_end (folder (E p) ++ P) -> odd_end (folder p ++ P))
  /\ url_decode (resolve (folder (E p) ++ P)) false = resolve (folder p ++ P).
Proof.
  intros B N F.
  assert (SE : segs (folder (E p) ++ P) = map E (removelast (segs p)) ++ segs P)
    by (rewrite segs_folder, segs_enc by exact B; now rewrite map_removelast).
  assert (SP := segs_folder p P).
  assert (Bs : Forall bytesP (removelast (segs p))).
  { pose proof (bytes_segs p B) as Q. rewrite (app_removelast_last [] (segs_nonnil p)) in Q. now apply Forall_app in Q. }
  assert (P0 : par (map E (removelast (segs p))) (removelast (segs p))).
  { exists (removelast (segs p)), []. rewrite !app_nil_r. repeat split; auto. }
  assert (NE : Forall name (map E (removelast (segs p)))).
  { apply Forall_map. rewrite Forall_forall in *. intros g G. apply enc_name; auto. }
  pose proof (noper_segs P N) as NP.
  assert (LE : last (segs (folder (E p) ++ P)) [] = last (segs (folder p ++ P)) []).
  { rewrite SE, SP, !last_app by apply segs_nonnil. reflexivity. }
  split.
  - intros (K1 & K2). split; [now rewrite <- LE|]. unfold before in *. rewrite SE, SP in *.
    rewrite removelast_app, fold_left_app in K2 by apply segs_nonnil. rewrite removelast_app, fold_left_app by apply segs_nonnil.
    rewrite (walk_names (map E (removelast (segs p)))) in K2 by exact NE. rewrite (walk_names (removelast (segs p))) by exact F. cbn [app] in *.
    revert K2. apply par_ends. apply visits_par; [exact P0|].
    rewrite (app_removelast_last [] (segs_nonnil P)) in NP. now apply Forall_app in NP.
  - assert (PW : par (walk (folder (E p) ++ P)) (walk (folder p ++ P))).
    { unfold walk. rewrite SE, SP, !fold_left_app. rewrite (walk_names (map E (removelast (segs p)))) by exact NE. rewrite (walk_names (removelast (segs p))) by exact F. cbn [app]. now apply visits_par. }
    apply par_dec in PW. unfold resolve, dirlike. rewrite LE.
    destruct PW as [|a c l m Ha Fl]; [reflexivity|].
    assert (D : dec_ok (slashed (a :: l)) (slashed (c :: m))) by (apply dec_slashed; now constructor).
    destruct (_ || _); apply dec_done; [|exact D]. apply dec_app; [exact D|now apply dec_char].
Qed.
Lemma dec_all l : Forall bytesP l -> Forall2 dec_ok (map E l) l.
Proof. induction 1 as [|a A Ha FA IH]; [constructor|]. cbn [map]. constructor; [now apply dec_enc|exact IH]. Qed.
Lemma resolve_abs p : bytesP p -> (odd_end (E p) -> odd_end p) /\ url_decode (resolve (E p)) false = resolve p.
Proof.
  intros B. pose proof (bytes_segs p B) as Bs. pose proof (segs_enc p B) as SE. destruct bytes_dots as (B0 & B1 & B2).
  assert (BR : Forall bytesP (removelast (segs p))).
  { pose proof Bs as Q. rewrite (app_removelast_last [] (segs_nonnil p)) in Q. now apply Forall_app in Q. }
  assert (BL : bytesP (last (segs p) [])).
  { pose proof Bs as Q. rewrite (app_removelast_last [] (segs_nonnil p)) in Q. apply Forall_app in Q. destruct Q as (_ & Q). now inversion Q. }
  assert (LE : last (segs (E p)) [] = E (last (segs p) [])).
  { rewrite SE. apply (last_map E (segs p) []). apply segs_nonnil. }
  assert (BW : forall l w, Forall bytesP l -> Forall bytesP w -> Forall bytesP (fold_left visit l w)).
  { intros l w L W. apply Forall_forall. intros g G. apply in_visits in G. rewrite Forall_forall in *. destruct G; auto. }
  split.
  - intros (K1 & K2). rewrite LE in K1. split; [apply beqb_eq; rewrite <- (enc_is _ (bs "..")) by auto; now apply beqb_eq|].
    unfold before in *. rewrite SE, <- map_removelast in K2. pose proof (visits_enc (removelast (segs p)) [] BR) as V.
    cbn [map] in V. rewrite V in K2. destruct K2 as (x & K2).
    pose proof (BW _ [] BR (Forall_nil _)) as BB.
    destruct (fold_left visit (removelast (segs p)) []) as [|a A _] using rev_ind; [now destruct x|].
    rewrite map_app in K2. cbn [map] in K2. rewrite last_last in *. apply Forall_app in BB. destruct BB as (_ & BB). inversion BB; subst.
    now apply (enc_ends a x).
  - assert (W : walk (E p) = map E (walk p)) by (unfold walk; rewrite SE; exact (visits_enc (segs p) [] Bs)).
    unfold resolve, dirlike. rewrite LE, W, !enc_is by auto.
    pose proof (BW (segs p) [] Bs (Forall_nil _)) as BB. fold (walk p) in BB.
    destruct (walk p) as [|g l]; [reflexivity|]. cbn [map].
    assert (D : dec_ok (slashed (E g :: map E l)) (slashed (g :: l))).
    { apply dec_slashed. exact (dec_all (g :: l) BB). }
    destruct (_ || _); apply dec_done; [|exact D]. apply dec_app; [exact D|now apply dec_char].
Qed.
End Enc.

(** ** link *)
Lemma tame_front p : tame p -> Forall name (removelast (segs p)).
Proof.
  intros (l & F & K). assert (NS : Forall (fun g => ~ In 47 g) l) by (eapply Forall_impl; [|exact F]; intros g G; apply G).
  destruct l as [|g l].
  - destruct K as [->|(K & _)]; [constructor|easy].
  - destruct K as [->|(_ & ->)].
    + rewrite segs_slashed by easy. rewrite (app_removelast_last [] (l := g :: l)) in F by easy. now apply Forall_app in F.
    + change (slashed (g :: l) ++ [47]) with (slashed (g :: l) ++ 47 :: []). rewrite segs_app, segs_slashed by easy.
      change (segs []) with [@nil Z]. now rewrite removelast_last.
Qed.
Lemma not_full l : ~ link_full l ->
  match find_str (bs "://") l 0, findc 47 l with
  | Some a, Some b => a <? b
  | Some _, None => true
  | None, _ => false
  end = false.
Proof.
  intros N. destruct (find_str (bs "://") l 0) as [a|] eqn:Ea; [|reflexivity].
  destruct (find_str_some _ _ _ Ea) as (x & y & El & -> & _). pose proof (findp_spec (Z.eqb 47) l 0) as K.
  fold (findc 47 l) in K. destruct (findc 47 l) as [b|].
  - destruct K as (x' & c & y' & E' & F & C & ->). destruct (len x <? 0 + len x') eqn:Q; [|reflexivity].
    exfalso. apply N. exists x, y. split; [exact El|]. intros I.
    rewrite E' in El. apply app_eq_app in El. destruct El as (m & [(-> & _)|(-> & K)]).
    + rewrite Forall_forall in F. specialize (F 47 (in_or_app _ _ _ (or_introl I))). lia.
    + apply in_app_or in I. destruct I as [I|I]; [rewrite Forall_forall in F; specialize (F 47 I); lia|].
      rewrite len_app in Q. pose proof (len_nonneg m). destruct m; [destruct I|]. rewrite len_cons in Q. pose proof (len_nonneg m). lia.
  - exfalso. rewrite Forall_forall in K. assert (I : In 47 l) by (rewrite El; apply in_or_app; right; simpl; auto).
    apply K in I. lia.
Qed.

Lemma plain_enc u : protocol u <> [] -> protocol u <> bs "file" -> protocol u <> bs "rtsp" ->
  getEncodedPath u = url_encode (path u) (bs "/:=@[]") false.
Proof.
  intros N F R. unfold getEncodedPath. rewrite isLocal_proto by exact N.
  rewrite (proj2 (beqb_neq _ _) F), (proj2 (beqb_neq _ _) R). reflexivity.
Qed.
Lemma folder_in c p : In c (folder p) -> In c p.
Proof.
  intros K. unfold folder in K. pose proof (slashed_segs p) as Q. rewrite (app_removelast_last [] (segs_nonnil p)) in Q.
  destruct (removelast (segs p)) as [|g l]; [destruct K|]. rewrite slashed_snoc in K, Q by easy.
  rewrite <- Q. apply in_app_or in K. apply in_or_app. destruct K as [K|[K|[]]]; [now left|right; now left].
Qed.

Lemma link_relative_lem u P a f : ordinary u -> protocol u <> bs "file" -> protocol u <> bs "rtsp" ->
  without "?#%" P -> hd 0 P <> 47 -> query_part a -> frag_part f -> ~ link_full (P ++ a ++ f) ->
  ~ odd_end (folder (path u) ++ P) ->
  link u (P ++ a ++ f) =
  mkUrl (host u) (protocol u) (kept_port u) (resolve (folder (path u) ++ P)) (dropz 1 a) (url_decode (dropz 1 f) false)
        (user u) (pass u) (IPv6Addr u).
Proof.
  intros O NF NR WP HP (QA & WA) QF NL NO. destruct (o_proto u O) as (P1 & P2). destruct (o_bytes u O) as (Bu & Bw & Bp & _).
  destruct (host_print u O) as (H1 & H2 & H3). destruct (creds_print u (print_host u) Bu Bw H3) as (C1 & C2).
  unfold link. rewrite (not_full _ NL). cbn [andb].
  replace (nthz (P ++ a ++ f) 0 =? 47) with false.
  2: { symmetry. apply Z.eqb_neq. destruct P as [|c P]; [|exact HP]. destruct QA as [->|(x & ->)]; [|easy].
       destruct QF as [->|(x & ->)]; easy. }
  rewrite base_text by (rewrite isLocal_proto by exact P1; now apply beqb_neq).
  rewrite plain_enc by assumption. destruct (ign_slash "/:=@[]" eq_refl) as (I1 & I2).
  set (E := url_encode (path u) (bs "/:=@[]") false).
  destruct (resolve_rel (bs "/:=@[]") I1 I2 (path u) P Bp) as (R1 & R2).
  { apply (without_notin _ _ _ WP). simpl; auto. }
  { apply tame_front, O. }
  fold E in R1, R2.
  assert (PP : print_proto u = protocol u ++ bs "://").
  { unfold print_proto. destruct (len (protocol u) =? 0) eqn:Q; [exfalso; apply P1, len_zero; lia|reflexivity]. }
  rewrite PP. replace (((protocol u ++ bs "://") ++ print_creds u ++ print_host u) ++ 47 :: folder E) with
    (protocol u ++ bs "://" ++ (print_creds u ++ print_host u) ++ 47 :: folder E) by (now rewrite <- !app_assoc).
  rewrite <- !app_assoc. rewrite (app_assoc (print_creds u)). cbn [app].
  rewrite URL_text.
  - cbn iota. rewrite (app_assoc (folder E) P). rewrite (parse_path_gen (protocol u) (folder E ++ P) a f); auto.
    + rewrite (proj2 (beqb_neq _ _) NF). replace (len (protocol u) =? 0) with false.
      2: { symmetry. apply Z.eqb_neq. intros Q. apply P1. now apply len_zero. }
      cbn [orb]. rewrite R2, C1, H1. reflexivity.
    + apply without_app. split; [|revert WP; apply without_sub; simpl; intuition].
      apply Forall_forall. intros c K. apply folder_in in K.
      assert (WE : without "?#" E) by (apply enc_without; [reflexivity|exact Bp]). unfold without in WE. rewrite Forall_forall in WE. auto.
  - apply (without_notin _ _ _ P2). simpl; auto.
  - apply without_app. auto.
  - right. do 2 eexists. split; [reflexivity|simpl; auto].
Qed.

Lemma link_absolute_lem u P : ordinary u -> protocol u <> bs "file" -> protocol u <> bs "rtsp" -> protocol u <> bs "rist" ->
  bytesP P -> hd 0 P <> 47 -> ~ odd_end P ->
  link u (47 :: P) =
  mkUrl (host u) (protocol u) (kept_port u) (resolve P) [] (frag u) (user u) (pass u) (IPv6Addr u).
Proof.
  intros O NF NR NI BP HP NO. destruct (o_proto u O) as (P1 & P2). destruct (o_bytes u O) as (Bu & Bw & _ & Bf).
  destruct (host_print u O) as (H1 & H2 & H3). destruct (creds_print u (print_host u) Bu Bw H3) as (C1 & C2).
  unfold link. rewrite not_full.
  2: { intros (x & y & Q & K). destruct x as [|c x]; [discriminate Q|]. injection Q as Q _. apply K. left. lia. }
  cbn [andb]. change (nthz (47 :: P) 0 =? 47) with true. cbn iota.
  replace ((len (47 :: P) >? 1) && (nthz (47 :: P) 1 =? 47)) with false.
  2: { symmetry. destruct P as [|c P]; [reflexivity|]. change (nthz (47 :: c :: P) 1) with c. simpl in HP.
       apply andb_false_intro2. lia. }
  change (dropz 1 (47 :: P)) with P.
  set (tmp := mkUrl (host u) (protocol u) (port u) P [] (frag u) (user u) (pass u) (IPv6Addr u)).
  rewrite isLocal_proto by exact P1. change (protocol tmp) with (protocol u). rewrite (proj2 (beqb_neq _ _) NF).
  rewrite getUrl_split by exact P1. change (protocol tmp) with (protocol u). rewrite URL_text.
  - change (print_creds tmp) with (print_creds u). change (print_host tmp) with (print_host u). rewrite C1, H1.
    unfold print_tail. rewrite plain_enc by assumption. change (protocol tmp) with (protocol u). rewrite (proj2 (beqb_neq _ _) NI).
    cbn [negb]. change (args tmp) with (@nil Z). change (negb (len (@nil Z) =? 0)) with false. change (path tmp) with P.
    pose proof (frag_print u Bf) as F. cbn zeta in F. change (frag tmp) with (frag u).
    set (f := if negb (len (frag u) =? 0) then bs "#" ++ _ else []) in *. destruct F as (F1 & F2).
    destruct (ign_slash "/:=@[]" eq_refl) as (I1 & I2). destruct (resolve_abs (bs "/:=@[]") I1 I2 P BP) as (R1 & R2).
    change (bs "/" ++ url_encode P (bs "/:=@[]") false) with (47 :: url_encode P (bs "/:=@[]") false).
    cbn [app]. rewrite (parse_path_gen (protocol u) (url_encode P (bs "/:=@[]") false) [] f); auto.
    + rewrite (proj2 (beqb_neq _ _) NF). replace (len (protocol u) =? 0) with false.
      2: { symmetry. apply Z.eqb_neq. intros Q. apply P1. now apply len_zero. }
      cbn [orb]. rewrite R2, F1. reflexivity.
    + apply enc_without; [reflexivity|exact BP].
    + constructor.
  - apply (without_notin _ _ _ P2). simpl; auto.
  - apply without_app. auto.
  - apply tail_start.
Qed.

(** ** getLinkFrom *)
Lemma cut_unique (f : Z -> bool) x d y x' d' y' : Forall (fun c => f c = false) x -> Forall (fun c => f c = false) x' ->
  f d = true -> f d' = true -> x ++ d :: y = x' ++ d' :: y' -> x = x' /\ d = d' /\ y = y'.
Proof.
  intros F F' D D' Q. apply app_eq_app in Q. destruct Q as (m & [(-> & Q)|(-> & Q)]).
  - destruct m as [|c m]; [rewrite app_nil_r; now injection Q as -> ->|]. injection Q as -> _. apply Forall_app in F. destruct F as (_ & F).
    inversion F; congruence.
  - destruct m as [|c m]; [rewrite app_nil_r; now injection Q as -> ->|]. injection Q as -> _. apply Forall_app in F'. destruct F' as (_ & F').
    inversion F'; congruence.
Qed.
Lemma contains_cut t s1 c s2 : ~ In c t -> contains t (s1 ++ c :: s2) -> contains t s1 \/ contains t s2.
Proof.
  intros N (x & y & Q). rewrite app_assoc in Q. symmetry in Q. apply app_eq_app in Q. destruct Q as (l & [(Q & R)|(Q & R)]).
  - destruct l as [|d l].
    + left. exists x, []. now rewrite !app_nil_r in *.
    + injection R as <- R. symmetry in Q. apply app_eq_app in Q. destruct Q as (m & [(Q & R')|(Q & R')]).
      * exfalso. apply N. rewrite R'. apply in_or_app. right. now left.
      * destruct m as [|d m]; [exfalso; apply N; cbn [app] in R'; rewrite <- R'; now left|]. injection R' as <- R'.
        right. exists m, y. now rewrite R, R', <- app_assoc.
  - left. exists x, l. now rewrite Q, <- app_assoc.
Qed.
Lemma tame_no z y : tame (z ++ 47 :: y) -> last (segs z) [] <> [].
Proof.
  intros T K. apply tame_front in T. rewrite segs_app, removelast_app in T by apply segs_nonnil.
  apply Forall_app in T. destruct T as (T & _). rewrite (app_removelast_last [] (segs_nonnil z)), K in T.
  apply Forall_app in T. destruct T as (_ & T). inversion T as [|g l (_ & G & _) _]. now apply G.
Qed.
Lemma folder_last p : last (segs (folder p)) [] = [].
Proof. rewrite <- (app_nil_r (folder p)), segs_folder, last_app by apply segs_nonnil. reflexivity. Qed.
Lemma enc_nocolon ign l : bytesP l -> ~ In 58 l -> ~ In 58 (url_encode l ign false).
Proof.
  intros B. induction B as [|b l Hb Hl IH]; intros N; [easy|].
  change (url_encode (b :: l) ign false) with (url_enc_char ign false b ++ url_encode l ign false).
  intros K. apply in_app_or in K. destruct K as [K|K].
  - unfold url_enc_char in K. destruct (_ || _).
    + destruct K as [K|[]]. apply N. now left.
    + rewrite andb_false_r in K.
      assert (S : forallb (fun b => negb (existsb (Z.eqb 58) (37 :: hex_chr b))) all_bytes = true) by reflexivity.
      pose proof (byte_sweep _ S b Hb) as Q. cbn beta in Q. apply negb_true_iff in Q.
      assert (existsb (Z.eqb 58) (37 :: hex_chr b) = true); [|congruence]. apply existsb_exists. exists 58. now split.
  - apply IH; [|exact K]. intros Q. apply N. now right.
Qed.

Lemma link_from_lem to from : ordinary to -> ordinary from -> protocol to <> bs "file" -> protocol from <> bs "file" ->
  without "/" (protocol to) -> hd 0 (protocol to) <> 1 ->
  ~ contains (bs "://") (args to) -> without ":" (frag to) ->
  link from (getLinkFrom to from) = with_port to (kept_port to).
Proof.
  intros O O' NF NF' WS H1 NA WF. destruct (o_proto to O) as (P1 & P2). destruct (o_proto from O') as (P1' & P2').
  destruct (o_bytes to O) as (Bu & Bw & Bp & Bf). destruct (o_bytes from O') as (Bu' & Bw' & Bp' & _).
  rewrite <- (print_parse to O). unfold getLinkFrom.
  rewrite isLocal_proto by exact P1. rewrite (proj2 (beqb_neq _ _) NF).
  destruct (beqb (takez (len (getBase from)) (getUrl to)) (getBase from)) eqn:Q.
  - apply take_pre in Q. destruct Q as (r & Q). rewrite Q, dropz_app_exact by reflexivity.
    assert (R : ~ link_full r /\ nthz r 0 <> 47).
    { rewrite getUrl_split in Q by exact P1. rewrite base_text in Q by (rewrite isLocal_proto by exact P1'; now apply beqb_neq).
      assert (PP : print_proto from = protocol from ++ bs "://").
      { unfold print_proto. destruct (len (protocol from) =? 0) eqn:Z0; [exfalso; apply P1', len_zero; lia|reflexivity]. }
      rewrite PP in Q. rewrite <- !app_assoc in Q.
      change (bs "://" ++ ?x) with (58 :: 47 :: 47 :: x) in Q.
      apply (cut_unique (Z.eqb 58)) in Q; try reflexivity.
      2: { apply eqb_notin. apply (without_notin _ _ _ P2). simpl; auto. }
      2: { apply eqb_notin. apply (without_notin _ _ _ P2'). simpl; auto. }
      destruct Q as (PE & _ & Q). injection Q as Q.
      destruct (host_print to O) as (_ & H2 & H3). destruct (creds_print to (print_host to) Bu Bw H3) as (_ & C2).
      destruct (host_print from O') as (_ & H2' & H3'). destruct (creds_print from (print_host from) Bu' Bw' H3') as (_ & C2').
      rewrite app_assoc in Q. rewrite (app_assoc (print_creds from)) in Q. cbn [app] in Q.
      assert (WA : without "/?#" (print_creds to ++ print_host to)) by (now apply without_app).
      assert (WA' : without "/?#" (print_creds from ++ print_host from)) by (now apply without_app).
      set (f3 := fun c => (c =? 47) || (c =? 63) || (c =? 35)).
      assert (F3 : forall s, without "/?#" s -> Forall (fun c => f3 c = false) s).
      { intros s. apply Forall_impl. intros c N. unfold f3. simpl in N. lia. }
      assert (T : print_tail to = 47 :: folder (getEncodedPath from) ++ r).
      { destruct (tail_start to) as [Z0|(c & t & Z0 & Cc)].
        - exfalso. rewrite Z0, app_nil_r in Q. apply (without_notin _ _ 47 WA); [simpl; auto|].
          rewrite Q. apply in_or_app. right. now left.
        - rewrite Z0 in *. apply (cut_unique f3) in Q; auto.
          + destruct Q as (_ & -> & ->). reflexivity.
          + unfold f3. simpl in Cc. lia. }
      clear Q. unfold print_tail in T.
      pose proof (args_print to) as A. pose proof (frag_print to Bf) as F. cbn zeta in A, F.
      set (a := if negb (len (args to) =? 0) then bs "?" ++ args to else []) in *.
      set (f := if negb (len (frag to) =? 0) then bs "#" ++ _ else []) in *.
      destruct A as (A1 & A2 & _). destruct F as (_ & F2).
      assert (NC : ~ contains (bs "://") f).
      { intros (x & y & Z0). assert (I : In 58 f) by (rewrite Z0; apply in_or_app; right; simpl; auto).
        unfold f in I. destruct (negb (len (frag to) =? 0)); [|destruct I].
        change (bs "#") with [35] in I. destruct I as [I|I]; [lia|]. revert I. apply enc_nocolon; [exact Bf|].
        apply (without_notin _ _ _ WF). simpl; auto. }
      assert (NAF : ~ contains (bs "://") (a ++ f)).
      { intros K. destruct F2 as [F2|(f' & F2)].
        - rewrite F2, app_nil_r in K. destruct A2 as [A2|(a' & A2)].
          + rewrite A2 in K. destruct K as ([|] & y & K); discriminate K.
          + rewrite A2 in K. rewrite A2 in A1. change (dropz 1 (bs "?" ++ a')) with a' in A1. subst a'.
            apply (contains_cut _ [] 63) in K; [|simpl; intuition lia]. destruct K as [([|] & y & K)|K]; [discriminate K|discriminate K|auto].
        - rewrite F2 in K, NC. change (bs "#" ++ f') with (35 :: f') in *. apply contains_cut in K; [|simpl; intuition lia].
          destruct K as [K|(x & y & K)].
          + destruct A2 as [A2|(a' & A2)].
            * rewrite A2 in K. destruct K as ([|] & y & K); discriminate K.
            * rewrite A2 in K. rewrite A2 in A1. change (dropz 1 (bs "?" ++ a')) with a' in A1. subst a'.
              apply (contains_cut _ [] 63) in K; [|simpl; intuition lia]. destruct K as [([|] & y & K)|K]; [discriminate K|discriminate K|auto].
          + apply NC. exists (35 :: x), y. now rewrite K. }
      destruct (negb (beqb (protocol to) (bs "rist"))) eqn:NI.
      2: { exfalso. cbn [app] in T. destruct A2 as [A2|(a' & A2)]; rewrite A2 in T; [|discriminate T].
           destruct F2 as [F2|(f' & F2)]; rewrite F2 in T; discriminate T. }
      change (bs "/" ++ getEncodedPath to) with (47 :: getEncodedPath to) in T. cbn [app] in T. injection T as T.
      assert (TE : tame (getEncodedPath to)).
      { unfold getEncodedPath. rewrite isLocal_proto by exact P1. rewrite (proj2 (beqb_neq _ _) NF).
        destruct (beqb (protocol to) (bs "rtsp")).
        - destruct (ign_slash "/:=@[]#?&" eq_refl) as (I1 & I2). apply enc_tame; auto. apply O.
        - destruct (ign_slash "/:=@[]" eq_refl) as (I1 & I2). apply enc_tame; auto. apply O. }
      assert (G : exists E2, getEncodedPath to = folder (getEncodedPath from) ++ E2 /\ r = E2 ++ a ++ f).
      { apply app_eq_app in T. destruct T as (m & [(T & R)|(T & R)]).
        - exists m. now split.
        - destruct m as [|c m]; [exists []; rewrite !app_nil_r in *; cbn [app] in *; now split|].
          exfalso. destruct (beqb (protocol to) (bs "rtsp")) eqn:RT.
          + apply beqb_eq in RT. destruct (o_rtsp to O RT) as (Ra & Rf).
            assert (Ea : a = []) by (unfold a; now rewrite Ra). assert (Ef : f = []) by (unfold f; now rewrite Rf).
            rewrite Ea, Ef in R. discriminate R.
          + assert (Ic : In c (getEncodedPath from)) by (apply folder_in; rewrite T; apply in_or_app; right; now left).
            assert (Cc : c = 63 \/ c = 35).
            { destruct A2 as [A2|(a' & A2)]; rewrite A2 in R; [|injection R as <- _; now left].
              destruct F2 as [F2|(f' & F2)]; rewrite F2 in R; [discriminate R|injection R as <- _; now right]. }
            revert Ic. unfold getEncodedPath. rewrite isLocal_proto by exact P1'. rewrite (proj2 (beqb_neq _ _) NF').
            destruct (beqb (protocol from) (bs "rtsp")) eqn:RT'.
            * rewrite PE in RT. congruence.
            * assert (WE : without "?#" (url_encode (path from) (bs "/:=@[]") false)) by (apply enc_without; [reflexivity|exact Bp']).
              apply (without_notin _ _ _ WE). simpl. lia. }
      destruct G as (E2 & G1 & G2). split.
      - intros (x & y & K & _). assert (K' : contains (bs "://") (E2 ++ a ++ f)) by (exists x, y; congruence).
        assert (NE : ~ contains (bs "://") E2).
        { intros (x1 & y1 & K1). rewrite G1, K1 in TE.
          replace (folder (getEncodedPath from) ++ x1 ++ bs "://" ++ y1) with
            ((folder (getEncodedPath from) ++ x1 ++ [58; 47]) ++ 47 :: y1) in TE by (now rewrite <- !app_assoc).
          apply tame_no in TE. apply TE. change [58; 47] with ([58] ++ 47 :: []).
          rewrite !app_assoc. rewrite segs_app, last_app by apply segs_nonnil. reflexivity. }
        assert (SP : (a ++ f = [] \/ exists c t, a ++ f = c :: t /\ (c = 63 \/ c = 35))).
        { destruct A2 as [A2|(a' & A2)]; rewrite A2; [|right; do 2 eexists; split; [reflexivity|now left]].
          destruct F2 as [F2|(f' & F2)]; rewrite F2; [now left|right; do 2 eexists; split; [reflexivity|now right]]. }
        destruct SP as [SP|(c & t & SP & Cc)]; rewrite SP in *.
        + rewrite app_nil_r in K'. auto.
        + apply contains_cut in K'; [|simpl; lia]. destruct K' as [K'|(x1 & y1 & K')]; [auto|].
          apply NAF. exists (c :: x1), y1. now rewrite K'.
      - intros K. destruct E2 as [|c E2].
        + cbn [app] in G2. rewrite G2 in K. destruct A2 as [A2|(a' & A2)]; rewrite A2 in K; [|discriminate K].
          destruct F2 as [F2|(f' & F2)]; rewrite F2 in K; discriminate K.
        + rewrite G2 in K. change (c = 47) in K. subst c. rewrite G1 in TE. apply tame_no in TE. apply TE, folder_last. }
    destruct R as (R1 & R2). unfold link. rewrite (not_full _ R1). cbn [andb]. apply Z.eqb_neq in R2. rewrite R2. reflexivity.
  - unfold link. rewrite getUrl_split by exact P1.
    set (t := (print_creds to ++ print_host to) ++ print_tail to).
    change (bs "://") with (58 :: [47; 47]). rewrite find_str_at by (apply (without_notin _ _ _ P2); simpl; auto).
    replace (protocol to ++ (58 :: [47; 47]) ++ t) with ((protocol to ++ [58]) ++ 47 :: 47 :: t) by (now rewrite <- app_assoc).
    rewrite findc_at.
    2: { intros K. apply in_app_or in K. destruct K as [K|[K|[]]]; [|lia]. revert K. apply (without_notin _ _ _ WS). simpl; auto. }
    rewrite len_app. change (len [58]) with 1. replace (0 + len (protocol to) <? len (protocol to) + 1) with true by lia. cbn [andb].
    pose proof (findp_spec (Z.eqb 1) ((protocol to ++ [58]) ++ 47 :: 47 :: t) 0) as K. fold (findc 1 ((protocol to ++ [58]) ++ 47 :: 47 :: t)) in K.
    destruct (findc 1 ((protocol to ++ [58]) ++ 47 :: 47 :: t)) as [i|]; [|reflexivity].
    destruct K as (x & c & y & K & _ & C & ->). replace (0 + len x =? 0) with false; [reflexivity|].
    symmetry. apply Z.eqb_neq. intros Z0. assert (x = []) by (apply len_zero; lia). subst x. cbn [app] in K.
    destruct (protocol to) as [|d p]; [easy|]. cbn [app] in K. injection K as K _. simpl in H1. lia.
Qed.
