From Verif Require Import Common CommonFacts Encode_Model Encode_Spec Encode_Proofs Str_Model Str_Proofs Url_Model Url_Spec Url_Proofs UrlText_Proofs UrlLink_Proofs.

(** ** Staying inside *)
Lemma names_stay l : Forall name l -> forall dir, fold_left visit l dir = dir ++ l.
Proof. intros F dir. now apply walk_names. Qed.
Lemma tame_stays p : tame p -> stays_inside p.
Proof.
  intros (l & F & K) dir. assert (NS : Forall (fun g => ~ In 47 g) l) by (eapply Forall_impl; [|exact F]; intros g G; apply G).
  exists l. destruct l as [|g l].
  - destruct K as [->|(K & _)]; [|easy]. simpl. now rewrite app_nil_r.
  - destruct K as [->|(_ & ->)].
    + rewrite segs_slashed by easy. now apply names_stay.
    + change (slashed (g :: l) ++ [47]) with (slashed (g :: l) ++ 47 :: []). rewrite segs_app, segs_slashed by easy.
      rewrite fold_left_app, (names_stay _ F). reflexivity.
Qed.
Lemma visit_names w g : Forall name w -> ~ In 47 g -> Forall name (visit w g).
Proof.
  intros F N. unfold visit. destruct (beqb g [] || beqb g (bs ".")) eqn:E1; [exact F|].
  destruct (beqb g (bs "..")) eqn:E2.
  - destruct w as [|a w] using rev_ind; [constructor|]. rewrite removelast_last. now apply Forall_app in F.
  - apply Forall_app. split; [exact F|]. apply orb_false_iff in E1. destruct E1 as (E0 & E1).
    apply beqb_neq in E0, E1, E2. constructor; [|constructor]. now repeat split.
Qed.
Lemma fold_visit_names l : Forall (fun g => ~ In 47 g) l -> forall w, Forall name w -> Forall name (fold_left visit l w).
Proof. induction 1 as [|g l G L IH]; intros w W; [exact W|]. simpl. apply IH. now apply visit_names. Qed.
Lemma walk_is_names p : Forall name (walk p).
Proof. apply fold_visit_names; [apply segs_noslash|constructor]. Qed.
Lemma before_is_names p : Forall name (before p).
Proof.
  apply fold_visit_names; [|constructor]. pose proof (segs_noslash p) as K.
  rewrite (app_removelast_last [] (segs_nonnil p)) in K. now apply Forall_app in K.
Qed.
Lemma resolve_is_tame p : tame (resolve p).
Proof.
  exists (walk p). split; [apply walk_is_names|]. unfold resolve. destruct (walk p); [now left|].
  destruct (dirlike p); [right|left]; split; auto. discriminate.
Qed.
Lemma odd_dec p : odd_end p \/ ~ odd_end p.
Proof.
  unfold odd_end. destruct (list_eq_dec Z.eq_dec (last (segs p) []) (bs "..")) as [->|N]; [|right; tauto].
  destruct (last_is 2 (last (before p) []) (bs "..")) eqn:E.
  - destruct (Z_le_gt_dec 2 (len (last (before p) []))) as [L|L].
    + left. split; [easy|]. now apply (last_is_ok _ (bs "..")).
    + right. intros (_ & x & K). rewrite K, len_app in L. change (len (bs "..")) with 2 in L. pose proof (len_nonneg x). lia.
  - right. intros (_ & x & K). enough (last_is 2 (last (before p) []) (bs "..") = true) by congruence.
    apply (last_is_ok _ (bs "..")); [|now exists x]. rewrite K, len_app. pose proof (len_nonneg x). lia.
Qed.
Lemma odd_names p : odd_end p -> before p <> [].
Proof. intros (_ & x & K) E. rewrite E in K. now destruct x. Qed.
Lemma normalise_stays p : stays_inside (normalise p).
Proof.
  destruct (odd_dec p) as [O|O].
  - rewrite (proj2 (normalise_ok p) O). intros dir. pose proof (before_is_names p) as F. pose proof (odd_names p O) as N.
    destruct (exists_last N) as (l & g & E). rewrite E in *.
    change (slashed (l ++ [g]) ++ bs "/..") with (slashed (l ++ [g]) ++ 47 :: bs "..").
    assert (NS : Forall (fun g => ~ In 47 g) (l ++ [g])) by (eapply Forall_impl; [|exact F]; intros h G; apply G).
    rewrite segs_app, segs_slashed by (auto; now destruct l). rewrite fold_left_app, (names_stay _ F).
    exists l. change (segs (bs "..")) with [bs ".."]. cbn [fold_left].
    change (visit (dir ++ l ++ [g]) (bs "..")) with (removelast (dir ++ l ++ [g])). now rewrite app_assoc, removelast_last.
  - rewrite (proj1 (normalise_ok p) O). apply tame_stays, resolve_is_tame.
Qed.

(** Where the path of a parsed URL comes from. *)
Lemma in_takez {A} (x : A) n l : In x (takez n l) -> In x l.
Proof. intros K. rewrite <- (takez_dropz n l). apply in_or_app. now left. Qed.
Lemma in_dropz {A} (x : A) n l : In x (dropz n l) -> In x l.
Proof. intros K. rewrite <- (takez_dropz n l). apply in_or_app. now right. Qed.
Lemma path_source s : exists p, (forall c, In c p -> In c s) /\
  path (URL s) = (if beqb (protocol (URL s)) (bs "file") || (len (protocol (URL s)) =? 0) then normalise p else url_decode (normalise p) false).
Proof.
  unfold URL. destruct (split_proto s) as (proto, sep).
  set (rest := dropz sep s). assert (IR : forall c, In c rest -> In c s) by (intros c; apply in_dropz).
  destruct (findp _ rest 0) as [i|].
  - unfold parse_path. set (t := dropz i rest). assert (IT : forall c, In c t -> In c s) by (intros c K; apply IR; now apply in_dropz in K).
    set (p0 := if nthz t 0 =? 47 then dropz 1 t else t).
    assert (IP : forall c, In c p0 -> In c s) by (intros c; unfold p0; destruct (_ =? 47); intros K; apply IT; auto; now apply in_dropz in K).
    destruct (if beqb proto (bs "rtsp") then (p0, [], []) else _) as ((p1 & a1) & f1) eqn:E1.
    assert (I1 : forall c, In c p1 -> In c s).
    { destruct (beqb proto (bs "rtsp")); [now injection E1 as <- _ _|].
      destruct (findc 35 p0) as [h|]; [destruct (findc 63 (takez h p0))|destruct (findc 63 p0)];
        injection E1 as <- _ _; intros c K; apply IP; eauto using in_takez. }
    exists p1. split; [exact I1|].
    destruct (parse_creds (takez i rest)) as ((u & w) & hp). destruct (parse_host hp) as ((h & n) & v).
    cbn [path protocol]. unfold isLocalPath. cbn [protocol host port]. change (len [] =? 0) with true.
    cbn [andb]. rewrite andb_true_r.
    destruct p1 as [|c p1]; [|destruct (beqb proto (bs "file")); reflexivity].
    change (len [] =? 0) with true. cbn iota. change (normalise []) with (@nil Z). now destruct (_ || _).
  - exists []. split; [easy|]. destruct (parse_creds rest) as ((u & w) & hp). destruct (parse_host hp) as ((h & n) & v).
    cbn [path protocol]. change (normalise []) with (@nil Z). now destruct (_ || _).
Qed.
Lemma decode_plain l : ~ In 37 l -> url_decode l false = l.
Proof.
  induction l as [|c l IH]; intros N; [easy|]. cbn [url_decode]. change (ch "%") with 37.
  destruct (c =? 37) eqn:E; [exfalso; apply N; left; lia|]. rewrite andb_false_r. rewrite IH; [easy|].
  intros K. apply N. now right.
Qed.
Lemma in_segs c p g : In g (segs p) -> In c g -> In c p.
Proof.
  rewrite <- (slashed_segs p) at 2. induction (segs p) as [|h l IH]; intros G C; [easy|].
  destruct l as [|k l]; [destruct G as [->|[]]; exact C|]. rewrite slashed_cons by easy. apply in_or_app.
  destruct G as [->|G]; [now left|right; right; now apply IH].
Qed.
Lemma in_visits l : forall w g, In g (fold_left visit l w) -> In g w \/ In g l.
Proof.
  induction l as [|h l IH]; intros w g K; [now left|]. simpl in K. apply IH in K. destruct K as [K|K]; [|right; now right].
  unfold visit in K. destruct (_ || _); [now left|]. destruct (beqb h (bs "..")).
  - destruct w as [|a w] using rev_ind; [easy|]. rewrite removelast_last in K. left. apply in_or_app. now left.
  - apply in_app_or in K. destruct K as [K|[->|[]]]; [now left|right; now left].
Qed.
Lemma in_slashed c l : In c (slashed l) -> c = 47 \/ exists g, In g l /\ In c g.
Proof.
  induction l as [|g l IH]; intros K; [easy|]. destruct l as [|h l]; [right; exists g; split; [now left|exact K]|].
  rewrite slashed_cons in K by easy. apply in_app_or in K. destruct K as [K|[K|K]]; [right; exists g; split; [now left|exact K]|left; lia|].
  destruct (IH K) as [->|(k & A & B)]; [now left|right; exists k; split; [now right|exact B]].
Qed.
Lemma in_normalise c p : In c (normalise p) -> c <> 47 -> c <> 46 -> In c p.
Proof.
  intros K N M. destruct (odd_dec p) as [O|O].
  - rewrite (proj2 (normalise_ok p) O) in K. apply in_app_or in K. destruct K as [K|K]; [|simpl in K; lia].
    apply in_slashed in K. destruct K as [->|(g & G & C)]; [easy|].
    unfold before in G. apply in_visits in G. destruct G as [[]|G].
    apply (in_segs c p g); [|exact C]. rewrite (app_removelast_last [] (segs_nonnil p)). apply in_or_app. now left.
  - rewrite (proj1 (normalise_ok p) O) in K. unfold resolve in K.
    assert (Q : In c (slashed (walk p))).
    { destruct (walk p); [easy|]. destruct (dirlike p); [|exact K]. apply in_app_or in K. destruct K as [K|[K|[]]]; [exact K|lia]. }
    apply in_slashed in Q. destruct Q as [->|(g & G & C)]; [easy|].
    unfold walk in G. apply in_visits in G. destruct G as [[]|G]. now apply (in_segs c p g).
Qed.
Lemma url_stays_lem s : protocol (URL s) = bs "file" \/ protocol (URL s) = [] \/ ~ In 37 s ->
  exists p, path (URL s) = normalise p /\ (forall c, In c p -> In c s).
Proof.
  intros Hy. destruct (path_source s) as (p & I & E). exists p. split; [|exact I]. rewrite E. clear E.
  destruct Hy as [->|[->|N]]; [reflexivity..|]. destruct (_ || _); [reflexivity|].
  apply decode_plain. intros K. apply N, I. now apply in_normalise.
Qed.
