From Verif Require Import Common CommonFacts Encode_Model Str_Model Str_Proofs Url_Model Url_Spec.

(** ** Segments *)
Lemma segs_nonnil p : segs p <> [].
Proof. destruct p as [|c r]; simpl; [easy|]. destruct (c =? 47); [easy|]. now destruct (segs r). Qed.
Lemma segs_app x y : segs (x ++ 47 :: y) = segs x ++ segs y.
Proof.
  induction x as [|c x IH]; [reflexivity|].
  simpl. rewrite IH. destruct (c =? 47); [reflexivity|].
  destruct (segs x) as [|g gs] eqn:E; [now apply segs_nonnil in E|reflexivity].
Qed.
Lemma segs_plain x : ~ In 47 x -> segs x = [x].
Proof.
  induction x as [|c x IH]; intros N; [reflexivity|]. simpl.
  destruct (c =? 47) eqn:E; [exfalso; apply N; left; lia|].
  rewrite IH; [reflexivity|]. intros K. apply N. now right.
Qed.
Lemma segs_noslash p : Forall (fun g => ~ In 47 g) (segs p).
Proof.
  induction p as [|c r IH]; simpl; [now repeat constructor|].
  destruct (c =? 47) eqn:E; [constructor; [easy|exact IH]|].
  destruct (segs r) as [|g gs]; inversion IH; subst; constructor; try easy.
  - intros [K|[]]. lia.
  - intros [K|K]; [lia|easy].
Qed.
Lemma slashed_cons g l : l <> [] -> slashed (g :: l) = g ++ 47 :: slashed l.
Proof. now destruct l. Qed.
Lemma slashed_app a b : a <> [] -> b <> [] -> slashed (a ++ b) = slashed a ++ 47 :: slashed b.
Proof.
  induction a as [|g a IH]; intros A B; [easy|]. destruct a as [|h a].
  - simpl app. now rewrite slashed_cons.
  - change ((g :: h :: a) ++ b) with (g :: ((h :: a) ++ b)).
    rewrite slashed_cons by (now destruct b). rewrite IH by easy.
    rewrite (slashed_cons g (h :: a)) by easy. now rewrite <- app_assoc.
Qed.
Lemma slashed_segs p : slashed (segs p) = p.
Proof.
  induction p as [|c r IH]; [reflexivity|]. simpl segs. destruct (c =? 47) eqn:E.
  - rewrite slashed_cons by apply segs_nonnil. rewrite IH. simpl. f_equal. lia.
  - destruct (segs r) as [|g gs] eqn:K; [now apply segs_nonnil in K|].
    destruct gs as [|h gs]; simpl in *; now rewrite IH.
Qed.
Lemma segs_slashed l : l <> [] -> Forall (fun g => ~ In 47 g) l -> segs (slashed l) = l.
Proof.
  induction l as [|g l IH]; intros N F; [easy|]. inversion F; subst. destruct l as [|h l].
  - now apply segs_plain.
  - rewrite slashed_cons by easy. rewrite segs_app, segs_plain, IH by easy. reflexivity.
Qed.

(** All but the first and the last. *)
Definition inner {A} (l : list A) : list A := removelast (tl l).
Lemma inner_app {A} (x y : list A) : x <> [] -> y <> [] -> inner (x ++ y) = tl x ++ removelast y.
Proof.
  intros X Y. unfold inner. destruct x as [|a x]; [easy|]. simpl tl. now apply removelast_app.
Qed.
Lemma inner_occurs n p : ~ In 47 n -> In n (inner (segs p)) -> exists x y, p = x ++ 47 :: n ++ 47 :: y.
Proof.
  intros N K. unfold inner in K. rewrite <- (slashed_segs p).
  destruct (segs p) as [|g l]; [easy|]. simpl tl in K.
  destruct (exists_last (l := l)) as (m & z & ->); [intros ->; destruct K|].
  rewrite removelast_last in K. apply in_split in K. destruct K as (a & b & ->).
  exists (slashed (g :: a)), (slashed (b ++ [z])).
  change (g :: (a ++ n :: b) ++ [z]) with ((g :: a ++ n :: b) ++ [z]).
  replace ((g :: a ++ n :: b) ++ [z]) with ((g :: a) ++ n :: (b ++ [z])) by (simpl; now rewrite <- app_assoc).
  rewrite slashed_app by easy. rewrite (slashed_cons n (b ++ [z])); [reflexivity|now destruct b].
Qed.

Lemma walk_app x y : walk (x ++ 47 :: y) = fold_left visit (segs y) (walk x).
Proof. unfold walk. now rewrite segs_app, fold_left_app. Qed.
Lemma last_app {A} (a b : list A) d : b <> [] -> last (a ++ b) d = last b d.
Proof.
  intros N. destruct (exists_last N) as (c & z & ->). now rewrite app_assoc, !last_last.
Qed.
Lemma dirlike_app x y : dirlike (x ++ 47 :: y) = dirlike y.
Proof. unfold dirlike. rewrite segs_app, last_app; [reflexivity|apply segs_nonnil]. Qed.


(** ** Squeezing *)
Lemma find_str_none p s : find_str p s 0 = None -> forall x y, s <> x ++ p ++ y.
Proof.
  intros F x y E. pose proof (find_str_spec p s 0) as K. rewrite F in K.
  apply (K (len x)). exists x, y. now split.
Qed.
Lemma find_str_some p s q : find_str p s 0 = Some q ->
  exists x y, s = x ++ p ++ y /\ q = len x /\ forall x' y', s = x' ++ p ++ y' -> len x <= len x'.
Proof.
  intros F. pose proof (find_str_spec p s 0) as K. rewrite F in K. destruct K as (x & y & E & -> & K).
  exists x, y. repeat split; try easy. intros x' y' E'. apply K. now exists x', y'.
Qed.
Lemma erase_at x d y n : n = len d -> erase (x ++ d ++ y) (len x) n = x ++ y.
Proof.
  intros ->. unfold erase. rewrite takez_app_exact by reflexivity. f_equal.
  rewrite app_assoc. apply dropz_app_exact. now rewrite len_app.
Qed.
Lemma squeeze_ind (P : list Z -> Prop) d pat : d <> [] ->
  (forall x y, P (x ++ (d ++ pat) ++ y) -> P (x ++ pat ++ y)) ->
  forall fuel p, (List.length p <= fuel)%nat -> P p ->
    P (squeeze fuel (d ++ pat) (len d) p) /\ find_str (d ++ pat) (squeeze fuel (d ++ pat) (len d) p) 0 = None.
Proof.
  intros D St. induction fuel as [|k IH]; intros p L Hp.
  - destruct p; [|simpl in L; lia]. split; [exact Hp|]. destruct d; [easy|]. reflexivity.
  - cbn [squeeze]. destruct (find_str (d ++ pat) p 0) as [q|] eqn:E; [|split; assumption].
    apply find_str_some in E. destruct E as (x & y & -> & -> & _).
    rewrite <- app_assoc. rewrite erase_at by reflexivity. apply IH.
    + rewrite !app_length in *. destruct d; [easy|]. simpl in L. lia.
    + now apply St.
Qed.

Lemma visit_nil w : visit w [] = w. Proof. reflexivity. Qed.
Lemma visit_dot w : visit w (bs ".") = w. Proof. reflexivity. Qed.
Lemma visit_up w : visit w (bs "..") = removelast w. Proof. reflexivity. Qed.
Lemma visit_name w g : name g -> visit w g = w ++ [g].
Proof.
  intros (_ & A & B & C). unfold visit.
  apply beqb_neq in A, B, C. now rewrite A, B, C.
Qed.

Local Notation fwalk := before.
Lemma walk_fwalk p : walk p = visit (fwalk p) (last (segs p) []).
Proof.
  unfold walk, before. rewrite (app_removelast_last [] (segs_nonnil p)) at 1.
  now rewrite fold_left_app.
Qed.
Lemma fwalk_app x y : fwalk (x ++ 47 :: y) = fold_left visit (removelast (segs y)) (walk x).
Proof. unfold before. rewrite segs_app, removelast_app, fold_left_app by apply segs_nonnil. reflexivity. Qed.
Lemma last_segs_app x y : last (segs (x ++ 47 :: y)) [] = last (segs y) [].
Proof. rewrite segs_app, last_app; [reflexivity|apply segs_nonnil]. Qed.

(** Two texts of the same place. *)
Definition same (p q : list Z) : Prop := fwalk p = fwalk q /\ last (segs p) [] = last (segs q) [].
Lemma same_refl p : same p p. Proof. easy. Qed.
Lemma same_trans p q r : same p q -> same q r -> same p r.
Proof. intros (A & B) (C & D). split; congruence. Qed.
Lemma same_resolve p q : same p q -> resolve p = resolve q.
Proof. intros (A & B). unfold resolve, dirlike. now rewrite !walk_fwalk, A, B. Qed.

Lemma removelast_cons {A} (a : A) l : l <> [] -> removelast (a :: l) = a :: removelast l.
Proof. now destruct l. Qed.
Lemma same_front g y : ~ In 47 g -> visit [] g = [] -> same (g ++ 47 :: y) y.
Proof.
  intros G V. split; [|apply last_segs_app]. rewrite fwalk_app. unfold walk, before. rewrite (segs_plain g G).
  cbn [fold_left]. now rewrite V.
Qed.
Lemma same_slash y : same (47 :: y) y.
Proof. now apply (same_front [] y). Qed.
Lemma same_mid x g y : ~ In 47 g -> (forall w, visit w g = w) -> same (x ++ 47 :: g ++ 47 :: y) (x ++ 47 :: y).
Proof.
  intros G V. split; [|now rewrite !last_segs_app].
  rewrite !fwalk_app, segs_app, (segs_plain g G). cbn [app]. rewrite removelast_cons by apply segs_nonnil.
  cbn [fold_left]. now rewrite V.
Qed.
Lemma same_dot x y : same (x ++ bs "/./" ++ y) (x ++ bs "/" ++ y).
Proof. apply (same_mid x (bs ".")); [simpl; intuition lia|reflexivity]. Qed.
Lemma same_double x y : same (x ++ bs "//" ++ y) (x ++ bs "/" ++ y).
Proof. now apply (same_mid x []). Qed.
Lemma same_parent x g y : name g -> same (x ++ 47 :: g ++ bs "/../" ++ y) (x ++ 47 :: y).
Proof.
  intros G. change (g ++ bs "/../" ++ y) with (g ++ 47 :: (bs ".." ++ 47 :: y)).
  split; [|now rewrite !last_segs_app].
  rewrite !fwalk_app, !segs_app, (segs_plain g) by apply G.
  change (segs (bs "..")) with [bs ".."]. cbn [app].
  rewrite !removelast_cons by (apply segs_nonnil || discriminate).
  cbn [fold_left]. rewrite (visit_name _ _ G).
  change (visit (walk x ++ [g]) _) with (removelast (walk x ++ [g])). now rewrite removelast_last.
Qed.
Lemma same_first g y : ~ In 47 g -> same (g ++ bs "/../" ++ y) y.
Proof.
  intros G. change (g ++ bs "/../" ++ y) with (g ++ 47 :: (bs ".." ++ 47 :: y)).
  split; [|now rewrite !last_segs_app].
  rewrite fwalk_app, segs_app. unfold walk, before. rewrite (segs_plain g G).
  change (segs (bs "..")) with [bs ".."]. cbn [app].
  rewrite !removelast_cons by (apply segs_nonnil || discriminate).
  cbn [fold_left]. f_equal. change (removelast (visit [] g) = []). unfold visit.
  destruct (_ || _); [reflexivity|]. destruct (beqb g _); reflexivity.
Qed.

(** ** Climbing *)
Lemma rfindc_spec c s :
  match rfindc c s with
  | None => ~ In c s
  | Some i => exists a b, s = a ++ c :: b /\ ~ In c b /\ i = len a
  end.
Proof.
  unfold rfindc, findc. pose proof (findp_spec (Z.eqb c) (rev s) 0) as K.
  destruct (findp (Z.eqb c) (rev s) 0) as [i|].
  - destruct K as (x & d & y & E & F & G & ->). exists (rev y), (rev x).
    apply Z.eqb_eq in G. subst d.
    assert (E' : s = rev y ++ c :: rev x).
    { rewrite <- (rev_involutive s), E, rev_app_distr. simpl. now rewrite <- app_assoc. }
    split; [exact E'|]. split.
    + rewrite <- in_rev. intros K. rewrite Forall_forall in F. apply F in K. lia.
    + rewrite E', len_app, len_cons, !len_rev. lia.
  - rewrite in_rev. intros K'. rewrite Forall_forall in K. apply K in K'. lia.
Qed.

Definition tidy (cs : list (list Z)) : Prop :=
  Forall (fun g => g <> [] /\ g <> bs ".") (inner cs) /\ (tl cs <> [] -> hd [] cs <> []).

Lemma tl_inner {A} (P : A -> Prop) (l : list A) : Forall P (removelast l) -> Forall P (inner l).
Proof.
  unfold inner. destruct l as [|a l]; [easy|]. simpl tl. destruct l as [|b l]; [easy|].
  intros F. cbn [removelast] in F. now inversion F.
Qed.
Lemma tl_app {A} (a b : list A) : a <> [] -> tl (a ++ b) = tl a ++ b. Proof. now destruct a. Qed.
Lemma hd_app {A} (d : A) (a b : list A) : a <> [] -> hd d (a ++ b) = hd d a. Proof. now destruct a. Qed.

Lemma noslash_dots : ~ In 47 (bs ".."). Proof. simpl. intuition lia. Qed.
Lemma noslash_dot : ~ In 47 (bs "."). Proof. simpl. intuition lia. Qed.

Lemma climb_ok fuel : forall p, (List.length p <= fuel)%nat -> tidy (segs p) ->
  same p (climb fuel p) /\ tidy (segs (climb fuel p)) /\ find_str (bs "/../") (climb fuel p) 0 = None.
Proof.
  induction fuel as [|k IH]; intros p L T.
  - destruct p; [|simpl in L; lia]. repeat split; apply T.
  - cbn [climb]. destruct (find_str (bs "/../") p 0) as [q|] eqn:E; [|repeat split; trivial; apply T].
    apply find_str_some in E. destruct E as (x & y & -> & -> & First).
    assert (X : x <> []).
    { intros ->. destruct T as (_ & T). change ([] ++ bs "/../" ++ y) with ([] ++ 47 :: (bs ".." ++ 47 :: y)) in T.
      rewrite segs_app in T. simpl segs at 1 in T. simpl tl in T. apply T; [discriminate|reflexivity]. }
    assert (XL : 0 < len x) by (destruct x; [easy|rewrite len_cons; pose proof (len_nonneg x); lia]).
    replace (len x =? 0) with false by lia.
    unfold rfindc_to. replace (len x - 1 + 1) with (len x) by lia. rewrite takez_app_exact by reflexivity.
    pose proof (rfindc_spec 47 x) as R. destruct (rfindc 47 x) as [i|].
    + destruct R as (x1 & g & -> & G & ->).
      change (bs "/../" ++ y) with (47 :: (bs ".." ++ 47 :: y)) in *.
      assert (Sg : segs ((x1 ++ 47 :: g) ++ 47 :: (bs ".." ++ 47 :: y)) = segs x1 ++ [g; bs ".."] ++ segs y).
      { rewrite !segs_app, (segs_plain g), (segs_plain (bs "..")) by (auto using noslash_dots). now rewrite <- app_assoc. }
      destruct T as (T1 & T2). rewrite Sg in T1, T2.
      rewrite inner_app in T1 by (auto using segs_nonnil; discriminate).
      cbn [app] in T1.
      assert (RL : removelast (g :: bs ".." :: segs y) = g :: bs ".." :: removelast (segs y)).
      { pose proof (segs_nonnil y). simpl. now destruct (segs y). }
      rewrite RL in T1. apply Forall_app in T1. destruct T1 as (Ta & Tb).
      inversion Tb as [|g' l' (G1 & G2) Tc]; subst. inversion Tc as [|g' l' _ Td]; subst.
      assert (G3 : g <> bs "..").
      { intros ->. specialize (First x1 (bs "../" ++ y)).
        rewrite <- app_assoc in First. specialize (First eq_refl). rewrite len_app, len_cons in First.
        pose proof (len_nonneg (bs "..")). lia. }
      replace (erase ((x1 ++ 47 :: g) ++ 47 :: (bs ".." ++ 47 :: y)) (len x1 + 1) (len (x1 ++ 47 :: g) - len x1 + 3))
        with (x1 ++ 47 :: y).
      2:{ replace ((x1 ++ 47 :: g) ++ 47 :: (bs ".." ++ 47 :: y)) with ((x1 ++ [47]) ++ (g ++ bs "/../") ++ y)
            by (rewrite <- !app_assoc; reflexivity).
          replace (len x1 + 1) with (len (x1 ++ [47])) by (rewrite len_app; reflexivity).
          rewrite erase_at; [now rewrite <- app_assoc|]. rewrite !len_app, len_cons. change (len (bs "/../")) with 4. lia. }
      destruct (IH (x1 ++ 47 :: y)) as (A & B & C).
      * rewrite !app_length in *. simpl in *. lia.
      * rewrite segs_app. split.
        -- rewrite inner_app by apply segs_nonnil. now apply Forall_app.
        -- rewrite hd_app in * by apply segs_nonnil. intros _. apply T2.
           rewrite tl_app by apply segs_nonnil. now destruct (tl (segs x1)).
      * split; [|now split]. refine (same_trans _ _ _ _ A).
        rewrite <- app_assoc. cbn [app]. apply same_parent. now split.
    + replace (erase (x ++ bs "/../" ++ y) 0 (len x + 4)) with y.
      2:{ rewrite app_assoc. pose proof (erase_at [] (x ++ bs "/../") y (len x + 4)) as K.
          rewrite len_nil in K. simpl app in K at 1. symmetry. rewrite <- app_assoc in *. apply K.
          rewrite len_app. reflexivity. }
      change (bs "/../" ++ y) with (47 :: (bs ".." ++ 47 :: y)) in *.
      assert (Sg : segs (x ++ 47 :: (bs ".." ++ 47 :: y)) = [x; bs ".."] ++ segs y).
      { rewrite !segs_app, (segs_plain x), (segs_plain (bs "..")) by (auto using noslash_dots). reflexivity. }
      destruct T as (T1 & T2). rewrite Sg in T1.
      rewrite inner_app in T1 by (auto using segs_nonnil; discriminate). cbn [tl app] in T1.
      inversion T1 as [|g' l' _ Td]; subst.
      destruct (IH y) as (A & B & C).
      * rewrite !app_length in L. simpl in L. lia.
      * split; [now apply tl_inner|]. intros N. destruct (segs y) as [|g gs]; [easy|].
        simpl in N. destruct gs as [|h gs]; [easy|]. cbn [removelast] in Td. inversion Td; subst. simpl. easy.
      * split; [|now split]. refine (same_trans _ _ _ _ A). now apply same_first.
Qed.

(** ** The front of the path *)
Definition ready (p : list Z) : Prop := Forall name (removelast (segs p)).
Lemma last_is_ok s t : len t <= len s -> last_is (len t) s t = true <-> exists x, s = x ++ t.
Proof.
  intros L. unfold last_is. rewrite beqb_eq. split.
  - intros E. exists (takez (len s - len t) s). rewrite <- E at 2. symmetry. apply takez_dropz.
  - intros (x & ->). apply dropz_app_exact. rewrite len_app. lia.
Qed.
Lemma take_pre t s : beqb (takez (len t) s) t = true <-> exists y, s = t ++ y.
Proof.
  rewrite beqb_eq. split.
  - intros E. exists (dropz (len t) s). rewrite <- E at 1. symmetry. apply takez_dropz.
  - intros (y & ->). now apply takez_app_exact.
Qed.

Definition drop_front (p : list Z) : list Z :=
  let p := if beqb (takez 2 p) (bs "./") then dropz 2 p else p in
  if beqb (takez 3 p) (bs "../") then dropz 3 p else p.

Lemma front_ok p : tidy (segs p) -> find_str (bs "/../") p 0 = None -> same p (drop_front p) /\ ready (drop_front p).
Proof.
  intros (T1 & T2) F.
  assert (I : Forall name (inner (segs p))).
  { apply Forall_forall. intros g G. rewrite Forall_forall in T1. destruct (T1 g G) as (A & B).
    assert (N : ~ In 47 g).
    { pose proof (segs_noslash p) as K. rewrite Forall_forall in K. apply K.
      unfold inner in G. destruct (segs p) as [|h l]; [easy|]. simpl in G. right.
      destruct l as [|k l]; [easy|]. rewrite (app_removelast_last [] (l := k :: l)) by easy.
      apply in_or_app. now left. }
    repeat split; try easy. intros ->. destruct (inner_occurs (bs "..") p N G) as (x & y & E).
    exact (find_str_none _ _ F x y E). }
  assert (Dir : forall g y, ~ In 47 g -> p = g ++ 47 :: y -> ready y).
  { intros g y G ->. unfold ready. rewrite segs_app, (segs_plain g G) in I. exact I. }
  unfold drop_front.
  destruct (beqb (takez 2 p) (bs "./")) eqn:E1.
  - apply (take_pre (bs "./")) in E1. destruct E1 as (y & E1). assert (R : ready y) by (apply (Dir (bs ".")); [apply noslash_dot|exact E1]).
    replace (dropz 2 p) with y by (now rewrite E1).
    destruct (beqb (takez 3 y) (bs "../")) eqn:E2.
    + apply (take_pre (bs "../")) in E2. destruct E2 as (z & ->). exfalso. unfold ready in R.
      change (bs "../" ++ z) with (bs ".." ++ 47 :: z) in R. rewrite segs_app in R.
      change (segs (bs "..")) with [bs ".."] in R. cbn [app] in R.
      rewrite removelast_cons in R by apply segs_nonnil. inversion R as [|g l (_ & _ & _ & K)]; subst. now apply K.
    + split; [|exact R]. rewrite E1. apply (same_front (bs ".")); [apply noslash_dot|reflexivity].
  - destruct (beqb (takez 3 p) (bs "../")) eqn:E2.
    + apply (take_pre (bs "../")) in E2. destruct E2 as (y & E2). replace (dropz 3 p) with y by (now rewrite E2).
      split; [rewrite E2; apply (same_front (bs "..")); [apply noslash_dots|reflexivity]|].
      apply (Dir (bs "..")); [apply noslash_dots|exact E2].
    + split; [apply same_refl|]. unfold ready.
      destruct (segs p) as [|g l] eqn:S; [constructor|]. unfold inner in I. simpl tl in *. simpl hd in T2.
      destruct l as [|h l]; [constructor|]. rewrite removelast_cons by easy. constructor; [|exact I].
      assert (P : p = g ++ 47 :: slashed (h :: l)) by (rewrite <- (slashed_segs p), S; reflexivity).
      pose proof (segs_noslash p) as K. rewrite S in K. inversion K; subst.
      repeat split; try easy; [now apply T2| |]; intros ->.
      * assert (beqb (takez 2 (bs "." ++ 47 :: slashed (h :: l))) (bs "./") = true); [|congruence].
        apply (take_pre (bs "./")). now eexists.
      * assert (beqb (takez 3 (bs ".." ++ 47 :: slashed (h :: l))) (bs "../") = true); [|congruence].
        apply (take_pre (bs "../")). now eexists.
Qed.

(** ** The end of the path *)
Lemma walk_names l : Forall name l -> forall w, fold_left visit l w = w ++ l.
Proof.
  induction l as [|g l IH]; intros F w; [now rewrite app_nil_r|]. inversion F; subst.
  cbn [fold_left]. rewrite visit_name, IH by easy. now rewrite <- app_assoc.
Qed.
Lemma slashed_snoc l g : l <> [] -> slashed (l ++ [g]) = slashed l ++ 47 :: g.
Proof. intros N. now rewrite slashed_app. Qed.
Definition finish (p : list Z) : list Z :=
  let p := if beqb p (bs "..") then [] else p in
  let p := if beqb p (bs ".") then [] else p in
  let p := end_dots p in
  if (len p >? 1) && last_is 2 p (bs "/.") then takez (len p - 1) p else p.

Lemma last_is_seg p t n : ~ In 47 t -> n = len t + 1 -> n <= len p -> last_is n p (47 :: t) = true -> last (segs p) [] = t.
Proof.
  intros T -> L K. replace (len t + 1) with (len (47 :: t)) in * by (rewrite len_cons; lia).
  apply last_is_ok in K; [|exact L]. destruct K as (x & ->). now rewrite last_segs_app, segs_plain.
Qed.
Lemma end_dots_id p : last (segs p) [] <> bs ".." -> end_dots p = p.
Proof.
  intros N. unfold end_dots. destruct ((len p >? 2) && last_is 3 p (bs "/..")) eqn:E; [|reflexivity].
  exfalso. apply N. apply (last_is_seg p (bs "..") 3); [apply noslash_dots|reflexivity|lia|]. now apply andb_prop in E.
Qed.
Lemma tail_dot_id p : last (segs p) [] <> bs "." ->
  (if (len p >? 1) && last_is 2 p (bs "/.") then takez (len p - 1) p else p) = p.
Proof.
  intros N. destruct ((len p >? 1) && last_is 2 p (bs "/.")) eqn:E; [|reflexivity].
  exfalso. apply N. apply (last_is_seg p (bs ".") 2); [apply noslash_dot|reflexivity|lia|]. now apply andb_prop in E.
Qed.
Lemma name_len g : name g -> 0 < len g.
Proof. intros (_ & G & _). destruct g; [easy|]. rewrite len_cons. pose proof (len_nonneg g). lia. Qed.
Lemma ends_dots l g : name g -> ((exists x, slashed (l ++ [g]) = x ++ bs "..") <-> exists x, g = x ++ bs "..").
Proof.
  intros G.
  assert (E : exists a, slashed (l ++ [g]) = a ++ g /\ (a = [] \/ exists b, a = b ++ [47])).
  { destruct l as [|h l]; [exists []; simpl; auto|]. exists (slashed (h :: l) ++ [47]).
    rewrite slashed_snoc by easy. rewrite <- app_assoc. split; [reflexivity|]. right. now eexists. }
  destruct E as (a & E & A). rewrite E. split.
  - intros (x & K). destruct (exists_last (l := g)) as (g1 & c & ->); [apply G|].
    rewrite app_assoc in K. change (bs "..") with ([46] ++ [46]) in K. rewrite app_assoc in K.
    apply app_inj_tail in K. destruct K as (K & ->).
    destruct g1 as [|d g1] using rev_ind; [destruct G as (_ & _ & G & _); exfalso; now apply G|].
    rewrite app_assoc in K. apply app_inj_tail in K. destruct K as (K & ->).
    exists g1. now rewrite <- app_assoc.
  - intros (x & ->). exists (a ++ x). now rewrite app_assoc.
Qed.

Lemma ready_fwalk p : ready p -> fwalk p = removelast (segs p).
Proof. intros R. unfold before. rewrite walk_names by exact R. reflexivity. Qed.
Lemma finish_ok p : ready p ->
  (~ odd_end p -> finish p = resolve p) /\ (odd_end p -> finish p = slashed (fwalk p) ++ bs "/..").
Proof.
  intros R. assert (W := ready_fwalk p R). unfold odd_end, resolve, dirlike. rewrite walk_fwalk, W.
  pose proof (app_removelast_last [] (segs_nonnil p)) as Sp. unfold ready in R.
  pose proof (segs_noslash p) as NS.
  pose proof (slashed_segs p) as P. rewrite Sp in P.
  set (N := removelast (segs p)) in *. set (z := last (segs p) []) in *. clearbody N. 
  assert (Z0 : ~ In 47 z) by (rewrite Sp in NS; apply Forall_app in NS; destruct NS as (_ & NS); now inversion NS).
  assert (Zd : last (segs p) [] = z) by reflexivity. clearbody z.
  destruct (beqb z (bs "..")) eqn:E1.
  { apply beqb_eq in E1. rewrite E1 in *. clear E1 z.
    destruct N as [|n N'] eqn:EN.
    - simpl in P. subst p. split; [reflexivity|]. intros (_ & x & K). simpl in K. now destruct x.
    - rewrite <- EN in *. assert (NN : N <> []) by (rewrite EN; discriminate). clear EN n N'.
      rewrite slashed_snoc in P by exact NN.
      destruct (exists_last NN) as (M & g & ->). rewrite last_last. apply Forall_app in R. destruct R as (RM & Rg).
      inversion Rg as [|g' l' G _]; subst g' l'.
      assert (P5 : beqb p (bs "..") = false) by (apply beqb_neq; intros Q; rewrite Q in P; destruct (slashed (M ++ [g])) as [|c [|d [|e s]]]; discriminate P).
      assert (P6 : beqb p (bs ".") = false) by (apply beqb_neq; intros Q; rewrite Q in P; destruct (slashed (M ++ [g])) as [|c [|d [|e s]]]; discriminate P).
      unfold finish. rewrite P5, P6.
      assert (L3 : len p = len (slashed (M ++ [g])) + 3) by (rewrite <- P, len_app; reflexivity).
      assert (Lg : len g <= len (slashed (M ++ [g])) /\ (M <> [] -> len g + 2 <= len (slashed (M ++ [g])))).
      { destruct M as [|m M]; [simpl; split; [lia|easy]|].
        rewrite slashed_snoc by easy. rewrite len_app, len_cons. inversion RM; subst.
        assert (0 < len (slashed (m :: M))).
        { destruct M as [|k M]; [simpl; now apply name_len|]. rewrite slashed_cons by easy. rewrite len_app.
          pose proof (name_len m H1). pose proof (len_nonneg (47 :: slashed (k :: M))). lia. }
        lia. }
      assert (G1 := name_len g G).
      unfold end_dots. 
      assert (LI : last_is 3 p (bs "/..") = true).
      { apply (last_is_ok p (bs "/..")); [change (len (bs "/..")) with 3; lia|]. rewrite <- P. now eexists. }
      rewrite LI. replace (len p >? 2) with true by lia. cbn [andb].
      change (visit (M ++ [g]) (bs "..")) with (removelast (M ++ [g])). rewrite removelast_last.
      change (beqb (bs "..") [] || beqb (bs "..") (bs ".") || beqb (bs "..") (bs "..")) with true.
      destruct (len p <=? 4) eqn:L4.
      + split.
        * intros _. destruct M; [reflexivity|]. exfalso. destruct Lg as (_ & Lg). specialize (Lg ltac:(discriminate)). lia.
        * intros (_ & x & K). exfalso. pose proof (len_nonneg x).
          assert (len g = len x + 2) by (rewrite K, len_app; reflexivity). lia.
      + replace (len p >? 4) with true by lia. cbn [andb].
        assert (LD : last_is 5 p (bs "../..") = true <-> exists x, g = x ++ bs "..").
        { etransitivity; [apply (last_is_ok p (bs "../..")); change (len (bs "../..")) with 5; lia|].
          rewrite <- (ends_dots M g G). rewrite <- P. split; intros (x & K); exists x.
          - change (bs "../..") with (bs ".." ++ 47 :: bs "..") in K. rewrite app_assoc in K. now apply app_inv_tail in K.
          - rewrite K, <- app_assoc. reflexivity. }
        destruct (last_is 5 p (bs "../..")) eqn:L5.
        * assert (K : exists x, g = x ++ bs "..") by now apply LD. split; [intros X; exfalso; apply X; now split|].
          intros _. cbn [negb]. rewrite tail_dot_id by (rewrite Zd; discriminate). now rewrite <- P.
        * cbn [negb]. split; [intros _|intros (_ & K); apply LD in K; discriminate K].
          unfold rfindc_to. replace (len p - 4 + 1) with (len (slashed (M ++ [g]))) by lia.
          rewrite <- P. rewrite takez_app_exact by reflexivity.
          destruct M as [|m M].
          -- simpl slashed. pose proof (rfindc_spec 47 g) as Rf. destruct (rfindc 47 g) as [i|]; [|reflexivity].
             destruct Rf as (a & b & K & _). exfalso. apply (proj1 G). rewrite K. apply in_or_app. right. now left.
          -- rewrite slashed_snoc by easy.
             pose proof (rfindc_spec 47 (slashed (m :: M) ++ 47 :: g)) as Rf.
             destruct (rfindc 47 (slashed (m :: M) ++ 47 :: g)) as [i|].
             2:{ exfalso. apply Rf. apply in_or_app. right. now left. }
             destruct Rf as (a & b & K & Nb & ->).
             assert (Kab : a = slashed (m :: M) /\ b = g).
             { assert (segs (a ++ 47 :: b) = segs (slashed (m :: M) ++ 47 :: g)) as Q by now rewrite K.
               rewrite !segs_app, (segs_plain b Nb), (segs_plain g (proj1 G)) in Q.
               apply app_inj_tail in Q. destruct Q as (Q & ->). split; [|reflexivity].
               rewrite <- (slashed_segs a), Q. apply slashed_segs. }
             destruct Kab as (-> & ->).
             replace ((slashed (m :: M) ++ 47 :: g) ++ 47 :: bs "..") with ((slashed (m :: M) ++ [47]) ++ g ++ bs "/..")
               by (rewrite <- !app_assoc; reflexivity).
             rewrite takez_app_exact by (rewrite len_app; reflexivity).
             rewrite tail_dot_id; [reflexivity|]. rewrite last_segs_app. discriminate. }
  assert (Odd : ~ (z = bs ".." /\ exists x, last N [] = x ++ bs "..")) by (intros (K & _); apply beqb_neq in E1; now apply E1).
  split; [intros _|intros K; now apply Odd in K]. apply beqb_neq in E1.
  unfold finish.
  assert (P5 : beqb p (bs "..") = false).
  { apply beqb_neq. intros Q. rewrite Q in Zd. now apply E1. }
  rewrite P5. destruct (beqb p (bs ".")) eqn:P6.
  { apply beqb_eq in P6. rewrite P6 in Zd, Sp. change (segs (bs ".")) with [bs "."] in *. simpl last in Zd.
    rewrite <- Zd in *. destruct N as [|n [|n' N]]; [reflexivity|discriminate Sp..]. }
  rewrite end_dots_id by (rewrite Zd; exact E1).
  destruct (beqb z (bs ".")) eqn:E2.
  - apply beqb_eq in E2. rewrite E2 in *. clear E2 z. rewrite orb_true_r. cbn [orb].
    change (visit N (bs ".")) with N.
    destruct N as [|n N]; [simpl in P; subst p; discriminate P6|].
    rewrite slashed_snoc in P by easy.
    assert (0 <= len (slashed (n :: N))) by apply len_nonneg.
    assert (L3 : len p = len (slashed (n :: N)) + 2) by (rewrite <- P, len_app; reflexivity).
    replace (len p >? 1) with true by lia.
    assert (LI : last_is 2 p (bs "/.") = true).
    { apply (last_is_ok p (bs "/.")); [change (len (bs "/.")) with 2; lia|]. rewrite <- P. now eexists. }
    rewrite LI. cbn [andb]. rewrite L3, <- P.
    change (47 :: bs ".") with ([47] ++ bs "."). rewrite app_assoc. apply takez_app_exact.
    rewrite len_app. change (len [47]) with 1. lia.
  - apply beqb_neq in E2. rewrite tail_dot_id by (rewrite Zd; exact E2).
    destruct (beqb z []) eqn:E3.
    + apply beqb_eq in E3. rewrite E3 in *. clear E3 z. cbn [orb]. change (visit N []) with N.
      destruct N as [|n N]; [simpl in P; now subst p|]. rewrite slashed_snoc in P by easy. now rewrite <- P.
    + apply beqb_neq in E3. assert (NZ : name z) by now repeat split.
      rewrite visit_name by exact NZ. cbn [orb].
      rewrite <- P. now destruct N.
Qed.

Lemma normalise_ok p : (~ odd_end p -> normalise p = resolve p) /\ (odd_end p -> normalise p = slashed (fwalk p) ++ bs "/..").
Proof.
  destruct p as [|c p0]; [split; [reflexivity|]; intros (K & _); discriminate K|].
  set (p := c :: p0) in *.
  assert (DS : forall q, same q (drop_slash q)).
  { intros q. unfold drop_slash. destruct (nthz q 0 =? 47) eqn:E; [|apply same_refl].
    destruct q as [|d q]; [discriminate E|]. change (d =? 47 = true) in E. replace d with 47 by lia. apply same_slash. }
  set (p1 := drop_slash p).
  assert (S1 : same p p1) by apply DS.
  set (p2 := squeeze (List.length p1) (bs "/./") 2 p1).
  destruct (squeeze_ind (fun q => same p1 q) (bs "/.") (bs "/") ltac:(discriminate)
    (fun x y K => same_trans _ _ _ K (same_dot x y)) (List.length p1) p1 (Nat.le_refl _) (same_refl _)) as (S2 & F2).
  change (squeeze (List.length p1) (bs "/." ++ bs "/") (len (bs "/.")) p1) with p2 in S2, F2.
  change (bs "/." ++ bs "/") with (bs "/./") in F2.
  assert (D2 : ~ In (bs ".") (inner (segs p2))).
  { intros K. destruct (inner_occurs _ _ noslash_dot K) as (x & y & E). exact (find_str_none _ _ F2 x y E). }
  set (p3 := squeeze (List.length p2) (bs "//") 1 p2).
  destruct (squeeze_ind (fun q => same p2 q /\ ~ In (bs ".") (inner (segs q))) (bs "/") (bs "/") ltac:(discriminate)) 
    with (fuel := List.length p2) (p := p2) as ((S3 & D3) & F3).
  { intros x y (K & D). split; [exact (same_trans _ _ _ K (same_double x y))|].
    intros Q. apply D. change (x ++ (bs "/" ++ bs "/") ++ y) with (x ++ 47 :: ([] ++ 47 :: y)).
    change (x ++ bs "/" ++ y) with (x ++ 47 :: y) in Q. rewrite !segs_app in *.
    rewrite inner_app in * by (auto using segs_nonnil; discriminate).
    change (segs []) with [@nil Z]. cbn [app]. rewrite removelast_cons by apply segs_nonnil.
    apply in_app_or in Q. apply in_or_app. destruct Q; [now left|right; now right]. }
  { apply Nat.le_refl. }
  { split; [apply same_refl|exact D2]. }
  change (squeeze (List.length p2) (bs "/" ++ bs "/") (len (bs "/")) p2) with p3 in S3, D3, F3.
  change (bs "/" ++ bs "/") with (bs "//") in F3.
  set (p4 := drop_slash p3).
  assert (S4 : same p3 p4) by apply DS.
  assert (T4 : tidy (segs p4)).
  { assert (K3 : Forall (fun g => g <> [] /\ g <> bs ".") (inner (segs p3))).
    { apply Forall_forall. intros g G. split; [|now intros ->]. intros ->.
      destruct (inner_occurs [] p3 (fun K => K) G) as (x & y & E). exact (find_str_none _ _ F3 x y E). }
    unfold p4, drop_slash. destruct (nthz p3 0 =? 47) eqn:E.
    - destruct p3 as [|d q] eqn:E3; [discriminate E|]. change (d =? 47 = true) in E. assert (d = 47) by lia. subst d.
      change (dropz 1 (47 :: q)) with q.
      change (47 :: q) with ([] ++ 47 :: q) in K3. rewrite segs_app in K3. change (segs []) with [@nil Z] in K3.
      split; [apply tl_inner; exact K3|]. intros N. 
      unfold inner in K3. cbn [app tl] in K3. destruct (segs q) as [|g l]; [easy|]. simpl in N.
      rewrite removelast_cons in K3 by exact N. inversion K3; subst. simpl. easy.
    - split; [exact K3|]. intros N. destruct p3 as [|d q] eqn:E3; [exfalso; now apply N|].
      change (d =? 47 = false) in E. simpl segs. rewrite E. now destruct (segs q). }
  set (p5 := climb (List.length p4) p4).
  destruct (climb_ok (List.length p4) p4 (Nat.le_refl _) T4) as (S5 & T5 & F5). fold p5 in S5, T5, F5.
  set (p6 := drop_front p5).
  destruct (front_ok p5 T5 F5) as (S6 & R6). fold p6 in S6, R6.
  assert (S : same p p6).
  { eapply same_trans; [exact S1|]. eapply same_trans; [exact S2|]. eapply same_trans; [exact S3|].
    eapply same_trans; [exact S4|]. eapply same_trans; [exact S5|exact S6]. }
  change (normalise p) with (finish p6). rewrite (same_resolve _ _ S).
  assert (O : odd_end p <-> odd_end p6) by (unfold odd_end; destruct S as (-> & ->); reflexivity).
  rewrite O. destruct S as (-> & _). now apply finish_ok.
Qed.
