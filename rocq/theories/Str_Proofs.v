(** Proofs about the string utilities. *)
From Verif Require Import Common CommonFacts CommonMore Str_Model Str_Spec.

(** ** Searching *)
Lemma findp_spec f s i :
  match findp f s i with
  | None => Forall (fun c => f c = false) s
  | Some p => exists x c y, s = x ++ c :: y /\ Forall (fun c => f c = false) x /\ f c = true /\ p = i + len x
  end.
Proof.
  revert i; induction s as [|c t IH]; intros i; cbn; [constructor|].
  destruct (f c) eqn:E.
  - exists [], c, t. repeat split; auto. rewrite len_nil. lia.
  - specialize (IH (i + 1)). destruct (findp f t (i + 1)) as [p|].
    + destruct IH as (x & d & y & -> & H1 & H2 & ->). exists (c :: x), d, y.
      repeat split; auto. rewrite len_cons. lia.
    + now constructor.
Qed.

Lemma find_from_spec f a t :
  match find_from f (a ++ t) (len a) with
  | None => Forall (fun c => f c = false) t
  | Some p => exists x c y, t = x ++ c :: y /\ Forall (fun c => f c = false) x /\ f c = true /\ p = len a + len x
  end.
Proof.
  unfold find_from. rewrite len_app. pose proof (len_nonneg t).
  replace (len a <=? len a + len t) with true by lia.
  rewrite dropz_app_exact by reflexivity. apply findp_spec.
Qed.

Lemma substr_mid a x t n : n = len x -> substr (a ++ x ++ t) (len a) n = Some x.
Proof.
  intros ->. unfold substr. rewrite !len_app. pose proof (len_nonneg t). pose proof (len_nonneg x).
  replace (len a <=? _) with true by lia.
  rewrite dropz_app_exact by reflexivity. now rewrite takez_app_exact.
Qed.
Lemma substr_end a t : substr_to_end (a ++ t) (len a) = Some t.
Proof.
  unfold substr_to_end. rewrite !len_app. pose proof (len_nonneg t).
  replace (len a <=? _) with true by lia. now rewrite dropz_app_exact.
Qed.

Lemma substr_0 x t n : n = len x -> substr (x ++ t) 0 n = Some x.
Proof. apply (substr_mid [] x t n). Qed.
Lemma substr_00 s : substr s 0 0 = Some [].
Proof. exact (substr_0 [] s 0 eq_refl). Qed.

(** ** Trimming *)
Lemma skips_blank c : trim_skips c = true <-> blank c.
Proof. unfold trim_skips, blank. lia. Qed.
Lemma skips_nonblank c : trim_skips c = false <-> ~ blank c.
Proof. unfold trim_skips, blank. lia. Qed.

Lemma trim_start_all s i : Forall blank s -> trim_start s i = 0.
Proof.
  intros H; revert i; induction H as [|c s H Hs IH]; intros i; cbn; [reflexivity|].
  apply skips_blank in H. now rewrite H.
Qed.
Lemma trim_start_at a c t i : Forall blank a -> ~ blank c -> trim_start (a ++ c :: t) i = i + len a.
Proof.
  intros H; revert i; induction H as [|d s H Hs IH]; intros i Hc; cbn [app trim_start].
  - apply skips_nonblank in Hc. rewrite Hc. rewrite len_nil; lia.
  - apply skips_blank in H. rewrite H, IH by auto. rewrite len_cons. lia.
Qed.
(** [n] indices at the end of [h ++ b] are blank, the index before is not. *)
Lemma trim_len_at h c b p : h <> [] -> Forall blank b -> ~ blank c ->
  trim_len (h ++ c :: b) p (List.length h + List.length b) = len h + 1 - p.
Proof.
  intros Hh Hb Hc. induction b as [|d b IH] using rev_ind.
  - rewrite Nat.add_0_r. destruct h as [|e h']; [contradiction|].
    cbn [List.length trim_len]. replace (nth (S (List.length h')) ((e :: h') ++ [c]) 0) with c.
    + apply skips_nonblank in Hc. rewrite Hc. rewrite len_cons. unfold len. lia.
    + rewrite app_nth2 by (cbn; lia). cbn. now rewrite Nat.sub_diag.
  - apply Forall_app in Hb as [Hb1 Hb2]. inversion Hb2 as [|? ? Hd _]; subst.
    rewrite app_length. cbn [List.length].
    replace (List.length h + (List.length b + 1))%nat with (S (List.length h + List.length b)) by lia.
    cbn [trim_len]. replace (nth (S (List.length h + List.length b)) (h ++ c :: b ++ [d]) 0) with d.
    + apply skips_blank in Hd. rewrite Hd. rewrite <- (IH Hb1).
      assert (Hg : forall n, (n <= List.length h + List.length b)%nat ->
        trim_len (h ++ c :: b ++ [d]) p n = trim_len (h ++ c :: b) p n); [|now apply Hg].
      induction n as [|n IHn]; intros Hn; [reflexivity|]. cbn [trim_len].
      replace (nth (S n) (h ++ c :: b ++ [d]) 0) with (nth (S n) (h ++ c :: b) 0).
      * rewrite IHn by lia. reflexivity.
      * replace (h ++ c :: b ++ [d]) with ((h ++ c :: b) ++ [d]) by now rewrite <- app_assoc.
        rewrite (app_nth1 (h ++ c :: b) [d]); [reflexivity|]. rewrite app_length. cbn. lia.
    + rewrite app_nth2 by lia. replace (S (List.length h + List.length b) - List.length h)%nat with (S (List.length b)) by lia.
      cbn. rewrite app_nth2 by lia. now rewrite Nat.sub_diag.
Qed.
Lemma trim_len_all s p n : (n < List.length s)%nat -> Forall blank (tl s) -> trim_len s p n = 0.
Proof.
  intros Hn Hs. induction n as [|n IH]; [reflexivity|]. cbn [trim_len].
  assert (Hb : blank (nth (S n) s 0)).
  { destruct s as [|c s]; [cbn in Hn; lia|]. cbn in *. rewrite Forall_forall in Hs. apply Hs, nth_In. lia. }
  apply skips_blank in Hb. rewrite Hb. apply IH. lia.
Qed.

Lemma blank_dec c : {blank c} + {~ blank c}.
Proof. destruct (trim_skips c) eqn:E; [left; now apply skips_blank|right; now apply skips_nonblank]. Qed.
(** Every string is blank, or has a first and a last non-blank. *)
Lemma blank_first s : Forall blank s \/ exists a c t, s = a ++ c :: t /\ Forall blank a /\ ~ blank c.
Proof.
  induction s as [|c t IH]; [left; constructor|].
  destruct (blank_dec c) as [H|H]; [|right; exists [], c, t; auto].
  destruct IH as [IH|(a & d & u & -> & H1 & H2)]; [left; now constructor|].
  right. exists (c :: a), d, u. auto.
Qed.
Lemma blank_last s : Forall blank s \/ exists h c b, s = h ++ c :: b /\ Forall blank b /\ ~ blank c.
Proof.
  induction s as [|c t IH]; [left; constructor|].
  destruct IH as [IH|(a & d & u & -> & H1 & H2)]; [|right; exists (c :: a), d, u; auto].
  destruct (blank_dec c) as [H|H]; [left; now constructor|right; exists [], c, t; auto].
Qed.

Lemma trim_ok s : len s < 18446744073709551616 ->
  (forall c t, s = c :: t -> ~ blank c -> Exists (fun d => ~ blank d) t) ->
  exists r, stringTrim s = Some r /\ trimmed s r.
Proof.
  intros Hl Hc. unfold stringTrim. destruct (len s =? 0) eqn:E0.
  { exists s. assert (s = []) by (apply len_zero; lia). subst. split; auto.
    exists [], []. cbn. repeat split; auto; intros; try discriminate. destruct t; discriminate. }
  destruct (blank_first s) as [Hb|(a & c & t & Es & Ha & Hcb)].
  { rewrite trim_start_all by auto. rewrite trim_len_all.
    - unfold substr. pose proof (len_nonneg s). replace (0 <=? len s) with true by lia.
      exists []. split; [reflexivity|]. exists s, []. rewrite !app_nil_r. repeat split; auto; intros; try discriminate. destruct t; discriminate.
    - destruct s; cbn in *; lia.
    - destruct s; [constructor|]. now inversion Hb. }
  assert (Hst : trim_start s 0 = len a) by (rewrite Es; now apply trim_start_at).
  cbv zeta. rewrite Hst.
  destruct (blank_last s) as [Hb|(h & d & b & Eh & Hb & Hd)].
  { exfalso. rewrite Es in Hb. apply Forall_app in Hb as [_ Hb]. inversion Hb; subst; auto. }
  destruct h as [|e h'].
  { exfalso. cbn in Eh. specialize (Hc d b Eh Hd). apply Exists_exists in Hc as (x & Hx & Hnx).
    rewrite Forall_forall in Hb. auto. }
  (* the last non-blank is at or after the first *)
  assert (Hle : exists m, s = a ++ (m ++ [d]) ++ b).
  { rewrite Es in Eh. assert (Hs2 := Eh).
    destruct (le_lt_dec (List.length (e :: h')) (List.length a)) as [Hlt|Hlt].
    - (* d is within a or equals c *)
      destruct (Nat.eq_dec (List.length (e :: h')) (List.length a)) as [Heq|Hne].
      + exists []. rewrite Es. assert (H1 : firstn (List.length a) (a ++ c :: t) = firstn (List.length a) ((e :: h') ++ d :: b)) by now rewrite Eh.
        rewrite firstn_exact in H1 by reflexivity. rewrite <- Heq in H1. rewrite firstn_exact in H1 by reflexivity.
        rewrite H1 in *. apply app_inv_head in Eh. injection Eh as -> ->. cbn. reflexivity.
      + exfalso. assert (Hin : In d a).
        { assert (H1 : nth (List.length (e :: h')) (a ++ c :: t) 0 = d).
          { rewrite Eh. rewrite app_nth2 by lia. now rewrite Nat.sub_diag. }
          rewrite app_nth1 in H1 by lia. rewrite <- H1. apply nth_In. lia. }
        rewrite Forall_forall in Ha. auto.
    - exists (skipn (List.length a) (e :: h')).
      assert (H1 : a = firstn (List.length a) (e :: h')).
      { assert (H2 : firstn (List.length a) (a ++ c :: t) = firstn (List.length a) ((e :: h') ++ d :: b)) by now rewrite Eh.
        rewrite firstn_exact in H2 by reflexivity. rewrite firstn_app in H2.
        replace (List.length a - List.length (e :: h'))%nat with O in H2 by lia. cbn [firstn] in H2. now rewrite app_nil_r in H2. }
      rewrite Es, Eh. rewrite <- app_assoc. cbn [app]. rewrite app_assoc. f_equal.
      rewrite H1 at 1. now rewrite firstn_skipn. }
  destruct Hle as (m & Em).
  assert (Hlen : List.length (e :: h') = (List.length a + List.length m)%nat).
  { assert (H1 : List.length s = List.length s) by reflexivity. rewrite Eh in H1 at 1. rewrite Em in H1.
    rewrite !app_length in H1. cbn in H1. cbn. lia. }
  replace (List.length s - 1)%nat with (List.length (e :: h') + List.length b)%nat.
  2:{ rewrite Eh, app_length. cbn. lia. }
  assert (Htl : trim_len s (len a) (List.length (e :: h') + List.length b) = len (e :: h') + 1 - len a).
  { rewrite Eh. apply trim_len_at; auto. discriminate. }
  rewrite Htl.
  assert (Hz : len (e :: h') = len a + len m) by (unfold len; lia).
  assert (Hs : len s = len a + len m + 1 + len b) by (rewrite Em, !len_app, len_cons, len_nil; lia).
  pose proof (len_nonneg a). pose proof (len_nonneg m). pose proof (len_nonneg b).
  rewrite u64_id by lia.
  rewrite Em. rewrite substr_mid by (rewrite Hz, len_app, len_cons, len_nil; lia).
  exists (m ++ [d]). split; auto. exists a, b. repeat split; auto.
  - intros c' t' E. rewrite Em in Es.
    apply app_inv_head in Es. rewrite E in Es. cbn in Es. injection Es as -> _. auto.
  - intros t' c' E. apply app_inj_tail in E as [_ <-]. auto.
Qed.

Lemma trim_bug c b : ~ blank c -> Forall blank b -> stringTrim (c :: b) = Some [].
Proof.
  intros Hc Hb. unfold stringTrim. rewrite len_cons. pose proof (len_nonneg b).
  replace (1 + len b =? 0) with false by lia.
  cbv zeta. pose proof (trim_start_at [] c b 0 (Forall_nil _) Hc) as Hst. cbn [app] in Hst; change (0 + len (@nil Z)) with 0 in Hst. rewrite Hst, trim_len_all.
  - unfold substr. rewrite len_cons. replace (0 <=? 1 + len b) with true by lia. reflexivity.
  - cbn. lia.
  - exact Hb.
Qed.

(** ** Splitting *)
Lemma eqb_in_false d l : Forall (fun c => (d =? c) = false) l -> ~ In d l.
Proof. intros H Hin. rewrite Forall_forall in H. specialize (H d Hin). lia. Qed.

(** The pieces of what follows a delimiter that is not the first character. *)
Lemma split_rest d fuel : forall a t, (List.length t < fuel)%nat -> a <> [] ->
  exists ps, split_loop (a ++ d :: t) (split_positions fuel (a ++ d :: t) d (len a + 1)) (len a) = Some ps
    /\ pieces_of d t ps.
Proof.
  induction fuel as [|fuel IH]; intros a t Hf Ha; [lia|].
  assert (Ha1 : 0 < len a) by (destruct a; [contradiction|rewrite len_cons; pose proof (len_nonneg a); lia]).
  cbn [split_positions].
  pose proof (find_from_spec (Z.eqb d) (a ++ [d]) t) as Hs.
  rewrite <- app_assoc in Hs. cbn [app] in Hs. rewrite len_app, len_cons, len_nil in Hs.
  replace (len a + (1 + 0)) with (len a + 1) in Hs by lia.
  destruct (find_from (Z.eqb d) (a ++ d :: t) (len a + 1)) as [p|].
  - destruct Hs as (x & c & y & -> & Hx & Hc & ->). apply Z.eqb_eq in Hc. subst c.
    cbn [split_loop]. replace (len a =? 0) with false by lia.
    assert (S1 : substr (a ++ d :: x ++ d :: y) (len a + 1) (len a + 1 + len x - len a - 1) = Some x).
    { replace (a ++ d :: x ++ d :: y) with ((a ++ [d]) ++ x ++ d :: y) by (rewrite <- app_assoc; reflexivity).
      replace (len a + 1) with (len (a ++ [d])) by (rewrite len_app, len_cons, len_nil; lia).
      apply substr_mid. rewrite len_app, len_cons, len_nil; lia. }
    rewrite S1.
    destruct (IH (a ++ d :: x) y) as (ps & Hps & Hne & Hj & Hf2).
    { rewrite app_length in Hf. cbn in Hf. lia. }
    { destruct a; discriminate. }
    replace (a ++ d :: x ++ d :: y) with ((a ++ d :: x) ++ d :: y) by (rewrite <- app_assoc; reflexivity).
    replace (len a + 1 + len x) with (len (a ++ d :: x)) by (rewrite len_app, len_cons; lia).
    rewrite Hps. exists (x :: ps). split; [reflexivity|]. split; [discriminate|]. split.
    + destruct ps as [|q ps]; [contradiction|]. cbn [join]. cbn [join] in Hj. now rewrite Hj.
    + constructor; auto. now apply eqb_in_false.
  - cbn [split_loop]. rewrite len_app, len_cons. pose proof (len_nonneg t).
    replace (len a <? len a + (1 + len t)) with true by lia.
    replace (a ++ d :: t) with ((a ++ [d]) ++ t) by now rewrite <- app_assoc.
    replace (len a + 1) with (len (a ++ [d])) by (rewrite len_app, len_cons, len_nil; lia).
    rewrite substr_end. exists [t]. repeat split; auto; try discriminate.
    constructor; auto. now apply eqb_in_false.
Qed.

Lemma split_ok d s : (forall t, s = d :: t -> ~ In d t) ->
  exists ps, splitString s d = Some ps /\ pieces_of d s ps.
Proof.
  intros H. unfold splitString. cbn [split_positions].
  pose proof (find_from_spec (Z.eqb d) [] s) as Hs. cbn [app] in Hs. rewrite len_nil in Hs.
  destruct (find_from (Z.eqb d) s 0) as [p|].
  - destruct Hs as (x & c & y & -> & Hx & Hc & ->). apply Z.eqb_eq in Hc. subst c. cbn [Z.add].
    destruct (Z.eq_dec (len x) 0) as [E|E].
    + apply len_zero in E. subst x. cbn [app]. change (len (@nil Z)) with 0.
      specialize (H y eq_refl).
      assert (Hp : split_positions (List.length (d :: y)) (d :: y) d (0 + 1) = []).
      { cbn [List.length split_positions]. pose proof (find_from_spec (Z.eqb d) [d] y) as Hy. cbn [app] in Hy.
        change (len [d]) with (0 + 1) in Hy. destruct (find_from (Z.eqb d) (d :: y) (0 + 1)) as [p|]; auto.
        destruct Hy as (x & c & z & -> & _ & Hc & _). apply Z.eqb_eq in Hc. subst. exfalso. apply H, in_or_app. right. now left. }
      rewrite Hp. cbn [split_loop]. cbn [Z.eqb].
      rewrite substr_00. rewrite len_cons. pose proof (len_nonneg y).
      replace (0 <? 1 + len y) with true by lia. pose proof (substr_end [d] y) as Se. change (substr_to_end (d :: y) (0 + 1) = Some y) in Se. rewrite Se.
      exists [[]; y]. repeat split; auto; discriminate.
    + assert (x <> []) by (intros ->; now apply E).
      cbn [split_loop]. cbn [Z.eqb]. rewrite substr_0 by reflexivity.
      destruct (split_rest d (List.length (x ++ d :: y)) x y) as (ps & Hps & Hne & Hj & Hf2); auto.
      { rewrite app_length. cbn. lia. }
      rewrite Hps. exists (x :: ps). split; [reflexivity|]. split; [discriminate|]. split.
      * destruct ps as [|q ps]; [contradiction|]. cbn [join]. cbn [join] in Hj. now rewrite Hj.
      * constructor; auto. now apply eqb_in_false.
  - exists [s]. repeat split; auto; try discriminate. constructor; auto. now apply eqb_in_false.
Qed.

Lemma split_bug d t : In d t -> exists x y ps, t = x ++ d :: y /\ ~ In d x /\
  splitString (d :: t) d = Some ([] :: (d :: x) :: ps) /\ pieces_of d y ps.
Proof.
  intros Hin. unfold splitString. cbn [split_positions].
  pose proof (find_from_spec (Z.eqb d) [] (d :: t)) as Hs. cbn [app] in Hs. rewrite len_nil in Hs.
  destruct (find_from (Z.eqb d) (d :: t) 0) as [p|].
  2:{ exfalso. inversion Hs. lia. }
  destruct Hs as (x & c & y & E & Hx & Hc & ->). apply Z.eqb_eq in Hc. subst c.
  destruct x as [|e x].
  2:{ cbn in E. injection E as <- _. inversion Hx. lia. }
  cbn in E. injection E as <-. change (0 + len (@nil Z)) with 0. cbn [List.length split_positions]. change (0 + 1) with 1.
  pose proof (find_from_spec (Z.eqb d) [d] t) as Hy. cbn [app] in Hy. change (len [d]) with 1 in Hy.
  destruct (find_from (Z.eqb d) (d :: t) 1) as [p|].
  2:{ exfalso. now apply eqb_in_false in Hy. }
  destruct Hy as (x & c & y & -> & Hx2 & Hc & ->). apply Z.eqb_eq in Hc. subst c.
  cbn [split_loop Z.eqb]. rewrite substr_00.
  change (d :: x ++ d :: y) with ((d :: x) ++ d :: y). rewrite substr_0 by (rewrite len_cons; reflexivity).
  destruct (split_rest d (List.length (x ++ d :: y)) (d :: x) y) as (ps & Hps & Hp); auto.
  { rewrite app_length. cbn. lia. }
  { discriminate. }
  rewrite len_cons in Hps. rewrite Hps.
  exists x, y, ps. split; auto. split; auto. now apply eqb_in_false.
Qed.

Lemma pieces_unique d s p q : pieces_of d s p -> pieces_of d s q -> p = q.
Proof.
  revert s q; induction p as [|x p IH]; intros s q (Hp & Jp & Fp) (Hq & Jq & Fq); [contradiction|].
  destruct q as [|y q]; [contradiction|]. inversion Fp as [|? ? Fx Fp']; inversion Fq as [|? ? Fy Fq']; subst.
  assert (Hcut : forall (x y r1 r2 : list Z), ~ In d x -> ~ In d y -> x ++ d :: r1 = y ++ d :: r2 -> x = y /\ r1 = r2).
  { induction x0 as [|a x0 IHx]; intros [|b y0] r1 r2 H1 H2 E; cbn in E.
    - now injection E.
    - injection E as <- _. exfalso. apply H2. now left.
    - injection E as -> _. exfalso. apply H1. now left.
    - injection E as <- E. destruct (IHx y0 r1 r2) as [-> ->]; auto; intros Hi; [apply H1|apply H2]; now right. }
  assert (Hno : forall (x y r : list Z), ~ In d x -> x <> y ++ d :: r).
  { intros x0 y0 r H1 ->. apply H1, in_or_app. right. now left. }
  destruct p as [|x' p]; destruct q as [|y' q]; cbn [join] in Jq.
  - now subst.
  - exfalso. symmetry in Jq. now apply Hno in Jq.
  - exfalso. now apply Hno in Jq.
  - apply Hcut in Jq as [-> E]; auto. f_equal. eapply (IH (join d (x' :: p))).
    + split; [discriminate|]. split; auto.
    + split; [discriminate|]. split; auto.
Qed.

(** ** Command lines *)
Lemma words_plain q full x : forall arg t, Forall (fun c => shell_special c = false) x ->
  words q full arg (x ++ t) = words q full (arg ++ x) t.
Proof.
  induction x as [|c x IH]; intros arg t H; cbn [app]; [now rewrite app_nil_r|].
  inversion H as [|? ? Hc Hx]; subst. cbn [words]. unfold shell_special in Hc.
  replace (c =? 92) with false by lia. replace (c =? 32) with false by lia.
  replace ((c =? 39) || (c =? 34)) with false by lia. rewrite IH by auto. now rewrite <- app_assoc.
Qed.
Lemma push_emit arg full r : shell_push arg full r = r ++ emit full arg.
Proof.
  unfold shell_push, emit. destruct arg as [|c arg].
  - cbn. destruct full; [reflexivity|now rewrite app_nil_r].
  - rewrite len_cons. pose proof (len_nonneg arg). replace (0 <? 1 + len arg) with true by lia. reflexivity.
Qed.
Lemma escape_unescape c : shell_escape c = unescape c.
Proof. reflexivity. Qed.

Lemma shell_loop_ok fuel : forall a t q full arg r, (List.length t < fuel)%nat ->
  shell_loop fuel (a ++ t) (len a) q full arg r = Some (r ++ words q full arg t).
Proof.
  induction fuel as [|fuel IH]; intros a t q full arg r Hf; [lia|].
  cbn [shell_loop]. pose proof (find_from_spec shell_special a t) as Hs.
  destruct (find_from shell_special (a ++ t) (len a)) as [p|].
  2:{ rewrite substr_end, len_app.
      replace (words q full arg t) with (emit full (arg ++ t)).
      2:{ rewrite <- (app_nil_r t) at 2. rewrite words_plain by auto. reflexivity. }
      destruct (len a <? len a + len t) eqn:E; rewrite push_emit; [reflexivity|].
      assert (t = []) by (apply len_zero; pose proof (len_nonneg t); lia). subst. now rewrite app_nil_r. }
  destruct Hs as (x & c & y & -> & Hx & Hc & ->).
  rewrite words_plain by auto. rewrite rd_some.
  2:{ rewrite !len_app, len_cons. pose proof (len_nonneg a); pose proof (len_nonneg x); pose proof (len_nonneg y); lia. }
  replace (nthz (a ++ x ++ c :: y) (len a + len x)) with c.
  2:{ rewrite nthz_app2 by (pose proof (len_nonneg x); lia). rewrite nthz_app2 by lia.
      replace (len a + len x - len a - len x) with 0 by lia. reflexivity. }
  assert (S1 : substr (a ++ x ++ c :: y) (len a) (len a + len x - len a) = Some x) by (apply substr_mid; lia).
  assert (S2 : substr (a ++ x ++ c :: y) (len a) (len a + len x - len a + 1) = Some (x ++ [c])).
  { replace (a ++ x ++ c :: y) with (a ++ (x ++ [c]) ++ y) by now rewrite <- app_assoc.
    apply substr_mid. rewrite len_app, len_cons, len_nil. lia. }
  assert (IH1 : forall q full arg r, shell_loop fuel (a ++ x ++ c :: y) (len a + len x + 1) q full arg r = Some (r ++ words q full arg y)).
  { intros. replace (a ++ x ++ c :: y) with ((a ++ x ++ [c]) ++ y) by (rewrite <- !app_assoc; reflexivity).
    replace (len a + len x + 1) with (len (a ++ x ++ [c])) by (rewrite !len_app, len_cons, len_nil; lia).
    apply IH. rewrite app_length in Hf. cbn in Hf. lia. }
  cbn [words]. unfold shell_special in Hc.
  destruct (c =? 32) eqn:E32.
  { replace (c =? 92) with false by lia. assert (c = 32) by lia. subst c.
    destruct (q =? 0) eqn:Eq.
    - rewrite S1, IH1, push_emit. assert (q = 0) by lia. subst. now rewrite <- app_assoc.
    - rewrite S2, IH1. now rewrite <- app_assoc. }
  destruct (c =? 92) eqn:E92.
  { rewrite S1. destruct y as [|e y].
    - rewrite !len_app, len_cons, len_nil. replace (len a + len x + 1 <? len a + (len x + (1 + 0))) with false by lia.
      destruct fuel as [|fuel]; [rewrite app_length in Hf; cbn in Hf; lia|].
      cbn [shell_loop]. unfold find_from. rewrite !len_app, len_cons, len_nil.
      replace (len a + len x + 2 <=? len a + (len x + (1 + 0))) with false by lia.
      replace (len a + len x + 2 <? len a + (len x + (1 + 0))) with false by lia.
      now rewrite push_emit.
    - rewrite !len_app, !len_cons. pose proof (len_nonneg y).
      replace (len a + len x + 1 <? len a + (len x + (1 + (1 + len y)))) with true by lia.
      rewrite rd_some.
      2:{ rewrite !len_app, !len_cons. pose proof (len_nonneg a); pose proof (len_nonneg x); lia. }
      replace (nthz (a ++ x ++ c :: e :: y) (len a + len x + 1)) with e.
      2:{ rewrite nthz_app2 by (pose proof (len_nonneg x); lia). rewrite nthz_app2 by lia.
          replace (len a + len x + 1 - len a - len x) with 1 by lia. reflexivity. }
      replace (a ++ x ++ c :: e :: y) with ((a ++ x ++ [c; e]) ++ y) by (rewrite <- !app_assoc; reflexivity).
      replace (len a + len x + 2) with (len (a ++ x ++ [c; e])) by (rewrite !len_app, !len_cons, len_nil; lia).
      rewrite IH by (rewrite app_length in Hf; cbn in Hf; lia).
      now rewrite <- app_assoc. }
  replace ((c =? 39) || (c =? 34)) with true by lia.
  destruct (q =? 0) eqn:Eq; [now rewrite S1, IH1|].
  destruct (q =? c) eqn:Eqc; cbn [negb].
  - now rewrite S1, IH1.
  - rewrite S2, IH1. now rewrite <- app_assoc.
Qed.

Lemma shell_ok val : shellSplit val = Some (words 0 false [] val).
Proof. unfold shellSplit. apply (shell_loop_ok (S (S (List.length val))) [] val). lia. Qed.

Definition escq (c : Z) : list Z := if (c =? 39) || (c =? 92) then [92; c] else [c].
Lemma words_quoted a : forall arg rest,
  words 39 true arg (flat_map escq a ++ 39 :: rest) = words 0 true (arg ++ a) rest.
Proof.
  induction a as [|c a IH]; intros arg rest; cbn [flat_map app].
  - cbn. now rewrite app_nil_r.
  - unfold escq at 1. destruct ((c =? 39) || (c =? 92)) eqn:E; cbn [app words].
    + cbn [Z.eqb Pos.eqb]. rewrite IH. rewrite <- app_assoc. cbn [app].
      replace (unescape c) with c; [reflexivity|]. unfold unescape. dif; lia.
    + replace (c =? 92) with false by lia. destruct (c =? 32) eqn:E32.
      * cbn [Z.eqb]. rewrite IH. assert (c = 32) by lia. subst. now rewrite <- app_assoc.
      * destruct ((c =? 39) || (c =? 34)) eqn:Eq.
        -- change (39 =? 0) with false. cbv iota. replace (39 =? c) with false by lia. rewrite IH. now rewrite <- app_assoc.
        -- rewrite IH. now rewrite <- app_assoc.
Qed.
Lemma words_quoted_arg a rest : words 0 false [] (quoted a ++ rest) = words 0 true a rest.
Proof.
  unfold quoted. rewrite <- !app_assoc. cbn [app words]. cbn [Z.eqb Pos.eqb orb].
  fold escq. now rewrite words_quoted.
Qed.
Lemma emit_true a : emit true a = [a]. Proof. now destruct a. Qed.
Lemma command_line_ok args : shellSplit (command_line args) = Some args.
Proof.
  rewrite shell_ok. f_equal. unfold command_line.
  destruct args as [|a args]; [reflexivity|]. revert a; induction args as [|b args IH]; intros a.
  - cbn [map join]. rewrite <- (app_nil_r (quoted a)), words_quoted_arg. cbn [words]. apply emit_true.
  - change (join 32 (map quoted (a :: b :: args))) with (quoted a ++ 32 :: join 32 (map quoted (b :: args))).
    rewrite words_quoted_arg. cbn [words]. cbn [Z.eqb Pos.eqb]. rewrite emit_true, IH. reflexivity.
Qed.

(** ** Replacing *)
Lemma prefixb_ok p s : prefixb p s = true <-> exists y, s = p ++ y.
Proof.
  revert s; induction p as [|a p IH]; intros s; cbn.
  - split; eauto.
  - destruct s as [|b s]; [split; [discriminate|intros (y & E); discriminate]|]. split.
    + intros H. apply andb_true_iff in H as [H1 H2]. apply Z.eqb_eq in H1. subst.
      apply IH in H2 as (y & ->). now exists y.
    + intros (y & E). injection E as -> ->. rewrite Z.eqb_refl. cbn. apply IH. eauto.
Qed.
Lemma find_str_spec p s : forall i,
  match find_str p s i with
  | None => forall k, ~ occurs_at p s k
  | Some q => exists x y, s = x ++ p ++ y /\ q = i + len x /\ forall k, occurs_at p s k -> len x <= k
  end.
Proof.
  induction s as [|c s IH]; intros i; cbn [find_str].
  - destruct (prefixb p []) eqn:E.
    + apply prefixb_ok in E as (y & E). exists [], y. rewrite len_nil. repeat split; auto; [lia|].
      intros k (x & z & _ & <-). apply len_nonneg.
    + intros k (x & z & Ez & _). destruct x; [|discriminate]. cbn in Ez.
      assert (prefixb p [] = true) by (apply prefixb_ok; eauto). congruence.
  - destruct (prefixb p (c :: s)) eqn:E.
    + apply prefixb_ok in E as (y & E). exists [], y. rewrite len_nil. repeat split; auto; [lia|].
      intros k (x & z & _ & <-). apply len_nonneg.
    + specialize (IH (i + 1)).
      assert (Hsub : forall k, occurs_at p (c :: s) k -> occurs_at p s (k - 1)).
      { intros k (x & z & Ez & Ek). destruct x as [|d x]; cbn in Ez.
        - assert (prefixb p (c :: s) = true) by (apply prefixb_ok; eauto). congruence.
        - injection Ez as -> ->. exists x, z. rewrite len_cons in Ek. split; auto. lia. }
      destruct (find_str p s (i + 1)) as [q|].
      * destruct IH as (x & y & -> & -> & H). exists (c :: x), y. rewrite len_cons. repeat split; [lia|].
        intros k Hk. apply Hsub, H in Hk. lia.
      * intros k Hk. apply Hsub in Hk. now apply IH in Hk.
Qed.
Lemma replace_loop_ok fuel from to_ : from <> [] -> forall a t n, (List.length t < fuel)%nat ->
  exists r m, replace_loop fuel (a ++ t) from to_ (len a) n = Some (a ++ r, n + m) /\ replaced from to_ t r m.
Proof.
  intros Hfr. induction fuel as [|fuel IH]; intros a t n Hf; [lia|].
  cbn [replace_loop]. rewrite len_app. pose proof (len_nonneg t).
  replace (len a <=? len a + len t) with true by lia. rewrite dropz_app_exact by reflexivity.
  pose proof (find_str_spec from t (len a)) as Hs.
  destruct (find_str from t (len a)) as [p|].
  - destruct Hs as (x & y & -> & -> & Hmin).
    replace (a ++ x ++ from ++ y) with ((a ++ x) ++ from ++ y) by now rewrite <- !app_assoc.
    rewrite takez_app_exact by (rewrite len_app; lia).
    replace ((a ++ x) ++ from ++ y) with ((a ++ x ++ from) ++ y) by now rewrite <- !app_assoc.
    rewrite dropz_app_exact by (rewrite !len_app; lia).
    replace ((a ++ x) ++ to_ ++ y) with ((a ++ x ++ to_) ++ y) by now rewrite <- !app_assoc.
    replace (len a + len x + len to_) with (len (a ++ x ++ to_)) by (rewrite !len_app; lia).
    destruct (IH (a ++ x ++ to_) y (n + 1)) as (r & m & E & R).
    { rewrite !app_length in Hf. destruct from; [contradiction|]. cbn in Hf. lia. }
    rewrite E. exists (x ++ to_ ++ r), (m + 1). split.
    + rewrite <- !app_assoc. do 2 f_equal. lia.
    + now constructor.
  - exists t, 0. split; [do 2 f_equal; lia|]. now constructor.
Qed.
Lemma replace_ok str from to_ : from <> [] ->
  exists r m, replace str from to_ = Some (r, m) /\ replaced from to_ str r m.
Proof.
  intros H. unfold replace. destruct from as [|f from]; [contradiction|].
  rewrite len_cons. pose proof (len_nonneg from). replace (1 + len from =? 0) with false by lia.
  destruct (replace_loop_ok (S (List.length str)) (f :: from) to_ H [] str 0) as (r & m & E & R); [lia|].
  exists r, m. split; auto.
Qed.

(** ** Stream names *)
Lemma keep_name c : san_keep c = true <-> name_char (lower c).
Proof.
  unfold san_keep, isalphaC, isdigitC, name_char, lower.
  change (ch "_") with 95. change (ch ".") with 46. change (ch "-") with 45.
  destruct ((65 <=? c) && (c <=? 90)) eqn:E; lia.
Qed.
Lemma keep_name_not c : san_keep c = false <-> ~ name_char (lower c).
Proof. rewrite <- keep_name. destruct (san_keep c); split; intros; congruence. Qed.
Fixpoint clean (s : list Z) : list Z :=
  match s with [] => [] | c :: t => if san_keep c then lower c :: clean t else clean t end.
Lemma clean_app a b : clean (a ++ b) = clean a ++ clean b.
Proof. induction a as [|c a IH]; cbn; [reflexivity|]. destruct (san_keep c); cbn; now rewrite IH. Qed.
Lemma clean_cleaned s : cleaned s (clean s).
Proof.
  induction s as [|c s IH]; cbn; [constructor|]. destruct (san_keep c) eqn:E.
  - constructor; auto. now apply keep_name.
  - constructor; auto. now apply keep_name_not.
Qed.
Lemma cleaned_clean s r : cleaned s r -> r = clean s.
Proof.
  induction 1 as [|c s r H Hs IH|c s r H Hs IH]; cbn; auto.
  - apply keep_name in H. rewrite H. now subst.
  - apply keep_name_not in H. now rewrite H.
Qed.
Lemma split_last_nth (p : list Z) c suf : nth (List.length p) ((p ++ [c]) ++ suf) 0 = c /\
  firstn (List.length p) ((p ++ [c]) ++ suf) = p /\ skipn (S (List.length p)) ((p ++ [c]) ++ suf) = suf.
Proof.
  rewrite <- app_assoc. cbn [app]. repeat split.
  - rewrite app_nth2 by lia. now rewrite Nat.sub_diag.
  - now apply firstn_exact.
  - rewrite skipn_app. rewrite skipn_all2 by lia. replace (S (List.length p) - List.length p)%nat with 1%nat by lia. reflexivity.
Qed.
Lemma san_loop_clean pre : forall suf, ~ In 63 pre ->
  san_loop (List.length pre) (pre ++ suf) = clean pre ++ suf.
Proof.
  induction pre as [|c p IH] using rev_ind; intros suf H; [reflexivity|].
  rewrite app_length. cbn [List.length]. rewrite Nat.add_1_r. cbn [san_loop].
  destruct (split_last_nth p c suf) as (-> & -> & ->).
  assert (Hp : ~ In 63 p) by (intros Hi; apply H, in_or_app; now left).
  assert (Hc : c <> 63) by (intros ->; apply H, in_or_app; right; now left).
  change (ch "?") with 63. replace (c =? 63) with false by lia.
  rewrite clean_app. cbn [clean]. destruct (san_keep c); cbn [negb].
  - rewrite IH by auto. now rewrite <- app_assoc.
  - rewrite IH by auto. now rewrite app_nil_r.
Qed.
Lemma san_loop_bug a b : forall suf, ~ In 63 b ->
  san_loop (List.length (a ++ 63 :: b)) ((a ++ 63 :: b) ++ suf) = a.
Proof.
  induction b as [|c b IH] using rev_ind; intros suf H.
  - rewrite app_length. cbn [List.length]. rewrite Nat.add_1_r. cbn [san_loop].
    now destruct (split_last_nth a 63 suf) as (-> & -> & ->).
  - replace (a ++ 63 :: b ++ [c]) with ((a ++ 63 :: b) ++ [c]) by now rewrite <- app_assoc.
    rewrite app_length. cbn [List.length]. rewrite Nat.add_1_r. cbn [san_loop].
    destruct (split_last_nth (a ++ 63 :: b) c suf) as (-> & -> & ->).
    assert (Hp : ~ In 63 b) by (intros Hi; apply H, in_or_app; now left).
    assert (Hc : c <> 63) by (intros ->; apply H, in_or_app; right; now left).
    change (ch "?") with 63. replace (c =? 63) with false by lia.
    destruct (negb (san_keep c)); now rewrite IH.
Qed.

Definition wildb (c : Z) : bool := (c =? ch "+") || (c =? 32).
Lemma wildb_ok c : wildb c = true <-> wild c.
Proof. unfold wildb, wild. change (ch "+") with 43. lia. Qed.

Lemma find_wild pre w post : Forall (fun c => ~ wild c) pre -> wild w ->
  find_from wildb (pre ++ w :: post) 0 = Some (len pre).
Proof.
  intros Hp Hw. pose proof (find_from_spec wildb [] (pre ++ w :: post)) as H. cbn [app] in H. rewrite len_nil in H.
  destruct (find_from wildb (pre ++ w :: post) 0) as [p|].
  - destruct H as (x & c & y & E & Hx & Hc & ->). cbn [Z.add]. f_equal.
    clear -E Hx Hc Hp Hw. revert pre E Hp; induction x as [|a x IH]; intros [|b pre] E Hp; cbn in E; auto.
    + injection E as -> _. inversion Hp; subst. apply wildb_ok in Hc. contradiction.
    + injection E as -> _. inversion Hx; subst. apply wildb_ok in Hw. congruence.
    + injection E as -> E. inversion Hx; inversion Hp; subst. rewrite !len_cons. f_equal. now apply IH.
  - rewrite Forall_forall in H. specialize (H w ltac:(apply in_or_app; right; now left)).
    apply wildb_ok in Hw. congruence.
Qed.
Lemma find_no_wild s : Forall (fun c => ~ wild c) s -> find_from wildb s 0 = None.
Proof.
  intros Hp. pose proof (find_from_spec wildb [] s) as H. cbn [app] in H. rewrite len_nil in H.
  destruct (find_from wildb s 0) as [p|]; auto.
  destruct H as (x & c & y & -> & Hx & Hc & _). apply wildb_ok in Hc.
  rewrite Forall_forall in Hp. exfalso. apply (Hp c); auto. apply in_or_app. right. now left.
Qed.

(** The query part: everything before the first '?'. *)
Fixpoint before_q (s : list Z) : list Z :=
  match s with [] => [] | c :: t => if c =? 63 then [] else c :: before_q t end.
Lemma before_q_prefix x y : ~ In 63 x -> before_q (x ++ 63 :: y) = x.
Proof.
  induction x as [|c x IH]; intros H; cbn; auto. replace (c =? 63) with false.
  - f_equal. apply IH. intros Hi; apply H; now right.
  - symmetry. apply Z.eqb_neq. intros ->. apply H. now left.
Qed.
Lemma before_q_all x : ~ In 63 x -> before_q x = x.
Proof.
  induction x as [|c x IH]; intros H; cbn; auto. replace (c =? 63) with false.
  - f_equal. apply IH. intros Hi; apply H; now right.
  - symmetry. apply Z.eqb_neq. intros ->. apply H. now left.
Qed.
Lemma query_cut post :
  match find_from (Z.eqb (ch "?")) post 0 with Some q => takez q post | None => post end = before_q post.
Proof.
  pose proof (find_from_spec (Z.eqb (ch "?")) [] post) as H. cbn [app] in H. rewrite len_nil in H.
  change (ch "?") with 63 in *.
  destruct (find_from (Z.eqb 63) post 0) as [p|].
  - destruct H as (x & c & y & -> & Hx & Hc & ->). apply Z.eqb_eq in Hc. subst c. cbn [Z.add].
    rewrite takez_app_exact by reflexivity. rewrite before_q_prefix; auto. now apply eqb_in_false.
  - rewrite before_q_all; auto. now apply eqb_in_false.
Qed.
Lemma sanitize_wild pre w post : Forall (fun c => ~ wild c) pre -> wild w ->
  sanitizeName (pre ++ w :: post) = Some (san_loop (List.length pre) pre ++ 43 :: before_q post).
Proof.
  intros Hp Hw. unfold sanitizeName. fold wildb. rewrite find_wild by auto.
  rewrite substr_0 by reflexivity.
  replace (pre ++ w :: post) with ((pre ++ [w]) ++ post) by now rewrite <- app_assoc.
  replace (len pre + 1) with (len (pre ++ [w])) by (rewrite len_app, len_cons, len_nil; lia).
  rewrite substr_end, query_cut. reflexivity.
Qed.
Lemma sanitize_flat s : Forall (fun c => ~ wild c) s -> sanitizeName s = Some (san_loop (List.length s) s).
Proof. intros H. unfold sanitizeName. fold wildb. now rewrite find_no_wild. Qed.

Lemma cleaned_chars s r : cleaned s r -> Forall name_char r.
Proof. induction 1; auto. Qed.
Lemma name_not_wild c : name_char c -> ~ wild c /\ c <> 63.
Proof. unfold name_char, wild. lia. Qed.
Lemma clean_id r : Forall name_char r -> clean r = r.
Proof.
  induction 1 as [|c r H Hr IH]; cbn; auto.
  assert (Hl : lower c = c) by (unfold lower, name_char in *; dif; lia).
  assert (Hk : san_keep c = true) by (apply keep_name; now rewrite Hl). now rewrite Hk, Hl, IH.
Qed.
Lemma before_q_no x : ~ In 63 (before_q x).
Proof.
  induction x as [|c x IH]; cbn; auto. destruct (c =? 63) eqn:E; cbn; auto. intros [H|H]; auto. lia.
Qed.

(** ** Back-off *)
Lemma backoff_shape n : forall w, 0 <= w -> backoff_loop (S n) w = Z.max 2 (w / 2 ^ Z.of_nat (S n)).
Proof.
  induction n as [|n IH]; intros w Hw.
  - cbn [backoff_loop]. rewrite shr_div by lia. change (2 ^ 1) with 2. change (2 ^ Z.of_nat 1) with 2. cbv zeta. dif; lia.
  - cbn [backoff_loop] in *. rewrite IH.
    2:{ cbv zeta. dif; [lia|]. rewrite shr_div by lia. change (2 ^ 1) with 2. lia. }
    cbv zeta. rewrite shr_div by lia. change (2 ^ 1) with 2.
    assert (Hp : 2 ^ Z.of_nat (S (S n)) = 2 * 2 ^ Z.of_nat (S n)) by (rewrite (Nat2Z.inj_succ (S n)), Z.pow_succ_r by lia; reflexivity).
    rewrite Hp. set (P := 2 ^ Z.of_nat (S n)). assert (0 < P) by (apply Z.pow_pos_nonneg; lia).
    rewrite <- Z.div_div by lia. destruct (w / 2 <? 2) eqn:E; [|reflexivity].
    assert (P >= 2). { unfold P. rewrite Nat2Z.inj_succ, Z.pow_succ_r by lia. assert (0 < 2 ^ Z.of_nat n) by (apply Z.pow_pos_nonneg; lia). lia. }
    assert (w / 2 / P <= 1). { apply Z.div_le_upper_bound; lia. }
    assert (2 / P <= 1). { apply Z.div_le_upper_bound; lia. } lia.
Qed.
Lemma backoff_closed cur mx w : 0 <= cur <= mx -> 0 <= w ->
  expBackoffMs cur mx w = if cur =? mx then w / 2 else Z.max 2 (w / 2 ^ (mx - cur + 1)).
Proof.
  intros Hc Hw. unfold expBackoffMs. replace (mx <? cur) with false by lia. rewrite shr_div by lia. change (2 ^ 1) with 2.
  destruct (cur =? mx) eqn:E.
  - replace (Z.to_nat (mx - cur)) with O by lia. reflexivity.
  - replace (Z.to_nat (mx - cur)) with (S (Z.to_nat (mx - cur - 1))) by lia.
    rewrite backoff_shape by lia. f_equal. rewrite Z.div_div by (try lia; apply Z.pow_pos_nonneg; lia).
    f_equal. replace (Z.of_nat (S (Z.to_nat (mx - cur - 1)))) with (mx - cur) by lia.
    rewrite <- Z.pow_succ_r by lia. f_equal.
Qed.

Lemma half_pow W k : 0 <= k -> W / 2 ^ (k + 1) = W / 2 ^ k / 2.
Proof. intros. rewrite Z.pow_add_r by lia. change (2 ^ 1) with 2. rewrite Z.div_div; [reflexivity|pose proof (Z.pow_pos_nonneg 2 k); lia|lia]. Qed.

Lemma backoff_mid i m W : 0 <= i < m -> 0 <= W -> expBackoffMs i m W = Z.max 2 (W / 2 ^ (m - i) / 2).
Proof. intros. rewrite backoff_closed by lia. replace (i =? m) with false by lia. rewrite half_pow by lia. reflexivity. Qed.

Lemma total_upper m W n : 0 <= W -> Z.of_nat n < m ->
  total (fun i => expBackoffMs i m W) n <= W / 2 ^ (m - Z.of_nat n) + 2 * (Z.of_nat n + 1).
Proof.
  intros HW. induction n as [|n IH]; intros Hn; cbn [total].
  - rewrite backoff_mid by lia. change (Z.of_nat 0) with 0.
    assert (0 <= W / 2 ^ (m - 0)) by (apply Z.div_pos; [lia|apply Z.pow_pos_nonneg; lia]). lia.
  - specialize (IH ltac:(lia)). rewrite backoff_mid by lia.
    replace (m - Z.of_nat n) with (m - Z.of_nat (S n) + 1) in IH by lia. rewrite half_pow in IH by lia.
    assert (0 <= W / 2 ^ (m - Z.of_nat (S n))) by (apply Z.div_pos; [lia|apply Z.pow_pos_nonneg; lia]). lia.
Qed.
Lemma total_tight m W n : 2 ^ (m + 2) <= W -> Z.of_nat n < m ->
  W / 2 ^ (m - Z.of_nat n) - W / 2 ^ (m + 1) - (Z.of_nat n + 1)
    <= total (fun i => expBackoffMs i m W) n <= W / 2 ^ (m - Z.of_nat n).
Proof.
  intros HW Hn0. assert (0 < 2 ^ (m + 2)) by (apply Z.pow_pos_nonneg; lia).
  assert (Hbig : forall i, 0 <= i < m -> 2 <= W / 2 ^ (m - i) / 2).
  { intros i Hi. rewrite <- half_pow by lia. apply Z.div_le_lower_bound; [apply Z.pow_pos_nonneg; lia|].
    assert (2 ^ (m - i + 1) * 2 = 2 ^ (m - i + 2)) by (replace (m - i + 2) with (m - i + 1 + 1) by lia; rewrite (Z.pow_add_r 2 (m - i + 1) 1) by lia; reflexivity).
    assert (2 ^ (m - i + 2) <= 2 ^ (m + 2)) by (apply Z.pow_le_mono_r; lia). lia. }
  revert Hn0. induction n as [|n IH]; intros Hn; cbn [total].
  - specialize (Hbig 0 ltac:(lia)). rewrite backoff_mid by lia. change (Z.of_nat 0) with 0. rewrite (half_pow W m) by lia.
    replace (m - 0) with m in * by lia. lia.
  - specialize (IH ltac:(lia)). specialize (Hbig (Z.of_nat (S n)) ltac:(lia)). rewrite backoff_mid by lia.
    replace (m - Z.of_nat n) with (m - Z.of_nat (S n) + 1) in IH by lia. rewrite half_pow in IH by lia. lia.
Qed.

(** ** Identifiers *)
Definition uuid_rel (c x : Z) : Prop :=
  if c =? ch "D" then In x [56; 57; 97; 98] else if c =? ch "0" then hexdig x else x = c.
Fixpoint uuid_need (tmpl : list Z) : Z :=
  match tmpl with [] => 0 | c :: t => (if (c =? ch "D") || (c =? ch "0") then 1 else 0) + uuid_need t end.
Lemma uuid_need_nonneg t : 0 <= uuid_need t.
Proof. induction t as [|c t IH]; cbn [uuid_need]; [lia|]. destruct ((c =? ch "D") || (c =? ch "0")); lia. Qed.
Lemma charset_hex v : 0 <= v < 16 -> exists x, rd uuid_charset v = Some x /\ hexdig x.
Proof.
  intros Hv. exists (nthz uuid_charset v). split; [apply rd_some; exact Hv|].
  pose proof (range_sweep 16 (fun v => let x := nthz uuid_charset v in ((48 <=? x) && (x <=? 57)) || ((97 <=? x) && (x <=? 102))) eq_refl v Hv) as H.
  cbv beta zeta in H. unfold hexdig. lia.
Qed.
Lemma charset_var v : 8 <= v < 12 -> exists x, rd uuid_charset v = Some x /\ In x [56; 57; 97; 98].
Proof.
  intros Hv. assert (H : v = 8 \/ v = 9 \/ v = 10 \/ v = 11) by lia.
  destruct H as [-> |[-> |[-> | ->]]]; (eexists; split; [reflexivity|cbn; auto]).
Qed.
Lemma uuid_loop_ok nums tmpl : bytesP nums -> forall j, 0 <= j -> j + uuid_need tmpl <= len nums ->
  exists u, uuid_loop nums tmpl j = Some u /\ Forall2 uuid_rel tmpl u.
Proof.
  intros Hb. induction tmpl as [|c t IH]; intros j Hj Hl; cbn [uuid_loop].
  - exists []. split; auto.
  - cbn [uuid_need] in Hl. pose proof (uuid_need_nonneg t).
    destruct (c =? ch "D") eqn:ED; [|destruct (c =? ch "0") eqn:E0]; cbn [orb] in Hl.
    + rewrite rd_some by lia. destruct (charset_var (8 + nthz nums j mod 4) ltac:(lia)) as (x & -> & Hx).
      destruct (IH (j + 1)) as (u & -> & Hu); [lia|lia|]. exists (x :: u). split; auto.
      constructor; auto. unfold uuid_rel. now rewrite ED.
    + rewrite rd_some by lia. destruct (charset_hex (nthz nums j mod 16) ltac:(lia)) as (x & -> & Hx).
      destruct (IH (j + 1)) as (u & -> & Hu); [lia|lia|]. exists (x :: u). split; auto.
      constructor; auto. unfold uuid_rel. now rewrite ED, E0.
    + destruct (IH j) as (u & -> & Hu); [lia|lia|]. exists (c :: u). split; auto.
      constructor; auto. unfold uuid_rel. now rewrite ED, E0.
Qed.
Lemma uuid_loop_short nums tmpl : forall j, 0 <= j <= len nums -> len nums < j + uuid_need tmpl ->
  uuid_loop nums tmpl j = None.
Proof.
  induction tmpl as [|c t IH]; intros j Hj Hl; cbn [uuid_loop uuid_need] in *; [lia|].
  destruct (c =? ch "D") eqn:ED; [|destruct (c =? ch "0") eqn:E0]; cbn [orb] in Hl.
  - destruct (Z_lt_ge_dec j (len nums)) as [H|H]; [|now rewrite rd_none by lia].
    rewrite rd_some by lia. rewrite IH by lia. now destruct (rd uuid_charset _).
  - destruct (Z_lt_ge_dec j (len nums)) as [H|H]; [|now rewrite rd_none by lia].
    rewrite rd_some by lia. rewrite IH by lia. now destruct (rd uuid_charset _).
  - now rewrite IH by lia.
Qed.
Lemma uuid_nums_len rnd : 16 <= len rnd -> len (uuid_nums rnd) = len rnd.
Proof.
  intros H. unfold uuid_nums. set (x := [_ .| 64]). set (y := [_ .| 128]).
  assert (len x = 1) by reflexivity. assert (len y = 1) by reflexivity.
  assert (len (splice rnd 6 x) = len rnd) by (apply len_splice; lia).
  rewrite len_splice; lia.
Qed.
Lemma uuid_nums_bytes rnd : bytesP rnd -> bytesP (uuid_nums rnd).
Proof.
  intros H. assert (K : forall r k, bytesP r -> byteP (nthz r k .& 15 .| 64)).
  { intros r k Hr. pose proof (bytesP_nthz r k Hr) as Hk. revert Hk. generalize (nthz r k). intros b Hb.
    apply (byte_sweep (fun b => is_byte (b .& 15 .| 64)) eq_refl) in Hb. unfold is_byte in Hb. unfold byteP. lia. }
  assert (K2 : forall r k, bytesP r -> byteP (nthz r k .& 63 .| 128)).
  { intros r k Hr. pose proof (bytesP_nthz r k Hr) as Hk. revert Hk. generalize (nthz r k). intros b Hb.
    apply (byte_sweep (fun b => is_byte (b .& 63 .| 128)) eq_refl) in Hb. unfold is_byte in Hb. unfold byteP. lia. }
  unfold uuid_nums. assert (H1 : bytesP (splice rnd 6 [nthz rnd 6 .& 15 .| 64])).
  { apply bytesP_splice; auto. apply bytesP_cons. split; [now apply K|constructor]. }
  apply bytesP_splice; auto. apply bytesP_cons. split; [now apply K2|constructor].
Qed.
Lemma Forall2_len {A B} (R : A -> B -> Prop) a b : Forall2 R a b -> List.length a = List.length b.
Proof. induction 1; cbn; auto. Qed.
Lemma uuid_rel_form u : Forall2 uuid_rel uuid_template u -> uuid_form u.
Proof.
  intros H. unfold uuid_form. pose proof (Forall2_len _ _ _ H) as Hl. split; [unfold len; cbn in Hl; lia|].
  assert (Hn : forall i, 0 <= i < 36 -> uuid_rel (nthz uuid_template i) (nthz u i)).
  { intros i Hi. unfold nthz. assert (Hi2 : (Z.to_nat i < List.length uuid_template)%nat) by (cbn; lia).
    revert Hi2. generalize (Z.to_nat i). clear -H. intros n. revert n. induction H as [|a b l1 l2 Hab HF IH]; intros n Hn.
    - cbn in Hn. lia.
    - destruct n; cbn; auto. apply IH. cbn in Hn. lia. }
  intros i Hi. specialize (Hn i Hi).
  pose proof (range_sweep 36 (fun i => nthz uuid_template i =?
    (if (i =? 8) || (i =? 13) || (i =? 18) || (i =? 23) then 45 else if i =? 14 then 52 else if i =? 19 then 68 else 48)) eq_refl i Hi) as Ht.
  cbv beta in Ht. apply Z.eqb_eq in Ht. rewrite Ht in Hn. unfold uuid_rel in Hn. change (ch "D") with 68 in Hn. change (ch "0") with 48 in Hn.
  destruct ((i =? 8) || (i =? 13) || (i =? 18) || (i =? 23)) eqn:E1; cbn in Hn; [repeat split; intros; lia|].
  destruct (i =? 14) eqn:E2; cbn in Hn; [rewrite Hn; repeat split; intros; unfold hexdig; lia|].
  destruct (i =? 19) eqn:E3; cbn in Hn.
  - repeat split; intros; try lia; auto. unfold hexdig. lia.
  - repeat split; intros; try lia; auto.
Qed.
