(** What the string utilities guarantee: C42, C48, C49, C54, C55, C56. *)
From Verif Require Import Common CommonFacts CommonMore Str_Model Str_Spec Str_Proofs.

(** ** C48: splitting and trimming *)

(** Splitting gives the delimiter free pieces whose joining gives the text back, unless the
    text begins with the delimiter and holds another one. *)
Theorem split_pieces_partial : forall d s,
  (forall t, s = d :: t -> ~ In d t) ->
  exists ps, splitString s d = Some ps /\ pieces_of d s ps.
Proof. intros d s. apply split_ok. Qed.

(** The pieces of a text are unique, so the theorem above fixes the result. *)
Theorem split_pieces_unique : forall d s p q, pieces_of d s p -> pieces_of d s q -> p = q.
Proof. exact pieces_unique. Qed.

Example split_case : splitString (bs "/usr/bin::/bin") (ch ":") = Some [bs "/usr/bin"; []; bs "/bin"]
  /\ (forall t, bs "/usr/bin::/bin" = ch ":" :: t -> ~ In (ch ":") t).
Proof. split; [vm_compute; reflexivity|]. intros t H. discriminate H. Qed.

(** F33: in the remaining case a piece always keeps a delimiter, so the result is wrong. *)
Theorem split_leading_refuted : forall d t, In d t ->
  exists ps, splitString (d :: t) d = Some ps /\ ~ pieces_of d (d :: t) ps /\ Exists (fun p => In d p) ps.
Proof.
  intros d t H. destruct (split_bug d t H) as (x & y & ps & -> & Hx & E & Hp).
  exists ([] :: (d :: x) :: ps). split; auto. split.
  - intros (_ & _ & F). inversion F as [|? ? _ F2]; subst. inversion F2 as [|? ? F3 _]; subst. apply F3. now left.
  - right. left. now left.
Qed.
Example split_leading_case : splitString (bs ",a,b") (ch ",") = Some [[]; bs ",a"; bs "b"].
Proof. vm_compute. reflexivity. Qed.

(** Trimming removes exactly the leading and trailing whitespace, unless the only
    non-blank character is the very first one. *)
Theorem trim_exact_partial : forall s, len s < 18446744073709551616 ->
  (forall c t, s = c :: t -> ~ blank c -> Exists (fun d => ~ blank d) t) ->
  exists r, stringTrim s = Some r /\ trimmed s r.
Proof. exact trim_ok. Qed.
Example trim_case : stringTrim (bs "  a b ") = Some (bs "a b").
Proof. vm_compute. reflexivity. Qed.

(** F34: in the remaining case the text is lost. *)
Theorem trim_single_refuted : forall c b, ~ blank c -> Forall blank b ->
  stringTrim (c :: b) = Some [] /\ ~ trimmed (c :: b) [].
Proof.
  intros c b Hc Hb. split; [now apply trim_bug|].
  intros (x & y & E & Hx & Hy & _). cbn in E.
  assert (Hin : In c (x ++ y)) by (rewrite <- E; now left).
  apply in_app_or in Hin as [Hin|Hin]; [rewrite Forall_forall in Hx|rewrite Forall_forall in Hy]; auto.
Qed.
Example trim_single_case : stringTrim (bs "7") = Some [].
Proof. vm_compute. reflexivity. Qed.

(** ** C55: command lines *)

(** Splitting a command line agrees with reading it one character at a time; it never fails. *)
Theorem shell_split_reads : forall val, shellSplit val = Some (words 0 false [] val).
Proof. exact shell_ok. Qed.
(** Every list of arguments can be passed exactly. *)
Theorem shell_split_round_trip : forall args, shellSplit (command_line args) = Some args.
Proof. exact command_line_ok. Qed.
Example shell_split_case :
  shellSplit (bs "ffmpeg -i 'my file.ts'  -f ""a'b"" '' c\ d") =
    Some [bs "ffmpeg"; bs "-i"; bs "my file.ts"; bs "-f"; bs "a'b"; []; bs "c d"]
  /\ command_line [bs "it's"; []; bs "a b"] = bs "'it\'s' '' 'a b'".
Proof. split; vm_compute; reflexivity. Qed.

(** F35: "exactly how a shell would do it" is not so: inside single quotes a shell keeps a
    backslash, this function interprets it. *)
Theorem shell_single_quote_refuted :
  exists body, ~ In 39 body /\ shellSplit ([39] ++ body ++ [39]) <> Some [body].
Proof. exists (bs "C:\new"). split; [cbn; intuition discriminate|]. vm_compute. discriminate. Qed.

(** ** C56: replacing *)

(** All non-overlapping occurrences are replaced, leftmost first, and counted; the function
    always terminates, even if the replacement contains the searched text. *)
Theorem replace_all : forall str from to_, from <> [] ->
  exists r n, replace str from to_ = Some (r, n) /\ replaced from to_ str r n.
Proof. exact replace_ok. Qed.
Theorem replace_empty : forall str to_, replace str [] to_ = Some (str, 0).
Proof. reflexivity. Qed.
Example replace_case : replace (bs "a$b$$c") (bs "$") (bs "$$") = Some (bs "a$$b$$$$c", 3).
Proof. vm_compute. reflexivity. Qed.

(** ** C42: stream names *)

(** A name whose part before the first '+' or space holds no '?': that part is filtered and
    lower cased, the separator becomes '+', and the rest is kept up to the first '?'. *)
Theorem sanitize_exact_partial : forall pre, Forall (fun c => ~ wild c) pre -> ~ In 63 pre ->
  (exists r, sanitizeName pre = Some r /\ cleaned pre r) /\
  (forall w post, wild w -> exists r q, sanitizeName (pre ++ w :: post) = Some (r ++ 43 :: q) /\
     cleaned pre r /\ ~ In 63 q /\ (post = q \/ exists z, post = q ++ 63 :: z)).
Proof.
  intros pre Hp Hq. pose proof (san_loop_clean pre [] Hq) as E. rewrite !app_nil_r in E. split.
  - exists (clean pre). split; [|apply clean_cleaned]. now rewrite sanitize_flat, E.
  - intros w post Hw. exists (clean pre), (before_q post). rewrite sanitize_wild, E by auto.
    split; auto. split; [apply clean_cleaned|]. split; [apply before_q_no|].
    clear. induction post as [|c post IH]; cbn; auto. destruct (c =? 63) eqn:E.
    + right. exists post. cbn. f_equal. lia.
    + destruct IH as [IH|(z & IH)]; [left; now rewrite <- IH|right; exists z; cbn; now rewrite <- IH].
Qed.

(** The result (up to the separator) holds only lower case letters, digits, '_', '-' and '.',
    and sanitizing again changes nothing. *)
Theorem sanitize_safe_partial : forall s pre rest, s = pre ++ rest ->
  Forall (fun c => ~ wild c) pre -> ~ In 63 pre -> (rest = [] \/ exists w t, rest = w :: t /\ wild w) ->
  exists r r2, sanitizeName s = Some (r ++ r2) /\ Forall name_char r /\
    (r2 = [] \/ exists t, r2 = 43 :: t) /\ sanitizeName (r ++ r2) = Some (r ++ r2).
Proof.
  intros s pre rest -> Hp Hq Hr. pose proof (san_loop_clean pre [] Hq) as E. rewrite !app_nil_r in E.
  pose proof (cleaned_chars _ _ (clean_cleaned pre)) as Hn.
  assert (Hw2 : Forall (fun c => ~ wild c) (clean pre)) by (eapply Forall_impl; [|exact Hn]; intros c Hc; now apply name_not_wild).
  assert (Hq2 : ~ In 63 (clean pre)) by (intros Hi; rewrite Forall_forall in Hn; apply Hn in Hi; apply name_not_wild in Hi; tauto).
  pose proof (san_loop_clean (clean pre) [] Hq2) as E2. rewrite !app_nil_r, (clean_id (clean pre)) in E2 by auto.
  destruct Hr as [-> |(w & t & -> & Hw)].
  - exists (clean pre), []. rewrite !app_nil_r. rewrite sanitize_flat, E by auto. split; auto. split; auto. split; auto.
    rewrite sanitize_flat by auto. now rewrite E2.
  - exists (clean pre), (43 :: before_q t). rewrite sanitize_wild, E by auto. split; auto. split; auto. split; [eauto|].
    rewrite sanitize_wild; [|auto|now left]. rewrite E2. rewrite (before_q_all (before_q t)); [reflexivity|apply before_q_no].
Qed.
Example sanitize_case : sanitizeName (bs "Live/Stream_1+Wild Card?x=1") = Some (bs "livestream_1+Wild Card")
  /\ Forall (fun c => ~ wild c) (bs "Live/Stream_1") /\ ~ In 63 (bs "Live/Stream_1").
Proof.
  split; [vm_compute; reflexivity|]. split.
  - repeat (constructor; [unfold wild; vm_compute; intros [H|H]; discriminate|]). constructor.
  - vm_compute. intuition discriminate.
Qed.

(** F36: a '?' switches the filter off: everything before the last '?' comes out unchanged,
    whatever it is; so neither claim holds for every string. *)
Theorem sanitize_query_refuted : forall a b, Forall (fun c => ~ wild c) (a ++ 63 :: b) -> ~ In 63 b ->
  sanitizeName (a ++ 63 :: b) = Some a.
Proof.
  intros a b Hw Hb. rewrite sanitize_flat by auto. f_equal.
  pose proof (san_loop_bug a b [] Hb) as E. now rewrite app_nil_r in E.
Qed.
Example sanitize_query_case : sanitizeName (bs "../../Etc?x") = Some (bs "../../Etc")
  /\ sanitizeName (bs "../../Etc") = Some (bs "....etc") /\ sanitizeName (bs "a?b?c") = Some (bs "a?b").
Proof. repeat split; vm_compute; reflexivity. Qed.

(** ** C49: back-off *)

(** For limits of at least 4 ms: waits are at least 2 ms, at most half the limit, and never decrease. *)
Theorem backoff_bounded : forall cur mx w, 0 <= cur <= mx -> 4 <= w ->
  2 <= expBackoffMs cur mx w <= w / 2.
Proof.
  intros cur mx w Hc Hw. rewrite backoff_closed by lia. destruct (cur =? mx) eqn:E; [lia|].
  assert (w / 2 ^ (mx - cur + 1) <= w / 2 ^ 1).
  { apply Z.div_le_compat_l; [lia|]. split; [lia|]. apply Z.pow_le_mono_r; lia. }
  change (2 ^ 1) with 2 in *. lia.
Qed.
Theorem backoff_monotone : forall i j mx w, 0 <= i <= j -> j <= mx -> 4 <= w ->
  expBackoffMs i mx w <= expBackoffMs j mx w.
Proof.
  intros i j mx w Hi Hj Hw. destruct (Z.eq_dec j mx) as [-> |Hne].
  - destruct (backoff_bounded i mx w ltac:(lia) Hw) as [_ H]. rewrite (backoff_closed mx) by lia. rewrite Z.eqb_refl. exact H.
  - rewrite !backoff_closed by lia. replace (i =? mx) with false by lia. replace (j =? mx) with false by lia.
    assert (w / 2 ^ (mx - i + 1) <= w / 2 ^ (mx - j + 1)).
    { apply Z.div_le_compat_l; [lia|]. split; [apply Z.pow_pos_nonneg; lia|]. apply Z.pow_le_mono_r; lia. }
    lia.
Qed.
(** Past the last iteration the wait is always 5 ms, so no caller spins. *)
Theorem backoff_after : forall cur mx w, mx < cur -> expBackoffMs cur mx w = 5.
Proof. intros. unfold expBackoffMs. now replace (mx <? cur) with true by lia. Qed.
(** The whole series exceeds the limit by at most 2 ms per iteration... *)
Theorem backoff_total : forall (mx : nat) w, 0 <= w ->
  total (fun i => expBackoffMs i (Z.of_nat mx) w) mx <= w + 2 * Z.of_nat mx.
Proof.
  intros mx w Hw. destruct mx as [|m]; cbn [total].
  - rewrite backoff_closed by lia. cbn [Z.eqb]. change (Z.of_nat 0) with 0. cbn. lia.
  - pose proof (total_upper (Z.of_nat (S m)) w m Hw ltac:(lia)) as H.
    replace (Z.of_nat (S m) - Z.of_nat m) with 1 in H by lia. change (2 ^ 1) with 2 in H.
    rewrite backoff_closed by lia. rewrite Z.eqb_refl. lia.
Qed.
(** ...and is within the limit, and close to it, once the limit is not small for the number of iterations. *)
Theorem backoff_total_fits : forall (mx : nat) w, 2 ^ (Z.of_nat mx + 2) <= w ->
  w - w / 2 ^ (Z.of_nat mx + 1) - (Z.of_nat mx + 1) <= total (fun i => expBackoffMs i (Z.of_nat mx) w) mx <= w.
Proof.
  intros mx w Hw. assert (0 < 2 ^ (Z.of_nat mx + 2)) by (apply Z.pow_pos_nonneg; lia).
  destruct mx as [|m]; cbn [total].
  - rewrite backoff_closed by lia. cbn [Z.eqb]. change (Z.of_nat 0) with 0. cbn. lia.
  - pose proof (total_tight (Z.of_nat (S m)) w m Hw ltac:(lia)) as H2.
    replace (Z.of_nat (S m) - Z.of_nat m) with 1 in H2 by lia. change (2 ^ 1) with 2 in H2.
    rewrite backoff_closed by lia. rewrite Z.eqb_refl. lia.
Qed.
Example backoff_case : 2 ^ (Z.of_nat 10 + 2) <= 5000 /\
  map (fun i => expBackoffMs i 10 5000) [0; 1; 2; 8; 9; 10; 11] = [2; 4; 9; 625; 1250; 2500; 5] /\
  total (fun i => expBackoffMs i 10 5000) 10 = 4994.
Proof. split; [vm_compute; discriminate|]. split; vm_compute; reflexivity. Qed.
(** F37: for short limits the sum exceeds the limit, and a wait can exceed half of it. *)
Theorem backoff_short_refuted :
  total (fun i => expBackoffMs i 10 100) 10 > 100 /\ expBackoffMs 0 10 3 > 3 / 2.
Proof. split; vm_compute; reflexivity. Qed.

(** ** C54: random identifiers *)

(** Whatever the random source yields, the text has one letter or digit per random byte. *)
Theorem random_alphanumeric : forall rnd, bytesP rnd ->
  len (getRandomAlphanumeric rnd) = len rnd /\ Forall alnum (getRandomAlphanumeric rnd).
Proof.
  intros rnd H. unfold getRandomAlphanumeric. split; [apply len_map|].
  apply Forall_map. eapply Forall_impl; [|exact H]. intros b Hb.
  apply (byte_sweep (fun b => let c := alnum_of b in ((48 <=? c) && (c <=? 57)) || ((65 <=? c) && (c <=? 90)) || ((97 <=? c) && (c <=? 122))) eq_refl) in Hb.
  cbv beta zeta in Hb. unfold alnum. lia.
Qed.
(** Every letter and digit can occur. *)
Theorem random_alphanumeric_onto : forall c, alnum c -> exists b, byteP b /\ getRandomAlphanumeric [b] = [c].
Proof.
  intros c Hc. assert (H : exists b, 0 <= b < 62 /\ alnum_of b = c).
  { unfold alnum in Hc. destruct Hc as [Hc|[Hc|Hc]].
    - exists (c - 48). split; [lia|]. unfold alnum_of. rewrite (Z.mod_small (c - 48) 62) by lia. rewrite u8_id by (unfold byteP; lia).
      cbv zeta. replace (c - 48 <? 10) with true by lia. rewrite u8_id by (unfold byteP; lia). lia.
    - exists (c - 55). split; [lia|]. unfold alnum_of. rewrite (Z.mod_small (c - 55) 62) by lia. rewrite u8_id by (unfold byteP; lia).
      cbv zeta. replace (c - 55 <? 10) with false by lia. replace (c - 55 <? 36) with true by lia. rewrite u8_id by (unfold byteP; lia). lia.
    - exists (c - 61). split; [lia|]. unfold alnum_of. rewrite (Z.mod_small (c - 61) 62) by lia. rewrite u8_id by (unfold byteP; lia).
      cbv zeta. replace (c - 61 <? 10) with false by lia. replace (c - 61 <? 36) with false by lia. rewrite u8_id by (unfold byteP; lia). lia. }
  destruct H as (b & Hb & E). exists b. split; [unfold byteP; lia|]. cbn. now rewrite E.
Qed.
Example random_case : getRandomAlphanumeric [0; 10; 36; 61; 62; 255] = bs "0Aaz07".
Proof. vm_compute. reflexivity. Qed.

(** The identifier has the standard form provided 31 random numbers can be read (the function
    only has 16). *)
Theorem uuid_form_partial : forall rnd, bytesP rnd -> 31 <= len rnd ->
  exists u, generateUUID rnd = Some u /\ uuid_form u.
Proof.
  intros rnd Hb Hl. unfold generateUUID.
  destruct (uuid_loop_ok (uuid_nums rnd) uuid_template) with (j := 0) as (u & E & R).
  - now apply uuid_nums_bytes.
  - lia.
  - rewrite uuid_nums_len by lia. change (uuid_need uuid_template) with 31. lia.
  - exists u. split; auto. now apply uuid_rel_form.
Qed.
(** F38: with its 16 random bytes the function always reads outside its array. *)
Theorem uuid_overread_refuted : forall rnd, len rnd = 16 -> generateUUID rnd = None.
Proof.
  intros rnd H. unfold generateUUID. apply uuid_loop_short.
  - rewrite uuid_nums_len by lia. lia.
  - rewrite uuid_nums_len by lia. change (uuid_need uuid_template) with 31. lia.
Qed.
Example uuid_case : generateUUID (map Z.of_nat (seq 100 31)) = Some (bs "456789ab-cdef-4012-b456-789abcdef012").
Proof. vm_compute. reflexivity. Qed.

Print Assumptions split_pieces_partial.
Print Assumptions split_pieces_unique.
Print Assumptions split_leading_refuted.
Print Assumptions trim_exact_partial.
Print Assumptions trim_single_refuted.
Print Assumptions shell_split_reads.
Print Assumptions shell_split_round_trip.
Print Assumptions shell_single_quote_refuted.
Print Assumptions replace_all.
Print Assumptions replace_empty.
Print Assumptions sanitize_exact_partial.
Print Assumptions sanitize_safe_partial.
Print Assumptions sanitize_query_refuted.
Print Assumptions backoff_bounded.
Print Assumptions backoff_monotone.
Print Assumptions backoff_after.
Print Assumptions backoff_total.
Print Assumptions backoff_total_fits.
Print Assumptions backoff_short_refuted.
Print Assumptions random_alphanumeric.
Print Assumptions random_alphanumeric_onto.
Print Assumptions uuid_form_partial.
Print Assumptions uuid_overread_refuted.
