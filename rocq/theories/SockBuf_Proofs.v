From Verif Require Import Common CommonFacts SockBuf_Model SockBuf_Spec.
Import List.

Definition q (b : sbuf) : list Z := concat (segs b).
Lemma q_mk d sp : q (mksb d sp) = concat d. Proof. reflexivity. Qed.

Lemma len_pos {A} (l : list A) : l <> [] -> 0 < len l.
Proof. destruct l; [congruence|]. rewrite len_cons. pose proof (len_nonneg l). lia. Qed.

(** ** size *)
Lemma drop_empty_concat d : concat (drop_empty d) = concat d.
Proof. induction d as [|s r IH]; [reflexivity|]. destruct s; [exact IH|reflexivity]. Qed.
Lemma drop_empty_len d : len (drop_empty d) <= len d.
Proof. induction d as [|s r IH]; [reflexivity|]. destruct s; cbn [drop_empty]; rewrite ?len_cons; lia. Qed.
Lemma drop_empty_nil d : drop_empty d = [] <-> concat d = [].
Proof.
  induction d as [|s r IH]; [split; reflexivity|]. destruct s; cbn [drop_empty concat app]; [exact IH|].
  split; discriminate.
Qed.
Lemma drop_empty_hd d s r : drop_empty d = s :: r -> s <> [].
Proof. induction d as [|x d IH]; [discriminate|]. destruct x; cbn [drop_empty]; [exact IH|]. intros [= <- <-]. discriminate. Qed.
Lemma drop_empty_idem d : drop_empty (drop_empty d) = drop_empty d.
Proof. induction d as [|s r IH]; [reflexivity|]. destruct s; cbn; auto. Qed.

(** ** bytes, available *)
Lemma concat_rev_len (d : list (list Z)) : len (concat (rev d)) = len (concat d).
Proof.
  induction d as [|s r IH]; [reflexivity|]. cbn [rev concat]. rewrite concat_app, !len_app, IH. cbn. rewrite app_nil_r. lia.
Qed.
Lemma bytes_loop_ok d i max : 0 <= i -> i + len (concat d) < 2 ^ 32 -> i <= max ->
  bytes_loop d i max = Z.min max (i + len (concat d)).
Proof.
  revert i. induction d as [|s r IH]; intros i Hi Ht Hm.
  - cbn in *. lnil. lia.
  - cbn [bytes_loop concat] in *. rewrite len_app in *. pose proof (len_nonneg s). pose proof (len_nonneg (concat r)).
    rewrite u32_id by lia. destruct (i + len s >=? max) eqn:E; [lia|]. rewrite IH by lia. lia.
Qed.
Lemma avail_loop_ok d i c : 0 <= i -> i + len (concat d) < 2 ^ 32 ->
  avail_loop d i c = match d with [] => false | _ => c <=? i + len (concat d) end.
Proof.
  revert i. induction d as [|s r IH]; intros i Hi Ht; [reflexivity|].
  cbn [avail_loop concat] in *. rewrite len_app in *. pose proof (len_nonneg s). pose proof (len_nonneg (concat r)).
  rewrite u32_id by lia. destruct (i + len s >=? c) eqn:E; [lia|]. rewrite IH by lia.
  destruct r as [|s' r']; [cbn; change (len []) with 0; lia|].
  destruct (c <=? i + len s + len (concat (s' :: r'))) eqn:E2; lia.
Qed.
Lemma available_ok b n : len (q b) < 2 ^ 32 -> 0 <= n < 2 ^ 32 ->
  sb_available b n = ((n <=? len (q b)) && (0 <? len (q b)), mksb (drop_empty (segs b)) (splitter b)).
Proof.
  intros Hl Hn. unfold sb_available, sb_size. cbn [snd segs]. f_equal.
  rewrite u32_id by lia.
  rewrite avail_loop_ok by (rewrite ?concat_rev_len, ?drop_empty_concat; unfold q in Hl; lia).
  rewrite concat_rev_len, drop_empty_concat. fold (q b).
  destruct (rev (drop_empty (segs b))) eqn:E.
  - assert (E2 : drop_empty (segs b) = []) by (rewrite <- (rev_involutive (drop_empty (segs b))), E; reflexivity).
    apply drop_empty_nil in E2. unfold q. rewrite E2. change (len []) with 0. lia.
  - assert (E2 : drop_empty (segs b) <> []) by (intros E2; rewrite E2 in E; discriminate).
    assert (q b <> []) by (unfold q; intros E3; apply E2, drop_empty_nil, E3).
    pose proof (len_pos (q b) H). lia.
Qed.

(** ** append *)
Lemma scan_loop_bounds fuel sp l j : 0 <= j -> j <= scan_loop fuel sp l j /\ (j <= len l -> scan_loop fuel sp l j <= len l) /\
  ((0 < fuel)%nat -> j < len l -> j < BLOCKSIZE -> j < scan_loop fuel sp l j).
Proof.
  revert j. induction fuel as [|k IH]; intros j Hj; [cbn; lia|].
  cbn [scan_loop]. destruct ((j <? len l) && (j <? BLOCKSIZE)) eqn:E; [|lia].
  destruct ((j + 1 >=? len sp) && _) eqn:E2; [lia|].
  specialize (IH (j + 1) ltac:(lia)). lia.
Qed.
Lemma next_part_bounds sp l : 0 < len l -> 0 < next_part sp l <= len l.
Proof.
  intros Hl. unfold next_part. unfold BLOCKSIZE at 1 2. destruct (len sp =? 0); [dif; lia|].
  pose proof (scan_loop_bounds (List.length l) sp l 0 ltac:(lia)) as [H1 [H2 H3]].
  unfold len, BLOCKSIZE in *. split; [apply H3; lia|apply H2; lia].
Qed.
Lemma cut_ok fuel sp l : (List.length l <= fuel)%nat ->
  concat (cut fuel sp l) = l /\ len (cut fuel sp l) <= len l.
Proof.
  revert l. induction fuel as [|k IH]; intros l Hf.
  - destruct l; [now split|cbn in Hf; lia].
  - cbn [cut]. destruct (0 <? len l) eqn:E.
    + pose proof (next_part_bounds sp l ltac:(lia)) as Hb. set (j := next_part sp l) in *.
      replace (j =? 0) with false by lia.
      assert (Ld : len (dropz j l) = len l - j) by (apply len_dropz; lia).
      destruct (IH (dropz j l)) as [H1 H2]; [unfold len in *; lia|].
      cbn [concat]. rewrite H1, len_cons. split; [apply takez_dropz|lia].
    + pose proof (len_nonneg l). rewrite (len_zero l) by lia. split; [reflexivity|]. lnil; lia.
Qed.

(** ** skip, remove, copy *)
Lemma skip_loop_ok d i c : i <= c -> concat (skip_loop d i c) = dropz (c - i) (concat d) /\ len (skip_loop d i c) <= len d.
Proof.
  revert i. induction d as [|s r IH]; intros i Hi.
  - cbn. unfold dropz. rewrite skipn_nil. split; reflexivity.
  - pose proof (len_nonneg s). cbn [skip_loop concat]. destruct (i + len s <=? c) eqn:E.
    + destruct (IH (i + len s) ltac:(lia)) as [H1 H2]. rewrite H1, len_cons. split; [|lia].
      rewrite dropz_app_ge by lia. f_equal. lia.
    + cbn [concat]. rewrite dropz_app by lia. rewrite !len_cons. split; [reflexivity|lia].
Qed.
Lemma remove_loop_ok d i c : i <= c <= i + len (concat d) -> 
  fst (remove_loop d i c) = takez (c - i) (concat d) /\
  concat (snd (remove_loop d i c)) = dropz (c - i) (concat d) /\ len (snd (remove_loop d i c)) = len d.
Proof.
  revert i. induction d as [|s r IH]; intros i Hi.
  - cbn in *. unfold takez, dropz. rewrite firstn_nil, skipn_nil. auto.
  - cbn [concat] in Hi. rewrite len_app in Hi. pose proof (len_nonneg s). cbn [remove_loop concat].
    destruct (i + len s <? c) eqn:E.
    + specialize (IH (i + len s) ltac:(lia)). destruct (remove_loop r (i + len s) c) as [ret d'].
      cbn [fst snd concat app] in *. destruct IH as [-> [-> H3]].
      rewrite takez_app_ge, dropz_app_ge by lia. rewrite !len_cons, H3. replace (c - (i + len s)) with (c - i - len s) by lia. auto.
    + cbn [fst snd concat]. rewrite takez_app, dropz_app by lia. now rewrite !len_cons.
Qed.
Lemma copy_loop_ok d i c : 0 <= i <= c -> c <= i + len (concat d) -> c < 2 ^ 32 ->
  copy_loop d i c = takez (c - i) (concat d).
Proof.
  revert i. induction d as [|s r IH]; intros i Hi Hc Hm.
  - cbn. unfold takez. now rewrite firstn_nil.
  - cbn [concat] in Hc. rewrite len_app in Hc. pose proof (len_nonneg s). cbn [copy_loop concat].
    destruct (i + len s <? c) eqn:E.
    + rewrite u32_id by lia. rewrite IH by lia. rewrite takez_app_ge by lia. do 2 f_equal. lia.
    + now rewrite takez_app by lia.
Qed.
Lemma copyp_loop_ok d i c : i <= c -> copyp_loop d i c = takez (c - i) (concat d).
Proof.
  revert i. induction d as [|s r IH]; intros i Hi.
  - cbn. unfold takez. now rewrite firstn_nil.
  - cbn [copyp_loop concat]. pose proof (len_nonneg s). cbv zeta. destruct (i + len s >? c) eqn:E.
    + replace (i + (c - i) >=? c) with true by lia. rewrite takez_app by lia. now rewrite app_nil_r.
    + rewrite (takez_all (len s) s) by lia. rewrite takez_app_ge by lia. f_equal.
      destruct (i + len s >=? c) eqn:E2.
      * symmetry. apply takez_nonpos. lia.
      * rewrite IH by lia. f_equal. lia.
Qed.

(** ** compact *)
Lemma absorb_ok cs cur d n cur' n' rest : absorb cs cur d n = (cur', n', rest) ->
  cur' ++ concat rest = cur ++ concat d /\ Z.of_nat n' + len rest = Z.of_nat n + len d.
Proof.
  revert cur n. induction d as [|s r IH]; intros cur n H; cbn [absorb] in H.
  - injection H as <- <- <-. auto.
  - rewrite len_cons. cbn [concat]. destruct (len (cur ++ s) >=? cs).
    + injection H as <- <- <-. rewrite app_assoc. split; [reflexivity|lia].
    + apply IH in H as [-> H]. rewrite app_assoc. split; [reflexivity|lia].
Qed.
Lemma concat_repeat_nil {A} n : concat (repeat (@nil A) n) = [].
Proof. induction n; [reflexivity|assumption]. Qed.
Lemma compact_loop_ok fuel cs d : concat (fst (compact_loop fuel cs d)) = concat d /\ len (fst (compact_loop fuel cs d)) = len d.
Proof.
  revert d. induction fuel as [|k IH]; intros d; [now destruct d|].
  destruct d as [|s r]; [now split|]. cbn [compact_loop]. destruct (len s <? cs).
  - destruct (absorb cs s r 0) as [[cur n] rest] eqn:E. apply absorb_ok in E as [E1 E2].
    specialize (IH rest). destruct (compact_loop k cs rest) as [d' ch]. cbn [fst] in *. destruct IH as [H1 H2].
    cbn [concat]. rewrite concat_app, concat_repeat_nil, H1. cbn [app]. split; [exact E1|].
    rewrite !len_cons, len_app, len_repeat, H2. lia.
  - specialize (IH r). destruct (compact_loop k cs r) as [d' ch]. cbn [fst concat] in *. destruct IH as [-> H2].
    rewrite !len_cons, H2. auto.
Qed.
Lemma filter_ok (d : list (list Z)) : concat (filter (fun s => negb (len s =? 0)) d) = concat d /\
  len (filter (fun s => negb (len s =? 0)) d) <= len d.
Proof.
  induction d as [|s r [IH1 IH2]]; [now split|]. cbn [filter concat]. destruct (len s =? 0) eqn:E; cbn [negb].
  - rewrite IH1, (len_zero s) by lia. rewrite !len_cons. split; [reflexivity|lia].
  - cbn [concat]. rewrite IH1, !len_cons. split; [reflexivity|lia].
Qed.
Lemma compact_ok b : q (snd (sb_compact b)) = q b /\ len (segs (snd (sb_compact b))) <= len (segs b).
Proof.
  unfold sb_compact, sb_size, q. cbn [snd segs].
  pose proof (drop_empty_len (segs b)).
  destruct (compactSize _) as [cs|]; [|cbn [snd segs]; rewrite drop_empty_concat; split; [reflexivity|lia]].
  pose proof (compact_loop_ok (List.length (drop_empty (segs b))) cs (drop_empty (segs b))) as [H1 H2].
  cbn [segs]. destruct (compact_loop _ _ _) as [d ch]. cbn [fst] in *.
  destruct (negb ch); cbn [snd segs].
  - rewrite H1, drop_empty_concat. split; [reflexivity|lia].
  - destruct (filter_ok d) as [F1 F2]. rewrite F1, H1, drop_empty_concat. split; [reflexivity|lia].
Qed.

(** ** One step *)
Lemma step_ok b o : op_ok o -> len (q b) + bytes_in o + len (segs b) + 1 < 2 ^ 32 ->
  queue_step (q b) o (fst (step b o)) (q (snd (step b o))) /\
  len (q (snd (step b o))) <= len (q b) + bytes_in o /\
  len (q (snd (step b o))) + len (segs (snd (step b o))) <= len (q b) + len (segs b) + 2 * bytes_in o + 1.
Proof.
  intros Ho Hl. pose proof (len_nonneg (q b)) as Hq. pose proof (len_nonneg (segs b)) as Hs.
  destruct o as [l|l|n|n|n|n| | | | |l|n|m|]; cbn [op_ok bytes_in step fst snd] in *.
  - pose proof (len_nonneg l). destruct (cut_ok (List.length l) (splitter b) l (le_n _)) as [C1 C2].
    assert (E : q (sb_append b l) = q b ++ l) by (unfold q, sb_append; cbn [segs]; now rewrite concat_app, C1).
    rewrite E, len_app. unfold sb_append. cbn [segs]. rewrite len_app. split; [constructor|lia].
  - pose proof (len_nonneg l). assert (E : q (sb_prepend b l) = l ++ q b) by reflexivity.
    rewrite E, len_app. unfold sb_prepend. cbn [segs]. rewrite len_cons. split; [constructor|lia].
  - unfold sb_remove. unfold sb_size. cbn [snd].
    rewrite available_ok by (rewrite ?q_mk, ?drop_empty_concat; fold (q b); lia).
    rewrite ?q_mk. cbn [segs splitter]. rewrite drop_empty_concat, drop_empty_idem. fold (q b).
    pose proof (drop_empty_len (segs b)).
    destruct ((n <=? len (q b)) && (0 <? len (q b))) eqn:E; cbn [negb].
    + pose proof (remove_loop_ok (drop_empty (segs b)) 0 n) as R. rewrite drop_empty_concat in R. fold (q b) in R.
      specialize (R ltac:(lia)). destruct (remove_loop _ _ _) as [ret d]. cbn [fst snd] in *.
      rewrite ?q_mk. cbn [segs]. destruct R as [-> [R2 R3]]. rewrite R2, R3, Z.sub_0_r.
      rewrite len_dropz by lia. split; [constructor; lia|lia].
    + cbn [fst snd]. rewrite ?q_mk. cbn [segs]. rewrite drop_empty_concat. fold (q b). split; [|lia].
      destruct (Z_lt_ge_dec (len (q b)) n) as [H1|H1]; [now constructor|].
      assert (n = 0) as -> by lia. rewrite (len_zero (q b)) by lia. exact (q_remove [] 0 ltac:(cbn; lia)).
  - unfold sb_copy. unfold sb_size. cbn [snd].
    rewrite available_ok by (rewrite ?q_mk, ?drop_empty_concat; fold (q b); lia).
    rewrite ?q_mk. cbn [segs splitter]. rewrite drop_empty_concat, drop_empty_idem. fold (q b).
    pose proof (drop_empty_len (segs b)).
    destruct ((n <=? len (q b)) && (0 <? len (q b))) eqn:E; cbn [negb fst snd];
      rewrite ?q_mk; cbn [segs]; rewrite ?drop_empty_concat; fold (q b); (split; [|lia]).
    + rewrite copy_loop_ok by (rewrite ?drop_empty_concat; fold (q b); lia).
      rewrite drop_empty_concat, Z.sub_0_r. fold (q b). constructor. lia.
    + destruct (Z_lt_ge_dec (len (q b)) n) as [H1|H1]; [now constructor|].
      assert (n = 0) as -> by lia. rewrite (len_zero (q b)) by lia. exact (q_copy [] 0 ltac:(cbn; lia)).
  - unfold sb_copyp. rewrite copyp_loop_ok by lia. rewrite Z.sub_0_r. fold (q b). split; [constructor|lia].
  - unfold sb_skip. rewrite ?q_mk. cbn [segs]. destruct (skip_loop_ok (segs b) 0 n ltac:(lia)) as [S1 S2].
    rewrite S1, Z.sub_0_r. fold (q b).
    assert (len (dropz n (q b)) <= len (q b)) by (unfold len, dropz; rewrite skipn_length; lia).
    split; [constructor|lia].
  - unfold sb_clear. rewrite ?q_mk. cbn [segs concat]. lnil. split; [constructor|lia].
  - pose proof (compact_ok b) as [C1 C2]. destruct (sb_compact b) as [r b']. cbn [fst snd] in *. rewrite C1.
    split; [constructor|lia].
  - unfold sb_get_clear, sb_get, sb_size. cbn [snd segs splitter].
    pose proof (drop_empty_len (segs b)). pose proof (drop_empty_concat (segs b)) as DC. fold (q b) in DC.
    pose proof (drop_empty_hd (segs b)) as DH.
    destruct (drop_empty (segs b)) as [|s r] eqn:E; cbn [hd fst snd].
    + rewrite ?q_mk. cbn [segs concat]. lnil. split; [|lia]. cbn in DC. apply (q_next _ [] []); auto.
    + specialize (DH s r eq_refl). rewrite ?q_mk. cbn [segs concat app]. rewrite !len_cons in *.
      cbn [concat] in DC. rewrite <- DC. rewrite len_app. pose proof (len_nonneg s).
      split; [apply (q_next _ s (concat r)); [reflexivity|congruence]|lia].
  - unfold sb_get, sb_size. cbn [snd segs splitter].
    pose proof (drop_empty_len (segs b)). pose proof (drop_empty_concat (segs b)) as DC. fold (q b) in DC.
    pose proof (drop_empty_hd (segs b)) as DH.
    assert (Eq : q (mksb (drop_empty (segs b)) (splitter b)) = q b) by exact DC.
    cbn [fst snd]. rewrite Eq. cbn [segs]. split; [|lia].
    destruct (drop_empty (segs b)) as [|s r] eqn:E; cbn [hd].
    + cbn in DC. apply (q_peek _ [] []); [now rewrite <- DC|auto].
    + specialize (DH s r eq_refl). apply (q_peek _ s (concat r)); [now rewrite <- DC|congruence].
  - rewrite ?q_mk. cbn [segs]. fold (q b). split; [constructor|lia].
  - rewrite available_ok by lia. cbn [fst snd]. pose proof (drop_empty_len (segs b)).
    assert (Eq : q (mksb (drop_empty (segs b)) (splitter b)) = q b) by apply drop_empty_concat.
    rewrite Eq. cbn [segs]. split; [constructor|lia].
  - unfold sb_bytes. rewrite bytes_loop_ok by (rewrite ?concat_rev_len; fold (q b); lia).
    rewrite concat_rev_len. fold (q b). rewrite Z.add_0_l. split; [constructor|lia].
  - unfold sb_size. cbn [fst snd].
    pose proof (drop_empty_len (segs b)). pose proof (len_nonneg (drop_empty (segs b))).
    assert (Eq : q (mksb (drop_empty (segs b)) (splitter b)) = q b) by apply drop_empty_concat.
    rewrite Eq. cbn [segs]. split; [|lia]. constructor. rewrite u32_id by lia. unfold q.
    rewrite <- drop_empty_nil. destruct (drop_empty (segs b)); [now split|].
    rewrite len_cons in *. split; [|discriminate]. pose proof (len_nonneg l0). lia.
Qed.

Lemma run_ok ops b : Forall op_ok ops -> len (q b) + len (segs b) + 2 * total_in ops + len ops < 2 ^ 32 ->
  queue_run (q b) ops (run b ops).
Proof.
  revert b. induction ops as [|o r IH]; intros b Ho Hl; [constructor|].
  apply Forall_cons_iff in Ho as [Ho Hr]. cbn [total_in fold_right] in Hl. fold (total_in r) in Hl. rewrite len_cons in Hl.
  assert (Hn : 0 <= bytes_in o) by (destruct o; cbn; try lia; apply len_nonneg).
  assert (Ht : 0 <= total_in r).
  { clear. induction r as [|o r IH]; [cbn; lia|]. cbn [total_in fold_right]. fold (total_in r).
    assert (0 <= bytes_in o) by (destruct o; cbn; try lia; apply len_nonneg). lia. }
  pose proof (len_nonneg r). pose proof (len_nonneg (q b)). pose proof (len_nonneg (segs b)).
  destruct (step_ok b o Ho ltac:(lia)) as [S1 [S2 S3]].
  cbn [run]. destruct (step b o) as [x b'] eqn:E. cbn [fst snd] in *.
  econstructor; [exact S1|]. apply IH; [exact Hr|lia].
Qed.

(** ** Splitting *)
Lemma contents_ok b : len (q b) < 2 ^ 32 -> contents b = q b.
Proof.
  intros H. unfold contents, sb_copyp. rewrite copyp_loop_ok by lia. apply takez_all. unfold q in *. lia.
Qed.
Lemma ends_with_tail sp p : ends_with sp p <-> len sp <= len p /\ dropz (len p - len sp) p = sp.
Proof.
  split.
  - intros [a ->]. rewrite len_app. pose proof (len_nonneg a). split; [lia|]. apply dropz_app_exact. lia.
  - intros [H1 H2]. exists (takez (len p - len sp) p). rewrite <- H2 at 2. symmetry. apply takez_dropz.
Qed.
Lemma dropz_takez {A} a b (l : list A) : 0 <= a -> 0 <= b -> dropz a (takez (a + b) l) = takez b (dropz a l).
Proof.
  intros Ha Hb. unfold dropz, takez. rewrite Z2Nat.inj_add by lia.
  revert l. generalize (Z.to_nat a) as n. intros n. induction n as [|n IH]; intros l; [reflexivity|].
  destruct l; [cbn; now rewrite firstn_nil|]. cbn. apply IH.
Qed.
Lemma ends_with_take sp l j : 0 <= j <= len l -> 
  (ends_with sp (takez j l) <-> len sp <= j /\ takez (len sp) (dropz (j - len sp) l) = sp).
Proof.
  intros Hj. rewrite ends_with_tail, len_takez by lia.
  pose proof (len_nonneg sp).
  assert (E : len sp <= j -> dropz (j - len sp) (takez j l) = takez (len sp) (dropz (j - len sp) l)).
  { intros Hs. rewrite <- dropz_takez by lia. do 2 f_equal. lia. }
  split; intros [H1 H2]; (split; [exact H1|]); [rewrite <- E by exact H1|rewrite E by exact H1]; exact H2.
Qed.

Lemma split_loop_sound sp d i n : 0 <= i -> i + len (concat d) < 2 ^ 32 -> split_loop sp d i = n -> n <> 0 ->
  i <= n <= i + len (concat d) /\ ends_with sp (takez (n - i) (concat d)).
Proof.
  revert i. induction d as [|s r IH]; intros i Hi Ht Hn H0; [cbn in Hn; lia|].
  cbn [split_loop concat] in *. rewrite len_app in *. pose proof (len_nonneg s). pose proof (len_nonneg (concat r)).
  rewrite u32_id in Hn by lia.
  destruct ((len s >=? len sp) && beqb (dropz (len s - len sp) s) sp) eqn:E.
  - split; [lia|]. subst n. replace (i + len s - i) with (len s) by lia. rewrite takez_app_exact by reflexivity.
    apply andb_prop in E as [E1 E2]. apply beqb_eq in E2. apply ends_with_tail. split; [lia|exact E2].
  - destruct (IH (i + len s) ltac:(lia) ltac:(lia) Hn H0) as [B1 [a B2]]. split; [lia|].
    rewrite takez_app_ge by lia. replace (n - i - len s) with (n - (i + len s)) by lia. rewrite B2.
    exists (s ++ a). now rewrite app_assoc.
Qed.

(** Parts that contain the one byte separator at most at their end. *)
Definition part_ok (c : Z) (s : list Z) : Prop := forall i, 0 <= i < len s - 1 -> nthz s i <> c.

Lemma ends_with_1 c p : ends_with [c] p <-> 0 < len p /\ nthz p (len p - 1) = c.
Proof.
  split.
  - intros [a ->]. lens. pose proof (len_nonneg a). split; [lia|]. rewrite nthz_app2 by lia.
    replace (len a + (1 + 0) - 1 - len a) with 0 by lia. reflexivity.
  - intros [H1 H2]. apply ends_with_tail. change (len [c]) with 1. split; [lia|].
    assert (L : len (dropz (len p - 1) p) = 1) by (rewrite len_dropz; lia).
    pose proof (nthz_dropz p 0 (len p - 1) ltac:(lia) ltac:(lia)) as N. rewrite Z.add_0_r, H2 in N.
    destruct (dropz (len p - 1) p) as [|x [|y t]]; lens.
    + lia.
    + now cbn in N; subst.
    + pose proof (len_nonneg t). lia.
Qed.
Lemma ends_with_1_take c l m : 0 < m <= len l -> (ends_with [c] (takez m l) <-> nthz l (m - 1) = c).
Proof.
  intros Hm. rewrite ends_with_1, len_takez by lia. rewrite nthz_takez by lia. split; [tauto|]. split; [lia|assumption].
Qed.

Lemma split_loop_1 c d i : 0 <= i -> i + len (concat d) < 2 ^ 32 -> Forall (part_ok c) d ->
  (split_loop [c] d i = 0 /\ forall k, 0 <= k < len (concat d) -> nthz (concat d) k <> c) \/
  (exists k, 0 <= k < len (concat d) /\ split_loop [c] d i = i + k + 1 /\ nthz (concat d) k = c /\
     forall k', 0 <= k' < k -> nthz (concat d) k' <> c).
Proof.
  revert i. induction d as [|s r IH]; intros i Hi Ht Hp.
  - left. split; [reflexivity|]. cbn [concat]. lnil. lia.
  - apply Forall_cons_iff in Hp as [Hs Hr]. cbn [split_loop concat] in *. rewrite len_app in *.
    pose proof (len_nonneg s) as Ls. pose proof (len_nonneg (concat r)). rewrite u32_id by lia.
    destruct ((len s >=? len [c]) && beqb (dropz (len s - len [c]) s) [c]) eqn:E.
    + right. apply andb_prop in E as [E1 E2]. apply beqb_eq in E2.
      assert (W : ends_with [c] s) by (apply ends_with_tail; split; [lia|exact E2]).
      apply ends_with_1 in W as [W1 W2]. exists (len s - 1). repeat split; try lia.
      * now rewrite nthz_app1 by lia.
      * intros k Hk. rewrite nthz_app1 by lia. apply Hs. lia.
    + assert (Hno : forall k, 0 <= k < len s -> nthz s k <> c).
      { intros k Hk Hc. destruct (Z.eq_dec k (len s - 1)) as [->|Hne]; [|apply (Hs k); [lia|exact Hc]].
        assert (W : ends_with [c] s) by (apply ends_with_1; split; [lia|exact Hc]).
        apply ends_with_tail in W as [W1 W2]. rewrite W2, beqb_refl in E. lia. }
      destruct (IH (i + len s) ltac:(lia) ltac:(lia) Hr) as [[H1 H2]|[k [H1 [H2 [H3 H4]]]]].
      * left. split; [exact H1|]. intros k Hk. destruct (Z_lt_ge_dec k (len s)).
        -- rewrite nthz_app1 by lia. apply Hno. lia.
        -- rewrite nthz_app2 by lia. apply H2. lia.
      * right. exists (len s + k). repeat split; try lia.
        -- rewrite nthz_app2 by lia. rewrite <- H3. f_equal. lia.
        -- intros k' Hk'. destruct (Z_lt_ge_dec k' (len s)).
           ++ rewrite nthz_app1 by lia. apply Hno. lia.
           ++ rewrite nthz_app2 by lia. apply H4. lia.
Qed.

Lemma scan_loop_first fuel sp l j : 0 <= j <= len l ->
  (forall m, 0 < m <= j -> ~ ends_with sp (takez m l)) ->
  forall m, 0 < m < scan_loop fuel sp l j -> ~ ends_with sp (takez m l).
Proof.
  revert j. induction fuel as [|k IH]; intros j Hj Hno m Hm.
  - cbn in Hm. apply Hno. lia.
  - cbn [scan_loop] in Hm. destruct ((j <? len l) && (j <? BLOCKSIZE)) eqn:E; [|apply Hno; lia].
    destruct ((j + 1 >=? len sp) && beqb (takez (len sp) (dropz (j + 1 - len sp) l)) sp) eqn:E2.
    + apply Hno. lia.
    + apply (IH (j + 1)); [lia| |exact Hm]. intros m' Hm'. destruct (Z.eq_dec m' (j + 1)) as [->|]; [|apply Hno; lia].
      intros W. apply ends_with_take in W as [W1 W2]; [|lia]. rewrite W2, beqb_refl in E2. lia.
Qed.
Lemma next_part_ok c l : 0 < len l -> part_ok c (takez (next_part [c] l) l).
Proof.
  intros Hl i Hi. pose proof (next_part_bounds [c] l Hl) as Hb. rewrite len_takez in Hi by lia.
  rewrite nthz_takez by lia. unfold next_part in *. change (len [c] =? 0) with false in *. cbv iota in *.
  intros Hc. apply (scan_loop_first (List.length l) [c] l 0 ltac:(lia) ltac:(lia) (i + 1) ltac:(lia)).
  apply ends_with_1_take; [lia|]. rewrite <- Hc. f_equal. lia.
Qed.
Lemma cut_part_ok fuel c l : Forall (part_ok c) (cut fuel [c] l).
Proof.
  revert l. induction fuel as [|k IH]; intros l; [constructor|]. cbn [cut].
  destruct (0 <? len l) eqn:E; [|constructor]. destruct (_ =? 0); [constructor|].
  constructor; [apply next_part_ok; lia|apply IH].
Qed.
Lemma part_ok_drop c s n : part_ok c s -> part_ok c (dropz n s).
Proof.
  intros H i Hi. destruct (Z_lt_ge_dec n 0) as [Hn|Hn]; [rewrite dropz_nonpos in * by lia; now apply H|].
  destruct (Z_lt_ge_dec (len s) n) as [H1|H1]; [rewrite dropz_all in Hi by lia; lnil; lia|].
  rewrite len_dropz in Hi by lia. rewrite nthz_dropz by lia. apply H. lia.
Qed.
Lemma part_ok_nil c : part_ok c []. Proof. intros i Hi. lnil. lia. Qed.
Lemma drop_empty_parts c d : Forall (part_ok c) d -> Forall (part_ok c) (drop_empty d).
Proof. induction 1 as [|s r Hs Hr IH]; [constructor|]. destruct s; [exact IH|now constructor]. Qed.
Lemma skip_loop_parts c d i n : Forall (part_ok c) d -> Forall (part_ok c) (skip_loop d i n).
Proof.
  intros H. revert i. induction H as [|s r Hs Hr IH]; intros i; [constructor|]. cbn [skip_loop].
  destruct (_ <=? _); [apply IH|]. constructor; [now apply part_ok_drop|exact Hr].
Qed.
Lemma remove_loop_parts c d i n : Forall (part_ok c) d -> Forall (part_ok c) (snd (remove_loop d i n)).
Proof.
  intros H. revert i. induction H as [|s r Hs Hr IH]; intros i; [constructor|]. cbn [remove_loop].
  destruct (_ <? _).
  - specialize (IH (i + len s)). destruct (remove_loop r (i + len s) n). cbn [snd] in *.
    constructor; [apply part_ok_nil|exact IH].
  - cbn [snd]. constructor; [now apply part_ok_drop|exact Hr].
Qed.
Lemma step_parts c b o : stream_op o -> splitter b = [c] -> Forall (part_ok c) (segs b) ->
  splitter (snd (step b o)) = [c] /\ Forall (part_ok c) (segs (snd (step b o))).
Proof.
  intros Ho Hsp Hp. pose proof (drop_empty_parts c _ Hp) as Hd.
  destruct o as [l|l|n|n|n|n| | | | |l|n|m|]; cbn [stream_op step] in *; try contradiction.
  - unfold sb_append. cbn [snd segs splitter]. split; [exact Hsp|]. rewrite Hsp. apply Forall_app. split; [exact Hp|apply cut_part_ok].
  - unfold sb_remove, sb_available, sb_size. cbn [snd segs splitter].
    destruct (negb _); [split; [exact Hsp|cbn [snd segs]; now apply drop_empty_parts]|].
    pose proof (remove_loop_parts c (drop_empty (drop_empty (segs b))) 0 n (drop_empty_parts _ _ Hd)) as R.
    destruct (remove_loop _ _ _). cbn [snd segs splitter] in *. now split.
  - unfold sb_copy, sb_available, sb_size. cbn [snd segs splitter].
    destruct (negb _); cbn [snd segs splitter]; (split; [exact Hsp|now apply drop_empty_parts]).
  - now split.
  - unfold sb_skip. cbn [snd segs splitter]. split; [exact Hsp|now apply skip_loop_parts].
  - unfold sb_clear. cbn [snd segs splitter]. split; [exact Hsp|constructor].
  - unfold sb_get_clear, sb_get, sb_size. cbn [snd segs splitter].
    destruct (drop_empty (segs b)) as [|s r]; cbn [snd segs splitter]; (split; [exact Hsp|]); [constructor|].
    apply Forall_cons_iff in Hd as [_ Hd]. constructor; [apply part_ok_nil|exact Hd].
  - unfold sb_get, sb_size. cbn [snd segs splitter]. now split.
  - unfold sb_available, sb_size. cbn [snd segs splitter]. now split.
  - now split.
  - unfold sb_size. cbn [snd segs splitter]. now split.
Qed.
Lemma total_in_nonneg r : 0 <= total_in r.
Proof.
  induction r as [|o r IH]; [cbn; lia|]. cbn [total_in fold_right]. fold (total_in r).
  assert (0 <= bytes_in o) by (destruct o; cbn; try lia; apply len_nonneg). lia.
Qed.
Lemma exec_inv c ops b : Forall op_ok ops -> Forall stream_op ops -> splitter b = [c] -> Forall (part_ok c) (segs b) ->
  len (q b) + len (segs b) + 2 * total_in ops + len ops < 2 ^ 32 ->
  splitter (exec b ops) = [c] /\ Forall (part_ok c) (segs (exec b ops)) /\ len (q (exec b ops)) < 2 ^ 32.
Proof.
  revert b. induction ops as [|o r IH]; intros b Ho Hs Hsp Hp Hl.
  - cbn. repeat split; try assumption. pose proof (len_nonneg (segs b)). cbn in Hl. lens. lia.
  - apply Forall_cons_iff in Ho as [Ho Hr]. apply Forall_cons_iff in Hs as [Hs Hsr].
    cbn [total_in fold_right] in Hl. fold (total_in r) in Hl. rewrite len_cons in Hl.
    assert (Hn : 0 <= bytes_in o) by (destruct o; cbn; try lia; apply len_nonneg).
    pose proof (total_in_nonneg r). pose proof (len_nonneg r). pose proof (len_nonneg (q b)). pose proof (len_nonneg (segs b)).
    destruct (step_ok b o Ho ltac:(lia)) as [_ [S2 S3]]. destruct (step_parts c b o Hs Hsp Hp) as [P1 P2].
    cbn [exec fold_left]. apply (IH (snd (step b o))); try assumption. lia.
Qed.
Lemma split_history c ops : Forall op_ok ops -> Forall stream_op ops -> 2 * total_in ops + len ops < 2 ^ 32 ->
  let b := exec (mksb [] [c]) ops in shortest_split [c] (contents b) (sb_bytesToSplit b).
Proof.
  intros Ho Hs Hl b.
  destruct (exec_inv c ops (mksb [] [c]) Ho Hs eq_refl (Forall_nil _)) as [I1 [I2 I3]].
  { rewrite q_mk. cbn [concat segs]. lnil. lia. }
  fold b in I1, I2, I3. rewrite contents_ok by exact I3. unfold sb_bytesToSplit. rewrite I1.
  destruct (split_loop_1 c (segs b) 0 ltac:(lia) I3 I2) as [[H1 H2]|[k [H1 [H2 [H3 H4]]]]]; fold (q b) in *.
  - right. split; [exact H1|]. intros m Hm W. apply ends_with_1_take in W; [|lia]. apply (H2 (m - 1)); [lia|exact W].
  - left. rewrite H2. replace (0 + k + 1) with (k + 1) by lia. repeat split; try lia.
    + apply ends_with_1_take; [lia|]. replace (k + 1 - 1) with k by lia. exact H3.
    + intros m Hm W. apply ends_with_1_take in W; [|lia]. apply (H4 (m - 1)); [lia|exact W].
Qed.

(** Any separator, data in one append, first separator within the first block. *)
Lemma scan_loop_hit fuel sp l j n : (Z.to_nat (n - j) <= fuel)%nat -> 0 <= j < n -> n <= len l -> n <= BLOCKSIZE ->
  ends_with sp (takez n l) -> (forall m, 0 < m < n -> ~ ends_with sp (takez m l)) -> scan_loop fuel sp l j = n.
Proof.
  revert j. induction fuel as [|k IH]; intros j Hf Hj Hn Hb W Hno; [lia|].
  cbn [scan_loop]. replace ((j <? len l) && (j <? BLOCKSIZE)) with true by lia.
  destruct (Z.eq_dec (j + 1) n) as [E|E].
  - rewrite E. apply ends_with_take in W as [W1 W2]; [|lia]. rewrite W2, beqb_refl. now replace (n >=? len sp) with true by lia.
  - destruct ((j + 1 >=? len sp) && beqb (takez (len sp) (dropz (j + 1 - len sp) l)) sp) eqn:E2.
    + exfalso. apply (Hno (j + 1)); [lia|]. apply andb_prop in E2 as [E2 E3]. apply beqb_eq in E3.
      apply ends_with_take; [lia|]. split; [lia|exact E3].
    + apply IH; try assumption; lia.
Qed.
Lemma split_one_append sp l n : sp <> [] -> len l < 2 ^ 32 -> 0 < n <= 4096 -> shortest_split sp l n ->
  sb_bytesToSplit (sb_append (mksb [] sp) l) = n.
Proof.
  intros Hsp Hl Hn [[H1 [H2 H3]]|[H1 _]]; [|lia]. unfold sb_bytesToSplit, sb_append. cbn [segs splitter app].
  pose proof (len_pos sp Hsp) as Lsp.
  assert (Ef : exists f, List.length l = S f) by (exists (List.length l - 1)%nat; unfold len in *; lia).
  destruct Ef as [f Ef]. rewrite Ef at 1. cbn [cut]. replace (0 <? len l) with true by lia.
  assert (En : next_part sp l = n).
  { unfold next_part. replace (len sp =? 0) with false by lia. apply scan_loop_hit; try assumption; unfold BLOCKSIZE, len in *; lia. }
  rewrite En. replace (n =? 0) with false by lia. cbn [split_loop].
  pose proof H2 as W. apply ends_with_tail in W as [W1 W2]. rewrite W2, beqb_refl.
  rewrite len_takez in * by lia. replace (n >=? len sp) with true by lia. cbn [andb]. rewrite u32_id; lia.
Qed.
