From Verif Require Import Common CommonFacts Mem_Model Mem_Proofs Crc_Model Ogg_Model Ogg_Spec.
Local Ltac Zify.zify_post_hook ::= Z.div_mod_to_equations.

Definition laces (n : Z) : list Z := repeat 255 (Z.to_nat (n / 255)) ++ [n mod 255].
Definition lacing (l : list segment) : Z := fold_right (fun s a => len (g_data s) / 255 + 1 + a) 0 l.
Definition tables (l : list segment) : list Z := List.concat (map (fun s => laces (len (g_data s))) l).
Definition datas (l : list segment) : list Z := List.concat (map g_data l).
Lemma lacing_app a b : lacing (a ++ b) = lacing a + lacing b.
Proof. induction a as [|s a IH]; cbn -[len]; [reflexivity|]. fold (lacing (a ++ b)) (lacing a). lia. Qed.
Lemma lacing_nonneg l : 0 <= lacing l.
Proof. induction l as [|s l IH]; cbn -[len]; [lia|]. fold (lacing l). pose proof (len_nonneg (g_data s)). lia. Qed.

Lemma lace_app l s idx : 0 <= idx -> idx + lacing l <= 255 ->
  lace (l ++ [s]) idx = (tables l ++ fst (lace [s] (idx + lacing l)), snd (lace [s] (idx + lacing l))).
Proof.
  revert idx; induction l as [|a l IH]; intros idx Hi Hl.
  - cbn [app lacing fold_right tables map List.concat]. rewrite Z.add_0_r. destruct (lace [s] idx); reflexivity.
  - cbn [lacing fold_right] in Hl. fold (lacing l) in Hl. pose proof (lacing_nonneg l). pose proof (len_nonneg (g_data a)).
    change ((a :: l) ++ [s]) with (a :: (l ++ [s])). cbn [lace].
    assert (len (g_data a) / 255 + idx + 1 <=? 255 = true) as -> by (apply Z.leb_le; lia).
    rewrite IH by lia. cbn [fst snd]. cbn [lacing fold_right tables map List.concat]. fold (lacing l) (tables l).
    replace (idx + len (g_data a) / 255 + 1 + lacing l) with (idx + (len (g_data a) / 255 + 1 + lacing l)) by lia.
    unfold laces. rewrite <- !app_assoc. reflexivity.
Qed.
Lemma bodies_app l s r : bodies (l ++ [s]) r = (x <- bodies [s] r;; Some (datas l ++ fst x, snd x)).
Proof.
  induction l as [|a l IH].
  - cbn [app datas map List.concat]. destruct (bodies [s] r) as [[x y]|]; reflexivity.
  - change ((a :: l) ++ [s]) with (a :: (l ++ [s])). destruct (l ++ [s]) as [|b m] eqn:E; [destruct l; discriminate E|].
    change (bodies (a :: b :: m) r) with (x <- bodies (b :: m) r;; Some (g_data a ++ fst x, snd x)). rewrite IH.
    destruct (bodies [s] r) as [[x y]|]; [|reflexivity]. cbn [fst snd datas map List.concat]. rewrite <- app_assoc. reflexivity.
Qed.

(** *** Reading tables *)
Lemma takez_app_le k (a b : list Z) : k <= len a -> takez k (a ++ b) = takez k a.
Proof. intros H. unfold takez, len in *. rewrite firstn_app. replace (Z.to_nat k - List.length a)%nat with 0%nat by lia. cbn [firstn]. apply app_nil_r. Qed.
Lemma dropz_app_le k (a b : list Z) : k <= len a -> dropz k (a ++ b) = dropz k a ++ b.
Proof. intros H. unfold dropz, len in *. rewrite skipn_app. replace (Z.to_nat k - List.length a)%nat with 0%nat by lia. reflexivity. Qed.
Lemma unlace_full k : forall open d t b, len d = 255 * Z.of_nat k -> unlace open (repeat 255 k ++ t) (d ++ b) = unlace (open ++ d) t b.
Proof.
  induction k as [|k IH]; intros open d t b H.
  - destruct d; [|rewrite len_cons in H; pose proof (len_nonneg d); lia]. rewrite app_nil_r. reflexivity.
  - cbn [repeat app unlace]. change (255 <? 255) with false. cbv iota.
    rewrite takez_app_le, dropz_app_le by lia. rewrite IH by (rewrite len_dropz by lia; lia).
    rewrite <- app_assoc, takez_dropz. reflexivity.
Qed.
Lemma unlace_laces open d t b : unlace open (laces (len d) ++ t) (d ++ b) = ((open ++ d) :: fst (unlace [] t b), snd (unlace [] t b)).
Proof.
  unfold laces. rewrite <- app_assoc. pose proof (len_nonneg d) as Hn.
  rewrite <- (takez_dropz (255 * (len d / 255)) d) at 3. rewrite <- app_assoc.
  rewrite unlace_full by (rewrite len_takez by lia; lia).
  cbn [app unlace]. assert (len d mod 255 <? 255 = true) as -> by (apply Z.ltb_lt; lia).
  assert (Hd : len (dropz (255 * (len d / 255)) d) = len d mod 255) by (rewrite len_dropz by lia; lia).
  rewrite takez_app_exact, dropz_app_exact by (symmetry; exact Hd). rewrite <- app_assoc, takez_dropz. reflexivity.
Qed.

(** What is to do, from what is open and what is buffered. *)
Definition tod (o : list Z) (l : list segment) : list (list Z * Z) :=
  match l with [] => [] | s :: l => (o ++ g_data s, g_gran s) :: map (fun s => (g_data s, g_gran s)) l end.
Definition og (o : list Z) (l : list segment) : list Z := match l with [] => o | _ => [] end.
Lemma tod_app o l m : tod o (l ++ m) = tod o l ++ tod (og o l) m.
Proof.
  destruct l as [|a l]; [reflexivity|]. cbn [app tod og]. rewrite map_app. f_equal. f_equal. destruct m as [|b m]; [reflexivity|]. reflexivity.
Qed.
Lemma unlace_tables l : forall o t b,
  unlace o (tables l ++ t) (datas l ++ b) = (map fst (tod o l) ++ fst (unlace (og o l) t b), snd (unlace (og o l) t b)).
Proof.
  induction l as [|a l IH]; intros o t b.
  - cbn. destruct (unlace o t b); reflexivity.
  - cbn [tables datas map List.concat]. rewrite <- !app_assoc. fold (tables l) (datas l). rewrite unlace_laces, IH. cbn [fst snd tod og map app].
    replace (og [] l) with (@nil Z) by (destruct l; reflexivity). f_equal. f_equal. f_equal. destruct l as [|c l]; reflexivity.
Qed.

(** *** Sizes *)
Definition suml (l : list Z) : Z := fold_right Z.add 0 l.
Lemma suml_app a b : suml (a ++ b) = suml a + suml b.
Proof. induction a as [|x a IH]; cbn; [reflexivity|]. unfold suml in *. lia. Qed.
Lemma suml_repeat k : suml (repeat 255 k) = 255 * Z.of_nat k.
Proof. induction k as [|k IH]; [reflexivity|]. cbn [repeat suml fold_right]. fold (suml (repeat 255 k)). lia. Qed.
Lemma len_repeat (x : Z) k : len (repeat x k) = Z.of_nat k.
Proof. unfold len. rewrite repeat_length. reflexivity. Qed.
Lemma laces_sum n : 0 <= n -> suml (laces n) = n.
Proof. intros H. unfold laces. rewrite suml_app, suml_repeat. change (suml [n mod 255]) with (n mod 255 + 0). lia. Qed.
Lemma laces_len n : 0 <= n -> len (laces n) = n / 255 + 1.
Proof. intros H. unfold laces. rewrite len_app, len_repeat. change (len [n mod 255]) with 1. lia. Qed.
Lemma repeat_bytes k : Forall byteP (repeat 255 k).
Proof. induction k; constructor; [unfold byteP; lia|assumption]. Qed.
Lemma laces_bytes n : 0 <= n -> Forall byteP (laces n).
Proof. intros H. unfold laces. apply Forall_app; split; [apply repeat_bytes|]. constructor; [|constructor]. unfold byteP. lia. Qed.
Lemma tables_facts l : len (tables l) = lacing l /\ suml (tables l) = len (datas l) /\ Forall byteP (tables l).
Proof.
  induction l as [|a l [A [B C]]]; [repeat split; constructor|].
  cbn [tables datas map List.concat lacing fold_right]. fold (tables l) (datas l) (lacing l). pose proof (len_nonneg (g_data a)).
  rewrite !len_app, suml_app, laces_sum, laces_len by lia. repeat split; try lia. apply Forall_app; split; [apply laces_bytes; lia|exact C].
Qed.

(** *** A page *)
Definition fine (n : Z) : Prop := n mod 255 <> 0 \/ n = 0.
Definition small (x : list Z * Z) : Prop := fine (len (fst x)) /\ 0 <= snd x < 2 ^ 31.
Record inv (p : page) (n : Z) (o : list Z) : Prop := {
  i_number : p_number p = u32 n;
  i_open : len o mod 255 = 0;
  i_none : p_segs p = [] -> o = [];
  i_small : Forall small (tod o (p_segs p)) }.

Definition cont (p : page) (o : list Z) : Prop := p_type p = match o with [] => 0 | _ => 1 end.

Lemma le_mod k x : le k (x mod 256 ^ Z.of_nat k) = le k x.
Proof. unfold le. f_equal. apply be_mod. Qed.

Lemma nth_last (l : list segment) s d : nth (Z.to_nat (len (l ++ [s]) - 1)) (l ++ [s]) d = s.
Proof. unfold len. rewrite app_length. cbn [List.length]. rewrite app_nth2 by lia. replace (Z.to_nat _ - _)%nat with 0%nat by lia. reflexivity. Qed.

Lemma last_tod o l s d : List.last (map snd (tod o (l ++ [s]))) d = g_gran s.
Proof. rewrite tod_app, map_app. destruct l; cbn [tod og map]; apply List.last_last. Qed.

Lemma le_granule g : 0 <= g < 2 ^ 31 -> s32 g = g.
Proof. intros H. unfold s32, u32. cbv zeta. rewrite (Z.mod_small g) by lia. destruct (_ <? _) eqn:E; [lia|apply Z.ltb_ge in E; lia]. Qed.

(** One page. *)
Lemma sendTo_ok p n o l s forced : inv p n o -> p_segs p = l ++ [s] -> lacing l < 255 ->
  (match forced with Some g => Forall (fun x => snd x = g) (tod o (p_segs p)) /\ lacing (p_segs p) <= 255 | None => True end) ->
  exists p' pg ended o', sendTo p forced = Some (p', encode pg) /\
    tod o (p_segs p) = ended ++ tod o' (p_segs p') /\
    well_formed pg /\ o_serial pg = p_serial p /\ o_number pg = u32 n /\ o_flags pg = p_type p /\
    unlace o (o_table pg) (o_body pg) = (map fst ended, o') /\ o_granule pg = List.last (map snd ended) no_granule /\
    inv p' (n + 1) o' /\ cont p' o' /\ p_serial p' = p_serial p /\
    (p_segs p' = [] \/ exists r, p_segs p' = [r] /\ len (g_data r) < len (g_data s)) /\ (lacing (p_segs p) <= 255 -> p_segs p' = [] /\ p_type p' = 0).
Proof.
  intros I E L F. destruct I as [I1 I3 I4 I5]. unfold sendTo. rewrite E in *.
  destruct (l ++ [s]) as [|x0 m0] eqn:EE; [destruct l; discriminate EE|]. rewrite <- EE in *. clear x0 m0 EE.
  pose proof (lacing_nonneg l) as Ln. rewrite lace_app by lia. rewrite Z.add_0_l. rewrite bodies_app.
  destruct (tables_facts l) as [T1 [T2 T3]]. pose proof (len_nonneg (g_data s)) as Hs.
  rewrite lacing_app in *. cbn [lacing fold_right] in *. fold (lacing l) in *.
  cbn [lace]. destruct (Z.leb_spec (len (g_data s) / 255 + lacing l + 1) 255) as [Fit|Fit]; cbn [fst snd].
  - (* it fits *)
    cbn [bodies]. change (0 =? 0) with true. cbv iota. cbn [fst snd].
    change (repeat 255 (Z.to_nat (len (g_data s) / 255)) ++ [len (g_data s) mod 255] ++ []) with (laces (len (g_data s))).
    set (table := tables l ++ laces (len (g_data s))).
    assert (HT : len table = lacing l + (len (g_data s) / 255 + 1)) by (unfold table; rewrite len_app, laces_len; lia).
    assert (Hu : u8 (len table) = len table) by (unfold u8; apply Z.mod_small; lia). rewrite Hu.
    set (body := datas l ++ g_data s). set (crc := crc32c _ body).
    exists (mkpage 0 (p_serial p) (u32 (p_number p + 1)) []),
      (mkopage (p_type p) (granules (l ++ [s]) 0 forced mod 256 ^ Z.of_nat 8) (p_serial p) (p_number p) crc table body), (tod o (l ++ [s])), [].
    split; [unfold encode, encode_with; cbn [o_flags o_granule o_serial o_number o_crc o_table o_body]; rewrite le_mod, <- !app_assoc; reflexivity|].
    split; [cbn [p_segs tod]; rewrite app_nil_r; reflexivity|].
    split. { unfold well_formed; cbn [o_table o_body]. repeat split; [lia|unfold table; apply Forall_app; split; [exact T3|apply laces_bytes; lia]|].
      unfold table, body. fold (suml (tables l ++ laces (len (g_data s)))). rewrite suml_app, laces_sum, len_app by lia. lia. }
    split; [reflexivity|]. split; [exact I1|]. split; [reflexivity|].
    split. { cbn [o_table o_body]. unfold table, body. rewrite unlace_tables.
      rewrite <- (app_nil_r (laces (len (g_data s)))), <- (app_nil_r (g_data s)) at 1 2. rewrite <- (app_nil_r (g_data s)) at 1.
      rewrite !app_nil_r.
      pose proof (unlace_laces (og o l) (g_data s) [] []) as U. rewrite !app_nil_r in U. rewrite U. cbn [unlace fst snd].
      rewrite tod_app, map_app. reflexivity. }
    split. { cbn [o_granule]. rewrite last_tod. unfold granules. rewrite tod_app in I5, F. apply Forall_app in I5 as [_ I5]. cbn [tod map] in I5.
      inversion I5 as [|? ? [_ Hg] _]; subst. cbn [snd] in Hg. change (256 ^ Z.of_nat 8) with (2 ^ 64).
      destruct forced as [g|].
      - destruct F as [F _]. apply Forall_app in F as [_ F]. cbn [tod map] in F. inversion F as [|? ? F0 _]; subst. cbn [snd]. apply Z.mod_small. lia.
      - change (0 =? 0) with true. rewrite andb_false_r. cbv iota zeta. rewrite nth_last, le_granule by lia. apply Z.mod_small. lia. }
    split. { constructor; cbn [p_number p_type p_segs]; [rewrite I1; unfold u32; lia|reflexivity|reflexivity|constructor]. }
    split; [reflexivity|].
    split; [reflexivity|]. split; [left; reflexivity|]. intros _; split; reflexivity.
  - (* a part of it *)
    destruct forced as [g|]; [destruct F as [_ F]; lia|].
    assert (Hf : fine (len (og o l ++ g_data s)) /\ 0 <= g_gran s < 2 ^ 31).
    { rewrite tod_app in I5. apply Forall_app in I5 as [_ I5]. cbn [tod map] in I5. inversion I5 as [|? ? H _]; subst. exact H. }
    destruct Hf as [Hf Hg]. rewrite len_app in Hf.
    assert (Ho : len (og o l) mod 255 = 0) by (destruct l; [exact I3|reflexivity]).
    pose proof (len_nonneg (og o l)) as Hon.
    assert (Hm : len (g_data s) mod 255 <> 0) by (unfold fine in Hf; lia).
    set (rem := (255 - lacing l) * 255).
    assert (Hr : 0 < rem < len (g_data s)) by (unfold rem; lia).
    assert (len (g_data s) =? rem = false) as -> by (apply Z.eqb_neq; lia).
    cbn [bodies]. assert (Hr0 : rem =? 0 = false) by (apply Z.eqb_neq; lia). rewrite Hr0.
    assert (PK : peek (g_data s) 0 rem = Some (takez rem (g_data s))).
    { rewrite peek_some by lia. reflexivity. }
    rewrite PK. cbn [fst snd].
    set (table := tables l ++ repeat 255 (Z.to_nat (255 - lacing l))).
    assert (HT : len table = 255) by (unfold table; rewrite len_app, len_repeat; lia).
    assert (Hu : u8 (len table) = len table) by (unfold u8; apply Z.mod_small; lia). rewrite Hu.
    set (body := datas l ++ takez rem (g_data s)). set (crc := crc32c _ body).
    exists (mkpage 1 (p_serial p) (u32 (p_number p + 1)) [mkseg (dropz rem (g_data s)) (g_gran s) (g_key s)]),
      (mkopage (p_type p) (granules (l ++ [s]) rem None mod 256 ^ Z.of_nat 8) (p_serial p) (p_number p) crc table body), (tod o l), (og o l ++ takez rem (g_data s)).
    assert (Lt : len (takez rem (g_data s)) = rem) by (rewrite len_takez; lia).
    assert (TD : tod o (l ++ [s]) = tod o l ++ tod (og o l ++ takez rem (g_data s)) [mkseg (dropz rem (g_data s)) (g_gran s) (g_key s)]).
    { rewrite tod_app. f_equal. cbn [tod map g_data g_gran]. rewrite <- app_assoc, takez_dropz. reflexivity. }
    split; [unfold encode, encode_with; cbn [o_flags o_granule o_serial o_number o_crc o_table o_body]; rewrite le_mod, <- !app_assoc; reflexivity|].
    split; [exact TD|].
    split. { unfold well_formed; cbn [o_table o_body]. repeat split; [lia|unfold table; apply Forall_app; split; [exact T3|apply repeat_bytes]|].
      unfold table, body. fold (suml (tables l ++ repeat 255 (Z.to_nat (255 - lacing l)))). rewrite suml_app, suml_repeat, len_app. unfold rem in *. lia. }
    split; [reflexivity|]. split; [exact I1|]. split; [reflexivity|].
    split. { cbn [o_table o_body]. unfold table, body. rewrite unlace_tables.
      pose proof (unlace_full (Z.to_nat (255 - lacing l)) (og o l) (takez rem (g_data s)) [] []) as U. rewrite !app_nil_r in U.
      rewrite U by (unfold rem in *; lia). cbn [unlace fst snd]. rewrite app_nil_r. reflexivity. }
    split. { cbn [o_granule]. unfold granules. rewrite Hr0. change (256 ^ Z.of_nat 8) with (2 ^ 64).
      destruct l as [|a0 l0] using rev_ind.
      - reflexivity.
      - clear IHl0. rewrite last_tod. cbn [negb]. rewrite andb_true_r.
        assert (len ((l0 ++ [a0]) ++ [s]) =? 1 = false) as -> by (apply Z.eqb_neq; rewrite !len_app; change (len [s]) with 1; change (len [a0]) with 1; pose proof (len_nonneg l0); lia).
        cbv iota zeta. rewrite app_nth1 by (unfold len; rewrite !app_length; cbn [List.length]; lia).
        replace (len ((l0 ++ [a0]) ++ [s]) - 2) with (len (l0 ++ [a0]) - 1) by (rewrite !len_app; change (len [s]) with 1; change (len [a0]) with 1; lia).
        rewrite nth_last. rewrite TD in I5. apply Forall_app in I5 as [I5 _]. rewrite tod_app in I5. apply Forall_app in I5 as [_ I5].
        cbn [tod map] in I5. inversion I5 as [|? ? [_ Hg'] _]; subst. cbn [snd] in Hg'. rewrite le_granule by lia. apply Z.mod_small. lia. }
    split. { constructor; cbn [p_number p_type p_segs].
      - rewrite I1; unfold u32; lia.
      - rewrite len_app. unfold rem in *. lia.
      - discriminate.
      - rewrite TD in I5. apply Forall_app in I5 as [_ I5]. exact I5. }
    split. { unfold cont; cbn [p_type]. destruct (og o l ++ takez rem (g_data s)) eqn:Q; [|reflexivity]. apply (f_equal len) in Q. rewrite len_app in Q. change (len (@nil Z)) with 0 in Q. lia. }
    split; [reflexivity|]. split; [right; eexists; split; [reflexivity|]; cbn [g_data]; rewrite len_dropz; lia|]. intros; lia.
Qed.

(** *** Many pages *)
Lemma carries_trans serial n o t a n2 o2 t2 b n3 o3 t3 :
  carries serial n o t a n2 o2 t2 -> carries serial n2 o2 t2 b n3 o3 t3 -> carries serial n o t (a ++ b) n3 o3 t3.
Proof. intros A; revert n3 o3 t3 b; induction A; intros; [assumption|]. cbn [app]. econstructor; eauto. Qed.
Lemma carries_more serial n o t a n2 o2 t2 x : carries serial n o t a n2 o2 t2 -> carries serial n o (t ++ x) a n2 o2 (t2 ++ x).
Proof. intros A; induction A; [constructor|]. rewrite <- app_assoc. econstructor; eauto. Qed.

Definition encodes (l : list opage) : list Z := List.concat (map encode l).
Lemma encodes_app a b : encodes (a ++ b) = encodes a ++ encodes b.
Proof. unfold encodes. rewrite map_app, concat_app. reflexivity. Qed.

(** A state between pages: [n] pages were sent, [o] is open. *)
Definition state (p : page) (n : Z) (o : list Z) : Prop := (inv p n o /\ cont p o) /\ 0 < n.
Definition goes (p : page) (n : Z) (o : list Z) (r : option (page * list Z)) : Prop :=
  exists p' pgs n' o', r = Some (p', encodes pgs) /\ carries (p_serial p) n o (tod o (p_segs p)) pgs n' o' (tod o' (p_segs p')) /\
    state p' n' o' /\ p_serial p' = p_serial p /\ lacing (p_segs p') < 255.

Lemma step_ok p n o l s : state p n o -> p_segs p = l ++ [s] -> lacing l < 255 ->
  exists p' pg o', sendTo p None = Some (p', encode pg) /\ carries (p_serial p) n o (tod o (p_segs p)) [pg] (n + 1) o' (tod o' (p_segs p')) /\
    state p' (n + 1) o' /\ p_serial p' = p_serial p /\ (p_segs p' = [] \/ exists r, p_segs p' = [r] /\ len (g_data r) < len (g_data s)) /\
    (lacing (p_segs p) <= 255 -> p_segs p' = []).
Proof.
  intros [[I C] Pn] E L. destruct (sendTo_ok p n o l s None I E L Logic.I) as (p' & pg & ended & o' & A1 & A2 & A3 & A4 & A5 & A6 & A7 & A8 & A9 & A10 & A11 & A12 & A13).
  exists p', pg, o'. split; [exact A1|]. split; [|split; [split; [split; assumption|lia]|split; [exact A11|split; [exact A12|intros H; exact (proj1 (A13 H))]]]].
  rewrite A2. eapply c_page; [exact A3|exact A4|exact A5|rewrite A6, C; assert (n =? 0 = false) as -> by (apply Z.eqb_neq; lia); lia|exact A7|exact A8|constructor].
Qed.
Lemma shouldSend_false p due : shouldSend p due = false -> lacing (p_segs p) < 255.
Proof.
  unfold shouldSend. destruct (rev (p_segs p)) as [|s r] eqn:E.
  - intros _. apply (f_equal (@rev segment)) in E. rewrite rev_involutive in E. rewrite E. cbn. lia.
  - intros H. apply orb_false_iff in H as [_ H]. apply Z.leb_gt in H. exact H.
Qed.
Lemma loop_one fuel : forall p n o due, state p n o -> (p_segs p = [] \/ exists r, p_segs p = [r] /\ len (g_data r) < Z.of_nat fuel) ->
  goes p n o (send_loop fuel p due).
Proof.
  induction fuel as [|k IH]; intros p n o due St H.
  - destruct H as [H|(r & H & Hr)]; [|pose proof (len_nonneg (g_data r)); lia].
    exists p, [], n, o. cbn [send_loop]. unfold shouldSend. rewrite H. cbn [rev]. split; [reflexivity|]. split; [constructor|]. split; [exact St|].
    split; [reflexivity|cbn; lia].
  - cbn [send_loop]. destruct (shouldSend p due) eqn:SS.
    + destruct H as [H|(r & H & Hr)]; [unfold shouldSend in SS; rewrite H in SS; discriminate SS|].
      destruct (step_ok p n o [] r St H ltac:(cbn; lia)) as (p' & pg & o' & A1 & A2 & A3 & A4 & A5 & _). rewrite A1. cbn [fst snd].
      destruct (IH p' (n + 1) o' false A3) as (p2 & pgs & n2 & o2 & B1 & B2 & B3 & B4 & B5).
      { destruct A5 as [A5|(r' & A5 & A6)]; [left; exact A5|right; exists r'; split; [exact A5|lia]]. }
      rewrite B1. cbn [fst snd]. exists p2, ([pg] ++ pgs), n2, o2. split; [rewrite encodes_app; unfold encodes at 2; cbn [map List.concat]; rewrite app_nil_r; reflexivity|].
      split; [eapply carries_trans; [exact A2|rewrite <- A4; exact B2]|]. split; [exact B3|]. split; [congruence|exact B5].
    + exists p, [], n, o. split; [reflexivity|]. split; [constructor|]. split; [exact St|]. split; [reflexivity|exact (shouldSend_false _ _ SS)].
Qed.

Definition item (s : segment) : list Z * Z := (g_data s, g_gran s).
Lemma push_ok p n o s : state p n o -> small (item s) ->
  let q := mkpage (p_type p) (p_serial p) (p_number p) (p_segs p ++ [s]) in
  state q n o /\ tod o (p_segs q) = tod o (p_segs p) ++ [item s].
Proof.
  intros [[[I1 I3 I4 I5] C] Pn] H q. assert (T : tod o (p_segs q) = tod o (p_segs p) ++ [item s]).
  { unfold q; cbn [p_segs]. rewrite tod_app. f_equal. destruct (p_segs p) eqn:E; [rewrite I4 by reflexivity|]; reflexivity. }
  split; [|exact T]. split; [split; [constructor|exact C]|exact Pn].
  - exact I1.
  - exact I3.
  - unfold q; cbn [p_segs]. intros H0. destruct (p_segs p); discriminate H0.
  - rewrite T. apply Forall_app; split; [exact I5|]. constructor; [exact H|constructor].
Qed.
Lemma sendNext_ok p n o s due : state p n o -> lacing (p_segs p) < 255 -> small (item s) ->
  exists p' pgs n' o', sendNext p s due = Some (p', encodes pgs) /\
    carries (p_serial p) n o (tod o (p_segs p) ++ [item s]) pgs n' o' (tod o' (p_segs p')) /\
    state p' n' o' /\ p_serial p' = p_serial p /\ lacing (p_segs p') < 255.
Proof.
  intros St L Hs. unfold sendNext.
  assert (F : exists p1 pgs n1 o1, (if g_key s then sendTo p None else Some (p, [])) = Some (p1, encodes pgs) /\
    carries (p_serial p) n o (tod o (p_segs p)) pgs n1 o1 (tod o1 (p_segs p1)) /\ state p1 n1 o1 /\ p_serial p1 = p_serial p /\ lacing (p_segs p1) < 255).
  { assert (Same : exists p1 pgs n1 o1, Some (p, []) = Some (p1, encodes pgs) /\
      carries (p_serial p) n o (tod o (p_segs p)) pgs n1 o1 (tod o1 (p_segs p1)) /\ state p1 n1 o1 /\ p_serial p1 = p_serial p /\ lacing (p_segs p1) < 255).
    { exists p, [], n, o. split; [reflexivity|]. split; [constructor|]. auto. }
    destruct (g_key s); [|exact Same].
    destruct (p_segs p) as [|x0 l0] eqn:E using rev_ind.
    - unfold sendTo. rewrite E. exact Same.
    - clear IHl0. rewrite <- E in *. destruct (step_ok p n o l0 x0 St E) as (p' & pg & o' & A1 & A2 & A3 & A4 & A5 & A6).
      { rewrite E in L. rewrite lacing_app in L. cbn [lacing fold_right] in L. pose proof (len_nonneg (g_data x0)). fold (lacing l0) in L. lia. }
      exists p', [pg], (n + 1), o'. split; [rewrite A1; unfold encodes; cbn [map List.concat]; rewrite app_nil_r; reflexivity|].
      split; [exact A2|]. split; [exact A3|]. split; [exact A4|]. rewrite A6 by lia. cbn; lia. }
  destruct F as (p1 & pgs1 & n1 & o1 & F1 & F2 & F3 & F4 & F5). rewrite F1. cbn [fst snd]. clear F1 St L.
  destruct (push_ok p1 n1 o1 s F3 Hs) as [St T].
  set (q := mkpage (p_type p1) (p_serial p1) (p_number p1) (p_segs p1 ++ [s])) in *.
  assert (G : goes q n1 o1 (send_loop (S (Z.to_nat (len (g_data s)) + List.length (p_segs q))) q due)).
  { cbn [send_loop]. destruct (shouldSend q due) eqn:SS.
    - destruct (step_ok q n1 o1 (p_segs p1) s St eq_refl F5) as (p' & pg & o' & A1 & A2 & A3 & A4 & A5 & _). rewrite A1. cbn [fst snd].
      destruct (loop_one (Z.to_nat (len (g_data s)) + List.length (p_segs q)) p' (n1 + 1) o' false A3) as (p2 & pgs & n2 & o2 & B1 & B2 & B3 & B4 & B5).
      { destruct A5 as [A5|(r' & A5 & A6)]; [left; exact A5|right; exists r'; split; [exact A5|lia]]. }
      rewrite B1. cbn [fst snd]. exists p2, ([pg] ++ pgs), n2, o2. split; [rewrite encodes_app; unfold encodes at 2; cbn [map List.concat]; rewrite app_nil_r; reflexivity|].
      split; [eapply carries_trans; [exact A2|rewrite <- A4; exact B2]|]. split; [exact B3|]. split; [congruence|exact B5].
    - exists q, [], n1, o1. split; [reflexivity|]. split; [constructor|]. split; [exact St|]. split; [reflexivity|exact (shouldSend_false _ _ SS)]. }
  destruct G as (p2 & pgs & n2 & o2 & G1 & G2 & G3 & G4 & G5). rewrite G1. cbn [fst snd].
  exists p2, (pgs1 ++ pgs), n2, o2. split; [rewrite encodes_app; reflexivity|].
  split. { eapply carries_trans; [apply carries_more; exact F2|]. rewrite <- T. rewrite <- F4. exact G2. }
  split; [exact G3|]. split; [rewrite G4; exact F4|exact G5].
Qed.
Lemma sendMany_ok l : forall p n o, state p n o -> lacing (p_segs p) < 255 -> Forall (fun x => small (item (fst x))) l ->
  exists p' pgs n' o', sendMany p l = Some (p', encodes pgs) /\
    carries (p_serial p) n o (tod o (p_segs p) ++ map (fun x => item (fst x)) l) pgs n' o' (tod o' (p_segs p')) /\
    state p' n' o' /\ p_serial p' = p_serial p /\ lacing (p_segs p') < 255.
Proof.
  induction l as [|[s due] l IH]; intros p n o St L F.
  - exists p, [], n, o. split; [reflexivity|]. split; [cbn [map]; rewrite app_nil_r; constructor|]. auto.
  - inversion F as [|? ? F0 F1]; subst. cbn [fst] in F0. cbn [sendMany map fst].
    destruct (sendNext_ok p n o s due St L F0) as (p1 & pgs1 & n1 & o1 & A1 & A2 & A3 & A4 & A5). rewrite A1. cbn [fst snd].
    destruct (IH p1 n1 o1 A3 A5 F1) as (p2 & pgs & n2 & o2 & B1 & B2 & B3 & B4 & B5). rewrite B1. cbn [fst snd].
    exists p2, (pgs1 ++ pgs), n2, o2. split; [rewrite encodes_app; reflexivity|].
    split. { change (item s :: map (fun x => item (fst x)) l) with ([item s] ++ map (fun x => item (fst x)) l). rewrite app_assoc.
      eapply carries_trans; [apply carries_more; exact A2|]. rewrite <- A4. exact B2. }
    split; [exact B3|]. split; [congruence|exact B5].
Qed.

(** *** The end *)
Lemma finish_ok p n o : inv p n o -> lacing (p_segs p) < 255 ->
  (p_segs p = [] /\ exists p', finish p = Some (p', [])) \/
  exists p' pg, finish p = Some (p', encode pg) /\ p_segs p' = [] /\ well_formed pg /\ o_flags pg = 4 /\ o_serial pg = p_serial p /\ o_number pg = u32 n /\
    unlace o (o_table pg) (o_body pg) = (map fst (tod o (p_segs p)), []) /\ o_granule pg = List.last (map snd (tod o (p_segs p))) no_granule.
Proof.
  intros [I1 I3 I4 I5] L. destruct (p_segs p) as [|x0 l0] eqn:E using rev_ind.
  - left. split; [reflexivity|]. unfold finish, sendTo. cbn [p_segs]. rewrite E. eexists; reflexivity.
  - clear IHl0. right. rewrite <- E in *. set (q := mkpage 4 (p_serial p) (p_number p) (p_segs p)).
    assert (L' := L). rewrite E, lacing_app in L'. cbn [lacing fold_right] in L'. fold (lacing l0) in L'. pose proof (len_nonneg (g_data x0)).
    destruct (sendTo_ok q n o l0 x0 None) as (p' & pg & ended & o' & A1 & A2 & A3 & A4 & A5 & A6 & A7 & A8 & A9 & A10 & A11 & A12 & A13);
      [constructor; assumption|exact E|lia|exact Logic.I|].
    specialize (A13 ltac:(cbn [q p_segs]; lia)). destruct A13 as [A13 _]. rewrite A13 in A2. cbn [tod] in A2. rewrite app_nil_r in A2. destruct A9 as [_ _ A9 _]. specialize (A9 A13). subst o' ended.
    exists p', pg. split; [exact A1|]. split; [exact A13|]. split; [exact A3|]. split; [exact A6|]. split; [exact A4|]. split; [exact A5|]. split; assumption.
Qed.

(** *** The begin *)
Lemma header_ok serial first others : Forall (fun d => fine (len d)) (first :: others) -> others <> [] ->
  len first / 255 < 255 -> fold_right (fun d a => len d / 255 + 1 + a) 0 others <= 255 ->
  exists p pg1 pg2, sendHeader serial first others = Some (p, encode pg1 ++ encode pg2) /\
    carries (u32 serial) 0 [] (map (fun d => (d, 0)) (first :: others)) [pg1; pg2] 2 [] [] /\ o_flags pg1 = 2 /\ o_flags pg2 = 0 /\
    unlace [] (o_table pg1) (o_body pg1) = ([first], []) /\
    state p 2 [] /\ p_segs p = [] /\ p_serial p = u32 serial.
Proof.
  intros F Ho L1 L2. inversion F as [|? ? F0 F1]; subst. unfold sendHeader. cbn [begin p_type p_serial p_number].
  set (p0 := mkpage 2 (u32 serial) 0 [mkseg first 0 false]). pose proof (len_nonneg first) as Hf.
  destruct (sendTo_ok p0 0 [] [] (mkseg first 0 false) (Some 0)) as (p1 & pg1 & e1 & o1 & A1 & A2 & A3 & A4 & A5 & A6 & A7 & A8 & A9 & A10 & A11 & A12 & A13).
  { constructor; [reflexivity|reflexivity|reflexivity|]. constructor; [|constructor]. split; [exact F0|cbn; lia]. }
  { reflexivity. } { cbn; lia. }
  { split; [constructor; [reflexivity|constructor]|]. cbn [p0 p_segs lacing fold_right g_data]. lia. }
  rewrite A1. cbn [fst snd]. specialize (A13 ltac:(cbn [p0 p_segs lacing fold_right g_data]; lia)). destruct A13 as [A13 T1]. rewrite A13 in A2. cbn [tod] in A2. rewrite app_nil_r in A2.
  assert (o1 = []) as -> by (destruct A9 as [_ _ A9 _]; exact (A9 A13)).
  rewrite A13. cbn [app]. set (segs := map (fun d => mkseg d 0 false) others).
  set (q := mkpage (p_type p1) (p_serial p1) (p_number p1) segs).
  assert (Ls : lacing segs <= 255).
  { enough (lacing segs = fold_right (fun d a => len d / 255 + 1 + a) 0 others) by lia. unfold segs. clear. induction others as [|d l IH]; [reflexivity|]. cbn [map lacing fold_right g_data].
    fold (lacing (map (fun d => mkseg d 0 false) l)). rewrite IH. reflexivity. }
  assert (Td : tod [] segs = map (fun d => (d, 0)) others).
  { unfold segs. destruct others as [|d l]; [reflexivity|]. cbn [map tod g_data g_gran app]. f_equal. rewrite map_map. reflexivity. }
  assert (NE : segs <> []) by (unfold segs; destruct others; [contradiction|discriminate]).
  destruct (exists_last NE) as (l & s & El).
  destruct (sendTo_ok q 1 [] l s (Some 0)) as (p2 & pg2 & e2 & o2 & B1 & B2 & B3 & B4 & B5 & B6 & B7 & B8 & B9 & B10 & B11 & B12 & B13).
  { destruct A9 as [N _ _ _]. constructor; [exact N|reflexivity|reflexivity|]. cbn [q p_segs]. rewrite Td. clear - F1. induction others as [|d l IH]; [constructor|].
    inversion F1; subst. constructor; [split; [assumption|cbn; lia]|apply IH; assumption]. }
  { exact El. }
  { rewrite El, lacing_app in Ls. cbn [lacing fold_right] in Ls. fold (lacing l) in Ls. pose proof (len_nonneg (g_data s)). lia. }
  { cbn [q p_segs]. split; [|exact Ls]. rewrite Td. clear. induction others; constructor; [reflexivity|assumption]. }
  specialize (B13 Ls). destruct B13 as [B13 _]. rewrite B13 in B2. cbn [tod] in B2. rewrite app_nil_r in B2. cbn [q p_segs] in B2. rewrite Td in B2.
  assert (o2 = []) as -> by (destruct B9 as [_ _ B9 _]; exact (B9 B13)).
  assert (HL : forall k, header_loop (S k) q = Some (p2, encode pg2)).
  { intros k. cbn [header_loop]. cbn [q p_segs]. destruct segs as [|a b] eqn:Es; [contradiction|]. fold q. rewrite B1. cbn [fst snd].
    destruct k; cbn [header_loop]; rewrite B13; cbn [fst snd]; rewrite app_nil_r; reflexivity. }
  rewrite HL. cbn [fst snd]. exists p2, pg1, pg2. split; [reflexivity|].
  split. { change (map (fun d => (d, 0)) (first :: others)) with ([(first, 0)] ++ map (fun d => (d, 0)) others). cbn [p0 p_segs tod g_data g_gran map app] in A2.
    rewrite A2. eapply c_page; [exact A3|exact A4|exact A5|rewrite A6; reflexivity|exact A7|exact A8|].
    rewrite B2. rewrite <- (app_nil_r e2). eapply c_page; [exact B3|rewrite B4; cbn [q p_serial]; rewrite A11; reflexivity|exact B5| |exact B7|exact B8|constructor].
    rewrite B6. cbn [q p_type]. rewrite T1. reflexivity. }
  split; [exact A6|]. split; [rewrite B6; exact T1|].
  split; [cbn [p0 p_segs tod g_data g_gran map app] in A2; rewrite A7, <- A2; reflexivity|].
  split; [split; [split; assumption|lia]|]. split; [exact B13|]. rewrite B11. cbn [q p_serial]. exact A11.
Qed.
