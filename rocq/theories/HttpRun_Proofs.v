From Verif Require Import Common CommonFacts Encode_Model Str_Model Str_Proofs Url_Model UrlText_Proofs Http_Model Http_Spec.
From Verif Require SockBuf_Model SockBuf_Proofs.

(** ** The reader on the whole text, without parts *)
Section Run.
Variable headerOnly cb : bool.
Notation deliver := (deliver cb).
Notation head_line := (head_line cb).
Notation head_end := (head_end cb).
Notation parse := (parse headerOnly cb).
Notation parse_loop := (parse_loop headerOnly cb).
Notation parse_body := (parse_body headerOnly cb).
Notation read_loop := (read_loop headerOnly cb).
Notation Read := (Read headerOnly cb).
Variable closed : bool.
Notation session := (session headerOnly cb closed).

Definition rtsp (st : hp) : bool :=
  beqb (takez 4 (protocol (m st))) (bs "RTSP") || beqb (takez 4 (method (m st))) (bs "RTSP").
Definition take_known (st : hp) (s : list Z) : bool * hp * list Z :=
  let n := Z.max 0 (Z.min (length st - currentLength st) (len s)) in
  let st := set_counts (deliver st (takez n s)) false (doingChunk st) (currentLength st + n) in
  if length st =? currentLength st then (true, post_vars st, dropz n s) else (false, st, dropz n s).
Fixpoint run (fuel : nat) (st : hp) (s : list Z) : option (bool * hp * list Z) :=
  match fuel with
  | O => Some (false, st, s)
  | S k =>
      if negb (seenHeaders st) then
        match findc 10 s with
        | None => Some (false, st, s)
        | Some f => match head_line st (takez f s) with None => None | Some st => run k st (dropz (f + 1) s) end
        end
      else if headerOnly || no_body (url (m st)) then Some (true, st, s)
      else if knownLength st && negb (getChunks st) then Some (take_known st s)
      else if getChunks st then
        if negb (doingChunk st =? 0) then
          match s with
          | [] => Some (false, st, [])
          | _ => let n := Z.min (Z.max 1 (doingChunk st)) (len s) in
                 run k (set_counts (deliver st (takez n s)) true (doingChunk st - n) 0) (dropz n s)
          end
        else
          match findc 10 s with
          | None => Some (false, st, s)
          | Some f =>
              let tmpA := cut_cr (takez f s) in
              if negb (len tmpA =? 0) && (chunk_len tmpA =? 0) then Some (true, set_counts st false 0 0, s)
              else run k (set_counts st true (if len tmpA =? 0 then 0 else chunk_len tmpA) 0) (dropz (f + 1) s)
          end
      else if rtsp st then Some (true, st, s)
      else if atoll (url (m st)) =? 0 then Some (true, set_complete st, s)
      else Some (false, set_complete (deliver st s), [])
  end.
Definition R (st : hp) (s : list Z) := run (S (List.length s)) st s.

Lemma findc_some c s f : findc c s = Some f -> exists x y, s = x ++ c :: y /\ ~ In c x /\ f = len x.
Proof.
  intros E. pose proof (findp_spec (Z.eqb c) s 0) as K. unfold findc in E. rewrite E in K.
  destruct K as (x & d & y & -> & F & D & ->). exists x, y. replace d with c by lia. split; [reflexivity|]. split; [|lia].
  intros I. rewrite Forall_forall in F. apply F in I. lia.
Qed.
Lemma findc_none c s : findc c s = None -> ~ In c s.
Proof.
  intros E I. pose proof (findp_spec (Z.eqb c) s 0) as K. unfold findc in E. rewrite E in K. rewrite Forall_forall in K.
  apply K in I. lia.
Qed.
Lemma drop_line x y : dropz (len x + 1) (x ++ 10 :: y) = y.
Proof. apply dropz_S1. Qed.
Lemma take_line x (y : list Z) : takez (len x) (x ++ y) = x.
Proof. now apply takez_app_exact. Qed.

Lemma chunk_rest (c : Z) s d : let n := Z.min (Z.max 1 d) (len (c :: s)) in 1 <= n <= len (c :: s) /\
  (List.length (dropz n (c :: s)) < List.length (c :: s))%nat.
Proof.
  cbn zeta. set (n := Z.min _ _). assert (1 <= n <= len (c :: s)) by (pose proof (len_nonneg s); unfold n; rewrite len_cons; lia).
  split; [assumption|]. pose proof (len_dropz n (c :: s)). unfold len in *. lia.
Qed.

Lemma run_fuel n : forall k st s, (List.length s < n)%nat -> (List.length s < k)%nat -> run n st s = run k st s.
Proof.
  induction n as [|n IH]; intros k st s Ln Lk; [lia|]. destruct k as [|k]; [lia|]. cbn [run].
  destruct (negb (seenHeaders st)).
  { destruct (findc 10 s) as [f|] eqn:E; [|reflexivity]. destruct (findc_some _ _ _ E) as (x & y & -> & N & ->).
    rewrite drop_line. destruct (head_line st _); [|reflexivity]. apply IH; rewrite app_length in *; cbn [List.length] in *; lia. }
  destruct (_ || _); [reflexivity|]. destruct (knownLength st && negb (getChunks st)); [reflexivity|].
  destruct (getChunks st); [|reflexivity]. destruct (negb (doingChunk st =? 0)) eqn:Dc.
  - destruct s as [|c s]; [reflexivity|]. destruct (chunk_rest c s (doingChunk st)) as [_ L]. cbn zeta in *. apply IH; lia.
  - destruct (findc 10 s) as [f|] eqn:E; [|reflexivity]. destruct (findc_some _ _ _ E) as (x & y & -> & N & ->).
    rewrite drop_line. cbn zeta. destruct (_ && _); [reflexivity|]. apply IH; rewrite app_length in *; cbn [List.length] in *; lia.
Qed.
Lemma run_R n st s : (List.length s < n)%nat -> run n st s = R st s.
Proof. intros L. apply run_fuel; lia. Qed.

(** R, one step at a time. *)
Lemma R_head st s : seenHeaders st = false ->
  R st s = match findc 10 s with
           | None => Some (false, st, s)
           | Some f => match head_line st (takez f s) with None => None | Some st => R st (dropz (f + 1) s) end
           end.
Proof.
  intros E. unfold R at 1. cbn [run]. rewrite E. cbn [negb]. destruct (findc 10 s) as [f|] eqn:F; [|reflexivity].
  destruct (head_line st _); [|reflexivity]. destruct (findc_some _ _ _ F) as (x & y & -> & N & ->). rewrite drop_line.
  apply run_R. rewrite app_length. cbn [List.length]. lia.
Qed.
Lemma R_nobody st s : seenHeaders st = true -> headerOnly || no_body (url (m st)) = true -> R st s = Some (true, st, s).
Proof. intros E F. unfold R. cbn [run]. now rewrite E, F. Qed.
Lemma R_known st s : seenHeaders st = true -> headerOnly || no_body (url (m st)) = false -> knownLength st = true ->
  getChunks st = false -> R st s = Some (take_known st s).
Proof. intros E F K G. unfold R. cbn [run]. now rewrite E, F, K, G. Qed.
Definition chunk_step (st : hp) (s : list Z) : option (bool * hp * list Z) :=
  if negb (doingChunk st =? 0) then
    match s with
    | [] => Some (false, st, [])
    | _ => let n := Z.min (Z.max 1 (doingChunk st)) (len s) in
           R (set_counts (deliver st (takez n s)) true (doingChunk st - n) 0) (dropz n s)
    end
  else
    match findc 10 s with
    | None => Some (false, st, s)
    | Some f =>
        let tmpA := cut_cr (takez f s) in
        if negb (len tmpA =? 0) && (chunk_len tmpA =? 0) then Some (true, set_counts st false 0 0, s)
        else R (set_counts st true (if len tmpA =? 0 then 0 else chunk_len tmpA) 0) (dropz (f + 1) s)
    end.
Lemma R_chunk st s : seenHeaders st = true -> headerOnly || no_body (url (m st)) = false -> getChunks st = true ->
  R st s = chunk_step st s.
Proof.
  intros E F G. unfold R at 1, chunk_step. cbn [run]. rewrite E, F, G. rewrite andb_false_r. cbn [negb].
  destruct (negb (doingChunk st =? 0)).
  - destruct s as [|c s]; [reflexivity|]. destruct (chunk_rest c s (doingChunk st)) as [_ L]. cbn zeta in *. apply run_R. lia.
  - destruct (findc 10 s) as [f|] eqn:X; [|reflexivity]. cbn zeta. destruct (_ && _); [reflexivity|].
    destruct (findc_some _ _ _ X) as (x & y & -> & N & ->). rewrite drop_line. apply run_R. rewrite app_length. cbn [List.length]. lia.
Qed.
Definition open_end (st : hp) (s : list Z) : bool * hp * list Z :=
  if rtsp st then (true, st, s)
  else if atoll (url (m st)) =? 0 then (true, set_complete st, s) else (false, set_complete (deliver st s), []).
Lemma R_open st s : seenHeaders st = true -> headerOnly || no_body (url (m st)) = false -> knownLength st = false ->
  getChunks st = false -> R st s = Some (open_end st s).
Proof.
  intros E F K G. unfold R, open_end. cbn [run]. rewrite E, F, K, G. cbn [negb andb]. destruct (rtsp st); [reflexivity|].
  now destruct (atoll _ =? 0).
Qed.

Lemma findc_app c x b : findc c (x ++ b) = match findc c x with Some f => Some f
  | None => match findc c b with Some f => Some (len x + f) | None => None end end.
Proof.
  destruct (findc c x) as [f|] eqn:E.
  - destruct (findc_some _ _ _ E) as (u & v & -> & N & ->). rewrite <- app_assoc. cbn [app]. now apply findc_at.
  - apply findc_none in E. destruct (findc c b) as [f|] eqn:F.
    + destruct (findc_some _ _ _ F) as (u & v & -> & N & ->). rewrite app_assoc. rewrite findc_at; [now rewrite len_app|].
      intros I. apply in_app_iff in I. tauto.
    + apply findc_none in F. apply findc_no. intros I. apply in_app_iff in I. tauto.
Qed.

Lemma deliver_nil st : deliver st [] = st.
Proof. destruct st. unfold Http_Model.deliver. cbn. destruct cb; now rewrite app_nil_r. Qed.
Lemma deliver_twice st a b : deliver (deliver st a) b = deliver st (a ++ b).
Proof. destruct st. unfold Http_Model.deliver. cbn. destruct cb; now rewrite app_assoc. Qed.

(** What has been said about a text stays so when more follows. *)
Lemma R_split st a b : R st (a ++ b) =
  match R st a with
  | None => None
  | Some (true, st', r) => Some (true, st', r ++ b)
  | Some (false, st', r) => R st' (r ++ b)
  end.
Proof.
  remember (List.length a) as n eqn:Ln. revert st a Ln. induction n as [n IH] using lt_wf_ind. intros st a ->.
  destruct (seenHeaders st) eqn:Eh.
  2:{ rewrite (R_head st (a ++ b)), (R_head st a) by assumption. rewrite findc_app.
      destruct (findc 10 a) as [f|] eqn:F.
      - destruct (findc_some _ _ _ F) as (x & y & -> & N & ->). rewrite <- app_assoc. cbn [app]. rewrite !take_line, !drop_line.
        destruct (head_line st x) as [st'|]; [|reflexivity]. apply (IH (List.length y)); [|reflexivity]. rewrite app_length. cbn [List.length]. lia.
      - rewrite (R_head st (a ++ b)) by assumption. now rewrite findc_app, F. }
  destruct (headerOnly || no_body (url (m st))) eqn:En; [now rewrite !R_nobody by assumption|].
  destruct (getChunks st) eqn:Eg.
  2:{ destruct (knownLength st) eqn:Ek.
      - rewrite (R_known st (a ++ b)), (R_known st a) by assumption. unfold take_known. cbn zeta.
        pose proof (len_nonneg a). pose proof (len_nonneg b).
        set (d := length st - currentLength st) in *. cbn [length currentLength set_counts Http_Model.deliver].
        rewrite len_app. destruct (Z.leb d (len a)) eqn:D.
        + replace (Z.max 0 (Z.min d (len a + len b))) with (Z.max 0 d) by lia.
          replace (Z.max 0 (Z.min d (len a))) with (Z.max 0 d) by lia.
          rewrite takez_app, dropz_app by lia. destruct (_ =? _) eqn:Q; [reflexivity|].
          rewrite R_known by (assumption || reflexivity). unfold take_known. cbn zeta. cbn [length currentLength set_counts Http_Model.deliver doingChunk].
          assert (d < 0) by (unfold d in *; lia). rewrite (Z.max_l 0 d) by lia. rewrite takez_0, !dropz_0, Z.add_0_r.
          replace (Z.max 0 _) with 0 by (unfold d in *; lia). rewrite takez_0, dropz_0. unfold d in *.
          replace (length st =? currentLength st + 0) with false by lia. do 3 f_equal.
          change (set_counts (deliver (set_counts (deliver st []) false (doingChunk st) (currentLength st)) []) false (doingChunk st) (currentLength st + 0) = set_counts (deliver st []) false (doingChunk st) (currentLength st)) || idtac.
          rewrite !deliver_nil. cbn. now rewrite Z.add_0_r.
        + replace (Z.max 0 (Z.min d (len a))) with (len a) by lia. rewrite (takez_all (len a) a), (dropz_all (len a) a) by lia. cbn [app].
          replace (length st =? currentLength st + len a) with false by (unfold d in *; lia). rewrite (app_nil_l b).
          rewrite R_known by (assumption || reflexivity). unfold take_known. cbn zeta. cbn [length currentLength set_counts Http_Model.deliver doingChunk].
          set (k := Z.max 0 (Z.min d (len a + len b))).
          replace (Z.max 0 (Z.min (length st - (currentLength st + len a)) (len b))) with (k - len a) by (unfold k, d in *; lia).
          rewrite (takez_app_ge k a b), (dropz_app_ge k a b) by (unfold k; lia).
          replace (currentLength st + len a + (k - len a)) with (currentLength st + k) by lia.
          rewrite <- (deliver_twice st a). destruct (_ =? _); reflexivity.
      - rewrite (R_open st (a ++ b)), (R_open st a) by assumption. unfold open_end. destruct (rtsp st) eqn:Er; [reflexivity|].
        destruct (atoll _ =? 0) eqn:Ea; [reflexivity|]. rewrite R_open by (assumption || reflexivity). unfold open_end.
        replace (rtsp (set_complete (deliver st a))) with (rtsp st) by reflexivity. rewrite Er.
        cbn [url m set_complete Http_Model.deliver]. rewrite Ea. rewrite <- (deliver_twice st a). reflexivity. }
  rewrite (R_chunk st (a ++ b)), (R_chunk st a) by assumption. unfold chunk_step.
  destruct (negb (doingChunk st =? 0)) eqn:Dc.
  - destruct a as [|c a].
    + cbn [app]. rewrite (R_chunk st b) by (assumption || reflexivity). unfold chunk_step. now rewrite Dc.
    + cbn [app]. cbn zeta. set (d := Z.max 1 (doingChunk st)). pose proof (len_nonneg a). pose proof (len_nonneg b).
      change (c :: a ++ b) with ((c :: a) ++ b). rewrite len_app.
      destruct (Z.leb d (len (c :: a))) eqn:D.
      * rewrite (Z.min_l d (len (c :: a) + len b)), (Z.min_l d (len (c :: a))) by lia.
        rewrite takez_app, dropz_app by lia. apply (IH (List.length (dropz d (c :: a)))); [|reflexivity].
        destruct (chunk_rest c a (doingChunk st)) as [_ L]. cbn zeta in L. fold d in L. now rewrite Z.min_l in L by lia.
      * rewrite (Z.min_r d (len (c :: a))) by lia. assert (Dd : d = doingChunk st) by (rewrite len_cons in D; lia).
        rewrite (takez_all (len (c :: a))), (dropz_all (len (c :: a))) by lia.
        set (st' := set_counts (deliver st (c :: a)) true (doingChunk st - len (c :: a)) 0).
        rewrite (R_chunk st' []) by (assumption || reflexivity). unfold chunk_step.
        replace (negb (doingChunk st' =? 0)) with true by (unfold st'; cbn [doingChunk set_counts]; lia). cbn [app].
        rewrite (R_chunk st' b) by (assumption || reflexivity). unfold chunk_step.
        replace (negb (doingChunk st' =? 0)) with true by (unfold st'; cbn [doingChunk set_counts]; lia).
        destruct b as [|c' b].
        { rewrite app_nil_r. rewrite len_nil, Z.add_0_r. rewrite (Z.min_r d) by lia. rewrite takez_all, dropz_all by lia.
          fold st'. rewrite R_chunk by (assumption || reflexivity). unfold chunk_step.
          replace (negb (doingChunk st' =? 0)) with true by (unfold st'; cbn [doingChunk set_counts]; lia). reflexivity. }
        cbn zeta. set (k := Z.min d (len (c :: a) + len (c' :: b))).
        assert (Hk : len (c :: a) <= k) by (unfold k; lia). change (c :: a ++ c' :: b) with ((c :: a) ++ c' :: b) || idtac.
        rewrite (takez_app_ge k (c :: a)), (dropz_app_ge k (c :: a)) by lia.
        replace (Z.min (Z.max 1 (doingChunk st')) (len (c' :: b))) with (k - len (c :: a)) by (unfold k, st'; cbn [doingChunk set_counts]; lia).
        unfold st'. cbn [doingChunk set_counts]. replace (doingChunk st - len (c :: a) - (k - len (c :: a))) with (doingChunk st - k) by lia.
        rewrite <- (deliver_twice st (c :: a)). reflexivity.
  - rewrite findc_app. destruct (findc 10 a) as [f|] eqn:F.
    + destruct (findc_some _ _ _ F) as (x & y & -> & N & ->). rewrite <- app_assoc. cbn [app]. rewrite !take_line, !drop_line. cbn zeta.
      destruct (_ && _); [now rewrite <- app_assoc|]. apply (IH (List.length y)); [|reflexivity]. rewrite app_length. cbn [List.length]. lia.
    + rewrite (R_chunk st (a ++ b)) by assumption. unfold chunk_step. now rewrite Dc, findc_app, F.
Qed.
Lemma R_settled st a st' r : R st a = Some (false, st', r) -> R st' r = Some (false, st', r).
Proof. intros E. pose proof (R_split st a []) as K. rewrite app_nil_r, E, app_nil_r in K. congruence. Qed.

(** ** The parts of the buffer *)
Definition aligned (p : list Z) : Prop := forall x y, p = x ++ 10 :: y -> y = [].
Definition hide (st : hp) : hp := if getChunks st then set_counts st true (doingChunk st) 0 else st.
(** States between two calls of parse. *)
Definition inv (st : hp) : Prop :=
  if negb (seenHeaders st) then getChunks st = false /\ possiblyComplete st = false /\ doingChunk st = 0
  else headerOnly || no_body (url (m st)) = false /\
    if getChunks st then possiblyComplete st = false /\ 0 <= doingChunk st < 2 ^ 32
    else if knownLength st then possiblyComplete st = false /\ 0 <= currentLength st < length st /\
                                (length st < 2 ^ 31 \/ cb = true /\ 2 ^ 64 - 2 ^ 31 <= length st < 2 ^ 64)
    else possiblyComplete st = true /\ rtsp st = false /\ atoll (url (m st)) <> 0.
(** With a callback and a negative length, [n] more bytes are not enough to wrap the 32 bit count. *)
Definition counted (st : hp) : Z := if seenHeaders st && knownLength st && negb (getChunks st) then currentLength st else 0.
Definition few (st : hp) (n : Z) : Prop := cb = false \/ counted st + n <= 2 ^ 31.
(** What differs between two orders of the same data. *)
Definition seen (o : option (bool * hp * list Z)) : option (bool * hp * list Z) :=
  match o with
  | None => None
  | Some (true, st, s) => Some (true, mkHp (m st) true true true true 0 (body st) 0 true 0 (sink st), s)
  | Some (false, st, s) => Some (false, hide st, s)
  end.

Lemma aligned_tail n p : aligned p -> aligned (dropz n p).
Proof.
  intros A x y E. apply (A (takez n p ++ x)). rewrite <- app_assoc, <- E. symmetry. apply takez_dropz.
Qed.
Lemma aligned_nonl p : ~ In 10 p -> aligned p.
Proof. intros N x y ->. exfalso. apply N. apply in_app_iff. right. now left. Qed.
Lemma aligned_end p : aligned p -> last p 0 = 10 -> exists x, p = x ++ [10] /\ ~ In 10 x.
Proof.
  intros A L. destruct (exists_last (l := p)) as [x [c E]]; [intros ->; discriminate L|]. subst p. rewrite last_last in L. subst c.
  exists x. split; [reflexivity|]. intros I. apply in_split in I. destruct I as (u & v & ->).
  rewrite <- app_assoc in A. specialize (A u (v ++ [10]) eq_refl). destruct v; discriminate A.
Qed.
Lemma aligned_noend p : aligned p -> last p 0 <> 10 -> ~ In 10 p.
Proof.
  intros A L I. apply in_split in I. destruct I as (u & v & ->). specialize (A u v eq_refl). subst v. apply L. apply last_last.
Qed.
Lemma aligned_merge p q : aligned p -> last p 0 <> 10 -> aligned q -> aligned (p ++ q).
Proof.
  intros A L B x y E. apply aligned_noend in L; [|assumption]. apply app_eq_app in E. destruct E as [l [[-> E]|[-> E]]].
  - destruct l as [|c l]; [cbn in E; subst q; apply (B [] y); reflexivity|].
    injection E as E1 _. subst c. exfalso. apply L. apply in_app_iff. right. now left.
  - apply (B l). assumption.
Qed.

Lemma concat_drop_empty d : List.concat (drop_empty d) = List.concat d.
Proof. induction d as [|[|c p] r IH]; [reflexivity|exact IH|reflexivity]. Qed.
Lemma drop_empty_forall (P : list Z -> Prop) d : Forall P d -> Forall P (drop_empty d).
Proof. induction 1 as [|p r H H1 IH]; [constructor|]. destruct p; [exact IH|constructor; assumption]. Qed.
Lemma drop_empty_len d : (List.length (drop_empty d) <= List.length d)%nat.
Proof. induction d as [|[|c p] r IH]; cbn in *; lia. Qed.
Lemma drop_empty_head d p r : drop_empty d = p :: r -> p <> [].
Proof. induction d as [|[|c q] d IH]; cbn [drop_empty]; intros E; [discriminate E|now apply IH|]. injection E as <- <-. discriminate. Qed.

Lemma chunk_len_range l : 0 <= chunk_len l < 2 ^ 32.
Proof.
  unfold chunk_len. set (f := fun n c => u32 (u32 (n << 4) .| hex_ord c)).
  assert (K : forall n, 0 <= n < 2 ^ 32 -> 0 <= fold_left f l n < 2 ^ 32); [|apply K; lia].
  induction l as [|c l IH]; intros n Hn; [exact Hn|]. cbn [fold_left]. apply IH. unfold f, u32. apply Z.mod_pos_bound. lia.
Qed.
Lemma atoi_range l : - 2 ^ 31 <= atoi l < 2 ^ 31.
Proof. unfold atoi, s32. destruct (_ <? _) eqn:E; pose proof (Z.mod_pos_bound (atoll l) (2 ^ 32)); unfold u32 in *; lia. Qed.

(** The state at the end of the headers. *)
Definition fresh (st : hp) : Prop :=
  seenHeaders st = true /\ possiblyComplete st = false /\ doingChunk st = 0 /\ currentLength st = 0 /\
  (knownLength st = true -> 0 <= length st < 2 ^ 31 \/ cb = true /\ 2 ^ 64 - 2 ^ 31 <= length st < 2 ^ 64).
Lemma head_line_ok st x st1 : inv st -> seenHeaders st = false -> head_line st x = Some st1 ->
  seenHeaders st1 = false /\ inv st1 \/ fresh st1.
Proof.
  unfold inv. intros I E. rewrite E in I. cbn [negb] in I. destruct I as (I1 & I2 & I3). unfold Http_Model.head_line.
  destruct (negb (seenReq st)).
  { destruct (first_line _ _) as [y ok]. intros K. injection K as <-. left. unfold with_msg. cbn. rewrite E. cbn. repeat split; assumption. }
  destruct (len (cut_cr x) =? 0).
  2:{ intros K. injection K as <-. left. unfold with_msg. cbn. rewrite E. cbn. repeat split; assumption. }
  unfold Http_Model.head_end. set (cl := GetHeader (bs "Content-Length") _). destruct (_ && (_ >? _)) eqn:T; [discriminate|].
  intros K. injection K as <-. right. unfold fresh. cbn [seenHeaders possiblyComplete doingChunk currentLength knownLength length].
  split; [reflexivity|]. split; [assumption|]. split; [match goal with |- (if ?c then _ else _) = _ => now destruct c end|]. split; [reflexivity|]. intros Kn. rewrite Kn in *.
  pose proof (atoi_range cl) as A. destruct (Z.leb 0 (atoi cl)) eqn:P.
  - left. unfold u64. rewrite Z.mod_small by lia. lia.
  - right. assert (U : u64 (atoi cl) = atoi cl + 2 ^ 64). { unfold u64. rewrite <- (Z.mod_add _ 1) by lia. rewrite Z.mod_small by lia. lia. }
    rewrite U in *. destruct cb; [split; [reflexivity|lia]|]. exfalso. cbn [andb negb] in T. lia.
Qed.

Definition step_ok (st : hp) (p : list Z) (later : Z) (o : option (bool * hp * list Z)) : Prop :=
  match o with
  | None => forall rest, R (hide st) (p ++ rest) = None
  | Some (done, st', p') =>
      if done && more true st'
      then forall rest, seen (R (hide st) (p ++ rest)) = seen (Some (true, st', p' ++ rest))
      else (forall rest, R (hide st) (p ++ rest) = R (hide st') (p' ++ rest)) /\ inv st' /\
           exists n, p' = dropz n p /\ few st' (len p' + later)
  end.
Lemma body_end st later : fresh st -> few st later -> step_ok st [] later (Some (parse_body st [])).
Proof.
  intros (E1 & E2 & E3 & E4 & E5) Fw. unfold Http_Model.parse_body.
  assert (Hh : hide st = st \/ getChunks st = true) by (unfold hide; destruct (getChunks st); auto).
  destruct (getChunks st) eqn:G.
  - assert (Hs : hide st = st). { unfold hide. rewrite G. destruct st. cbn in *. now subst. }
    destruct headerOnly eqn:HO; [|destruct (no_body (url (m st))) eqn:NB].
    + unfold step_ok, more. rewrite E2. cbn [negb orb andb]. intros rest. rewrite Hs, R_nobody by (rewrite ?HO; auto). reflexivity.
    + unfold step_ok, more. rewrite E2. cbn [negb orb andb]. intros rest. rewrite Hs, R_nobody by (rewrite ?HO, ?NB; auto). reflexivity.
    + rewrite andb_false_r. rewrite E3. cbn [negb Z.eqb findc findp]. cbn [step_ok andb].
      rewrite E4. cbn. split; [|split].
      * intros rest. rewrite Hs. unfold hide. cbn [getChunks set_counts]. cbn. f_equal. destruct st. cbn in *. now subst.
      * unfold inv. cbn [seenHeaders set_counts]. rewrite E1. cbn [negb]. cbn [getChunks set_counts doingChunk possiblyComplete m].
        rewrite HO, NB, E2. cbn. repeat split; lia.
      * exists 0. split; [reflexivity|]. destruct Fw as [->|Fw]; [now left|right]. unfold counted in *. cbn [seenHeaders set_counts getChunks knownLength].
        rewrite andb_false_r. rewrite G in Fw. rewrite andb_false_r in Fw. unfold len. cbn [List.length Z.of_nat]. lia.
  - assert (Hs : hide st = st) by (unfold hide; now rewrite G).
    destruct headerOnly eqn:HO; [|destruct (no_body (url (m st))) eqn:NB].
    + unfold step_ok, more. rewrite E2. cbn [negb orb andb]. intros rest. rewrite Hs, R_nobody by (rewrite ?HO; auto). reflexivity.
    + unfold step_ok, more. rewrite E2. cbn [negb orb andb]. intros rest. rewrite Hs, R_nobody by (rewrite ?HO, ?NB; auto). reflexivity.
    + destruct (knownLength st) eqn:Kn; cbn [negb andb].
      * change (len (@nil Z)) with 0. rewrite E4, Z.sub_0_r.
        assert (U : 0 <= u32 (length st)) by (unfold u32; apply Z.mod_pos_bound; lia).
        replace (if u32 (length st) >? 0 then 0 else u32 (length st)) with 0 by (destruct (_ >? _) eqn:Q; lia). cbn [Z.gtb Z.compare].
        rewrite E4. destruct (length st =? 0) eqn:L.
        -- unfold step_ok, more. replace (possiblyComplete (post_vars st)) with false
             by (unfold post_vars; destruct (_ && _); cbn; congruence). cbn [negb orb andb]. intros rest. rewrite Hs.
           rewrite R_known by (rewrite ?HO, ?NB; auto). unfold take_known. cbn [app]. rewrite E4.
           pose proof (len_nonneg rest). replace (Z.max 0 (Z.min (length st - 0) (len rest))) with 0 by lia. rewrite takez_0, dropz_0, deliver_nil. cbn zeta.
           cbn [length currentLength set_counts]. rewrite Z.add_0_r, L.
           replace (set_counts st false (doingChunk st) 0) with st by (destruct st; cbn in *; now subst). reflexivity.
        -- cbn [step_ok andb]. split; [reflexivity|]. split.
           ++ unfold inv. rewrite E1. cbn [negb]. rewrite G, Kn, HO, NB, E2, E4. cbn [orb]. specialize (E5 eq_refl).
              destruct E5 as [Q|[Q1 Q2]]; (split; [reflexivity|]; split; [reflexivity|]; split; [lia|]); [left; lia|right; split; [exact Q1|lia]].
           ++ exists 0. split; [reflexivity|]. rewrite len_nil. exact Fw.
      * destruct (rtsp st) eqn:Rt; unfold rtsp in Rt; rewrite Rt.
        -- unfold step_ok, more. rewrite E2. cbn [negb orb andb]. intros rest. rewrite Hs, R_open by (rewrite ?HO, ?NB; auto).
           unfold open_end, rtsp. now rewrite Rt.
        -- change (u32 (len (@nil Z))) with 0. rewrite takez_0, dropz_0, deliver_nil. unfold step_ok, more. cbn [possiblyComplete set_complete m negb orb andb].
           destruct (atoll (url (m st)) =? 0) eqn:A.
           ++ intros rest. rewrite Hs, R_open by (rewrite ?HO, ?NB; auto). unfold open_end, rtsp. now rewrite Rt, A.
           ++ split; [|split].
              ** intros rest. replace (hide (set_complete st)) with (set_complete st) by (unfold hide; cbn; now rewrite G). rewrite Hs.
                 rewrite !R_open by (cbn; rewrite ?HO, ?NB; auto). unfold open_end, rtsp. cbn [m set_complete]. rewrite Rt, A. reflexivity.
              ** unfold inv. cbn [seenHeaders set_complete]. rewrite E1. cbn. rewrite G, Kn, HO, NB. cbn. unfold rtsp. cbn. split; [reflexivity|]. split; [reflexivity|]. split; [exact Rt|lia].
              ** exists 0. split; [reflexivity|]. rewrite len_nil. exact Fw.
Qed.

Definition shorter (st : hp) (o : option (bool * hp * list Z)) (p : list Z) : Prop :=
  match o with
  | Some (done, st', p') => done && more true st' = false -> (List.length p' < List.length p)%nat /\ (wants_line st = true -> p' = [])
  | None => True
  end.
Lemma dropz_shorter n (p : list Z) : 0 < n -> p <> [] -> (List.length (dropz n p) < List.length p)%nat.
Proof.
  intros Hn Hp. destruct p as [|c p]; [congruence|]. rewrite dropz_S by lia. unfold dropz. rewrite skipn_length. cbn. lia.
Qed.
Lemma parse_nonempty st p : p <> [] -> seenHeaders st = true -> parse st p = Some (parse_body st p).
Proof. intros P E. unfold Http_Model.parse. cbn [Http_Model.parse_loop]. destruct p; [congruence|]. now rewrite E. Qed.
Lemma len_pos (p : list Z) : p <> [] -> 0 < len p.
Proof. destruct p; [congruence|]. rewrite len_cons. pose proof (len_nonneg p). lia. Qed.

Lemma body_step st p later : p <> [] -> aligned p -> (wants_line st = true -> last p 0 = 10) ->
  (wants_line st = false -> len p <= 4096) -> 0 <= later -> seenHeaders st = true -> inv st -> few st (len p + later) ->
  step_ok st p later (Some (parse_body st p)) /\ shorter st (Some (parse_body st p)) p.
Proof.
  intros P A W1 W2 La E I Fw. pose proof (len_pos p P) as Lp. unfold inv in I. rewrite E in I. cbn [negb] in I. destruct I as [NB I].
  pose proof NB as NB'. apply orb_false_iff in NB'. destruct NB' as [HO Nb]. unfold Http_Model.parse_body. rewrite HO, Nb.
  destruct (getChunks st) eqn:G.
  - destruct I as [Pc D]. rewrite andb_false_r. unfold wants_line in *. rewrite E, G in *. cbn [negb orb andb] in *.
    assert (Hh : hide st = set_counts st true (doingChunk st) 0) by (unfold hide; now rewrite G).
    destruct (doingChunk st =? 0) eqn:Dz; cbn [negb].
    + destruct (aligned_end p A (W1 eq_refl)) as (x & -> & N). rewrite (findc_at 10 x [] N), take_line. cbn zeta.
      destruct (negb (len (cut_cr x) =? 0) && (chunk_len (cut_cr x) =? 0)) eqn:Z0.
      * unfold step_ok, shorter, more. cbn [possiblyComplete set_counts]. rewrite Pc. cbn [negb orb andb]. split; [|discriminate].
        intros rest. rewrite Hh, R_chunk by assumption || reflexivity. unfold chunk_step. cbn [doingChunk set_counts]. rewrite Dz. cbn [negb].
        rewrite <- app_assoc. cbn [app]. rewrite (findc_at 10 x rest N), take_line. cbn zeta. rewrite Z0. reflexivity.
      * unfold step_ok, shorter, more. cbn [andb]. split; [split; [|split]|].
        -- intros rest. rewrite Hh, R_chunk by assumption || reflexivity. unfold chunk_step. cbn [doingChunk set_counts]. rewrite Dz. cbn [negb].
           rewrite <- app_assoc. cbn [app]. rewrite (findc_at 10 x rest N), take_line. cbn zeta. rewrite Z0. rewrite !drop_line.
           cbn [app]. unfold hide. cbn [getChunks set_counts]. replace (doingChunk st) with 0 by lia. reflexivity.
        -- unfold inv. cbn [seenHeaders set_counts getChunks possiblyComplete m doingChunk]. rewrite E. cbn [negb]. split; [exact NB|].
           split; [exact Pc|]. pose proof (chunk_len_range (cut_cr x)). destruct (len _ =? 0); lia.
        -- exists (len x + 1). split; [reflexivity|]. destruct Fw as [->|Fw]; [now left|right]. unfold counted in *.
           cbn [seenHeaders set_counts getChunks]. rewrite G in Fw. rewrite !andb_false_r in *. rewrite drop_line. rewrite len_app in *. change (len [10]) with 1 in *.
           change (len (@nil Z)) with 0. pose proof (len_nonneg x). lia.
        -- intros _. split; [apply dropz_shorter; [pose proof (len_nonneg x); lia|exact P]|intros _; apply drop_line].
    + assert (U : u32 (len p) = len p) by (unfold u32; apply Z.mod_small; specialize (W2 eq_refl); lia). rewrite U.
      set (n := if len p >? doingChunk st then doingChunk st else len p). assert (Hn : n = Z.min (doingChunk st) (len p) /\ 0 < n) by (unfold n; destruct (_ >? _) eqn:Q; lia).
      unfold step_ok, shorter. cbn [andb]. split; [split; [|split]|].
      * intros rest. pose proof (len_nonneg rest). rewrite Hh.
        rewrite R_split. rewrite R_chunk by assumption || reflexivity. unfold chunk_step. cbn [doingChunk set_counts]. rewrite Dz. cbn [negb].
        destruct p as [|c p0] eqn:Ep; [congruence|]. rewrite <- Ep in *. cbn zeta. rewrite Z.max_r by lia. rewrite <- (proj1 Hn).
        unfold hide. cbn [getChunks set_counts]. rewrite R_split. reflexivity.
      * unfold inv. cbn [seenHeaders set_counts getChunks possiblyComplete m doingChunk Http_Model.deliver]. rewrite E. cbn [negb]. split; [exact NB|].
        split; [exact Pc|]. lia.
      * exists n. split; [reflexivity|]. destruct Fw as [->|Fw]; [now left|right]. unfold counted in *.
        cbn [seenHeaders set_counts getChunks]. rewrite G in Fw. rewrite !andb_false_r in *. rewrite len_dropz by lia. lia.
      * intros _. split; [apply dropz_shorter; [lia|exact P]|]. unfold wants_line. rewrite E, G, Dz. discriminate.
  - assert (Hs : hide st = st) by (unfold hide; now rewrite G). destruct (knownLength st) eqn:Kn; cbn [negb andb].
    + destruct I as (Pc & Cu & Lb). unfold wants_line in *. rewrite E, G in *. cbn [negb orb andb] in *. specialize (W2 eq_refl).
      set (n := if u32 (length st - currentLength st) >? len p then len p else u32 (length st - currentLength st)).
      assert (Hn : n = Z.min (length st - currentLength st) (len p)).
      { destruct Lb as [Lb|[Cb Lb]].
        - assert (U : u32 (length st - currentLength st) = length st - currentLength st) by (unfold u32; apply Z.mod_small; lia).
          unfold n; clear n. rewrite U. destruct (_ >? _) eqn:Q; lia.
        - destruct Fw as [Fw|Fw]; [congruence|]. unfold counted in Fw. rewrite E, Kn, G in Fw. cbn [negb andb] in Fw.
          assert (U : u32 (length st - currentLength st) = length st - currentLength st - (2 ^ 64 - 2 ^ 32)).
          { unfold u32. rewrite <- (Z.mod_add _ (- (2 ^ 32 - 1))) by lia. rewrite Z.mod_small; lia. }
          unfold n; clear n. rewrite U. destruct (_ >? _) eqn:Q; lia. }
      assert (Hn1 : 0 < n <= len p) by lia. replace (n >? 0) with true by lia.
      cbn [length currentLength set_counts Http_Model.deliver].
      assert (U : u64 (currentLength st + n) = currentLength st + n) by (unfold u64; apply Z.mod_small; lia). rewrite U.
      set (st' := set_counts (deliver st (takez n p)) false (doingChunk st) (currentLength st + n)).
      assert (T : take_known st p = if length st =? currentLength st + n then (true, post_vars st', dropz n p) else (false, st', dropz n p)).
      { unfold take_known. cbn zeta. rewrite (Z.max_r 0) by lia. rewrite <- Hn. reflexivity. }
      destruct (length st =? currentLength st + n) eqn:L.
      * unfold step_ok, shorter, more. replace (possiblyComplete (post_vars st')) with false
             by (unfold post_vars; destruct (_ && _); cbn; congruence). cbn [negb orb andb]. split; [|discriminate].
        intros rest. rewrite Hs. rewrite R_split, R_known by assumption. rewrite T. reflexivity.
      * unfold step_ok, shorter. cbn [andb]. assert (Hs' : hide st' = st') by reflexivity. split; [split; [|split]|].
        -- intros rest. rewrite Hs, Hs'. rewrite R_split, R_known by assumption. rewrite T. reflexivity.
        -- unfold inv, st'. cbn [seenHeaders set_counts getChunks possiblyComplete m doingChunk Http_Model.deliver knownLength length currentLength].
           rewrite E, Kn. cbn [negb]. split; [exact NB|]. split; [exact Pc|]. split; [lia|exact Lb].
        -- exists n. split; [reflexivity|]. destruct Fw as [->|Fw]; [now left|right]. unfold counted, st' in *. rewrite E, Kn, G in Fw.
           cbn [seenHeaders set_counts getChunks Http_Model.deliver knownLength currentLength]. rewrite E, Kn. cbn [negb andb] in *. rewrite len_dropz by lia. lia.
        -- intros _. split; [apply dropz_shorter; [lia|exact P]|]. unfold wants_line. rewrite E, G. discriminate.
    + destruct I as (Pc & Rt & At). unfold rtsp in Rt. rewrite Rt. unfold wants_line in *. rewrite E, G in *. cbn [negb orb andb] in *. specialize (W2 eq_refl).
      assert (U : u32 (len p) = len p) by (unfold u32; apply Z.mod_small; lia). rewrite U. rewrite takez_all, dropz_all by lia.
      unfold step_ok, shorter, more. cbn [possiblyComplete set_complete m Http_Model.deliver negb orb andb].
      replace (atoll (url (m st)) =? 0) with false by lia. split; [split; [|split]|].
      * intros rest. rewrite Hs. rewrite R_split, R_open by assumption. unfold open_end, rtsp. rewrite Rt.
        replace (atoll (url (m st)) =? 0) with false by lia. f_equal. unfold hide. cbn. now rewrite G.
      * unfold inv. cbn [seenHeaders set_complete Http_Model.deliver m getChunks knownLength]. rewrite E, G, Kn. cbn [negb].
        split; [exact NB|]. split; [reflexivity|]. split; [exact Rt|exact At].
      * exists (len p). split; [now rewrite dropz_all by lia|]. destruct Fw as [->|Fw]; [now left|right]. unfold counted in *. cbn [seenHeaders knownLength getChunks currentLength set_complete Http_Model.deliver].
        unfold len at 1. cbn [List.length Z.of_nat]. lia.
      * intros _. split; [destruct p; [congruence|cbn; lia]|reflexivity].
Qed.

Lemma parse_line st x : seenHeaders st = false -> ~ In 10 x ->
  parse st (x ++ [10]) = match head_line st x with None => None | Some st1 =>
            if seenHeaders st1 then Some (parse_body st1 []) else Some (possiblyComplete st1, st1, []) end.
Proof.
  intros E N. unfold Http_Model.parse. set (n := List.length (x ++ [10])). assert (Hn : (0 < n)%nat) by (unfold n; rewrite app_length; cbn; lia).
  destruct n as [|n]; [lia|]. remember (x ++ [10]) as p eqn:Ep. remember (S n) as n1 eqn:En. cbn [Http_Model.parse_loop].
  destruct p as [|c p0]; [destruct x; discriminate Ep|]. rewrite E. cbn [negb]. rewrite Ep. rewrite (findc_at 10 x [] N), take_line, drop_line.
  destruct (head_line st x) as [st1|]; [|reflexivity]. cbn. destruct (seenHeaders st1); [reflexivity|]. subst n1. reflexivity.
Qed.

Lemma parse_step st p later : p <> [] -> aligned p -> (wants_line st = true -> last p 0 = 10) ->
  (wants_line st = false -> len p <= 4096) -> 0 <= later -> inv st -> few st (len p + later) ->
  step_ok st p later (parse st p) /\ shorter st (parse st p) p.
Proof.
  intros P A W1 W2 La I Fw. destruct (seenHeaders st) eqn:E; [rewrite parse_nonempty by assumption; now apply body_step|].
  assert (W : wants_line st = true) by (unfold wants_line; now rewrite E).
  destruct (aligned_end p A (W1 W)) as (x & Ep & N). pose proof I as I'. unfold inv in I'. rewrite E in I'. cbn [negb] in I'. destruct I' as (G & Pc & D0).
  assert (Hs : hide st = st) by (unfold hide; now rewrite G).
  assert (L : parse st p = match head_line st x with None => None | Some st1 =>
            if seenHeaders st1 then Some (parse_body st1 []) else Some (possiblyComplete st1, st1, []) end).
  { subst p. now apply parse_line. }
  assert (Rr : forall rest, R st (p ++ rest) = match head_line st x with None => None | Some st1 => R st1 rest end).
  { intros rest. rewrite R_head by assumption. rewrite Ep, <- app_assoc. cbn [app]. now rewrite (findc_at 10 x rest N), take_line, drop_line. }
  rewrite L. destruct (head_line st x) as [st1|] eqn:Hl.
  2:{ split; [|exact Logic.I]. unfold step_ok. intros rest. now rewrite Hs, Rr. }
  assert (Lx : (0 < List.length p)%nat) by (destruct p; [congruence|cbn; lia]).
  assert (Fl : few st later).
  { destruct Fw as [->|Fw]; [now left|right]. pose proof (len_nonneg p). lia. }
  destruct (head_line_ok st x st1 I E Hl) as [[E1 I1]|Fr].
  - rewrite E1. pose proof I1 as I1'. unfold inv in I1'. rewrite E1 in I1'. cbn [negb] in I1'. destruct I1' as (G1 & Pc1 & D1). rewrite Pc1.
    assert (Hs1 : hide st1 = st1) by (unfold hide; now rewrite G1).
    unfold step_ok, shorter. cbn [andb]. split; [split; [|split]|].
    + intros rest. now rewrite Hs, Hs1, Rr.
    + exact I1.
    + exists (len p). split; [now rewrite dropz_all by lia|]. destruct Fl as [->|Fl]; [now left|right]. unfold counted in *. rewrite E1. rewrite E in Fl. cbn [andb] in *.
      unfold len. cbn [List.length Z.of_nat]. lia.
    + intros _. split; [exact Lx|reflexivity].
  - destruct Fr as (F1 & F2 & F3 & F4 & F5). rewrite F1.
    assert (Fw1 : few st1 later).
    { destruct Fl as [->|Fl]; [now left|right]. unfold counted in *. rewrite E in Fl. cbn [andb] in Fl. destruct (_ && _); lia. }
    assert (Hs1 : hide st1 = st1). { unfold hide. destruct (getChunks st1) eqn:G1; [|reflexivity]. destruct st1. cbn in *. now subst. }
    pose proof (body_end st1 later (conj F1 (conj F2 (conj F3 (conj F4 F5)))) Fw1) as B.
    destruct (parse_body st1 []) as [[done st2] p2]. unfold step_ok, shorter in *. rewrite Hs. rewrite Hs1 in B.
    destruct (done && more true st2).
    + split; [|discriminate]. intros rest. rewrite Rr. apply (B rest).
    + destruct B as (B1 & B2 & n & B3 & B4). replace (dropz n []) with (@nil Z) in B3 by (unfold dropz; now rewrite skipn_nil). subst p2.
      split; [split; [|split]|].
      * intros rest. rewrite Rr. apply (B1 rest).
      * exact B2.
      * exists (len p). split; [now rewrite dropz_all by lia|exact B4].
      * intros _. split; [exact Lx|reflexivity].
Qed.

Definition small (p : list Z) : Prop := len p <= 4096.
Definition sized (st : hp) (parts : list (list Z)) : Prop :=
  Forall small parts \/ wants_line st = true /\ exists p r, parts = p :: r /\ Forall small r.
Definition idle (st : hp) (ps : list (list Z)) : Prop :=
  ps = [] \/ exists p, ps = [p] /\ p <> [] /\ wants_line st = true /\ last p 0 <> 10.
Definition read_ok (st : hp) (parts : list (list Z)) (later : Z) (o : option (bool * hp * list (list Z))) : Prop :=
  match o with
  | None => R (hide st) (List.concat parts) = None
  | Some (true, st', ps) => seen (R (hide st) (List.concat parts)) = seen (Some (true, st', List.concat ps))
  | Some (false, st', ps) => R (hide st) (List.concat parts) = R (hide st') (List.concat ps) /\
      R (hide st') (List.concat ps) = Some (false, hide st', List.concat ps) /\
      inv st' /\ Forall aligned ps /\ sized st' ps /\ few st' (len (List.concat ps) + later) /\ idle st' ps
  end.
Lemma read_ok_eq st parts st2 parts2 later o : R (hide st) (List.concat parts) = R (hide st2) (List.concat parts2) ->
  read_ok st2 parts2 later o -> read_ok st parts later o.
Proof. intros E. unfold read_ok. rewrite E. auto. Qed.
Lemma R_empty st : inv st -> R (hide st) [] = Some (false, hide st, []).
Proof.
  intros I. unfold inv in I. destruct (seenHeaders st) eqn:E; cbn [negb] in I.
  2:{ destruct I as (G & _). unfold hide. rewrite G. now rewrite R_head. }
  destruct I as [NB I]. destruct (getChunks st) eqn:G.
  - unfold hide. rewrite G. rewrite R_chunk by assumption || reflexivity. unfold chunk_step. now destruct (negb _).
  - unfold hide. rewrite G. destruct (knownLength st) eqn:K.
    + rewrite R_known by assumption. unfold take_known. change (len (@nil Z)) with 0. destruct I as (_ & C & _).
      replace (Z.max 0 (Z.min (length st - currentLength st) 0)) with 0 by lia. rewrite takez_0, dropz_0, deliver_nil, Z.add_0_r. cbn zeta.
      cbn [length currentLength set_counts]. replace (length st =? currentLength st) with false by lia.
      replace (set_counts st false (doingChunk st) (currentLength st)) with st; [reflexivity|]. destruct st. cbn in *. now subst.
    + destruct I as (Pc & Rt & A). rewrite R_open by assumption. unfold open_end. rewrite Rt.
      replace (atoll _ =? 0) with false by lia. rewrite deliver_nil. do 3 f_equal. destruct st. cbn in *. now subst.
Qed.
Lemma few_less st a b : a <= b -> few st b -> few st a.
Proof. intros L [F|F]; [now left|right; lia]. Qed.
Lemma wants_hide st p : wants_line st = true -> inv st -> ~ In 10 p -> R (hide st) p = Some (false, hide st, p).
Proof.
  intros W I N. apply findc_no in N. unfold inv in I. unfold wants_line in W. destruct (seenHeaders st) eqn:E; cbn [negb orb] in *.
  - apply andb_true_iff in W. destruct W as [G D]. rewrite G in I. destruct I as [NB I]. unfold hide. rewrite G.
    rewrite R_chunk by assumption || reflexivity. unfold chunk_step. cbn [doingChunk set_counts]. rewrite D. cbn [negb]. now rewrite N.
  - destruct I as (G & _). unfold hide. rewrite G. rewrite R_head by assumption. now rewrite N.
Qed.
Lemma read_loop_ok fuel : forall st parts later, inv st -> Forall aligned parts -> sized st parts -> 0 <= later ->
  few st (len (List.concat parts) + later) -> (List.length (List.concat parts) + List.length parts < fuel)%nat ->
  read_ok st parts later (read_loop fuel true st parts).
Proof.
  induction fuel as [|k IH]; intros st parts later I A S La Fw Fu; [lia|]. cbn [Http_Model.read_loop].
  pose proof (concat_drop_empty parts) as Ce. pose proof (drop_empty_len parts) as Le. pose proof (drop_empty_head parts) as Lh.
  apply drop_empty_forall in A.
  assert (S' : sized st (drop_empty parts)).
  { destruct S as [S|(W & p & r & -> & S)]; [left; now apply drop_empty_forall|].
    destruct p; [left; cbn; now apply drop_empty_forall|right]. split; [exact W|]. now eexists _, r. }
  destruct (drop_empty parts) as [|p r].
  - cbn [List.concat] in Ce. unfold read_ok. rewrite <- Ce in *. cbn [List.concat]. split; [reflexivity|]. split; [now apply R_empty|].
    split; [exact I|]. split; [constructor|]. split; [left; constructor|]. split; [exact Fw|now left].
  - specialize (Lh p r eq_refl). inversion A as [|? ? Ap Ar]. subst. cbn [List.concat] in Ce. cbn [List.length] in Le.
    assert (Fc : few st (len p + (len (List.concat r) + later))) by (rewrite <- Ce in Fw; rewrite len_app in Fw; now rewrite Z.add_assoc).
    rewrite <- Ce in Fu. rewrite app_length in Fu.
    assert (Sr : Forall small r).
    { destruct S' as [S'|(W & p' & r' & E & S')]; [now inversion S'|]. now injection E as <- <-. }
    destruct (wants_line st && negb (last p 0 =? 10)) eqn:W.
    + apply andb_true_iff in W. destruct W as [W L]. assert (L' : last p 0 <> 10) by lia. destruct r as [|q r].
      * unfold read_ok. cbn [List.concat] in *. rewrite Ce. split; [reflexivity|]. rewrite <- Ce. rewrite app_nil_r in *. split.
        { apply wants_hide; [assumption..|]. now apply aligned_noend. }
        split; [exact I|]. split; [exact A|]. split; [exact S'|]. split; [rewrite Ce; exact Fw|]. right. exists p. repeat split; assumption.
      * inversion Ar as [|? ? Aq Arr]. subst. inversion Sr as [|? ? Sq Srr]. subst. apply (read_ok_eq st parts st ((p ++ q) :: r)).
        { f_equal. rewrite <- Ce. cbn [List.concat]. now rewrite app_assoc. }
        apply IH.
        -- exact I.
        -- constructor; [now apply aligned_merge|assumption].
        -- right. split; [exact W|]. now exists (p ++ q), r.
        -- exact La.
        -- cbn [List.concat] in *. rewrite <- app_assoc, Ce. exact Fw.
        -- cbn [List.concat List.length] in *. rewrite !app_length in *. lia.
    + assert (W1 : wants_line st = true -> last p 0 = 10).
      { intros W1. rewrite W1 in W. cbn [andb] in W. destruct (last p 0 =? 10) eqn:Q; [lia|discriminate W]. }
      assert (W2 : wants_line st = false -> len p <= 4096).
      { intros W2. destruct S' as [S'|(W3 & _)]; [now inversion S'|congruence]. }
      assert (L0 : 0 <= len (List.concat r) + later) by (pose proof (len_nonneg (List.concat r)); lia).
      destruct (parse_step st p (len (List.concat r) + later) Lh Ap W1 W2 L0 I Fc) as [P1 P2].
      destruct (parse st p) as [[[done st1] p1]|]; unfold step_ok, shorter in *.
      2:{ unfold read_ok. rewrite <- Ce. apply P1. }
      destruct (done && more true st1) eqn:Dm.
      * unfold read_ok. rewrite <- Ce. rewrite P1. reflexivity.
      * destruct P1 as (P1 & I1 & n & -> & Fn). specialize (P2 eq_refl). destruct P2 as [P2 P3]. apply (read_ok_eq st parts st1 (dropz n p :: r)).
        { rewrite <- Ce. apply P1. }
        apply IH.
        -- exact I1.
        -- constructor; [now apply aligned_tail|assumption].
        -- left. constructor; [|assumption]. unfold small. destruct (wants_line st) eqn:Wl; [|].
           ++ rewrite (P3 eq_refl). unfold len. cbn. lia.
           ++ specialize (W2 eq_refl). unfold len in *. lia.
        -- exact La.
        -- cbn [List.concat]. rewrite len_app. now rewrite <- Z.add_assoc.
        -- cbn [List.concat List.length] in *. rewrite !app_length in *. lia.
Qed.

Lemma Read_ok st parts later : inv st -> Forall aligned parts -> sized st parts -> 0 <= later ->
  few st (len (List.concat parts) + later) -> List.concat parts <> [] -> read_ok st parts later (Read true st parts).
Proof.
  intros I A S La Fw Ne. unfold Http_Model.Read. pose proof (concat_drop_empty parts) as Ce. pose proof (drop_empty_len parts) as Le.
  pose proof (drop_empty_head parts) as Lh. apply drop_empty_forall in A.
  assert (S' : sized st (drop_empty parts)).
  { destruct S as [S|(W & p & r & -> & S)]; [left; now apply drop_empty_forall|].
    destruct p; [left; cbn; now apply drop_empty_forall|right]. split; [exact W|]. now eexists _, r. }
  destruct (drop_empty parts) as [|p r] eqn:Ed; [cbn in Ce; congruence|]. rewrite <- Ed in *.
  apply (read_ok_eq st parts st (drop_empty parts)); [now rewrite Ce|]. apply read_loop_ok; try assumption; rewrite Ce; [exact Fw|]. rewrite Ed. cbn [List.length]. lia.
Qed.

(** *** Arrivals *)
Lemma stored_concat a : List.concat (stored a) = a.
Proof. unfold stored. now destruct (SockBuf_Proofs.cut_ok (List.length a) [10] a (le_n _)). Qed.
Lemma nthz_middle (x : list Z) c y : nthz (x ++ c :: y) (len x) = c.
Proof. unfold nthz, len. rewrite Nat2Z.id. rewrite app_nth2 by lia. now rewrite Nat.sub_diag. Qed.
Lemma stored_aligned a : Forall aligned (stored a).
Proof.
  unfold stored. eapply Forall_impl; [|apply SockBuf_Proofs.cut_part_ok]. intros p P x y ->. destruct y as [|c y]; [reflexivity|].
  exfalso. apply (P (len x)); [|apply nthz_middle]. rewrite len_app, !len_cons. pose proof (len_nonneg x). pose proof (len_nonneg y). lia.
Qed.
Lemma scan_small fuel sp l : forall j, 0 <= j <= 4096 -> SockBuf_Model.scan_loop fuel sp l j <= 4096.
Proof.
  induction fuel as [|k IH]; intros j J; [exact (proj2 J)|]. cbn [SockBuf_Model.scan_loop]. unfold SockBuf_Model.BLOCKSIZE.
  destruct ((j <? len l) && (j <? 4096)) eqn:E; [|lia]. apply andb_true_iff in E. destruct E as [_ E]. cbn zeta.
  match goal with |- (if ?c then _ else _) <= _ => destruct c end; [lia|]. apply IH. lia.
Qed.
Lemma stored_small a : Forall small (stored a).
Proof.
  unfold stored. generalize (List.length a) as n. intros n. revert a. induction n as [|n IH]; intros a; [constructor|]. cbn [SockBuf_Model.cut].
  destruct (0 <? len a) eqn:L; [|constructor]. cbn zeta. destruct (_ =? 0); [constructor|]. constructor; [|apply IH].
  pose proof (SockBuf_Proofs.next_part_bounds [10] a ltac:(lia)). unfold small. rewrite len_takez by lia.
  unfold SockBuf_Model.next_part. change (len [10] =? 0) with false. cbv iota. apply scan_small. lia.
Qed.

Definition verdict_of (o : option (bool * hp * list Z)) : verdict :=
  match o with
  | None => Throws
  | Some (true, st, s) => Complete (m st) (body st) (sink st) s
  | Some (false, st, s) => if closed && possiblyComplete st then Complete (m st) (body st) (sink st) s
                           else Waiting (m st) (body st) (sink st) s
  end.
Lemma hide_vis st : m (hide st) = m st /\ body (hide st) = body st /\ sink (hide st) = sink st.
Proof. unfold hide. destruct (getChunks st); repeat split. Qed.
Lemma idle_end st parts : inv st -> idle st parts ->
  session st parts [] = verdict_of (Some (false, hide st, List.concat parts)).
Proof.
  intros I Id. cbn [Http_Spec.session verdict_of]. destruct (hide_vis st) as (-> & -> & ->).
  replace (possiblyComplete (hide st)) with (possiblyComplete st) by (unfold hide; now destruct (getChunks st)).
  destruct closed; [|reflexivity]. cbn [andb]. destruct Id as [->|(p & -> & P & W & L)].
  - cbn. unfold more. cbn [negb]. rewrite orb_true_r. cbn [orb]. rewrite andb_true_r. now destruct (possiblyComplete st).
  - unfold Http_Model.Read. destruct p as [|c p]; [congruence|]. cbn [drop_empty]. cbn [Http_Model.read_loop drop_empty]. rewrite W.
    replace (last (c :: p) 0 =? 10) with false by lia. cbn [negb andb List.concat]. 
    assert (Pc : possiblyComplete st = false).
    { unfold inv in I. unfold wants_line in W. destruct (seenHeaders st); cbn [negb orb] in *; [|tauto]. destruct I as [_ I].
      destruct (getChunks st); [tauto|discriminate W]. }
    now rewrite Pc.
Qed.
Lemma session_R arrivals : forall st parts, inv st -> Forall aligned parts -> sized st parts ->
  few st (len (List.concat parts) + len (List.concat arrivals)) -> idle st parts ->
  R (hide st) (List.concat parts) = Some (false, hide st, List.concat parts) ->
  session st parts arrivals = verdict_of (R (hide st) (List.concat parts ++ List.concat arrivals)).
Proof.
  induction arrivals as [|a later IH]; intros st parts I A S Fw Id Rp.
  { cbn [List.concat]. rewrite app_nil_r, Rp. now apply idle_end. }
  cbn [Http_Spec.session List.concat]. cbn [List.concat] in Fw. rewrite len_app in Fw.
  assert (Cc : List.concat (parts ++ stored a) = List.concat parts ++ a) by (now rewrite List.concat_app, stored_concat).
  destruct (List.concat parts ++ a) as [|c l] eqn:Ec.
  - apply app_eq_nil in Ec. destruct Ec as [Ep ->]. rewrite Ep in *. rewrite Cc || idtac.
    assert (De : drop_empty (parts ++ stored []) = []).
    { clear -Cc. induction (parts ++ stored []) as [|[|c p] r IH]; [reflexivity|now apply IH|discriminate Cc]. }
    unfold Http_Model.Read. rewrite De. cbn. 
    assert (Pm : possiblyComplete st && more true st = false).
    { unfold inv in I. unfold more. destruct (seenHeaders st); cbn [negb] in I; [|destruct I as (_ & -> & _); reflexivity].
      destruct I as [_ I]. destruct (getChunks st); [now destruct I as [-> _]|]. destruct (knownLength st); [now destruct I as [-> _]|].
      destruct I as (-> & _ & At). cbn. lia. }
    rewrite Pm. rewrite IH; [now cbn [List.concat app]|assumption|constructor|left; constructor| |now left|exact Rp].
    cbn [List.concat]. revert Fw. apply few_less. change (len (@nil Z)) with 0. lia.
  - pose proof (Read_ok st (parts ++ stored a) (len (List.concat later)) I) as K. rewrite Cc in K.
    assert (K' : read_ok st (parts ++ stored a) (len (List.concat later)) (Read true st (parts ++ stored a))).
    { apply K.
      - apply Forall_app. split; [exact A|apply stored_aligned].
      - destruct S as [S|(W & p & r & -> & S)]; [left; apply Forall_app; split; [exact S|apply stored_small]|].
        right. split; [exact W|]. exists p, (r ++ stored a). split; [reflexivity|]. apply Forall_app. split; [exact S|apply stored_small].
      - apply len_nonneg.
      - rewrite <- Ec, len_app. now rewrite <- Z.add_assoc.
      - discriminate. }
    clear K. unfold read_ok in K'. rewrite Cc in K'. rewrite app_assoc, Ec.
    rewrite R_split. destruct (Read true st (parts ++ stored a)) as [[[[|] st'] ps]|].
    + destruct (R (hide st) (c :: l)) as [[[[|] st2] r2]|]; cbn [seen] in K'; [|discriminate K'..]. injection K' as E1 E2 E3 E4. cbn. now rewrite E1, E2, E3, E4.
    + destruct K' as (K1 & K2 & I' & A' & S' & F' & Id'). rewrite K1, K2. apply IH; assumption.
    + now rewrite K'.
Qed.
End Run.
