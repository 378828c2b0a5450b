(** Whole chunk streams: any interleaving, any segmentation. *)
From Verif Require Import Common CommonFacts CommonMore Bitfields_Model Bitfields_Proofs Rtmp_Model Rtmp_Spec Rtmp_Proofs.
Import List.

Inductive pending (id : Z) (r : chunk) (w : list wire) : Prop :=
| p_idle h : idle h r -> channel id h w -> pending id r w
| p_inside m d x rest w1 w2 : m_cs m = id -> inside m d x rest r -> (x = true -> extended m = true) ->
    rest_of m (if x then ext_bytes m else []) rest w1 -> channel id (Some (m, d, x)) w2 -> w = w1 ++ w2 -> pending id r w.

Lemma header_ext : forall h m fmt d x hb, header h m fmt d x hb -> x = true -> extended m = true.
Proof. intros h m fmt d x hb H. destruct H; congruence. Qed.
Lemma len_pos : forall {A} (l : list A), l <> [] -> 0 < len l.
Proof. intros A l H. destruct l; [congruence|]. lens. pose proof (len_nonneg l). lia. Qed.

Definition outcome_ok (id : Z) (w : wire) (st : Z -> chunk) (o : outcome) (more : list Z) (ws : list wire) : Prop :=
  match w_done w with
  | Some m => exists c st', o = Done c st' more /\ to_msg c = m /\ valid_msg m /\ elsewhere id st st' /\ pending id (st' id) ws
  | None => exists st', o = More st' more /\ elsewhere id st st' /\ pending id (st' id) ws
  end.
Lemma pending_step : forall id w ws st more,
  pending id (st id) (w :: ws) -> 3 <= len (w_bytes w ++ more) ->
  outcome_ok id w st (parse_chunk (w_size w) st (w_bytes w ++ more)) more ws.
Proof.
  intros id w ws st more Hp H3.
  assert (Hend : forall m d x r, idle (Some (m, d, x)) r -> valid_msg m) by (intros m d x r (_ & Hi); apply Hi).
  destruct Hp as [h Hi Hc|m d x rest w1 w2 Hid Hi Hx Hr Hc Hw].
  - inversion Hc as [|h' m fmt d x hb n b w1 w2 Hid Hv Hh Hb Hn Hr Hc2]; subst.
    cbn [w_bytes w_size] in *.
    pose proof (first_chunk (m_cs m) h m fmt d x hb n b st more eq_refl Hv Hh Hb Hn Hi H3) as Hs.
    unfold step_ok in Hs. unfold outcome_ok, completes. cbn [w_done].
    destruct (Z.leb_spec (len (m_data m)) n).
    + destruct Hs as (c & st' & E & E1 & E2 & E3). exists c, st'. split; [exact E|]. split; [exact E1|]. split; [exact Hv|]. split; [exact E2|].
      assert (Hw1 : w1 = []).
      { inversion Hr as [|d' n' b' w' Hd]; subst; [reflexivity|]. exfalso. apply Hd. apply dropz_all. lia. }
      rewrite Hw1. cbn [app]. eapply p_idle; eassumption.
    + destruct Hs as (st' & E & E1 & E2). exists st'. split; [exact E|]. split; [exact E1|].
      eapply p_inside; try eassumption; try reflexivity. eapply header_ext; eassumption.
  - inversion Hr as [|rest' n b w' Hd Hn Hb Hr2]; subst.
    { exfalso. destruct Hi as (Hi & _). congruence. }
    cbn [app] in Hw. injection Hw as -> ->. cbn [w_bytes w_size] in *.
    pose proof (next_chunk (m_cs m) m d x rest n b st more eq_refl Hb Hn Hi Hx H3) as Hs.
    unfold step_ok in Hs. unfold outcome_ok, completes. cbn [w_done].
    destruct (Z.leb_spec (len rest) n).
    + destruct Hs as (c & st' & E & E1 & E2 & E3). exists c, st'. split; [exact E|]. split; [exact E1|]. split; [eapply Hend; exact E3|]. split; [exact E2|].
      assert (Hw1 : w' = []).
      { inversion Hr2 as [|d' n' b' w0 Hd']; subst; [reflexivity|]. exfalso. apply Hd'. apply dropz_all. lia. }
      rewrite Hw1. cbn [app]. eapply p_idle; eassumption.
    + destruct Hs as (st' & E & E1 & E2). exists st'. split; [exact E|]. split; [exact E1|].
      eapply p_inside; try eassumption; reflexivity.
Qed.

(** The receiving loop, one chunk at a time. *)
Fixpoint drain (k : nat) (r : receiver) : list chunk * receiver :=
  match k with
  | O => ([], r)
  | S k => match parse_chunk (rmax r) (rst r) (rbuf r) with
           | Wait => ([], r)
           | More st b => drain k (mkrcv (rmax r) st b)
           | Done c st b => let (l, r') := drain k (mkrcv (on_message (rmax r) c) st b) in (c :: l, r')
           end
  end.
Lemma read_id_range : forall d, let '(_, i) := read_id d in 1 <= i <= 3.
Proof. intros d. unfold read_id. dif; lia. Qed.

Definition wf (maxc : Z) (st : Z -> chunk) (buf : list Z) : Prop :=
  0 <= maxc /\ bytesP buf /\ forall j, 0 <= left (st j) /\ 0 <= mlen (st j) /\ bytesP (cdata (st j)).
Lemma in24_nonneg : forall d i, bytesP d -> 0 <= in24 d i.
Proof.
  intros d i H. unfold in24. pose proof (bytesP_nthz d i H). pose proof (bytesP_nthz d (i + 1) H). pose proof (bytesP_nthz d (i + 2) H).
  unfold byteP in *. rewrite !Z.lor_nonneg, !Z.shiftl_nonneg. lia.
Qed.
Lemma read_header_wf : forall d p id i c j, bytesP d -> 0 <= left p -> 0 <= mlen p -> 0 < i ->
  read_header d p id i = Some (c, j) -> 0 <= left c /\ 0 <= mlen c /\ i <= j <= i + 11 /\ (j = i \/ j <= len d).
Proof.
  intros d p id i c j Hd H1 H2 Hi. unfold read_header. pose proof (in24_nonneg d (i + 3) Hd).
  destruct (_ =? 0).
  { destruct (Z.ltb_spec (len d) (i + 11)); [discriminate|]. intros E. injection E as <- <-. cbn [left mlen]. lia. }
  destruct (_ =? 64).
  { destruct (Z.ltb_spec (len d) (i + 7)); [discriminate|]. destruct (in24 d i =? 16777215); intros E; injection E as <- <-; cbn [left mlen]; lia. }
  destruct (_ =? 128).
  { destruct (Z.ltb_spec (len d) (i + 3)); [discriminate|]. destruct (in24 d i =? 16777215); intros E; injection E as <- <-; cbn [left mlen]; lia. }
  intros E; injection E as <- <-; cbn [left mlen]; lia.
Qed.
(** What a successful round leaves behind. *)
Definition round_ok (maxc : Z) (st : Z -> chunk) (buf : list Z) (st' : Z -> chunk) (buf' : list Z) : Prop :=
  wf maxc st' buf' /\ len buf' < len buf.
Lemma round : forall maxc st buf, wf maxc st buf ->
  match parse_chunk maxc st buf with
  | Wait => True
  | More st' buf' => round_ok maxc st buf st' buf'
  | Done c st' buf' => round_ok maxc st buf st' buf' /\ bytesP (cdata c)
  end.
Proof.
  intros maxc st buf (Hm & Hb & Hst). unfold parse_chunk.
  destruct (_ <? 3); [exact I|]. pose proof (read_id_range (takez 18 buf)) as Hi.
  destruct (read_id (takez 18 buf)) as [id i].
  destruct (read_header (takez 18 buf) (st id) id i) as [[c j]|] eqn:Hr; [|exact I].
  destruct (Hst id) as (S1 & S2 & S3).
  apply read_header_wf in Hr; try assumption; try lia; [|apply bytesP_takez; exact Hb]. destruct Hr as (R1 & R2 & R3 & _).
  set (rl := if maxc <? _ then _ else _).
  assert (Hrl : 0 <= fst rl /\ 0 <= snd rl).
  { unfold rl. pose proof (u32_range ((if 0 <? left c then left c else mlen c) - maxc)).
    destruct (maxc <? _); cbn [fst snd]; destruct (0 <? left c); lia. }
  destruct rl as [real lft]. cbn [fst snd] in Hrl.
  destruct (_ && _); [exact I|].
  set (x := if tsh c =? 16777215 then _ else _).
  assert (Hx : j <= snd x).
  { unfold x. destruct (tsh c =? 16777215); [destruct (read_ext _ _ _)|]; cbn [snd]; lia. }
  destruct x as [[tm dl] k]. cbn [snd] in Hx.
  destruct (Z.ltb_spec (len buf) (k + real)); [exact I|].
  set (sw := negb (real =? 0) && negb (left (st id) =? 0)).
  set (pd := if sw then [] else cdata (st id)).
  set (dat := if real =? 0 then [] else _).
  assert (Hpd : bytesP pd) by (unfold pd; destruct sw; [constructor|exact S3]).
  assert (Hdat : bytesP dat).
  { unfold dat. destruct (real =? 0); [constructor|]. apply bytesP_app. split; [destruct sw; [exact S3|constructor]|].
    apply bytesP_takez, bytesP_dropz, Hb. }
  assert (Hro : forall q, bytesP q -> round_ok maxc st buf (upd st id (mkch id tm dl (tsh c) (mlen c) lft (mtype c) (msid c) q)) (dropz (k + real) buf)).
  { intros q Hq. split.
    - split; [exact Hm|]. split; [apply bytesP_dropz, Hb|]. intros n. unfold upd. destruct (n =? id); [|apply Hst].
      cbn [left mlen cdata]. conjs; try assumption; lia.
    - rewrite len_dropz; lia. }
  destruct (lft =? 0) eqn:El; destruct (_ || _); conjs; try (apply Hro; assumption); cbn [cdata]; assumption.
Qed.

(** More bytes behind the first ones do not change a successful round. *)
Lemma take_at : forall a b i, 0 <= i < len (takez 18 a) -> nthz (takez 18 (a ++ b)) i = nthz (takez 18 a) i.
Proof.
  intros a b i Hi. rewrite len_takez_min in Hi by lia. rewrite !nthz_takez by lia. apply nthz_app1. lia.
Qed.
Lemma round_app : forall maxc st buf more, wf maxc st buf ->
  match parse_chunk maxc st buf with
  | Wait => True
  | More st' buf' => parse_chunk maxc st (buf ++ more) = More st' (buf' ++ more)
  | Done c st' buf' => parse_chunk maxc st (buf ++ more) = Done c st' (buf' ++ more)
  end.
Proof.
  intros maxc st buf more (Hm & Hb & Hst). unfold parse_chunk.
  pose proof (len_nonneg more) as Hmore.
  assert (Hl : len (takez 18 buf) <= len (takez 18 (buf ++ more))).
  { rewrite !len_takez_min by lia. rewrite len_app. lia. }
  destruct (Z.ltb_spec (len (takez 18 buf)) 3); [exact I|].
  replace (len (takez 18 (buf ++ more)) <? 3) with false by lia.
  assert (Hid : read_id (takez 18 (buf ++ more)) = read_id (takez 18 buf)).
  { unfold read_id. rewrite !take_at by lia. reflexivity. }
  rewrite Hid. pose proof (read_id_range (takez 18 buf)) as Hi.
  destruct (read_id (takez 18 buf)) as [id i].
  assert (Hrd : forall x, read_header (takez 18 buf) (st id) id i = Some x -> read_header (takez 18 (buf ++ more)) (st id) id i = Some x).
  { intros x. unfold read_header, in24. rewrite (take_at buf more 0) by lia.
    destruct (_ =? 0).
    { destruct (Z.ltb_spec (len (takez 18 buf)) (i + 11)); [discriminate|].
      replace (len (takez 18 (buf ++ more)) <? i + 11) with false by lia. rewrite !take_at by lia. exact (fun z => z). }
    destruct (_ =? 64).
    { destruct (Z.ltb_spec (len (takez 18 buf)) (i + 7)); [discriminate|].
      replace (len (takez 18 (buf ++ more)) <? i + 7) with false by lia. rewrite !take_at by lia. exact (fun z => z). }
    destruct (_ =? 128).
    { destruct (Z.ltb_spec (len (takez 18 buf)) (i + 3)); [discriminate|].
      replace (len (takez 18 (buf ++ more)) <? i + 3) with false by lia. rewrite !take_at by lia. exact (fun z => z). }
    exact (fun z => z). }
  destruct (read_header (takez 18 buf) (st id) id i) as [[c j]|] eqn:Hr; [|exact I].
  rewrite (Hrd _ eq_refl). clear Hrd.
  destruct (Hst id) as (S1 & S2 & S3).
  apply read_header_wf in Hr; try assumption; try lia; [|apply bytesP_takez; exact Hb]. destruct Hr as (R1 & R2 & R3 & R4).
  set (rl := if maxc <? _ then _ else _).
  assert (Hrl : 0 <= fst rl /\ 0 <= snd rl).
  { unfold rl. pose proof (u32_range ((if 0 <? left c then left c else mlen c) - maxc)).
    destruct (maxc <? _); cbn [fst snd]; destruct (0 <? left c); lia. }
  destruct rl as [real lft]. cbn [fst snd] in Hrl.
  destruct (_ && _) eqn:Hx1; [exact I|].
  replace ((tsh c =? 16777215) && (len (takez 18 (buf ++ more)) <? j + 4)) with false by lia. cbv iota.
  assert (Hx : (if tsh c =? 16777215 then let '(t, dl) := read_ext (takez 18 (buf ++ more)) (st id) j in (t, dl, j + 4) else (ts c, delta c, j)) =
    (if tsh c =? 16777215 then let '(t, dl) := read_ext (takez 18 buf) (st id) j in (t, dl, j + 4) else (ts c, delta c, j))).
  { destruct (tsh c =? 16777215); [|reflexivity]. cbn [andb] in Hx1. unfold read_ext. rewrite !take_at by lia. reflexivity. }
  rewrite Hx. clear Hx. set (x := if tsh c =? 16777215 then _ else _).
  assert (Hx : j <= snd x).
  { unfold x. destruct (tsh c =? 16777215); [destruct (read_ext _ _ _)|]; cbn [snd]; lia. }
  destruct x as [[tm dl] k]. cbn [snd] in Hx.
  destruct (Z.ltb_spec (len buf) (k + real)); [exact I|].
  replace (len (buf ++ more) <? k + real) with false by (rewrite len_app; lia).
  rewrite !(dropz_app _ buf) by lia.
  rewrite (takez_app real (dropz k buf)) by (rewrite len_dropz; lia).
  destruct (if lft =? 0 then _ else _). destruct (_ || _); reflexivity.
Qed.
Lemma on_message_nonneg : forall maxc c, 0 <= maxc -> bytesP (cdata c) -> 0 <= on_message maxc c.
Proof.
  intros maxc c Hm Hb. unfold on_message. destruct (_ && _); [|exact Hm]. unfold btohl.
  apply u32_range.
Qed.
Definition wfr (r : receiver) : Prop := wf (rmax r) (rst r) (rbuf r).
Lemma drain_fuel : forall k k' r, wfr r -> len (rbuf r) < Z.of_nat k -> len (rbuf r) < Z.of_nat k' -> drain k r = drain k' r.
Proof.
  induction k as [|k IH]; intros k' r Hw Hk Hk'; [pose proof (len_nonneg (rbuf r)); lia|].
  destruct k' as [|k']; [pose proof (len_nonneg (rbuf r)); lia|]. cbn [drain].
  pose proof (round _ _ _ Hw) as Hr.
  destruct (parse_chunk _ _ _) as [|st b|c st b]; [reflexivity| |].
  - destruct Hr as [Hr1 Hr2]. apply IH; [exact Hr1| |]; cbn [rbuf]; lia.
  - destruct Hr as [[(Hr1 & Hr3) Hr2] Hc].
    rewrite (IH k'); [reflexivity| | |]; cbn [rbuf]; try lia.
    split; [|exact Hr3]. apply on_message_nonneg; [apply Hw|exact Hc].
Qed.
Definition plus (r : receiver) (more : list Z) : receiver := mkrcv (rmax r) (rst r) (rbuf r ++ more).
Lemma wf_more : forall r more, wfr r -> bytesP more -> wfr (plus r more).
Proof. intros r more (H1 & H2 & H3) Hm. split; [exact H1|]. split; [|exact H3]. cbn [plus rbuf]. apply bytesP_app. split; assumption. Qed.
Lemma drain_wf : forall k r, wfr r -> wfr (snd (drain k r)) /\ len (rbuf (snd (drain k r))) <= len (rbuf r).
Proof.
  induction k as [|k IH]; intros r Hw; cbn [drain]; [cbn [snd]; split; [exact Hw|lia]|].
  pose proof (round _ _ _ Hw) as Hr.
  destruct (parse_chunk _ _ _) as [|st b|c st b]; [cbn [snd]; split; [exact Hw|lia]| |].
  - destruct Hr as [Hr1 Hr2]. destruct (IH (mkrcv (rmax r) st b) Hr1) as [I1 I2]. cbn [rbuf] in I2. split; [exact I1|lia].
  - destruct Hr as [[(Hr1 & Hr3) Hr2] Hc].
    assert (Hw2 : wfr (mkrcv (on_message (rmax r) c) st b)) by (split; [apply on_message_nonneg; assumption|exact Hr3]).
    destruct (IH _ Hw2) as [I1 I2]. destruct (drain k _) as [l r']. cbn [snd rbuf] in *. split; [exact I1|lia].
Qed.
Lemma drain_more : forall k r more, wfr r -> bytesP more -> len (rbuf r) < Z.of_nat k ->
  forall k', len (rbuf r) + len more < Z.of_nat k' ->
  drain k' (plus r more) = let (l, r1) := drain k r in let (l2, r2) := drain k' (plus r1 more) in (l ++ l2, r2).
Proof.
  induction k as [|k IH]; intros r more Hw Hm Hk k' Hk'; [pose proof (len_nonneg (rbuf r)); lia|].
  pose proof (len_nonneg (rbuf r)). pose proof (len_nonneg more).
  destruct k' as [|k']; [lia|].
  cbn [drain]. pose proof (round _ _ _ Hw) as Hr. pose proof (round_app _ _ _ more Hw) as Ha.
  destruct (parse_chunk (rmax r) (rst r) (rbuf r)) as [|st b|c st b] eqn:E.
  - cbn [app drain]. match goal with |- _ = (let (_, _) := ?x in _) => destruct x end; reflexivity.
  - change (rmax (plus r more)) with (rmax r). change (rst (plus r more)) with (rst r). change (rbuf (plus r more)) with (rbuf r ++ more).
    rewrite Ha. destruct Hr as [Hr1 Hr2].
    change (mkrcv (rmax r) st (b ++ more)) with (plus (mkrcv (rmax r) st b) more).
    assert (Hlen : len b + len more < Z.of_nat k') by lia.
    rewrite (drain_fuel k' (S k') (plus _ more)); [| apply wf_more; assumption | cbn [plus rbuf]; rewrite len_app; lia | cbn [plus rbuf]; rewrite len_app; lia].
    rewrite (IH (mkrcv (rmax r) st b) more Hr1 Hm); [reflexivity| |]; cbn [rbuf]; lia.
  - change (rmax (plus r more)) with (rmax r). change (rst (plus r more)) with (rst r). change (rbuf (plus r more)) with (rbuf r ++ more).
    rewrite Ha. destruct Hr as [[(Hr1 & Hr3) Hr2] Hc].
    assert (Hw2 : wfr (mkrcv (on_message (rmax r) c) st b)) by (split; [apply on_message_nonneg; assumption|exact Hr3]).
    change (mkrcv (on_message (rmax r) c) st (b ++ more)) with (plus (mkrcv (on_message (rmax r) c) st b) more).
    assert (Hlen : len b + len more < Z.of_nat k') by lia.
    rewrite (drain_fuel k' (S k') (plus _ more)); [| apply wf_more; assumption | cbn [plus rbuf]; rewrite len_app; lia | cbn [plus rbuf]; rewrite len_app; lia].
    rewrite (IH (mkrcv (on_message (rmax r) c) st b) more Hw2 Hm); try (cbn [rbuf]; lia).
    destruct (drain k _) as [l r1]. cbn [drain].
    match goal with |- (let (_, _) := (let (_, _) := ?x in _) in _) = _ => destruct x end. reflexivity.
Qed.

(** Parse and the loop around it do the same. *)
Lemma parse_drain : forall k r, wfr r -> len (rbuf r) < Z.of_nat k ->
  drain k r =
  match parse k (rmax r) (rst r) (rbuf r) with
  | (None, st, b) => ([], mkrcv (rmax r) st b)
  | (Some c, st, b) => let (l, r') := drain k (mkrcv (on_message (rmax r) c) st b) in (c :: l, r')
  end /\
  match parse k (rmax r) (rst r) (rbuf r) with
  | (None, st, b) => True
  | (Some c, st, b) => wfr (mkrcv (on_message (rmax r) c) st b) /\ len b < len (rbuf r)
  end.
Proof.
  induction k as [|k IH]; intros r Hw Hk; [pose proof (len_nonneg (rbuf r)); lia|].
  cbn [drain parse]. pose proof (round _ _ _ Hw) as Hr.
  destruct (parse_chunk _ _ _) as [|st b|c st b].
  - split; [destruct r; reflexivity|exact I].
  - destruct Hr as [Hr1 Hr2]. destruct (IH (mkrcv (rmax r) st b) Hr1 ltac:(cbn [rbuf]; lia)) as [I1 I2].
    cbn [rmax rst rbuf] in I1, I2. rewrite I1. destruct (parse k (rmax r) st b) as [[[c|] st'] b'].
    + destruct I2 as [I2 I3]. split; [|split; [exact I2|lia]].
      rewrite (drain_fuel k (S k)); try (cbn [rbuf]; lia); [|exact I2]. reflexivity.
    + split; [reflexivity|exact I].
  - destruct Hr as [[(Hr1 & Hr3) Hr2] Hc].
    assert (Hw2 : wfr (mkrcv (on_message (rmax r) c) st b)) by (split; [apply on_message_nonneg; assumption|exact Hr3]).
    split; [|split; [exact Hw2|exact Hr2]].
    rewrite (drain_fuel k (S k)); try (cbn [rbuf]; lia); [|exact Hw2]. reflexivity.
Qed.
Lemma receive_drain : forall k r, wfr r -> len (rbuf r) < Z.of_nat k -> receive_loop k r = drain k r.
Proof.
  induction k as [|k IH]; intros r Hw Hk; [pose proof (len_nonneg (rbuf r)); lia|].
  cbn [receive_loop].
  assert (Hl : len (rbuf r) < Z.of_nat (S (List.length (rbuf r)))) by (unfold len; lia).
  destruct (parse_drain _ r Hw Hl) as [H1 H2].
  rewrite (drain_fuel (S k) (S (List.length (rbuf r)))) by assumption. rewrite H1.
  destruct (parse _ _ _ _) as [[[c|] st] b]; [|reflexivity].
  destruct H2 as [H2 H3]. rewrite IH; [|exact H2|cbn [rbuf]; lia].
  rewrite (drain_fuel (S (List.length (rbuf r))) k); [reflexivity|exact H2| |]; cbn [rbuf]; lia.
Qed.
Lemma arrive_drain : forall r b k, wfr r -> bytesP b -> len (rbuf r) + len b < Z.of_nat k -> arrive r b = drain k (plus r b).
Proof.
  intros r b k Hw Hb Hk. unfold arrive. change (mkrcv (rmax r) (rst r) (rbuf r ++ b)) with (plus r b).
  pose proof (wf_more r b Hw Hb) as Hw2.
  assert (Hl : len (rbuf (plus r b)) < Z.of_nat (S (List.length (rbuf r ++ b)))) by (cbn [plus rbuf]; unfold len; lia).
  rewrite receive_drain by assumption. apply drain_fuel; [exact Hw2|exact Hl|]. cbn [plus rbuf]. rewrite len_app. exact Hk.
Qed.
(** Nothing to do for the receiver. *)
Definition quiet (r : receiver) : Prop := parse_chunk (rmax r) (rst r) (rbuf r) = Wait.
Lemma drain_quiet : forall k r, wfr r -> len (rbuf r) < Z.of_nat k -> quiet (snd (drain k r)).
Proof.
  induction k as [|k IH]; intros r Hw Hk; [pose proof (len_nonneg (rbuf r)); lia|].
  cbn [drain]. pose proof (round _ _ _ Hw) as Hr.
  destruct (parse_chunk _ _ _) as [|st b|c st b] eqn:E.
  - exact E.
  - destruct Hr as [Hr1 Hr2]. apply IH; [exact Hr1|cbn [rbuf]; lia].
  - destruct Hr as [[(Hr1 & Hr3) Hr2] Hc].
    assert (Hw2 : wfr (mkrcv (on_message (rmax r) c) st b)) by (split; [apply on_message_nonneg; assumption|exact Hr3]).
    pose proof (IH _ Hw2 ltac:(cbn [rbuf]; lia)) as Hq. destruct (drain k _) as [l r']. exact Hq.
Qed.
Lemma arrivals_one : forall l r, wfr r -> quiet r -> Forall bytesP l -> arrivals r l = arrive r (List.concat l).
Proof.
  induction l as [|b l IH]; intros r Hw Hq Hl.
  - cbn [arrivals List.concat]. set (k := S (List.length (rbuf r ++ []))).
    rewrite (arrive_drain r [] k) by (try assumption; try constructor; unfold k; rewrite app_nil_r; lnil; unfold len; lia).
    unfold plus. rewrite app_nil_r. destruct r as [m st buf]. cbn [rmax rst rbuf] in *. unfold k. cbn [drain rmax rst rbuf].
    unfold quiet in Hq. cbn [rmax rst rbuf] in Hq. rewrite Hq. reflexivity.
  - inversion Hl as [|? ? Hb Hl']; subst. cbn [arrivals List.concat].
    assert (Hc : bytesP (List.concat l)).
    { clear - Hl'. induction Hl'; cbn [List.concat]; [constructor|]. apply bytesP_app. split; assumption. }
    set (k := S (List.length (rbuf r) + List.length b + List.length (List.concat l))).
    assert (Hk : len (rbuf r) + len b + len (List.concat l) < Z.of_nat k) by (unfold k, len; lia).
    pose proof (len_nonneg (List.concat l)).
    rewrite (arrive_drain r b k) by (assumption || lia).
    rewrite (arrive_drain r _ k); [|exact Hw|apply bytesP_app; split; assumption|rewrite len_app; lia].
    pose proof (wf_more r b Hw Hb) as Hw2.
    assert (Hkb : len (rbuf (plus r b)) < Z.of_nat k) by (cbn [plus rbuf]; rewrite len_app; lia).
    pose proof (drain_wf k _ Hw2) as [D1 D2]. pose proof (drain_quiet k _ Hw2 Hkb) as D3.
    replace (plus r (b ++ List.concat l)) with (plus (plus r b) (List.concat l)) by (unfold plus; cbn [rmax rst rbuf]; rewrite app_assoc; reflexivity).
    rewrite (drain_more k (plus r b) (List.concat l) Hw2 Hc Hkb k) by (cbn [plus rbuf]; rewrite len_app; lia).
    destruct (drain k (plus r b)) as [a r1]. cbn [snd] in *.
    rewrite IH by assumption. cbn [plus rbuf] in D2. rewrite len_app in D2.
    rewrite (arrive_drain r1 _ k) by (assumption || lia). reflexivity.
Qed.
Lemma wf_receiver0 : forall n, 0 <= n -> wfr (receiver0 n).
Proof.
  intros n Hn. split; [exact Hn|]. split; [constructor|]. intros j. cbn. conjs; try lia. constructor.
Qed.
Lemma segmentation : forall n l, 0 <= n -> Forall bytesP l -> arrivals (receiver0 n) l = arrive (receiver0 n) (List.concat l).
Proof. intros n l Hn Hl. apply arrivals_one; [apply wf_receiver0; exact Hn|reflexivity|exact Hl]. Qed.

(** The main result. *)
Lemma on_channel_hd : forall id w l, on_channel id ((id, w) :: l) = w :: on_channel id l.
Proof. intros. unfold on_channel. cbn [filter fst]. rewrite Z.eqb_refl. reflexivity. Qed.
Lemma on_channel_tl : forall id j w l, j <> id -> on_channel j ((id, w) :: l) = on_channel j l.
Proof. intros id j w l H. unfold on_channel. cbn [filter fst]. replace (id =? j) with false by lia. reflexivity. Qed.
Lemma btohl_msg : forall size m c, to_msg c = m -> valid_msg m -> on_message size c = new_size size m.
Proof.
  intros size m c <- (_ & _ & _ & _ & _ & Hb & H1). unfold on_message, new_size. cbn [to_msg m_type m_data] in *.
  destruct (Z.eqb_spec (mtype c) 1) as [E|E]; [|reflexivity]. specialize (H1 E).
  replace (len (cdata c) =? 0) with false by lia. cbn [negb andb]. apply rd_btohl; [exact Hb|lia].
Qed.
Lemma stream_ok : forall w size st more k,
  (forall id, exists later, pending id (st id) (on_channel id w ++ later)) -> sizes_agree size w -> 2 <= len more ->
  Forall (fun x => 1 <= len (w_bytes (snd x))) w ->
  exists l st', map to_msg l = messages w /\
    drain (List.length w + k) (mkrcv size st (wire_bytes w ++ more)) =
    (let (l2, r2) := drain k (mkrcv (fold_left (fun s x => after s (snd x)) w size) st' more) in (l ++ l2, r2)).
Proof.
  induction w as [|[id w] ws IH]; intros size st more k Hp Ha Hm Hl.
  - exists [], st. split; [reflexivity|]. cbn [fold_left wire_bytes map List.concat app List.length Nat.add].
    match goal with |- context [drain ?a ?b] => destruct (drain a b) end; reflexivity.
  - cbn [sizes_agree] in Ha. destruct Ha as [Hsz Ha]. inversion Hl as [|? ? Hl1 Hl2]; subst. cbn [snd] in Hl1.
    destruct (Hp id) as [later Hpid]. rewrite on_channel_hd in Hpid. cbn [app] in Hpid.
    assert (E : wire_bytes ((id, w) :: ws) ++ more = w_bytes w ++ wire_bytes ws ++ more).
    { unfold wire_bytes. cbn [map List.concat snd]. rewrite <- app_assoc. reflexivity. }
    rewrite E. pose proof (pending_step id w _ st (wire_bytes ws ++ more) Hpid) as Hs.
    rewrite !len_app in Hs. pose proof (len_nonneg (wire_bytes ws)) as Hw0. specialize (Hs ltac:(lia)).
    cbn [List.length Nat.add drain rmax rst rbuf messages fold_left snd]. unfold outcome_ok in Hs.
    assert (Hnext : forall st', elsewhere id st st' -> pending id (st' id) (on_channel id ws ++ later) ->
       forall j, exists later, pending j (st' j) (on_channel j ws ++ later)).
    { intros st' He Hpd j. destruct (Z.eq_dec j id) as [-> |Hj]; [exists later; exact Hpd|].
      rewrite (He j Hj). destruct (Hp j) as [lj Hpj]. rewrite on_channel_tl in Hpj by exact Hj. exists lj. exact Hpj. }
    unfold after in *. destruct (w_done w) as [m|].
    + destruct Hs as (c & st' & -> & E1 & E2 & E3 & E4).
      rewrite (btohl_msg _ m) by assumption.
      destruct (IH (new_size (w_size w) m) st' more k (Hnext st' E3 E4) Ha Hm Hl2) as (l & st2 & I1 & I2).
      exists (c :: l), st2. split; [cbn [map]; rewrite E1, I1; reflexivity|]. rewrite I2.
      match goal with |- context [drain ?a ?b] => destruct (drain a b) end; reflexivity.
    + destruct Hs as (st' & -> & E3 & E4).
      destruct (IH (w_size w) st' more k (Hnext st' E3 E4) Ha Hm Hl2) as (l & st2 & I1 & I2).
      exists l, st2. split; [exact I1|]. exact I2.
Qed.
Lemma rest_of_nonempty : forall m ext d w, rest_of m ext d w -> Forall (fun x => 1 <= len (w_bytes x)) w.
Proof.
  intros m ext d w H. induction H as [|d n b w _ _ Hb _ IH]; constructor; [|exact IH].
  cbn [w_bytes]. apply is_basic_len in Hb. rewrite !len_app. pose proof (len_nonneg ext). pose proof (len_nonneg (takez n d)). lia.
Qed.
Lemma channel_nonempty : forall id h w, channel id h w -> Forall (fun x => 1 <= len (w_bytes x)) w.
Proof.
  intros id h w H. induction H as [|h m fmt d x hb n b w1 w2 _ _ _ Hb _ Hr _ IH]; constructor.
  - cbn [w_bytes]. apply is_basic_len in Hb. rewrite !len_app. pose proof (len_nonneg hb). pose proof (len_nonneg (takez n (m_data m))). lia.
  - apply Forall_app. split; [eapply rest_of_nonempty; exact Hr|exact IH].
Qed.
Lemma well_sent_nonempty : forall w, well_sent w -> Forall (fun x => 1 <= len (w_bytes (snd x))) w.
Proof.
  intros w H. apply Forall_forall. intros [id x] Hin. cbn [snd].
  destruct (H id) as [later Hc]. apply channel_nonempty in Hc. apply Forall_app in Hc. destruct Hc as [Hc _].
  rewrite Forall_forall in Hc. apply Hc. unfold on_channel. apply in_map_iff. exists (id, x). split; [reflexivity|].
  apply filter_In. split; [exact Hin|]. apply Z.eqb_refl.
Qed.
Lemma receive_ok : forall size w more segs, 0 <= size ->
  well_sent w -> sizes_agree size w -> 2 <= len more -> Forall bytesP segs -> List.concat segs = wire_bytes w ++ more ->
  exists l l' r, arrivals (receiver0 size) segs = (l ++ l', r) /\ map to_msg l = messages w /\ (len more = 2 -> l' = [] /\ rbuf r = more).
Proof.
  intros size w more segs Hs Hw Ha Hm Hb Hc.
  rewrite segmentation by assumption. rewrite Hc.
  assert (Hbb : bytesP (wire_bytes w ++ more)).
  { rewrite <- Hc. clear - Hb. induction Hb; cbn [List.concat]; [constructor|]. apply bytesP_app. split; assumption. }
  set (k := S (List.length (wire_bytes w ++ more))).
  rewrite (arrive_drain _ _ (List.length w + k)).
  2: apply wf_receiver0; exact Hs. 2: exact Hbb. 2: { unfold k, receiver0. cbn [rbuf]. lnil. unfold len. lia. }
  destruct (stream_ok w size (fun _ => chunk0) more k) as (l & st & H1 & H2); try assumption.
  - intros id. destruct (Hw id) as [later Hch]. exists later. eapply p_idle; [|exact Hch]. split; [reflexivity|exact I].
  - apply well_sent_nonempty. exact Hw.
  - unfold plus, receiver0. cbn [rmax rst rbuf app]. rewrite H2.
    assert (Hq : len more = 2 -> forall sz st, drain k (mkrcv sz st more) = ([], mkrcv sz st more)).
    { intros Hl2 sz st2. unfold k. cbn [drain rmax rst rbuf]. unfold parse_chunk at 1. rewrite len_takez_min by lia. rewrite Hl2. reflexivity. }
    destruct (drain k _) as [l2 r2] eqn:E2. exists l, l2, r2. split; [reflexivity|]. split; [exact H1|].
    intros Hl2. rewrite Hq in E2 by exact Hl2. injection E2 as <- <-. split; reflexivity.
Qed.
