(** Scanning arbitrary bytes: it always ends, and skipping stays within one byte of the end. *)
From Verif Require Import Common CommonFacts Mem_Model Mem_Proofs Outcome_Model Scan_Model Dtmi_Spec Dtmi_Proofs.

Lemma getb_ok m i : 0 <= i < len m -> getb m i = Ok (nthz m i).
Proof. intros H. unfold getb. now rewrite rd_some. Qed.
Lemma getbe_ok m i n : 0 <= i -> 0 <= n -> i + n <= len m -> bytesP m -> exists v, getbe m i n = Ok v /\ 0 <= v < 256 ^ n.
Proof.
  intros H1 H2 H3 B. unfold getbe, getn. rewrite peek_some by assumption. eexists. split; [reflexivity|].
  pose proof (unbe_bound (takez n (dropz i m))) as U. rewrite len_takez in U by (rewrite len_dropz by lia; lia).
  apply U. now apply bytesP_takez, bytesP_dropz.
Qed.
Lemma getb_inv m i b : bytesP m -> getb m i = Ok b -> byteP b.
Proof. intros B. unfold getb. destruct (rd m i) eqn:E; [|discriminate]. intros [= <-]. apply rd_inv in E as [_ ->]. now apply bytesP_nthz. Qed.
Lemma getbe_inv m i n v : bytesP m -> getbe m i n = Ok v -> 0 <= v.
Proof.
  intros B. unfold getbe, getn. destruct (peek m i n) eqn:E; [|discriminate]. intros [= <-].
  apply (peek_bytes _ _ _ _ B) in E. apply unbe_bound in E. lia.
Qed.
Lemma getb_ns m i : getb m i <> Stuck. Proof. unfold getb. now destruct (rd m i). Qed.
Lemma getbe_ns m i n : getbe m i n <> Stuck. Proof. unfold getbe, getn. now destruct (peek m i n). Qed.

Section Any.
Context (m : list Z) (Hm : bytesP m) (max : Z).

Lemma skip_S f p : skip m max (S f) p =
    if max <=? p + 1 then Ok None else
    c <~ getb m p;;
    if c =? 0 then Ok None else
    if (c =? 1) || (c =? 4) then Ok (Some (p + 9)) else
    if c =? 3 then Ok (Some (p + 1)) else
    if c =? 2 then
      if max <=? p + 4 then Ok None else
      n <~ getbe m (p + 1) 4;; Ok (Some (p + 5 + n))
    else if (c =? 224) || (c =? 255) then skip_obj m max f (p + 1)
    else if c =? 10 then skip_arr m max f (p + 1)
    else Ok None.
Proof. reflexivity. Qed.
Lemma skip_obj_S f p : skip_obj m max (S f) p =
    if p <? max then
      a <~ getb m p;; b <~ getb m (p + 1);;
      if a + b =? 0 then Ok (Some (p + 3)) else
      if max <=? p + 2 then Ok None else
      n <~ getbe m p 2;;
      q <~ skip m max f (p + (2 + n));;
      match q with None => Ok None | Some q => skip_obj m max f q end
    else Ok (Some (p + 3)).
Proof. reflexivity. Qed.
Lemma skip_arr_S f p : skip_arr m max (S f) p =
    if p <? max then
      a <~ getb m p;; b <~ getb m (p + 1);;
      if a + b =? 0 then Ok (Some (p + 3)) else
      q <~ skip m max f p;;
      match q with None => Ok None | Some q => skip_arr m max f q end
    else Ok (Some (p + 3)).
Proof. reflexivity. Qed.

(** More steps do not change a result. *)
Lemma skip_mono f : (forall p, skip m max f p <> Stuck -> skip m max (S f) p = skip m max f p) /\
  (forall p, skip_obj m max f p <> Stuck -> skip_obj m max (S f) p = skip_obj m max f p) /\
  (forall p, skip_arr m max f p <> Stuck -> skip_arr m max (S f) p = skip_arr m max f p).
Proof.
  induction f as [|f (IH1 & IH2 & IH3)]; [split; [|split]; intros p H; now elim H|].
  split; [|split]; intros p H.
  - rewrite skip_S in H. rewrite skip_S. rewrite (skip_S f). revert H.
    destruct (max <=? p + 1); [trivial|]. destruct (getb m p); [trivial|trivial|].
    destruct (a =? 0); [trivial|]. destruct ((a =? 1) || (a =? 4)); [trivial|]. destruct (a =? 3); [trivial|].
    destruct (a =? 2); [trivial|]. destruct ((a =? 224) || (a =? 255)); [now apply IH2|]. destruct (a =? 10); [now apply IH3|reflexivity].
  - rewrite skip_obj_S in H. rewrite skip_obj_S. rewrite (skip_obj_S f). revert H.
    destruct (p <? max); [|reflexivity]. destruct (getb m p); [trivial|trivial|]. destruct (getb m (p + 1)); [trivial|trivial|].
    destruct (a + a0 =? 0); [trivial|]. destruct (max <=? p + 2); [trivial|]. destruct (getbe m p 2) as [| |n]; [trivial|trivial|].
    destruct (skip m max f (p + (2 + n))) as [| |q] eqn:E.
    + intros H; now elim H.
    + rewrite IH1 by (rewrite E; discriminate). now rewrite E.
    + rewrite IH1 by (rewrite E; discriminate). rewrite E. destruct q; [now apply IH2|reflexivity].
  - rewrite skip_arr_S in H. rewrite skip_arr_S. rewrite (skip_arr_S f). revert H.
    destruct (p <? max); [|reflexivity]. destruct (getb m p); [trivial|trivial|]. destruct (getb m (p + 1)); [trivial|trivial|].
    destruct (a + a0 =? 0); [trivial|].
    destruct (skip m max f p) as [| |q] eqn:E.
    + intros H; now elim H.
    + rewrite IH1 by (rewrite E; discriminate). now rewrite E.
    + rewrite IH1 by (rewrite E; discriminate). rewrite E. destruct q; [now apply IH3|reflexivity].
Qed.

Definition room p := 2 * Z.max 0 (max - p).
Definition fine (safe : bool) (p : Z) (r : res (option Z)) : Prop :=
  match r with Stuck => False | Ub => safe = false | Ok None => True | Ok (Some q) => p < q end.

(** Progress, and with one readable byte behind the end no access outside. *)
Lemma skip_fine safe (Hs : safe = true -> max < len m) f :
  (forall p, 0 <= p -> room p + 1 <= Z.of_nat f -> fine safe p (skip m max f p)) /\
  (forall p, 0 <= p -> room p + 2 <= Z.of_nat f -> fine safe p (skip_obj m max f p)) /\
  (forall p, 0 <= p -> room p + 2 <= Z.of_nat f -> fine safe p (skip_arr m max f p)).
Proof.
  unfold room. induction f as [|f (IH1 & IH2 & IH3)].
  { split; [|split]; intros p P H; lia. }
  split; [|split]; intros p P H.
  - rewrite skip_S. destruct (max <=? p + 1) eqn:E; [exact I|].
    destruct (getb m p) as [| |c] eqn:G; [now apply getb_ns in G| |].
    { destruct safe; [|reflexivity]. specialize (Hs eq_refl). rewrite getb_ok in G by lia. discriminate. }
    destruct (c =? 0); [exact I|]. destruct ((c =? 1) || (c =? 4)); [cbn; lia|]. destruct (c =? 3); [cbn; lia|].
    destruct (c =? 2).
    + destruct (max <=? p + 4) eqn:E4; [exact I|]. destruct (getbe m (p + 1) 4) as [| |n] eqn:G4; [now apply getbe_ns in G4| |].
      * destruct safe; [|reflexivity]. specialize (Hs eq_refl). destruct (getbe_ok m (p + 1) 4) as (v & V & _); [lia|lia|lia|assumption|]. congruence.
      * apply getbe_inv in G4; [|assumption]. cbn. lia.
    + destruct ((c =? 224) || (c =? 255)); [|destruct (c =? 10); [|exact I]].
      * specialize (IH2 (p + 1)). destruct (skip_obj m max f (p + 1)) as [| |[q|]]; cbn [fine] in IH2 |- *; try exact I; try (apply IH2; lia). assert (p + 1 < q) by (apply IH2; lia). lia.
      * specialize (IH3 (p + 1)). destruct (skip_arr m max f (p + 1)) as [| |[q|]]; cbn [fine] in IH3 |- *; try exact I; try (apply IH3; lia). assert (p + 1 < q) by (apply IH3; lia). lia.
  - rewrite skip_obj_S. destruct (p <? max) eqn:E; [|cbn; lia].
    destruct (getb m p) as [| |a] eqn:G; [now apply getb_ns in G| |].
    { destruct safe; [|reflexivity]. specialize (Hs eq_refl). rewrite getb_ok in G by lia. discriminate. }
    destruct (getb m (p + 1)) as [| |b] eqn:G1; [now apply getb_ns in G1| |].
    { destruct safe; [|reflexivity]. specialize (Hs eq_refl). rewrite getb_ok in G1 by lia. discriminate. }
    destruct (a + b =? 0); [cbn; lia|]. destruct (max <=? p + 2) eqn:E2; [exact I|].
    destruct (getbe m p 2) as [| |n] eqn:G2; [now apply getbe_ns in G2| |].
    { destruct safe; [|reflexivity]. specialize (Hs eq_refl). destruct (getbe_ok m p 2) as (v & V & _); [lia|lia|lia|assumption|]. congruence. }
    apply getbe_inv in G2; [|assumption].
    specialize (IH1 (p + (2 + n))). destruct (skip m max f (p + (2 + n))) as [| |[q|]]; cbn [fine] in IH1 |- *; try exact I; try (apply IH1; lia).
    assert (p + (2 + n) < q) by (apply IH1; lia). specialize (IH2 q).
    destruct (skip_obj m max f q) as [| |[q'|]]; cbn [fine] in IH2 |- *; try exact I; try (apply IH2; lia). assert (q < q') by (apply IH2; lia). lia.
  - rewrite skip_arr_S. destruct (p <? max) eqn:E; [|cbn; lia].
    destruct (getb m p) as [| |a] eqn:G; [now apply getb_ns in G| |].
    { destruct safe; [|reflexivity]. specialize (Hs eq_refl). rewrite getb_ok in G by lia. discriminate. }
    destruct (getb m (p + 1)) as [| |b] eqn:G1; [now apply getb_ns in G1| |].
    { destruct safe; [|reflexivity]. specialize (Hs eq_refl). rewrite getb_ok in G1 by lia. discriminate. }
    destruct (a + b =? 0); [cbn; lia|].
    specialize (IH1 p). destruct (skip m max f p) as [| |[q|]]; cbn [fine] in IH1 |- *; try exact I; try (apply IH1; lia).
    assert (p < q) by (apply IH1; lia). specialize (IH3 q).
    destruct (skip_arr m max f q) as [| |[q'|]]; cbn [fine] in IH3 |- *; try exact I; try (apply IH3; lia). assert (q < q') by (apply IH3; lia). lia.
Qed.

Theorem skip_settles p : 0 <= p -> max < len m -> exists r, returns (fun f => skip m max f p) r /\ forall q, r = Some q -> p < q.
Proof.
  intros P M. pose (n := Z.to_nat (room p + 1)).
  destruct (skip_fine true (fun _ => M) n) as (F & _ & _). specialize (F p P ltac:(unfold n, room; lia)).
  destruct (skip m max n p) as [| |r] eqn:E; cbn in F; [tauto|discriminate|].
  exists r. split; [|intros q ->; exact F].
  exists n. intros k K. induction k as [|k IH]; [assert (n = O) as -> by lia; exact E|].
  destruct (Nat.eq_dec n (S k)) as [<-|N]; [exact E|].
  destruct (skip_mono k) as (Mo & _ & _). rewrite Mo; [apply IH; lia|]. rewrite IH by lia. discriminate.
Qed.
End Any.

(** A run that comes to an end, with a result or undefined. *)
Section Loop.
Context (m : list Z) (Hm : bytesP m) {A : Type} (p L : Z) (f : Z -> Z -> Z -> res (option A)) (out : Z -> A).
Context (Hf : forall n i k, f n i k <> Stuck).

Lemma member_loop_mono fu : forall n i, member_loop m p L f fu n i out <> Stuck -> member_loop m p L f (S fu) n i out = member_loop m p L f fu n i out.
Proof.
  induction fu as [|fu IH]; intros n i H; [now elim H|].
  cbn [member_loop] in H. remember (S fu) as g. cbn [member_loop]. subst g. cbn [member_loop]. revert H.
  destruct (getb m i); [trivial|trivial|]. destruct (getb m (i + 1)); [trivial|trivial|].
  destruct (negb (a + a0 =? 0) && (i <? p + L)); [|trivial]. destruct (p + L <=? i + 2); [trivial|].
  destruct (getbe m i 2) as [| |k]; [trivial|trivial|]. destruct (f n (i + 2) k) as [| |[x|]]; [trivial|trivial|trivial|].
  destruct (skip_mono m (p + L) fu) as (Mo & _ & _).
  destruct (skip m (p + L) fu (i + 2 + k)) as [| |q] eqn:E.
  - intros H; now elim H.
  - rewrite Mo by (rewrite E; discriminate). now rewrite E.
  - rewrite Mo by (rewrite E; discriminate). rewrite E. destruct q; [now apply IH|reflexivity].
Qed.

Lemma member_loop_ends fu : forall n i, 0 <= i -> room (p + L) i + 2 <= Z.of_nat fu -> member_loop m p L f fu n i out <> Stuck.
Proof.
  unfold room. induction fu as [|fu IH]; intros n i P H; [lia|].
  cbn [member_loop]. destruct (getb m i) eqn:G; [now apply getb_ns in G|discriminate|].
  destruct (getb m (i + 1)) eqn:G1; [now apply getb_ns in G1|discriminate|].
  destruct (negb (a + a0 =? 0) && (i <? p + L)) eqn:E; [|discriminate]. destruct (p + L <=? i + 2); [discriminate|].
  destruct (getbe m i 2) as [| |k] eqn:G2; [now apply getbe_ns in G2|discriminate|]. apply getbe_inv in G2; [|assumption].
  destruct (f n (i + 2) k) as [| |[x|]] eqn:F; [now apply Hf in F|discriminate|discriminate|].
  destruct (skip_fine m Hm (p + L) false ltac:(discriminate) fu) as (S1 & _ & _). specialize (S1 (i + 2 + k)). unfold room in S1.
  destruct (skip m (p + L) fu (i + 2 + k)) as [| |[q|]]; cbn [fine] in S1; [exfalso; apply S1; lia|discriminate| |discriminate].
  assert (i + 2 + k < q) by (apply S1; lia). apply IH; lia.
Qed.
End Loop.

Definition settles {A} (run : nat -> res A) : Prop := exists n r, r <> Stuck /\ forall k, (n <= k)%nat -> run k = r.
Lemma settle {A} (run : nat -> res A) n : (forall k, run k <> Stuck -> run (S k) = run k) -> run n <> Stuck -> settles run.
Proof.
  intros M H. exists n, (run n). split; [assumption|]. intros k K. induction k as [|k IH]; [now assert (n = O) as -> by lia|].
  destruct (Nat.eq_dec n (S k)) as [<-|N]; [reflexivity|]. rewrite M; [apply IH; lia|]. now rewrite IH by lia.
Qed.

Lemma name_at_ns m name : forall i, name_at m name i <> Stuck.
Proof.
  induction name as [|c r IH]; intros i; cbn [name_at]; [discriminate|]. destruct (getb m i) eqn:E; [now apply getb_ns in E|discriminate|].
  destruct (negb (c =? a)); [discriminate|]. destruct (c =? 0); [discriminate|apply IH].
Qed.

Theorem getMember_settles m name p L : bytesP m -> 0 <= p -> settles (fun f => getMember m f name (Some (mkScan p L))).
Proof.
  intros B P. unfold getMember. unfold getType. cbn [sp]. destruct (getb m p) eqn:G.
  - now apply getb_ns in G.
  - exists O, Ub. split; [discriminate|reflexivity].
  - destruct (is_obj a); [|exists O, (Ok None); split; [discriminate|reflexivity]].
    eapply (settle _ (Z.to_nat (room (p + L) (p + 1) + 2))).
    + intros k. apply member_loop_mono.
    + apply member_loop_ends; [assumption| |lia|unfold room; lia].
      intros n i k. destruct (len name =? k); [|discriminate]. destruct (name_at m name i) eqn:N; [now apply name_at_ns in N|discriminate|].
      destruct a0; discriminate.
Qed.

Section ELoop.
Context (m : list Z) (Hm : bytesP m) {A : Type} (p L : Z) (g : Z -> Z -> option A) (out : Z -> A).
Lemma elem_loop_mono fu : forall n i, elem_loop m p L g fu n i out <> Stuck -> elem_loop m p L g (S fu) n i out = elem_loop m p L g fu n i out.
Proof.
  induction fu as [|fu IH]; intros n i H; [now elim H|].
  cbn [elem_loop] in H. remember (S fu) as h. cbn [elem_loop]. subst h. cbn [elem_loop]. revert H.
  destruct (getb m i); [trivial|trivial|]. destruct (getb m (i + 1)); [trivial|trivial|].
  destruct (negb (a + a0 =? 0) && (i <? p + L)); [|trivial]. destruct (g n i); [trivial|].
  destruct (skip_mono m (p + L) fu) as (Mo & _ & _).
  destruct (skip m (p + L) fu i) as [| |q] eqn:E.
  - intros H; now elim H.
  - rewrite Mo by (rewrite E; discriminate). now rewrite E.
  - rewrite Mo by (rewrite E; discriminate). rewrite E. destruct q; [now apply IH|reflexivity].
Qed.
Lemma elem_loop_ends fu : forall n i, 0 <= i -> room (p + L) i + 2 <= Z.of_nat fu -> elem_loop m p L g fu n i out <> Stuck.
Proof.
  unfold room. induction fu as [|fu IH]; intros n i P H; [lia|].
  cbn [elem_loop]. destruct (getb m i) eqn:G; [now apply getb_ns in G|discriminate|].
  destruct (getb m (i + 1)) eqn:G1; [now apply getb_ns in G1|discriminate|].
  destruct (negb (a + a0 =? 0) && (i <? p + L)) eqn:E; [|discriminate].
  destruct (g n i); [discriminate|].
  destruct (skip_fine m Hm (p + L) false ltac:(discriminate) fu) as (S1 & _ & _). specialize (S1 i). unfold room in S1.
  destruct (skip m (p + L) fu i) as [| |[q|]]; cbn [fine] in S1; [exfalso; apply S1; lia|discriminate| |discriminate].
  assert (i < q) by (apply S1; lia). apply IH; lia.
Qed.
End ELoop.

Lemma settled {A} (r : res A) : r <> Stuck -> settles (fun _ => r).
Proof. intros H. now exists O, r. Qed.
Theorem getSize_settles m s : bytesP m -> 0 <= sp s -> settles (fun f => getSize m f (Some s)).
Proof.
  destruct s as [p L]. cbn [sp]. intros B P. unfold getSize, getType. cbn [sp]. destruct (getb m p) eqn:G; [now apply getb_ns in G|now apply settled|].
  destruct (a =? 10).
  - eapply (settle _ (Z.to_nat (room (p + L) (p + 1) + 2))); [intros k; apply elem_loop_mono|apply elem_loop_ends; [assumption|lia|unfold room; lia]].
  - destruct (is_obj a); [|now apply settled].
    eapply (settle _ (Z.to_nat (room (p + L) (p + 1) + 2))); [intros k; apply member_loop_mono|apply member_loop_ends; [assumption|discriminate|lia|unfold room; lia]].
Qed.
Theorem getIndice_settles m i s : bytesP m -> 0 <= sp s -> settles (fun f => getIndice m f i (Some s)).
Proof.
  destruct s as [p L]. cbn [sp]. intros B P. unfold getIndice, getType. cbn [sp]. destruct (getb m p) eqn:G; [now apply getb_ns in G|now apply settled|].
  destruct (a =? 10).
  - eapply (settle _ (Z.to_nat (room (p + L) (p + 1) + 2))); [intros k; apply elem_loop_mono|apply elem_loop_ends; [assumption|lia|unfold room; lia]].
  - destruct (is_obj a); [|now apply settled].
    eapply (settle _ (Z.to_nat (room (p + L) (p + 1) + 2))); [intros k; apply member_loop_mono|apply member_loop_ends; [assumption|discriminate|lia|unfold room; lia]].
Qed.
Theorem getIndiceName_settles m i s : bytesP m -> 0 <= sp s -> settles (fun f => getIndiceName m f i (Some s)).
Proof.
  destruct s as [p L]. cbn [sp]. intros B P. unfold getIndiceName, getType. cbn [sp]. destruct (getb m p) eqn:G; [now apply getb_ns in G|now apply settled|].
  destruct (is_obj a); [|now apply settled].
  eapply (settle _ (Z.to_nat (room (p + L) (p + 1) + 2))); [intros k; apply member_loop_mono|apply member_loop_ends; [assumption| |lia|unfold room; lia]].
  intros n j k. destruct (n =? i); [|discriminate]. unfold getn. destruct (peek m j k); discriminate.
Qed.
