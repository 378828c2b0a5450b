(** The AMF0 decoder on arbitrary bytes. *)
From Verif Require Import Common CommonFacts CommonMore Mem_Model Mem_Proofs Outcome_Model Dtmi_Spec Dtmi_Proofs ScanAny_Proofs Amf_Model Amf_Spec.

Section Any.
Context (m : list Z) (n : Z) (Bm : bytesP m) (Hn : 0 <= n <= len m) (Hm : len m <= 2 ^ 28).
Notation parseOne := (parseOne m n). Notation members := (members m n). Notation elems := (elems m n).

(** Unfoldings. *)
Ltac unf := cbn [Amf_Model.parseOne Amf_Model.members Amf_Model.elems]; fold (Amf_Model.parseOne m n) (Amf_Model.members m n) (Amf_Model.elems m n).
(** More steps do not change an outcome. *)
Lemma mono f :
  (forall g i nm, (f <= g)%nat -> parseOne f i nm <> Stuck -> parseOne g i nm = parseOne f i nm) /\
  (forall g c i acc, (f <= g)%nat -> members f c i acc <> Stuck -> members g c i acc = members f c i acc) /\
  (forall g t i acc, (f <= g)%nat -> elems f t i acc <> Stuck -> elems g t i acc = elems f t i acc).
Proof.
  induction f as [|f (IH1 & IH2 & IH3)]; [repeat split; intros; contradiction|]. split; [|split].
  - intros g i nm L H. destruct g as [|g]; [lia|]. cbn [Amf_Model.parseOne] in *. fold (Amf_Model.parseOne m n) (Amf_Model.members m n) (Amf_Model.elems m n) in *. cbv zeta in *.
    assert (M : forall c j K, (match members f c j [] with Stuck => Stuck | Ub => Ub | Ok x => K x end) <> @Stuck (aobj * Z) ->
      (match members g c j [] with Stuck => Stuck | Ub => Ub | Ok x => K x end) = (match members f c j [] with Stuck => Stuck | Ub => Ub | Ok x => K x end)).
    { intros c j K E. rewrite (IH2 g); [reflexivity|lia|]. intros X. now rewrite X in E. }
    assert (E' : forall t j K, (match elems f t j [] with Stuck => Stuck | Ub => Ub | Ok x => K x end) <> @Stuck (aobj * Z) ->
      (match elems g t j [] with Stuck => Stuck | Ub => Ub | Ok x => K x end) = (match elems f t j [] with Stuck => Stuck | Ub => Ub | Ok x => K x end)).
    { intros c j K E. rewrite (IH3 g); [reflexivity|lia|]. intros X. now rewrite X in E. }
    destruct (n <=? i); [reflexivity|]. destruct (getb m i) as [| |c]; [reflexivity|reflexivity|].
    repeat match goal with
    | |- (if ?b then _ else _) = (if ?b then _ else _) => destruct b
    | |- ?x = ?x => reflexivity
    | |- (match ?r with Stuck => _ | Ub => _ | Ok _ => _ end) = (match ?r with Stuck => _ | Ub => _ | Ok _ => _ end) => destruct r; [reflexivity|reflexivity|]
    | |- (match members g _ _ _ with Stuck => _ | Ub => _ | Ok _ => _ end) = _ => apply M; exact H
    | |- (match elems g _ _ _ with Stuck => _ | Ub => _ | Ok _ => _ end) = _ => apply E'; exact H
    end.
  - intros g c i acc L H. destruct g as [|g]; [lia|]. cbn [Amf_Model.members] in *. fold (Amf_Model.parseOne m n) (Amf_Model.members m n) (Amf_Model.elems m n) in *.
    destruct (u32 (i + 1) <? n); [|reflexivity]. destruct (get16 m i) as [| |t]; [reflexivity|reflexivity|]. destruct (t =? 0); [reflexivity|]. cbv zeta in *.
    destruct (getn m (i + 2) (if c then clamp n t i 2 else t)) as [| |s]; [reflexivity|reflexivity|].
    assert (X : parseOne f (u32 (i + (if c then clamp n t i 2 else t) + 2)) s <> Stuck) by (intros X; now rewrite X in H).
    rewrite (IH1 g) by (lia || exact X). destruct (parseOne f _ _) as [| |x]; [reflexivity|reflexivity|]. apply IH2; [lia|exact H].
  - intros g t i acc L H. destruct g as [|g]; [lia|]. cbn [Amf_Model.elems] in *. fold (Amf_Model.parseOne m n) (Amf_Model.members m n) (Amf_Model.elems m n) in *. destruct (t =? 0); [reflexivity|].
    assert (X : parseOne f i (bs "arrVal") <> Stuck) by (intros X; now rewrite X in H).
    rewrite (IH1 g) by (lia || exact X). destruct (parseOne f _ _) as [| |x]; [reflexivity|reflexivity|]. apply IH3; [lia|exact H].
Qed.

Lemma at_ns i k : at_ m i k <> Stuck. Proof. apply getb_ns. Qed.
Lemma at_byte i k b : at_ m i k = Ok b -> byteP b. Proof. apply getb_inv, Bm. Qed.
Lemma get16_any i : match get16 m i with Stuck => False | Ub => True | Ok t => 0 <= t < 65536 end.
Proof.
  unfold get16. destruct (at_ m i 0) as [| |a] eqn:A; [now apply at_ns in A|exact I|]. destruct (at_ m i 1) as [| |b] eqn:B; [now apply at_ns in B|exact I|].
  apply at_byte in A, B. unfold byteP in *. lia.
Qed.
Lemma get32_any i : match get32 m i with Stuck => False | Ub => True | Ok t => 0 <= t < 2 ^ 31 end.
Proof.
  unfold get32. destruct (at_ m i 0) as [| |a] eqn:A; [now apply at_ns in A|exact I|]. destruct (at_ m i 1) as [| |b] eqn:B; [now apply at_ns in B|exact I|].
  destruct (at_ m i 2) as [| |c] eqn:C; [now apply at_ns in C|exact I|]. destruct (at_ m i 3) as [| |d] eqn:D; [now apply at_ns in D|exact I|].
  apply at_byte in A, B, C, D. unfold byteP in *. dif; [lia|exact I].
Qed.
Lemma getn_any i t : match getn m i t with Stuck => False | Ub => True | Ok s => 0 <= i /\ 0 <= t /\ i + t <= len m end.
Proof. unfold getn. destruct (peek m i t) eqn:E; [|exact I]. apply peek_inv in E. tauto. Qed.
Lemma number_any i : match number m n i with Stuck => False | _ => True end.
Proof. unfold number. dif; [|exact I]. pose proof (getn_any (i + 1) 8). now destruct (getn m (i + 1) 8). Qed.

Definition bound (i : Z) : Z := Z.max i (len m + 11 + 3 * (n - i)).
Definition within {A} (i : Z) (r : res (A * Z)) : Prop := match r with Stuck => False | Ub => True | Ok x => i <= snd x <= bound i end.
Definition advances {A} (i : Z) (r : res (A * Z)) : Prop := match r with Stuck => False | Ub => True | Ok x => i <= snd x <= bound i /\ (i < n -> i < snd x) end.
Definition work (i : Z) : Z := (Z.max 0 (n - i) + 1) * 8589934592.
Definition low (i : Z) : Prop := 0 <= i <= 4 * len m + 11.

Lemma ends f :
  (forall i nm, low i -> work i <= Z.of_nat f -> advances i (parseOne f i nm)) /\
  (forall c i acc, low i -> work i < Z.of_nat f -> within i (members f c i acc)) /\
  (forall t i acc, low i -> 0 <= t -> work i + t < Z.of_nat f -> within i (elems f t i acc)).
Proof.
  unfold low. induction f as [|f (IH1 & IH2 & IH3)]; [unfold work; repeat split; intros; lia|].
  split; [|split].
  - intros i nm Lo W. unf. destruct (Z.leb_spec n i) as [N|N]; [cbn; unfold bound; lia|].
    rewrite getb_ok by lia. set (c := nthz m i).
    assert (OK : forall o j, i < j <= i + 11 -> advances i (Ok (o : aobj, j))) by (intros o j J; cbn; unfold bound; lia).
    assert (Mem : forall k o j, (k = 1 \/ k = 5) -> j = u32 (i + k) -> forall b, advances i (match members f b j [] with Stuck => Stuck | Ub => Ub | Ok x => Ok (o x : aobj, u32 (snd x + 3)) end)).
    { intros k o j K -> b. rewrite u32_id by lia. pose proof (IH2 b (i + k) [] ltac:(lia) ltac:(unfold work in *; lia)) as Q.
      destruct (members f b (i + k) []) as [| |x]; cbn [within advances snd] in *; [exact Q|exact I|]. unfold bound in *. rewrite u32_id by lia. lia. }
    destruct (c =? 0). { pose proof (number_any i) as Q. destruct (number m n i); [exact Q|exact I|]. rewrite u32_id by lia. apply OK. lia. }
    destruct (c =? 11). { pose proof (number_any i) as Q. destruct (number m n i); [exact Q|exact I|]. rewrite u32_id by lia. apply OK. lia. }
    destruct (c =? 1). { destruct (at_ m i 1) as [| |b] eqn:E; [now apply at_ns in E|exact I|]. rewrite u32_id by lia. apply OK. lia. }
    destruct (c =? 7). { pose proof (get16_any (i + 1)) as Q. destruct (get16 m (i + 1)); [exact Q|exact I|]. rewrite u32_id by lia. apply OK. lia. }
    destruct ((c =? 15) || (c =? 12)).
    { pose proof (get32_any (i + 1)) as Q. destruct (get32 m (i + 1)) as [| |t]; [exact Q|exact I|]. cbv zeta. pose proof (getn_any (i + 5) (clamp n t i 5)) as R.
      destruct (getn m (i + 5) (clamp n t i 5)); [exact R|exact I|]. rewrite u32_id by lia. cbn. unfold bound. lia. }
    destruct (c =? 2).
    { pose proof (get16_any (i + 1)) as Q. destruct (get16 m (i + 1)) as [| |t]; [exact Q|exact I|]. cbv zeta. pose proof (getn_any (i + 3) (clamp n t i 3)) as R.
      destruct (getn m (i + 3) (clamp n t i 3)); [exact R|exact I|]. rewrite u32_id by lia. cbn. unfold bound. lia. }
    destruct ((c =? 5) || (c =? 6) || (c =? 13)). { rewrite u32_id by lia. apply OK. lia. }
    destruct (c =? 3); [apply (Mem 1 (fun x => AO nm 3 0 [] (fst x))); [lia|reflexivity]|].
    destruct (c =? 16).
    { pose proof (get16_any (u32 (i + 1))) as Q. destruct (get16 m (u32 (i + 1))) as [| |t]; [exact Q|exact I|].
      pose proof (getn_any (u32 (i + 1) + 2) (clamp n t (u32 (i + 1)) 2)) as R. destruct (getn m (u32 (i + 1) + 2) (clamp n t (u32 (i + 1)) 2)) as [| |s]; [exact R|exact I|].
      apply (Mem 1 (fun x => AO s 16 0 [] (fst x))); [lia|reflexivity]. }
    destruct (c =? 8); [apply (Mem 5 (fun x => AO nm 8 0 [] (fst x))); [lia|reflexivity]|].
    destruct (c =? 10).
    { pose proof (get32_any (i + 1)) as Q. destruct (get32 m (i + 1)) as [| |t]; [exact Q|exact I|]. rewrite u32_id by lia.
      pose proof (IH3 t (i + 5) [] ltac:(lia) ltac:(lia) ltac:(unfold work in *; lia)) as R. destruct (elems f t (i + 5) []); cbn [within advances snd] in *; [exact R|exact I|]. unfold bound in *. lia. }
    cbn. unfold bound. lia.
  - intros b i acc Lo W. unf. rewrite u32_id by lia. destruct (Z.ltb_spec (i + 1) n) as [N|N]; [|cbn; unfold bound; lia].
    pose proof (get16_any i) as Q. destruct (get16 m i) as [| |t]; [exact Q|exact I|]. destruct (t =? 0); [cbn; unfold bound; lia|]. cbv zeta.
    set (t' := if b then clamp n t i 2 else t). pose proof (getn_any (i + 2) t') as R. destruct (getn m (i + 2) t') as [| |s]; [exact R|exact I|].
    rewrite u32_id by lia. pose proof (IH1 (i + t' + 2) s ltac:(lia) ltac:(unfold work in *; lia)) as X.
    destruct (parseOne f (i + t' + 2) s) as [| |x]; cbn [advances] in X; [exact X|exact I|].
    assert (Bx : snd x <= bound i) by (unfold bound in *; lia). assert (B0 : bound i <= 4 * len m + 11) by (unfold bound; lia).
    pose proof (IH2 b (snd x) (acc ++ [fst x]) ltac:(lia) ltac:(unfold work in *; lia)) as Y.
    destruct (members f b (snd x) (acc ++ [fst x])) as [| |y]; cbn [within] in *; [exact Y|exact I|]. unfold bound in *. lia.
  - intros t i acc Lo T W. unf. destruct (Z.eqb_spec t 0) as [->|T0]; [cbn; unfold bound; lia|].
    pose proof (IH1 i (bs "arrVal") ltac:(lia) ltac:(lia)) as X. destruct (parseOne f i (bs "arrVal")) as [| |x]; cbn [advances] in X; [exact X|exact I|].
    assert (B0 : bound i <= 4 * len m + 11) by (unfold bound; lia).
    pose proof (IH3 (t - 1) (snd x) (acc ++ [fst x]) ltac:(lia) ltac:(lia) ltac:(unfold work in *; lia)) as Y.
    destruct (elems f (t - 1) (snd x) (acc ++ [fst x])) as [| |y]; cbn [within] in *; [exact Y|exact I|]. unfold bound in *. lia.
Qed.

Lemma loop_mono f : forall g i j acc, (f <= g)%nat -> parse_loop m n f i j acc <> Stuck -> parse_loop m n g i j acc = parse_loop m n f i j acc.
Proof.
  induction f as [|f IH]; intros g i j acc L H; [contradiction|]. destruct g as [|g]; [lia|]. cbn [parse_loop] in *. destruct (i <? n); [|reflexivity].
  assert (X : parseOne f i [] <> Stuck) by (intros X; now rewrite X in H).
  destruct (mono f) as (M & _). rewrite (M g) by (lia || exact X). destruct (parseOne f i []) as [| |x]; [reflexivity|reflexivity|]. destruct (j <? snd x); [|reflexivity]. apply IH; [lia|exact H].
Qed.
Lemma loop_ends f : forall i j acc, low i -> j <= i -> work i < Z.of_nat f -> parse_loop m n f i j acc <> Stuck.
Proof.
  unfold low. induction f as [|f IH]; intros i j acc Lo J W; [unfold work in W; lia|]. cbn [parse_loop]. destruct (Z.ltb_spec i n) as [N|N]; [|discriminate].
  destruct (ends f) as (E & _). specialize (E i [] Lo ltac:(lia)). destruct (parseOne f i []) as [| |x] eqn:X; cbn [advances] in E; [contradiction|discriminate|].
  destruct (Z.ltb_spec j (snd x)) as [K|K]; [|discriminate].
  apply IH; unfold bound, work in *; lia.
Qed.
Lemma parse_settles : settles (parse m n).
Proof.
  unfold parse. assert (S : settles (fun f => parse_loop m n f 0 0 [])).
  { apply (settle _ (Z.to_nat (work 0 + 1))); [intros k H; apply loop_mono; [lia|exact H]|]. apply loop_ends; [unfold low; lia|lia|unfold work; lia]. }
  destruct S as (k & r & R & H). exists k, (match r with Stuck => Stuck | Ub => Ub | Ok l => Ok (AO (bs "returned") 255 0 [] l) end).
  split; [now destruct r|]. intros j J. now rewrite H.
Qed.
End Any.
