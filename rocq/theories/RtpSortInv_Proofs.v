From Coq Require Import Sorting.Sorted.
From Verif Require Import Common CommonFacts CommonMore RtpSort_Model RtpSort_Spec RtpSort_Proofs.

Section S.
Context {P : Type}.
Variable pk : Z -> P.
Variables drop wait : Z.
Hypothesis Hdrop : 0 <= drop <= 32000.
Hypothesis Hwait : 0 <= wait <= 32767.

Lemma addPackets_snoc (st : sorter P) ns n : addPackets drop wait st (wire pk (ns ++ [n])) =
  let '(o, st') := addPackets drop wait st (wire pk ns) in let '(o', st'') := addPacket drop wait st' (n mod 65536) (pk n) in (o ++ o', st'').
Proof.
  unfold wire. rewrite map_app, addPackets_app. cbn [map addPackets]. destruct (addPackets drop wait st _) as [o st'].
  destruct (addPacket drop wait st' (n mod 65536) (pk n)) as [o' st'']. now rewrite app_nil_r.
Qed.
Lemma u16_sub n k : u16 (n mod 65536 - k) = (n - k) mod 65536.
Proof. unfold u16. now rewrite Zminus_mod_idemp_l. Qed.

(** ** Any arrivals within a window: in order, and never twice *)
Section Window.
Variable w : Z.
Definition inw (x : Z) := w <= x < w + 32000.
Record invA (seen : list Z) (st : sorter P) (os : list Z) (R W L : Z) (S : Z -> Prop) : Prop := mkA {
  a_seq : (if first st then R = w - 5 else rtpSeq st = R mod 65536 /\ rtpWSeq st = W mod 65536);
  a_fresh : first st = true -> preBuffer st = true /\ packBuffer st = [];
  a_R : w - 5 <= R <= w + 32000;
  a_W : w - 5 <= W <= w + 32000;
  a_buf : holds pk (packBuffer st) S;
  a_S : forall x, S x -> In x seen /\ inw x;
  a_pre : preBuffer st = true -> forall x, S x -> R <= x;
  a_os : Forall (fun x => x < R) os;
  a_sorted : StronglySorted Z.lt os;
  a_in : incl os seen;
  a_lost : lostTotal st = s32 L;
  a_total : packTotal st = u32 (len os + L) }.

Lemma sorted_from R : forall c, 0 <= c -> StronglySorted Z.lt (from R c).
Proof.
  intros c Hc. rewrite <- (Z2Nat.id c) by assumption. clear Hc. revert R. induction (Z.to_nat c) as [|k IH]; intros R; [constructor|].
  replace (Z.of_nat (S k)) with (1 + Z.of_nat k) by lia. rewrite from_S by apply Nat2Z.is_nonneg. constructor; [apply IH|]. apply Forall_forall. intros y Hy. apply from_in in Hy. lia.
Qed.
Lemma sorted_app a b R : StronglySorted Z.lt a -> Forall (fun x => x < R) a -> StronglySorted Z.lt b -> Forall (fun x => R <= x) b -> StronglySorted Z.lt (a ++ b).
Proof.
  intros Ha HR Hb HR'. induction Ha as [|x a Ha IH Hx]; [assumption|]. cbn [app]. inversion HR; subst. constructor; [now apply IH|].
  apply Forall_app. split; [assumption|]. eapply Forall_impl; [|exact HR']. cbn. intros y Hy. lia.
Qed.
Lemma len_from R c : 0 <= c -> len (from R c) = c.
Proof. intros H. unfold len, from. rewrite map_length, seq_length. lia. Qed.

(** From the position after giving up. *)
Lemma windowed seen os R W L S pre wanted0 buf n :
  w - 5 <= R <= w + 32000 -> w - 5 <= W <= w + 32000 -> holds pk buf S -> (forall x, S x -> In x seen /\ inw x) ->
  (pre = true -> forall x, S x -> R <= x) -> Forall (fun x => x < R) os -> StronglySorted Z.lt os -> incl os seen -> inw n ->
  exists o st' R' W' S', sort_in wait (R mod 65536) (W mod 65536) pre (s32 L) (u32 (len os + L)) wanted0 buf (n mod 65536) (pk n) = (map pk o, st') /\
    invA (n :: seen) st' (os ++ o) R' W' L S'.
Proof.
  intros HR HW Hb HS Hpre Hos Hso Hin Hn. unfold inw in Hn.
  destruct (rest_ok pk wait (w - 5) (w + 32000 - 1) R W pre (s32 L) (len os + L) wanted0 buf n S) as (c & wanted & buf' & C0 & E & C1 & C2 & C3 & C4 & C5); try assumption; try lia.
  { intros x Sx. destruct (HS x Sx) as [_ I]. unfold inw in I. lia. }
  cbv zeta in *. rewrite E. set (R1 := R + c) in *.
  exists (from R c ++ (if R1 =? n then [n] else [])). eexists. exists (next R1 n), (Z.max (Z.max (Z.max W R) (n - wait)) (next R1 n)). eexists. split; [reflexivity|].
  assert (NX : R1 <= next R1 n <= R1 + 1 /\ (next R1 n = R1 + 1 -> R1 = n)) by (unfold next; destruct (R1 =? n) eqn:Q; lia).
  assert (LO : len (os ++ from R c ++ (if R1 =? n then [n] else [])) = len os + (next R1 n - R)).
  { rewrite !len_app, len_from by assumption. unfold next. destruct (R1 =? n); [change (len [n]) with 1|change (len (@nil Z)) with 0]; lia. }
  assert (FO : Forall (fun x => R <= x < next R1 n) (from R c ++ (if R1 =? n then [n] else []))).
  { apply Forall_app. split; [apply Forall_forall; intros y Hy; apply from_in in Hy; lia|]. unfold next. destruct (R1 =? n) eqn:Q; [|constructor]. constructor; [lia|constructor]. }
  constructor; cbn [RtpSort_Model.first RtpSort_Model.rtpSeq RtpSort_Model.rtpWSeq RtpSort_Model.preBuffer RtpSort_Model.packBuffer RtpSort_Model.lostTotal RtpSort_Model.packTotal].
  - now split.
  - discriminate.
  - lia.
  - lia.
  - exact C1.
  - cbn beta. intros x [[Sx _]|[-> _]]; [destruct (HS x Sx); split; [now right|assumption]|split; [now left|exact Hn]].
  - intros Q x [[Sx Sn]|[-> Sn]].
    + specialize (Hpre Q x Sx). assert (~ R1 = x) by (intros <-; contradiction). lia.
    + lia.
  - apply Forall_app. split; [|eapply Forall_impl; [|exact FO]; cbn; intros; lia]. eapply Forall_impl; [|exact Hos]. cbn. intros x Hx. lia.
  - apply (sorted_app _ _ R); [assumption|assumption| |eapply Forall_impl; [|exact FO]; cbn; intros; lia].
    apply (sorted_app _ _ R1); [now apply sorted_from| | |].
    + apply Forall_forall. intros y Hy. apply from_in in Hy. lia.
    + destruct (R1 =? n); repeat constructor.
    + destruct (R1 =? n) eqn:Q; repeat constructor. lia.
  - intros x Hx. apply in_app_iff in Hx. destruct Hx as [Hx|Hx]; [right; now apply Hin|]. apply in_app_iff in Hx. destruct Hx as [Hx|Hx].
    + apply from_in in Hx. right. apply HS. now apply C2.
    + destruct (R1 =? n); [|destruct Hx]. destruct Hx as [<-|[]]. now left.
  - reflexivity.
  - rewrite LO. f_equal. lia.
Qed.

Lemma stepA seen st os R W L S n : invA seen st os R W L S -> inw n ->
  exists o st' R' W' L' S', addPacket drop wait st (n mod 65536) (pk n) = (map pk o, st') /\ invA (n :: seen) st' (os ++ o) R' W' L' S'.
Proof.
  intros [A1 A2 A3 A4 A5 A6 A7 A8 A9 A10 A11 A12] Hn. unfold addPacket. pose proof Hn as Hn'. unfold inw in Hn'. cbv zeta.
  rewrite A11, A12.
  destruct (first st) eqn:F.
  - destruct (A2 eq_refl) as [-> B]. rewrite B in *. change (5 <=? len (@nil (Z * P))) with false. cbv iota. rewrite u16_sub.
    destruct (windowed seen os (n - 5) n L S true (wantedSeqs st) [] n) as (o & st' & R' & W' & S' & -> & I); try assumption; try lia.
    + intros _ x Sx. destruct A5 as [_ A5]. assert (Q : mfind (x mod 65536) (@nil (Z * P)) = Some (pk x)) by (apply A5; now exists x). discriminate Q.
    + eapply Forall_impl; [|exact A8]. cbn. intros. lia.
    + exists o, st', R', W', L, S'. now split.
  - destruct A1 as [A1 A1']. rewrite A1, A1'. destruct (preBuffer st) eqn:Pre.
    + destruct (5 <=? len (packBuffer st)) eqn:E5.
      * destruct (packBuffer st) as [|[k v] buf] eqn:EB; [discriminate E5|].
        destruct A5 as [Q1 Q2]. assert (Fk : mfind k ((k, v) :: buf) = Some v) by (cbn [mfind]; now rewrite Z.eqb_refl).
        apply Q2 in Fk. destruct Fk as (x & Sx & -> & _). pose proof (A6 x Sx) as [_ Ix]. unfold inw in Ix. pose proof (A7 eq_refl x Sx).
        destruct (windowed seen os x x L S false (wantedSeqs st) ((x mod 65536, v) :: buf) n) as (o & st' & R' & W' & S' & -> & I); try assumption; try lia.
        -- now split.
        -- eapply Forall_impl; [|exact A8]. cbn. intros. lia.
        -- exists o, st', R', W', L, S'. now split.
      * destruct (windowed seen os R W L S true (wantedSeqs st) (packBuffer st) n) as (o & st' & R' & W' & S' & -> & I); try assumption.
        exists o, st', R', W', L, S'. now split.
    + rewrite give_up_ok by (rewrite ?rounds_Z; lia).
      set (R2 := Z.max R (n - drop)). replace (len os + L + (R2 - R)) with (len os + (L + (R2 - R))) by lia.
      destruct (windowed seen os R2 W (L + (R2 - R)) S false (wantedSeqs st) (packBuffer st) n) as (o & st' & R' & W' & S' & -> & I); try assumption; try lia.
      * eapply Forall_impl; [|exact A8]. cbn. intros. lia.
      * exists o, st', R', W', (L + (R2 - R)), S'. now split.
Qed.

Lemma runA : forall ns seen st os R W L S, invA seen st os R W L S -> Forall inw ns ->
  exists o st' R' W' L' S', addPackets drop wait st (wire pk ns) = (map pk o, st') /\ invA (rev ns ++ seen) st' (os ++ o) R' W' L' S'.
Proof.
  induction ns as [|n ns IH]; intros seen st os R W L S HI HF.
  - exists [], st, R, W, L, S. split; [reflexivity|]. now rewrite app_nil_r.
  - inversion HF; subst. unfold wire. cbn [map addPackets].
    destruct (stepA _ _ _ _ _ _ _ n HI ltac:(assumption)) as (o & st' & R' & W' & L' & S' & -> & I1).
    destruct (IH _ _ _ _ _ _ _ I1 ltac:(assumption)) as (o2 & st2 & R2 & W2 & L2 & S2 & E & I2). unfold wire in E. rewrite E.
    exists (o ++ o2), st2, R2, W2, L2, S2. split; [now rewrite map_app|]. rewrite app_assoc. cbn [rev]. rewrite <- (app_assoc (rev ns)). exact I2.
Qed.
Lemma startA : invA [] sorter0 [] (w - 5) w 0 (fun _ => False).
Proof.
  constructor; cbn; try (now intros); try constructor; try lia; try reflexivity.
  - constructor.
  - intros k v. split; [discriminate|now intros (n & [] & _)].
Qed.
End Window.
End S.

Lemma sorted_increasing l : StronglySorted Z.lt l -> increasing l.
Proof.
  intros H i j. revert i j. induction H as [|x l Hl IH Hx]; intros i j Hij; cbn [List.length] in *; [lia|].
  destruct j as [|j]; [lia|]. destruct i as [|i]; cbn [nth].
  - rewrite Forall_forall in Hx. apply Hx. apply nth_In. lia.
  - apply IH. lia.
Qed.
