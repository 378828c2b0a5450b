From Coq Require Import Permutation.
From Verif Require Import Common CommonFacts CommonMore RtpSort_Model RtpSort_Spec.

Lemma mod_eq a b : a mod 65536 = b mod 65536 -> - 65536 < a - b < 65536 -> a = b.
Proof. lia. Qed.
Lemma s16_id x : - 32768 <= x <= 32767 -> s16 x = x.
Proof. intros H. unfold s16, u16. cbv zeta. destruct (x mod 65536 <? 32768) eqn:E; lia. Qed.
Lemma s16_mod a b : - 32768 <= a - b <= 32767 -> s16 (a mod 65536 - b mod 65536) = a - b.
Proof.
  intros H. rewrite <- (s16_id (a - b)) by assumption. unfold s16, u16. rewrite <- Zminus_mod. reflexivity.
Qed.
Lemma u16_step R : u16 (R mod 65536 + 1) = (R + 1) mod 65536.
Proof. unfold u16. now rewrite Zplus_mod_idemp_l. Qed.
Lemma u32_step a : u32 (u32 a + 1) = u32 (a + 1).
Proof. unfold u32. now rewrite Zplus_mod_idemp_l. Qed.
Lemma s32_step a : s32 (s32 a + 1) = s32 (a + 1).
Proof. unfold s32, u32. cbv zeta. destruct (a mod 4294967296 <? 2147483648) eqn:E1; destruct ((a + 1) mod 4294967296 <? 2147483648) eqn:E2; match goal with |- (if ?c then _ else _) = _ => destruct c eqn:E3 end; lia. Qed.
Lemma give_up_ok drop : forall k R n L T, 0 <= drop <= 32767 -> - 32768 <= R - n <= 32767 -> n - drop - R <= Z.of_nat k ->
  give_up drop k (R mod 65536) (n mod 65536) (s32 L) (u32 T) =
  (Z.max R (n - drop) mod 65536, s32 (L + (Z.max R (n - drop) - R)), u32 (T + (Z.max R (n - drop) - R))).
Proof.
  induction k as [|k IH]; intros R n L T Hd Hr Hk; cbn [give_up].
  - replace (Z.max R (n - drop)) with R by lia. rewrite Z.sub_diag, !Z.add_0_r. reflexivity.
  - rewrite s16_mod by assumption. destruct (R - n <? - drop) eqn:E.
    + rewrite u16_step, u32_step, s32_step, IH by lia. replace (Z.max (R + 1) (n - drop)) with (Z.max R (n - drop)) by lia.
      f_equal; [f_equal|]; f_equal; lia.
    + replace (Z.max R (n - drop)) with R by lia. rewrite Z.sub_diag, !Z.add_0_r. reflexivity.
Qed.
Lemma from_S a n : 0 <= n -> from a (1 + n) = a :: from (a + 1) n.
Proof.
  intros H. unfold from. replace (Z.to_nat (1 + n)) with (S (Z.to_nat n)) by lia. cbn [seq map]. f_equal; [lia|].
  rewrite <- seq_shift, map_map. apply map_ext. intros i. lia.
Qed.
Lemma from_0 a : from a 0 = [].
Proof. reflexivity. Qed.
Lemma from_app a n k : 0 <= n -> 0 <= k -> from a (n + k) = from a n ++ from (a + n) k.
Proof.
  intros Hn Hk. unfold from. rewrite Z2Nat.inj_add by lia. rewrite seq_app, map_app. f_equal.
  replace (0 + Z.to_nat n)%nat with (Z.to_nat n) by lia.
  assert (G : forall b j, map (fun i => a + Z.of_nat i) (seq (b + Z.to_nat n) j) = map (fun i => a + n + Z.of_nat i) (seq b j)).
  { intros b j. revert b. induction j as [|j IH]; intros b; cbn [seq map]; [reflexivity|]. f_equal; [lia|]. exact (IH (S b)). }
  exact (G 0%nat (Z.to_nat k)).
Qed.
Lemma from_1 a : from a 1 = [a].
Proof. unfold from. change (Z.to_nat 1) with 1%nat. cbn [seq map]. f_equal. apply Z.add_0_r. Qed.
Lemma from_in a n j : In j (from a n) <-> a <= j < a + n.
Proof.
  unfold from. rewrite in_map_iff. split.
  - intros (i & <- & H). apply in_seq in H. lia.
  - intros H. exists (Z.to_nat (j - a)). split; [lia|]. apply in_seq. lia.
Qed.
Lemma clampW W R : - 32768 <= W - R <= 32767 -> (if s16 (W mod 65536 - R mod 65536) <? 0 then R mod 65536 else W mod 65536) = Z.max W R mod 65536.
Proof. intros H. rewrite s16_mod by assumption. destruct (W - R <? 0) eqn:E; f_equal; lia. Qed.
Lemma rounds_Z : Z.of_nat rounds = 65536.
Proof. unfold rounds. rewrite Z2Nat.id; [reflexivity|discriminate]. Qed.

Section S.
Context {P : Type}.
Implicit Types (m : list (Z * P)).

(** ** The map *)
Inductive sorted : list (Z * P) -> Prop :=
| so_nil : sorted []
| so_cons k v m : Forall (fun e => k < fst e) m -> sorted m -> sorted ((k, v) :: m).
Lemma mfind_mset k v m j : mfind j (mset k v m) = if j =? k then Some v else mfind j m.
Proof.
  induction m as [|[x w] m IH]; cbn [mset mfind]; rewrite (Z.eqb_sym j k); [reflexivity|].
  destruct (k <? x) eqn:E1; [reflexivity|]. destruct (k =? x) eqn:E2; cbn [mfind].
  - assert (k = x) by lia. subst x. destruct (k =? j) eqn:E3; [reflexivity|reflexivity].
  - rewrite IH. destruct (x =? j) eqn:E3; [|rewrite (Z.eqb_sym j k); reflexivity].
    destruct (k =? j) eqn:E4; [lia|reflexivity].
Qed.
Lemma mfind_notin k m : Forall (fun e => k < fst e) m -> mfind k m = None.
Proof. induction 1 as [|[x w] m Hx _ IH]; [reflexivity|]. cbn [mfind fst] in *. destruct (x =? k) eqn:E; [lia|assumption]. Qed.
Lemma mfind_merase k m j : sorted m -> mfind j (merase k m) = if j =? k then None else mfind j m.
Proof.
  induction 1 as [|x w m Hx Hm IH]; [now destruct (j =? k)|]. cbn [merase mfind].
  destruct (x =? k) eqn:E1.
  - destruct (j =? k) eqn:E2; [apply mfind_notin; now replace j with x by lia|]. destruct (x =? j) eqn:E3; [lia|reflexivity].
  - cbn [mfind]. rewrite IH. destruct (x =? j) eqn:E3; [|reflexivity]. destruct (j =? k) eqn:E2; [lia|reflexivity].
Qed.
Lemma Forall_mset (Q : Z * P -> Prop) k v m : Q (k, v) -> Forall Q m -> Forall Q (mset k v m).
Proof.
  intros Hq. induction 1 as [|[x w] m Hx Hm IH]; cbn [mset]; [now repeat constructor|].
  destruct (k <? x); [now repeat constructor|]. destruct (k =? x); now constructor.
Qed.
Lemma Forall_merase (Q : Z * P -> Prop) k m : Forall Q m -> Forall Q (merase k m).
Proof. induction 1 as [|[x w] m Hx Hm IH]; cbn [merase]; [constructor|]. destruct (x =? k); [assumption|now constructor]. Qed.
Lemma sorted_mset k v m : sorted m -> sorted (mset k v m).
Proof.
  induction 1 as [|x w m Hx Hm IH]; cbn [mset]; [repeat constructor|].
  destruct (k <? x) eqn:E1.
  - constructor; [|now constructor]. constructor; [cbn; lia|]. eapply Forall_impl; [|exact Hx]. cbn. intros [y ?] Hy. cbn in *. lia.
  - destruct (k =? x) eqn:E2.
    + constructor; [|assumption]. now replace k with x by lia.
    + constructor; [|assumption]. apply Forall_mset; [cbn; lia|assumption].
Qed.
Lemma sorted_merase k m : sorted m -> sorted (merase k m).
Proof.
  induction 1 as [|x w m Hx Hm IH]; cbn [merase]; [constructor|]. destruct (x =? k); [assumption|].
  constructor; [now apply Forall_merase|assumption].
Qed.
Lemma length_merase k m : mfind k m <> None -> S (List.length (merase k m)) = List.length m.
Proof.
  induction m as [|[x w] m IH]; cbn [mfind merase]; [now intros []|]. destruct (x =? k); [reflexivity|]. cbn [List.length]. intros H. now rewrite IH.
Qed.
Lemma length_mset k v m : (List.length (mset k v m) <= S (List.length m))%nat.
Proof. induction m as [|[x w] m IH]; cbn [mset]; [cbn; lia|]. destruct (k <? x); [cbn; lia|]. destruct (k =? x); cbn [List.length] in *; lia. Qed.
Lemma sorted_nodup m : sorted m -> NoDup (map fst m).
Proof.
  induction 1 as [|x w m Hx Hm IH]; cbn; constructor; [|assumption]. intros Hi. apply in_map_iff in Hi. destruct Hi as ([y u] & <- & Hi).
  rewrite Forall_forall in Hx. specialize (Hx _ Hi). cbn in Hx. lia.
Qed.
Lemma in_keys k m : In k (map fst m) <-> mfind k m <> None.
Proof.
  induction m as [|[x w] m IH]; cbn [map In mfind fst]; [split; [intros []|now intros []]|].
  destruct (x =? k) eqn:E.
  - split; [discriminate|]. intros _. left. lia.
  - rewrite <- IH. split; [intros [?|?]; [lia|assumption]|now right].
Qed.
Lemma head_min k v m j : sorted ((k, v) :: m) -> mfind j ((k, v) :: m) <> None -> k <= j.
Proof.
  intros H Hj. inversion H as [|? ? ? Hk Hm]; subst. apply in_keys in Hj. cbn [map In fst] in Hj. destruct Hj as [<-|Hj]; [lia|].
  apply in_map_iff in Hj. destruct Hj as ([y u] & <- & Hi). rewrite Forall_forall in Hk. specialize (Hk _ Hi). cbn in *. lia.
Qed.

(** ** Packets with true numbers *)
Variable pk : Z -> P.
Definition holds m (S : Z -> Prop) : Prop :=
  sorted m /\ forall k v, mfind k m = Some v <-> exists n, S n /\ k = n mod 65536 /\ v = pk n.
Lemma holds_ext m (S S' : Z -> Prop) : holds m S -> (forall n, S n <-> S' n) -> holds m S'.
Proof.
  intros [H1 H2] E. split; [assumption|]. intros k v. rewrite H2. split; intros (n & A & B); exists n; (split; [now apply E|assumption]).
Qed.
Lemma holds_find m S R : holds m S -> (forall n, S n -> - 65536 < n - R < 65536) ->
  (forall v, mfind (R mod 65536) m = Some v <-> S R /\ v = pk R).
Proof.
  intros [_ H] Hw v. rewrite H. split.
  - intros (n & A & B & C). assert (n = R) by (specialize (Hw n A); symmetry in B; apply (mod_eq n R B); lia). subst n. now split.
  - intros [A B]. exists R. now repeat split.
Qed.
Lemma holds_none m S R : holds m S -> (forall n, S n -> - 65536 < n - R < 65536) -> ~ S R -> mfind (R mod 65536) m = None.
Proof. intros H Hw Hn. destruct (mfind (R mod 65536) m) as [v|] eqn:E; [|reflexivity]. apply (holds_find m S R H Hw) in E. now destruct Hn. Qed.
Lemma holds_set m S n : holds m S -> (forall x, S x -> - 65536 < x - n < 65536) -> holds (mset (n mod 65536) (pk n) m) (fun x => S x \/ x = n).
Proof.
  intros [H1 H2] Hw. split; [now apply sorted_mset|]. intros k v. rewrite mfind_mset. destruct (k =? n mod 65536) eqn:E.
  - split.
    + intros [= <-]. exists n. split; [now right|]. split; [lia|reflexivity].
    + intros (x & [A|A] & B & C); [|now subst]. assert (x = n) by (specialize (Hw x A); apply (mod_eq x n); lia). now subst.
  - rewrite H2. split.
    + intros (x & A & B). exists x. split; [now left|assumption].
    + intros (x & [A|A] & B & C); [now exists x|]. subst. lia.
Qed.
Lemma holds_erase m S n : holds m S -> (forall x, S x -> - 65536 < x - n < 65536) -> holds (merase (n mod 65536) m) (fun x => S x /\ x <> n).
Proof.
  intros [H1 H2] Hw. split; [now apply sorted_merase|]. intros k v. rewrite mfind_merase by assumption. destruct (k =? n mod 65536) eqn:E.
  - split; [discriminate|]. intros (x & [A A'] & B & C). destruct A'. specialize (Hw x A). apply (mod_eq x n); lia.
  - rewrite H2. split.
    + intros (x & A & B & C). exists x. split; [split; [assumption|intros ->; lia]|now split].
    + intros (x & [A _] & B & C). now exists x.
Qed.

(** ** The loops *)


Lemma ask_ok wait S m : holds m S -> forall k W n wanted, 0 <= wait <= 32767 -> - 32768 <= W - n <= 32767 -> n - wait - W <= Z.of_nat k ->
  (forall x, S x -> - 32767 <= x - n <= 32767) ->
  exists wanted', ask wait k (W mod 65536) (n mod 65536) wanted m = (Z.max W (n - wait) mod 65536, wanted') /\
    (forall w, In w wanted' <-> In w wanted \/ exists j, W <= j < n - wait /\ ~ S j /\ w = j mod 65536).
Proof.
  intros Hm. induction k as [|k IH]; intros W n wanted Hw Hr Hk Hx; cbn [ask].
  - replace (Z.max W (n - wait)) with W by lia. exists wanted. split; [reflexivity|]. intros w. split; [now left|]. intros [H|(j & H & _)]; [assumption|lia].
  - rewrite s16_mod by assumption. destruct (W - n <? - wait) eqn:E.
    + rewrite u16_step. set (w' := match mfind (W mod 65536) m with Some _ => _ | None => _ end).
      assert (Hx' : forall x, S x -> - 65536 < x - W < 65536) by (intros x Sx; specialize (Hx x Sx); lia).
      destruct (IH (W + 1) n w' Hw ltac:(lia) ltac:(lia) Hx) as (wanted' & -> & H).
      exists wanted'. split; [f_equal; f_equal; lia|]. intros w. rewrite H. unfold w'.
      destruct (mfind (W mod 65536) m) as [v|] eqn:F.
      * apply (holds_find m S W Hm Hx') in F. destruct F as [F _]. split.
        -- intros [A|(j & A & B)]; [now left|right; exists j; split; [lia|assumption]].
        -- intros [A|(j & A & B & C)]; [now left|right; exists j]. split; [|now split]. assert (j <> W) by (intros ->; contradiction). lia.
      * split.
        -- intros [[A|A]|(j & A & B)]; [|now left|right; exists j; split; [lia|assumption]]. right. exists W. split; [lia|]. split; [|now symmetry].
           intros SW. assert (G : mfind (W mod 65536) m = Some (pk W)) by (apply (holds_find m S W Hm Hx'); now split). congruence.
        -- intros [A|(j & A & B & C)]; [left; now right|]. destruct (Z.eq_dec j W) as [->|N]; [left; left; now symmetry|right; exists j; split; [lia|now split]].
    + replace (Z.max W (n - wait)) with W by lia. exists wanted. split; [reflexivity|]. intros w. split; [now left|]. intros [A|(j & A & _)]; [assumption|lia].
Qed.


Lemma flush_ok lo hi : hi + 1 - lo < 65536 -> forall k S m R T, holds m S -> (List.length m < k)%nat ->
  (forall n, S n -> lo <= n <= hi) -> lo <= R <= hi + 1 ->
  exists c m', 0 <= c /\ flush k (R mod 65536) (u32 T) m = (map pk (from R c), (R + c) mod 65536, u32 (T + c), m') /\
    holds m' (fun x => S x /\ ~ R <= x < R + c) /\ (forall x, R <= x < R + c -> S x) /\ ~ S (R + c) /\ R + c <= hi + 1.
Proof.
  intros Hw. induction k as [|k IH]; intros S m R T Hm Hk Hs HR; [lia|]. cbn [flush].
  assert (Hx : forall n, S n -> - 65536 < n - R < 65536) by (intros n Sn; specialize (Hs n Sn); lia).
  destruct (mfind (R mod 65536) m) as [v|] eqn:F.
  - pose proof F as F'. apply (holds_find m S R Hm Hx) in F'. destruct F' as [SR ->]. pose proof (Hs R SR).
    rewrite u16_step, u32_step.
    destruct (IH (fun x => S x /\ x <> R) (merase (R mod 65536) m) (R + 1) (T + 1)) as (c & m' & C0 & -> & C1 & C2 & C3 & C4).
    + now apply holds_erase.
    + pose proof (length_merase (R mod 65536) m ltac:(congruence)). lia.
    + intros n [Sn _]. now apply Hs.
    + lia.
    + exists (1 + c), m'. split; [lia|]. split. { rewrite from_S by assumption. cbn [map]. replace (R + (1 + c)) with (R + 1 + c) by lia. replace (T + (1 + c)) with (T + 1 + c) by lia. reflexivity. }
      split. { eapply holds_ext; [exact C1|]. intros n. split; [intros [[A B] D]; split; [assumption|lia]|intros [A B]; split; [split; [assumption|]|]; lia]. }
      split. { intros x Hx'. destruct (Z.eq_dec x R) as [->|N]; [assumption|]. apply C2. lia. }
      split; [|lia]. replace (R + (1 + c)) with (R + 1 + c) by lia. intros A. apply C3. split; [assumption|lia].
  - exists 0, m. split; [lia|]. rewrite from_0, !Z.add_0_r. split; [reflexivity|].
    split. { eapply holds_ext; [exact Hm|]. intros n. split; [intros A; split; [assumption|lia]|now intros [A _]]. }
    split; [lia|]. split; [|lia]. intros SR. assert (G : mfind (R mod 65536) m = Some (pk R)) by (apply (holds_find m S R Hm Hx); now split). congruence.
Qed.

(** ** What one packet does, given the true position after giving up *)
Lemma addPackets_app drop wait : forall a b (st : sorter P), addPackets drop wait st (a ++ b) =
  (let '(o, st') := addPackets drop wait st a in let '(o', st'') := addPackets drop wait st' b in (o ++ o', st'')).
Proof.
  induction a as [|[n p] a IH]; intros b st; cbn [addPackets app].
  - destruct (addPackets drop wait st b) as [o st']. reflexivity.
  - destruct (addPacket drop wait st n p) as [o st1]. rewrite IH. destruct (addPackets drop wait st1 a) as [o2 st2].
    destruct (addPackets drop wait st2 b) as [o3 st3]. now rewrite app_assoc.
Qed.
Lemma count_ok m seen : holds m (fun x => In x seen) -> (forall x y, In x seen -> In y seen -> - 65536 < x - y < 65536) ->
  List.length m = List.length (nodup Z.eq_dec seen).
Proof.
  intros [H1 H2] Hw. rewrite <- (map_length fst), <- (map_length (fun n => n mod 65536) (nodup Z.eq_dec seen)).
  apply Permutation_length. apply NoDup_Permutation.
  - now apply sorted_nodup.
  - assert (G : forall l, NoDup l -> (forall x, In x l -> In x seen) -> NoDup (map (fun n => n mod 65536) l)).
    { induction 1 as [|x l Hx Hl IH]; intros Hin; cbn [map]; constructor.
      - intros Hi. apply in_map_iff in Hi. destruct Hi as (y & E & Hy). assert (y = x) by (apply mod_eq; [assumption|apply Hw; apply Hin; [now right|now left]]). now subst.
      - apply IH. intros y Hy. apply Hin. now right. }
    apply G; [apply NoDup_nodup|]. intros x Hx. now apply nodup_In in Hx.
  - intros k. rewrite in_keys. split.
    + intros Hf. destruct (mfind k m) as [v|] eqn:E; [|now destruct Hf]. apply H2 in E. destruct E as (n & A & B & _).
      apply in_map_iff. exists n. split; [now symmetry|]. now apply nodup_In.
    + intros Hi. apply in_map_iff in Hi. destruct Hi as (n & A & B). apply nodup_In in B.
      assert (E : mfind k m = Some (pk n)) by (apply H2; now exists n). congruence.
Qed.

Definition next (R1 n : Z) := if R1 =? n then R1 + 1 else R1.

Lemma rest_ok wait lo hi R W pre lost T wanted0 buf0 n (S : Z -> Prop) :
  0 <= wait <= 32767 -> hi - lo <= 32700 -> holds buf0 S -> (forall x, S x -> lo <= x <= hi) ->
  lo <= R <= hi + 1 -> lo <= W <= hi + 1 -> lo <= n <= hi ->
  exists c wanted buf, 0 <= c /\
    let R1 := R + c in
    sort_in wait (R mod 65536) (W mod 65536) pre lost (u32 T) wanted0 buf0 (n mod 65536) (pk n) =
      (map pk (from R c ++ (if R1 =? n then [n] else [])),
       mksorter (next R1 n mod 65536) (Z.max (Z.max (Z.max W R) (n - wait)) (next R1 n) mod 65536) false pre lost
                (u32 (T + (next R1 n - R))) wanted buf) /\
    holds buf (fun x => S x /\ ~ R <= x < R1 \/ x = n /\ R1 < n) /\
    (forall x, R <= x < R1 -> S x) /\ ~ S R1 /\ R1 <= hi + 1 /\
    (forall w, In w wanted <-> In w wanted0 \/ exists j, Z.max W R <= j < n - wait /\ ~ S j /\ w = j mod 65536).
Proof.
  intros Hw Hh Hb HS HR HW Hn. unfold sort_in. rewrite clampW by lia.
  destruct (ask_ok wait S buf0 Hb rounds (Z.max W R) n wanted0 Hw ltac:(lia) ltac:(rewrite rounds_Z; lia)) as (wanted & -> & Hwant).
  { intros x Sx. specialize (HS x Sx). lia. }
  destruct (flush_ok lo hi ltac:(lia) (Datatypes.S (List.length buf0)) S buf0 R T Hb ltac:(lia) HS HR) as (c & m' & C0 & -> & C1 & C2 & C3 & C4).
  exists c, wanted. rewrite s16_mod by lia.
  assert (EI : ((R + c) mod 65536 =? n mod 65536) = (R + c =? n)).
  { destruct (R + c =? n) eqn:E; [replace (R + c) with n by lia; apply Z.eqb_refl|]. apply Z.eqb_neq. intros Q. apply mod_eq in Q; lia. }
  rewrite EI, u16_step, u32_step.
  exists (if R + c - n <? 0 then mset (n mod 65536) (pk n) m' else m'). split; [assumption|]. cbv zeta. split.
  - replace (if R + c =? n then map pk (from R c) ++ [pk n] else map pk (from R c)) with (map pk (from R c ++ (if R + c =? n then [n] else []))).
    2:{ rewrite map_app. destruct (R + c =? n); [reflexivity|apply app_nil_r]. }
    replace (if R + c =? n then (R + c + 1) mod 65536 else (R + c) mod 65536) with (next (R + c) n mod 65536) by (unfold next; now destruct (R + c =? n)).
    rewrite clampW by (unfold next; destruct (R + c =? n) eqn:E; lia).
    replace (if R + c =? n then u32 (T + c + 1) else u32 (T + c)) with (u32 (T + (next (R + c) n - R))) by (unfold next; destruct (R + c =? n); f_equal; lia).
    reflexivity.
  - split; [|repeat split; try assumption; try (intros; now apply C2); apply Hwant].
    destruct (R + c - n <? 0) eqn:E.
    + eapply holds_ext; [apply (holds_set m' _ n C1)|]. { intros x [Sx _]. specialize (HS x Sx). lia. }
      intros x. cbn beta. split; [intros [A|A]; [now left|right; lia]|intros [A|[A _]]; [now left|now right]].
    + eapply holds_ext; [exact C1|]. intros x. cbn beta. split; [intros A; now left|intros [A|[_ A]]; [assumption|lia]].
Qed.
End S.
