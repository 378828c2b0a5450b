(** Proofs about MP4 boxes. *)
From Verif Require Import Common CommonFacts CommonMore Mem_Model Mem_Proofs Outcome_Model Mp4_Model Mp4_Spec.

(** ** Memory *)
Lemma splice_at (a x c y : list Z) i : i = len a -> len x = len y -> splice (a ++ x ++ c) i y = a ++ y ++ c.
Proof.
  intros -> H. unfold splice. rewrite takez_app_exact by reflexivity. rewrite (app_assoc a x c), (dropz_app_exact (a ++ x)) by (rewrite len_app; lia). reflexivity.
Qed.
Lemma poke_at (a x c y : list Z) i : i = len a -> len x = len y -> poke (a ++ x ++ c) i y = Some (a ++ y ++ c).
Proof.
  intros -> H. rewrite poke_some; [rewrite splice_at; auto | apply len_nonneg |]. rewrite !len_app. pose proof (len_nonneg c). lia.
Qed.
Lemma poke_front (x c y : list Z) : len x = len y -> poke (x ++ c) 0 y = Some (y ++ c).
Proof. intros H. exact (poke_at [] x c y 0 eq_refl H). Qed.
Lemma peek_at (a x c : list Z) i n : i = len a -> n = len x -> peek (a ++ x ++ c) i n = Some x.
Proof.
  intros -> ->. pose proof (len_nonneg a). pose proof (len_nonneg x). pose proof (len_nonneg c). rewrite peek_some; [| lia | lia | rewrite !len_app; lia].
  rewrite dropz_app_exact by reflexivity. rewrite takez_app_exact; reflexivity.
Qed.
Lemma getn_at (a x c : list Z) i n : i = len a -> n = len x -> getn (a ++ x ++ c) i n = Ok x.
Proof. intros H1 H2. unfold getn. rewrite peek_at by assumption. reflexivity. Qed.
Lemma getbe_at (a c : list Z) i k v n : i = len a -> n = Z.of_nat k -> 0 <= v < 256 ^ Z.of_nat k -> getbe (a ++ be k v ++ c) i n = Ok v.
Proof. intros H1 H2 H3. unfold getbe. rewrite getn_at; [| assumption | rewrite be_len; assumption]. rewrite unbe_be, Z.mod_small by assumption. reflexivity. Qed.
Lemma len_zeros n : 0 <= n -> len (zeros n) = n.
Proof. intros H. unfold zeros. rewrite len_repeat. lia. Qed.
Lemma zeros_add a b : 0 <= a -> 0 <= b -> zeros (a + b) = zeros a ++ zeros b.
Proof. intros Ha Hb. unfold zeros. rewrite Z2Nat.inj_add by assumption. apply repeat_app. Qed.
Lemma cut (l : list Z) n : 0 <= n <= len l -> exists a c, l = a ++ c /\ len a = n.
Proof. intros H. exists (takez n l), (dropz n l). split; [symmetry; apply takez_dropz | apply len_takez; assumption]. Qed.
Lemma u64_small x : 0 <= x < 2 ^ 64 -> u64 x = x.
Proof. apply u64_id. Qed.

(** ** The state of a box *)
Definition rep (b : box) (ty pl slack : list Z) : Prop :=
  b = mkbox (iso ty pl ++ slack) true 8 /\ len ty = 4 /\ len pl + len slack + 8 < 2 ^ 31.
Lemma len_iso ty pl : len ty = 4 -> len (iso ty pl) = 8 + len pl.
Proof. intros H. unfold iso. rewrite !len_app, be_len. lia. Qed.
Lemma is_box_rep b ty pl : is_box b ty pl <-> exists slack, rep b ty pl slack.
Proof.
  split.
  - intros (T & M & O & s & D & L). exists s. split; [| split; [exact T |]].
    + destruct b as [d m o]. cbn in *. subst. reflexivity.
    + rewrite D, len_app, len_iso in L by exact T. lia.
  - intros (s & -> & T & L). split; [exact T |]. split; [reflexivity |]. split; [reflexivity |]. exists s. split; [reflexivity |].
    cbn [b_data]. rewrite len_app, len_iso by exact T. lia.
Qed.
Lemma rep_new ty : len ty = 4 -> rep (newBox ty) ty [] [].
Proof. intros T. split; [| split; [exact T | cbn; lia]]. unfold newBox, iso. rewrite !app_nil_r. reflexivity. Qed.
Lemma rep_size b ty pl s : rep b ty pl s -> boxedSize b = Ok (8 + len pl).
Proof.
  intros (-> & T & L). unfold boxedSize. cbn [b_off b_data]. change (8 =? 16) with false. unfold iso. cbv iota.
  pose proof (len_nonneg pl). pose proof (len_nonneg s). rewrite <- !app_assoc.
  apply (getbe_at [] (ty ++ pl ++ s) 0 4 (8 + len pl) 4); [reflexivity | reflexivity |]. change (256 ^ Z.of_nat 4) with (2 ^ 32). lia.
Qed.
Lemma rep_data b ty pl s : rep b ty pl s -> b_data b = be 4 (8 + len pl) ++ ty ++ pl ++ s.
Proof. intros (-> & _ & _). cbn [b_data]. unfold iso. rewrite <- !app_assoc. reflexivity. Qed.
Lemma rep_off b ty pl s : rep b ty pl s -> b_off b = 8.
Proof. intros (-> & _). reflexivity. Qed.
Lemma rep_len b ty pl s : rep b ty pl s -> len (b_data b) = 8 + len pl + len s.
Proof. intros R. pose proof R as (_ & T & _). rewrite (rep_data _ _ _ _ R), !len_app, be_len. lia. Qed.
Lemma rep_get b ty a x c s n : rep b ty (a ++ x ++ c) s -> n = len x -> getn (b_data b) (8 + len a) n = Ok x.
Proof.
  intros R ->. pose proof R as (_ & T & _). rewrite (rep_data _ _ _ _ R).
  replace (be 4 (8 + len (a ++ x ++ c)) ++ ty ++ (a ++ x ++ c) ++ s) with ((be 4 (8 + len (a ++ x ++ c)) ++ ty ++ a) ++ x ++ (c ++ s)) by (rewrite <- !app_assoc; reflexivity).
  apply getn_at; [| reflexivity]. rewrite !len_app, be_len. lia.
Qed.
Lemma rep_put b ty a x c s y : rep b ty (a ++ x ++ c) s -> len x = len y -> exists b', putn b (8 + len a) y = Ok b' /\ rep b' ty (a ++ y ++ c) s.
Proof.
  intros R E. pose proof R as (D & T & L). exists (mkbox (iso ty (a ++ y ++ c) ++ s) true 8). split.
  - unfold putn. rewrite (rep_data _ _ _ _ R).
    replace (be 4 (8 + len (a ++ x ++ c)) ++ ty ++ (a ++ x ++ c) ++ s) with ((be 4 (8 + len (a ++ x ++ c)) ++ ty ++ a) ++ x ++ (c ++ s)) by (rewrite <- !app_assoc; reflexivity).
    rewrite poke_at; [| rewrite !len_app, be_len; lia | exact E]. subst b. unfold with_data. cbn [b_managed b_off]. unfold iso.
    rewrite <- !app_assoc. replace (len (a ++ y ++ c)) with (len (a ++ x ++ c)) by (rewrite !len_app; lia). reflexivity.
  - split; [reflexivity |]. split; [exact T |]. rewrite !len_app in *. lia.
Qed.
Lemma putn_with d m o i x : putn (mkbox d m o) i x = match poke d i x with Some d => Ok (mkbox d m o) | None => Ub end.
Proof. unfold putn, with_data. cbn. destruct (poke d i x); reflexivity. Qed.

(** Memory behind the box is made when it grows. *)
Lemma grow ty pl s w : len ty = 4 -> 0 <= w -> len pl + Z.max (len s) w + 8 < 2 ^ 31 ->
  let size := 8 + len pl in
  exists s1 s2, len s1 = w /\ (s = [] -> s1 = zeros w /\ s2 = []) /\ len pl + (len s1 + len s2) + 8 <= len pl + Z.max (len s) w + 8 /\
  (if len (iso ty pl ++ s) <? size + w
   then putn (mkbox ((iso ty pl ++ s) ++ zeros (size + w - len (iso ty pl ++ s))) true 8) size (zeros w)
   else Ok (mkbox (iso ty pl ++ s) true 8)) = Ok (mkbox (iso ty pl ++ s1 ++ s2) true 8).
Proof.
  intros T W L. cbv zeta. rewrite len_app, len_iso by exact T. pose proof (len_nonneg s) as Ls. pose proof (len_nonneg pl).
  destruct (Z.ltb_spec (8 + len pl + len s) (8 + len pl + w)) as [G | G].
  - exists (zeros w), []. rewrite len_zeros, len_nil by lia. split; [reflexivity |]. split; [auto |]. split; [lia |].
    rewrite putn_with. rewrite <- app_assoc.
    replace (s ++ zeros (8 + len pl + w - (8 + len pl + len s))) with ((s ++ zeros (8 + len pl + w - (8 + len pl + len s))) ++ []) by apply app_nil_r.
    rewrite poke_at; [reflexivity | rewrite len_iso by exact T; reflexivity | rewrite len_app, !len_zeros by lia; lia].
  - destruct (cut s w ltac:(lia)) as (s1 & s2 & -> & E). exists s1, s2. rewrite len_app in *. split; [exact E |]. split; [| split; [lia | reflexivity]].
    intros Q. apply app_eq_nil in Q as (-> & ->). rewrite len_nil in E. subst w. auto.
Qed.

(** Making room at the end. *)
Lemma reserve_end b ty pl s p w : rep b ty pl s -> len pl <= p -> 0 < w -> p + len s + w + 8 < 2 ^ 31 ->
  exists b' gap s', reserve b (8 + p) 0 w = Ok (b', true) /\ rep b' ty (pl ++ gap) s' /\ len gap = p - len pl + w /\
    (s = [] -> gap = zeros (p - len pl + w) /\ s' = []) /\ len (pl ++ gap) + len s' <= p + len s + w.
Proof.
  intros R P W L. pose proof R as (D & T & L0). pose proof (len_nonneg s). pose proof (len_nonneg pl).
  destruct (grow ty pl s (p - len pl + w) T ltac:(lia) ltac:(lia)) as (s1 & s2 & E1 & Z1 & L1 & G).
  exists (mkbox (iso ty (pl ++ s1) ++ s2) true 8), s1, s2. split; [| split; [| split; [exact E1 | split; [exact Z1 | rewrite len_app; lia]]]].
  - unfold reserve. destruct (Z.eqb_spec 0 w); [lia |]. rewrite (rep_size _ _ _ _ R). rewrite D in *. cbn [b_data b_managed b_off with_data] in *. rewrite andb_false_r. unfold with_data. cbn [b_data b_managed b_off] in *.
    replace (if 8 + len pl <? 8 + p then u64 (w + (8 + p - (8 + len pl))) else w) with (p - len pl + w)
      by (destruct (Z.ltb_spec (8 + len pl) (8 + p)); [rewrite u64_small; lia | lia]).
    rewrite Z.sub_0_r, (u64_small (p - len pl + w)), (u64_small (8 + len pl + (p - len pl + w))) by lia.
    assert (C1 : (0 <? p - len pl + w) = true) by lia. rewrite C1. cbn [andb]. rewrite G.
    assert (C2 : (8 + p + 0 <? 8 + len pl) = false) by lia. rewrite C2. change (8 =? 16) with false. cbv iota.
    rewrite putn_with. unfold iso. rewrite <- !app_assoc.
    rewrite poke_front by (rewrite !be_len; reflexivity). rewrite len_app, E1. replace (8 + (len pl + (p - len pl + w))) with (8 + len pl + (p - len pl + w)) by lia. reflexivity.
  - split; [reflexivity |]. split; [exact T |]. rewrite len_app. lia.
Qed.
(** Making another amount of room for what lies in the middle. *)
Lemma reserve_mid b ty a c d s w : rep b ty (a ++ c ++ d) s -> w <> len c -> 0 <= w -> len a + w + len d + len c + len s + 8 < 2 ^ 31 ->
  exists b' x s', reserve b (8 + len a) (len c) w = Ok (b', true) /\ rep b' ty (a ++ x ++ d) s' /\ len x = w /\
    len (a ++ x ++ d) + len s' <= Z.max (len a + w + len d) (len (a ++ c ++ d) + len s) /\
    (s = [] -> len c <= w -> s' = []).
Proof.
  intros R NE W L. pose proof R as (D & T & L0). pose proof (len_nonneg s). pose proof (len_nonneg a). pose proof (len_nonneg c). pose proof (len_nonneg d).
  assert (EL : len (a ++ c ++ d) = len a + len c + len d) by (rewrite !len_app; lia).
  unfold reserve. destruct (Z.eqb_spec (len c) w); [lia |]. rewrite (rep_size _ _ _ _ R). rewrite D in *. cbn [b_data b_managed b_off with_data]. rewrite andb_false_r. unfold with_data. cbn [b_data b_managed b_off].
  assert (C0 : (8 + len (a ++ c ++ d) <? 8 + len a) = false) by lia. rewrite C0. cbv iota.
  assert (U : u64 (8 + len (a ++ c ++ d) + u64 (w - len c)) = 8 + len a + w + len d).
  { rewrite EL. unfold u64. rewrite Z.add_mod_idemp_r by lia. rewrite Z.mod_small; lia. }
  rewrite U.
  assert (K : exists x tail s', (if (len c <? w) && (len (iso ty (a ++ c ++ d) ++ s) <? 8 + len a + w + len d)
     then putn (mkbox ((iso ty (a ++ c ++ d) ++ s) ++ zeros (8 + len a + w + len d - len (iso ty (a ++ c ++ d) ++ s))) true 8) (8 + len (a ++ c ++ d)) (zeros (w - len c))
     else Ok (mkbox (iso ty (a ++ c ++ d) ++ s) true 8)) = Ok (mkbox (be 4 (8 + len (a ++ c ++ d)) ++ ty ++ a ++ x ++ tail ++ s') true 8) /\ len x = w /\ len tail = len d /\
     len a + w + len d + len s' <= Z.max (len a + w + len d) (len (a ++ c ++ d) + len s) /\ (s = [] -> len c <= w -> s' = []) /\ x ++ tail ++ s' = c ++ d ++ dropz (len c + len d) (x ++ tail ++ s')).
  { destruct (Z.ltb_spec (len c) w) as [G | G]; cbn [andb].
    - destruct (grow ty (a ++ c ++ d) s (w - len c) T ltac:(lia) ltac:(lia)) as (s1 & s2 & E1 & Z1 & L1 & E).
      replace (8 + len (a ++ c ++ d) + (w - len c)) with (8 + len a + w + len d) in E by lia. rewrite E.
      destruct (cut (c ++ d ++ s1) w ltac:(rewrite !len_app; lia)) as (x & tail & E2 & E3).
      assert (Lt : len tail = len d). { apply (f_equal len) in E2. rewrite !len_app in E2. lia. }
      exists x, tail, s2. split; [| split; [exact E3 |]].
      + unfold iso. rewrite <- !app_assoc. do 5 f_equal. rewrite (app_assoc x), <- E2, <- !app_assoc. reflexivity.
      + split; [exact Lt |]. split; [rewrite EL in *; lia |]. split; [intros Hs _; apply Z1; exact Hs |].
        rewrite (app_assoc x), <- E2, <- !app_assoc. rewrite (app_assoc c d), dropz_app_exact by (rewrite len_app; reflexivity). rewrite <- app_assoc. reflexivity.
    - destruct (cut (c ++ d ++ s) w ltac:(rewrite !len_app; lia)) as (x & r & E2 & E3).
      destruct (cut r (len d)) as (tail & s' & E4 & E5). { apply (f_equal len) in E2. rewrite !len_app in E2. lia. }
      exists x, tail, s'. split; [| split; [exact E3 | split; [exact E5 |]]].
      + f_equal. f_equal. unfold iso. rewrite <- !app_assoc. rewrite E2, E4. reflexivity.
      + split; [| split].
        * apply (f_equal len) in E2. rewrite E4, !len_app in E2. lia.
        * intros -> Q. assert (len c = w) by lia. congruence.
        * rewrite <- E4, <- E2. rewrite (app_assoc c d), dropz_app_exact by (rewrite len_app; reflexivity). rewrite <- app_assoc. reflexivity. }
  destruct K as (x & tail & s' & K & Lx & Lt & Ls' & Z' & E). rewrite K. clear K. cbn [b_data b_off].
  assert (M : (if 8 + len a + len c <? 8 + len (a ++ c ++ d)
     then y <~ getn (be 4 (8 + len (a ++ c ++ d)) ++ ty ++ a ++ x ++ tail ++ s') (8 + len a + len c) (8 + len (a ++ c ++ d) - (8 + len a + len c));;
          putn (mkbox (be 4 (8 + len (a ++ c ++ d)) ++ ty ++ a ++ x ++ tail ++ s') true 8) (8 + len a + w) y
     else Ok (mkbox (be 4 (8 + len (a ++ c ++ d)) ++ ty ++ a ++ x ++ tail ++ s') true 8)) = Ok (mkbox (be 4 (8 + len (a ++ c ++ d)) ++ ty ++ a ++ x ++ d ++ s') true 8)).
  { destruct (Z.ltb_spec (8 + len a + len c) (8 + len (a ++ c ++ d))) as [G | G].
    - replace (getn _ _ _) with (Ok d).
      + rewrite putn_with. replace (be 4 (8 + len (a ++ c ++ d)) ++ ty ++ a ++ x ++ tail ++ s') with ((be 4 (8 + len (a ++ c ++ d)) ++ ty ++ a ++ x) ++ tail ++ s') by (rewrite <- !app_assoc; reflexivity).
        rewrite poke_at; [rewrite <- !app_assoc; reflexivity | rewrite !len_app, be_len; lia | exact Lt].
      + symmetry. rewrite E. set (q := dropz _ _). replace (be 4 (8 + len (a ++ c ++ d)) ++ ty ++ a ++ c ++ d ++ q) with ((be 4 (8 + len (a ++ c ++ d)) ++ ty ++ a ++ c) ++ d ++ q) by (rewrite <- !app_assoc; reflexivity).
        apply getn_at; [rewrite !len_app, be_len; lia | lia].
    - assert (len d = 0) by lia. assert (d = []) as -> by (apply len_zero; assumption). assert (tail = []) as -> by (apply len_zero; lia). reflexivity. }
  rewrite M. clear M. change (8 =? 16) with false. cbv iota. rewrite putn_with.
  rewrite poke_front by (rewrite !be_len; reflexivity).
  exists (mkbox (iso ty (a ++ x ++ d) ++ s') true 8), x, s'. split; [| split; [| split; [exact Lx | split; [rewrite !len_app; lia | exact Z']]]].
  - unfold iso. rewrite <- !app_assoc. cbn [app]. replace (8 + len (a ++ x ++ d)) with (8 + len a + w + len d) by (rewrite !len_app; lia). reflexivity.
  - split; [reflexivity |]. split; [exact T |]. rewrite !len_app. lia.
Qed.

(** ** Fields *)
Lemma cut3 (l : list Z) i n : 0 <= i -> 0 <= n -> i + n <= len l -> exists a x c, l = a ++ x ++ c /\ len a = i /\ len x = n.
Proof.
  intros Hi Hn H. destruct (cut l i ltac:(lia)) as (a & r & -> & Ea). rewrite len_app in H. destruct (cut r n ltac:(lia)) as (x & c & -> & Ex). exists a, x, c. auto.
Qed.
Lemma splice_parts (a x c y : list Z) : len x = len y -> splice (a ++ x ++ c) (len a) y = a ++ y ++ c.
Proof. intros H. apply splice_at; [reflexivity | exact H]. Qed.
Lemma setInt_in b ty pl s n v i : (0 < n)%nat -> rep b ty pl s -> 0 <= i -> i + Z.of_nat n <= len pl ->
  exists b', setInt n v i b = Ok b' /\ rep b' ty (splice pl i (be n v)) s.
Proof.
  intros Hn R Hi H. destruct (cut3 pl i (Z.of_nat n) Hi ltac:(lia) H) as (a & x & c & -> & <- & Ex).
  pose proof R as (_ & _ & L). pose proof (len_nonneg s). unfold setInt. rewrite (rep_off _ _ _ _ R), (rep_size _ _ _ _ R). rewrite (u64_small (len a + 8)), u64_small by lia.
  destruct (Z.leb_spec (8 + len (a ++ x ++ c)) (len a + 8 + Z.of_nat n - 1)); [lia |].
  rewrite (Z.add_comm (len a) 8). rewrite splice_parts by (rewrite be_len; exact Ex). apply rep_put with (x := x); [exact R | rewrite be_len; exact Ex].
Qed.
Lemma setInt_end b ty pl s n v i : (0 < n)%nat -> rep b ty pl s -> len pl <= i -> i + Z.of_nat n + len s + 8 < 2 ^ 31 ->
  exists b' gap s', setInt n v i b = Ok b' /\ rep b' ty (pl ++ gap ++ be n v) s' /\ len gap = i - len pl /\ (s = [] -> gap = zeros (i - len pl) /\ s' = []) /\
    len s' <= len s.
Proof.
  intros Hn R Hi H. pose proof (len_nonneg s). pose proof (len_nonneg pl). unfold setInt. rewrite (rep_off _ _ _ _ R), (rep_size _ _ _ _ R). rewrite (u64_small (i + 8)), u64_small by lia.
  destruct (Z.leb_spec (8 + len pl) (i + 8 + Z.of_nat n - 1)); [| lia].
  destruct (reserve_end b ty pl s i (Z.of_nat n) R Hi ltac:(lia) ltac:(lia)) as (b1 & g & s' & E & R1 & Lg & Z1 & B). rewrite (Z.add_comm i 8), E. cbn [fst snd].
  destruct (cut g (i - len pl) ltac:(lia)) as (gap & x & -> & Eg). rewrite len_app in Lg.
  replace (pl ++ gap ++ x) with ((pl ++ gap) ++ x ++ []) in R1 by (rewrite <- app_assoc, app_nil_r; reflexivity).
  destruct (rep_put _ _ _ _ _ _ (be n v) R1 ltac:(rewrite be_len; lia)) as (b2 & E2 & R2). replace (8 + i) with (8 + len (pl ++ gap)) by (rewrite len_app; lia). rewrite E2.
  exists b2, gap, s'. split; [reflexivity |]. rewrite app_nil_r, <- app_assoc in R2. split; [exact R2 |]. split; [exact Eg |]. split.
  - intros Hs. destruct (Z1 Hs) as (Q & Q2). split; [| exact Q2]. replace (i - len pl + Z.of_nat n) with ((i - len pl) + Z.of_nat n) in Q by lia. rewrite zeros_add in Q by lia.
    apply (f_equal (takez (i - len pl))) in Q. rewrite !takez_app_exact in Q; [exact Q | rewrite len_zeros; lia | lia].
  - rewrite !len_app in B. lia.
Qed.
(** A field half in and half out is put in between. *)
Lemma setInt_across b ty a c s n v : (0 < n)%nat -> rep b ty (a ++ c) s -> c <> [] -> len c < Z.of_nat n -> len a + Z.of_nat n + len c + len s + 8 < 2 ^ 31 ->
  exists b' s', setInt n v (len a) b = Ok b' /\ rep b' ty (a ++ be n v ++ c) s'.
Proof.
  intros Hn R Hc H L. pose proof (len_nonneg s). pose proof (len_nonneg a). pose proof (len_nonneg c). unfold setInt. rewrite (rep_off _ _ _ _ R), (rep_size _ _ _ _ R). rewrite (u64_small (len a + 8)), u64_small by lia.
  destruct (Z.leb_spec (8 + len (a ++ c)) (len a + 8 + Z.of_nat n - 1)) as [G | G]; [| rewrite len_app in G; lia].
  destruct (reserve_mid b ty a [] c s (Z.of_nat n) R ltac:(cbn; lia) ltac:(lia) ltac:(cbn; lia)) as (b1 & x & s' & E & R1 & Lx & _). rewrite (Z.add_comm (len a) 8). change (len []) with 0 in E. rewrite E. cbn [fst snd].
  destruct (rep_put _ _ _ _ _ _ (be n v) R1 ltac:(rewrite be_len; lia)) as (b2 & E2 & R2). rewrite E2. exists b2, s'. split; [reflexivity | exact R2].
Qed.
Lemma getIntC_in b ty pl s n i : (0 < n)%nat -> rep b ty pl s -> 0 <= i -> i + Z.of_nat n <= len pl -> getIntC n i b = Ok (unbe (takez (Z.of_nat n) (dropz i pl))).
Proof.
  intros Hn R Hi H. destruct (cut3 pl i (Z.of_nat n) Hi ltac:(lia) H) as (a & x & c & -> & <- & Ex).
  pose proof R as (_ & _ & L). pose proof (len_nonneg s). unfold getIntC. rewrite (rep_off _ _ _ _ R), (rep_size _ _ _ _ R). rewrite (u64_small (len a + 8)), u64_small by lia.
  destruct (Z.leb_spec (8 + len (a ++ x ++ c)) (len a + 8 + Z.of_nat n - 1)); [lia |].
  unfold getbe. rewrite (Z.add_comm (len a) 8), (rep_get _ _ _ _ _ _ (Z.of_nat n) R) by lia. rewrite dropz_app_exact, takez_app_exact by lia. reflexivity.
Qed.
Lemma getIntC_out b ty pl s n i : (0 < n)%nat -> rep b ty pl s -> 0 <= i < 2 ^ 63 -> Z.of_nat n < 2 ^ 63 - 8 -> len pl < i + Z.of_nat n -> getIntC n i b = Ok 0.
Proof.
  intros Hn R Hi Hb H. unfold getIntC. rewrite (rep_off _ _ _ _ R), (rep_size _ _ _ _ R). rewrite (u64_small (i + 8)), u64_small by lia.
  destruct (Z.leb_spec (8 + len pl) (i + 8 + Z.of_nat n - 1)); [reflexivity | lia].
Qed.
Lemma getInt_in b ty pl s n i : (0 < n)%nat -> rep b ty pl s -> 0 <= i -> i + Z.of_nat n <= len pl -> getInt n i b = Ok (b, unbe (takez (Z.of_nat n) (dropz i pl))).
Proof.
  intros Hn R Hi H. pose proof (getIntC_in b ty pl s n i Hn R Hi H) as C. unfold getIntC in C. unfold getInt.
  pose proof R as (_ & _ & L). pose proof (len_nonneg s). rewrite (rep_off _ _ _ _ R), (rep_size _ _ _ _ R) in *. rewrite (u64_small (i + 8)), u64_small in * by lia.
  destruct (Z.leb_spec (8 + len pl) (i + 8 + Z.of_nat n - 1)); [lia |]. rewrite C. reflexivity.
Qed.
Lemma getInt_end b ty pl s n i : (0 < n)%nat -> rep b ty pl s -> len pl <= i -> i + Z.of_nat n + len s + 8 < 2 ^ 31 ->
  exists b' gap s', getInt n i b = Ok (b', 0) /\ rep b' ty (pl ++ gap ++ be n 0) s' /\ len gap = i - len pl /\ (s = [] -> gap = zeros (i - len pl) /\ s' = []).
Proof.
  intros Hn R Hi H. pose proof (len_nonneg s). pose proof (len_nonneg pl). unfold getInt. rewrite (rep_off _ _ _ _ R), (rep_size _ _ _ _ R). rewrite (u64_small (i + 8)), (u64_small (i + 8 + Z.of_nat n - 1)) by lia.
  destruct (Z.leb_spec (8 + len pl) (i + 8 + Z.of_nat n - 1)); [| lia].
  destruct (reserve_end b ty pl s i (Z.of_nat n) R Hi ltac:(lia) ltac:(lia)) as (b1 & g & s' & E & R1 & Lg & Z1 & B). rewrite (Z.add_comm i 8), E. cbn [fst snd].
  rewrite (rep_off _ _ _ _ R1), u64_small by lia. replace (8 + i - 8) with i by lia.
  destruct (setInt_in b1 ty (pl ++ g) s' n 0 i Hn R1 ltac:(lia) ltac:(rewrite len_app; lia)) as (b2 & E2 & R2). rewrite E2.
  destruct (cut g (i - len pl) ltac:(lia)) as (gap & x & -> & Eg). rewrite len_app in Lg.
  replace (splice (pl ++ gap ++ x) i (be n 0)) with (pl ++ gap ++ be n 0) in R2.
  2:{ replace (pl ++ gap ++ x) with ((pl ++ gap) ++ x ++ []) by (rewrite <- app_assoc, app_nil_r; reflexivity). rewrite splice_at; [rewrite <- app_assoc, app_nil_r; reflexivity | rewrite len_app; lia | rewrite be_len; lia]. }
  replace (pl ++ gap ++ be n 0) with ((pl ++ gap) ++ be n 0 ++ []) in R2 by (rewrite <- app_assoc, app_nil_r; reflexivity).
  unfold getbe. replace (8 + i) with (8 + len (pl ++ gap)) by (rewrite len_app; lia). rewrite (rep_get _ _ _ _ _ _ (Z.of_nat n) R2) by (rewrite be_len; reflexivity).
  rewrite unbe_be, Z.mod_0_l by (pose proof (pow256_pos (Z.of_nat n)); lia). exists b2, gap, s'. split; [reflexivity |]. rewrite app_nil_r, <- app_assoc in R2. split; [exact R2 |]. split; [exact Eg |].
  intros Hs. destruct (Z1 Hs) as (Q & Q2). split; [| exact Q2]. rewrite zeros_add in Q by lia.
  apply (f_equal (takez (i - len pl))) in Q. rewrite !takez_app_exact in Q; [exact Q | rewrite len_zeros; lia | lia].
Qed.

(** ** Boxes in boxes *)
Lemma calc_at b ty a t p d s : rep b ty (a ++ iso t p ++ d) s -> calcBoxSize b (8 + len a) = Ok (8 + len p) .
Proof.
  intros R. pose proof R as (_ & T & L). unfold calcBoxSize. pose proof (len_nonneg p). pose proof (len_nonneg a). pose proof (len_nonneg d). pose proof (len_nonneg s).
  assert (B : 8 + len p < 2 ^ 32). { unfold iso in L. rewrite !len_app, be_len in L. pose proof (len_nonneg t). lia. }
  assert (E : getbe (b_data b) (8 + len a) 4 = Ok (8 + len p)).
  { unfold getbe. assert (R' := R). unfold iso in R'. rewrite <- app_assoc in R'. rewrite (rep_get _ _ _ _ _ _ 4 R') by (rewrite be_len; reflexivity).
    rewrite unbe_be, Z.mod_small; [reflexivity |]. change (256 ^ Z.of_nat 4) with (2 ^ 32). lia. }
  rewrite E. destruct (Z.eqb_spec (8 + len p) 1); [lia | reflexivity].
Qed.
Lemma size_at b ty a t p d s : rep b ty (a ++ iso t p ++ d) s -> getbe (b_data b) (8 + len a) 4 = Ok (8 + len p).
Proof.
  intros R. pose proof R as (_ & T & L). pose proof (len_nonneg p). pose proof (len_nonneg a). pose proof (len_nonneg d). pose proof (len_nonneg s).
  assert (B : 8 + len p < 2 ^ 32). { unfold iso in L. rewrite !len_app, be_len in L. pose proof (len_nonneg t). lia. }
  unfold getbe. assert (R' := R). unfold iso in R'. rewrite <- app_assoc in R'. rewrite (rep_get _ _ _ _ _ _ 4 R') by (rewrite be_len; reflexivity).
  rewrite unbe_be, Z.mod_small; [reflexivity |]. change (256 ^ Z.of_nat 4) with (2 ^ 32). lia.
Qed.
Lemma type_at b ty a t p d s q : rep b ty (a ++ iso t p ++ d) s -> len t = 4 -> isTypeAt b (8 + len a) q = Ok (beqb q t).
Proof.
  intros R T. unfold isTypeAt. replace (a ++ iso t p ++ d) with ((a ++ be 4 (8 + len p)) ++ t ++ (p ++ d)) in R by (unfold iso; rewrite <- !app_assoc; reflexivity).
  replace (8 + len a + 4) with (8 + len (a ++ be 4 (8 + len p))) by (rewrite len_app, be_len; lia). rewrite (rep_get _ _ _ _ _ _ 4 R) by lia. reflexivity.
Qed.
Lemma boxlen_at b ty a t p d s : rep b ty (a ++ iso t p ++ d) s -> len t = 4 -> 0 < len p + len d -> getBoxLen (len a) b = Ok (8 + len p).
Proof.
  intros R T H. pose proof R as (_ & _ & L). unfold getBoxLen. rewrite (rep_off _ _ _ _ R), (rep_size _ _ _ _ R).
  assert (E : len (a ++ iso t p ++ d) = len a + 8 + len p + len d) by (rewrite !len_app, len_iso by exact T; lia).
  pose proof (len_nonneg a). pose proof (len_nonneg s). pose proof (len_nonneg p). pose proof (len_nonneg d).
  rewrite !u64_small by lia. destruct (Z.leb_spec (8 + len (a ++ iso t p ++ d)) (len a + 8 + 8)); [lia |]. rewrite (Z.add_comm (len a) 8). eapply calc_at. exact R.
Qed.
Lemma boxlen_end b ty pl s i : rep b ty pl s -> len pl <= i + 8 -> 0 <= i < 2 ^ 63 -> getBoxLen i b = Ok 0.
Proof.
  intros R H Hi. unfold getBoxLen. rewrite (rep_off _ _ _ _ R), (rep_size _ _ _ _ R). rewrite u64_small by lia. destruct (Z.leb_spec (8 + len pl) (i + 8 + 8)); [reflexivity | lia].
Qed.
Lemma s32_small x : 0 <= x < 2 ^ 31 -> s32 x = x.
Proof. intros H. unfold s32. rewrite u32_id by lia. destruct (Z.ltb_spec x 2147483648); lia. Qed.
(** The bytes of a box to be put into another. *)
Lemma rep_bytes e t p s : rep e t p s -> getn (b_data e) 0 (8 + len p) = Ok (iso t p).
Proof.
  intros R. pose proof R as (D & T & _). rewrite D. cbn [b_data]. apply (getn_at [] (iso t p) s); [reflexivity | rewrite len_iso by exact T; reflexivity].
Qed.
Lemma setBox_end b ty pl s e t p se : rep b ty pl s -> rep e t p se -> len pl + len s + 8 + len p + 8 < 2 ^ 31 ->
  exists b' s', setBox e (len pl) b = Ok b' /\ rep b' ty (pl ++ iso t p) s' /\ (s = [] -> s' = []) /\ len s' <= len s.
Proof.
  intros R Re H. pose proof Re as (_ & T & Le). pose proof (len_nonneg s). pose proof (len_nonneg pl). pose proof (len_nonneg p). pose proof (len_nonneg se).
  unfold setBox. rewrite (boxlen_end _ _ _ _ _ R) by lia. rewrite (rep_size _ _ _ _ Re). rewrite (s32_small 0), (s32_small (8 + len p)), (u32_id (8 + len p)) by lia.
  rewrite (rep_len _ _ _ _ Re). destruct (Z.ltb_spec (8 + len p + len se) (8 + len p)); [lia |]. destruct (Z.eqb_spec 0 (8 + len p)); [lia |].
  rewrite (rep_off _ _ _ _ R). change (u64 0) with 0. rewrite !u64_small by lia.
  destruct (reserve_end b ty pl s (len pl) (8 + len p) R ltac:(lia) ltac:(lia) ltac:(lia)) as (b1 & g & s' & E & R1 & Lg & Z1 & B).
  rewrite (Z.add_comm (len pl) 8), E. cbn [fst snd negb]. rewrite (rep_bytes _ _ _ _ Re).
  replace (pl ++ g) with (pl ++ g ++ []) in R1 by (rewrite app_nil_r; reflexivity).
  destruct (rep_put _ _ _ _ _ _ (iso t p) R1 ltac:(rewrite len_iso by exact T; lia)) as (b2 & E2 & R2). rewrite E2, app_nil_r in *. exists b2, s'.
  split; [reflexivity |]. split; [exact R2 |]. split; [intros Hs; apply Z1; exact Hs |]. rewrite ?len_app in B. lia.
Qed.
Lemma setBox_mid b ty a t0 p0 d s e t p se : rep b ty (a ++ iso t0 p0 ++ d) s -> len t0 = 4 -> 0 < len p0 + len d -> rep e t p se ->
  len (a ++ iso t0 p0 ++ d) + len s + 8 + len p + 8 < 2 ^ 31 ->
  exists b' s', setBox e (len a) b = Ok b' /\ rep b' ty (a ++ iso t p ++ d) s'.
Proof.
  intros R T0 NE Re H. pose proof Re as (_ & T & Le). pose proof (len_nonneg s). pose proof (len_nonneg a). pose proof (len_nonneg d). pose proof (len_nonneg p). pose proof (len_nonneg p0). pose proof (len_nonneg se).
  assert (EL : len (a ++ iso t0 p0 ++ d) = len a + 8 + len p0 + len d) by (rewrite !len_app, len_iso by exact T0; lia).
  unfold setBox. rewrite (boxlen_at _ _ _ _ _ _ _ R T0 NE). rewrite (rep_size _ _ _ _ Re). rewrite (s32_small (8 + len p0)), (s32_small (8 + len p)), (u32_id (8 + len p)) by lia.
  rewrite (rep_len _ _ _ _ Re). destruct (Z.ltb_spec (8 + len p + len se) (8 + len p)); [lia |].
  rewrite (rep_off _ _ _ _ R). rewrite !u64_small by lia. rewrite (Z.add_comm (len a) 8).
  assert (K : exists b1 x s', (if 8 + len p0 =? 8 + len p then Ok (b, true) else reserve b (8 + len a) (8 + len p0) (8 + len p)) = Ok (b1, true) /\ rep b1 ty (a ++ x ++ d) s' /\ len x = 8 + len p).
  { destruct (Z.eqb_spec (8 + len p0) (8 + len p)) as [Q | Q].
    - exists b, (iso t0 p0), s. split; [reflexivity |]. split; [exact R |]. rewrite len_iso by exact T0. exact Q.
    - destruct (reserve_mid b ty a (iso t0 p0) d s (8 + len p) R) as (b1 & x & s' & E & R1 & Lx & _); [rewrite len_iso by exact T0; lia | lia | rewrite len_iso by exact T0; lia |].
      rewrite len_iso in E by exact T0. exists b1, x, s'. auto. }
  destruct K as (b1 & x & s' & K & R1 & Lx). rewrite K. cbn [fst snd negb]. rewrite (rep_bytes _ _ _ _ Re).
  destruct (rep_put _ _ _ _ _ _ (iso t p) R1 ltac:(rewrite len_iso by exact T; lia)) as (b2 & E2 & R2). exists b2, s'. auto.
Qed.

(** ** Lists of children *)
Notation kids := (list (list Z * list Z)).
Lemma children_cons c (l : kids) : children (c :: l) = iso (fst c) (snd c) ++ children l.
Proof. reflexivity. Qed.
Lemma children_app (k l : kids) : children (k ++ l) = children k ++ children l.
Proof. unfold children. rewrite map_app, concat_app. reflexivity. Qed.
Lemma len_children_ge (l : kids) : Forall child_ok l -> 8 * Z.of_nat (List.length l) <= len (children l).
Proof.
  induction 1 as [| c l Hc Hl IH]; [cbn; lia |]. rewrite children_cons, len_app, (len_iso _ _ Hc). pose proof (len_nonneg (snd c)). cbn [List.length]. lia.
Qed.
Lemma full_tail (k l : kids) c : last_full (k ++ c :: l) -> Forall child_ok l -> 0 < len (snd c) + len (children l).
Proof.
  intros F Hl. destruct l as [| c' l].
  - specialize (F k c eq_refl). change (len (children [])) with 0. destruct (snd c) as [| x r]; [congruence |]. rewrite len_cons. pose proof (len_nonneg r). lia.
  - pose proof (len_children_ge _ Hl). pose proof (len_nonneg (snd c)). cbn [List.length] in *. lia.
Qed.
Lemma count_ok ty s (l : kids) : forall k b fuel c, rep b ty (children (k ++ l)) s -> Forall child_ok l -> (List.length l <= fuel)%nat ->
  count_loop fuel b (len (children k)) c = Ok (b, c + Z.of_nat (List.length l)).
Proof.
  induction l as [| x l IH]; intros k b fuel c R F Fu.
  - destruct fuel; cbn [count_loop]; rewrite (rep_size _ _ _ _ R); rewrite app_nil_r in *; pose proof R as (_ & _ & L); pose proof (len_nonneg s); pose proof (len_nonneg (children k)); rewrite u64_small by lia;
      (destruct (Z.ltb_spec (len (children k)) (8 + len (children k) - 8)); [lia |]); rewrite Z.add_0_r; reflexivity.
  - destruct fuel as [| fuel]; [cbn in Fu; lia |]. inversion F as [| ? ? Fx Fl]; subst. cbn [count_loop]. rewrite (rep_size _ _ _ _ R).
    pose proof R as (_ & _ & L). rewrite children_app, children_cons in *. rewrite !len_app, (len_iso _ _ Fx) in *.
    pose proof (len_nonneg s). pose proof (len_nonneg (children k)). pose proof (len_nonneg (children l)). pose proof (len_nonneg (snd x)).
    rewrite u64_small by lia. destruct (Z.ltb_spec (len (children k)) (8 + (len (children k) + (8 + len (snd x) + len (children l))) - 8)); [| lia].
    unfold getBox. rewrite (rep_off _ _ _ _ R), (rep_size _ _ _ _ R). rewrite !len_app, (len_iso _ _ Fx). rewrite (u64_small (len (children k) + 8)), (u64_small (len (children k) + 8 + 8)) by lia.
    destruct (Z.ltb_spec (8 + (len (children k) + (8 + len (snd x) + len (children l)))) (len (children k) + 8 + 8)); [lia |]. cbn [fst snd].
    rewrite (Z.add_comm (len (children k)) 8), (size_at _ _ _ _ _ _ _ R), u32_id by lia.
    replace (len (children k) + (8 + len (snd x))) with (len (children (k ++ [x]))) by (rewrite children_app, len_app; cbn [children map List.concat]; rewrite app_nil_r, (len_iso _ _ Fx); lia).
    rewrite (IH (k ++ [x]) b fuel (c + 1)).
    + f_equal. f_equal. cbn [List.length]. lia.
    + rewrite <- app_assoc. cbn [app]. rewrite children_app, children_cons. exact R.
    + exact Fl.
    + cbn [List.length] in Fu. lia.
Qed.
Lemma content_count b ty l s : rep b ty (children l) s -> Forall child_ok l -> getContentCount b = Ok (b, Z.of_nat (List.length l)).
Proof.
  intros R F. unfold getContentCount. rewrite (rep_size _ _ _ _ R). pose proof (len_children_ge l F). rewrite <- (Z.add_0_l (Z.of_nat (List.length l))). apply (count_ok ty s l [] b); [exact R | exact F | lia].
Qed.
Lemma walk_ok ty s b : forall m k r, rep b ty (children (k ++ m ++ r)) s -> Forall child_ok (k ++ m ++ r) -> last_full (k ++ m ++ r) \/ r <> [] ->
  walk (List.length m) b (len (children k)) = Ok (len (children (k ++ m))).
Proof.
  induction m as [| x m IH]; intros k r R F LF; [rewrite app_nil_r; reflexivity |]. cbn [List.length walk].
  pose proof F as F'. apply Forall_app in F' as (Fk & F'). cbn [app] in *. inversion F' as [| ? ? Fx Fl]; subst.
  pose proof R as (_ & _ & L). assert (R' := R). rewrite children_app, children_cons in R', L. rewrite !len_app, (len_iso _ _ Fx) in L.
  pose proof (len_nonneg s). pose proof (len_nonneg (children k)). pose proof (len_nonneg (children (m ++ r))). pose proof (len_nonneg (snd x)).
  rewrite (u64_small (len (children k))) by lia. rewrite (boxlen_at _ _ _ _ _ _ _ R' Fx).
  2:{ destruct LF as [LF | LF]; [apply (full_tail k (m ++ r) x LF Fl) |]. pose proof (len_children_ge _ Fl). rewrite app_length in *. destruct r; [congruence |]. cbn [List.length] in *. lia. }
  rewrite s32_small by lia.
  replace (len (children k) + (8 + len (snd x))) with (len (children (k ++ [x]))) by (rewrite children_app, len_app; cbn [children map List.concat]; rewrite app_nil_r, (len_iso _ _ Fx); lia).
  replace (k ++ x :: m) with ((k ++ [x]) ++ m) by (rewrite <- app_assoc; reflexivity).
  apply IH with (r := r); rewrite <- app_assoc; cbn [app]; assumption.
Qed.
Lemma setContent_end b ty l s e t p se : rep b ty (children l) s -> Forall child_ok l -> last_full l -> rep e t p se -> len (children l) + len s + 8 + len p + 8 < 2 ^ 31 ->
  exists b' s', setContent e (Z.of_nat (List.length l)) b = Ok b' /\ rep b' ty (children (l ++ [(t, p)])) s' /\ (s = [] -> s' = []) /\ len s' <= len s.
Proof.
  intros R F LF Re H. unfold setContent. rewrite (content_count _ _ _ _ R F). cbn [fst snd]. rewrite Z.min_id, Nat2Z.id.
  assert (W : walk (List.length l) b 0 = Ok (len (children l))) by (apply (walk_ok ty s b l [] []); cbn [app]; rewrite ?app_nil_r; auto). rewrite W.
  destruct (Z.ltb_spec (Z.of_nat (List.length l)) (Z.of_nat (List.length l))); [lia |].
  pose proof (len_nonneg s). pose proof (len_nonneg (children l)). pose proof (len_nonneg p). rewrite u64_small by lia.
  replace (children (l ++ [(t, p)])) with (children l ++ iso t p) by (rewrite children_app; cbn; rewrite app_nil_r; reflexivity).
  eapply setBox_end; eassumption.
Qed.
Lemma setContent_mid b ty k c r s e t p se : rep b ty (children (k ++ c :: r)) s -> Forall child_ok (k ++ c :: r) -> last_full (k ++ c :: r) -> rep e t p se ->
  len (children (k ++ c :: r)) + len s + 8 + len p + 8 < 2 ^ 31 ->
  exists b' s', setContent e (Z.of_nat (List.length k)) b = Ok b' /\ rep b' ty (children (k ++ (t, p) :: r)) s'.
Proof.
  intros R F LF Re H. unfold setContent. rewrite (content_count _ _ _ _ R F). cbn [fst snd]. rewrite Z.min_l by (rewrite app_length; cbn [List.length]; lia). rewrite Nat2Z.id.
  assert (W : walk (List.length k) b 0 = Ok (len (children k))) by (apply (walk_ok ty s b k [] (c :: r)); cbn [app]; auto). rewrite W.
  destruct (Z.ltb_spec (Z.of_nat (List.length (k ++ c :: r))) (Z.of_nat (List.length k))) as [G | G]; [rewrite app_length in G; lia |].
  apply Forall_app in F as (Fk & F). inversion F as [| ? ? Fc Fr]; subst.
  pose proof (len_nonneg s). pose proof (len_nonneg (children k)). pose proof (len_nonneg p). rewrite children_app, children_cons in *. rewrite u64_small by (rewrite !len_app in H; pose proof (len_nonneg (iso (fst c) (snd c))); pose proof (len_nonneg (children r)); lia).
  cbn [fst snd]. apply (setBox_mid b ty (children k) (fst c) (snd c) (children r) s e t p se R Fc); [| exact Re | exact H]. apply (full_tail k r c LF Fr).
Qed.
Lemma getContent_ok b ty k c r s : rep b ty (children (k ++ c :: r)) s -> Forall child_ok (k ++ c :: r) ->
  getContent (Z.of_nat (List.length k)) b = Ok (b, Some (child_at (k ++ c :: r) (List.length k))).
Proof.
  intros R F. unfold getContent. rewrite (content_count _ _ _ _ R F). cbn [fst snd].
  destruct (Z.ltb_spec (Z.of_nat (List.length (k ++ c :: r))) (Z.of_nat (List.length k))) as [G | G]; [rewrite app_length in G; lia |]. rewrite Nat2Z.id.
  assert (W : walk (List.length k) b 0 = Ok (len (children k))) by (apply (walk_ok ty s b k [] (c :: r)); cbn [app]; [exact R | exact F | right; discriminate]). rewrite W.
  apply Forall_app in F as (Fk & F). inversion F as [| ? ? Fc Fr]; subst. pose proof R as (_ & _ & L). rewrite children_app, children_cons, !len_app, (len_iso _ _ Fc) in L.
  pose proof (len_nonneg s). pose proof (len_nonneg (children k)). pose proof (len_nonneg (snd c)). pose proof (len_nonneg (children r)).
  unfold getBox. rewrite (rep_off _ _ _ _ R), (rep_size _ _ _ _ R). rewrite (u64_small (len (children k))), (u64_small (len (children k) + 8)), u64_small by lia.
  rewrite children_app, children_cons, !len_app, (len_iso _ _ Fc).
  destruct (Z.ltb_spec (8 + (len (children k) + (8 + len (snd c) + len (children r)))) (len (children k) + 8 + 8)); [lia |].
  unfold child_at. rewrite firstn_app, Nat.sub_diag, firstn_all. cbn [firstn]. rewrite app_nil_r, Z.add_comm. reflexivity.
Qed.

(** ** Searching *)
Lemma children_ok ty s b q (l : kids) : forall k fuel, rep b ty (children (k ++ l)) s -> Forall child_ok l -> last_full (k ++ l) -> (List.length l < fuel)%nat ->
  children_loop fuel q b (8 + len (children (k ++ l))) (8 + len (children k)) = Ok (of_type q (8 + len (children k)) l) /\
  child_loop fuel q b (8 + len (children (k ++ l))) (8 + len (children k)) = Ok (hd_error (of_type q (8 + len (children k)) l)).
Proof.
  induction l as [| x l IH]; intros k fuel R F LF Fu; (destruct fuel as [| fuel]; [cbn in Fu; lia |]); cbn [children_loop child_loop]; pose proof R as (_ & _ & L); pose proof (len_nonneg s); pose proof (len_nonneg (children k)).
  - rewrite app_nil_r in *. rewrite u64_small by lia. destruct (Z.ltb_spec (8 + len (children k)) (8 + len (children k) - 8)); [lia |]. split; reflexivity.
  - inversion F as [| ? ? Fx Fl]; subst. assert (R' := R). rewrite children_app, children_cons in R', L. rewrite !len_app, (len_iso _ _ Fx) in L.
    pose proof (len_nonneg (children l)). pose proof (len_nonneg (snd x)). pose proof (full_tail k l x LF Fl) as P.
    assert (EL : len (children (k ++ x :: l)) = len (children k) + (8 + len (snd x) + len (children l))) by (rewrite children_app, children_cons, !len_app, (len_iso _ _ Fx); lia).
    rewrite EL, u64_small by lia. destruct (Z.ltb_spec (8 + len (children k)) (8 + (len (children k) + (8 + len (snd x) + len (children l))) - 8)); [| lia].
    rewrite (type_at _ _ _ _ _ _ _ q R' Fx), (calc_at _ _ _ _ _ _ _ R'), u64_small by lia.
    destruct (IH (k ++ [x]) fuel) as (I1 & I2).
    + rewrite <- app_assoc. exact R.
    + exact Fl.
    + rewrite <- app_assoc. exact LF.
    + cbn [List.length] in Fu. lia.
    + rewrite <- app_assoc in I1, I2. cbn [app] in I1, I2. rewrite EL in I1, I2.
      assert (E2 : 8 + len (children (k ++ [x])) = 8 + len (children k) + (8 + len (snd x))) by (rewrite children_app, len_app; cbn [children map List.concat]; rewrite app_nil_r, (len_iso _ _ Fx); lia).
      rewrite E2 in I1, I2. rewrite I1, I2. cbn [of_type]. replace (8 + len (children k) + 8 + len (snd x)) with (8 + len (children k) + (8 + len (snd x))) by lia.
      destruct (beqb q (fst x)); cbn [app hd_error]; split; reflexivity.
Qed.
Lemma getChildren_ok b ty l s q : rep b ty (children l) s -> Forall child_ok l -> last_full l -> getChildren q b = Ok (of_type q 8 l) /\ getChild q b = Ok (hd_error (of_type q 8 l)).
Proof.
  intros R F LF. unfold getChildren, getChild. rewrite (rep_size _ _ _ _ R), (rep_off _ _ _ _ R). pose proof (len_children_ge l F).
  destruct (children_ok ty s b q l [] (S (Z.to_nat (8 + len (children l)))) R F LF ltac:(lia)) as (A & B). split; [exact A | exact B].
Qed.

(** ** Filling a container *)
Lemma fill_ok ty es : forall l k b s, rep b ty (children k) s -> s = [] -> Forall child_ok k -> last_full k -> Forall2 (fun e c => is_box e (fst c) (snd c)) es l -> Forall (fun c => snd c <> []) l ->
  len (children (k ++ l)) + 16 < 2 ^ 31 -> exists b', fill es (Z.of_nat (List.length k)) b = Ok b' /\ rep b' ty (children (k ++ l)) [].
Proof.
  induction es as [| e es IH]; intros l k b s R Hs F LF M NE B; inversion M as [| ? c ? r Me Mr]; subst; cbn [fill].
  - exists b. rewrite app_nil_r. auto.
  - apply is_box_rep in Me as (se & Re). inversion NE as [| ? ? N1 N2]; subst. pose proof Re as (_ & T & _).
    assert (B' : len (children k) + (8 + len (snd c)) + len (children r) + 16 < 2 ^ 31) by (rewrite children_app, children_cons, !len_app, (len_iso _ _ T) in B; lia).
    pose proof (len_nonneg (children r)). destruct (setContent_end b ty k [] e (fst c) (snd c) se R F LF Re ltac:(cbn; lia)) as (b1 & s1 & E & R1 & S1 & _). rewrite E.
    replace (Z.of_nat (List.length k) + 1) with (Z.of_nat (List.length (k ++ [c]))) by (rewrite app_length; cbn [List.length]; lia). rewrite <- surjective_pairing in R1.
    replace (k ++ c :: r) with ((k ++ [c]) ++ r) in * by (rewrite <- app_assoc; reflexivity).
    apply (IH r (k ++ [c]) b1 s1 R1 (S1 eq_refl)); [apply Forall_app; split; [exact F | constructor; [exact T | constructor]] | | exact Mr | exact N2 | exact B].
    intros k' c' Q. apply app_inj_tail in Q as (_ & <-). exact N1.
Qed.

(** ** Strings *)
Lemma strlen_at s r : Forall (fun c => c <> 0) s -> strlen (s ++ 0 :: r) = Ok (len s).
Proof.
  induction 1 as [| c s Hc Hs IH]; [reflexivity |]. cbn [app strlen]. destruct (Z.eqb_spec c 0); [congruence |]. rewrite IH, len_cons, Z.add_comm. reflexivity.
Qed.
Lemma strlen_in b ty a t c s : rep b ty (a ++ t ++ 0 :: c) s -> Forall (fun c => c <> 0) t -> getStringLen (len a) b = Ok (len t).
Proof.
  intros R N. pose proof R as (D & T & L). pose proof (len_nonneg a). pose proof (len_nonneg s). unfold getStringLen. rewrite (rep_off _ _ _ _ R), (rep_size _ _ _ _ R).
  rewrite !len_app, len_cons in *. pose proof (len_nonneg c). pose proof (len_nonneg t). rewrite u64_small by lia. destruct (Z.leb_spec (8 + (len a + (len t + (1 + len c)))) (len a + 8)); [lia |].
  rewrite D. cbn [b_data]. replace (iso ty (a ++ t ++ 0 :: c) ++ s) with ((be 4 (8 + len (a ++ t ++ 0 :: c)) ++ ty ++ a) ++ (t ++ 0 :: (c ++ s))) by (unfold iso; rewrite <- !app_assoc; reflexivity).
  rewrite dropz_app_exact by (rewrite !len_app, be_len; lia). apply strlen_at, N.
Qed.
Lemma getString_in b ty a t c s : rep b ty (a ++ t ++ 0 :: c) s -> Forall (fun c => c <> 0) t -> getString (len a) b = Ok t.
Proof.
  intros R N. unfold getString. rewrite (strlen_in _ _ _ _ _ _ R N). rewrite (rep_off _ _ _ _ R). pose proof R as (_ & _ & L). pose proof (len_nonneg a). pose proof (len_nonneg s).
  rewrite !len_app, len_cons in *. pose proof (len_nonneg c). pose proof (len_nonneg t). rewrite u64_small by lia. destruct (Z.eqb_spec (len t) 0) as [E | E].
  - destruct t as [| x t]; [reflexivity |]. rewrite len_cons in E. pose proof (len_nonneg t). lia.
  - rewrite Z.add_comm. apply (rep_get _ _ _ _ _ _ (len t) R eq_refl).
Qed.
Lemma setString_end b ty pl s t : rep b ty pl s -> len pl + len s + len t + 16 < 2 ^ 31 -> Forall (fun c => c <> 0) t ->
  exists b' s', setString t (len pl) b = Ok b' /\ rep b' ty (pl ++ t ++ [0]) s' /\ (s = [] -> s' = []).
Proof.
  intros R L N. pose proof (len_nonneg pl). pose proof (len_nonneg s). pose proof (len_nonneg t). unfold setString. rewrite (rep_off _ _ _ _ R), (rep_size _ _ _ _ R), u64_small by lia.
  destruct (Z.leb_spec (8 + len pl) (len pl + 8)); [| lia].
  destruct (reserve_end b ty pl s (len pl) 1 R ltac:(lia) ltac:(lia) ltac:(lia)) as (b1 & g & s1 & E & R1 & Lg & Z1 & B). rewrite (Z.add_comm (len pl) 8), E. cbn [fst snd].
  replace (pl ++ g) with (pl ++ g ++ []) in R1 by (rewrite app_nil_r; reflexivity).
  destruct (rep_put _ _ _ _ _ _ [0] R1 ltac:(cbn; lia)) as (b2 & E2 & R2). rewrite E2. cbn [fst snd negb]. cbn [app] in R2.
  assert (Q : getStringLen (8 + len pl) b2 = Ok 0).
  { unfold getStringLen. rewrite (rep_off _ _ _ _ R2), (rep_size _ _ _ _ R2), u64_small by lia. rewrite len_app, len_cons. change (len []) with 0. destruct (Z.leb_spec (8 + (len pl + (1 + 0))) (8 + len pl + 8)); [reflexivity | lia]. }
  rewrite Q. rewrite !len_app in B. assert (Ls1 : len s1 <= len s) by (change (len []) with 0 in *; lia).
  destruct (Z.eqb_spec 0 (len t)) as [E0 | E0].
  - destruct t as [| x t]; [| rewrite len_cons in E0; pose proof (len_nonneg t); lia]. cbn [fst snd app].
    destruct (rep_put _ _ _ [0] [] _ [0] R2 eq_refl) as (b3 & E3 & R3). rewrite E3. exists b3, s1. split; [reflexivity |]. split; [exact R3 |]. intros Hs. apply Z1, Hs.
  - assert (X : exists b3 x s3, reserve b2 (8 + len pl) (0 + 1) (len t + 1) = Ok (b3, true) /\ rep b3 ty (pl ++ x ++ []) s3 /\ len x = len t + 1 /\ (s1 = [] -> s3 = [])).
    { destruct (reserve_mid b2 ty pl [0] [] s1 (len t + 1) R2) as (b3 & x & s3 & E3 & R3 & Lx & _ & S3); [cbn; lia | lia | cbn; lia |].
      exists b3, x, s3. split; [exact E3 |]. split; [exact R3 |]. split; [exact Lx |]. intros Hs. apply S3; [exact Hs | cbn; lia]. }
    destruct X as (b3 & x & s3 & E3 & R3 & Lx & S3). rewrite E3. cbn [fst snd].
    destruct (rep_put _ _ _ _ _ _ (t ++ [0]) R3) as (b4 & E4 & R4); [rewrite len_app; cbn; lia |]. rewrite E4. exists b4, s3. split; [reflexivity |]. rewrite app_nil_r in R4. split; [exact R4 |]. intros Hs. apply S3, Z1, Hs.
Qed.

(** ** Reading *)
Lemma read_whole ty pl rest : len ty = 4 -> 8 + len pl < 2 ^ 32 -> readString (iso ty pl ++ rest) = Ok (Some (mkbox (iso ty pl) true 8, rest)).
Proof.
  intros T L. pose proof (len_nonneg pl). pose proof (len_nonneg rest). unfold readString. rewrite len_app, (len_iso _ _ T).
  destruct (Z.leb_spec (8 + len pl + len rest) 4); [lia |].
  assert (E : getbe ((iso ty pl ++ rest) ++ [0]) 0 4 = Ok (8 + len pl)).
  { unfold getbe. replace ((iso ty pl ++ rest) ++ [0]) with ([] ++ be 4 (8 + len pl) ++ (ty ++ pl ++ rest ++ [0])) by (unfold iso; cbn [app]; rewrite <- !app_assoc; reflexivity).
    rewrite (getn_at [] (be 4 (8 + len pl)) _ 0 4); [| reflexivity | rewrite be_len; reflexivity]. rewrite unbe_be, Z.mod_small; [reflexivity |]. change (256 ^ Z.of_nat 4) with (2 ^ 32). lia. }
  rewrite E. destruct (Z.eqb_spec (8 + len pl) 1); [lia |]. cbn [andb fst snd]. destruct (Z.eqb_spec (8 + len pl) 0); [lia |].
  destruct (Z.leb_spec (8 + len pl) (8 + len pl + len rest)); [| lia]. rewrite takez_app_exact, dropz_app_exact by (rewrite len_iso by exact T; lia). reflexivity.
Qed.
Lemma read_early ty pl x y : len ty = 4 -> 8 + len pl < 2 ^ 32 -> x ++ y = iso ty pl -> y <> [] -> readString x = Ok None.
Proof.
  intros T L E N. pose proof (len_nonneg pl). assert (LL : len x + len y = 8 + len pl) by (rewrite <- len_app, E; apply len_iso, T).
  assert (0 < len y). { destruct y as [| c y]; [congruence |]. rewrite len_cons. pose proof (len_nonneg y). lia. }
  unfold readString. destruct (Z.leb_spec (len x) 4); [reflexivity |].
  assert (G : getbe (x ++ [0]) 0 4 = Ok (8 + len pl)).
  { destruct (cut x 4 ltac:(lia)) as (h & r & -> & Eh). assert (h = be 4 (8 + len pl)).
    { unfold iso in E. rewrite <- app_assoc in E. apply (f_equal (takez 4)) in E. rewrite !takez_app_exact in E; [exact E | rewrite be_len; reflexivity | symmetry; exact Eh]. }
    subst h. unfold getbe. replace ((be 4 (8 + len pl) ++ r) ++ [0]) with ([] ++ be 4 (8 + len pl) ++ (r ++ [0])) by (cbn [app]; rewrite <- !app_assoc; reflexivity).
    rewrite (getn_at [] (be 4 (8 + len pl)) _ 0 4); [| reflexivity | rewrite be_len; reflexivity]. rewrite unbe_be, Z.mod_small; [reflexivity |]. change (256 ^ Z.of_nat 4) with (2 ^ 32). lia. }
  rewrite G. destruct (Z.eqb_spec (8 + len pl) 1); [lia |]. cbn [andb fst snd]. destruct (Z.eqb_spec (8 + len pl) 0); [lia |]. destruct (Z.leb_spec (8 + len pl) (len x)); [lia | reflexivity].
Qed.
Lemma len_large ty pl : len ty = 4 -> len (iso_large ty pl) = 16 + len pl.
Proof. intros T. unfold iso_large. rewrite !len_app, !be_len. lia. Qed.
Lemma read_large ty pl rest : len ty = 4 -> 16 + len pl < 2 ^ 64 -> 0 < len pl + len rest -> readString (iso_large ty pl ++ rest) = Ok (Some (mkbox (iso_large ty pl) true 16, rest)).
Proof.
  intros T L P. pose proof (len_nonneg pl). pose proof (len_nonneg rest). unfold readString. rewrite len_app, (len_large _ _ T).
  destruct (Z.leb_spec (16 + len pl + len rest) 4); [lia |].
  assert (E : getbe ((iso_large ty pl ++ rest) ++ [0]) 0 4 = Ok 1).
  { unfold getbe. replace ((iso_large ty pl ++ rest) ++ [0]) with ([] ++ be 4 1 ++ (ty ++ be 8 (16 + len pl) ++ pl ++ rest ++ [0])) by (unfold iso_large; cbn [app]; rewrite <- !app_assoc; reflexivity).
    rewrite (getn_at [] (be 4 1) _ 0 4); [| reflexivity | rewrite be_len; reflexivity]. rewrite unbe_be. reflexivity. }
  rewrite E. destruct (Z.leb_spec (16 + len pl + len rest) 16); [lia |]. cbn [Z.eqb Pos.eqb andb].
  assert (E8 : getbe (iso_large ty pl ++ rest) 8 8 = Ok (16 + len pl)).
  { unfold getbe. replace (iso_large ty pl ++ rest) with ((be 4 1 ++ ty) ++ be 8 (16 + len pl) ++ (pl ++ rest)) by (unfold iso_large; rewrite <- !app_assoc; reflexivity).
    rewrite (getn_at (be 4 1 ++ ty) (be 8 (16 + len pl)) _ 8 8); [| rewrite len_app, be_len; lia | rewrite be_len; reflexivity]. rewrite unbe_be, Z.mod_small; [reflexivity |]. change (256 ^ Z.of_nat 8) with (2 ^ 64). lia. }
  rewrite E8. cbn [fst snd]. destruct (Z.eqb_spec (16 + len pl) 0); [lia |]. destruct (Z.leb_spec (16 + len pl) (16 + len pl + len rest)); [| lia].
  rewrite takez_app_exact, dropz_app_exact by (rewrite len_large by exact T; lia). reflexivity.
Qed.
Lemma peek_parts (a x c : list Z) i n : i = len a -> n = len x -> peek (a ++ x ++ c) i n = Some x.
Proof.
  intros -> ->. pose proof (len_nonneg a). pose proof (len_nonneg x). pose proof (len_nonneg c). rewrite peek_some by (rewrite ?len_app; lia). rewrite dropz_app_exact, takez_app_exact; reflexivity.
Qed.
Lemma read_file a ty pl rest : len ty = 4 -> 8 + len pl < 2 ^ 32 -> 8 <= len pl + len rest -> readFile (a ++ iso ty pl ++ rest) (len a) = Ok (Some (mkbox (iso ty pl) true 8, len a + 8 + len pl)).
Proof.
  intros T L P. pose proof (len_nonneg pl). unfold readFile. destruct (cut (pl ++ rest) 8 ltac:(rewrite len_app; lia)) as (h & r & E & Eh).
  assert (K : a ++ iso ty pl ++ rest = a ++ (be 4 (8 + len pl) ++ ty ++ h) ++ r) by (unfold iso; rewrite <- !app_assoc, E; reflexivity).
  rewrite K, (peek_parts a (be 4 (8 + len pl) ++ ty ++ h) r (len a) 16); [| reflexivity | rewrite !len_app, be_len; lia]. rewrite <- K.
  rewrite takez_app_exact by (rewrite be_len; reflexivity). rewrite unbe_be, Z.mod_small by (change (256 ^ Z.of_nat 4) with (2 ^ 32); lia).
  destruct (Z.eqb_spec (8 + len pl) 1); [lia |]. destruct (Z.eqb_spec (8 + len pl) 0); [lia |].
  rewrite (peek_parts a (iso ty pl) rest); [rewrite Z.add_assoc; reflexivity | reflexivity | rewrite len_iso by exact T; reflexivity].
Qed.
Lemma skip_ok a ty pl rest : len ty = 4 -> 8 + len pl < 2 ^ 32 -> 8 <= len pl + len rest -> skipBox (a ++ iso ty pl ++ rest) (len a) = Ok (Some (len (a ++ iso ty pl))).
Proof.
  intros T L P. pose proof (len_nonneg pl). unfold skipBox. destruct (cut (pl ++ rest) 8 ltac:(rewrite len_app; lia)) as (h & r & E & Eh).
  assert (K : a ++ iso ty pl ++ rest = a ++ (be 4 (8 + len pl) ++ ty ++ h) ++ r) by (unfold iso; rewrite <- !app_assoc, E; reflexivity).
  rewrite K, (peek_parts a (be 4 (8 + len pl) ++ ty ++ h) r (len a) 16); [| reflexivity | rewrite !len_app, be_len; lia]. rewrite <- K.
  rewrite takez_app_exact by (rewrite be_len; reflexivity). rewrite unbe_be, Z.mod_small by (change (256 ^ Z.of_nat 4) with (2 ^ 32); lia).
  destruct (Z.eqb_spec (8 + len pl) 1); [lia |]. destruct (Z.eqb_spec (8 + len pl) 0); [lia |]. rewrite len_app, len_iso by exact T. reflexivity.
Qed.
Lemma skip_large a ty pl rest : len ty = 4 -> 16 + len pl < 2 ^ 64 -> skipBox (a ++ iso_large ty pl ++ rest) (len a) = Ok (Some (len (a ++ iso_large ty pl))).
Proof.
  intros T L. pose proof (len_nonneg pl). unfold skipBox.
  assert (K : a ++ iso_large ty pl ++ rest = a ++ ((be 4 1 ++ ty) ++ be 8 (16 + len pl)) ++ (pl ++ rest)) by (unfold iso_large; rewrite <- !app_assoc; reflexivity).
  rewrite K, (peek_parts a ((be 4 1 ++ ty) ++ be 8 (16 + len pl)) (pl ++ rest) (len a) 16); [| reflexivity | rewrite !len_app, !be_len; lia]. rewrite <- K.
  replace (takez 4 ((be 4 1 ++ ty) ++ be 8 (16 + len pl))) with (be 4 1) by (rewrite <- app_assoc, takez_app_exact by (rewrite be_len; reflexivity); reflexivity).
  rewrite dropz_app_exact by (rewrite len_app, be_len; lia). rewrite <- (app_nil_r (be 8 (16 + len pl))), takez_app_exact by (rewrite be_len; reflexivity).
  rewrite !unbe_be. change (1 mod 256 ^ Z.of_nat 4 =? 1) with true. cbv iota. rewrite Z.mod_small by (change (256 ^ Z.of_nat 8) with (2 ^ 64); lia).
  destruct (Z.eqb_spec (16 + len pl) 0); [lia |]. rewrite len_app, len_large by exact T. reflexivity.
Qed.

(** ** Where it goes wrong *)
Lemma getContent_past b ty l s : rep b ty (children l) s -> Forall child_ok l -> last_full l -> len (children l) + len s + 16 < 2 ^ 31 ->
  exists b', getContent (Z.of_nat (List.length l)) b = Ok (b', Some (child_at l (List.length l))) /\ is_box b' ty (children (l ++ [(bs "erro", [])])).
Proof.
  intros R F LF H. unfold getContent. rewrite (content_count _ _ _ _ R F). cbn [fst snd].
  destruct (Z.ltb_spec (Z.of_nat (List.length l)) (Z.of_nat (List.length l))) as [G | G]; [lia |]. rewrite Nat2Z.id.
  assert (W : walk (List.length l) b 0 = Ok (len (children l))) by (apply (walk_ok ty s b l [] []); cbn [app]; rewrite ?app_nil_r; auto). rewrite W.
  pose proof (len_nonneg s). pose proof (len_nonneg (children l)). rewrite u64_small by lia. unfold getBox. rewrite (rep_off _ _ _ _ R), (rep_size _ _ _ _ R), (u64_small (len (children l) + 8)), u64_small by lia.
  destruct (Z.ltb_spec (8 + len (children l)) (len (children l) + 8 + 8)); [| lia].
  destruct (reserve_end b ty (children l) s (len (children l)) 8 R ltac:(lia) ltac:(lia) ltac:(lia)) as (b1 & g & s' & E & R1 & Lg & _). rewrite (Z.add_comm (len (children l)) 8), E. cbn [fst snd].
  replace (children l ++ g) with (children l ++ g ++ []) in R1 by (rewrite app_nil_r; reflexivity).
  destruct (rep_put _ _ _ _ _ _ erro R1) as (b2 & E2 & R2); [change (len erro) with 8; lia |]. rewrite E2. exists b2. unfold child_at. rewrite firstn_all. split; [reflexivity |].
  apply is_box_rep. exists s'. rewrite children_app. exact R2.
Qed.
Lemma child_zero fuel q b size loc : 0 <= loc < size - 8 -> size < 2 ^ 64 -> isTypeAt b loc q = Ok false -> getbe (b_data b) loc 4 = Ok 0 -> child_loop fuel q b size loc = Stuck.
Proof.
  intros H H2 T E. induction fuel as [| k IH]; cbn [child_loop]; rewrite u64_small by lia; (destruct (Z.ltb_spec loc (size - 8)); [| lia]); [reflexivity |].
  rewrite T. unfold calcBoxSize. rewrite E. change (0 =? 1) with false. cbv iota. rewrite Z.add_0_r, u64_small by lia. exact IH.
Qed.
