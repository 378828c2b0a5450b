From Verif Require Import Common CommonFacts Av1_Model Av1_Spec.
Local Ltac Zify.zify_post_hook ::= Z.div_mod_to_equations.

Lemma byte_all (f : Z -> bool) : forallb f (map Z.of_nat (seq 0 256)) = true -> forall b, 0 <= b < 256 -> f b = true.
Proof. intros H b B. rewrite forallb_forall in H. apply H. apply in_map_iff. exists (Z.to_nat b). split; [lia|]. apply in_seq. lia. Qed.
Lemma land7 x : x .& 127 = x mod 128.
Proof. change 127 with (Z.ones 7). rewrite Z.land_ones by lia. reflexivity. Qed.
Lemma uleb_pos n l : uleb n l -> 0 <= n /\ 1 <= len l.
Proof. induction 1 as [n H|n b l H _ IH]; rewrite len_cons; [change (len (@nil Z)) with 0|]; lia. Qed.
Lemma leb_uleb fuel : forall i, 0 <= i < 2 ^ (7 * Z.of_nat fuel) -> (0 < fuel)%nat -> uleb i (leb fuel i).
Proof.
  induction fuel as [|k IH]; intros i H F; [lia|]. cbn [leb]. destruct (Z.leb_spec 128 i) as [L|L]; [|constructor; lia].
  rewrite Z.shiftr_div_pow2 by lia. rewrite land7. change (2 ^ 7) with 128.
  assert (X : Z.lor (i mod 128) 128 = 128 + i mod 128) by (rewrite Z.lor_comm; pose proof (lor_add 1 (i mod 128) 7 ltac:(lia) ltac:(change (2 ^ 7) with 128; apply Z.mod_pos_bound; lia)) as A; change (1 * 2 ^ 7) with 128 in A; exact A).
  rewrite X. pose proof (Z.div_mod i 128 ltac:(lia)) as E. rewrite E at 1. rewrite (Z.mul_comm 128). constructor; [apply Z.mod_pos_bound; lia|].
  assert (Pk : 2 ^ (7 * Z.of_nat (S k)) = 128 * 2 ^ (7 * Z.of_nat k)) by (replace (7 * Z.of_nat (S k)) with (7 + 7 * Z.of_nat k) by lia; rewrite Z.pow_add_r by lia; reflexivity).
  rewrite Pk in H. apply IH.
  - split; [apply Z.div_pos; lia|]. apply Z.div_lt_upper_bound; lia.
  - destruct k; [cbn in H; lia|lia].
Qed.
Lemma leb_len fuel : forall i k, 0 <= i < 2 ^ (7 * Z.of_nat k) -> len (leb fuel i) <= Z.max 1 (Z.of_nat k).
Proof.
  induction fuel as [|f IH]; intros i k H; cbn [leb]; [change (len (@nil Z)) with 0; lia|].
  destruct (Z.leb_spec 128 i) as [L|L]; [|change (len [i]) with 1; lia]. rewrite len_cons. destruct k as [|k]; [cbn in H; lia|].
  assert (Pk : 2 ^ (7 * Z.of_nat (S k)) = 128 * 2 ^ (7 * Z.of_nat k)) by (replace (7 * Z.of_nat (S k)) with (7 + 7 * Z.of_nat k) by lia; rewrite Z.pow_add_r by lia; reflexivity).
  rewrite Pk in H. specialize (IH (i >> 7) k). rewrite Z.shiftr_div_pow2 in * by lia. change (2 ^ 7) with 128 in *.
  assert (B : 0 <= i / 128 < 2 ^ (7 * Z.of_nat k)) by (split; [apply Z.div_pos; lia|apply Z.div_lt_upper_bound; lia]). specialize (IH B).
  destruct k; [cbn in B; lia|lia].
Qed.

(** *** Units *)
Lemma nth_at (pre post : list Z) x : nth (Z.to_nat (len pre)) (pre ++ x :: post) 0 = x.
Proof. unfold len. rewrite Nat2Z.id. rewrite app_nth2 by lia. rewrite Nat.sub_diag. reflexivity. Qed.
Lemma size_field_ok n size : uleb n size -> forall fuel i pl pre post, len size <= Z.of_nat fuel -> 0 <= i -> i + len size <= 5 -> 0 <= pl < 2 ^ (7 * i) -> n * 2 ^ (7 * i) < 2 ^ 31 ->
  size_field fuel (pre ++ size ++ post) i pl (len pre) = inl (Some (pl + n * 2 ^ (7 * i), len pre + len size)).
Proof.
  induction 1 as [n H|n b l H U IH]; intros fuel i pl pre post F I L P B.
  - change (len [n]) with 1 in *. destruct fuel as [|k]; [lia|]. cbn [size_field]. cbn [app]. pose proof (len_nonneg post).
    destruct (Z.ltb_spec (len (pre ++ n :: post)) (len pre + 1)) as [X|_]; [rewrite len_app, len_cons in X; lia|].
    rewrite nth_at, land7, Z.mod_small by lia.
    assert (((5 <=? i) || (i =? 4) && (8 <=? n)) = false) as ->.
    { destruct (Z.leb_spec 5 i); [lia|]. destruct (Z.eqb_spec i 4) as [->|]; [|reflexivity]. change (2 ^ (7 * 4)) with (2 ^ 28) in B. destruct (Z.leb_spec 8 n); [lia|reflexivity]. }
    assert (n .& 128 =? 0 = true) as ->.
    { pose proof (byte_all (fun n => (128 <=? n) || (n .& 128 =? 0)) ltac:(vm_compute; reflexivity) n ltac:(lia)) as A. cbv beta in A. destruct (Z.leb_spec 128 n); [lia|exact A]. }
    rewrite Z.lor_comm, (Z.mul_comm i 7), lor_shl_add by lia. rewrite Z.add_comm. reflexivity.
  - rewrite len_cons in *. destruct (uleb_pos _ _ U) as [N L1]. destruct fuel as [|k]; [lia|]. cbn [size_field]. cbn [app]. pose proof (len_nonneg post).
    destruct (Z.ltb_spec (len (pre ++ (128 + b) :: l ++ post)) (len pre + 1)) as [X|_]; [rewrite len_app, len_cons in X; pose proof (len_nonneg (l ++ post)); lia|].
    rewrite nth_at, land7. replace ((128 + b) mod 128) with b by lia.
    assert (((5 <=? i) || (i =? 4) && (8 <=? b)) = false) as -> by (destruct (Z.leb_spec 5 i); [lia|]; destruct (Z.eqb_spec i 4); [lia|reflexivity]).
    assert ((128 + b) .& 128 =? 0 = false) as ->.
    { pose proof (byte_all (fun n => (n <? 128) || negb (n .& 128 =? 0)) ltac:(vm_compute; reflexivity) (128 + b) ltac:(lia)) as A. cbv beta in A. destruct (Z.ltb_spec (128 + b) 128); [lia|]. destruct ((128 + b) .& 128 =? 0); [discriminate A|reflexivity]. }
    rewrite Z.lor_comm, (Z.mul_comm i 7), lor_shl_add by lia.
    assert (Pi : 2 ^ (7 * (i + 1)) = 128 * 2 ^ (7 * i)) by (replace (7 * (i + 1)) with (7 + 7 * i) by lia; rewrite Z.pow_add_r by lia; reflexivity).
    specialize (IH k (i + 1) (b * 2 ^ (7 * i) + pl) (pre ++ [128 + b]) post). rewrite len_app in IH. change (len [128 + b]) with 1 in IH. rewrite <- app_assoc in IH. cbn [app] in IH.
    assert (0 < 2 ^ (7 * i)) by (apply Z.pow_pos_nonneg; lia).
    rewrite IH; [|lia|lia|lia|rewrite Pi; nia|rewrite Pi; nia]. rewrite Pi. f_equal. f_equal. f_equal; [ring|lia].
Qed.
Lemma type_cases (P : Z -> Prop) t : 0 <= t < 16 -> P 0 -> P 1 -> P 2 -> P 3 -> P 4 -> P 5 -> P 6 -> P 7 -> P 8 -> P 9 -> P 10 -> P 11 -> P 12 -> P 13 -> P 14 -> P 15 -> P t.
Proof.
  intros H; intros. assert (t = 0 \/ t = 1 \/ t = 2 \/ t = 3 \/ t = 4 \/ t = 5 \/ t = 6 \/ t = 7 \/ t = 8 \/ t = 9 \/ t = 10 \/ t = 11 \/ t = 12 \/ t = 13 \/ t = 14 \/ t = 15) as K by lia.
  decompose [or] K; subst; assumption.
Qed.
Definition ext_len (u : unit_) : Z := match t_ext u with None => 0 | Some _ => 1 end.
Lemma init_ok u d more : unit_ok u -> encodes 5 u d -> exists h, init (d ++ more) = OValid (len d) h /\ isKeyframe (d ++ more) (len d) h = is_key u /\ 2 <= len d.
Proof.
  intros (T & X & Bp & P & TD) (size & U & W & ->). destruct (uleb_pos _ _ U) as [_ S1]. pose proof (len_nonneg (t_payload u)) as LP.
  set (b := t_type u * 8 + match t_ext u with None => 0 | Some _ => 4 end + 2).
  set (ext := match t_ext u with None => [] | Some e => [e] end).
  assert (LE : len ext = ext_len u) by (unfold ext, ext_len; destruct (t_ext u); reflexivity).
  assert (B2 : (b .& 2 =? 0) = false) by (unfold b; destruct (t_ext u); pattern (t_type u); apply type_cases; (exact T || reflexivity)).
  assert (B4 : (b .& 4 =? 0) = match t_ext u with None => true | Some _ => false end) by (unfold b; destruct (t_ext u); pattern (t_type u); apply type_cases; (exact T || reflexivity)).
  assert (BT : (b .& 120) >> 3 = t_type u) by (unfold b; destruct (t_ext u); pattern (t_type u); apply type_cases; (exact T || reflexivity)).
  assert (LD : len ([b] ++ ext ++ size ++ t_payload u) = 1 + ext_len u + len size + len (t_payload u)) by (rewrite !len_app, LE; change (len [b]) with 1; lia).
  assert (EL : 0 <= ext_len u) by (unfold ext_len; destruct (t_ext u); lia).
  exists (1 + ext_len u + len size). rewrite LD. split; [|split; [|lia]].
  - rewrite <- !app_assoc. change ([b] ++ ext ++ size ++ t_payload u ++ more) with (b :: ext ++ size ++ t_payload u ++ more). unfold init. rewrite B2, B4, BT.
    assert (SF : size_field 7 (b :: ext ++ size ++ t_payload u ++ more) 0 0 (if match t_ext u with None => true | Some _ => false end then 1 else 2) = inl (Some (len (t_payload u), 1 + ext_len u + len size))).
    { pose proof (size_field_ok _ _ U 7 0 0 (b :: ext) (t_payload u ++ more) ltac:(lia) ltac:(lia) ltac:(lia) ltac:(cbn; lia) ltac:(change (2 ^ (7 * 0)) with 1; lia)) as Q.
      rewrite len_cons, LE in Q. change (2 ^ (7 * 0)) with 1 in Q. rewrite Z.mul_1_r, Z.add_0_l in Q. cbn [app] in Q.
      unfold ext_len in *. destruct (t_ext u); exact Q. }
    rewrite SF. destruct (Z.ltb_spec (len (b :: ext ++ size ++ t_payload u ++ more)) (len (t_payload u) + (1 + ext_len u + len size))) as [Y|_].
    { rewrite len_cons, !len_app, LE in Y. pose proof (len_nonneg more). lia. }
    replace (len (t_payload u) + (1 + ext_len u + len size)) with (1 + ext_len u + len size + len (t_payload u)) by lia.
    destruct (Z.eqb_spec (t_type u) 2) as [E|E]; [|reflexivity]. rewrite (TD E). change (len (@nil Z)) with 0. cbn [negb andb Z.eqb]. reflexivity.
  - unfold isKeyframe, is_key. change (nth 0 (([b] ++ ext ++ size ++ t_payload u) ++ more) 0) with b. rewrite B4, BT.
    assert (NH : nth (Z.to_nat (1 + ext_len u + len size)) (([b] ++ ext ++ size ++ t_payload u) ++ more) 0 = nth 0 (t_payload u ++ more) 0).
    { rewrite <- !app_assoc. rewrite !app_assoc. rewrite <- (app_assoc _ _ more). assert (L : len (([b] ++ ext) ++ size) = 1 + ext_len u + len size) by (rewrite !len_app, LE; change (len [b]) with 1; lia).
      rewrite <- L. unfold len. rewrite Nat2Z.id. rewrite app_nth2 by lia. rewrite Nat.sub_diag. reflexivity. }
    rewrite NH. 
    destruct (t_payload u) as [|f r] eqn:EP.
    + change (len (@nil Z)) with 0. destruct (Z.ltb_spec (1 + ext_len u + len size) (1 + ext_len u + len size + 0)); [lia|].
      rewrite !andb_false_r. cbn [nth]. change (0 / 8 mod 2 =? 1) with false. change (0 / 16 =? 1) with false. rewrite ?andb_false_r. cbn [andb orb]. rewrite ?andb_false_r. match goal with |- (if ?c then _ else _) = _ => destruct c; reflexivity end.
    + rewrite len_cons. pose proof (len_nonneg r). destruct (Z.ltb_spec (1 + ext_len u + len size) (1 + ext_len u + len size + (1 + len r))); [|lia].
      destruct (Z.ltb_spec 1 (1 + ext_len u + len size + (1 + len r))); [|lia]. cbn [nth app].
      assert (Fb : 0 <= f < 256) by (inversion Bp; assumption).
      assert (F8 : negb (f .& 8 =? 0) = (f / 8 mod 2 =? 1)).
      { apply eqb_prop. exact (byte_all (fun f => Bool.eqb (negb (f .& 8 =? 0)) (f / 8 mod 2 =? 1)) ltac:(vm_compute; reflexivity) f Fb). }
      assert (F16 : (f .& 240 =? 16) = (f / 16 =? 1)).
      { apply eqb_prop. exact (byte_all (fun f => Bool.eqb (f .& 240 =? 16) (f / 16 =? 1)) ltac:(vm_compute; reflexivity) f Fb). }
      rewrite F8, F16, !andb_true_r. unfold ext. destruct (t_ext u) as [e|]; cbn [negb andb nth app].
      * assert (E0 : negb (e .& 224 =? 0) = negb (e / 32 =? 0)).
        { apply eqb_prop. exact (byte_all (fun e => Bool.eqb (negb (e .& 224 =? 0)) (negb (e / 32 =? 0))) ltac:(vm_compute; reflexivity) e X). }
        rewrite E0. destruct (e / 32 =? 0); [|reflexivity]. cbn [negb andb]. destruct ((t_type u =? 1) && (f / 8 mod 2 =? 1)); reflexivity.
      * destruct ((t_type u =? 1) && (f / 8 mod 2 =? 1)); reflexivity.
Qed.

(** *** Packets *)
Definition begins (q : packet) : bool := match elements q with [] => negb (z q) | _ => true end.
Lemma parts_snoc l : forall b y e, parts b y (l ++ [e]) = parts b false l ++ [(match l with [] => b | _ => true end, e, negb y)].
Proof.
  induction l as [|a l IH]; intros b y0 e; [reflexivity|]. cbn [app]. destruct l as [|a2 l].
  - reflexivity.
  - change (parts b y0 (a :: (a2 :: l) ++ [e])) with ((b, a, true) :: parts true y0 ((a2 :: l) ++ [e])). rewrite IH. reflexivity.
Qed.
Lemma combine_snoc (A B : Type) (l : list A) (r : list B) a b : List.length l = List.length r -> combine (l ++ [a]) (r ++ [b]) = combine l r ++ [(a, b)].
Proof. revert r. induction l as [|x l IH]; intros [|y0 r] H; try discriminate H; [reflexivity|]. cbn [app combine]. rewrite IH by (cbn in H; lia). reflexivity. Qed.
Lemma F2_length (A B : Type) (R : A -> B -> Prop) l r : Forall2 R l r -> List.length l = List.length r.
Proof. induction 1; cbn; lia. Qed.
Definition add (q : packet) (y' : bool) (e : list Z) : packet := mkpacket (z q) y' (n q) (elements q ++ [e]).
Lemma carries_add q a body y' e s : carries q (a :: body) -> y q = false -> uleb (len e) s ->
  carries (add q y' e) ((if y' then a .| 64 else a) :: body ++ s ++ e).
Proof.
  intros (sizes & F & E) Y U. exists (sizes ++ [s]). unfold add. cbn [z y n elements]. split; [apply Forall2_app; [exact F|constructor; [exact U|constructor]]|].
  rewrite Y in E. cbn [app] in E. injection E as Ea Eb. cbn [app]. f_equal.
  - rewrite Ea. destruct (z q), (n q), y'; reflexivity.
  - rewrite combine_snoc by (symmetry; exact (F2_length _ _ _ _ _ F)). rewrite map_app, concat_app, <- Eb. cbn [map List.concat fst snd]. rewrite app_nil_r. reflexivity.
Qed.
Definition all_parts (ps : list packet) := List.concat (map (fun p => parts (negb (z p)) (y p) (elements p)) ps).
Lemma join_app a : forall o b, join o (a ++ b) = match join o a with Some (x, o1) => match join o1 b with Some (x2, o2) => Some (x ++ x2, o2) | None => None end | None => None end.
Proof.
  induction a as [|[[bg e] f] a IH]; intros o b; cbn [app join].
  - destruct (join o b) as [[x o2]|]; reflexivity.
  - destruct o as [p|], bg; try reflexivity.
    + destruct f; rewrite IH; [|reflexivity]. destruct (join None a) as [[x o1]|]; [|reflexivity]. destruct (join o1 b) as [[x2 o2]|]; reflexivity.
    + destruct f; rewrite IH; [|reflexivity]. destruct (join None a) as [[x o1]|]; [|reflexivity]. destruct (join o1 b) as [[x2 o2]|]; reflexivity.
Qed.
Definition rel (hs max : Z) (p : pk) (q : packet) : Prop := carries q (agg p :: els p) /\ size hs p <= max.
Definition is_open (o : option (list Z)) : bool := match o with None => false | Some _ => true end.

Lemma write_ok fuel : forall hs max p q o u, 0 <= hs -> hs + 6 <= max -> max < 2 ^ 28 -> rel hs max p q -> y q = false -> begins q = negb (is_open o) -> u <> [] ->
  (max < size hs p + len u + 4 -> 0 <= max - size hs p - 4) -> (size hs p = hs + 1 /\ len u < Z.of_nat fuel \/ len u + 1 < Z.of_nat fuel) ->
  exists out p' qs q' N, write fuel hs max p u = Sent (out, p') /\ Forall2 (rel hs max) out qs /\ rel hs max p' q' /\ y q' = false /\ begins q' = true /\
    all_parts (qs ++ [q']) = all_parts [q] ++ N /\ join o N = Some ([match o with None => u | Some x => x ++ u end], None) /\
    (map n qs ++ [n q'] = n q :: map (fun _ => false) qs).
Proof.
  induction fuel as [|k IH]; intros hs max p q o u H1 H2 H3 [C Sz] Y B NE W F; [pose proof (len_nonneg u); lia|].
  cbn [write]. destruct u as [|u0 u]; [contradiction|]. remember (u0 :: u) as v eqn:Ev.
  assert (Lv : 1 <= len v) by (rewrite Ev, len_cons; pose proof (len_nonneg u); lia).
  set (w := if max <? size hs p + len v + 4 then max - size hs p - 4 else len v).
  assert (Bw : 0 <= w <= len v /\ size hs p + w + 4 <= max /\ (w <> len v -> w = max - size hs p - 4)).
  { unfold w. destruct (Z.ltb_spec max (size hs p + len v + 4)) as [L|L]; [specialize (W L); lia|lia]. }
  destruct Bw as (W0 & W1 & W2). destruct (Z.ltb_spec w 0); [lia|].
  assert (S0 : hs + 1 <= size hs p) by (unfold size; pose proof (len_nonneg (els p)); lia).
  assert (UL : uleb w (leb128 w)) by (apply leb_uleb; [split; [lia|]; change (2 ^ (7 * Z.of_nat 10)) with (2 ^ 70); lia|lia]).
  assert (LL : len (leb128 w) <= 4) by (apply (leb_len 10 w 4); change (2 ^ (7 * Z.of_nat 4)) with (2 ^ 28); lia).
  assert (LT : len (takez w v) = w) by (apply len_takez; lia).
  assert (UL' : uleb (len (takez w v)) (leb128 w)) by (rewrite LT; exact UL).
  destruct (Z.eqb_spec w (len v)) as [E|E].
  - assert (TV : takez w v = v) by (apply takez_all; lia).
    exists [], (mkpk (agg p) (els p ++ leb128 w ++ takez w v)), [], (add q false (takez w v)), [(begins q, takez w v, true)].
    split; [reflexivity|]. split; [constructor|]. split; [split; [exact (carries_add q (agg p) (els p) false _ _ C Y UL')|unfold size in *; cbn [els]; rewrite !len_app; lia]|].
    split; [reflexivity|]. split; [unfold begins, add; cbn [elements]; destruct (elements q); reflexivity|].
    split; [unfold all_parts; cbn [map List.concat add z y elements app]; rewrite !app_nil_r, Y; apply parts_snoc|].
    split; [rewrite B, TV; destruct o; reflexivity|reflexivity].
  - assert (LD : len (dropz w v) = len v - w) by (apply len_dropz; lia).
    destruct (IH hs max (mkpk 128 []) (mkpacket true false false []) (Some (match o with None => takez w v | Some x => x ++ takez w v end)) (dropz w v)) as (out & p' & qs & q' & N & R1 & R2 & R3 & R4 & R5 & R6 & R7 & R8); try assumption; try reflexivity.
    + split; [exists []; split; [constructor|reflexivity]|unfold size; cbn [els]; change (len (@nil Z)) with 0; lia].
    + intros D. rewrite D in LD. change (len (@nil Z)) with 0 in LD. lia.
    + unfold size. cbn [els]. change (len (@nil Z)) with 0. lia.
    + left. split; [unfold size; cbn [els]; change (len (@nil Z)) with 0; lia|]. specialize (W2 E). destruct F as [[F1 F2]|F]; lia.
    + rewrite R1. exists (mkpk (agg p .| 64) (els p ++ leb128 w ++ takez w v) :: out), p', (add q true (takez w v) :: qs), q', ((begins q, takez w v, false) :: N).
      split; [reflexivity|]. split; [constructor; [split; [exact (carries_add q (agg p) (els p) true _ _ C Y UL')|unfold size in *; cbn [els]; rewrite !len_app; lia]|exact R2]|].
      split; [exact R3|]. split; [exact R4|]. split; [exact R5|].
      split.
      { change ((add q true (takez w v) :: qs) ++ [q']) with ([add q true (takez w v)] ++ (qs ++ [q'])). unfold all_parts in *. rewrite map_app, concat_app, R6.
        cbn [map List.concat add z y elements app negb]. rewrite !app_nil_r, Y, parts_snoc, <- app_assoc. reflexivity. }
      split.
      { cbn [join]. rewrite B. destruct o as [x|]; cbn [is_open negb]; rewrite R7; rewrite <- ?app_assoc, takez_dropz; reflexivity. }
      { cbn [map app add n] in *. rewrite R8. reflexivity. }
Qed.
Lemma units_ok us ds : Forall2 (fun u d => unit_ok u /\ encodes 5 u d) us ds -> forall fuel hs max p q, 0 <= hs -> hs + 6 <= max -> 12 <= max < 2 ^ 28 ->
  rel hs max p q -> y q = false -> begins q = true -> (List.length (List.concat ds) < fuel)%nat ->
  Forall (fun d => 4 <= len d) ds \/ size hs p = hs + 1 /\ Forall (fun d => 4 <= len d) (tl ds) ->
  exists out p' qs q' N, sendUnits fuel hs max p (List.concat ds) = Sent (out, p') /\ Forall2 (rel hs max) out qs /\ rel hs max p' q' /\
    all_parts (qs ++ [q']) = all_parts [q] ++ N /\ join None N = Some (ds, None) /\ map n qs ++ [n q'] = n q :: map (fun _ => false) qs.
Proof.
  induction 1 as [|u d us ds [Uo En] _ IH]; intros fuel hs max p q H1 H2 H3 R Y B F A.
  - exists [], p, [], q, []. cbn [List.concat]. split; [destruct fuel; reflexivity|]. split; [constructor|]. split; [exact R|]. split; [rewrite app_nil_r; reflexivity|]. split; reflexivity.
  - destruct (init_ok u d (List.concat ds) Uo En) as (h & I1 & _ & I2).
    destruct fuel as [|k]; [lia|]. cbn [List.concat] in *. 
    assert (NE : exists x r, d ++ List.concat ds = x :: r) by (destruct d as [|x r]; [change (len (@nil Z)) with 0 in I2; lia|eexists _, _; reflexivity]).
    cbn [sendUnits]. destruct (d ++ List.concat ds) as [|x0 r0] eqn:Ex; [destruct NE as (? & ? & NE); discriminate NE|]. rewrite <- Ex in *. clear NE.
    rewrite I1. destruct (Z.eqb_spec (len d) 0) as [EZ|NZ]; [lia|]. rewrite takez_app_exact, dropz_app_exact by reflexivity.
    assert (Fr : rel hs max (mkpk 0 []) (mkpacket false false false [])) by (split; [exists []; split; [constructor|reflexivity]|unfold size; cbn [els]; change (len (@nil Z)) with 0; lia]).
    assert (Sf : size hs (mkpk 0 []) = hs + 1) by (unfold size; cbn [els]; change (len (@nil Z)) with 0; lia).
    assert (NEd : d <> []) by (intros ->; change (len (@nil Z)) with 0 in I2; lia).
    assert (Fk : (List.length (List.concat ds) < k)%nat) by (rewrite app_length in F; unfold len in I2; lia).
    assert (At : Forall (fun d => 4 <= len d) ds) by (destruct A as [A|[_ A]]; [inversion A; assumption|exact A]).
    assert (A4 : size hs p = hs + 1 \/ 4 <= len d) by (destruct A as [A|[A _]]; [right; inversion A; assumption|left; exact A]).
    destruct ((max <? size hs p + max / 3) && (max <? size hs p + len d)) eqn:Fl.
    + destruct (write_ok (S (S (Z.to_nat (len d)))) hs max (mkpk 0 []) (mkpacket false false false []) None d) as (o2 & p2 & qs2 & q2 & N2 & W1 & W2 & W3 & W4 & W5 & W6 & W7 & W8); try assumption; try reflexivity; try lia.
      rewrite W1. destruct (IH k hs max p2 q2) as (o3 & p3 & qs3 & q3 & N3 & V1 & V2 & V3 & V4 & V5 & V6); try assumption; [left; exact At|].
      rewrite V1. exists ([p] ++ o2 ++ o3), p3, ([q] ++ qs2 ++ qs3), q3, (N2 ++ N3). split; [reflexivity|].
      split; [apply Forall2_app; [constructor; [exact R|constructor]|apply Forall2_app; assumption]|]. split; [exact V3|].
      split.
      { unfold all_parts in *. rewrite <- !app_assoc. rewrite !map_app, !concat_app in *. rewrite V4. rewrite app_assoc in *. rewrite <- !app_assoc. f_equal. rewrite !app_assoc. f_equal. rewrite W6. reflexivity. }
      split; [rewrite join_app, W7, V5; reflexivity|].
      rewrite !map_app. cbn [map app n] in *. f_equal. rewrite <- !app_assoc. rewrite V6.
      change (n q2 :: map (fun _ : packet => false) qs3) with ([n q2] ++ map (fun _ : packet => false) qs3). rewrite app_assoc, W8. reflexivity.
    + destruct (write_ok (S (S (Z.to_nat (len d)))) hs max p q None d) as (o2 & p2 & qs2 & q2 & N2 & W1 & W2 & W3 & W4 & W5 & W6 & W7 & W8); try assumption; try lia.
      rewrite W1. destruct (IH k hs max p2 q2) as (o3 & p3 & qs3 & q3 & N3 & V1 & V2 & V3 & V4 & V5 & V6); try assumption; [left; exact At|].
      rewrite V1. exists (o2 ++ o3), p3, (qs2 ++ qs3), q3, (N2 ++ N3). split; [reflexivity|].
      split; [apply Forall2_app; assumption|]. split; [exact V3|].
      split.
      { unfold all_parts in *. rewrite <- !app_assoc. rewrite !map_app, !concat_app in *. rewrite V4. rewrite !app_assoc. f_equal. rewrite W6. reflexivity. }
      split; [rewrite join_app, W7, V5; reflexivity|].
      rewrite !map_app, <- !app_assoc, V6. change (n q2 :: map (fun _ : packet => false) qs3) with ([n q2] ++ map (fun _ : packet => false) qs3). rewrite app_assoc, W8. reflexivity.
Qed.
Lemma key_ok us ds : Forall2 (fun u d => unit_ok u /\ encodes 5 u d) us ds -> forall fuel, (List.length (List.concat ds) < fuel)%nat -> keyframe fuel (List.concat ds) = Sent (existsb is_key us).
Proof.
  induction 1 as [|u d us ds [Uo En] _ IH]; intros fuel F; [destruct fuel; reflexivity|].
  destruct (init_ok u d (List.concat ds) Uo En) as (h & I1 & I3 & I2). destruct fuel as [|k]; [lia|]. cbn [List.concat existsb] in *.
  assert (NE : exists x r, d ++ List.concat ds = x :: r) by (destruct d as [|x r]; [change (len (@nil Z)) with 0 in I2; lia|eexists _, _; reflexivity]).
  cbn [keyframe]. destruct (d ++ List.concat ds) as [|x0 r0] eqn:Ex; [destruct NE as (? & ? & NE); discriminate NE|]. rewrite <- Ex in *.
  rewrite I1, I3. destruct (is_key u); [reflexivity|]. destruct (Z.eqb_spec (len d) 0) as [EZ|NZ]; [lia|]. rewrite dropz_app_exact by reflexivity. apply IH.
  rewrite app_length in F. unfold len in I2. lia.
Qed.
