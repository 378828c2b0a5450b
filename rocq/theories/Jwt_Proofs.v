(** Proofs about access tokens. *)
From Verif Require Import Common CommonFacts JsonVal_Model Encode_Model Encode_Spec Encode_Proofs Encode_Props Hash_Model Hash_Spec Hash_Props Jwt_Model Jwt_Spec.

(** ** Text *)
Lemma find_ch_none c s : ~ In c s -> find_ch c s = None.
Proof.
  induction s as [|x r IH]; cbn; [reflexivity|]. intros H.
  destruct (x =? c) eqn:E; [apply Z.eqb_eq in E; exfalso; apply H; now left|].
  rewrite IH; [reflexivity|]. intros I. apply H. now right.
Qed.
Lemma find_ch_app c u v : ~ In c u -> find_ch c (u ++ [c] ++ v) = Some (len u).
Proof.
  induction u as [|x r IH]; intros H; cbn [find_ch app].
  - now rewrite Z.eqb_refl.
  - destruct (x =? c) eqn:E; [apply Z.eqb_eq in E; exfalso; apply H; now left|].
    cbn [app] in IH. rewrite IH by (intros I; apply H; now right). cbn [option_map]. f_equal. rewrite len_cons. reflexivity.
Qed.
Lemma find_ch_some c s p : find_ch c s = Some p -> exists u v, s = u ++ [c] ++ v /\ ~ In c u /\ p = len u.
Proof.
  revert p. induction s as [|x r IH]; cbn [find_ch]; intros p H; [discriminate H|].
  destruct (x =? c) eqn:E.
  - injection H as <-. apply Z.eqb_eq in E. subst x. exists [], r. repeat split. intros [].
  - destruct (find_ch c r) as [q|] eqn:F; [|discriminate H]. cbn in H. injection H as <-.
    destruct (IH q eq_refl) as (u & v & -> & Hu & ->). exists (x :: u), v. repeat split.
    + intros [I|I]; [subst; rewrite Z.eqb_refl in E; discriminate E | now apply Hu].
    + now rewrite len_cons.
Qed.
Lemma find_ch_absent c s : find_ch c s = None -> ~ In c s.
Proof.
  induction s as [|x r IH]; cbn [find_ch]; intros H; [intros []|].
  destruct (x =? c) eqn:E; [discriminate H|]. destruct (find_ch c r); [discriminate H|].
  intros [I|I]; [subst; rewrite Z.eqb_refl in E; discriminate E | now apply IH].
Qed.

(** ** Patterns *)
Lemma star_len u v : len (u ++ [42] ++ v) = len u + 1 + len v.
Proof. rewrite !len_app, len_cons. change (len (@nil Z)) with 0. lia. Qed.
Lemma drop_suffix (a b : list Z) : dropz (len (a ++ b) - len b) (a ++ b) = b.
Proof. apply dropz_app_exact. rewrite len_app. lia. Qed.

Lemma wildcard_sound p a : starless a -> fits p a -> equalsWithWildcard a p = true -> globs p a.
Proof.
  intros Ha [O F]. unfold equalsWithWildcard.
  destruct (beqb a (bs "*")) eqn:E1. { apply beqb_eq in E1. subst a. exfalso. apply Ha. now left. }
  destruct (beqb p (bs "*")) eqn:E2.
  { intros _. apply beqb_eq in E2. subst p. right. exists [], [], a. repeat split; try (intros []). cbn. now rewrite app_nil_r. }
  cbn [orb]. rewrite (find_ch_none 42 a Ha).
  destruct O as [O|(u & v & Hu & Hv & ->)].
  { rewrite (find_ch_none 42 p O). intros H. apply beqb_eq in H. left. now split. }
  rewrite (find_ch_app 42 u v Hu).
  assert (L : len (u ++ [42] ++ v) <= len a + 1) by (apply F; rewrite !in_app_iff; right; left; now left).
  pose proof (star_len u v) as SL. rewrite SL in L. pose proof (len_nonneg u). pose proof (len_nonneg v).
  replace (Z.min (len a) (len u)) with (len u) by lia.
  rewrite SL. replace (Z.min (len a) (len u + 1 + len v - len u - 1)) with (len v) by lia.
  rewrite (takez_app_exact u ([42] ++ v)) by reflexivity.
  replace (len u + 1 + len v - len v) with (len (u ++ [42])) by (rewrite len_app; change (len [42]) with 1; lia).
  rewrite (app_assoc u [42] v), dropz_app_exact by reflexivity.
  destruct (beqb (takez (len u) a) u) eqn:E3; [|discriminate]. cbn [negb]. intros E4.
  apply beqb_eq in E3, E4. right. exists u, v, (takez (len a - len v - len u) (dropz (len u) a)). repeat split; try assumption.
  { now rewrite app_assoc. }
  rewrite <- (takez_dropz (len u) a) at 1. rewrite E3. f_equal.
  rewrite <- (takez_dropz (len a - len v - len u) (dropz (len u) a)) at 1. f_equal.
  rewrite dropz_dropz by lia. replace (len a - len v - len u + len u) with (len a - len v) by lia. exact E4.
Qed.

Lemma wildcard_complete p a : globs p a -> equalsWithWildcard a p = true.
Proof.
  intros G. unfold equalsWithWildcard. destruct (beqb a (bs "*") || beqb p (bs "*")); [reflexivity|].
  destruct G as [[O ->]|(u & v & m & Hu & Hv & -> & ->)].
  { rewrite (find_ch_none 42 p O). apply beqb_refl. }
  rewrite (find_ch_app 42 u v Hu).
  set (a := u ++ m ++ v).
  assert (La : len a = len u + len m + len v) by (unfold a; rewrite !len_app; lia).
  pose proof (star_len u v) as SL. pose proof (len_nonneg u). pose proof (len_nonneg v). pose proof (len_nonneg m).
  assert (K : forall pre suf, 0 <= pre <= len u -> 0 <= suf <= len v ->
    (if negb (beqb (takez pre a) (takez pre (u ++ [42] ++ v))) then false
     else beqb (dropz (len a - suf) a) (dropz (len (u ++ [42] ++ v) - suf) (u ++ [42] ++ v))) = true).
  { intros pre suf P S. unfold a at 1. rewrite !takez_app by lia. rewrite beqb_refl. cbn [negb].
    rewrite SL. unfold a at 2. rewrite La.
    rewrite (app_assoc u m v), (app_assoc u [42] v).
    rewrite !dropz_app_ge by (rewrite !len_app; try (change (len [42]) with 1); lia).
    rewrite !len_app. change (len [42]) with 1.
    replace (len u + len m + len v - suf - (len u + len m)) with (len v - suf) by lia.
    replace (len u + 1 + len v - suf - (len u + 1)) with (len v - suf) by lia. apply beqb_refl. }
  destruct (find_ch 42 a) as [q|] eqn:E.
  - destruct (find_ch_some _ _ _ E) as (x & y & Ex & Hx & ->).
    assert (len a = len x + 1 + len y) by (rewrite Ex; apply star_len).
    pose proof (len_nonneg x). pose proof (len_nonneg y). apply K; lia.
  - apply K; lia.
Qed.

(** ** Form *)
Lemma alpha_byte c : 0 <= c < 128 ->
  (b64_alpha true c <-> (c <? 45) = false /\ (c =? 46) = false /\ ((c =? 47) || (c =? 58) || (c =? 64) || (c =? 96)) = false /\ ((c =? 95) || ((c .& 0x1F) <? 27)) = true).
Proof.
  intros H. unfold b64_alpha. rewrite land_31.
  assert (E : c = 32 * (c / 32) + c mod 32) by (apply Z.div_mod; lia).
  assert (0 <= c mod 32 < 32) by (apply Z.mod_pos_bound; lia).
  assert (0 <= c / 32 < 4) by (split; [apply Z.div_pos; lia | apply Z.div_lt_upper_bound; lia]).
  generalize dependent (c mod 32). generalize dependent (c / 32). intros q Hq r E Hr.
  rewrite !orb_true_iff, !orb_false_iff, Z.ltb_lt, Z.ltb_ge, !Z.eqb_neq, Z.eqb_eq. lia.
Qed.
Fixpoint ndots (s : list Z) : Z := match s with [] => 0 | c :: r => (if c =? 46 then 1 else 0) + ndots r end.
Lemma ndots_nonneg s : 0 <= ndots s.
Proof. induction s as [|c r IH]; cbn [ndots]; [lia|]. destruct (c =? 46); lia. Qed.
Lemma ndots_app a b : ndots (a ++ b) = ndots a + ndots b.
Proof. induction a as [|c r IH]; cbn [ndots app]; [lia|]. rewrite IH. lia. Qed.
Lemma ndots_zero s : ndots s = 0 <-> ~ In 46 s.
Proof.
  induction s as [|c r IH]; cbn [ndots In]; [split; [intros _ []|reflexivity]|]. pose proof (ndots_nonneg r).
  destruct (Z.eqb_spec c 46) as [E|E].
  - split; [lia|]. intros N. exfalso. apply N. now left.
  - rewrite Z.add_0_l, IH. split; [intros N [I|I]; [lia|now apply N] | intros N I; apply N; now right].
Qed.
Lemma isJWS_loop_spec s : forall d, Forall (fun c => 0 <= c < 128) s -> 0 <= d <= 2 ->
  (isJWS_loop s d = true <-> d + ndots s = 2 /\ Forall (fun c => c = 46 \/ b64_alpha true c) s).
Proof.
  induction s as [|c r IH]; intros d A D; cbn [isJWS_loop ndots].
  { rewrite Z.eqb_eq. split; [intros E; split; [lia|constructor] | intros [E _]; lia]. }
  inversion A as [|? ? Hc Hr]; subst. rewrite Forall_cons_iff. pose proof (ndots_nonneg r).
  destruct (Z.eqb_spec c 46) as [E|E].
  - subst c. change (46 <? 45) with false. cbn [orb].
    destruct (Z.gtb_spec (d + 1) 2); [split; [discriminate | lia]|].
    rewrite IH by (assumption || lia). split; intros [H1 H2]; (split; [lia|]); [split; [now left|assumption] | now destruct H2].
  - pose proof (alpha_byte c Hc) as AB. apply Z.eqb_neq in E. rewrite E in AB. apply Z.eqb_neq in E.
    destruct (c <? 45). { split; [discriminate|]. intros [_ [[F|F] _]]; [lia|]. apply AB in F. destruct F as [F _]; discriminate F. }
    destruct ((c =? 47) || (c =? 58) || (c =? 64) || (c =? 96)).
    { split; [discriminate|]. intros [_ [[F|F] _]]; [lia|]. apply AB in F. destruct F as (_ & _ & F & _); discriminate F. }
    destruct ((c =? 95) || ((c .& 31) <? 27)).
    + rewrite IH by assumption. split; intros [H1 H2]; (split; [lia|]).
      * split; [right; apply AB; repeat split | assumption].
      * now destruct H2.
    + split; [discriminate|]. intros [_ [[F|F] _]]; [lia|]. apply AB in F. destruct F as (_ & _ & _ & F); discriminate F.
Qed.
Lemma alpha_nodot s : Forall (b64_alpha true) s -> ~ In 46 s.
Proof. intros F I. rewrite Forall_forall in F. apply F in I. unfold b64_alpha in I. lia. Qed.
Lemma nodot_alpha s : Forall (fun c => c = 46 \/ b64_alpha true c) s -> ~ In 46 s -> Forall (b64_alpha true) s.
Proof.
  intros F N. rewrite Forall_forall in *. intros x I. destruct (F x I) as [E|E]; [|exact E]. subst x. contradiction.
Qed.
Lemma isJWS_form s : Forall (fun c => 0 <= c < 128) s ->
  (isJWS s = true <-> exists h p g, s = h ++ [46] ++ p ++ [46] ++ g /\ Forall (b64_alpha true) h /\ Forall (b64_alpha true) p /\ Forall (b64_alpha true) g).
Proof.
  intros A. unfold isJWS. rewrite isJWS_loop_spec by (assumption || lia). split.
  - intros [N F].
    destruct (find_ch 46 s) as [x|] eqn:E1; [|apply find_ch_absent, ndots_zero in E1; lia].
    destruct (find_ch_some _ _ _ E1) as (h & r & -> & Nh & _).
    rewrite !ndots_app in N. change (ndots [46]) with 1 in N. pose proof (proj2 (ndots_zero h) Nh).
    destruct (find_ch 46 r) as [y|] eqn:E2; [|apply find_ch_absent, ndots_zero in E2; lia].
    destruct (find_ch_some _ _ _ E2) as (p & g & -> & Np & _).
    rewrite !ndots_app in N. change (ndots [46]) with 1 in N. pose proof (proj2 (ndots_zero p) Np).
    assert (Ng : ~ In 46 g) by (apply ndots_zero; lia).
    rewrite !Forall_app in F. exists h, p, g. repeat split; apply nodot_alpha; tauto.
  - intros (h & p & g & -> & Fh & Fp & Fg). split.
    + rewrite !ndots_app. change (ndots [46]) with 1.
      rewrite !(proj2 (ndots_zero _)) by (now apply alpha_nodot). reflexivity.
    + assert (K : forall l, Forall (b64_alpha true) l -> Forall (fun c => c = 46 \/ b64_alpha true c) l)
        by (intros l Hl; eapply Forall_impl; [|exact Hl]; intros; now right).
      rewrite !Forall_app. repeat split; try (apply K; assumption); constructor; try (now left); constructor.
Qed.

(** ** Base64 *)
Lemma triple_bytes a b c d : bytesP (b64_triple a b c d).
Proof. unfold b64_triple, bytesP. repeat constructor; apply u8_byte. Qed.
Lemma finish_bytes arr ret : bytesP ret -> bytesP (b64_finish arr ret).
Proof. intros H. unfold b64_finish. destruct (len arr =? 0); [exact H|]. apply bytesP_app. split; [exact H|]. apply bytesP_takez, triple_bytes. Qed.
Lemma dec_loop_bytes l : forall arr ret, bytesP ret -> bytesP (b64_dec_loop l arr ret).
Proof.
  induction l as [|c r IH]; intros arr ret H; cbn [b64_dec_loop]; [now apply finish_bytes|].
  destruct ((c =? ch "=") || (b64CharVal c =? 64)); [now apply finish_bytes|].
  destruct (len (arr ++ [c]) =? 4); apply IH; [apply bytesP_app; split; [exact H|apply triple_bytes] | exact H].
Qed.
Lemma decode_bytes s : bytesP (b64_decode s).
Proof. apply dec_loop_bytes. constructor. Qed.
Lemma finish_len arr ret : len (b64_finish arr ret) <= len ret + len arr.
Proof.
  unfold b64_finish. pose proof (len_nonneg arr). destruct (Z.eqb_spec (len arr) 0); [lia|]. rewrite len_app, len_takez_min by lia. lia.
Qed.
Lemma dec_loop_len l : forall arr ret, len (b64_dec_loop l arr ret) <= len ret + len arr + len l.
Proof.
  induction l as [|c r IH]; intros arr ret; cbn [b64_dec_loop].
  { change (len (@nil Z)) with 0. pose proof (finish_len arr ret). lia. }
  rewrite len_cons. pose proof (len_nonneg r).
  destruct ((c =? ch "=") || (b64CharVal c =? 64)); [pose proof (finish_len arr ret); lia|].
  destruct (Z.eqb_spec (len (arr ++ [c])) 4) as [E|E].
  - etransitivity; [apply IH|]. rewrite len_app in E. rewrite len_app. change (len (@nil Z)) with 0. change (len [c]) with 1 in E.
    unfold b64_triple. rewrite !len_cons. change (len (@nil Z)) with 0. lia.
  - etransitivity; [apply IH|]. rewrite len_app. change (len [c]) with 1. lia.
Qed.
Lemma decode_len s : len (b64_decode s) <= len s.
Proof. unfold b64_decode. etransitivity; [apply dec_loop_len|]. change (len (@nil Z)) with 0. lia. Qed.
Lemma url_text l : bytesP l -> Forall (b64_alpha true) (rfc4648 true l).
Proof.
  intros H. rewrite <- (base64_is_rfc4648 true l H). destruct (base64_text true l H) as (body & k & E & _ & F & K).
  rewrite E, (K eq_refl). cbn [repeat]. now rewrite app_nil_r.
Qed.

(** ** Digests *)
Lemma mac_spec h msg key : bytesP msg -> bytesP key -> len msg < 2 ^ 51 - 128 -> len key < 2 ^ 51 ->
  mac h msg key = hmac_spec (digest h) (block_size h) key msg.
Proof.
  intros Hm Hk Lm Lk. unfold mac.
  destruct (hmac_partial h (repeat 0 64) (repeat 0 (match h with SHA256 => 64 | _ => 128 end)%nat) msg key) as [E _]; try assumption.
  - reflexivity.
  - destruct h; reflexivity.
Qed.
Lemma shabin_spec h msg : bytesP msg -> len msg < 2 ^ 51 -> shabin h (repeat 0 64) msg = digest h msg.
Proof.
  intros Hm Lm. destruct h; cbn [shabin digest].
  - now apply sha256_partial.
  - apply sha512_conforms; [assumption|]. lia.
  - apply sha512_conforms; [assumption|]. lia.
Qed.

Lemma hmac_bytes h key msg : bytesP (hmac_spec (digest h) (block_size h) key msg).
Proof. unfold hmac_spec. destruct h; [apply sha256_shape | apply sha384_shape | apply sha512_shape]. Qed.

(** ** Permissions *)
Lemma perms_bits p r : (p .& r) = r <-> forall i, 0 <= i -> Z.testbit r i = true -> Z.testbit p i = true.
Proof.
  split.
  - intros E i Hi T. rewrite <- E, Z.land_spec in T. now apply andb_true_iff in T.
  - intros H. apply Z.bits_inj'. intros i Hi. rewrite Z.land_spec. specialize (H i Hi).
    destruct (Z.testbit r i); [rewrite H by reflexivity; reflexivity | apply andb_false_r].
Qed.
Lemma grants_complete k name r : grants k r name -> matchKeyPerms k name r = true.
Proof.
  intros [P (p & I & G)]. unfold matchKeyPerms. apply perms_bits in P. rewrite P, Z.eqb_refl. cbn [negb].
  destruct (k_streams k) as [|q l] eqn:E; [reflexivity|]. rewrite <- E in *. apply existsb_exists. exists p. split; [exact I|now apply wildcard_complete].
Qed.
Lemma grants_sound k name r : starless name -> k_streams k <> [] -> (forall p, In p (k_streams k) -> fits p name) ->
  matchKeyPerms k name r = true -> grants k r name.
Proof.
  intros S N F. unfold matchKeyPerms. destruct ((k_perms k .& r) =? r) eqn:E; [|discriminate]. apply Z.eqb_eq in E. cbn [negb].
  destruct (k_streams k) as [|q l] eqn:K; [contradiction|]. intros X. apply existsb_exists in X. destruct X as (p & I & W).
  split; [now apply perms_bits|]. exists p. rewrite K. split; [exact I|]. apply wildcard_sound; auto.
Qed.

Section World.
Variable from_text : list Z -> jv.
Variable rsa_key : list Z -> list Z -> bool.
Variable rsa_sig : bool -> sha -> list Z -> list Z -> list Z -> list Z -> bool.
Variable ec_key : Z -> list Z -> bool.
Variable ec_sig : Z -> list Z -> list Z -> list Z -> list Z -> bool.
Variable dbl_int : Z -> Z.
Variable in_range : list Z -> list Z -> bool.
Variable to_text : jv -> list Z.
Notation gen := (genuine rsa_key rsa_sig ec_key ec_sig).
Notation vrf := (verify rsa_key rsa_sig ec_key ec_sig to_text).

(** ** Taking a token apart *)
Lemma jws_of_parts h p g : ~ In 46 h -> ~ In 46 p ->
  jws_of from_text (h ++ [46] ++ p ++ [46] ++ g) = mkJws (from_text (b64_decode h)) (from_text (b64_decode p)) g (h ++ [46] ++ p).
Proof using Type.
  intros Nh Np. unfold jws_of. rewrite (find_ch_app 46 h (p ++ [46] ++ g) Nh).
  rewrite takez_app_exact by reflexivity.
  rewrite (app_assoc h [46] (p ++ [46] ++ g)), (dropz_app_exact (h ++ [46]) (p ++ [46] ++ g)) by (rewrite len_app; reflexivity).
  rewrite (find_ch_app 46 p g Np). rewrite takez_app_exact by reflexivity.
  rewrite (app_assoc p [46] g), (dropz_app_exact (p ++ [46]) g) by (rewrite len_app; reflexivity). reflexivity.
Qed.

(** ** Signatures *)
Definition texts (jwk : jv) : Prop :=
  forall name v, In name [bs "k"; bs "n"; bs "e"; bs "x"; bs "y"] -> member jwk name = Some v -> exists s, v = JStr s /\ len s < 2 ^ 51.

Lemma hs_ok h jwk msg sg : texts jwk -> member jwk (bs "k") <> None -> bytesP msg -> len msg < 2 ^ 51 - 128 ->
  (verify_hmac h msg jwk sg = true <-> gen (HS h) jwk msg sg).
Proof using Type.
  clear from_text in_range dbl_int to_text.
  intros T K Hm Lm. unfold verify_hmac, digest_hmac, sub_of, genuine, text_member.
  destruct (member jwk (bs "k")) as [v|] eqn:E; [|contradiction].
  destruct (T (bs "k") v) as (s & -> & Ls); [now left|exact E|]. cbn [asStr].
  pose proof (decode_len s).
  rewrite mac_spec; [|assumption|apply decode_bytes|assumption|lia].
  rewrite base64_is_rfc4648 by apply hmac_bytes.
  rewrite beqb_eq. split.
  - intros <-. exists s. split; reflexivity.
  - intros (k & Ek & ->). injection Ek as <-. reflexivity.
Qed.
Lemma rs_ok pss h jwk msg sg b : texts jwk -> bytesP msg -> len msg < 2 ^ 51 - 128 ->
  verify_rsa rsa_key rsa_sig to_text pss h msg jwk sg = Some b -> (b = true <-> gen (RS pss h) jwk msg sg).
Proof using Type.
  clear from_text in_range dbl_int.
  intros T Hm Lm. unfold verify_rsa, genuine, text_member.
  destruct (member jwk (bs "n")) as [vn|] eqn:En; [|intros H; injection H as <-; split; [discriminate|intros (n & e & Q & _); discriminate Q]].
  destruct (member jwk (bs "e")) as [ve|] eqn:Ee; [|intros H; injection H as <-; split; [discriminate|intros (n & e & _ & Q & _); discriminate Q]].
  destruct (T (bs "n") vn) as (n & -> & _); [cbn; tauto|exact En|]. destruct (T (bs "e") ve) as (e & -> & _); [cbn; tauto|exact Ee|].
  cbn [asString]. rewrite shabin_spec by (assumption || lia).
  destruct (rsa_key (b64_decode n) (b64_decode e)) eqn:RK; cbn [negb].
  - destruct (_ <? _); [discriminate|]. intros H. injection H as <-. split.
    + intros V. exists n, e. repeat split; assumption.
    + intros (n' & e' & Qn & Qe & _ & V). injection Qn as <-. injection Qe as <-. exact V.
  - intros H. injection H as <-. split; [discriminate|]. intros (n' & e' & Qn & Qe & V & _). injection Qn as <-. injection Qe as <-. congruence.
Qed.
Lemma es_ok h jwk msg sg b : texts jwk -> bytesP msg -> len msg < 2 ^ 51 - 128 ->
  verify_ecdsa ec_key ec_sig to_text h msg jwk sg = Some b -> (b = true <-> gen (ES h) jwk msg sg).
Proof using Type.
  clear from_text in_range dbl_int.
  intros T Hm Lm. unfold verify_ecdsa, genuine, text_member.
  destruct (member jwk (bs "crv")) as [vc|] eqn:Ec; [|intros H; injection H as <-; split; [discriminate|intros (c & x & y & r & s & z & Q & _); discriminate Q]].
  destruct (member jwk (bs "x")) as [vx|] eqn:Ex; [|intros H; injection H as <-; split; [discriminate|intros (c & x & y & r & s & z & _ & Q & _); discriminate Q]].
  destruct (member jwk (bs "y")) as [vy|] eqn:Ey; [|intros H; injection H as <-; split; [discriminate|intros (c & x & y & r & s & z & _ & _ & Q & _); discriminate Q]].
  destruct (T (bs "x") vx) as (x & -> & _); [cbn; tauto|exact Ex|]. destruct (T (bs "y") vy) as (y & -> & _); [cbn; tauto|exact Ey|].
  cbn [asString]. rewrite shabin_spec by (assumption || lia).
  assert (HB : 0 <= ec_half h) by (destruct h; cbn; lia).
  destruct (Z.ltb_spec (len (b64_decode sg)) (2 * ec_half h)) as [L|L]; [discriminate|].
  set (half := ec_half h) in *. set (d := b64_decode sg) in *.
  destruct (ec_key half ([4] ++ b64_decode x ++ b64_decode y)) eqn:EK; cbn [negb]; intros H; injection H as <-; split.
  - intros V. exists vc, x, y, (takez half d), (takez half (dropz half d)), (dropz half (dropz half d)).
    repeat split; try assumption.
    + now rewrite !takez_dropz.
    + apply len_takez. lia.
    + apply len_takez. rewrite len_dropz by lia. lia.
  - intros (c & x' & y' & r & s & z & _ & Qx & Qy & D & Lr & Ls & _ & V). injection Qx as <-. injection Qy as <-.
    rewrite D, takez_app_exact, dropz_app_exact, takez_app_exact by congruence. exact V.
  - discriminate.
  - intros (c & x' & y' & r & s & z & _ & Qx & Qy & D & Lr & Ls & V & _). injection Qx as <-. injection Qy as <-. congruence.
Qed.

Lemma verify_ok name a jwk msg sg b : In (name, a) algorithms -> texts jwk -> (type_for a = bs "oct" -> member jwk (bs "k") <> None) ->
  bytesP msg -> len msg < 2 ^ 51 - 128 -> vrf msg jwk sg name = Some b -> (b = true <-> gen a jwk msg sg).
Proof using Type.
  clear from_text in_range dbl_int.
  intros I T K Hm Lm V.
  cbn [algorithms In] in I.
  repeat (destruct I as [I|I]; [injection I as <- <-;
    match type of V with verify _ _ _ _ _ _ _ _ ?n = _ => unfold verify in V; repeat match type of V with context [beqb n ?m] => let x := eval vm_compute in (beqb n m) in change (beqb n m) with x in V; cbv iota in V end end;
    first [ injection V as <-; apply hs_ok; try assumption; apply K; reflexivity | now apply rs_ok | now apply es_ok ] |]).
  destruct I.
Qed.
Lemma verify_other name jwk msg sg : (forall a, ~ In (name, a) algorithms) -> vrf msg jwk sg name = Some false.
Proof using Type.
  clear from_text in_range dbl_int.
  intros N. unfold verify.
  repeat match goal with |- context [beqb name ?m] => let E := fresh in destruct (beqb name m) eqn:E;
    [exfalso; apply beqb_eq in E; subst name; eapply N; cbn [algorithms In]; repeat (first [left; reflexivity | right]) |] end.
  reflexivity.
Qed.

Lemma any_key_ok keys aty perms t alg b : any_key rsa_key rsa_sig ec_key ec_sig to_text keys aty perms t alg = Some b ->
  (b = true <-> exists k, In k keys /\ (match k_ty k with c :: _ => c =? aty | [] => 0 =? aty end) = true /\
     matchKeyPerms k (subject t) perms = true /\ vrf (sin t) (k_jwk k) (sig t) alg = Some true) /\
  (b = false -> forall k, In k keys -> (match k_ty k with c :: _ => c =? aty | [] => 0 =? aty end) = true ->
     matchKeyPerms k (subject t) perms = true -> vrf (sin t) (k_jwk k) (sig t) alg = Some false).
Proof using Type.
  clear from_text in_range dbl_int.
  induction keys as [|k r IH]; cbn [any_key].
  - intros H. injection H as <-. split; [split; [discriminate|intros (k & [] & _)] | intros _ k []].
  - set (ty := match k_ty k with c :: _ => c =? aty | [] => 0 =? aty end).
    assert (Skip : (ty = false \/ matchKeyPerms k (subject t) perms = false \/ vrf (sin t) (k_jwk k) (sig t) alg = Some false) ->
      any_key rsa_key rsa_sig ec_key ec_sig to_text r aty perms t alg = Some b ->
      (b = true <-> exists k0, In k0 (k :: r) /\ (match k_ty k0 with c :: _ => c =? aty | [] => 0 =? aty end) = true /\
       matchKeyPerms k0 (subject t) perms = true /\ vrf (sin t) (k_jwk k0) (sig t) alg = Some true) /\
      (b = false -> forall k0, In k0 (k :: r) -> (match k_ty k0 with c :: _ => c =? aty | [] => 0 =? aty end) = true ->
       matchKeyPerms k0 (subject t) perms = true -> vrf (sin t) (k_jwk k0) (sig t) alg = Some false)).
    { intros W H. destruct (IH H) as [A B]. split.
      - rewrite A. split.
        + intros (k0 & I & Q). exists k0. split; [now right|exact Q].
        + intros (k0 & [<-|I] & Q1 & Q2 & Q3); [fold ty in Q1; destruct W as [W|[W|W]]; congruence | exists k0; repeat split; assumption].
      - intros E k0 [<-|I] Q1 Q2; [fold ty in Q1; destruct W as [W|[W|W]]; congruence | now apply B]. }
    destruct ty eqn:Ety; cbn [negb]; [|apply Skip; now left].
    destruct (matchKeyPerms k (subject t) perms) eqn:Em; cbn [negb]; [|apply Skip; right; now left].
    destruct (vrf (sin t) (k_jwk k) (sig t) alg) as [[|]|] eqn:Ev; [|apply Skip; right; now right|discriminate].
    intros H. injection H as <-. split; [split; [intros _|reflexivity] | discriminate].
    exists k. repeat split; try assumption. now left.
Qed.

Lemma type_first name a : In (name, a) algorithms -> exists c rest, type_for a = c :: rest /\ alg_type name = Some c.
Proof using Type.
  clear from_text in_range dbl_int.
  intros I. cbn [algorithms In] in I.
  repeat (destruct I as [I|I]; [injection I as <- <-; cbn [type_for]; eexists; eexists; split; vm_compute; reflexivity|]). destruct I.
Qed.
Lemma type_of_first k a name : In (k_ty k) [bs "oct"; bs "RSA"; bs "EC"] -> In (name, a) algorithms ->
  forall c, alg_type name = Some c -> (match k_ty k with x :: _ => x =? c | [] => 0 =? c end = true <-> k_ty k = type_for a).
Proof using Type.
  clear from_text in_range dbl_int to_text rsa_key rsa_sig ec_key ec_sig.
  intros K I c C. destruct (type_first name a I) as (c' & rest & T & C'). rewrite C in C'. injection C' as <-. split.
  - intros E. assert (X : type_for a = bs "oct" \/ type_for a = bs "RSA" \/ type_for a = bs "EC") by (destruct a; tauto).
    cbn [In] in K. destruct K as [K|[K|[K|[]]]]; rewrite <- K in *; cbv [bs] in *; cbn in *; destruct X as [X|[X|X]]; rewrite X in *; try reflexivity;
      injection T as <- _; cbn in E; discriminate E.
  - intros ->. rewrite T. apply Z.eqb_refl.
Qed.

Theorem signature_ok keys perms t b : Forall proper_key keys -> starless (subject t) ->
  (forall k p, In k keys -> In p (k_streams k) -> fits p (subject t)) -> algorithm_fits keys t ->
  bytesP (sin t) -> len (sin t) < 2 ^ 51 - 128 ->
  validateSignature rsa_key rsa_sig ec_key ec_sig to_text keys perms t = Some b ->
  (b = true <-> authentic rsa_key rsa_sig ec_key ec_sig keys perms t).
Proof using Type.
  clear from_text in_range dbl_int.
  intros PK S F AF Hm Lm V. rewrite Forall_forall in PK.
  set (alg := asStr (sub_of (hdr t) (bs "alg"))) in *.
  (* one key *)
  assert (One : forall k b', In k keys -> (forall a, In (alg, a) algorithms -> k_ty k = type_for a) ->
     (sub_of (hdr t) (bs "alg") <> JStr alg -> alg = []) ->
     vrf (sin t) (k_jwk k) (sig t) alg = Some b' -> (b' = true <-> signed_with rsa_key rsa_sig ec_key ec_sig k t)).
  { intros k b' I TY NA Vk. destruct (PK k I) as (P1 & P2 & P3 & P4).
    assert (D : (exists a, In (alg, a) algorithms) \/ forall a, ~ In (alg, a) algorithms).
    { destruct (existsb (fun e => beqb (fst e) alg) algorithms) eqn:X.
      - left. apply existsb_exists in X. destruct X as ([n a] & X & Y). apply beqb_eq in Y. cbn in Y. subst n. now exists a.
      - right. intros a Ia. rewrite <- not_true_iff_false in X. apply X, existsb_exists. exists (alg, a). split; [exact Ia|apply beqb_refl]. }
    destruct D as [[a Ia]|N].
    - rewrite (verify_ok alg a (k_jwk k) (sin t) (sig t) b'); try assumption; [|intros Eo; apply P4; rewrite (TY a Ia); exact Eo].
      split.
      + intros G. exists alg, a. repeat split; auto. unfold alg in *. destruct (sub_of (hdr t) (bs "alg")); cbn [asStr] in *; try reflexivity;
          exfalso; clear - Ia; cbn in Ia; repeat (destruct Ia as [Ia|Ia]; [discriminate Ia|]); exact Ia.
      + intros (n & a' & E & Ia' & Ty & G). unfold alg in *. rewrite E in Ia, TY. cbn [asStr] in Ia, TY.
        assert (a = a') as ->; [|exact G].
        clear - Ia Ia'. cbn [algorithms In] in Ia, Ia'.
        repeat (destruct Ia as [Ia|Ia]; [injection Ia as <- <-; repeat (destruct Ia' as [Ia'|Ia']; [try discriminate Ia'; now injection Ia'|]); destruct Ia'|]); destruct Ia.
    - rewrite (verify_other alg) in Vk by exact N. injection Vk as <-. split; [discriminate|].
      intros (n & a' & E & Ia' & _). unfold alg in N. rewrite E in N. exfalso. exact (N a' Ia'). }
  assert (NA : sub_of (hdr t) (bs "alg") <> JStr alg -> alg = []).
  { intros X. unfold alg in *. destruct (sub_of (hdr t) (bs "alg")); try reflexivity. now elim X. }
  assert (GS : forall k, In k keys -> (matchKeyPerms k (subject t) perms = true <-> grants k perms (subject t))).
  { intros k I. split; [|apply grants_complete]. apply grants_sound; [exact S|now apply PK|intros p Ip; exact (F k p I Ip)]. }
  (* any key *)
  assert (Any : find (fun k => negb (len (kid t) =? 0) && beqb (kid t) (k_id k)) keys = None ->
     verify_any rsa_key rsa_sig ec_key ec_sig to_text keys perms t alg = Some b -> (b = true <-> authentic rsa_key rsa_sig ec_key ec_sig keys perms t)).
  { intros FN VA. unfold authentic, candidate. rewrite FN. unfold verify_any in VA.
    destruct (alg_type alg) as [c|] eqn:AT.
    - destruct (any_key_ok _ _ _ _ _ _ VA) as [A B]. destruct b.
      + split; [intros _|reflexivity]. destruct (proj1 A eq_refl) as (k & I & TK & MK & VK). exists k. split; [exact I|]. split; [now apply GS|].
        apply (One k true); try assumption; [|reflexivity]. intros a Ia. apply (type_of_first k a alg) in TK; try assumption. now apply PK.
      + split; [discriminate|]. intros (k & I & G & SW). exfalso.
        pose proof SW as (n & a & E & Ia & Ty & _). assert (n = alg) by (unfold alg; rewrite E; reflexivity). subst n.
        assert (TK := proj2 (type_of_first k a alg (proj1 (PK k I)) Ia c AT) Ty).
        pose proof (B eq_refl k I TK (proj2 (GS k I) G)) as VF.
        assert (false = true) as X; [|discriminate X]. apply (One k false); try assumption.
        intros a' Ia'. apply (type_of_first k a' alg) with (c := c); try assumption. now apply PK.
    - injection VA as <-. split; [discriminate|]. intros (k & I & G & n & a & E & Ia & _). exfalso.
      destruct (type_first n a Ia) as (c & rest & _ & C). unfold alg in AT. rewrite E in AT. cbn [asStr] in AT. congruence. }
  unfold validateSignature in V. fold alg in V.
  destruct (kid t) as [|c id] eqn:EK.
  - apply Any; [|exact V]. change (len (@nil Z) =? 0) with true. cbn [negb andb]. clear. induction keys; [reflexivity|exact IHkeys].
  - assert (L0 : (len (c :: id) =? 0) = false) by (apply Z.eqb_neq; rewrite len_cons; pose proof (len_nonneg id); lia).
    assert (FE : find (fun k => negb (len (c :: id) =? 0) && beqb (c :: id) (k_id k)) keys = find (fun k => beqb (c :: id) (k_id k)) keys) by (rewrite L0; reflexivity).
    destruct (find (fun k => beqb (c :: id) (k_id k)) keys) as [k|] eqn:FK.
    + pose proof (find_some _ _ FK) as [I _]. unfold authentic, candidate. rewrite EK, FE.
      destruct (matchKeyPerms k (subject t) perms) eqn:MK.
      * assert (TY : forall a, In (alg, a) algorithms -> k_ty k = type_for a).
        { intros a Ia. apply (AF k alg a); [rewrite EK; exact FE| |exact Ia]. unfold alg in *. destruct (sub_of (hdr t) (bs "alg")); cbn [asStr] in *; try reflexivity;
          exfalso; clear - Ia; cbn in Ia; repeat (destruct Ia as [Ia|Ia]; [discriminate Ia|]); exact Ia. }
        rewrite (One k b I TY NA V). split.
        -- intros SW. exists k. split; [reflexivity|]. split; [now apply GS|exact SW].
        -- intros (k' & -> & _ & SW). exact SW.
      * injection V as <-. split; [discriminate|]. intros (k' & -> & G & _). apply GS in G; [congruence|exact I].
    + apply Any; [exact FE|exact V].
Qed.
End World.
