(** C58: access tokens. *)
From Verif Require Import Common CommonFacts CommonMore JsonVal_Model Encode_Model Encode_Spec Encode_Proofs Encode_Props Hash_Model Hash_Spec Hash_Props Jwt_Model Jwt_Spec Jwt_Proofs.

(** A name that matches a pattern is let through; and only those, if neither the name has a star nor the fixed parts of the pattern are
    longer than the name. *)
Theorem jwt_pattern_complete p a : globs p a -> equalsWithWildcard a p = true.
Proof. apply wildcard_complete. Qed.
Theorem jwt_pattern_partial p a : starless a -> fits p a -> (equalsWithWildcard a p = true <-> globs p a).
Proof. intros S F. split; [now apply wildcard_sound | apply wildcard_complete]. Qed.
(** Otherwise more is let through: [foo*] lets [f] through, [ab*ba] lets [aba] through. *)
Theorem jwt_pattern_refuted :
  (equalsWithWildcard (bs "f") (bs "foo*") = true /\ ~ globs (bs "foo*") (bs "f")) /\
  (equalsWithWildcard (bs "aba") (bs "ab*ba") = true /\ ~ globs (bs "ab*ba") (bs "aba")).
Proof.
  assert (G : forall p a, In 42 p -> len a + 1 < len p -> ~ globs p a).
  { intros p a I L [[N _]|(u & v & m & _ & _ & -> & ->)]; [now apply N|]. rewrite star_len in L. rewrite !len_app in L. pose proof (len_nonneg m). lia. }
  repeat split; try (vm_compute; reflexivity); apply G; try (vm_compute; reflexivity); vm_compute; tauto.
Qed.

(** A text is taken for a token exactly if it has three parts in base64url. *)
Theorem jwt_form_partial s : Forall (fun c => 0 <= c < 128) s ->
  (isJWS s = true <-> exists h p g, s = h ++ [46] ++ p ++ [46] ++ g /\ Forall (b64_alpha true) h /\ Forall (b64_alpha true) p /\ Forall (b64_alpha true) g).
Proof. apply isJWS_form. Qed.
(** Bytes that are not ASCII are let through. *)
Theorem jwt_form_refuted : exists s, isJWS s = true /\ In 200 s /\ ~ b64_alpha true 200 /\ 200 <> 46.
Proof. exists [200; 46; 46]. repeat split; [vm_compute; tauto | unfold b64_alpha; lia | lia]. Qed.

(** What is stored of a key: its name, type, permissions and patterns, and the parameters of its type. *)
Theorem jwt_stored_partial jwk streams perms k : store_key jwk streams perms = Some k ->
  asStr (sub_of jwk (bs "kid")) = k_id k /\ asStr (sub_of jwk (bs "kty")) = k_ty k /\ k_perms k = perms /\
  (streams <> [] -> k_streams k = streams) /\ (streams = [] -> forall name, exists p, In p (k_streams k) /\ globs p name) /\
  (k_ty k = bs "oct" -> member (k_jwk k) (bs "k") = member jwk (bs "k")) /\
  (k_ty k = bs "RSA" -> member (k_jwk k) (bs "n") = member jwk (bs "n") /\ member (k_jwk k) (bs "e") = member jwk (bs "e") /\ member (k_jwk k) (bs "k") = None) /\
  (k_ty k = bs "EC" -> (forall c, In c [bs "crv"; bs "x"; bs "y"] -> member (k_jwk k) c = member jwk c) /\ member (k_jwk k) (bs "k") = None).
Proof.
  unfold store_key. destruct (member jwk (bs "kty")) as [ty|] eqn:ET; [|discriminate]. destruct (member jwk (bs "kid")) as [id|] eqn:EI; [|discriminate].
  destruct (asStr ty) as [|c rest] eqn:ES; [discriminate|]. intros H. injection H as <-. cbn [k_id k_ty k_perms k_streams k_jwk].
  unfold sub_of. rewrite ET, EI. rewrite ES.
  assert (KM : forall names x, existsb (beqb x) names = true -> member (keep names jwk) x = member jwk x).
  { intros names x X. unfold keep, member. destruct jwk as [| | | | | | |l]; try reflexivity. clear - X.
    induction l as [|[k v] r IH]; cbn [filter oget]; [reflexivity|]. cbn [fst].
    destruct (existsb (beqb k) names) eqn:Ek; cbn [oget].
    - now rewrite IH.
    - destruct (beqb x k) eqn:E; [apply beqb_eq in E; subst; congruence|]. exact IH. }
  assert (KN : forall names x, existsb (beqb x) names = false -> member (keep names jwk) x = None).
  { intros names x X. unfold keep, member. destruct jwk as [| | | | | | |l]; try discriminate ET. clear - X.
    induction l as [|[k v] r IH]; cbn [filter oget]; [reflexivity|]. cbn [fst].
    destruct (existsb (beqb k) names) eqn:Ek; cbn [oget]; [|exact IH].
    destruct (beqb x k) eqn:E; [apply beqb_eq in E; subst; congruence|]. exact IH. }
  split; [reflexivity|]. split; [reflexivity|]. split; [reflexivity|].
  split. { intros N. destruct streams; [contradiction|reflexivity]. }
  split. { intros -> name. exists (bs "*"). split; [now left|]. right. exists [], [], name. repeat split; try (intros []). cbn. now rewrite app_nil_r. }
  split. { intros E. injection E as -> _. apply KM. vm_compute. reflexivity. }
  split. { intros E. injection E as -> _. repeat split; [apply KM; vm_compute; reflexivity | apply KM; vm_compute; reflexivity | apply KN; vm_compute; reflexivity]. }
  intros E. injection E as -> _. split; [|apply KN; vm_compute; reflexivity].
  intros c I. apply KM. cbn [In] in I. destruct I as [<-|[<-|[<-|[]]]]; vm_compute; reflexivity.
Qed.
(** A key that the operator gives no name crashes the controller: the missing member is read. *)
Theorem jwt_stored_refuted : exists jwk, member jwk (bs "kty") = Some (JStr (bs "oct")) /\ member jwk (bs "k") = Some (JStr (bs "c2VjcmV0")) /\
  forall streams perms, store_key jwk streams perms = None.
Proof. exists (JObj [(bs "k", JStr (bs "c2VjcmV0")); (bs "kty", JStr (bs "oct"))]). repeat split. Qed.

Section World.
Variable from_text : list Z -> jv.
Variable rsa_key : list Z -> list Z -> bool.
Variable rsa_sig : bool -> sha -> list Z -> list Z -> list Z -> list Z -> bool.
Variable ec_key : Z -> list Z -> bool.
Variable ec_sig : Z -> list Z -> list Z -> list Z -> list Z -> bool.
Variable dbl_int : Z -> Z.
Variable in_range : list Z -> list Z -> bool.
Variable to_text : jv -> list Z.
Notation validate := (validateSignature rsa_key rsa_sig ec_key ec_sig to_text).
Notation auth := (authentic rsa_key rsa_sig ec_key ec_sig).
Notation viewer := (viewer_token from_text rsa_key rsa_sig ec_key ec_sig dbl_int in_range to_text).
Notation push := (push_token from_text rsa_key rsa_sig ec_key ec_sig dbl_int in_range to_text).
Notation claims_ok := (checkClaims dbl_int in_range to_text).

(** The signature is accepted exactly if a key that grants the permission for the subject made it. *)
Theorem jwt_signature_partial keys perms t b : Forall proper_key keys -> starless (subject t) ->
  (forall k p, In k keys -> In p (k_streams k) -> fits p (subject t)) -> algorithm_fits keys t ->
  bytesP (sin t) -> len (sin t) < 2 ^ 51 - 128 ->
  validate keys perms t = Some b -> (b = true <-> auth keys perms t).
Proof using Type. exact (signature_ok rsa_key rsa_sig ec_key ec_sig to_text keys perms t b). Qed.

(** If the token names a key that is not symmetric and asks for HMAC, everybody can sign it: with the empty secret. *)
Theorem jwt_forged_refuted keys perms t k h :
  kid t <> [] -> find (fun k => beqb (kid t) (k_id k)) keys = Some k -> k_ty k <> bs "oct" -> member (k_jwk k) (bs "k") = None ->
  grants k perms (subject t) -> bytesP (sin t) -> len (sin t) < 2 ^ 51 - 128 ->
  sub_of (hdr t) (bs "alg") = JStr (hs_name h) ->
  sig t = rfc4648 true (hmac_spec (digest h) (block_size h) [] (sin t)) ->
  validate keys perms t = Some true /\ ~ auth keys perms t.
Proof using Type. clear from_text dbl_int in_range.
  intros Nk F Ty NK G Hm Lm A S. unfold validateSignature. rewrite A. cbn [asStr].
  assert (L0 : (len (kid t) =? 0) = false).
  { apply Z.eqb_neq. intros E. apply len_zero in E. contradiction. }
  assert (C : forall k', candidate keys t k' -> k' = k).
  { intros k'. unfold candidate. rewrite L0. cbn [negb andb]. rewrite F. tauto. }
  destruct (kid t) as [|c id] eqn:EK; [contradiction|]. rewrite F. rewrite grants_complete by exact G.
  assert (V : verify_hmac h (sin t) (k_jwk k) (sig t) = true).
  { unfold verify_hmac, digest_hmac, sub_of. rewrite NK. cbn [asStr]. change (b64_decode []) with (@nil Z).
    rewrite mac_spec; [|assumption|constructor|assumption|reflexivity]. rewrite base64_is_rfc4648 by apply hmac_bytes. rewrite S. apply beqb_refl. }
  split.
  - destruct h.
    + change (Some (verify_hmac SHA256 (sin t) (k_jwk k) (sig t)) = Some true). now rewrite V.
    + change (Some (verify_hmac SHA384 (sin t) (k_jwk k) (sig t)) = Some true). now rewrite V.
    + change (Some (verify_hmac SHA512 (sin t) (k_jwk k) (sig t)) = Some true). now rewrite V.
  - intros (k' & Ck & _ & n & a & E & I & T & _). apply C in Ck. subst k'. apply Ty. rewrite T.
    rewrite A in E. injection E as <-. cbn [algorithms In] in I.
    destruct h; repeat (destruct I as [I|I]; [try discriminate I; injection I as <-; reflexivity|]); destruct I.
Qed.

(** A signature that is shorter than the modulus or the curve is read past its end. *)
Theorem jwt_short_signature_refuted msg jwk n e sg : member jwk (bs "n") = Some (JStr n) -> member jwk (bs "e") = Some (JStr e) ->
  rsa_key (b64_decode n) (b64_decode e) = true -> len (b64_decode sg) < len (mpi (b64_decode n)) ->
  verify rsa_key rsa_sig ec_key ec_sig to_text msg jwk sg (bs "RS256") = None.
Proof using Type. clear from_text dbl_int in_range.
  intros N E K L. change (verify_rsa rsa_key rsa_sig to_text false SHA256 msg jwk sg = None). unfold verify_rsa. rewrite N, E. cbn [asString].
  rewrite K. cbn [negb]. apply Z.ltb_lt in L. now rewrite L.
Qed.

(** The claims: the subject, the address range, and the times. *)
Lemma claims_exact now t stream host s : member (pld t) (bs "sub") = Some (JStr s) -> typed_claims (pld t) -> member (pld t) (bs "exp") <> Some (JInt now) ->
  (claims_ok now t stream host = true <->
   jws_bool t = true /\ (stream <> [] -> equalsWithWildcard stream s = true) /\
   (forall r, member (pld t) (bs "ipa") = Some (JStr r) -> in_range host r = true) /\ timely now t).
Proof using Type. clear from_text rsa_key rsa_sig ec_key ec_sig.
  intros S (Hi & Hn & He) Hx. unfold checkClaims. rewrite S. cbn [asString].
  rewrite negb_true_iff, !orb_false_iff, !negb_false_iff. unfold timely.
  assert (Z0 : negb (len stream =? 0) && negb (equalsWithWildcard stream s) = false <-> (stream <> [] -> equalsWithWildcard stream s = true)).
  { rewrite andb_false_iff, !negb_false_iff, Z.eqb_eq. split.
    - intros [E|E] N; [apply len_zero in E; contradiction|exact E].
    - intros H. destruct stream; [now left|right; now apply H]. }
  assert (A : (match member (pld t) (bs "ipa") with Some v => negb (in_range host (asString to_text v)) | None => false end) = false <->
    (forall r, member (pld t) (bs "ipa") = Some (JStr r) -> in_range host r = true)).
  { destruct (member (pld t) (bs "ipa")) as [v|]; [|split; [intros _ r Q; discriminate Q|reflexivity]].
    destruct (Hi v eq_refl) as (r & ->). cbn [asString]. rewrite negb_false_iff. split; [intros Q r' E; now injection E as <-|intros Q; now apply Q]. }
  assert (B : (match member (pld t) (bs "nbf") with Some v => now <? u64 (asInt dbl_int v) | None => false end) = false <->
    (forall n, member (pld t) (bs "nbf") = Some (JInt n) -> n <= now)).
  { destruct (member (pld t) (bs "nbf")) as [v|]; [|split; [intros _ r Q; discriminate Q|reflexivity]].
    destruct (Hn v eq_refl) as (n & -> & R). cbn [asInt]. rewrite u64_id by lia. rewrite Z.ltb_ge. split; [intros Q r' E; now injection E as <-|intros Q; now apply Q]. }
  assert (C : (match member (pld t) (bs "exp") with Some v => now >? u64 (asInt dbl_int v) | None => false end) = false <->
    (forall n, member (pld t) (bs "exp") = Some (JInt n) -> now < n)).
  { destruct (member (pld t) (bs "exp")) as [v|]; [|split; [intros _ r Q; discriminate Q|reflexivity]].
    destruct (He v eq_refl) as (n & -> & R). cbn [asInt]. rewrite u64_id by lia. rewrite Z.gtb_ltb, Z.ltb_ge.
    assert (n <> now) by (intros ->; now apply Hx).
    split; [intros Q r' E; injection E as <-; lia|intros Q; specialize (Q n eq_refl); lia]. }
  rewrite Z0, A, B, C. tauto.
Qed.
Theorem jwt_claims_partial now t stream host s : member (pld t) (bs "sub") = Some (JStr s) -> stream <> [] -> starless stream -> fits s stream ->
  typed_claims (pld t) -> member (pld t) (bs "exp") <> Some (JInt now) ->
  (claims_ok now t stream host = true <->
   jws_bool t = true /\ globs s stream /\ (forall r, member (pld t) (bs "ipa") = Some (JStr r) -> in_range host r = true) /\ timely now t).
Proof using Type. clear from_text rsa_key rsa_sig ec_key ec_sig.
  intros S N St F Ty X. rewrite (claims_exact now t stream host s) by assumption. rewrite <- (jwt_pattern_partial s stream St F). tauto.
Qed.
(** A token is still accepted in the second in which it expires; one that expired before 1970 never expires. *)
Theorem jwt_expiry_refuted now t stream host s : 0 <= now < 2 ^ 63 -> jws_bool t = true -> pld t = JObj [(bs "exp", JInt s)] -> s = now \/ - 2 ^ 63 <= s < 0 ->
  claims_ok now t stream host = true /\ ~ timely now t.
Proof using Type. clear from_text rsa_key rsa_sig ec_key ec_sig.
  intros R J P D. unfold checkClaims, timely. rewrite J, P. 
  change (member (JObj [(bs "exp", JInt s)]) (bs "sub")) with (@None jv). change (member (JObj [(bs "exp", JInt s)]) (bs "ipa")) with (@None jv).
  change (member (JObj [(bs "exp", JInt s)]) (bs "nbf")) with (@None jv). change (member (JObj [(bs "exp", JInt s)]) (bs "exp")) with (Some (JInt s)).
  cbn [negb orb asInt]. split.
  - rewrite negb_true_iff, Z.gtb_ltb, Z.ltb_ge. unfold u64. destruct D as [->|D]; [rewrite Z.mod_small; lia|].
    replace (s mod 18446744073709551616) with (s + 18446744073709551616); [lia|]. symmetry. rewrite <- (Z.mod_add s 1) by lia. apply Z.mod_small. lia.
  - intros [_ T]. specialize (T s eq_refl). lia.
Qed.

(** A token in compact form is read as what was written. *)
Theorem jwt_read h p g : bytesP h -> bytesP p -> bytesP g ->
  isJWS (compact h p g) = true /\ jws_of from_text (compact h p g) = mkJws (from_text h) (from_text p) (rfc4648 true g) (signing_input h p).
Proof using Type. clear rsa_key rsa_sig ec_key ec_sig dbl_int in_range to_text.
  intros Hh Hp Hg. pose proof (url_text h Hh) as Th. pose proof (url_text p Hp) as Tp. pose proof (url_text g Hg) as Tg.
  unfold compact, signing_input. rewrite <- !app_assoc. split.
  - apply isJWS_form.
    + assert (K : forall l, Forall (b64_alpha true) l -> Forall (fun c => 0 <= c < 128) l)
        by (intros l F; eapply Forall_impl; [|exact F]; unfold b64_alpha; intros; lia).
      rewrite !Forall_app. repeat split; try (now apply K); constructor; try lia; constructor.
    + exists (rfc4648 true h), (rfc4648 true p), (rfc4648 true g). repeat split; assumption.
  - rewrite jws_of_parts by (now apply alpha_nodot).
    assert (D : forall l, bytesP l -> b64_decode (rfc4648 true l) = l) by (intros l Bl; rewrite <- (base64_is_rfc4648 true l Bl); now apply base64_roundtrip).
    rewrite (D h Hh), (D p Hp). reflexivity.
Qed.

Lemma sig_nonempty a secret h p : rfc4648 true (hmac_spec (digest a) (block_size a) secret (signing_input h p)) <> [].
Proof using Type. clear from_text rsa_key rsa_sig ec_key ec_sig dbl_int in_range to_text.
  intros E. pose proof (hmac_bytes a secret (signing_input h p)) as B.
  assert (L : len (hmac_spec (digest a) (block_size a) secret (signing_input h p)) <> 0).
  { unfold hmac_spec, len. destruct a; cbn [digest]; [rewrite (proj2 (sha256_shape _)) | rewrite (proj2 (sha384_shape _)) | rewrite (proj2 (sha512_shape _))]; discriminate. }
  apply L. rewrite <- (base64_roundtrip true _ B), (base64_is_rfc4648 true _ B), E. reflexivity.
Qed.
Lemma issued_validates keys perms a k h p secret id : bytesP h -> bytesP p -> len (signing_input h p) < 2 ^ 51 - 128 ->
  sub_of (from_text h) (bs "alg") = JStr (hs_name a) -> sub_of (from_text h) (bs "kid") = JStr id -> id <> [] ->
  find (fun k => beqb id (k_id k)) keys = Some k -> member (k_jwk k) (bs "k") = Some (JStr secret) -> len secret < 2 ^ 51 ->
  let t := jws_of from_text (issue a (b64_decode secret) h p) in
  matchKeyPerms k (subject t) perms = true -> jws_bool t = true /\ pld t = from_text p /\ validate keys perms t = Some true.
Proof using Type. clear dbl_int in_range.
  intros Hh Hp L A I Ni F K Ls. unfold issue. destruct (jwt_read h p _ Hh Hp (hmac_bytes a (b64_decode secret) (signing_input h p))) as [_ E].
  rewrite E. clear E. cbv zeta. intros M. split; [|split; [reflexivity|]].
  - unfold jws_bool. cbn [hdr sig]. unfold sub_of in A. destruct (member (from_text h) (bs "alg")) as [v|] eqn:EA; [|discriminate A].
    destruct (from_text h) as [| | | | | | |l]; try discriminate EA. destruct l as [|e l]; [discriminate EA|]. cbn [jsize List.length].
    pose proof (sig_nonempty a (b64_decode secret) h p) as N. destruct (rfc4648 _ _) as [|x y] eqn:R; [now elim N|].
    replace (Z.of_nat (S (List.length l)) =? 0) with false by (symmetry; apply Z.eqb_neq; lia). reflexivity.
  - unfold validateSignature. unfold kid. cbn [hdr sig sin]. rewrite A, I. cbn [asStr]. destruct id as [|c id]; [contradiction|].
    rewrite F, M.
    assert (V : verify_hmac a (signing_input h p) (k_jwk k) (rfc4648 true (hmac_spec (digest a) (block_size a) (b64_decode secret) (signing_input h p))) = true).
    { unfold verify_hmac, digest_hmac, sub_of. rewrite K. cbn [asStr]. pose proof (decode_len secret).
      assert (B : forall l, Forall (b64_alpha true) l -> bytesP l) by (intros l X; eapply Forall_impl; [|exact X]; unfold b64_alpha, byteP; intros; lia).
      rewrite mac_spec; [|unfold signing_input; rewrite !bytesP_app; repeat split; try (apply B, url_text; assumption); repeat constructor; lia|apply decode_bytes|assumption|lia].
      rewrite base64_is_rfc4648 by apply hmac_bytes. apply beqb_refl. }
    destruct a; cbn [hs_name].
    + change (Some (verify_hmac SHA256 (signing_input h p) (k_jwk k) (rfc4648 true (hmac_spec (digest SHA256) (block_size SHA256) (b64_decode secret) (signing_input h p)))) = Some true). now rewrite V.
    + change (Some (verify_hmac SHA384 (signing_input h p) (k_jwk k) (rfc4648 true (hmac_spec (digest SHA384) (block_size SHA384) (b64_decode secret) (signing_input h p)))) = Some true). now rewrite V.
    + change (Some (verify_hmac SHA512 (signing_input h p) (k_jwk k) (rfc4648 true (hmac_spec (digest SHA512) (block_size SHA512) (b64_decode secret) (signing_input h p)))) = Some true). now rewrite V.
Qed.

(** Tokens that the holder of a secret issues open what they say, to viewers and to pushers. *)
Theorem jwt_issued now keys a k h p secret id s host : bytesP h -> bytesP p -> len (signing_input h p) < 2 ^ 51 - 128 ->
  sub_of (from_text h) (bs "alg") = JStr (hs_name a) -> sub_of (from_text h) (bs "kid") = JStr id -> id <> [] ->
  find (fun k => beqb id (k_id k)) keys = Some k -> member (k_jwk k) (bs "k") = Some (JStr secret) -> len secret < 2 ^ 51 ->
  member (from_text p) (bs "sub") = Some (JStr s) -> typed_claims (from_text p) ->
  (forall r, member (from_text p) (bs "ipa") = Some (JStr r) -> in_range host r = true) ->
  (forall t, pld t = from_text p -> timely now t) ->
  (grants k 4 s -> forall stream, stream <> [] -> globs s stream -> viewer now keys (issue a (b64_decode secret) h p) stream host = Some true) /\
  (grants k 2 s -> starless s -> push now keys (issue a (b64_decode secret) h p) host = Some (Some s)).
Proof using Type.
  intros Hh Hp L A I Ni F K Ls S Ty Ip Tm. set (t := jws_of from_text (issue a (b64_decode secret) h p)).
  assert (P0 : pld t = from_text p).
  { unfold t, issue. destruct (jwt_read h p _ Hh Hp (hmac_bytes a (b64_decode secret) (signing_input h p))) as [_ E]. now rewrite E. }
  assert (Sb : subject t = s) by (unfold subject, sub_of; rewrite P0, S; reflexivity).
  assert (X : member (pld t) (bs "exp") <> Some (JInt now)).
  { intros X. destruct (Tm t P0) as [_ T]. specialize (T now X). lia. }
  assert (Cl : forall stream, (stream <> [] -> equalsWithWildcard stream s = true) -> jws_bool t = true -> claims_ok now t stream host = true).
  { intros stream W J. apply (claims_exact now t stream host s); rewrite ?P0; try assumption; [rewrite <- P0; exact X|].
    split; [exact J|]. split; [exact W|]. split; [exact Ip|]. now apply Tm. }
  split.
  - intros G stream N W. destruct (issued_validates keys 4 a k h p secret id Hh Hp L A I Ni F K Ls) as (J & _ & V).
    { fold t. rewrite Sb. now apply grants_complete. }
    fold t in J, V. unfold viewer_token. fold t. rewrite J, Cl by (try exact J; intros _; now apply wildcard_complete). exact V.
  - intros G St. destruct (issued_validates keys 2 a k h p secret id Hh Hp L A I Ni F K Ls) as (J & _ & V).
    { fold t. rewrite Sb. now apply grants_complete. }
    fold t in J, V. unfold push_token. fold t.
    replace (isJWS (issue a (b64_decode secret) h p)) with true
      by (symmetry; unfold issue; apply jwt_read; [assumption|assumption|apply hmac_bytes]).
    cbn [negb]. rewrite J, Cl by (try exact J; intros N; now elim N). rewrite V, Sb. cbn [negb orb].
    replace (hasWildcard t) with false; [reflexivity|]. symmetry. unfold hasWildcard. rewrite P0, S. cbn [asStr].
    apply not_true_iff_false. rewrite existsb_exists. intros (x & Ix & E). apply Z.eqb_eq in E. subst x. contradiction.
Qed.

(** Who gets in. *)
Lemma sin_bytes pkg : bytesP pkg -> bytesP (sin (jws_of from_text pkg)) /\ len (sin (jws_of from_text pkg)) <= 2 * len pkg + 1.
Proof using Type. clear rsa_key rsa_sig ec_key ec_sig dbl_int in_range to_text.
  intros B. unfold jws_of. cbn [sin].
  assert (Q : forall c l, bytesP l -> bytesP (match find_ch c l with Some p => takez p l | None => l end) /\
     len (match find_ch c l with Some p => takez p l | None => l end) <= len l /\
     bytesP (match find_ch c l with Some p => dropz (p + 1) l | None => l end) /\ len (match find_ch c l with Some p => dropz (p + 1) l | None => l end) <= len l).
  { intros c l Hl. destruct (find_ch c l) as [p|] eqn:E; [|repeat split; try assumption; lia].
    destruct (find_ch_some _ _ _ E) as (u & v & -> & _ & ->). repeat split; [now apply bytesP_takez| |now apply bytesP_dropz|].
    - rewrite takez_app_exact by reflexivity. rewrite !len_app. pose proof (len_nonneg v). change (len [c]) with 1. lia.
    - rewrite (app_assoc u [c] v), dropz_app_exact by (rewrite len_app; reflexivity). rewrite !len_app. pose proof (len_nonneg u). change (len [c]) with 1. lia. }
  destruct (Q 46 pkg B) as (Q1 & Q2 & Q3 & Q4). destruct (Q 46 _ Q3) as (Q5 & Q6 & _ & _).
  rewrite !bytesP_app, !len_app. change (len [46]) with 1. repeat split; try assumption; [repeat constructor; lia|lia].
Qed.
Theorem jwt_viewer_partial now keys pkg stream host s b : let t := jws_of from_text pkg in
  bytesP pkg -> len pkg < 2 ^ 49 -> Forall proper_key keys -> algorithm_fits keys t ->
  member (pld t) (bs "sub") = Some (JStr s) -> starless s -> (forall k p, In k keys -> In p (k_streams k) -> fits p s) ->
  stream <> [] -> starless stream -> typed_claims (pld t) -> member (pld t) (bs "exp") <> Some (JInt now) ->
  viewer now keys pkg stream host = Some b ->
  (b = true <-> jws_bool t = true /\ stream = s /\ (forall r, member (pld t) (bs "ipa") = Some (JStr r) -> in_range host r = true) /\ timely now t /\
     exists k, candidate keys t k /\ grants k 4 stream /\ signed_with rsa_key rsa_sig ec_key ec_sig k t).
Proof using Type.
  intros t B L PK AF S Ss Ft N St Ty X V. destruct (sin_bytes pkg B) as [Bs Ls]. fold t in Bs, Ls.
  assert (Sb : subject t = s) by (unfold subject, sub_of; rewrite S; reflexivity).
  assert (Fs : fits s stream) by (split; [now left|intros I; contradiction]).
  assert (GE : globs s stream <-> stream = s).
  { split; [intros [[_ E]|(u & v & m & _ & _ & E & _)]; [exact E|exfalso; apply Ss; rewrite E, !in_app_iff; right; left; now left]|intros ->; left; now split]. }
  pose proof (jwt_claims_partial now t stream host s S N St Fs Ty X) as C. rewrite GE in C.
  unfold viewer_token in V. fold t in V.
  destruct (claims_ok now t stream host) eqn:EC.
  - destruct (proj1 C eq_refl) as (J & E & Ip & Tm). rewrite J in V. cbn [andb] in V.
    rewrite (jwt_signature_partial keys 4 t b); try assumption; [|rewrite Sb; assumption|rewrite Sb; exact Ft|lia].
    unfold authentic. rewrite Sb, <- E. tauto.
  - rewrite andb_false_r in V. injection V as <-. split; [discriminate|]. intros (J & E & Ip & Tm & _). apply C. tauto.
Qed.
Theorem jwt_push_partial now keys pkg host s name : let t := jws_of from_text pkg in
  bytesP pkg -> len pkg < 2 ^ 49 -> Forall proper_key keys -> algorithm_fits keys t ->
  member (pld t) (bs "sub") = Some (JStr s) -> (forall k p, In k keys -> In p (k_streams k) -> fits p s) ->
  typed_claims (pld t) -> member (pld t) (bs "exp") <> Some (JInt now) -> push now keys pkg host <> None ->
  (push now keys pkg host = Some (Some name) <->
     isJWS pkg = true /\ jws_bool t = true /\ name = s /\ starless s /\ (forall r, member (pld t) (bs "ipa") = Some (JStr r) -> in_range host r = true) /\
     timely now t /\ exists k, candidate keys t k /\ grants k 2 name /\ signed_with rsa_key rsa_sig ec_key ec_sig k t).
Proof using Type.
  intros t B L PK AF S Ft Ty X NN. destruct (sin_bytes pkg B) as [Bs Ls]. fold t in Bs, Ls.
  assert (Sb : subject t = s) by (unfold subject, sub_of; rewrite S; reflexivity).
  pose proof (claims_exact now t [] host s S Ty X) as C.
  assert (W : hasWildcard t = false <-> starless s).
  { unfold hasWildcard, starless. rewrite S. cbn [asStr]. rewrite <- not_true_iff_false, existsb_exists. split.
    - intros H I. apply H. exists 42. split; [exact I|reflexivity].
    - intros H (x & I & E). apply Z.eqb_eq in E. subst x. contradiction. }
  unfold push_token in *. fold t in NN |- *.
  destruct (isJWS pkg); [|split; [discriminate|intros (Q & _); discriminate Q]]. cbn [negb] in *.
  destruct (jws_bool t) eqn:J; [|split; [discriminate|intros (_ & Q & _); discriminate Q]]. cbn [negb orb] in *.
  destruct (hasWildcard t); [split; [discriminate|intros (_ & _ & _ & Q & _); apply W in Q; discriminate Q]|]. cbn [orb] in *.
  destruct (claims_ok now t [] host); cbn [negb] in *.
  - destruct (validate keys 2 t) as [b|] eqn:V; [|now elim NN].
    pose proof (jwt_signature_partial keys 2 t b PK) as Q. rewrite Sb in Q. specialize (Q (proj1 W eq_refl) Ft AF Bs ltac:(lia) V).
    destruct (proj1 C eq_refl) as (_ & _ & Ip & Tm). unfold authentic in Q. rewrite Sb in Q |- *. destruct b.
    + destruct (proj1 Q eq_refl) as (k & Q1 & Q2 & Q3). split.
      * intros E. injection E as <-. split; [reflexivity|]. split; [reflexivity|]. split; [reflexivity|]. split; [now apply W|]. split; [exact Ip|]. split; [exact Tm|]. exists k. tauto.
      * intros (_ & _ & -> & _). reflexivity.
    + split; [discriminate|]. intros (_ & _ & -> & _ & _ & _ & k & Q1). exfalso. assert (false = true) by (apply Q; exists k; exact Q1). discriminate.
  - split; [discriminate|]. intros (_ & _ & _ & _ & Ip & Tm & _). exfalso. assert (false = true) as Y; [|discriminate Y]. apply C. repeat split; try assumption; try reflexivity; try apply Tm. intros N. now elim N.
Qed.

(** The streams of a key bind nobody who has the key: with the subject [*], or without any if there is a star in a pattern, its tokens
    open every stream. *)
Theorem jwt_scope_refuted now keys a k h p secret id stream host : bytesP h -> bytesP p -> len (signing_input h p) < 2 ^ 51 - 128 ->
  from_text h = JObj [(bs "alg", JStr (hs_name a)); (bs "kid", JStr id)] -> id <> [] ->
  find (fun k => beqb id (k_id k)) keys = Some k -> member (k_jwk k) (bs "k") = Some (JStr secret) -> len secret < 2 ^ 51 -> k_perms k .& 4 = 4 ->
  from_text p = JObj [(bs "sub", JStr (bs "*"))] \/ (from_text p = JObj [] /\ exists q, In q (k_streams k) /\ In 42 q) ->
  viewer now keys (issue a (b64_decode secret) h p) stream host = Some true.
Proof using Type.
  intros Hh Hp L A Ni F K Ls Pm D. set (t := jws_of from_text (issue a (b64_decode secret) h p)).
  assert (P0 : pld t = from_text p).
  { unfold t, issue. destruct (jwt_read h p _ Hh Hp (hmac_bytes a (b64_decode secret) (signing_input h p))) as [_ E]. now rewrite E. }
  destruct (issued_validates keys 4 a k h p secret id Hh Hp L) as (J & _ & V); try assumption; try (rewrite A; reflexivity).
  { fold t. unfold matchKeyPerms. rewrite Pm, Z.eqb_refl. cbn [negb]. destruct (k_streams k) as [|q0 l] eqn:E; [reflexivity|]. rewrite <- E in *.
    unfold subject, sub_of. rewrite P0. destruct D as [D|[D (q & Iq & Sq)]]; rewrite D.
    - change (asStr match member (JObj [(bs "sub", JStr (bs "*"))]) (bs "sub") with Some x => x | None => JNull end) with (bs "*").
      rewrite E. cbn [existsb]. unfold equalsWithWildcard at 1. rewrite beqb_refl. reflexivity.
    - cbn [member oget asStr]. apply existsb_exists. exists q. split; [exact Iq|]. unfold equalsWithWildcard.
      destruct (beqb [] (bs "*") || beqb q (bs "*")); [reflexivity|]. cbn [find_ch].
      destruct (find_ch 42 q) as [x|] eqn:Q; [|apply find_ch_absent in Q; contradiction].
      destruct (find_ch_some _ _ _ Q) as (u & v & Eq & _ & ->). change (len (@nil Z)) with 0.
      pose proof (len_nonneg u). pose proof (len_nonneg v). assert (len q = len u + 1 + len v) by (rewrite Eq; apply star_len).
      rewrite !Z.min_l by lia. rewrite !takez_0. cbn [beqb negb]. rewrite (dropz_all (len q - 0) q) by lia. reflexivity. }
  fold t in J, V. unfold viewer_token. fold t. rewrite J. cbn [andb].
  replace (claims_ok now t stream host) with true; [exact V|]. symmetry. unfold checkClaims. rewrite J, P0.
  destruct D as [D|[D _]]; rewrite D; cbn [member oget].
  - change (beqb (bs "sub") (bs "sub")) with true. change (beqb (bs "ipa") (bs "sub")) with false.
    change (beqb (bs "nbf") (bs "sub")) with false. change (beqb (bs "exp") (bs "sub")) with false. cbv iota.
    replace (equalsWithWildcard stream (asString to_text (JStr (bs "*")))) with true; [cbn [negb]; now rewrite andb_false_r|].
    symmetry. unfold equalsWithWildcard. cbn [asString]. rewrite beqb_refl, orb_true_r. reflexivity.
  - reflexivity.
Qed.
End World.

(** The hypotheses are met: a key [main] for the streams [live*], and a header and payload for it. *)
Definition header : list Z := bs "{'alg':'HS256','kid':'main'}".
Definition payload : list Z := bs "{'sub':'live','exp':2000}".
Definition reader (s : list Z) : jv :=
  if beqb s header then JObj [(bs "alg", JStr (bs "HS256")); (bs "kid", JStr (bs "main"))] else
  if beqb s payload then JObj [(bs "exp", JInt 2000); (bs "sub", JStr (bs "live"))] else JNull.
Definition main_key : skey := mkKey (bs "main") (bs "oct") (JObj [(bs "k", JStr (bs "c2VjcmV0")); (bs "kid", JStr (bs "main")); (bs "kty", JStr (bs "oct"))]) [bs "live*"] 4.
Definition public_key : skey := mkKey (bs "main") (bs "RSA") (JObj [(bs "e", JStr (bs "AQAB")); (bs "kid", JStr (bs "main")); (bs "kty", JStr (bs "RSA")); (bs "n", JStr (bs "sXch"))]) [bs "live*"] 4.

Lemma no_star (l : list Z) : forallb (fun c => negb (c =? 42)) l = true -> starless l.
Proof. intros H I. rewrite forallb_forall in H. specialize (H 42 I). discriminate H. Qed.
Lemma live_pattern r : globs (bs "live*") (bs "live" ++ r).
Proof. right. exists (bs "live"), [], r. repeat split; try (apply no_star; vm_compute; reflexivity); try (intros []). now rewrite app_nil_r. Qed.
Example pattern_example : starless (bs "live_hd") /\ fits (bs "live*") (bs "live_hd") /\ equalsWithWildcard (bs "live_hd") (bs "live*") = true /\ ~ globs (bs "live*") (bs "lift") .
Proof.
  split; [apply no_star; vm_compute; reflexivity|]. split.
  - split; [right; exists (bs "live"), []; repeat split; try (apply no_star; vm_compute; reflexivity); intros []|intros _; vm_compute; discriminate].
  - split; [vm_compute; reflexivity|]. intros G. apply jwt_pattern_complete in G. vm_compute in G. discriminate G.
Qed.
Example form_example : isJWS (bs "eyJh.eyJz.c2ln") = true /\ isJWS (bs "eyJh.eyJz") = false /\ isJWS (bs "a.b.c.d") = false /\ isJWS (bs "live+x.y.z") = false.
Proof. vm_compute. repeat split. Qed.
Example stored_example : exists k, store_key (JObj [(bs "k", JStr (bs "c2VjcmV0")); (bs "kid", JStr (bs "main")); (bs "kty", JStr (bs "oct"))]) [bs "live*"] 4 = Some k /\ k = main_key.
Proof. eexists. split; [vm_compute; reflexivity|reflexivity]. Qed.
Lemma main_proper : proper_key main_key.
Proof.
  split; [now left|]. split; [discriminate|]. split; [|intros _; discriminate].
  intros name v I M. assert (E : v = JStr (bs "c2VjcmV0")).
  { cbn [In] in I. repeat (destruct I as [<-|I]; [cbn [k_jwk main_key] in M;
      match type of M with ?l = _ => let x := eval vm_compute in l in change l with x in M end; try discriminate M; injection M as <-; reflexivity|]). destruct I. }
  exists (bs "c2VjcmV0"). split; [exact E|]. vm_compute. reflexivity.
Qed.
Example issued_example rsa_key rsa_sig ec_key ec_sig dbl_int in_range to_text :
  viewer_token reader rsa_key rsa_sig ec_key ec_sig dbl_int in_range to_text 1000 [main_key] (issue SHA256 (bs "secret") header payload) (bs "live") [] = Some true.
Proof.
  assert (S0 : bs "secret" = b64_decode (bs "c2VjcmV0")) by (vm_compute; reflexivity). rewrite S0.
  assert (Bh : bytesP header) by (apply all_bytes_ok; vm_compute; reflexivity).
  assert (Bp : bytesP payload) by (apply all_bytes_ok; vm_compute; reflexivity).
  assert (Ls : len (signing_input header payload) < 2 ^ 51 - 128) by (vm_compute; reflexivity).
  assert (Rh : reader header = JObj [(bs "alg", JStr (bs "HS256")); (bs "kid", JStr (bs "main"))]) by (vm_compute; reflexivity).
  assert (Rp : reader payload = JObj [(bs "exp", JInt 2000); (bs "sub", JStr (bs "live"))]) by (vm_compute; reflexivity).
  assert (X : forall r, r = JObj [(bs "exp", JInt 2000); (bs "sub", JStr (bs "live"))] ->
    member r (bs "sub") = Some (JStr (bs "live")) /\ member r (bs "exp") = Some (JInt 2000) /\ member r (bs "nbf") = None /\ member r (bs "ipa") = None)
    by (intros r ->; repeat split).
  destruct (X _ Rp) as (Xs & Xe & Xn & Xi).
  assert (Y : forall r, r = JObj [(bs "alg", JStr (bs "HS256")); (bs "kid", JStr (bs "main"))] ->
    sub_of r (bs "alg") = JStr (bs "HS256") /\ sub_of r (bs "kid") = JStr (bs "main")) by (intros r ->; repeat split).
  destruct (Y _ Rh) as (Ya & Yk).
  assert (Fk : find (fun k => beqb (bs "main") (k_id k)) [main_key] = Some main_key) by (vm_compute; reflexivity).
  assert (Lk : len (bs "c2VjcmV0") < 2 ^ 51) by (vm_compute; reflexivity).
  clear S0 X Y Rh Rp.
  apply (fun a b c d => proj1 (jwt_issued reader rsa_key rsa_sig ec_key ec_sig dbl_int in_range to_text 1000 [main_key] SHA256 main_key header payload (bs "c2VjcmV0") (bs "main") (bs "live") []
    Bh Bp Ls Ya Yk a Fk eq_refl Lk Xs b c d)).
  - discriminate.
  - split; [intros v H; congruence|]. split; intros v H; [congruence|]. rewrite Xe in H. injection H as <-. exists 2000. split; [reflexivity|lia].
  - intros r H. congruence.
  - intros t H. unfold timely. rewrite H, Xn, Xe. split; intros n E; [discriminate E|injection E as <-; lia].
  - split; [vm_compute; intros i _; destruct i as [|p|p]; try tauto|]. exists (bs "live*"). split; [now left|]. exact (live_pattern []).
  - discriminate.
  - left. split; [apply no_star; vm_compute; reflexivity|reflexivity].
Qed.
(** A token that nobody with a key made, and that opens the stream. *)
Example forged_example rsa_key rsa_sig ec_key ec_sig to_text t :
  t = mkJws (reader header) (reader payload) (rfc4648 true (hmac_spec sha256_spec 64 [] (signing_input header payload))) (signing_input header payload) ->
  validateSignature rsa_key rsa_sig ec_key ec_sig to_text [public_key] 4 t = Some true /\ ~ authentic rsa_key rsa_sig ec_key ec_sig [public_key] 4 t.
Proof.
  intros ->. apply (jwt_forged_refuted rsa_key rsa_sig ec_key ec_sig to_text [public_key] 4 _ public_key SHA256); cbn [sin sig hdr].
  - vm_compute. discriminate.
  - vm_compute. reflexivity.
  - discriminate.
  - reflexivity.
  - split; [vm_compute; intros i _; destruct i as [|p|p]; try tauto|]. exists (bs "live*"). split; [now left|].
    replace (subject _) with (bs "live" ++ []) by (vm_compute; reflexivity). apply live_pattern.
  - apply all_bytes_ok. vm_compute. reflexivity.
  - vm_compute. reflexivity.
  - vm_compute. reflexivity.
  - reflexivity.
Qed.

Print Assumptions jwt_pattern_complete.
Print Assumptions jwt_pattern_partial.
Print Assumptions jwt_pattern_refuted.
Print Assumptions jwt_form_partial.
Print Assumptions jwt_form_refuted.
Print Assumptions jwt_stored_partial.
Print Assumptions jwt_stored_refuted.
Print Assumptions jwt_signature_partial.
Print Assumptions jwt_forged_refuted.
Print Assumptions jwt_short_signature_refuted.
Print Assumptions jwt_claims_partial.
Print Assumptions jwt_expiry_refuted.
Print Assumptions jwt_read.
Print Assumptions jwt_issued.
Print Assumptions jwt_viewer_partial.
Print Assumptions jwt_push_partial.
Print Assumptions jwt_scope_refuted.
