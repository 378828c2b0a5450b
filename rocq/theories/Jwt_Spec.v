(** What the users of tokens rely on: RFC 7515 (signatures), RFC 7519 (claims), and the streams of a key. *)
From Verif Require Import Common JsonVal_Model Encode_Model Encode_Spec Hash_Model Hash_Spec Jwt_Model.

Definition starless (s : list Z) : Prop := ~ In 42 s.
(** A pattern with at most one star: the star stands for any text. *)
Definition globs (p a : list Z) : Prop :=
  (starless p /\ a = p) \/ exists u v m, starless u /\ starless v /\ p = u ++ [42] ++ v /\ a = u ++ m ++ v.
Definition one_star (p : list Z) : Prop := starless p \/ exists u v, starless u /\ starless v /\ p = u ++ [42] ++ v.
(** The fixed parts of the pattern fit into the text. *)
Definition fits (p a : list Z) : Prop := one_star p /\ (In 42 p -> len p <= len a + 1).

(** A key gives its permissions, for the streams of its patterns. *)
Definition grants (k : skey) (perms : Z) (name : list Z) : Prop :=
  (forall i, 0 <= i -> Z.testbit perms i = true -> Z.testbit (k_perms k) i = true) /\ exists p, In p (k_streams k) /\ globs p name.

Inductive algo := HS (a : sha) | RS (pss : bool) (a : sha) | ES (a : sha).
Definition algorithms : list (list Z * algo) :=
  [ (bs "HS256", HS SHA256); (bs "HS384", HS SHA384); (bs "HS512", HS SHA512); (bs "RS256", RS false SHA256); (bs "RS384", RS false SHA384);
    (bs "RS512", RS false SHA512); (bs "ES256", ES SHA256); (bs "ES384", ES SHA384); (bs "ES512", ES SHA512); (bs "PS256", RS true SHA256);
    (bs "PS384", RS true SHA384); (bs "PS512", RS true SHA512) ].
(** RFC 7518: which keys an algorithm uses. *)
Definition type_for (a : algo) : list Z := match a with HS _ => bs "oct" | RS _ _ => bs "RSA" | ES _ => bs "EC" end.

(** FIPS 180-4, with the block sizes for RFC 2104. *)
Definition digest (h : sha) : list Z -> list Z := match h with SHA256 => sha256_spec | SHA384 => sha384_spec | SHA512 => sha512_spec end.
Definition block_size (h : sha) : nat := match h with SHA256 => 64 | _ => 128 end.

Section Genuine.
Variable rsa_key : list Z -> list Z -> bool.
Variable rsa_sig : bool -> sha -> list Z -> list Z -> list Z -> list Z -> bool.
Variable ec_key : Z -> list Z -> bool.
Variable ec_sig : Z -> list Z -> list Z -> list Z -> list Z -> bool.

Definition text_member (jwk : jv) (name s : list Z) : Prop := member jwk name = Some (JStr s).
(** The signature [sg] of [msg] is one that the holder of the key makes. *)
Definition genuine (a : algo) (jwk : jv) (msg sg : list Z) : Prop :=
  match a with
  | HS h => exists k, text_member jwk (bs "k") k /\ sg = rfc4648 true (hmac_spec (digest h) (block_size h) (b64_decode k) msg)
  | RS pss h => exists n e, text_member jwk (bs "n") n /\ text_member jwk (bs "e") e /\
      rsa_key (b64_decode n) (b64_decode e) = true /\
      rsa_sig pss h (b64_decode n) (b64_decode e) (digest h msg)
        (takez (len (mpi (b64_decode n))) (b64_decode sg)) = true
  | ES h => exists c x y r s z, member jwk (bs "crv") = Some c /\ text_member jwk (bs "x") x /\ text_member jwk (bs "y") y /\
      b64_decode sg = r ++ s ++ z /\ len r = ec_half h /\ len s = ec_half h /\
      let pk := [4] ++ b64_decode x ++ b64_decode y in
      ec_key (ec_half h) pk = true /\ ec_sig (ec_half h) (digest h msg) pk r s = true
  end.
(** The token is signed with a key of the right type. *)
Definition signed_with (k : skey) (t : jws) : Prop :=
  exists name a, sub_of (hdr t) (bs "alg") = JStr name /\ In (name, a) algorithms /\ k_ty k = type_for a /\ genuine a (k_jwk k) (sin t) (sig t).
(** The key with the id that the token names, or else any. *)
Definition candidate (keys : list skey) (t : jws) (k : skey) : Prop :=
  match find (fun k => negb (len (kid t) =? 0) && beqb (kid t) (k_id k)) keys with Some k' => k = k' | None => In k keys end.
Definition authentic (keys : list skey) (perms : Z) (t : jws) : Prop :=
  exists k, candidate keys t k /\ grants k perms (subject t) /\ signed_with k t.
End Genuine.

(** RFC 7519 4.1.4 and 4.1.5: not before nbf, and before exp. *)
Definition timely (now : Z) (t : jws) : Prop :=
  (forall n, member (pld t) (bs "nbf") = Some (JInt n) -> n <= now) /\ (forall n, member (pld t) (bs "exp") = Some (JInt n) -> now < n).
(** A key that the operator configured as RFC 7517 says: one of the three types, the parameters are texts, and a symmetric key has
    its secret. *)
Definition proper_key (k : skey) : Prop :=
  In (k_ty k) [bs "oct"; bs "RSA"; bs "EC"] /\ k_streams k <> [] /\
  (forall name v, In name [bs "k"; bs "n"; bs "e"; bs "x"; bs "y"] -> member (k_jwk k) name = Some v -> exists s, v = JStr s /\ len s < 2 ^ 51) /\
  (k_ty k = bs "oct" -> member (k_jwk k) (bs "k") <> None).
(** The key that the token names, if there is one, is a key for the algorithm of the token. *)
Definition algorithm_fits (keys : list skey) (t : jws) : Prop :=
  forall k name a, find (fun k => negb (len (kid t) =? 0) && beqb (kid t) (k_id k)) keys = Some k ->
    sub_of (hdr t) (bs "alg") = JStr name -> In (name, a) algorithms -> k_ty k = type_for a.
(** RFC 7515 7.1: the compact form of a token with the header [h], the payload [p] (both JSON texts) and the signature [g]. *)
Definition signing_input (h p : list Z) : list Z := rfc4648 true h ++ [46] ++ rfc4648 true p.
Definition compact (h p g : list Z) : list Z := signing_input h p ++ [46] ++ rfc4648 true g.
(** What the holder of a secret makes. *)
Definition hs_name (h : sha) : list Z := match h with SHA256 => bs "HS256" | SHA384 => bs "HS384" | SHA512 => bs "HS512" end.
Definition issue (a : sha) (secret h p : list Z) : list Z := compact h p (hmac_spec (digest a) (block_size a) secret (signing_input h p)).
(** Claims of the types that RFC 7519 gives them. *)
Definition typed_claims (p : jv) : Prop :=
  (forall v, member p (bs "ipa") = Some v -> exists r, v = JStr r) /\
  (forall v, member p (bs "nbf") = Some v -> exists n, v = JInt n /\ 0 <= n < 2 ^ 63) /\
  (forall v, member p (bs "exp") = Some v -> exists n, v = JInt n /\ 0 <= n < 2 ^ 63).
