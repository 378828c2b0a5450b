(** Model of JSON web tokens, lib/jwt.cpp, and of the places that let somebody in because of one: a viewer (src/session.cpp:266-278)
    and a push (src/output/output.cpp:2893-2903). *)
From Verif Require Import Common JsonVal_Model Encode_Model Hash_Model.

(** std::string::find of one character. *)
Fixpoint find_ch (c : Z) (s : list Z) : option Z :=
  match s with [] => None | x :: r => if x =? c then Some 0 else option_map (Z.add 1) (find_ch c r) end.

(** lib/jwt.cpp:14-24 equalsWithWildcard. *)
Definition equalsWithWildcard (a b : list Z) : bool :=
  if beqb a (bs "*") || beqb b (bs "*") then true else
  match find_ch 42 a, find_ch 42 b with
  | None, None => beqb a b
  | ap, bp =>
      let pre := Z.min (match ap with Some p => p | None => len a end) (match bp with Some p => p | None => len b end) in
      if negb (beqb (takez pre a) (takez pre b)) then false else
      let suf := Z.min (match ap with Some p => len a - p - 1 | None => len a end) (match bp with Some p => len b - p - 1 | None => len b end) in
      beqb (dropz (len a - suf) a) (dropz (len b - suf) b)
  end.

(** lib/jwt.cpp:40-53 isJWS; char is unsigned (-funsigned-char). *)
Fixpoint isJWS_loop (s : list Z) (dots : Z) : bool :=
  match s with
  | [] => dots =? 2
  | c :: r =>
      if c <? 45 then false else
      if c =? 46 then (if dots + 1 >? 2 then false else isJWS_loop r (dots + 1)) else
      if (c =? 47) || (c =? 58) || (c =? 64) || (c =? 96) then false else
      if (c =? 95) || ((c .& 0x1F) <? 27) then isJWS_loop r dots else false
  end.
Definition isJWS (s : list Z) : bool := isJWS_loop s 0.

(** lib/json.cpp:799-803, 864-868, 1331-1333, 1371-1373. *)
Definition asStr (v : jv) : list Z := match v with JStr s => s | _ => [] end.
Definition member (v : jv) (k : list Z) : option jv := match v with JObj l => oget k l | _ => None end.
Definition sub_of (v : jv) (k : list Z) : jv := match member v k with Some x => x | None => JNull end.
Definition jsize (v : jv) : Z := match v with JObj l => Z.of_nat (List.length l) | JArr l => Z.of_nat (List.length l) | _ => 0 end.

(** atoll: blanks, a sign, digits; the result saturates. *)
Definition blank (c : Z) : bool := (c =? 32) || ((9 <=? c) && (c <=? 13)).
Fixpoint skip_blanks (s : list Z) : list Z := match s with c :: r => if blank c then skip_blanks r else s | [] => [] end.
Fixpoint digits_val (s : list Z) (acc : Z) : Z :=
  match s with c :: r => if (48 <=? c) && (c <=? 57) then digits_val r (acc * 10 + (c - 48)) else acc | [] => acc end.
Definition atoll (s : list Z) : Z :=
  match skip_blanks s with
  | c :: r => if c =? 45 then Z.max (- 2 ^ 63) (- digits_val r 0) else Z.min (2 ^ 63 - 1) (digits_val (if c =? 43 then r else c :: r) 0)
  | [] => 0
  end.

(** One key as it is stored in shared memory (src/controller/controller_storage.cpp:1030-1082); the texts of the key and of the
    streams are taken as the values they were made from. *)
Record skey := mkKey { k_id : list Z; k_ty : list Z; k_jwk : jv; k_streams : list (list Z); k_perms : Z }.

(** lib/jwt.cpp:56-97 the constructors of a key: only the members of its type are kept; no pattern at all becomes "*".
    src/controller/controller_storage.cpp:1076-1081 storing it: [jwk["kid"]] and [jwk["kty"]] end in JSON::Value::operator[](std::string)
    const, which reads the end of the map if the member is not there (lib/json.cpp:858-860): [None].  The fields of the page are
    assumed to be long enough. *)
Definition keep (names : list (list Z)) (v : jv) : jv :=
  match v with JObj l => JObj (filter (fun e => existsb (beqb (fst e)) names) l) | _ => v end.
Definition common_names : list (list Z) := [bs "kty"; bs "kid"; bs "use"; bs "key_ops"; bs "alg"; bs "x5u"; bs "x5c"; bs "x5t"; bs "x5t#S256"].
Definition type_names (c : Z) : list (list Z) :=
  if c =? ch "o" then [bs "k"] else
  if c =? ch "R" then [bs "n"; bs "e"; bs "d"; bs "p"; bs "q"; bs "dp"; bs "dq"; bs "qi"] else
  if c =? ch "E" then [bs "crv"; bs "x"; bs "y"; bs "d"] else [].
Definition store_key (jwk : jv) (streams : list (list Z)) (perms : Z) : option skey :=
  ty <- member jwk (bs "kty") ;; id <- member jwk (bs "kid") ;;
  match asStr ty with
  | [] => None (* std::string::at throws *)
  | c :: _ => Some (mkKey (asStr id) (asStr ty) (keep (common_names ++ type_names c) jwk) (match streams with [] => [bs "*"] | _ => streams end) perms)
  end.

(** lib/jwt.cpp:126-132 Key::matchKeyPerms. *)
Definition matchKeyPerms (k : skey) (name : list Z) (required : Z) : bool :=
  if negb ((k_perms k .& required) =? required) then false else
  match k_streams k with [] => true | l => existsb (fun p => equalsWithWildcard name p) l end.

(** lib/auth.cpp:437-442 digest_hmac.  What the local arrays hold at first does not matter (hmac_partial). *)
Definition mac (alg : sha) (msg key : list Z) : list Z :=
  hmac_shabin alg (repeat 0 64) (repeat 0 (match alg with SHA256 => 64 | _ => 128 end)%nat) msg key.
Definition digest_hmac (msg : list Z) (jwk : jv) (alg : sha) : list Z :=
  b64_encode (mac alg msg (b64_decode (asStr (sub_of jwk (bs "k"))))) true.

(** A token taken apart: lib/jwt.cpp:146-160. *)
Record jws := mkJws { hdr : jv; pld : jv; sig : list Z; sin : list Z }.

Section World.
(** JSON::fromString. *)
Variable from_text : list Z -> jv.
(** What mbedtls says: whether a public key can be imported; whether a signature of the right length verifies for the digest; whether
    a point is one of the curve of [n] byte coordinates, and whether the pair of numbers verifies. *)
Variable rsa_key : list Z -> list Z -> bool.
Variable rsa_sig : bool -> sha -> list Z -> list Z -> list Z -> list Z -> bool.
Variable ec_key : Z -> list Z -> bool.
Variable ec_sig : Z -> list Z -> list Z -> list Z -> list Z -> bool.
(** The value of a double as a long long, and isBinAddress on an address text (its resolver included). *)
Variable dbl_int : Z -> Z.
Variable in_range : list Z -> list Z -> bool.
Variable to_text : jv -> list Z.

Definition jws_of (pkg : list Z) : jws :=
  let h := match find_ch 46 pkg with Some p => takez p pkg | None => pkg end in
  let r := match find_ch 46 pkg with Some p => dropz (p + 1) pkg | None => pkg end in
  let p := match find_ch 46 r with Some q => takez q r | None => r end in
  (* without a second dot pos2 + 1 is 0 *)
  let s := match find_ch 46 r with Some q => dropz (q + 1) r | None => pkg end in
  mkJws (from_text (b64_decode h)) (from_text (b64_decode p)) s (h ++ [46] ++ p).

(** lib/jwt.cpp:171-174 operator bool, 177-180 hasWildcard, 166-168 getKid. *)
Definition jws_bool (t : jws) : bool :=
  negb ((jsize (hdr t) =? 0) || (match sig t with [] => true | _ => false end) || (match member (hdr t) (bs "alg") with None => true | _ => false end)).
Definition hasWildcard (t : jws) : bool :=
  match member (pld t) (bs "sub") with Some v => existsb (fun c => c =? 42) (asStr v) | None => false end.
Definition kid (t : jws) : list Z := asStr (sub_of (hdr t) (bs "kid")).
Definition subject (t : jws) : list Z := asStr (sub_of (pld t) (bs "sub")).

(** lib/json.cpp:745-750, 762-766. *)
Definition asInt (v : jv) : Z := match v with JInt n => n | JDbl d => dbl_int d | JStr s => atoll s | _ => 0 end.
Definition asString (v : jv) : list Z := match v with JStr s => s | JNull | JUnset => [] | _ => to_text v end.

(** lib/jwt.cpp:183-197 checkClaims.  The text form of the address is computed there and not used. *)
Definition checkClaims (now : Z) (t : jws) (stream host : list Z) : bool :=
  negb (negb (jws_bool t)
   || match member (pld t) (bs "sub") with Some v => negb (len stream =? 0) && negb (equalsWithWildcard stream (asString v)) | None => false end
   || match member (pld t) (bs "ipa") with Some v => negb (in_range host (asString v)) | None => false end
   || match member (pld t) (bs "nbf") with Some v => now <? u64 (asInt v) | None => false end
   || match member (pld t) (bs "exp") with Some v => now >? u64 (asInt v) | None => false end).

(** mbedtls_mpi_size: the length of a number without leading zeros. *)
Fixpoint mpi (l : list Z) : list Z := match l with 0 :: r => mpi r | _ => l end.

(** lib/jwt.cpp:323-400 verify_rsa.  mbedtls gets the address of the signature and reads as many bytes as the modulus has: [None] if
    there are less. *)
Definition verify_rsa (pss : bool) (alg : sha) (msg : list Z) (jwk : jv) (sg : list Z) : option bool :=
  match member jwk (bs "n"), member jwk (bs "e") with
  | Some vn, Some ve =>
      let n := b64_decode (asString vn) in let e := b64_decode (asString ve) in let s := b64_decode sg in
      if negb (rsa_key n e) then Some false else
      if len s <? len (mpi n) then None else Some (rsa_sig pss alg n e (shabin alg (repeat 0 64) msg) (takez (len (mpi n)) s))
  | _, _ => Some false
  end.
(** lib/jwt.cpp:403-498 verify_ecdsa; [half] is half_sig_size. *)
Definition ec_half (alg : sha) : Z := match alg with SHA256 => 32 | SHA384 => 48 | SHA512 => 66 end.
Definition verify_ecdsa (alg : sha) (msg : list Z) (jwk : jv) (sg : list Z) : option bool :=
  match member jwk (bs "crv"), member jwk (bs "x"), member jwk (bs "y") with
  | Some _, Some vx, Some vy =>
      let pk := [4] ++ b64_decode (asString vx) ++ b64_decode (asString vy) in
      let s := b64_decode sg in let half := ec_half alg in
      if len s <? 2 * half then None else
      if negb (ec_key half pk) then Some false else
      Some (ec_sig half (shabin alg (repeat 0 64) msg) pk (takez half s) (takez half (dropz half s)))
  | _, _, _ => Some false
  end.
(** lib/jwt.cpp:309-320 verify_hmac. *)
Definition verify_hmac (alg : sha) (msg : list Z) (jwk : jv) (sg : list Z) : bool := beqb (digest_hmac msg jwk alg) sg.

(** lib/jwt.cpp:246-264 verify, built with SSL. *)
Definition verify (msg : list Z) (jwk : jv) (sg alg : list Z) : option bool :=
  if beqb alg (bs "HS256") then Some (verify_hmac SHA256 msg jwk sg) else
  if beqb alg (bs "HS384") then Some (verify_hmac SHA384 msg jwk sg) else
  if beqb alg (bs "HS512") then Some (verify_hmac SHA512 msg jwk sg) else
  if beqb alg (bs "RS256") then verify_rsa false SHA256 msg jwk sg else
  if beqb alg (bs "RS384") then verify_rsa false SHA384 msg jwk sg else
  if beqb alg (bs "RS512") then verify_rsa false SHA512 msg jwk sg else
  if beqb alg (bs "ES256") then verify_ecdsa SHA256 msg jwk sg else
  if beqb alg (bs "ES384") then verify_ecdsa SHA384 msg jwk sg else
  if beqb alg (bs "ES512") then verify_ecdsa SHA512 msg jwk sg else
  if beqb alg (bs "PS256") then verify_rsa true SHA256 msg jwk sg else
  if beqb alg (bs "PS384") then verify_rsa true SHA384 msg jwk sg else
  if beqb alg (bs "PS512") then verify_rsa true SHA512 msg jwk sg else Some false.

(** lib/jwt.cpp:267-305 verify_any. *)
Definition alg_type (alg : list Z) : option Z :=
  match alg with
  | [] => None
  | c :: _ => if c =? ch "H" then Some (ch "o") else if (c =? ch "R") || (c =? ch "P") then Some (ch "R") else if c =? ch "E" then Some (ch "E") else None
  end.
Fixpoint any_key (keys : list skey) (aty : Z) (perms : Z) (t : jws) (alg : list Z) : option bool :=
  match keys with
  | [] => Some false
  | k :: r =>
      if negb (match k_ty k with c :: _ => c =? aty | [] => 0 =? aty end) then any_key r aty perms t alg else
      if negb (matchKeyPerms k (subject t) perms) then any_key r aty perms t alg else
      v <- verify (sin t) (k_jwk k) (sig t) alg ;;
      if v then Some true else any_key r aty perms t alg
  end.
Definition verify_any (keys : list skey) (perms : Z) (t : jws) (alg : list Z) : option bool :=
  match alg_type alg with None => Some false | Some a => any_key keys a perms t alg end.

(** lib/jwt.cpp:200-238 validateSignature; [keys] is what the page of keys holds. *)
Definition validateSignature (keys : list skey) (perms : Z) (t : jws) : option bool :=
  let alg := asStr (sub_of (hdr t) (bs "alg")) in
  match kid t with
  | [] => verify_any keys perms t alg
  | id =>
      match find (fun k => beqb id (k_id k)) keys with
      | Some k => if matchKeyPerms k (subject t) perms then verify (sin t) (k_jwk k) (sig t) alg else Some false
      | None => verify_any keys perms t alg
      end
  end.

(** A viewer who shows the token [pkg] for a stream: src/session.cpp:272-278.  [false]: the USER_NEW trigger decides instead. *)
Definition viewer_token (now : Z) (keys : list skey) (pkg stream host : list Z) : option bool :=
  let t := jws_of pkg in
  if jws_bool t && checkClaims now t stream host then validateSignature keys 4 t else Some false.
(** Somebody who pushes with the token as stream name: src/output/output.cpp:2897-2903; the name of the stream that is pushed to. *)
Definition push_token (now : Z) (keys : list skey) (pkg host : list Z) : option (option (list Z)) :=
  if negb (isJWS pkg) then Some None else
  let t := jws_of pkg in
  if negb (jws_bool t) || hasWildcard t || negb (checkClaims now t [] host) then Some None else
  v <- validateSignature keys 2 t ;;
  Some (if v then Some (subject t) else None).
End World.
