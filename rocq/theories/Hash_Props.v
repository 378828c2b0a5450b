(** C41: digests and HMAC equal the published algorithms.
    The code writes one byte of the 64 bit message length with a shift of 54 where 56 is meant (MD5 and SHA-256), so the
    theorems for these two stop at messages of 2^51 bytes. *)
From Verif Require Import Common CommonFacts Hash_Model Hash_Spec Hash_Proofs HashMd_Proofs HashSha_Proofs.

(** ** HMAC for any digest *)
Lemma hmacbin_ok (hasher H : list Z -> list Z) (hs bl : nat) lim kjunk msg key :
  (hs <= bl)%nat -> (0 < hs)%nat ->
  (forall m, bytesP m -> len m < lim -> hasher m = H m /\ bytesP (H m) /\ List.length (H m) = hs) ->
  len kjunk = Z.of_nat bl -> bytesP msg -> bytesP key -> Z.of_nat bl + len msg < lim -> 2 * Z.of_nat bl < lim -> len key < lim ->
  hmacbin hasher (Z.of_nat hs) (Z.of_nat bl) kjunk msg key = hmac_spec H bl key msg.
Proof.
  intros Hs H0 HH Hj Hm Hk L1 L2 L3. unfold hmacbin, hmac_spec.
  assert (MS : forall x, len x <= Z.of_nat bl ->
     memset (splice kjunk 0 x) (len x) 0 (Z.of_nat bl - len x) = x ++ repeat 0 (bl - List.length x)).
  { intros x Lx. unfold memset. rewrite splice_0, splice_at by reflexivity. rewrite len_repeat.
    rewrite dropz_all, app_nil_r.
    - f_equal. f_equal. unfold len. lia.
    - pose proof (len_nonneg x). rewrite len_dropz by lia. lia. }
  set (k := if (bl <? List.length key)%nat then H key else key).
  assert (Bk : bytesP k /\ len k <= Z.of_nat bl).
  { unfold k. destruct (Nat.ltb_spec bl (List.length key)).
    - destruct (HH key Hk L3) as (_ & B & L). split; [exact B | unfold len; lia].
    - split; [exact Hk | unfold len; lia]. }
  destruct Bk as [Bk Lk].
  assert (E : (if len key >? Z.of_nat bl
               then memset (splice kjunk 0 (hasher key)) (Z.of_nat hs) 0 (Z.of_nat bl - Z.of_nat hs)
               else memset (splice kjunk 0 key) (len key) 0 (Z.of_nat bl - len key)) = k ++ repeat 0 (bl - List.length k)).
  { unfold k in *. destruct (HH key Hk L3) as (E & B & L).
    destruct (Nat.ltb_spec bl (List.length key)); destruct (Z.gtb_spec (len key) (Z.of_nat bl)); try (unfold len in *; lia).
    - rewrite E. replace (Z.of_nat hs) with (len (H key)) by (unfold len; lia). apply MS. exact Lk.
    - apply MS. exact Lk. }
  rewrite E. set (kd := k ++ repeat 0 (bl - List.length k)).
  assert (Bkd : bytesP kd).
  { unfold kd. apply bytesP_app. split; [exact Bk |].
    unfold bytesP; apply Forall_forall; intros x Hx; apply repeat_spec in Hx; subst; unfold byteP; lia. }
  assert (Lkd : len kd = Z.of_nat bl) by (unfold kd; rewrite len_app, len_repeat; unfold len in *; lia).
  assert (X : forall c, map (fun b => Z.lxor b c) kd = map (Z.lxor c) kd).
  { intros c. apply map_ext. intros b. apply Z.lxor_comm. }
  assert (BX : forall c, byteP c -> bytesP (map (Z.lxor c) kd)).
  { intros c Hc. unfold bytesP. apply Forall_map. unfold bytesP in Bkd. revert Bkd. apply Forall_impl. intros b Hb.
    change (word 8 (Z.lxor c b)). apply word_lxor; [lia | exact Hc | exact Hb]. }
  rewrite !X. pose proof (len_nonneg msg).
  destruct (HH (map (Z.lxor 0x36) kd ++ msg)) as (E1 & B1 & N1).
  { apply bytesP_app. split; [apply BX; unfold byteP; lia | exact Hm]. }
  { rewrite len_app, len_map. lia. }
  rewrite E1. apply HH.
  - apply bytesP_app. split; [apply BX; unfold byteP; lia | exact B1].
  - rewrite len_app, len_map. unfold len at 2. lia.
Qed.

Lemma flat_be n l : bytesP (flat_map (be n) l) /\ List.length (flat_map (be n) l) = (List.length l * n)%nat.
Proof.
  induction l as [|x l [B L]]; [split; [constructor | reflexivity] |]. cbn [flat_map List.length]. split.
  - apply bytesP_app. split; [apply be_bytes | exact B].
  - rewrite app_length, be_length, L. lia.
Qed.

Lemma sha_words_len v init m : List.length init = 8%nat -> List.length (sha_words v init m) = 8%nat.
Proof.
  intros Hi. unfold sha_words. generalize (blocks (Z.to_nat (2 * wbits v)) (pad (2 * wbits v) (be (Z.to_nat (wbits v / 4)) (8 * len m)) m)).
  intros bl. revert init Hi. induction bl as [|b bl IH]; intros init Hi; [exact Hi |]. cbn [fold_left]. apply IH.
  unfold sha_block. destruct init as [|x0 [|x1 [|x2 [|x3 [|x4 [|x5 [|x6 [|x7 [|x8 q]]]]]]]]]; try discriminate Hi.
  rewrite map_length, combine_length.
  assert (C : forall kw a b c d e f g h, List.length (compress v kw a b c d e f g h) = 8%nat).
  { induction kw as [|[k x] kw IHk]; intros; [reflexivity |]. cbn [compress]. apply IHk. }
  rewrite C. reflexivity.
Qed.
Lemma firstn_bytes n l : bytesP l -> bytesP (firstn n l).
Proof. intros H. pose proof (bytesP_takez (Z.of_nat n) l H) as B. unfold takez in B. now rewrite Nat2Z.id in B. Qed.
Lemma sha256_shape m : bytesP (sha256_spec m) /\ List.length (sha256_spec m) = 32%nat.
Proof.
  rewrite spec256. destruct (flat_be 4 (sha_words V32 I256 m)) as [B L]. split; [exact B |].
  rewrite L, sha_words_len; [reflexivity |]. unfold I256. rewrite map_length. reflexivity.
Qed.
Lemma sha512_shape m : bytesP (sha512_spec m) /\ List.length (sha512_spec m) = 64%nat.
Proof.
  rewrite spec512. destruct (flat_be 8 (sha_words V64 I512 m)) as [B L]. split; [exact B |].
  rewrite L, sha_words_len; [reflexivity |]. unfold I512. rewrite map_length. reflexivity.
Qed.
Lemma sha384_shape m : bytesP (sha384_spec m) /\ List.length (sha384_spec m) = 48%nat.
Proof.
  rewrite spec384. destruct (flat_be 8 (sha_words V64 I384 m)) as [B L]. split; [now apply firstn_bytes |].
  rewrite firstn_length, L, sha_words_len; [reflexivity |]. unfold I384. rewrite map_length. reflexivity.
Qed.

Lemma hex2_ok l : bytesP l -> flat_map hex2 l = hex l.
Proof.
  intros Hb. unfold hex. induction Hb as [|b l B Hl IH]; [reflexivity |]. cbn [flat_map]. f_equal; [| exact IH].
  pose proof (byte_sweep (fun b => beqb (hex2 b) [nthz (bs "0123456789abcdef") (b / 16); nthz (bs "0123456789abcdef") (b mod 16)])
    ltac:(vm_compute; reflexivity) b B) as E. now apply beqb_eq in E.
Qed.

(** ** Theorems *)

(** The MD5 digest, in binary and in hexadecimal, of every message shorter than 2^51 bytes, whatever the local buffer held. *)
Theorem md5_partial junk m : len junk = 64 -> bytesP m -> len m < 2 ^ 51 ->
  md5bin junk m = md5_spec m /\ md5 junk m = hex (md5_spec m).
Proof.
  intros Hj Hm Hl. unfold md5. rewrite md5bin_ok by assumption. split; [reflexivity |]. apply hex2_ok.
  unfold md5_spec. destruct (fold_left _ _ _) as [[[A B] C] D]. unfold le.
  rewrite !bytesP_app. unfold bytesP. repeat split; apply Forall_rev; apply be_bytes.
Qed.

(** The SHA-256 digest of every message shorter than 2^51 bytes. *)
Theorem sha256_partial junk m : len junk = 64 -> bytesP m -> len m < 2 ^ 51 ->
  sha256bin junk m = sha256_spec m /\ sha256 junk m = hex (sha256_spec m).
Proof.
  intros Hj Hm Hl. unfold sha256. rewrite sha256bin_ok by assumption. split; [reflexivity |]. apply hex2_ok, sha256_shape.
Qed.

(** SHA-384 and SHA-512 of every message whose length in bits fits in 64 bits. *)
Theorem sha512_conforms m : bytesP m -> len m < 2 ^ 61 -> sha384bin m = sha384_spec m /\ sha512bin m = sha512_spec m.
Proof. intros Hm Hl. split; [now apply sha384bin_ok | now apply sha512bin_ok]. Qed.

Definition sha_spec (alg : sha) : list Z -> list Z :=
  match alg with SHA256 => sha256_spec | SHA384 => sha384_spec | SHA512 => sha512_spec end.
Definition sha_size (alg : sha) : nat := match alg with SHA256 => 64 | _ => 128 end.

(** HMAC with each of the three digests, in binary and in hexadecimal, for every key and message. *)
Theorem hmac_partial alg junk kjunk msg key :
  len junk = 64 -> len kjunk = Z.of_nat (sha_size alg) -> bytesP msg -> bytesP key ->
  len msg < 2 ^ 51 - 128 -> len key < 2 ^ 51 ->
  hmac_shabin alg junk kjunk msg key = hmac_spec (sha_spec alg) (sha_size alg) key msg /\
  hmac_sha alg junk kjunk msg key = hex (hmac_spec (sha_spec alg) (sha_size alg) key msg).
Proof.
  intros Hj Hkj Hm Hk Lm Lk. change (2 ^ 51) with 2251799813685248 in *.
  assert (S : forall H hs, (forall m, bytesP (H m) /\ List.length (H m) = hs) -> forall b, bytesP (hmac_spec H b key msg)).
  { intros H hs HH b. unfold hmac_spec. apply HH. }
  destruct alg; cbn [hmac_shabin hmac_sha sha_spec sha_size] in *; unfold hmac;
    change 64 with (Z.of_nat 64); change 128 with (Z.of_nat 128); change 48 with (Z.of_nat 48); change 32 with (Z.of_nat 32).
  - rewrite (hmacbin_ok (sha256bin junk) sha256_spec 32 64 (2 ^ 51)); try assumption; try lia.
    + split; [reflexivity |]. apply hex2_ok. eapply S. apply sha256_shape.
    + intros m B L. split; [now apply sha256bin_ok | apply sha256_shape].
  - rewrite (hmacbin_ok sha384bin sha384_spec 48 128 (2 ^ 51)); try assumption; try lia.
    + split; [reflexivity |]. apply hex2_ok. eapply S. apply sha384_shape.
    + intros m B L. split; [apply sha384bin_ok; [exact B | change (2 ^ 61) with 2305843009213693952; lia] | apply sha384_shape].
  - rewrite (hmacbin_ok sha512bin sha512_spec 64 128 (2 ^ 51)); try assumption; try lia.
    + split; [reflexivity |]. apply hex2_ok. eapply S. apply sha512_shape.
    + intros m B L. split; [apply sha512bin_ok; [exact B | change (2 ^ 61) with 2305843009213693952; lia] | apply sha512_shape].
Qed.

(** Test vectors: "abc" (FIPS 180-4 examples), RFC 4231 case 2, and a message whose padding needs a second block. The theorems
    make each of them a fact about the specification as well. *)
Example md5_example :
  md5 (repeat 7 64) (bs "12345678901234567890123456789012345678901234567890123456") = bs "49f193adce178490e34d1b3a4ec0064c".
Proof. vm_compute. reflexivity. Qed.
Example sha256_example :
  sha256 (repeat 7 64) (bs "abc") = bs "ba7816bf8f01cfea414140de5dae2223b00361a396177a9cb410ff61f20015ad".
Proof. vm_compute. reflexivity. Qed.
Example sha512_example : hex (sha512bin (bs "abc")) =
  bs "ddaf35a193617abacc417349ae20413112e6fa4e89a97ea20a9eeee64b55d39a2192992a274fc1a836ba3c23a3feebbd454d4423643ce80e2a9ac94fa54ca49f".
Proof. vm_compute. reflexivity. Qed.
Example hmac_example : hmac_sha SHA256 (repeat 7 64) (repeat 7 64) (bs "what do ya want for nothing?") (bs "Jefe") =
  bs "5bdcc146bf60754e6a042426089575c75a003f089d2739839dec58b964ec3843".
Proof. vm_compute. reflexivity. Qed.
Example hash_spec_example :
  hex (md5_spec (bs "12345678901234567890123456789012345678901234567890123456")) = bs "49f193adce178490e34d1b3a4ec0064c" /\
  hex (sha256_spec (bs "abc")) = bs "ba7816bf8f01cfea414140de5dae2223b00361a396177a9cb410ff61f20015ad".
Proof.
  rewrite <- md5_example, <- sha256_example. split; symmetry;
    [apply (md5_partial (repeat 7 64)) | apply (sha256_partial (repeat 7 64))]; try reflexivity;
    repeat (constructor; [vm_compute; split; congruence |]); constructor.
Qed.

Print Assumptions md5_partial.
Print Assumptions sha256_partial.
Print Assumptions sha512_conforms.
Print Assumptions hmac_partial.
