(** C62: STUN messages. *)
From Verif Require Import Common CommonFacts Mem_Model Mem_Proofs Outcome_Model Crc_Model Crc_Spec Addr_Model Stun_Model Stun_Spec Stun_Proofs.

Section Hmac.
(** HMAC-SHA1 is any function from key and text to twenty bytes. *)
Variable hmac : list Z -> list Z -> list Z.
Hypothesis hmac_len : forall k x, len (hmac k x) = 20.
Hypothesis hmac_bytes : forall k x, bytesP (hmac k x).

(** A check that is sent is a STUN message of type 1 with the random number and the name given, authenticated with the password
    and fingerprinted. *)
Theorem stun_request : forall random name pwd candidate, 12 <= len random -> bytesP random -> bytesP name -> len name < 65000 ->
  exists r mac fp, request hmac random name pwd candidate = Ok r /\
    decode r = Some (mkmsg 1 (takez 12 random) ((6, name) :: (if candidate then [(0x25, [])] else []) ++ [(8, mac); (0x8028, fp)])) /\
    authentic hmac pwd r (len r - 32) /\ fingerprinted r.
Proof. intros random name pwd c. apply request_ok; assumption. Qed.

Lemma told_ok a ip : addr_ok a -> told a ip -> ip = real_ip a.
Proof.
  intros (A & _) T. unfold told, real_ip, is4in6, addr_ok in *. destruct (sa_family a); [apply T | | contradiction]. destruct T as (L & [E | (-> & N)]).
  - rewrite E. change (takez 12 ([0; 0; 0; 0; 0; 0; 0; 0; 0; 0; 255; 255] ++ ip)) with v4_prefix. change (beqb v4_prefix v4_prefix) with true. reflexivity.
  - destruct (beqb (takez 12 (sa_ip a)) v4_prefix) eqn:B; [| reflexivity]. exfalso. apply beqb_eq in B. apply (N (dropz 12 (sa_ip a))). change [0; 0; 0; 0; 0; 0; 0; 0; 0; 0; 255; 255] with v4_prefix. rewrite <- B. symmetry. apply takez_dropz.
Qed.
Lemma told_addr a ip : told a ip -> bytesP (sa_ip a) -> 0 <= sa_port a < 65536 -> addr_ok a.
Proof. intros T B P. split; [| split; assumption]. unfold told in T. destruct (sa_family a); [destruct T; congruence | apply T | exact T]. Qed.
Lemma isStun_ok d : bytesP d -> exists b, isStun d = Ok b /\ (b = true <-> 20 <= len d /\ takez 4 (dropz 4 d) = cookie).
Proof.
  intros B. unfold isStun. destruct (Z.ltb_spec (len d) 20); [exists false; split; [reflexivity |]; split; [discriminate | lia] |].
  unfold getbe, getn. rewrite peek_some by lia. eexists. split; [reflexivity |]. rewrite Z.eqb_eq. split.
  - intros E. split; [lia |]. rewrite <- (be_unbe (takez 4 (dropz 4 d))) by (apply bytesP_takez, bytesP_dropz, B). rewrite E.
    replace (List.length (takez 4 (dropz 4 d))) with 4%nat; [reflexivity |]. assert (L : len (takez 4 (dropz 4 d)) = 4) by (rewrite len_takez; [reflexivity | rewrite len_dropz; lia]). unfold len in L. lia.
  - intros (_ & ->). reflexivity.
Qed.
Lemma getType_ok d : 2 <= len d -> getType d = Ok (unbe (takez 2 d)).
Proof. intros L. unfold getType. destruct (Z.ltb_spec (len d) 2); [lia |]. unfold getbe, getn. rewrite peek_some by lia. reflexivity. Qed.
Lemma attribute_safe d ty : bytesP d -> exists x, attribute d ty = Ok x.
Proof. intros B. unfold attribute. apply attr_loop_safe; [exact B | lia |]. unfold len. lia. Qed.
Lemma lookup_user tracks name pwd : user tracks name pwd -> lookup name tracks = pwd.
Proof.
  intros (a & b & -> & N & _). induction a as [| (u, p) a IH]; cbn [app lookup].
  - rewrite (proj2 (beqb_eq name name) eq_refl). reflexivity.
  - destruct (beqb u name) eqn:B; [exfalso; apply N; left; apply beqb_eq in B; exact B |]. apply IH. intros I. apply N. right. exact I.
Qed.
Lemma user_lookup tracks name : lookup name tracks <> [] -> user tracks name (lookup name tracks).
Proof. intros N. destruct (lookup_inv name tracks) as [(E & _) | (a & b & E & F)]; [congruence |]. exists a, b. auto. Qed.

(** Whatever is received, memory outside of it is not read and handling it ends. *)
Theorem stun_any : forall d tracks from ip candidate, bytesP d -> told from ip -> bytesP (sa_ip from) -> 0 <= sa_port from < 65536 ->
  exists o, received hmac d tracks from candidate = Ok o.
Proof.
  intros d tracks from ip candidate B T Bi P. unfold received. destruct (isStun_ok d B) as (b & -> & Hb). destruct b; cbn [negb]; [| eauto].
  destruct (proj1 Hb eq_refl) as (L & _). rewrite getType_ok by lia. destruct (_ =? STUN_MSG_BINDING_RESPONSE_SUCCESS); [eauto |]. destruct (_ =? STUN_MSG_BINDING_REQUEST); cbn [negb]; [| eauto].
  unfold getAttributeByType, hasAttribute. destruct (attribute_safe d STUN_ATTR_USERNAME B) as (x & ->). destruct (len _ =? 0); [eauto |]. destruct (colon _); [| eauto]. destruct (len (lookup _ _) =? 0); [eauto |].
  destruct (attribute_safe d STUN_ATTR_USE_CANDIDATE B) as (y & ->).
  destruct (reply_ok hmac hmac_len hmac_bytes d from (lookup l tracks) candidate L B (told_addr from ip T Bi P)) as (r & mac & fp & v & -> & _). eauto.
Qed.

(** A well-formed message is answered exactly if it is a request whose name belongs to a track.  The answer carries its
    transaction number and the address it came from, authenticated with the password of that track.  That the sender asked to use
    this way is noticed if something follows that attribute. *)
Theorem stun_answer_partial : forall d m tracks from ip candidate, bytesP d -> decode d = Some m -> told from ip -> bytesP (sa_ip from) -> 0 <= sa_port from < 65536 ->
  (forall u name pwd, m_type m = 1 -> first 6 (m_attrs m) = Some u -> local_part u name -> user tracks name pwd ->
    exists r v mac fp c, received hmac d tracks from candidate = Ok (Some (r, c)) /\
      decode r = Some (mkmsg 0x0101 (m_tid m) ((0x20, v) :: (if candidate then [(0x25, [])] else []) ++ [(8, mac); (0x8028, fp)])) /\
      address (m_tid m) v = Some (sa_port from, ip) /\ authentic hmac pwd r (len r - 32) /\ fingerprinted r /\
      ((forall l, m_attrs m <> l ++ [(0x25, [])]) -> (c = true <-> first 0x25 (m_attrs m) <> None))) /\
  ((forall u name pwd, m_type m = 1 -> first 6 (m_attrs m) = Some u -> local_part u name -> ~ user tracks name pwd) -> received hmac d tracks from candidate = Ok None).
Proof.
  intros d m tracks from ip candidate B D T Bi P. destruct (decode_inv d m D) as (L & C & Ty & Ti & At). pose proof (told_addr from ip T Bi P) as A. pose proof (told_ok from ip A T) as ->.
  assert (R0 : isStun d = Ok true). { destruct (isStun_ok d B) as (b & E & Hb). rewrite E. f_equal. apply Hb. split; assumption. }
  unfold received. rewrite R0, getType_ok by lia. cbn [negb]. rewrite <- Ty.
  assert (U : forall u, u <> [] -> getAttributeByType d STUN_ATTR_USERNAME = Ok u <-> first 6 (m_attrs m) = Some u).
  { intros u Nu. unfold getAttributeByType. destruct (attribute_ok d m STUN_ATTR_USERNAME D B) as [-> | (-> & q & Eq & Fq)].
    - change STUN_ATTR_USERNAME with 6. destruct (first 6 (m_attrs m)) as [x |]; split; intros E; congruence.
    - split; [intros E; congruence |]. rewrite Eq. intros E. exfalso. change STUN_ATTR_USERNAME with 6 in Fq, E. assert (X : forall q, first 6 q = None -> first 6 (q ++ [(6, [])]) = Some []).
      { clear. induction q as [| (t, v) q IH]; cbn; [reflexivity |]. destruct (t =? 6); [discriminate | exact IH]. } rewrite X in E by exact Fq. congruence. }
  split.
  - intros u name pwd M1 F1 (rest & Eu & NI) Us. rewrite M1. change (1 =? STUN_MSG_BINDING_RESPONSE_SUCCESS) with false. change (1 =? STUN_MSG_BINDING_REQUEST) with true. cbn [negb].
    assert (Nu : u <> []) by (rewrite Eu; destruct name; discriminate). rewrite (proj2 (U u Nu) F1).
    destruct (Z.eqb_spec (len u) 0) as [Z0 | _]; [exfalso; apply Nu; destruct u; [reflexivity | rewrite len_cons in Z0; pose proof (len_nonneg u); lia] |].
    rewrite (proj2 (colon_ok u name) (ex_intro _ rest (conj Eu NI))). rewrite (lookup_user _ _ _ Us).
    destruct (Z.eqb_spec (len pwd) 0) as [Z0 | _]; [exfalso; destruct Us as (? & ? & _ & _ & Np); apply Np; destruct pwd; [reflexivity | rewrite len_cons in Z0; pose proof (len_nonneg pwd); lia] |].
    unfold hasAttribute. destruct (attribute_safe d STUN_ATTR_USE_CANDIDATE B) as (y & Ey). rewrite Ey.
    destruct (reply_ok hmac hmac_len hmac_bytes d from pwd candidate L B A) as (r & mac & fp & v & Er & Dr & Ar & Au & Fp). rewrite Er. rewrite <- Ti in Dr, Ar.
    eexists r, v, mac, fp, _. split; [reflexivity |]. split; [exact Dr |]. split; [exact Ar |]. split; [exact Au |]. split; [exact Fp |].
    intros NL. destruct (attribute_ok d m STUN_ATTR_USE_CANDIDATE D B) as [E | (_ & q & Eq & _)]; [| exfalso; apply (NL q); exact Eq].
    rewrite Ey in E. injection E as ->. change STUN_ATTR_USE_CANDIDATE with 0x25. destruct (first 0x25 (m_attrs m)); split; congruence.
  - intros N. destruct (m_type m =? STUN_MSG_BINDING_RESPONSE_SUCCESS) eqn:T1; [reflexivity |]. destruct (Z.eqb_spec (m_type m) STUN_MSG_BINDING_REQUEST) as [T2 | T2]; cbn [negb]; [| reflexivity].
    destruct (attribute_safe d STUN_ATTR_USERNAME B) as (x & Ex). assert (G : getAttributeByType d STUN_ATTR_USERNAME = Ok (match x with Some x => x | None => [] end)) by (unfold getAttributeByType; rewrite Ex; reflexivity).
    rewrite G. set (u := match x with Some x => x | None => [] end) in *. destruct (Z.eqb_spec (len u) 0) as [| Nz]; [reflexivity |]. destruct (colon u) as [name |] eqn:Ec; [| reflexivity].
    destruct (Z.eqb_spec (len (lookup name tracks)) 0) as [| Nl]; [reflexivity |]. exfalso. apply (N u name (lookup name tracks)).
    + exact T2.
    + apply U; [intros Z0; apply Nz; rewrite Z0; reflexivity | exact G].
    + apply (colon_ok u name). exact Ec.
    + apply user_lookup. intros Z0. apply Nl. rewrite Z0. reflexivity.
Qed.

(** A request is answered, and counts as a sign of life, without its integrity having been checked: anyone who knows the name
    may ask. *)
Theorem stun_unchecked_refuted : ~ (forall d m tracks from candidate o, decode d = Some m -> received hmac d tracks from candidate = Ok (Some o) ->
  exists name pwd mac i, user tracks name pwd /\ first 8 (m_attrs m) = Some mac /\ authentic hmac pwd d i).
Proof.
  intros H. set (d := [0; 1; 0; 8; 0x21; 0x12; 0xa4; 0x42; 1; 2; 3; 4; 5; 6; 7; 8; 9; 10; 11; 12; 0; 6; 0; 3; 97; 58; 98; 0]). set (from := Build_sockaddr Inet 5000 [10; 0; 0; 1]). set (tracks := [([97], [112])]).
  assert (D : decode d = Some (mkmsg 1 [1; 2; 3; 4; 5; 6; 7; 8; 9; 10; 11; 12] [(6, [97; 58; 98])])) by (vm_compute; reflexivity).
  assert (B : bytesP d) by (apply Forall_forall; intros x Hx; unfold byteP; cbn in Hx; intuition lia).
  assert (Bi : bytesP (sa_ip from)) by (apply Forall_forall; intros x Hx; unfold byteP; cbn in Hx; intuition lia).
  destruct (stun_answer_partial d _ tracks from [10; 0; 0; 1] false B D (conj eq_refl eq_refl) Bi ltac:(cbn; lia)) as (Y & _).
  destruct (Y [97; 58; 98] [97] [112] eq_refl eq_refl) as (r & v & mac & fp & c & R & _).
  - exists [98]. split; [reflexivity |]. intros [I | []]; discriminate I.
  - exists [], []. split; [reflexivity |]. split; [intros [] | discriminate].
  - destruct (H d _ tracks from false (r, c) D R) as (name & pwd & m8 & i & _ & F & _). discriminate F.
Qed.
End Hmac.
Print Assumptions stun_request.
Print Assumptions stun_any.
Print Assumptions stun_answer_partial.
Print Assumptions stun_unchecked_refuted.

(** The attribute to use a candidate is not found when it is the last one. *)
Theorem stun_last_refuted : ~ (forall d m ty, bytesP d -> decode d = Some m -> hasAttribute d ty = Ok (match first ty (m_attrs m) with Some _ => true | None => false end)).
Proof.
  intros H. set (d := [0; 1; 0; 12; 0x21; 0x12; 0xa4; 0x42; 1; 2; 3; 4; 5; 6; 7; 8; 9; 10; 11; 12; 0; 6; 0; 3; 97; 58; 98; 0; 0; 0x25; 0; 0]).
  assert (B : bytesP d) by (apply Forall_forall; intros x Hx; unfold byteP; cbn in Hx; intuition lia).
  specialize (H d (mkmsg 1 [1; 2; 3; 4; 5; 6; 7; 8; 9; 10; 11; 12] [(6, [97; 58; 98]); (0x25, [])]) 0x25 B ltac:(vm_compute; reflexivity)). vm_compute in H. discriminate H.
Qed.
Print Assumptions stun_last_refuted.
(** Bytes that are not part of the message by its own length are read as attributes. *)
Theorem stun_length_refuted : ~ (forall d ty x, bytesP d -> 20 <= len d -> attribute d ty = Ok (Some x) -> exists m, decode d = Some m).
Proof.
  intros H. set (d := [0; 1; 0; 0; 0x21; 0x12; 0xa4; 0x42; 1; 2; 3; 4; 5; 6; 7; 8; 9; 10; 11; 12; 0; 6; 0; 3; 97; 58; 98; 0]).
  assert (B : bytesP d) by (apply Forall_forall; intros x Hx; unfold byteP; cbn in Hx; intuition lia).
  destruct (H d 6 [97; 58; 98] B ltac:(vm_compute; discriminate) ltac:(vm_compute; reflexivity)) as (m & Hm). vm_compute in Hm. discriminate Hm.
Qed.
Print Assumptions stun_length_refuted.

(** ** The hypotheses are met *)
Example stun_example : let hmac := fun k x => takez 20 (k ++ x ++ repeat 7 20) in
  match request hmac (repeat 9 12) (bs "ab:cd") (bs "secret") true with
  | Ok r => len r = 20 + 12 + 4 + 24 + 8 /\
      received hmac r [(bs "xy", bs "no"); (bs "ab", bs "pw")] (Build_sockaddr Inet6 0x1234 (v4_prefix ++ [10; 1; 2; 3])) false <> Ok None /\
      match received hmac r [(bs "xy", bs "no"); (bs "ab", bs "pw")] (Build_sockaddr Inet6 0x1234 (v4_prefix ++ [10; 1; 2; 3])) false with
      | Ok (Some (a, c)) => c = true /\ match decode a with Some m => m_tid m = repeat 9 12 /\ match first 0x20 (m_attrs m) with Some v => address (m_tid m) v = Some (0x1234, [10; 1; 2; 3]) | None => False end | None => False end
      | _ => False end
  | _ => False end.
Proof. vm_compute. repeat split. discriminate. Qed.
