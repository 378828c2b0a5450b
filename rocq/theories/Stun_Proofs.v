From Verif Require Import Common CommonFacts Mem_Model Mem_Proofs Outcome_Model Crc_Model Crc_Spec Crc_Props Addr_Model Mp4_Proofs Stun_Model Stun_Spec.

Definition pad (n : Z) : Z := (- n) mod 4.
Definition enc1 (a : Z * list Z) : list Z := be 2 (fst a) ++ be 2 (len (snd a)) ++ snd a ++ zeros (pad (len (snd a))).
Definition enc (l : list (Z * list Z)) : list Z := List.concat (map enc1 l).
Definition build (ty n : Z) (tid body : list Z) : list Z := be 2 ty ++ be 2 n ++ cookie ++ tid ++ body.
Lemma len_zeros n : 0 <= n -> len (zeros n) = n.
Proof. intros H. unfold zeros, len. rewrite repeat_length. lia. Qed.
Lemma len2 x : len (be 2 x) = 2. Proof. reflexivity. Qed.
Lemma len4 x : len (be 4 x) = 4. Proof. reflexivity. Qed.
Lemma len_cookie : len cookie = 4. Proof. reflexivity. Qed.
Lemma pad_range n : 0 <= pad n < 4. Proof. unfold pad. apply Z.mod_pos_bound. lia. Qed.
Lemma len_build ty n tid body : len tid = 12 -> len (build ty n tid body) = 20 + len body.
Proof. intros H. unfold build. rewrite !len_app, !len2, len_cookie. lia. Qed.
Lemma zeros_split a b : 0 <= a -> 0 <= b -> zeros (a + b) = zeros a ++ zeros b.
Proof. intros. unfold zeros. rewrite Z2Nat.inj_add by lia. apply repeat_app. Qed.
Lemma put_at (a x c y : list Z) i : i = len a -> len x = len y -> put (a ++ x ++ c) i y = Ok (a ++ y ++ c).
Proof. intros. unfold put. rewrite poke_at by assumption. reflexivity. Qed.
Lemma getn_front (x c : list Z) n : n = len x -> getn (x ++ c) 0 n = Ok x.
Proof. intros. apply (getn_at [] x c 0 n); [reflexivity | assumption]. Qed.

Lemma new_ok ty : newPacket ty = Ok (build ty 0 (zeros 12) []).
Proof.
  unfold newPacket. change (zeros 20) with (zeros 4 ++ zeros 4 ++ zeros 12). rewrite (put_at (zeros 4) (zeros 4)) by reflexivity. unfold setType.
  change (len _ <? 2) with false. cbv iota. change (zeros 4 ++ be 4 554869826 ++ zeros 12) with ([] ++ zeros 2 ++ zeros 2 ++ be 4 554869826 ++ zeros 12).
  rewrite put_at by reflexivity. unfold build. rewrite app_nil_r. reflexivity.
Qed.
Lemma tid_ok ty n tid body t : len tid = 12 -> len t = 12 -> put (build ty n tid body) 8 t = Ok (build ty n t body).
Proof.
  intros H H2. unfold build. replace (be 2 ty ++ be 2 n ++ cookie ++ tid ++ body) with ((be 2 ty ++ be 2 n ++ cookie) ++ tid ++ body) by (rewrite <- !app_assoc; reflexivity).
  rewrite put_at by (first [reflexivity | congruence]). rewrite <- !app_assoc. reflexivity.
Qed.
Lemma room_ok k t s ty n tid body : len tid = 12 -> 4 <= k ->
  addRoom k t s (build ty n tid body) = Ok (build ty (len body + k) tid (body ++ be 2 t ++ be 2 s ++ zeros (k - 4))).
Proof.
  intros H K. pose proof (len_nonneg body). unfold addRoom. cbv zeta. rewrite len_app, len_build, len_zeros by lia. replace (20 + len body + k - 20) with (len body + k) by lia.
  replace (zeros k) with (zeros 2 ++ zeros 2 ++ zeros (k - 4)) by (rewrite <- !zeros_split by lia; f_equal; lia).
  unfold build at 1. rewrite <- !app_assoc. rewrite (put_at (be 2 ty) (be 2 n) _ (be 2 (len body + k))) by reflexivity.
  replace (be 2 ty ++ be 2 (len body + k) ++ cookie ++ tid ++ body ++ zeros 2 ++ zeros 2 ++ zeros (k - 4)) with ((build ty (len body + k) tid body) ++ zeros 2 ++ zeros 2 ++ zeros (k - 4)) by (unfold build; rewrite <- !app_assoc; reflexivity).
  rewrite put_at by (first [rewrite len_build by exact H; reflexivity | reflexivity]).
  replace (build ty (len body + k) tid body ++ be 2 t ++ zeros 2 ++ zeros (k - 4)) with ((build ty (len body + k) tid body ++ be 2 t) ++ zeros 2 ++ zeros (k - 4)) by (rewrite <- !app_assoc; reflexivity).
  rewrite put_at by (first [rewrite len_app, len_build by exact H; reflexivity | reflexivity]). unfold build. rewrite <- !app_assoc. reflexivity.
Qed.
Lemma candidate_ok ty n tid body : len tid = 12 -> addUseCandidate (build ty n tid body) = Ok (build ty (len body + 4) tid (body ++ enc1 (STUN_ATTR_USE_CANDIDATE, []))).
Proof. intros H. unfold addUseCandidate. rewrite room_ok by (first [exact H | lia]). reflexivity. Qed.
Lemma build_app ty n tid body r : build ty n tid (body ++ r) = build ty n tid body ++ r.
Proof. unfold build. rewrite <- !app_assoc. reflexivity. Qed.
Lemma username_ok ty n tid body u : len tid = 12 ->
  addUsername u (build ty n tid body) = Ok (build ty (len body + len (enc1 (STUN_ATTR_USERNAME, u))) tid (body ++ enc1 (STUN_ATTR_USERNAME, u))).
Proof.
  intros H. unfold addUsername. pose proof (pad_range (len u)) as P. pose proof (len_nonneg u). pose proof (len_nonneg body).
  replace ((4 - len u mod 4) mod 4) with (pad (len u)) by (unfold pad; rewrite <- Zminus_mod_idemp_l; change (4 mod 4) with 0; rewrite Zminus_mod_idemp_r; f_equal; lia). cbv zeta.
  rewrite room_ok by (first [exact H | lia]). rewrite len_build by exact H. replace (4 + len u + pad (len u) - 4) with (len u + pad (len u)) by lia. rewrite zeros_split by lia.
  set (N := len body + _). rewrite !build_app.
  replace (build ty N tid body ++ be 2 STUN_ATTR_USERNAME ++ be 2 (len u) ++ zeros (len u) ++ zeros (pad (len u))) with ((build ty N tid body ++ be 2 STUN_ATTR_USERNAME ++ be 2 (len u)) ++ zeros (len u) ++ zeros (pad (len u))) by (rewrite <- !app_assoc; reflexivity).
  rewrite put_at by (first [rewrite !len_app, len_build, !len2 by exact H; lia | apply len_zeros; lia]).
  replace ((build ty N tid body ++ be 2 STUN_ATTR_USERNAME ++ be 2 (len u)) ++ u ++ zeros (pad (len u))) with ((build ty N tid body ++ be 2 STUN_ATTR_USERNAME ++ be 2 (len u) ++ u) ++ zeros (pad (len u)) ++ []) by (rewrite app_nil_r, <- !app_assoc; reflexivity).
  rewrite put_at by (first [rewrite !len_app, len_build, !len2 by exact H; lia | reflexivity]). unfold enc1. cbn [fst snd]. rewrite app_nil_r, <- !app_assoc. f_equal. f_equal. unfold N. rewrite !len_app, !len2, len_zeros by lia. f_equal. lia.
Qed.
Section HMAC.
Variable hmac : list Z -> list Z -> list Z.
Hypothesis hmac_len : forall k x, len (hmac k x) = 20.
Lemma integrity_ok ty n tid body pwd : len tid = 12 ->
  addIntegrity hmac pwd (build ty n tid body) = Ok (build ty (len body + 24) tid (body ++ enc1 (STUN_ATTR_MESSAGE_INTEGRITY, hmac pwd (build ty (len body + 24) tid body)))).
Proof.
  intros H. unfold addIntegrity. cbv zeta. rewrite room_ok by (first [exact H | lia]). rewrite len_build by exact H. rewrite !build_app. rewrite getn_front by (rewrite len_build by exact H; reflexivity).
  change (zeros (24 - 4)) with (zeros 20). set (M := build ty (len body + 24) tid body).
  replace (M ++ be 2 STUN_ATTR_MESSAGE_INTEGRITY ++ be 2 20 ++ zeros 20) with ((M ++ be 2 STUN_ATTR_MESSAGE_INTEGRITY ++ be 2 20) ++ zeros 20 ++ []) by (rewrite app_nil_r, <- !app_assoc; reflexivity).
  rewrite put_at by (first [unfold M; rewrite !len_app, len_build, !len2 by exact H; lia | rewrite hmac_len; reflexivity]).
  unfold enc1. cbn [fst snd]. rewrite hmac_len. change (zeros (pad 20)) with (@nil Z). rewrite !app_nil_r, <- !app_assoc. reflexivity.
Qed.
End HMAC.
Lemma fingerprint_ok ty n tid body : len tid = 12 ->
  addFingerprint (build ty n tid body) = Ok (build ty (len body + 8) tid (body ++ enc1 (STUN_ATTR_FINGERPRINT, be 4 (Z.lxor (Z.lxor (crc32LE 0xFFFFFFFF (build ty (len body + 8) tid body)) 0xFFFFFFFF) 0x5354554e)))).
Proof.
  intros H. unfold addFingerprint. cbv zeta. rewrite room_ok by (first [exact H | lia]). rewrite len_build by exact H. rewrite !build_app. rewrite getn_front by (rewrite len_build by exact H; reflexivity).
  change (zeros (8 - 4)) with (zeros 4). set (M := build ty (len body + 8) tid body). change (Z.lxor 0 4294967295) with 4294967295.
  replace (M ++ be 2 STUN_ATTR_FINGERPRINT ++ be 2 4 ++ zeros 4) with ((M ++ be 2 STUN_ATTR_FINGERPRINT ++ be 2 4) ++ zeros 4 ++ []) by (rewrite app_nil_r, <- !app_assoc; reflexivity).
  rewrite put_at by (first [unfold M; rewrite !len_app, len_build, !len2 by exact H; lia | reflexivity]).
  unfold enc1. cbn [fst snd]. rewrite len4. change (zeros (pad 4)) with (@nil Z). rewrite !app_nil_r, <- !app_assoc. reflexivity.
Qed.

(** The value for an address. *)
Definition real_ip (a : sockaddr) : list Z := if is4in6 a then dropz 12 (sa_ip a) else sa_ip a.
Definition addr_ok (a : sockaddr) : Prop :=
  match sa_family a with Inet => len (sa_ip a) = 4 | Inet6 => len (sa_ip a) = 16 | OtherFamily => False end /\ bytesP (sa_ip a) /\ 0 <= sa_port a < 65536.
Definition addr_value (tid : list Z) (a : sockaddr) : list Z :=
  [0; if len (real_ip a) =? 4 then 1 else 2] ++ xors (be 2 (sa_port a)) cookie ++ xors (real_ip a) (cookie ++ tid).
Lemma len_xors a b : len a <= len b -> len (xors a b) = len a.
Proof. revert b. induction a as [| x a IH]; intros [| y b] H; rewrite ?len_cons in *; try reflexivity; [pose proof (len_nonneg a); change (len (@nil Z)) with 0 in H; lia |]. cbn [xors]. rewrite !len_cons, IH by lia. reflexivity. Qed.
Lemma xors_take a b : len a <= len b -> xors a (takez (len a) b) = xors a b.
Proof.
  revert b. induction a as [| x a IH]; intros b H; [reflexivity |]. destruct b as [| y b]; [unfold takez; rewrite firstn_nil; reflexivity |].
  rewrite !len_cons in *. pose proof (len_nonneg a). unfold takez. replace (Z.to_nat (1 + len a)) with (S (Z.to_nat (len a))) by lia. cbn [firstn xors]. f_equal. apply IH. lia.
Qed.
Lemma real_len a : addr_ok a -> len (real_ip a) = (if match sa_family a with Inet => true | _ => is4in6 a end then 4 else 16) /\
  getn (sa_ip a) (if is4in6 a then 12 else 0) (if match sa_family a with Inet => true | _ => is4in6 a end then 4 else 16) = Ok (real_ip a).
Proof.
  intros (H & _ & _). unfold real_ip, is4in6. destruct (sa_family a); [| | contradiction].
  - split; [exact H |]. rewrite <- (app_nil_r (sa_ip a)) at 1. apply getn_front. lia.
  - destruct (beqb (takez 12 (sa_ip a)) v4_prefix) eqn:E.
    + split; [rewrite len_dropz; lia |]. rewrite <- (takez_dropz 12 (sa_ip a)) at 1. rewrite <- (app_nil_r (dropz 12 (sa_ip a))) at 1.
      apply getn_at; [rewrite len_takez; lia | rewrite len_dropz; lia].
    + split; [exact H |]. rewrite <- (app_nil_r (sa_ip a)) at 1. apply getn_front. lia.
Qed.
Lemma xor_ok a ty n tid body : len tid = 12 -> addr_ok a ->
  addXorMappedAddress a (build ty n tid body) = Ok (build ty (len body + len (enc1 (STUN_ATTR_XOR_MAPPED_ADDRESS, addr_value tid a))) tid (body ++ enc1 (STUN_ATTR_XOR_MAPPED_ADDRESS, addr_value tid a))).
Proof.
  intros H A. destruct (real_len a A) as (L & G). unfold addXorMappedAddress.
  assert (F : sa_family a <> OtherFamily) by (destruct A as (A & _); intros E; rewrite E in A; exact A).
  set (four := match sa_family a with Inet => true | _ => is4in6 a end) in *. 
  transitivity (let n0 := if four then 4 else 16 in let o := len (build ty n tid body) in
      d <~ addRoom (n0 + 8) STUN_ATTR_XOR_MAPPED_ADDRESS (n0 + 4) (build ty n tid body);;
      d <~ put d (o + 4) [0; if four then 1 else 2];;
      c <~ getn d 4 2;; d <~ put d (o + 6) (xors (be 2 (sa_port a)) c);;
      p <~ getn (sa_ip a) (if is4in6 a then 12 else 0) n0;; c <~ getn d 4 n0;; put d (o + 8) (xors p c)).
  { unfold four. destruct (sa_family a); [reflexivity | reflexivity | congruence]. }
  cbv zeta. set (k := if four then 4 else 16) in *. assert (K : k = 4 \/ k = 16) by (unfold k; destruct four; auto).
  rewrite len_build by exact H. rewrite room_ok by (first [exact H | lia]).
  replace (zeros (k + 8 - 4)) with (zeros 2 ++ zeros 2 ++ zeros k) by (rewrite <- !zeros_split by lia; f_equal; lia).
  set (N := len body + (k + 8)). set (head := be 2 STUN_ATTR_XOR_MAPPED_ADDRESS ++ be 2 (k + 4)). set (M := build ty N tid (body ++ head)).
  assert (LM : len M = 20 + len body + 4) by (unfold M; rewrite len_build by exact H; rewrite len_app; unfold head; rewrite len_app, !len2; lia).
  replace (build ty N tid (body ++ be 2 STUN_ATTR_XOR_MAPPED_ADDRESS ++ be 2 (k + 4) ++ zeros 2 ++ zeros 2 ++ zeros k)) with (M ++ zeros 2 ++ zeros 2 ++ zeros k)
    by (unfold M, head; rewrite <- build_app, <- !app_assoc; reflexivity).
  rewrite put_at by (first [lia | reflexivity]). set (f2 := [0; if four then 1 else 2]).
  assert (C : forall X j, 0 <= j <= 16 -> getn (M ++ X) 4 j = Ok (takez j (cookie ++ tid))).
  { intros X j Hj. assert (T : cookie ++ tid = takez j (cookie ++ tid) ++ dropz j (cookie ++ tid)) by (symmetry; apply takez_dropz).
    transitivity (getn ((be 2 ty ++ be 2 N) ++ takez j (cookie ++ tid) ++ dropz j (cookie ++ tid) ++ (body ++ head) ++ X) 4 j).
    - rewrite (app_assoc (takez j (cookie ++ tid))), takez_dropz. unfold M, build. rewrite <- !app_assoc. reflexivity.
    - apply getn_at; [reflexivity |]. rewrite len_takez; [reflexivity |]. rewrite len_app, len_cookie. lia. }
  rewrite C by lia. change (takez 2 (cookie ++ tid)) with (takez 2 cookie). set (pt := xors (be 2 (sa_port a)) (takez 2 cookie)). assert (Lp : len pt = 2) by reflexivity.
  replace (M ++ f2 ++ zeros 2 ++ zeros k) with ((M ++ f2) ++ zeros 2 ++ zeros k) by (rewrite <- !app_assoc; reflexivity).
  rewrite put_at by (first [rewrite len_app; change (len f2) with 2; lia | reflexivity]). rewrite G.
  replace ((M ++ f2) ++ pt ++ zeros k) with (M ++ f2 ++ pt ++ zeros k) by (rewrite <- !app_assoc; reflexivity). rewrite C by lia.
  replace (M ++ f2 ++ pt ++ zeros k) with ((M ++ f2 ++ pt) ++ zeros k ++ []) by (rewrite app_nil_r, <- !app_assoc; reflexivity).
  assert (LX : len (xors (real_ip a) (cookie ++ tid)) = k) by (rewrite len_xors by (rewrite L, len_app, len_cookie; lia); exact L).
  assert (X2 : xors (real_ip a) (takez k (cookie ++ tid)) = xors (real_ip a) (cookie ++ tid)) by (rewrite <- L; apply xors_take; rewrite L, len_app, len_cookie; lia).
  rewrite X2. rewrite put_at by (first [rewrite !len_app; change (len f2) with 2; lia | rewrite LX, len_zeros by lia; reflexivity]).
  assert (LV : len (addr_value tid a) = 4 + k) by (unfold addr_value; rewrite !len_app, LX; change (len (xors (be 2 (sa_port a)) cookie)) with 2; change (len [0; if len (real_ip a) =? 4 then 1 else 2]) with 2; lia).
  assert (EV : addr_value tid a = f2 ++ pt ++ xors (real_ip a) (cookie ++ tid)).
  { unfold addr_value, f2. rewrite L. f_equal. f_equal. f_equal. unfold k. destruct four; reflexivity. }
  f_equal. rewrite app_nil_r. unfold enc1. cbn [fst snd]. rewrite LV. rewrite !len_app, !len2, LV.
  assert (PZ : pad (4 + k) = 0) by (destruct K as [-> | ->]; reflexivity). rewrite PZ. change (zeros 0) with (@nil Z). rewrite EV. unfold M, head, N. rewrite <- !build_app, <- !app_assoc, app_nil_r. f_equal; [change (len (@nil Z)) with 0; lia |]. replace (k + 4) with (4 + k) by lia. reflexivity.
Qed.

(** ** Reading *)
Definition attr_ok (a : Z * list Z) : Prop := 0 <= fst a < 65536 /\ len (snd a) < 65536.
Lemma len_enc1 a : len (enc1 a) = 4 + len (snd a) + pad (len (snd a)).
Proof. unfold enc1. pose proof (pad_range (len (snd a))). rewrite !len_app, !len2, len_zeros by lia. lia. Qed.
Lemma enc_cons a l : enc (a :: l) = enc1 a ++ enc l. Proof. reflexivity. Qed.
Lemma enc_app a b : enc (a ++ b) = enc a ++ enc b. Proof. unfold enc. rewrite map_app, concat_app. reflexivity. Qed.
Lemma enc_one a : enc [a] = enc1 a. Proof. unfold enc. cbn [map List.concat]. apply app_nil_r. Qed.
Lemma unbe2 v : 0 <= v < 65536 -> unbe (be 2 v) = v.
Proof. intros H. rewrite unbe_be. apply Z.mod_small. exact H. Qed.
Lemma attributes_ok l : Forall attr_ok l -> forall fuel, (List.length l < fuel)%nat -> attributes fuel (enc l) = Some l.
Proof.
  induction 1 as [| (t, v) l (A1 & A2) F IH]; intros [| fuel] K; try (cbn in K; lia); [reflexivity |]. cbn [fst snd] in A1, A2. cbn [attributes]. rewrite enc_cons.
  pose proof (pad_range (len v)). pose proof (len_nonneg v). pose proof (len_nonneg (enc l)). rewrite !len_app, len_enc1. cbn [snd].
  destruct (Z.eqb_spec (4 + len v + pad (len v) + len (enc l)) 0); [lia |]. destruct (Z.ltb_spec (4 + len v + pad (len v) + len (enc l)) 4); [lia |].
  unfold enc1. cbn [fst snd]. rewrite <- !app_assoc.
  assert (T0 : takez 2 (be 2 t ++ be 2 (len v) ++ v ++ zeros (pad (len v)) ++ enc l) = be 2 t) by reflexivity.
  assert (T1 : takez 2 (dropz 2 (be 2 t ++ be 2 (len v) ++ v ++ zeros (pad (len v)) ++ enc l)) = be 2 (len v)) by reflexivity. rewrite T1, T0, !unbe2 by lia.
  change ((- len v) mod 4) with (pad (len v)). destruct (Z.ltb_spec (4 + len v + pad (len v) + len (enc l)) (4 + len v + pad (len v))); [lia |].
  assert (D : dropz (4 + len v + pad (len v)) (be 2 t ++ be 2 (len v) ++ v ++ zeros (pad (len v)) ++ enc l) = enc l).
  { replace (be 2 t ++ be 2 (len v) ++ v ++ zeros (pad (len v)) ++ enc l) with (enc1 (t, v) ++ enc l) by (unfold enc1; cbn [fst snd]; rewrite <- !app_assoc; reflexivity). apply dropz_app_exact. rewrite len_enc1. reflexivity. }
  rewrite D, IH by (cbn in K; lia). change (dropz 4 (be 2 t ++ be 2 (len v) ++ v ++ zeros (pad (len v)) ++ enc l)) with (v ++ zeros (pad (len v)) ++ enc l). rewrite takez_app_exact by reflexivity. reflexivity.
Qed.
Lemma len_enc_ge l : Z.of_nat (List.length l) <= len (enc l).
Proof. induction l as [| a l IH]; [cbn; lia |]. rewrite enc_cons, len_app, len_enc1. pose proof (len_nonneg (snd a)). pose proof (pad_range (len (snd a))). cbn [List.length]. lia. Qed.
Lemma decode_ok ty tid l : len tid = 12 -> 0 <= ty < 65536 -> Forall attr_ok l -> len (enc l) < 65536 ->
  decode (build ty (len (enc l)) tid (enc l)) = Some (mkmsg ty tid l).
Proof.
  intros H T F L. unfold decode. rewrite len_build by exact H. pose proof (len_nonneg (enc l)).
  destruct (Z.ltb_spec (20 + len (enc l)) 20); [lia |]. unfold build.
  change (takez 4 (dropz 4 (be 2 ty ++ be 2 (len (enc l)) ++ cookie ++ tid ++ enc l))) with cookie. change (beqb cookie cookie) with true.
  change (takez 2 (dropz 2 (be 2 ty ++ be 2 (len (enc l)) ++ cookie ++ tid ++ enc l))) with (be 2 (len (enc l))). change (takez 2 (be 2 ty ++ be 2 (len (enc l)) ++ cookie ++ tid ++ enc l)) with (be 2 ty).
  rewrite !unbe2 by lia. replace (20 + len (enc l) - 20) with (len (enc l)) by lia. rewrite Z.eqb_refl. cbn [negb orb].
  assert (D : dropz 20 (be 2 ty ++ be 2 (len (enc l)) ++ cookie ++ tid ++ enc l) = enc l).
  { replace (be 2 ty ++ be 2 (len (enc l)) ++ cookie ++ tid ++ enc l) with ((be 2 ty ++ be 2 (len (enc l)) ++ cookie ++ tid) ++ enc l) by (rewrite <- !app_assoc; reflexivity).
    apply dropz_app_exact. rewrite !len_app, !len2, len_cookie. lia. }
  rewrite D. rewrite attributes_ok; [| exact F |].
  - change (dropz 8 (be 2 ty ++ be 2 (len (enc l)) ++ cookie ++ tid ++ enc l)) with (tid ++ enc l). rewrite takez_app_exact by lia. reflexivity.
  - pose proof (len_enc_ge l). pose proof (len_build ty (len (enc l)) tid (enc l) H) as B. unfold build, len in B. unfold len in *. lia.
Qed.
(** Reading by the code. *)
Lemma dropz_sum {A} a b (l : list A) : 0 <= a -> 0 <= b -> dropz (a + b) l = dropz b (dropz a l).
Proof. intros. rewrite dropz_dropz by assumption. f_equal. lia. Qed.
Lemma attr_loop_ok d ty : forall fuel2 l fuel offset as_, l = dropz offset d -> 20 <= offset <= len d -> offset mod 4 = 0 -> attributes fuel2 l = Some as_ -> (List.length l < fuel)%nat -> bytesP d ->
  attr_loop fuel d ty offset = Ok (first ty as_) \/ (attr_loop fuel d ty offset = Ok None /\ exists r, as_ = r ++ [(ty, [])] /\ first ty r = None).
Proof.
  induction fuel2 as [| fuel2 IH]; intros l fuel offset as_ E O M A K B; [discriminate |]. cbn [attributes] in A.
  assert (LL : len l = len d - offset) by (subst l; rewrite len_dropz; lia). destruct fuel as [| fuel]; [lia |]. cbn [attr_loop].
  assert (Bl : bytesP l) by (subst l; apply bytesP_dropz; exact B).
  destruct (Z.eqb_spec (len l) 0) as [Z0 | Z0]. { injection A as <-. left. destruct (Z.ltb_spec (offset + 4) (len d)); [lia | reflexivity]. }
  destruct (Z.ltb_spec (len l) 4) as [Z4 | Z4]; [discriminate |]. set (n := unbe (takez 2 (dropz 2 l))) in *.
  assert (Hn : 0 <= n < 65536). { unfold n. pose proof (unbe_bound (takez 2 (dropz 2 l)) (bytesP_takez _ _ (bytesP_dropz _ _ Bl))) as U. rewrite len_takez in U by (rewrite len_dropz; lia). exact U. }
  change ((- n) mod 4) with (pad n) in A. pose proof (pad_range n) as P. destruct (Z.ltb_spec (len l) (4 + n + pad n)) as [Zw | Zw]; [discriminate |].
  destruct (attributes fuel2 (dropz (4 + n + pad n) l)) as [r |] eqn:Ar; [| discriminate]. injection A as <-.
  assert (G0 : getbe d offset 2 = Ok (unbe (takez 2 l))) by (unfold getbe, getn; rewrite peek_some by lia; rewrite <- E; reflexivity).
  assert (G1 : getbe d (offset + 2) 2 = Ok n) by (unfold getbe, getn; rewrite peek_some by lia; rewrite dropz_sum, <- E by lia; reflexivity).
  cbn [first]. destruct (Z.ltb_spec (offset + 4) (len d)) as [L4 | L4].
  - rewrite G0, G1. destruct (Z.ltb_spec (len d) (offset + 4 + n)) as [L | L]; [lia |]. destruct (Z.eqb_spec (unbe (takez 2 l)) ty) as [T | T].
    + left. unfold getn. rewrite peek_some by lia. rewrite dropz_sum, <- E by lia. reflexivity.
    + assert (NO : (offset + 4 + n + 3) / 4 * 4 = offset + (4 + n + pad n)).
      { unfold pad. pose proof (Z.div_mod offset 4). pose proof (Z.div_mod (- n) 4 ltac:(lia)). pose proof (Z.mod_pos_bound (- n) 4). 
        assert (Q : (offset + 4 + n + 3) / 4 = offset / 4 + 1 - (- n) / 4); [| lia]. symmetry. apply (Z.div_unique _ _ _ (3 - (- n) mod 4)); lia. }
      rewrite NO. destruct (IH (dropz (4 + n + pad n) l) fuel (offset + (4 + n + pad n)) r) as [R | (R & q & Eq & Fq)].
      * subst l. rewrite (dropz_sum offset) by lia. reflexivity.
      * lia.
      * unfold pad. pose proof (Z.div_mod (- n) 4 ltac:(lia)). replace (offset + (4 + n + (- n) mod 4)) with (offset + (1 - (- n) / 4) * 4) by lia. rewrite Z_mod_plus_full. exact M.
      * exact Ar.
      * pose proof (len_dropz (4 + n + pad n) l) as Ld. unfold len in *. lia.
      * exact B.
      * left. exact R.
      * right. split; [exact R |]. exists ((unbe (takez 2 l), takez n (dropz 4 l)) :: q). split; [rewrite Eq; reflexivity |]. cbn [first]. destruct (Z.eqb_spec (unbe (takez 2 l)) ty); [lia | exact Fq].
  - assert (n = 0) by lia. assert (LZ : len l = 4) by lia. assert (r = []).
    { assert (len (dropz (4 + n + pad n) l) = 0) by (rewrite len_dropz; lia). destruct fuel2; [discriminate |]. cbn [attributes] in Ar. rewrite (proj2 (Z.eqb_eq _ _)) in Ar by assumption. congruence. }
    subst r. rewrite H. replace (takez 0 (dropz 4 l)) with (@nil Z) by reflexivity. destruct (Z.eqb_spec (unbe (takez 2 l)) ty) as [T | T].
    + right. split; [reflexivity |]. exists []. rewrite <- T. split; reflexivity.
    + left. reflexivity.
Qed.
Lemma attr_loop_safe d ty : bytesP d -> forall fuel offset, 0 <= offset -> (Z.to_nat (len d - offset) < fuel)%nat -> exists x, attr_loop fuel d ty offset = Ok x.
Proof.
  intros B. induction fuel as [| fuel IH]; intros offset O K; [lia |]. cbn [attr_loop]. destruct (Z.ltb_spec (offset + 4) (len d)) as [L | L]; [| eauto].
  assert (N : forall i, 0 <= i -> i + 2 <= len d -> exists v, getbe d i 2 = Ok v /\ 0 <= v).
  { intros i Hi Hl. unfold getbe, getn. rewrite peek_some by lia. eexists. split; [reflexivity |]. apply unbe_bound. apply bytesP_takez, bytesP_dropz, B. }
  destruct (N offset) as (t & -> & _); [lia | lia |]. destruct (N (offset + 2)) as (l & -> & Hl); [lia | lia |].
  destruct (Z.ltb_spec (len d) (offset + 4 + l)) as [L2 | L2]; [eauto |]. destruct (t =? ty).
  - unfold getn. rewrite peek_some by lia. eauto.
  - apply IH; [pose proof (Z.div_pos (offset + 4 + l + 3) 4); lia |]. pose proof (Z.div_mod (offset + 4 + l + 3) 4 ltac:(lia)). pose proof (Z.mod_pos_bound (offset + 4 + l + 3) 4). lia.
Qed.
Lemma decode_inv d m : decode d = Some m -> 20 <= len d /\ takez 4 (dropz 4 d) = cookie /\ m_type m = unbe (takez 2 d) /\ m_tid m = takez 12 (dropz 8 d) /\ attributes (S (List.length d)) (dropz 20 d) = Some (m_attrs m).
Proof.
  unfold decode. destruct (Z.ltb_spec (len d) 20); [discriminate |]. destruct (beqb (takez 4 (dropz 4 d)) cookie) eqn:C; [| discriminate]. cbn [negb orb].
  destruct (unbe (takez 2 (dropz 2 d)) =? len d - 20); [| discriminate]. cbn [negb]. destruct (attributes _ _) as [a |]; [| discriminate]. intros E. injection E as <-. cbn [m_type m_tid m_attrs].
  apply beqb_eq in C. auto.
Qed.
Lemma attribute_ok d m ty : decode d = Some m -> bytesP d ->
  attribute d ty = Ok (first ty (m_attrs m)) \/ (attribute d ty = Ok None /\ exists r, m_attrs m = r ++ [(ty, [])] /\ first ty r = None).
Proof.
  intros D B. destruct (decode_inv d m D) as (L & _ & _ & _ & A). unfold attribute. apply (attr_loop_ok d ty (S (List.length d)) (dropz 20 d)); [reflexivity | lia | reflexivity | exact A | | exact B].
  pose proof (len_dropz 20 d) as Ld. unfold len in *. lia.
Qed.

(** ** Integrity and fingerprint *)
Lemma upto_ok ty n tid body r i e : len tid = 12 -> i = 20 + len body -> upto (build ty n tid (body ++ r)) i e = build ty (e - 20) tid body.
Proof.
  intros H ->. unfold upto, build. change (takez 2 (be 2 ty ++ be 2 n ++ cookie ++ tid ++ body ++ r)) with (be 2 ty).
  change (dropz 4 (be 2 ty ++ be 2 n ++ cookie ++ tid ++ body ++ r)) with (cookie ++ tid ++ body ++ r). do 2 f_equal.
  replace (cookie ++ tid ++ body ++ r) with ((cookie ++ tid ++ body) ++ r) by (rewrite <- !app_assoc; reflexivity). apply takez_app_exact. rewrite !len_app, len_cookie. lia.
Qed.
Lemma enc1_whole t v : pad (len v) = 0 -> enc1 (t, v) = be 2 t ++ be 2 (len v) ++ v.
Proof. intros H. unfold enc1. cbn [fst snd]. rewrite H. change (zeros 0) with (@nil Z). rewrite app_nil_r. reflexivity. Qed.
Lemma bytes_zeros n : bytesP (zeros n).
Proof. unfold zeros. apply Forall_forall. intros x Hx. apply repeat_spec in Hx. subst x. unfold byteP. lia. Qed.
Lemma bytes_build ty n tid body : bytesP tid -> bytesP body -> bytesP (build ty n tid body).
Proof. intros H1 H2. unfold build. rewrite !bytesP_app. repeat split; try apply be_bytes; try assumption. unfold cookie. repeat constructor; lia. Qed.
Lemma bytes_enc l : Forall (fun a => bytesP (snd a)) l -> bytesP (enc l).
Proof. induction 1 as [| a l A F IH]; [constructor |]. rewrite enc_cons. unfold enc1. rewrite !bytesP_app. repeat split; try apply be_bytes; try assumption. apply bytes_zeros. Qed.
Section Finish.
Variable hmac : list Z -> list Z -> list Z.
Hypothesis hmac_len : forall k x, len (hmac k x) = 20.
Hypothesis hmac_bytes : forall k x, bytesP (hmac k x).
Lemma finish_ok ty n tid l pwd : len tid = 12 -> bytesP tid -> 0 <= ty < 65536 -> Forall attr_ok l -> Forall (fun a => bytesP (snd a)) l -> len (enc l) + 32 < 65536 ->
  exists r mac fp, (d <~ addIntegrity hmac pwd (build ty n tid (enc l));; addFingerprint d) = Ok r /\ decode r = Some (mkmsg ty tid (l ++ [(8, mac); (0x8028, fp)])) /\
    authentic hmac pwd r (len r - 32) /\ fingerprinted r.
Proof.
  intros H Bt T F Fb L. pose proof (len_nonneg (enc l)) as L0. rewrite (integrity_ok hmac hmac_len) by exact H.
  set (mac := hmac pwd (build ty (len (enc l) + 24) tid (enc l))). rewrite <- enc_one, <- enc_app. rewrite fingerprint_ok by exact H.
  set (l1 := l ++ [(STUN_ATTR_MESSAGE_INTEGRITY, mac)]). set (fp := be 4 _). rewrite <- enc_one, <- enc_app. set (l2 := l1 ++ [(STUN_ATTR_FINGERPRINT, fp)]).
  assert (Lm : len mac = 20) by apply hmac_len. assert (Lf : len fp = 4) by reflexivity.
  assert (M1 : len (enc l1) = len (enc l) + 24) by (unfold l1; rewrite enc_app, enc_one, len_app, len_enc1; cbn [snd]; rewrite Lm; reflexivity).
  assert (M2 : len (enc l2) = len (enc l1) + 8) by (unfold l2; rewrite enc_app, enc_one, len_app, len_enc1; cbn [snd]; rewrite Lf; reflexivity).
  rewrite <- M2. exists (build ty (len (enc l2)) tid (enc l2)), mac, fp. split; [reflexivity |].
  assert (E2 : l ++ [(8, mac); (0x8028, fp)] = l2) by (unfold l2, l1; rewrite <- app_assoc; reflexivity). rewrite E2.
  split; [| split].
  - apply decode_ok; [exact H | exact T | | lia]. unfold l2, l1. apply Forall_app. split; [apply Forall_app; split; [exact F |] |]; (constructor; [| constructor]); unfold attr_ok; cbn [fst snd]; rewrite ?Lm, ?Lf; unfold STUN_ATTR_MESSAGE_INTEGRITY, STUN_ATTR_FINGERPRINT; lia.
  - unfold authentic. rewrite len_build by exact H. replace (20 + len (enc l2) - 32) with (20 + len (enc l)) by lia.
    assert (S2 : enc l2 = enc l ++ enc1 (STUN_ATTR_MESSAGE_INTEGRITY, mac) ++ enc1 (STUN_ATTR_FINGERPRINT, fp)) by (unfold l2, l1; rewrite !enc_app, !enc_one, <- app_assoc; reflexivity).
    rewrite S2. set (n2 := len (enc l ++ _)).
    assert (DD : dropz (20 + len (enc l)) (build ty n2 tid (enc l ++ enc1 (STUN_ATTR_MESSAGE_INTEGRITY, mac) ++ enc1 (STUN_ATTR_FINGERPRINT, fp))) = enc1 (STUN_ATTR_MESSAGE_INTEGRITY, mac) ++ enc1 (STUN_ATTR_FINGERPRINT, fp)).
    { rewrite build_app. apply dropz_app_exact. rewrite len_build by exact H. reflexivity. }
    rewrite DD. rewrite takez_app_exact by (rewrite len_enc1; cbn [snd]; rewrite Lm; reflexivity).
    rewrite enc1_whole by (rewrite Lm; reflexivity). rewrite Lm. rewrite upto_ok by (first [exact H | reflexivity]). replace (20 + len (enc l) + 24 - 20) with (len (enc l) + 24) by lia. reflexivity.
  - unfold fingerprinted. cbv zeta. rewrite len_build by exact H. replace (20 + len (enc l2) - 8) with (20 + len (enc l1)) by lia.
    assert (S2 : enc l2 = enc l1 ++ enc1 (STUN_ATTR_FINGERPRINT, fp)) by (unfold l2; rewrite enc_app, enc_one; reflexivity).
    rewrite S2 at 2 4. rewrite upto_ok by (first [exact H | reflexivity]). rewrite build_app, dropz_app_exact by (rewrite len_build by exact H; reflexivity).
    rewrite enc1_whole by (rewrite Lf; reflexivity). rewrite Lf. do 2 f_equal. unfold fp, crc32_itu. rewrite crc32LE_is_division; [| | lia].
    + replace (20 + len (enc l2) - 20) with (len (enc l1) + 8) by lia. reflexivity.
    + apply bytes_build; [exact Bt |]. apply bytes_enc. unfold l1. apply Forall_app. split; [exact Fb |]. constructor; [apply hmac_bytes | constructor].
Qed.
Lemma request_ok random user pwd c : 12 <= len random -> bytesP random -> bytesP user -> len user < 65000 ->
  exists r mac fp, request hmac random user pwd c = Ok r /\
    decode r = Some (mkmsg 1 (takez 12 random) ((6, user) :: (if c then [(0x25, [])] else []) ++ [(8, mac); (0x8028, fp)])) /\
    authentic hmac pwd r (len r - 32) /\ fingerprinted r.
Proof.
  intros R Br Bu Lu. unfold request. rewrite new_ok. unfold genTID. assert (Lt : len (takez 12 random) = 12) by (rewrite len_takez; lia).
  rewrite len_build by reflexivity. change (20 + len (@nil Z) <? 20) with false. cbv iota. rewrite tid_ok by (first [reflexivity | exact Lt]).
  rewrite username_ok by exact Lt. cbn [app]. pose proof (len_nonneg user) as Lu0. pose proof (pad_range (len user)) as Pu.
  assert (Len1 : len (enc [(6, user)]) = 4 + len user + pad (len user)) by (rewrite enc_one, len_enc1; reflexivity).
  set (l := (6, user) :: (if c then [(0x25, [])] else [])).
  assert (Q : exists n, (if c then addUseCandidate (build STUN_MSG_BINDING_REQUEST (len (@nil Z) + len (enc1 (STUN_ATTR_USERNAME, user))) (takez 12 random) (enc1 (STUN_ATTR_USERNAME, user))) else Ok (build STUN_MSG_BINDING_REQUEST (len (@nil Z) + len (enc1 (STUN_ATTR_USERNAME, user))) (takez 12 random) (enc1 (STUN_ATTR_USERNAME, user)))) = Ok (build 1 n (takez 12 random) (enc l))).
  { destruct c; eexists; [rewrite candidate_ok by exact Lt |]; unfold l; [rewrite enc_cons, enc_one | rewrite enc_one]; reflexivity. }
  destruct Q as (n & ->).
  destruct (finish_ok 1 n (takez 12 random) l pwd) as (r & mac & fp & E & D & A & G); [exact Lt | apply bytesP_takez; exact Br | lia | | | |].
  - unfold l. constructor; [unfold attr_ok; cbn [fst snd]; lia |]. destruct c; constructor; [| constructor]. unfold attr_ok. cbn [fst snd]. change (len (@nil Z)) with 0. lia.
  - unfold l. constructor; [exact Bu |]. destruct c; constructor; constructor.
  - unfold l. destruct c; [rewrite enc_cons, len_app, enc_one, !len_enc1; cbn [snd]; change (len (@nil Z)) with 0; change (pad 0) with 0; lia | lia].
  - exists r, mac, fp. split; [exact E |]. split; [exact D |]. split; assumption.
Qed.
Lemma lookup_inv name l : (lookup name l = [] /\ (forall pwd a b, l = a ++ (name, pwd) :: b -> ~ In name (map fst a) -> pwd = [])) \/ exists a b, l = a ++ (name, lookup name l) :: b /\ ~ In name (map fst a).
Proof.
  induction l as [| (u, p) l IH]; cbn [lookup].
  - left. split; [reflexivity |]. intros pwd a b E. destruct a; discriminate.
  - destruct (beqb u name) eqn:B.
    + apply beqb_eq in B. subst u. right. exists [], l. split; [reflexivity | intros []].
    + assert (N : u <> name) by (intros ->; rewrite (proj2 (beqb_eq name name) eq_refl) in B; discriminate).
      destruct IH as [(E & F) | (a & b & E & F)].
      * left. split; [exact E |]. intros pwd [| (u', p') a] b Q NI; cbn in Q; [congruence |]. assert (Q2 : l = a ++ (name, pwd) :: b) by congruence. apply (F pwd a b Q2). intros I. apply NI. right. exact I.
      * right. exists ((u, p) :: a), b. split; [cbn; congruence |]. cbn. intros [I | I]; [congruence | contradiction].
Qed.
Lemma colon_ok l name : colon l = Some name <-> exists rest, l = name ++ 58 :: rest /\ ~ In 58 name.
Proof.
  revert name. induction l as [| c l IH]; intros name; cbn [colon].
  - split; [discriminate |]. intros (rest & E & _). destruct name; discriminate.
  - destruct (Z.eqb_spec c 58) as [-> | N].
    + split; [intros E; injection E as <-; exists l; split; [reflexivity | intros []] |]. intros (rest & E & NI). destruct name as [| x name]; [reflexivity |]. injection E as <- _. exfalso. apply NI. left. reflexivity.
    + destruct (colon l) as [x |] eqn:C.
      * split.
        -- intros E. injection E as <-. destruct (proj1 (IH x) eq_refl) as (rest & -> & NI). exists rest. split; [reflexivity |]. intros [I | I]; [congruence | contradiction].
        -- intros (rest & E & NI). destruct name as [| y name]; [cbn in E; congruence |]. injection E as <- E. f_equal. f_equal. assert (Some x = Some name) as X; [| congruence]. apply IH. exists rest. split; [exact E |]. intros I. apply NI. right. exact I.
      * split; [discriminate |]. intros (rest & E & NI). destruct name as [| y name]; [cbn in E; congruence |]. injection E as <- E. assert (X : None = Some name); [| discriminate]. apply IH. exists rest. split; [exact E |]. intros I. apply NI. right. exact I.
Qed.
Lemma hide_xors a b : hide a b = xors a b.
Proof. reflexivity. Qed.
Lemma xors_back a b : len a <= len b -> xors (xors a b) b = a.
Proof.
  revert b. induction a as [| x a IH]; intros [| y b] H; rewrite ?len_cons in H; try reflexivity; [pose proof (len_nonneg a); change (len (@nil Z)) with 0 in H; lia |]. cbn [xors]. f_equal; [rewrite Z.lxor_assoc, Z.lxor_nilpotent, Z.lxor_0_r; reflexivity | apply IH; lia].
Qed.
Lemma address_ok a tid : addr_ok a -> len tid = 12 -> address tid (addr_value tid a) = Some (sa_port a, real_ip a).
Proof.
  intros A H. destruct (real_len a A) as (L & _). destruct A as (_ & _ & P). unfold address, addr_value. set (k := if match sa_family a with Inet => true | _ => is4in6 a end then 4 else 16) in *.
  assert (K : k = 4 \/ k = 16) by (unfold k; destruct (match sa_family a with Inet => true | _ => is4in6 a end); auto).
  set (f := if len (real_ip a) =? 4 then 1 else 2). assert (Hf : f = 1 /\ k = 4 \/ f = 2 /\ k = 16) by (unfold f; rewrite L; destruct K as [-> | ->]; cbn; auto).
  assert (LX : len (xors (real_ip a) (cookie ++ tid)) = k) by (rewrite len_xors by (rewrite L, len_app, len_cookie; lia); exact L).
  set (X := xors (real_ip a) (cookie ++ tid)) in *. set (P2 := xors (be 2 (sa_port a)) cookie).
  change (nth 1 ([0; f] ++ P2 ++ X) 0) with f. change (nth 0 ([0; f] ++ P2 ++ X) 1) with 0.
  assert (LT : len ([0; f] ++ P2 ++ X) = 4 + k) by (rewrite !len_app, LX; change (len P2) with 2; change (len [0; f]) with 2; lia). rewrite LT.
  change (takez 2 (dropz 2 ([0; f] ++ P2 ++ X))) with P2. change (dropz 4 ([0; f] ++ P2 ++ X)) with X. rewrite !hide_xors. unfold X, P2.
  rewrite !xors_back by (first [rewrite L, len_app, len_cookie; lia | change (len (be 2 (sa_port a))) with 2; rewrite len_cookie; lia]). rewrite unbe2 by exact P.
  destruct Hf as [(-> & ->) | (-> & ->)]; reflexivity.
Qed.
Lemma reply_ok p from pwd c : 20 <= len p -> bytesP p -> addr_ok from ->
  exists r mac fp v, reply hmac p from pwd c = Ok r /\
    decode r = Some (mkmsg 0x0101 (takez 12 (dropz 8 p)) ((0x20, v) :: (if c then [(0x25, [])] else []) ++ [(8, mac); (0x8028, fp)])) /\
    address (takez 12 (dropz 8 p)) v = Some (sa_port from, real_ip from) /\ authentic hmac pwd r (len r - 32) /\ fingerprinted r.
Proof.
  intros Lp Bp A. unfold reply. rewrite new_ok. unfold copyTID. rewrite len_build by reflexivity. change (20 + len (@nil Z) <? 20) with false. destruct (Z.ltb_spec (len p) 20); [lia |]. cbn [orb].
  unfold getn. rewrite peek_some by lia. set (tid := takez 12 (dropz 8 p)). assert (Lt : len tid = 12) by (unfold tid; rewrite len_takez; [reflexivity | rewrite len_dropz; lia]).
  assert (Bt : bytesP tid) by (apply bytesP_takez, bytesP_dropz, Bp).
  rewrite tid_ok by (first [reflexivity | exact Lt]). rewrite xor_ok by assumption. cbn [app]. destruct (real_len from A) as (LR & _). set (v := addr_value tid from).
  assert (LR2 : len (real_ip from) = 4 \/ len (real_ip from) = 16) by (rewrite LR; destruct (match sa_family from with Inet => true | _ => is4in6 from end); auto).
  assert (Lv : len v = 4 + len (real_ip from)).
  { unfold v, addr_value. rewrite !len_app, (len_xors (real_ip from)) by (rewrite len_app, len_cookie; lia). change (len (xors (be 2 (sa_port from)) cookie)) with 2. change (len [0; if len (real_ip from) =? 4 then 1 else 2]) with 2. lia. }
  assert (BX : forall a b, bytesP a -> bytesP b -> bytesP (xors a b)).
  { clear. induction a as [| x a IH]; intros [| y b] Ha Hb; try solve [constructor]. inversion Ha; inversion Hb; subst. apply Forall_cons; [| apply IH; assumption]. unfold byteP in *. split; [apply Z.lxor_nonneg; split; lia |].
    destruct (Z.eq_dec (Z.lxor x y) 0) as [-> | Nz]; [lia |]. apply (Z.log2_lt_cancel _ 256). pose proof (Z.lxor_nonneg x y) as Xn. pose proof (Z.log2_lxor x y ltac:(lia) ltac:(lia)). assert (Z.log2 x <= 7) by (apply (Z.log2_le_mono x 255); lia). assert (Z.log2 y <= 7) by (apply (Z.log2_le_mono y 255); lia). change (Z.log2 256) with 8. lia. }
  assert (Br : bytesP (real_ip from)) by (unfold real_ip; destruct A as (_ & A & _); destruct (is4in6 from); [apply bytesP_dropz |]; exact A).
  assert (Bc : bytesP cookie) by (unfold cookie; repeat constructor; lia).
  assert (Bv : bytesP v). { unfold v, addr_value. rewrite !bytesP_app. split; [constructor; [unfold byteP; lia | constructor; [destruct (len (real_ip from) =? 4); unfold byteP; lia | constructor]] |]. split; apply BX; try assumption; [apply be_bytes |]. rewrite bytesP_app. auto. }
  set (l := (0x20, v) :: (if c then [(0x25, [])] else [])).
  assert (Q : exists n, (if c then addUseCandidate (build STUN_MSG_BINDING_RESPONSE_SUCCESS (len (@nil Z) + len (enc1 (STUN_ATTR_XOR_MAPPED_ADDRESS, v))) tid (enc1 (STUN_ATTR_XOR_MAPPED_ADDRESS, v))) else Ok (build STUN_MSG_BINDING_RESPONSE_SUCCESS (len (@nil Z) + len (enc1 (STUN_ATTR_XOR_MAPPED_ADDRESS, v))) tid (enc1 (STUN_ATTR_XOR_MAPPED_ADDRESS, v)))) = Ok (build 0x0101 n tid (enc l))).
  { destruct c; eexists; [rewrite candidate_ok by exact Lt |]; unfold l; [rewrite enc_cons, enc_one | rewrite enc_one]; reflexivity. }
  destruct Q as (n & ->). assert (P0 : pad (len v) = 0) by (rewrite Lv; destruct LR2 as [-> | ->]; reflexivity).
  destruct (finish_ok 0x0101 n tid l pwd) as (r & mac & fp & E & D & Au & G); [exact Lt | exact Bt | lia | | | |].
  - unfold l. constructor; [unfold attr_ok; cbn [fst snd]; lia |]. destruct c; constructor; [| constructor]. unfold attr_ok. cbn [fst snd]. change (len (@nil Z)) with 0. lia.
  - unfold l. constructor; [exact Bv |]. destruct c; constructor; constructor.
  - unfold l. destruct c; [rewrite enc_cons, len_app, enc_one, !len_enc1 | rewrite enc_one, len_enc1]; cbn [snd]; change (len (@nil Z)) with 0; change (pad 0) with 0; rewrite P0; lia.
  - exists r, mac, fp, v. split; [exact E |]. split; [exact D |]. split; [apply address_ok; assumption |]. split; assumption.
Qed.
End Finish.
