From Verif Require Import Common CommonFacts Encode_Model Encode_Spec Encode_Proofs Str_Model Str_Proofs Url_Model Url_Spec Url_Proofs UrlText_Proofs.

Lemma without_sub (a b : string) s : (forall c, In c (bs a) -> In c (bs b)) -> without b s -> without a s.
Proof. intros Sub. apply Forall_impl. intros c N K. apply N. now apply Sub. Qed.

(** ** Printed parts *)
Lemma creds_print u r : bytesP (user u) -> bytesP (pass u) -> without "@" r ->
  parse_creds (print_creds u ++ r) = (user u, pass u, r) /\ without "/?#" (print_creds u).
Proof.
  intros Bu Bp R. unfold print_creds.
  assert (EU : without ":@/?#" (url_encode (user u) [] false)) by (apply enc_without; [reflexivity|exact Bu]).
  assert (EP : without ":@/?#" (url_encode (pass u) [] false)) by (apply enc_without; [reflexivity|exact Bp]).
  assert (DU : url_decode (url_encode (user u) [] false) false = user u) by (apply url_roundtrip_lem; auto; discriminate).
  assert (DP : url_decode (url_encode (pass u) [] false) false = pass u) by (apply url_roundtrip_lem; auto; discriminate).
  assert (W1 : without ":@" (url_encode (user u) [] false)) by (revert EU; apply without_sub; simpl; intuition).
  assert (W2 : without "@" (url_encode (pass u) [] false)) by (revert EP; apply without_sub; simpl; intuition).
  assert (W3 : without "/?#" (url_encode (user u) [] false)) by (revert EU; apply without_sub; simpl; intuition).
  assert (W4 : without "/?#" (url_encode (pass u) [] false)) by (revert EP; apply without_sub; simpl; intuition).
  assert (W5 : without "/?#" (bs "@")) by (repeat constructor; simpl; intuition lia).
  assert (W6 : without "/?#" (bs ":")) by (repeat constructor; simpl; intuition lia).
  destruct (len (pass u) =? 0) eqn:Ep.
  - destruct (len (user u) =? 0) eqn:Eu; cbn [negb orb].
    + split; [|constructor]. cbn [app]. rewrite creds_none by exact R.
      rewrite (len_zero (user u)), (len_zero (pass u)) by lia. reflexivity.
    + split; [|now apply without_app]. rewrite <- app_assoc. rewrite creds_user by exact W1. rewrite DU.
      now rewrite (len_zero (pass u)) by lia.
  - cbn [negb]. rewrite orb_true_r. split.
    + rewrite <- !app_assoc. rewrite creds_both by assumption. now rewrite DU, DP.
    + rewrite !without_app. auto.
Qed.

Lemma hd_nthz h : hd 0 h = nthz h 0. Proof. now destruct h. Qed.
Lemma In_dec58 h : existsb (Z.eqb 58) h = true -> In 58 h.
Proof. intros E. apply existsb_exists in E. destruct E as (d & D & E). now replace 58 with d by lia. Qed.

Lemma host_print u : ordinary u ->
  parse_host (print_host u) = (host u, kept_port u, IPv6Addr u) /\ without "/?#" (print_host u) /\ without "@" (print_host u).
Proof.
  intros O. destruct (o_host u O) as (H1 & H2). pose proof (o_v6 u O) as V. pose proof (o_port u O) as P.
  unfold print_host, kept_port.
  assert (W0 : without "/?#" (port u) /\ without "@" (port u)).
  { split; (eapply Forall_impl; [|exact P]); intros c C; unfold digit in C; simpl; intuition lia. }
  assert (W1 : without "/?#" (host u)) by (revert H1; apply without_sub; simpl; intuition).
  assert (W2 : without "@" (host u)) by (revert H1; apply without_sub; simpl; intuition).
  assert (C1 : forall d, In d (bs "[]:") -> without "/?#" [d] /\ without "@" [d]).
  { intros d D. split; repeat constructor; simpl in *; intuition lia. }
  destruct (C1 91 ltac:(simpl; auto)) as (A1 & A2). destruct (C1 93 ltac:(simpl; auto)) as (B1 & B2).
  destruct (C1 58 ltac:(simpl; auto)) as (D1 & D2).
  assert (DF : negb (len (port u) =? 0) && negb (getPort u =? getDefaultPort u) = negb (getPort u =? getDefaultPort u)).
  { unfold getPort. destruct (len (port u) =? 0); cbn [negb andb]; [now rewrite Z.eqb_refl|reflexivity]. }
  rewrite DF.
  destruct (IPv6Addr u); cbn [orb].
  - assert (N : ~ In 93 (host u)) by (apply (without_notin _ _ _ V); simpl; auto).
    destruct (getPort u =? getDefaultPort u); cbn [negb].
    + rewrite app_nil_r. split; [now apply host_v6|]. rewrite !without_app. auto.
    + rewrite <- !app_assoc. split; [now apply host_v6_port|]. rewrite !without_app. intuition.
  - destruct V as (V & B). rewrite hd_nthz in B. change (ch "[") with 91 in B.
    assert (N : ~ In 58 (host u)) by (apply (without_notin _ _ _ V); simpl; auto).
    rewrite existsb_no by exact N.
    destruct (getPort u =? getDefaultPort u); cbn [negb].
    + rewrite app_nil_r. split; [now apply host_plain|]. auto.
    + split; [now apply host_port|]. rewrite !without_app. intuition.
Qed.

Definition print_tail (u : url) : list Z :=
  (if negb (beqb (protocol u) (bs "rist")) then bs "/" ++ getEncodedPath u else [])
  ++ (if negb (len (args u) =? 0) then bs "?" ++ args u else [])
  ++ (if negb (len (frag u) =? 0) then bs "#" ++ url_encode (frag u) (bs "/:=@[]#?&") false else []).

Lemma ign_slash (s : string) : existsb (Z.eqb 47) (bs s) && negb (existsb (Z.eqb 37) (bs s)) = true -> In 47 (bs s) /\ ~ In 37 (bs s).
Proof.
  intros E. apply andb_true_iff in E. destruct E as (A & B). split.
  - apply existsb_exists in A. destruct A as (d & D & A). now replace 47 with d by lia.
  - intros K. apply negb_true_iff in B. assert (existsb (Z.eqb 37) (bs s) = true); [|congruence].
    apply existsb_exists. now exists 37.
Qed.
Lemma isLocal_proto u : protocol u <> [] -> isLocalPath u = beqb (protocol u) (bs "file").
Proof.
  intros N. unfold isLocalPath. destruct (beqb (protocol u) (bs "file")); [easy|].
  destruct (len (protocol u) =? 0) eqn:E; [exfalso; apply N, len_zero; lia|]. now rewrite andb_false_r.
Qed.
Lemma frag_print u : bytesP (frag u) ->
  let f := if negb (len (frag u) =? 0) then bs "#" ++ url_encode (frag u) (bs "/:=@[]#?&") false else [] in
  url_decode (dropz 1 f) false = frag u /\ (f = [] \/ exists f', f = bs "#" ++ f').
Proof.
  intros B. destruct (len (frag u) =? 0) eqn:E; cbn [negb].
  - split; [|now left]. assert (frag u = []) as -> by (apply len_zero; lia). reflexivity.
  - split; [|right; now eexists]. change (dropz 1 (bs "#" ++ ?x)) with x.
    destruct (ign_slash "/:=@[]#?&" eq_refl) as (_ & N). apply url_roundtrip_lem; auto. discriminate.
Qed.
Lemma args_print u :
  let a := if negb (len (args u) =? 0) then bs "?" ++ args u else [] in
  dropz 1 a = args u /\ (a = [] \/ exists a', a = bs "?" ++ a') /\ (without "#" (args u) -> without "#" a).
Proof.
  destruct (len (args u) =? 0) eqn:E; cbn [negb].
  - split; [assert (args u = []) as -> by (apply len_zero; lia); reflexivity|]. split; [now left|constructor].
  - split; [reflexivity|]. split; [right; now eexists|]. intros W. constructor; [simpl; intuition lia|exact W].
Qed.
Lemma tail_start u : path_start (print_tail u).
Proof.
  unfold print_tail. destruct (negb (beqb (protocol u) (bs "rist"))).
  - right. exists 47, (getEncodedPath u ++ (if negb (len (args u) =? 0) then bs "?" ++ args u else [])
      ++ (if negb (len (frag u) =? 0) then bs "#" ++ url_encode (frag u) (bs "/:=@[]#?&") false else [])).
    split; [now rewrite <- app_assoc|simpl; auto].
  - destruct (negb (len (args u) =? 0)); [right; do 2 eexists; split; [reflexivity|simpl; auto]|].
    destruct (negb (len (frag u) =? 0)); [right; do 2 eexists; split; [reflexivity|simpl; auto]|now left].
Qed.
Lemma tail_print u : ordinary u ->
  match print_tail u with [] => ([], [], []) | _ => parse_path (protocol u) (print_tail u) end = (path u, args u, frag u).
Proof.
  intros O. destruct (o_bytes u O) as (_ & _ & Bp & Bf). destruct (o_proto u O) as (NP & _).
  pose proof (o_path u O) as T. pose proof (frag_print u Bf) as F. pose proof (args_print u) as A.
  cbn zeta in F, A. unfold print_tail.
  set (f := if negb (len (frag u) =? 0) then bs "#" ++ _ else []) in *.
  set (a := if negb (len (args u) =? 0) then bs "?" ++ args u else []) in *.
  destruct F as (F1 & F2). destruct A as (A1 & A2 & A3). specialize (A3 (o_args u O)).
  assert (LP : (len (protocol u) =? 0) = false).
  { destruct (len (protocol u) =? 0) eqn:E; [|easy]. exfalso. apply NP, len_zero. lia. }
  destruct (beqb (protocol u) (bs "rtsp")) eqn:ER.
  { apply beqb_eq in ER. destruct (o_rtsp u O ER) as (Ra & Rf).
    assert (a = []) as -> by (unfold a; now rewrite Ra). assert (f = []) as -> by (unfold f; now rewrite Rf).
    rewrite Ra, Rf. unfold getEncodedPath. rewrite ER. change (negb (beqb (bs "rtsp") (bs "rist"))) with true.
    change (beqb (bs "rtsp") (bs "rtsp")) with true. cbn iota. rewrite app_nil_r.
    destruct (ign_slash "/:=@[]#?&" eq_refl) as (I1 & I2).
    destruct (resolve_tame _ (enc_tame (bs "/:=@[]#?&") (path u) I1 I2 Bp T)) as (R1 & R2).
    change (bs "/" ++ ?x) with (47 :: x). cbn iota. rewrite ?app_nil_r. rewrite parse_path_rtsp by exact R2.
    rewrite R1. repeat f_equal. apply url_roundtrip_lem; auto. discriminate. }
  assert (NR : protocol u <> bs "rtsp") by now apply beqb_neq.
  destruct (beqb (protocol u) (bs "rist")) eqn:EI; cbn [negb].
  { apply beqb_eq in EI. rewrite (o_rist u O EI). cbn [app].
    destruct (a ++ f) as [|c t] eqn:Et.
    - apply app_eq_nil in Et. destruct Et as (Ea & Ef). rewrite Ea in A1. rewrite Ef in F1. simpl in A1, F1. now rewrite <- A1, <- F1.
    - rewrite <- Et. rewrite (parse_path_gen (protocol u) [] a f) with (t := a ++ f); auto.
      + rewrite A1, F1. change (resolve []) with (@nil Z). now destruct (_ || _).
      + constructor.
      + intros (K & _). discriminate K.
      + right. repeat split. rewrite Et. discriminate. }
  set (p := getEncodedPath u).
  assert (P : without "?#" p /\ tame p /\ (if beqb (protocol u) (bs "file") then p else url_decode p false) = path u).
  { unfold p, getEncodedPath. rewrite ER, isLocal_proto by exact NP.
    destruct (beqb (protocol u) (bs "file")) eqn:EF.
    - apply beqb_eq in EF. pose proof (o_file u O EF) as K. rewrite enc_id by exact K.
      split; [|split; auto]. eapply Forall_impl; [|exact K]. intros c C N.
      assert (S : forallb (fun c => negb (existsb (Z.eqb c) (bs "?#"))) (url_unreserved ++ bs "/:=@[]+ ") = true) by reflexivity.
      rewrite forallb_forall in S. specialize (S c). apply negb_true_iff in S; [|now apply in_or_app].
      assert (existsb (Z.eqb c) (bs "?#") = true); [|congruence]. apply existsb_exists. exists c. split; [exact N|lia].
    - destruct (ign_slash "/:=@[]" eq_refl) as (I1 & I2). split; [apply enc_without; [reflexivity|exact Bp]|].
      split; [now apply enc_tame|]. apply url_roundtrip_lem; auto. discriminate. }
  destruct P as (P1 & P2 & P3). destruct (resolve_tame p P2) as (R1 & R2).
  replace ((bs "/" ++ p) ++ a ++ f) with (47 :: p ++ a ++ f) by reflexivity. cbn iota.
  rewrite (parse_path_gen (protocol u) p a f) by auto.
  rewrite A1, F1, R1, LP, orb_false_r. now rewrite P3.
Qed.

Lemma getUrl_split u : protocol u <> [] -> getUrl u = protocol u ++ bs "://" ++ (print_creds u ++ print_host u) ++ print_tail u.
Proof.
  intros N. unfold getUrl, print_proto. destruct (len (protocol u) =? 0) eqn:E; [exfalso; apply N, len_zero; lia|].
  cbn [negb]. unfold print_tail. now rewrite <- !app_assoc.
Qed.
Lemma print_parse u : ordinary u -> URL (getUrl u) = with_port u (kept_port u).
Proof.
  intros O. destruct (o_proto u O) as (P1 & P2). destruct (o_bytes u O) as (Bu & Bw & _).
  destruct (host_print u O) as (H1 & H2 & H3). destruct (creds_print u (print_host u) Bu Bw H3) as (C1 & C2).
  rewrite getUrl_split by exact P1. rewrite URL_text.
  - rewrite tail_print by exact O. now rewrite C1, H1.
  - apply (without_notin _ _ _ P2). simpl; auto.
  - apply without_app. auto.
  - apply tail_start.
Qed.
