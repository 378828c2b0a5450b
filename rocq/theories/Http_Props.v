(** C44, C45: form variables and messages of HTTP::Parser. *)
From Verif Require Import Common CommonFacts Encode_Model Encode_Proofs Str_Model Str_Proofs JsonVal_Model Url_Model UrlText_Proofs
  Http_Model Http_Spec HttpRun_Proofs HttpVars_Proofs HttpText_Proofs HttpSend_Proofs.
From Verif Require SockBuf_Model Dtmi_Spec Url_Spec.

(** ** Form variables (C44) *)
(** Printing a map of variables and reading the text gives the map back, without its empty name. *)
Theorem http_vars_roundtrip : forall l, var_map l ->
  parseVars (argStr l false) [] (bs "&") true = filter named l /\
  (filter named l = [] -> argStr l true = []) /\ (filter named l <> [] -> argStr l true = bs "?" ++ argStr l false).
Proof.
  intros l V. split; [now apply vars_roundtrip_lem|]. rewrite !argStr_joined. destruct (filter named l); [now split|]. split; [discriminate|reflexivity].
Qed.
(** Reading assignments: of several for the same name the last one counts; other names keep what was known about them. *)
Theorem http_vars_read : forall q sep ps st k, sep <> [] -> Forall (part_plain sep) ps ->
  sget k (parseVars (joined sep (map part_text ps)) st sep q) =
  match last_value k (map (part_value q) (filter named ps)) with Some v => Some v | None => sget k st end.
Proof. intros q sep ps st k S F. rewrite parseVars_parts by assumption. rewrite fold_parts. apply sget_fold. Qed.
(** A variable with an empty name is not printed. *)
Theorem http_vars_nameless_refuted : exists l, var_map l /\ parseVars (argStr l false) [] (bs "&") true <> l.
Proof.
  exists [([], bs "x")]. split; [|vm_compute; discriminate]. split; [exact Logic.I|]. constructor; [|constructor]. split; [constructor|].
  repeat (constructor; [unfold byteP; cbn; lia|]). constructor.
Qed.

(** ** Messages (C45) *)
Definition few_bytes (cb : bool) (arrivals : list (list Z)) : Prop := cb = false \/ len (List.concat arrivals) <= 2 ^ 31.
Lemma session_clean ho cb closed cur arrivals : few_bytes cb arrivals ->
  session ho cb closed (clean cur) [] arrivals = verdict_of closed (R ho cb (clean cur) (List.concat arrivals)).
Proof.
  intros F. rewrite (session_R ho cb closed arrivals (clean cur) []).
  - reflexivity.
  - repeat split.
  - constructor.
  - left. constructor.
  - destruct F as [F|F]; [now left|right]. cbn. change (len (@nil Z)) with 0. lia.
  - now left.
  - reflexivity.
Qed.
(** How the bytes arrive makes no difference. *)
Theorem http_packets : forall headerOnly cb closed cur a1 a2, List.concat a1 = List.concat a2 -> few_bytes cb a1 ->
  session headerOnly cb closed (clean cur) [] a1 = session headerOnly cb closed (clean cur) [] a2.
Proof.
  intros ho cb closed cur a1 a2 E F. rewrite !session_clean; [now rewrite E| |assumption]. unfold few_bytes in *. now rewrite <- E.
Qed.

Lemma read_head ho cb cur first mt u pr path hs vs head : line_read first mt u pr -> url_read u path vs -> head_written first hs head ->
  forall rest, R ho cb (clean cur) (head ++ rest) =
  match head_end cb (with_msg (clean cur) (told mt path pr hs vs) true) with None => None | Some st => R ho cb st rest end.
Proof. intros Lr Ur Hw rest. exact (R_head_text ho cb first mt u pr path vs hs head cur rest Lr Ur Hw). Qed.
Lemma deliver_read cb st d : body st = [] -> sink st = [] -> read_body cb d (body (deliver cb st d)) (sink (deliver cb st d)).
Proof. intros B S. unfold read_body, deliver. cbn. rewrite B, S. destruct cb; now split. Qed.
Lemma form_ok mt path pr hs vs : form_post mt hs ->
  beqb mt (bs "POST") && beqb (GetHeader (bs "Content-Type") (headers (told mt path pr hs vs))) (bs "application/x-www-form-urlencoded") = true.
Proof. intros [-> S]. destruct (headers_ok hs) as (_ & G & _). destruct (G _ _ zero_ct S) as [E _]. cbn [headers told]. now rewrite E, !beqb_refl. Qed.
Lemma not_form_ok mt path pr hs vs : not_form mt hs ->
  beqb mt (bs "POST") && beqb (GetHeader (bs "Content-Type") (headers (told mt path pr hs vs))) (bs "application/x-www-form-urlencoded") = false.
Proof.
  destruct (headers_ok hs) as (_ & G & G0). cbn [headers told].
  intros [N|[S|(v & S & N)]]; apply andb_false_iff; [left; now apply beqb_neq|right..]; apply beqb_neq.
  - destruct (G0 _ zero_ct S) as [-> _]. discriminate.
  - destruct (G _ _ zero_ct S) as [-> _]. exact N.
Qed.

(** A body of announced length is complete with exactly that many bytes; what follows is not touched.  Before that the reader waits
    and has handed on everything so far.  The fields of a posted form are added to the variables, unless a callback takes the body. *)
Theorem http_body_length : forall cb closed cur first mt u pr path hs vs head v n b rest arrivals,
  line_read first mt u pr -> url_read u path vs -> head_written first hs head -> has_body path ->
  says hs (bs "Content-Length") v -> number v n -> n < 2 ^ 31 -> not_chunked hs -> form_post mt hs \/ not_form mt hs ->
  List.concat arrivals = head ++ b ++ rest -> few_bytes cb arrivals ->
  (len b = n -> exists x bd sk, session false cb closed (clean cur) [] arrivals = Complete x bd sk rest /\
     (form_post mt hs -> head_read x mt path pr hs (parseVars bd vs (bs "&") true)) /\
     (not_form mt hs -> head_read x mt path pr hs vs) /\ read_body cb b bd sk) /\
  (len b < n -> rest = [] -> exists x bd sk, session false cb closed (clean cur) [] arrivals = Waiting x bd sk [] /\
     head_read x mt path pr hs vs /\ read_body cb b bd sk).
Proof.
  intros cb closed cur first mt u pr path hs vs head v n b rest arrivals Lr Ur Hw Hb S N L C Fm Ea Fw.
  rewrite session_clean by assumption. rewrite Ea, (read_head false cb cur first mt u pr path hs vs head Lr Ur Hw).
  rewrite (head_end_known cb mt path pr hs vs cur v n S N L C). destruct (number_atoi v n N L) as [_ P].
  rewrite R_known by (try reflexivity; cbn [start m told url orb]; now apply has_body_no). unfold take_known. cbn [length currentLength start].
  rewrite len_app. pose proof (len_nonneg b). pose proof (len_nonneg rest). rewrite Z.sub_0_r. cbn [Z.add].
  split.
  - intros Lb. replace (Z.max 0 (Z.min n (len b + len rest))) with (len b) by lia. rewrite takez_app_exact, dropz_app_exact by reflexivity.
    cbn zeta. cbn [length currentLength set_counts deliver start]. replace (n =? len b) with true by lia. cbn [verdict_of].
    eexists _, _, _. split; [reflexivity|].
    set (st := set_counts _ _ _ _). assert (Mt : m st = told mt path pr hs vs) by reflexivity.
    assert (Bs : read_body cb b (body st) (sink st)) by (apply (deliver_read cb (start (told mt path pr hs vs) false n true) b); reflexivity).
    unfold post_vars. rewrite Mt. change (method (told mt path pr hs vs)) with mt.
    destruct Fm as [Fm|Fm].
    + rewrite (form_ok mt path pr hs vs Fm). cbn [m with_msg body sink]. split; [|split; [|exact Bs]].
      * intros _. destruct (x_read mt path pr hs vs) as (X1 & X2 & X3 & X4 & X5). split; [exact X1|]. split; [exact X2|]. split; [exact X3|].
        split; [reflexivity|exact X5].
      * intros Nf. pose proof (form_ok mt path pr hs vs Fm) as E1. rewrite (not_form_ok mt path pr hs vs Nf) in E1. discriminate E1.
    + rewrite (not_form_ok mt path pr hs vs Fm). rewrite Mt. split; [|split; [|exact Bs]].
      * intros Pf. pose proof (form_ok mt path pr hs vs Pf) as E1. rewrite (not_form_ok mt path pr hs vs Fm) in E1. discriminate E1.
      * intros _. apply x_read.
  - intros Lb ->. change (len (@nil Z)) with 0. rewrite Z.add_0_r, app_nil_r. replace (Z.max 0 (Z.min n (len b))) with (len b) by lia. rewrite takez_all, dropz_all by lia.
    cbn zeta. cbn [length currentLength set_counts deliver start]. replace (n =? len b) with false by lia. cbn [verdict_of possiblyComplete set_counts deliver start].
    rewrite andb_false_r. eexists _, _, _. split; [reflexivity|]. split; [apply x_read|].
    apply (deliver_read cb (start (told mt path pr hs vs) false n true) b); reflexivity.
Qed.

(** A chunked body is the concatenation of its chunks.  The line of the last, empty chunk is left for the next reader, with all that
    follows; that reader skips it (http_skipped_line). *)
Theorem http_body_chunked : forall cb closed cur first mt u pr path hs vs head ds t z rest arrivals,
  line_read first mt u pr -> url_read u path vs -> head_written first hs head -> has_body path ->
  says hs (bs "Transfer-Encoding") (bs "chunked") -> silent hs (bs "Content-Length") ->
  chunks_written ds t -> hexnum z 0 -> List.concat arrivals = head ++ t ++ z ++ eol ++ rest -> few_bytes cb arrivals ->
  exists x bd sk, session false cb closed (clean cur) [] arrivals = Complete x bd sk (z ++ eol ++ rest) /\
    head_read x mt path pr hs vs /\ read_body cb (List.concat ds) bd sk.
Proof.
  intros cb closed cur first mt u pr path hs vs head ds t z rest arrivals Lr Ur Hw Hb S Sc (ts & Ft & ->) Hz Ea Fw.
  rewrite session_clean by assumption. rewrite Ea, (read_head false cb cur first mt u pr path hs vs head Lr Ur Hw).
  rewrite (head_end_chunked cb mt path pr hs vs cur S Sc).
  assert (C : chunk_mode false (start (told mt path pr hs vs) true 0 false)).
  { split; [reflexivity|]. split; [cbn [start m told url orb]; now apply has_body_no|]. repeat split. }
  destruct (R_chunks false cb ds ts Ft _ (z ++ eol ++ rest) C) as [E C2]. rewrite E. rewrite (R_last_chunk false cb _ z rest C2 Hz). cbn [verdict_of].
  eexists _, _, _. split; [reflexivity|]. split; [apply x_read|]. apply (deliver_read cb (start (told mt path pr hs vs) true 0 false)); reflexivity.
Qed.
(** Chunks that have arrived completely have been handed on, even if the last one has not arrived yet. *)
Theorem http_body_chunks_so_far : forall cb closed cur first mt u pr path hs vs head ds t arrivals,
  line_read first mt u pr -> url_read u path vs -> head_written first hs head -> has_body path ->
  says hs (bs "Transfer-Encoding") (bs "chunked") -> silent hs (bs "Content-Length") ->
  chunks_written ds t -> List.concat arrivals = head ++ t -> few_bytes cb arrivals ->
  exists x bd sk, session false cb closed (clean cur) [] arrivals = Waiting x bd sk [] /\
    head_read x mt path pr hs vs /\ read_body cb (List.concat ds) bd sk.
Proof.
  intros cb closed cur first mt u pr path hs vs head ds t arrivals Lr Ur Hw Hb S Sc (ts & Ft & ->) Ea Fw.
  rewrite session_clean by assumption. rewrite Ea, (read_head false cb cur first mt u pr path hs vs head Lr Ur Hw).
  rewrite (head_end_chunked cb mt path pr hs vs cur S Sc).
  assert (C : chunk_mode false (start (told mt path pr hs vs) true 0 false)).
  { split; [reflexivity|]. split; [cbn [start m told url orb]; now apply has_body_no|]. repeat split. }
  destruct (R_chunks false cb ds ts Ft _ [] C) as [E C2]. rewrite app_nil_r in E. rewrite E. destruct C2 as (C2 & C3 & C4 & C5 & C6).
  rewrite R_chunk by assumption. unfold chunk_step. rewrite C5. cbn [Z.eqb negb findc findp]. cbn [verdict_of]. 
  change (findc 10 []) with (@None Z). cbn [verdict_of possiblyComplete deliver start]. rewrite andb_false_r.
  eexists _, _, _. split; [reflexivity|]. split; [apply x_read|]. apply (deliver_read cb (start (told mt path pr hs vs) true 0 false)); reflexivity.
Qed.

(** A request without a length has no body: it is complete with its head, and what follows is not touched. *)
Theorem http_request_alone : forall ho cb closed cur first mt u pr path hs vs head rest arrivals,
  line_read first mt u pr -> url_read u path vs -> head_written first hs head -> (forall c r, path = c :: r -> ~ digit c /\ c <> 32 /\ ~ (9 <= c <= 13) /\ c <> 43 /\ c <> 45) ->
  silent hs (bs "Content-Length") -> not_chunked hs -> List.concat arrivals = head ++ rest -> few_bytes cb arrivals ->
  exists x, session ho cb closed (clean cur) [] arrivals = Complete x [] [] rest /\ head_read x mt path pr hs vs.
Proof.
  intros ho cb closed cur first mt u pr path hs vs head rest arrivals Lr Ur Hw Hp S C Ea Fw.
  rewrite session_clean by assumption. rewrite Ea, (read_head ho cb cur first mt u pr path hs vs head Lr Ur Hw).
  rewrite (head_end_open cb mt path pr hs vs cur C S).
  assert (Nb : no_body path = false) by (apply has_body_no; left; intros c r E; now destruct (Hp c r E)).
  destruct ho.
  { rewrite R_nobody by reflexivity. eexists. split; [reflexivity|]. apply x_read. }
  rewrite R_open by (try reflexivity; exact Nb). unfold open_end.
  assert (At : atoll path = 0).
  { destruct path as [|c r]; [reflexivity|]. destruct (Hp c r eq_refl) as (D & H1 & H2 & H3 & H4). unfold digit in D. unfold atoll. cbn [skip_space].
    replace ((c =? 32) || (9 <=? c) && (c <=? 13)) with false by lia. replace (c =? 45) with false by lia. replace (c =? 43) with false by lia. cbn [digits_val].
    replace ((48 <=? c) && (c <=? 57)) with false by lia. lia. }
  destruct (rtsp _); [|cbn [start m told url]; rewrite At; change (0 =? 0) with true; cbv iota]; (eexists; split; [reflexivity|apply x_read]).
Qed.
(** Answers that never have a body, and readers that only want the head: complete with the head. *)
Theorem http_head_alone : forall ho cb closed cur first mt u pr path hs vs head v n rest arrivals,
  line_read first mt u pr -> url_read u path vs -> head_written first hs head -> ho = true \/ bodyless path ->
  silent hs (bs "Content-Length") \/ (says hs (bs "Content-Length") v /\ number v n /\ n < 2 ^ 31) ->
  not_chunked hs -> List.concat arrivals = head ++ rest -> few_bytes cb arrivals ->
  exists x, session ho cb closed (clean cur) [] arrivals = Complete x [] [] rest /\ head_read x mt path pr hs vs.
Proof.
  intros ho cb closed cur first mt u pr path hs vs head v n rest arrivals Lr Ur Hw Hp S C Ea Fw.
  rewrite session_clean by assumption. rewrite Ea, (read_head ho cb cur first mt u pr path hs vs head Lr Ur Hw).
  assert (Nb : ho || no_body path = true) by (destruct Hp as [->|Hp]; [reflexivity|rewrite (bodyless_no path Hp); apply orb_true_r]).
  destruct S as [S|(S & N & L)].
  - rewrite (head_end_open cb mt path pr hs vs cur C S). rewrite R_nobody by (reflexivity || exact Nb). eexists. split; [reflexivity|]. apply x_read.
  - rewrite (head_end_known cb mt path pr hs vs cur v n S N L C). rewrite R_nobody by (reflexivity || exact Nb). eexists. split; [reflexivity|]. apply x_read.
Qed.
(** An answer without a length ends with the connection. *)
Theorem http_body_until_close : forall cb closed cur first mt u pr path hs vs head code b arrivals,
  answer_line first pr u mt -> takez 4 mt <> bs "RTSP" -> url_read u path vs -> head_written first hs head ->
  number path code -> 0 < code < 2 ^ 31 -> has_body path -> silent hs (bs "Content-Length") -> not_chunked hs ->
  List.concat arrivals = head ++ b -> few_bytes cb arrivals ->
  exists x bd sk, session false cb closed (clean cur) [] arrivals = (if closed then Complete x bd sk [] else Waiting x bd sk []) /\
    head_read x mt path pr hs vs /\ read_body cb b bd sk.
Proof.
  intros cb closed cur first mt u pr path hs vs head code b arrivals Al Nr Ur Hw Nc Lc Hb S C Ea Fw.
  rewrite session_clean by assumption. rewrite Ea, (read_head false cb cur first mt u pr path hs vs head (or_intror Al) Ur Hw).
  rewrite (head_end_open cb mt path pr hs vs cur C S). rewrite R_open by (try reflexivity; cbn [start m told url orb]; now apply has_body_no).
  unfold open_end. replace (rtsp _) with false.
  2:{ symmetry. unfold rtsp. cbn [start m told protocol method]. destruct Al as (_ & _ & _ & E & _). rewrite E. apply orb_false_iff.
      split; [reflexivity|now apply beqb_neq]. }
  cbn [start m told url]. destruct (number_atoll path code Nc ltac:(lia)) as [-> _]. replace (code =? 0) with false by lia.
  cbn [verdict_of set_complete possiblyComplete]. rewrite andb_true_r.
  eexists _, _, _. split; [destruct closed; reflexivity|]. split; [apply x_read|].
  apply (deliver_read cb (start (told mt path pr hs vs) false 0 false) b); reflexivity.
Qed.
(** Lines without a blank in front of a message, such as what a chunked body leaves, are skipped. *)
Theorem http_skipped_line : forall ho cb closed cur s text a1 a2, line_text s -> ~ In 32 s ->
  List.concat a1 = s ++ eol ++ text -> List.concat a2 = text -> few_bytes cb a1 -> few_bytes cb a2 ->
  session ho cb closed (clean cur) [] a1 = session ho cb closed (clean cur) [] a2.
Proof. intros ho cb closed cur s text a1 a2 L N E1 E2 F1 F2. rewrite !session_clean by assumption. rewrite E1, E2. now rewrite R_skip_line. Qed.

(** ** Sending and reading back (C45) *)
Lemma body_exact cb closed cur first mt u pr path hs vs head v b rest arrivals :
  line_read first mt u pr -> url_read u path vs -> head_written first hs head -> has_body path ->
  says hs (bs "Content-Length") v -> number v (len b) -> len b < 2 ^ 31 -> not_chunked hs -> not_form mt hs ->
  List.concat arrivals = head ++ b ++ rest -> few_bytes cb arrivals ->
  exists bd sk, session false cb closed (clean cur) [] arrivals = Complete (told mt path pr hs vs) bd sk rest /\ read_body cb b bd sk.
Proof.
  intros Lr Ur Hw Hb S N L C Nf Ea Fw.
  rewrite session_clean by assumption. rewrite Ea, (read_head false cb cur first mt u pr path hs vs head Lr Ur Hw).
  rewrite (head_end_known cb mt path pr hs vs cur v (len b) S N L C).
  rewrite R_known by (try reflexivity; cbn [start m told url orb]; now apply has_body_no). unfold take_known. cbn [length currentLength start].
  rewrite len_app. pose proof (len_nonneg b). pose proof (len_nonneg rest). rewrite Z.sub_0_r. cbn [Z.add].
  replace (Z.max 0 (Z.min (len b) (len b + len rest))) with (len b) by lia. rewrite takez_app_exact, dropz_app_exact by reflexivity.
  cbn zeta. cbn [length currentLength set_counts deliver start]. rewrite Z.eqb_refl. cbn [verdict_of].
  set (st := set_counts _ _ _ _). assert (Mt : m st = told mt path pr hs vs) by reflexivity.
  assert (Bs : read_body cb b (body st) (sink st)) by (apply (deliver_read cb (start (told mt path pr hs vs) false (len b) true) b); reflexivity).
  unfold post_vars. rewrite Mt. change (method (told mt path pr hs vs)) with mt. rewrite (not_form_ok mt path pr hs vs Nf), Mt.
  eexists _, _. split; [reflexivity|exact Bs].
Qed.
(** A request as BuildRequest writes it is read back exactly: method, URL, protocol, headers, variables and body; what follows it
    stays unread.  [rest] may be the next request on the same connection. *)
Theorem http_request_roundtrip : forall cb closed cur x v b rest arrivals,
  word (method x) -> takez 4 (method x ++ [32]) <> bs "HTTP" -> bytesP (url x) -> has_body (url x) -> versioned (protocol x) ->
  var_map (vars x) -> Forall (fun e => named e = true) (vars x) -> (vars x = [] \/ ~ In 63 (url x)) ->
  sendable_headers (headers x) -> not_form (method x) (headers x) -> not_chunked (headers x) ->
  says (headers x) (bs "Content-Length") v -> number v (len b) -> len b < 2 ^ 31 ->
  List.concat arrivals = BuildRequest x b ++ rest -> few_bytes cb arrivals ->
  exists bd sk, session false cb closed (clean cur) [] arrivals = Complete x bd sk rest /\ read_body cb b bd sk.
Proof.
  intros cb closed cur x v b rest arrivals W Nh Bu Hb V Vm Nm Q Sh Nf Nc S N L Ea Fw. destruct (headers_out _ Sh) as [F2 Ff].
  destruct (BuildRequest_ok x b V Q Nf Ff) as (first & Ef & Eb). destruct (request_ok x W Nh Bu V Vm Nm) as [Rl Ur]. rewrite <- Ef in Rl.
  rewrite Eb, <- app_assoc in Ea.
  destruct (body_exact cb closed cur first _ _ _ _ (headers x) _ _ v b rest arrivals (or_introl Rl) Ur (ex_intro _ _ (conj F2 eq_refl)) Hb S N L Nc Nf Ea Fw) as (bd & sk & E & B).
  exists bd, sk. split; [|exact B]. rewrite E. unfold told. rewrite Ff. now destruct x.
Qed.
(** The same for a request without a body and without a length. *)
Theorem http_get_roundtrip : forall ho cb closed cur x rest arrivals,
  word (method x) -> takez 4 (method x ++ [32]) <> bs "HTTP" -> bytesP (url x) ->
  (forall c r, url x = c :: r -> ~ digit c /\ c <> 32 /\ ~ (9 <= c <= 13) /\ c <> 43 /\ c <> 45) -> versioned (protocol x) ->
  var_map (vars x) -> Forall (fun e => named e = true) (vars x) -> (vars x = [] \/ ~ In 63 (url x)) ->
  sendable_headers (headers x) -> not_form (method x) (headers x) -> not_chunked (headers x) -> silent (headers x) (bs "Content-Length") ->
  List.concat arrivals = BuildRequest x [] ++ rest -> few_bytes cb arrivals ->
  session ho cb closed (clean cur) [] arrivals = Complete x [] [] rest.
Proof.
  intros ho cb closed cur x rest arrivals W Nh Bu Hp V Vm Nm Q Sh Nf C S Ea Fw. destruct (headers_out _ Sh) as [F2 Ff].
  destruct (BuildRequest_ok x [] V Q Nf Ff) as (first & Ef & Eb). destruct (request_ok x W Nh Bu V Vm Nm) as [Rl Ur]. rewrite <- Ef in Rl.
  rewrite Eb, app_nil_r in Ea.
  assert (Ex : told (method x) (url x) (protocol x) (headers x) (vars x) = x) by (unfold told; rewrite Ff; now destruct x).
  rewrite session_clean by assumption. rewrite Ea, (read_head ho cb cur first _ _ _ _ (headers x) _ _ (or_introl Rl) Ur (ex_intro _ _ (conj F2 eq_refl))).
  rewrite (head_end_open cb (method x) (url x) (protocol x) (headers x) (vars x) cur C S). rewrite Ex.
  assert (Nb : no_body (url x) = false) by (apply has_body_no; left; intros c r E; now destruct (Hp c r E)).
  destruct ho; [now rewrite R_nobody by reflexivity|].
  rewrite R_open by (try reflexivity; exact Nb). unfold open_end.
  assert (At : atoll (url x) = 0).
  { destruct (url x) as [|c r]; [reflexivity|]. destruct (Hp c r eq_refl) as (D & H1 & H2 & H3 & H4). unfold digit in D. unfold atoll. cbn [skip_space].
    replace ((c =? 32) || (9 <=? c) && (c <=? 13)) with false by lia. replace (c =? 45) with false by lia. replace (c =? 43) with false by lia. cbn [digits_val].
    replace ((48 <=? c) && (c <=? 57)) with false by lia. lia. }
  destruct (rtsp _); [|cbn [start m]; rewrite At; change (0 =? 0) with true; cbv iota]; reflexivity.
Qed.
(** An answer with a body of known, positive length as BuildResponse writes it. *)
Theorem http_answer_roundtrip : forall cb closed cur x code n message v b rest arrivals,
  number code n -> has_body code -> line_text message -> versioned (protocol x) -> word (protocol x) ->
  takez 4 (protocol x) = bs "HTTP" -> sendable_headers (headers x) -> not_form message (headers x) -> not_chunked (headers x) ->
  says (headers x) (bs "Content-Length") v -> number v (len b) -> v <> bs "0" -> len b < 2 ^ 31 ->
  List.concat arrivals = BuildResponse x code message b ++ rest -> few_bytes cb arrivals ->
  exists bd sk, session false cb closed (clean cur) [] arrivals = Complete (mkMsg message code (protocol x) (headers x) []) bd sk rest /\
    read_body cb b bd sk.
Proof.
  intros cb closed cur x code n message v b rest arrivals Nu Hb Lm V Wp Hp Sh Nf Nc S N N0 L Ea Fw. destruct (headers_out _ Sh) as [F2 Ff].
  assert (Ho : flat_map answer_header_out (headers x) = List.concat (map header_out (headers x))).
  { rewrite flat_map_concat_map. f_equal. apply map_ext_in. intros h Ih. unfold answer_header_out.
    destruct (beqb (fst h) (bs "Content-Length")) eqn:B1; [|reflexivity]. destruct (beqb (snd h) (bs "0")) eqn:B2; [|reflexivity]. exfalso. apply N0.
    apply beqb_eq in B1, B2. rewrite <- B2. symmetry. apply S; [exact Ih|now rewrite B1]. }
  assert (Nd : Forall digit code) by apply Nu.
  assert (W : word code) by (rewrite Forall_forall in Nd; repeat split; intros I; apply Nd in I; unfold digit in I; lia).
  assert (Ur : url_read code code []).
  { left. split; [|split; [|reflexivity]].
    - intros I. rewrite Forall_forall in Nd. apply Nd in I. unfold digit in I. lia.
    - symmetry. clear - Nd. induction Nd as [|c r D Nd IH]; [reflexivity|]. unfold digit in D. rewrite url_dec_plain; [now rewrite IH|change (ch "%") with 37; lia|discriminate]. }
  set (first := protocol x ++ [32] ++ code ++ [32] ++ message).
  assert (Al : answer_line first (protocol x) code message) by (repeat split; (apply Wp || apply W || apply Lm || assumption)).
  assert (Eb : BuildResponse x code message b ++ rest = (first ++ eol ++ List.concat (map header_out (headers x)) ++ eol) ++ b ++ rest).
  { unfold BuildResponse, first. rewrite Ho, protocol_out_ok by assumption. change (bs " ") with [32]. change [13; 10] with eol. now rewrite <- !app_assoc. }
  rewrite Eb in Ea.
  destruct (body_exact cb closed cur first _ _ _ _ (headers x) _ _ v b rest arrivals (or_intror Al) Ur (ex_intro _ _ (conj F2 eq_refl)) Hb S N L Nc Nf Ea Fw) as (bd & sk & E & B).
  exists bd, sk. split; [|exact B]. rewrite E. unfold told. now rewrite Ff.
Qed.
(** What is sent in chunks is read as one body. *)
Theorem http_send_chunks : forall cb closed cur first mt u pr path hs vs head ds ts rest arrivals,
  line_read first mt u pr -> url_read u path vs -> head_written first hs head -> has_body path ->
  says hs (bs "Transfer-Encoding") (bs "chunked") -> silent hs (bs "Content-Length") ->
  Forall (fun d => 0 < len d < 2 ^ 32) ds -> Forall2 (fun d t => send_chunk d = Some t) (ds ++ [[]]) ts ->
  List.concat arrivals = head ++ List.concat ts ++ rest -> few_bytes cb arrivals ->
  exists x bd sk left, session false cb closed (clean cur) [] arrivals = Complete x bd sk (left ++ rest) /\
    head_read x mt path pr hs vs /\ read_body cb (List.concat ds) bd sk /\ left = bs "0" ++ eol ++ eol.
Proof.
  intros cb closed cur first mt u pr path hs vs head ds ts rest arrivals Lr Ur Hw Hb S Sc Fd F2 Ea Fw.
  apply Forall2_app_inv_l in F2. destruct F2 as (t1 & t2 & F2 & Fl & ->). inversion Fl as [|? t0 ? l0 E0 Fn]; subst. inversion Fn; subst.
  injection E0 as <-.
  assert (Cw : chunks_written ds (List.concat t1)).
  { exists t1. split; [|reflexivity]. clear - Fd F2. induction F2 as [|d t ds ts E F2 IH]; [constructor|]. inversion Fd; subst. constructor; [|now apply IH].
    destruct (send_chunk_ok d H1) as (t' & E' & C). rewrite E in E'. injection E' as ->. exact C. }
  destruct (http_body_chunked cb closed cur first mt u pr path hs vs head ds (List.concat t1) (bs "0") (eol ++ rest) arrivals Lr Ur Hw Hb S Sc Cw) as (x & bd & sk & E & H & B).
  - split; [discriminate|]. split; [|reflexivity]. constructor; [|constructor]. left. cbn. lia.
  - rewrite Ea, concat_app. cbn [List.concat]. rewrite app_nil_r, <- !app_assoc. reflexivity.
  - exact Fw.
  - exists x, bd, sk, (bs "0" ++ eol ++ eol). split; [rewrite E; now rewrite <- !app_assoc|]. split; [exact H|]. split; [exact B|reflexivity].
Qed.
(** Every piece of less than 4 GiB can be sent that way. *)
Theorem http_send_chunk_total : forall d, len d < 2 ^ 32 -> exists t, send_chunk d = Some t.
Proof.
  intros d L. pose proof (len_nonneg d). destruct (Z.eq_dec (len d) 0) as [E|E]; [unfold send_chunk; rewrite E; eexists; reflexivity|].
  destruct (send_chunk_ok d ltac:(lia)) as (t & Et & _). now exists t.
Qed.

(** ** What does not hold *)
Definition crlf (s : string) : list Z := bs s ++ eol.
(** A request with a negative Content-Length ends the reader with an exception. *)
Theorem http_negative_length_refuted : exists arrivals, session false false false (clean 0) [] arrivals = Throws.
Proof. exists [crlf "POST / HTTP/1.1" ++ crlf "Content-Length: -1" ++ eol]. vm_compute. reflexivity. Qed.
(** An answer with an empty body loses its "Content-Length: 0": a reader of the open connection goes on waiting. *)
Theorem http_empty_answer_refuted : exists x, sendable_headers (headers x) /\ says (headers x) (bs "Content-Length") (bs "0") /\
  exists st, session false false false (clean 0) [] [BuildResponse x (bs "200") (bs "OK") []] = st /\
  match st with Waiting _ _ _ _ => True | _ => False end.
Proof.
  exists (mkMsg [] [] (bs "HTTP/1.1") [(bs "Content-Length", bs "0")] []). split; [|split].
  - split; [split; [exact Logic.I|]; repeat constructor; unfold byteP; cbn; lia|]. constructor; [|constructor].
    split; [discriminate|]. split; [discriminate|]. cbn [fst snd]. split; [split; cbn; intuition discriminate|]. split; [cbn; intuition discriminate|].
    split; [intros c r [E|E]; [injection E as <- _; lia|]|].
    { change (bs "Content-Length") with (bs "Content-Lengt" ++ [104]) in E. apply app_inj_tail in E. destruct E as [_ <-]. lia. }
    split; [split; cbn; intuition discriminate|]. intros c r [E|E]; [injection E as <- _; lia|]. change (bs "0") with ([] ++ [48]) in E. apply app_inj_tail in E. destruct E as [_ <-]. lia.
  - split; [eexists; split; [now left|reflexivity]|]. intros h [<-|[]] _. reflexivity.
  - eexists. split; [vm_compute; reflexivity|]. exact Logic.I.
Qed.
(** A chunk extension, or a blank behind the length, is read as more digits of the length. *)
Theorem http_chunk_extension_refuted : exists arrivals x b k unread,
  arrivals = [crlf "POST / HTTP/1.1" ++ crlf "Transfer-Encoding: chunked" ++ eol ++ crlf "3;x=y" ++ crlf "abc" ++ crlf "0" ++ eol] /\
  session false false false (clean 0) [] arrivals = Waiting x b k unread /\ b <> bs "abc".
Proof. eexists _, _, _, _, _. split; [reflexivity|]. split; [vm_compute; reflexivity|vm_compute; discriminate]. Qed.
(** What is left behind a chunked body can be read as a request: here a trailer field. *)
Theorem http_trailer_refuted : exists text x b k left x2 b2 k2 unread2,
  text = crlf "POST / HTTP/1.1" ++ crlf "Transfer-Encoding: chunked" ++ eol ++ crlf "3" ++ crlf "abc" ++ crlf "0" ++ crlf "Note: a b" ++ eol /\
  session false false false (clean 0) [] [text] = Complete x b k left /\ b = bs "abc" /\
  session false false false (clean 0) [] [left] = Complete x2 b2 k2 unread2 /\ method x2 = bs "Note:" /\ url x2 = bs "a".
Proof.
  eexists _, _, _, _, _, _, _, _, _. split; [reflexivity|]. split; [vm_compute; reflexivity|]. split; [reflexivity|]. split; [vm_compute; reflexivity|]. split; reflexivity.
Qed.
(** A connection that has already been closed: a body without length is reported complete, and empty, before any of it is read. *)
Theorem http_closed_early_refuted : exists parts st left,
  Read false false false (clean 0) parts = Some (true, st, left) /\ body st = [] /\ List.concat left = bs "one" ++ [10] ++ bs "two" /\
  List.concat parts = crlf "HTTP/1.1 200 OK" ++ eol ++ bs "one" ++ [10] ++ bs "two".
Proof. exists (stored (crlf "HTTP/1.1 200 OK" ++ eol ++ bs "one" ++ [10] ++ bs "two")). eexists _, _. split; [vm_compute; reflexivity|]. repeat split; vm_compute; reflexivity. Qed.
(** Four gigabytes or more in one piece: the ninth digit of the length is written in front of the array. *)
Theorem http_send_chunk_long_refuted : forall d, 2 ^ 32 <= len d -> send_chunk d = None.
Proof.
  intros d L. unfold send_chunk. replace (len d =? 0) with false by lia. rewrite len_digits_full; [reflexivity|]. change (16 ^ Z.of_nat 8) with (2 ^ 32). exact L.
Qed.
(** A question mark in the URL of a request: it is escaped, and the variables are not sent. *)
Theorem http_request_question_refuted : exists x x2, vars x <> [] /\ In 63 (url x) /\
  session false false false (clean 0) [] [BuildRequest x []] = Complete x2 [] [] [] /\ vars x2 = [].
Proof.
  exists (mkMsg (bs "GET") (bs "/a?b") (bs "HTTP/1.1") [] [(bs "k", bs "v")]). eexists. split; [discriminate|]. split; [cbn; tauto|].
  split; vm_compute; reflexivity.
Qed.

(** ** Concrete cases that meet the hypotheses *)
Definition ex_vars : smap := [(bs "a b", bs "1&2=3"); (bs "k", bs "")].
Lemma bytes_of s : bytesP (bs s).
Proof. induction s as [|c s IH]; [constructor|]. constructor; [|exact IH]. unfold byteP. pose proof (Ascii.N_ascii_bounded c). lia. Qed.
Example http_vars_case : var_map ex_vars /\ parseVars (argStr ex_vars false) [] (bs "&") true = ex_vars /\ argStr ex_vars true = bs "?a%20b=1%262%3d3&k=".
Proof.
  split; [|split; vm_compute; reflexivity]. split; [vm_compute; tauto|]. repeat (constructor; [split; apply bytes_of|]). constructor.
Qed.
Example http_vars_read_case : Forall (part_plain (bs "; ")) [(bs "a", Some (bs "1=2")); ([], Some (bs "x")); (bs "b", None)] /\
  joined (bs "; ") (map part_text [(bs "a", Some (bs "1=2")); ([], Some (bs "x")); (bs "b", None)]) = bs "a=1=2; =x; b".
Proof. split; [|reflexivity]. repeat (constructor; [split; cbn; intuition discriminate|]). constructor. Qed.
Definition ex_headers : smap := [(bs "Content-Length", bs "5"); (bs "Host", bs "x:80")].
Definition ex_request : msg := mkMsg (bs "PUT") (bs "/a b%") (bs "HTTP/1.1") ex_headers ex_vars.
Lemma ex_sendable : sendable_headers ex_headers.
Proof.
  split; [split; [vm_compute; tauto|repeat (constructor; [split; apply bytes_of|]); constructor]|].
  assert (Tc : tight (bs "Content-Length")).
  { intros c r [E|E]; [injection E as <- _; lia|]. change (bs "Content-Length") with (bs "Content-Lengt" ++ [104]) in E. apply app_inj_tail in E. destruct E as [_ <-]. lia. }
  assert (T5 : tight (bs "5")) by (intros c r [E|E]; [injection E as <- _; lia|]; change (bs "5") with ([] ++ [53]) in E; apply app_inj_tail in E; destruct E as [_ <-]; lia).
  assert (Th : tight (bs "Host")) by (intros c r [E|E]; [injection E as <- _; lia|]; change (bs "Host") with (bs "Hos" ++ [116]) in E; apply app_inj_tail in E; destruct E as [_ <-]; lia).
  assert (Tx : tight (bs "x:80")) by (intros c r [E|E]; [injection E as <- _; lia|]; change (bs "x:80") with (bs "x:8" ++ [48]) in E; apply app_inj_tail in E; destruct E as [_ <-]; lia).
  constructor; [|constructor; [|constructor]]; cbn [fst snd]; (split; [discriminate|]); (split; [discriminate|]);
    (split; [split; cbn; intuition discriminate|]); (split; [cbn; intuition discriminate|]); (split; [assumption|]); (split; [split; cbn; intuition discriminate|]); assumption.
Qed.
Example http_request_roundtrip_case :
  word (method ex_request) /\ takez 4 (method ex_request ++ [32]) <> bs "HTTP" /\ bytesP (url ex_request) /\ has_body (url ex_request) /\ versioned (protocol ex_request) /\
  var_map (vars ex_request) /\ Forall (fun e => named e = true) (vars ex_request) /\ (vars ex_request = [] \/ ~ In 63 (url ex_request)) /\
  sendable_headers (headers ex_request) /\ not_form (method ex_request) (headers ex_request) /\ not_chunked (headers ex_request) /\
  says (headers ex_request) (bs "Content-Length") (bs "5") /\ number (bs "5") (len (bs "hello")) /\
  session false false false (clean 0) [] [takez 30 (BuildRequest ex_request (bs "hello")); dropz 30 (BuildRequest ex_request (bs "hello")) ++ bs "GET"] =
    Complete ex_request (bs "hello") [] (bs "GET").
Proof.
  split; [repeat split; cbn; intuition discriminate|]. split; [discriminate|]. split; [apply bytes_of|].
  split; [left; intros c r E; injection E as <- _; unfold digit; lia|].
  split; [split; [split; cbn; intuition discriminate|exists (bs "HTTP"), (bs "1.1"); now split]|]. split; [apply http_vars_case|].
  split; [repeat constructor|]. split; [right; cbn; intuition discriminate|]. split; [exact ex_sendable|]. split; [left; discriminate|].
  split; [left; intros h [<-|[<-|[]]]; discriminate|].
  split; [split; [eexists; split; [now left|reflexivity]|intros h [<-|[<-|[]]] E; [reflexivity|discriminate E]]|].
  split; [split; [discriminate|]; split; [constructor; [vm_compute; intuition discriminate|constructor]|reflexivity]|]. vm_compute. reflexivity.
Qed.
(** The request without a body: the same without the length. *)
Definition ex_get : msg := mkMsg (bs "GET") (bs "/a b%") (bs "HTTP/1.1") [] ex_vars.
Example http_get_roundtrip_case : (forall c r, url ex_get = c :: r -> ~ digit c /\ c <> 32 /\ ~ (9 <= c <= 13) /\ c <> 43 /\ c <> 45) /\
  session false true true (clean 0) [] [BuildRequest ex_get [] ++ BuildRequest ex_get []] = Complete ex_get [] [] (BuildRequest ex_get []).
Proof. split; [intros c r E; injection E as <- _; unfold digit; lia|vm_compute; reflexivity]. Qed.
(** A written head, an answer with chunks, and an answer until the end of the connection. *)
Definition ex_answer : list Z := bs "HTTP/1.1 200 OK".
Definition ex_answer_headers : smap := [(bs "transfer-encoding", bs "chunked")].
Definition ex_head : list Z := crlf "HTTP/1.1 200 OK" ++ crlf "  transfer-encoding :chunked" ++ eol.
Example http_head_case : answer_line ex_answer (bs "HTTP/1.1") (bs "200") (bs "OK") /\ url_read (bs "200") (bs "200") [] /\ head_written ex_answer ex_answer_headers ex_head /\
  has_body (bs "200") /\ says ex_answer_headers (bs "Transfer-Encoding") (bs "chunked") /\ silent ex_answer_headers (bs "Content-Length") /\
  number (bs "200") 200 /\ chunks_written [bs "abc"; bs "de"] (crlf "03" ++ crlf "abc" ++ crlf "2" ++ crlf "de") /\ hexnum (bs "00") 0 /\
  session false false false (clean 0) [] [ex_head ++ crlf "03" ++ bs "ab"; crlf "c" ++ crlf "2" ++ crlf "de" ++ [48]; bs "0" ++ eol] =
    Complete (mkMsg (bs "OK") (bs "200") (bs "HTTP/1.1") ex_answer_headers []) (bs "abcde") [] (bs "00" ++ eol).
Proof.
  assert (Hx : forall c, hexdigit c -> Forall hexdigit [c]) by (intros; constructor; [assumption|constructor]).
  split; [repeat split; cbn; intuition discriminate|]. split; [left; repeat split; cbn; intuition discriminate|]. split.
  { exists [bs "  transfer-encoding :chunked" ++ eol]. split; [|reflexivity]. constructor; [|constructor]. cbn [fst snd].
    split; [split; cbn; intuition discriminate|]. split; [cbn; intuition discriminate|].
    split; [intros c r [E|E]; [injection E as <- _; lia|]; change (fst _) with (bs "transfer-encodin" ++ [103]) in E; apply app_inj_tail in E; destruct E as [_ <-]; lia|].
    split; [split; cbn; intuition discriminate|].
    split; [intros c r [E|E]; [injection E as <- _; lia|]; change (snd _) with (bs "chunke" ++ [100]) in E; apply app_inj_tail in E; destruct E as [_ <-]; lia|].
    exists (bs "  "), (bs " "), [], []. repeat split; repeat constructor. }
  split; [right; exists 200; split; [split; [discriminate|split; [repeat constructor; vm_compute; intuition discriminate|reflexivity]]|lia]|].
  split; [split; [eexists; split; [now left|reflexivity]|intros h [<-|[]] _; reflexivity]|]. split; [intros h [<-|[]]; discriminate|].
  split; [split; [discriminate|split; [repeat constructor; vm_compute; intuition discriminate|reflexivity]]|]. split.
  { exists [crlf "03" ++ crlf "abc"; crlf "2" ++ crlf "de"]. split; [|reflexivity]. constructor; [|constructor; [|constructor]].
    - exists (bs "03"). split; [|split; [vm_compute; split; reflexivity|reflexivity]]. split; [discriminate|]. split; [repeat constructor; vm_compute; intuition discriminate|reflexivity].
    - exists (bs "2"). split; [|split; [vm_compute; split; reflexivity|reflexivity]]. split; [discriminate|]. split; [repeat constructor; vm_compute; intuition discriminate|reflexivity]. }
  split; [split; [discriminate|split; [repeat constructor; vm_compute; intuition discriminate|reflexivity]]|]. vm_compute. reflexivity.
Qed.
Example http_send_chunk_case : send_chunk (bs "0123456789abcdefg") = Some (crlf "11" ++ crlf "0123456789abcdefg").
Proof. vm_compute. reflexivity. Qed.
Example http_until_close_case : session false true true (clean 0) [] [crlf "HTTP/1.1 200 OK"; eol ++ bs "one" ++ [10]; bs "two"] =
  Complete (mkMsg (bs "OK") (bs "200") (bs "HTTP/1.1") [] []) [] (bs "one" ++ [10] ++ bs "two") [].
Proof. vm_compute. reflexivity. Qed.
Example http_form_case : form_post (bs "POST") [(bs "Content-Type", bs "application/x-www-form-urlencoded")] /\
  session false false false (clean 0) [] [crlf "POST /?a=1 HTTP/1.1" ++ crlf "Content-Type: application/x-www-form-urlencoded" ++ crlf "Content-Length: 5" ++ eol ++ bs "b=+2&"] =
  Complete (mkMsg (bs "POST") (bs "/") (bs "HTTP/1.1") [(bs "Content-Length", bs "5"); (bs "Content-Type", bs "application/x-www-form-urlencoded")]
                  [(bs "a", bs "1"); (bs "b", bs " 2")]) (bs "b=+2&") [] [].
Proof. split; [split; [reflexivity|split; [eexists; split; [now left|reflexivity]|intros h [<-|[]] _; reflexivity]]|vm_compute; reflexivity]. Qed.

Print Assumptions http_vars_roundtrip.
Print Assumptions http_vars_read.
Print Assumptions http_vars_nameless_refuted.
Print Assumptions http_packets.
Print Assumptions http_body_length.
Print Assumptions http_body_chunked.
Print Assumptions http_body_chunks_so_far.
Print Assumptions http_request_alone.
Print Assumptions http_head_alone.
Print Assumptions http_body_until_close.
Print Assumptions http_skipped_line.
Print Assumptions http_request_roundtrip.
Print Assumptions http_get_roundtrip.
Print Assumptions http_answer_roundtrip.
Print Assumptions http_send_chunks.
Print Assumptions http_send_chunk_total.
Print Assumptions http_negative_length_refuted.
Print Assumptions http_empty_answer_refuted.
Print Assumptions http_chunk_extension_refuted.
Print Assumptions http_trailer_refuted.
Print Assumptions http_closed_early_refuted.
Print Assumptions http_send_chunk_long_refuted.
Print Assumptions http_request_question_refuted.
