(** What a reader of HTTP messages does, as seen from outside: data arrives in pieces, after every arrival the reader is asked. *)
From Verif Require Import Common Encode_Model Url_Model Http_Model.
From Verif Require SockBuf_Model Dtmi_Spec.

(** How the asking ends: still waiting, complete, or an exception leaves the reader.  [x]: request or status line, headers and
    variables; [b] body and [k] data given to a callback so far; [unread]: what has been received but not been used. *)
Inductive verdict :=
| Waiting (x : msg) (b k unread : list Z)
| Complete (x : msg) (b k unread : list Z)
| Throws.

(** The pieces one arrival is stored in: Socket::Buffer::append with the separator newline (see SockBuf_Model). *)
Definition stored (arrival : list Z) : list (list Z) := SockBuf_Model.cut (List.length arrival) [10] arrival.
(** [closed]: the connection ends behind the last arrival and the reader is asked once more. *)
Fixpoint session (headerOnly cb closed : bool) (st : hp) (parts : list (list Z)) (arrivals : list (list Z)) : verdict :=
  match arrivals with
  | [] =>
      if closed then
        match Read headerOnly cb false st parts with
        | None => Throws
        | Some (true, st, parts) => Complete (m st) (body st) (sink st) (List.concat parts)
        | Some (false, st, parts) => Waiting (m st) (body st) (sink st) (List.concat parts)
        end
      else Waiting (m st) (body st) (sink st) (List.concat parts)
  | a :: later =>
      match Read headerOnly cb true st (parts ++ stored a) with
      | None => Throws
      | Some (true, st, parts) => Complete (m st) (body st) (sink st) (List.concat parts ++ List.concat later)
      | Some (false, st, parts) => session headerOnly cb closed st parts later
      end
  end.

(** ** Messages *)
Definition eol : list Z := [13; 10].
Definition line_text (s : list Z) : Prop := ~ In 13 s /\ ~ In 10 s.
Definition word (s : list Z) : Prop := line_text s /\ ~ In 32 s.
Definition blanks (s : list Z) : Prop := Forall (fun c => c = 32 \/ c = 9) s.
(** Text that neither starts nor ends with a blank. *)
Definition tight (s : list Z) : Prop := forall c r, s = c :: r \/ s = r ++ [c] -> c <> 32 /\ c <> 9.
(** A header line for the name [fst h] and the value [snd h]: blanks around both do not count. *)
Definition header_written (h : list Z * list Z) (t : list Z) : Prop :=
  line_text (fst h) /\ ~ In 58 (fst h) /\ tight (fst h) /\ line_text (snd h) /\ tight (snd h) /\
  exists b1 b2 b3 b4, blanks b1 /\ blanks b2 /\ blanks b3 /\ blanks b4 /\
    t = b1 ++ fst h ++ b2 ++ bs ":" ++ b3 ++ snd h ++ b4 ++ eol.
(** The text of a head: first line, header lines, an empty line. *)
Definition head_written (first : list Z) (hs : smap) (t : list Z) : Prop :=
  exists ls, Forall2 header_written hs ls /\ t = first ++ eol ++ List.concat ls ++ eol.

(** The value of the last of the entries named [k]. *)
Definition last_value (k : list Z) (l : smap) : option (list Z) :=
  match find (fun e => beqb k (fst e)) (rev l) with Some e => Some (snd e) | None => None end.
(** The lower case form of a name, and what a list of headers says about a name in whatever case. *)
Definition folded (s : list Z) : list Z := map (fun c => if (65 <=? c) && (c <=? 90) then c + 32 else c) s.
Definition says (hs : smap) (name v : list Z) : Prop :=
  (exists h, In h hs /\ folded (fst h) = folded name) /\ (forall h, In h hs -> folded (fst h) = folded name -> snd h = v).
Definition silent (hs : smap) (name : list Z) : Prop := forall h, In h hs -> folded (fst h) <> folded name.

(** What the reader knows about the URL [u] of a first line: path and variables. *)
Definition url_read (u path : list Z) (vs : smap) : Prop :=
  (~ In 63 u /\ path = url_decode u false /\ vs = []) \/
  (exists p q, u = p ++ 63 :: q /\ ~ In 63 p /\ path = url_decode p false /\ vs = parseVars q [] (bs "&") true).
(** The first line of a request: GET /x HTTP/1.1; of an answer: HTTP/1.1 200 OK. *)
Definition request_line (t mt u pr : list Z) : Prop :=
  word mt /\ word u /\ line_text pr /\ takez 4 (mt ++ [32]) <> bs "HTTP" /\ t = mt ++ [32] ++ u ++ [32] ++ pr.
Definition answer_line (t pr u mt : list Z) : Prop :=
  word pr /\ word u /\ line_text mt /\ takez 4 pr = bs "HTTP" /\ t = pr ++ [32] ++ u ++ [32] ++ mt.
(** What has been read of a head.  Looking up a header ignores case; of several with exactly the same name the last one counts. *)
Definition headers_read (h hs : smap) : Prop :=
  (forall k v, last_value k hs = Some v -> GetHeader k h = v /\ hasHeader k h = true) /\
  (forall k v, ~ In 0 k -> says hs k v -> GetHeader k h = v /\ hasHeader k h = true) /\
  (forall k, ~ In 0 k -> silent hs k -> GetHeader k h = [] /\ hasHeader k h = false).
Definition head_read (x : msg) (mt path pr : list Z) (hs vs : smap) : Prop :=
  method x = mt /\ url x = path /\ protocol x = pr /\ vars x = vs /\ headers_read (headers x) hs.
(** A first line of either kind. *)
Definition line_read (t mt u pr : list Z) : Prop := request_line t mt u pr \/ answer_line t pr u mt.

(** The body, or what the callback has been given, is [b]. *)
Definition read_body (cb : bool) (b : list Z) (bd sk : list Z) : Prop := if cb then bd = [] /\ sk = b else bd = b /\ sk = [].

(** Decimal numbers. *)
Definition digit (c : Z) : Prop := 48 <= c <= 57.
Definition number (s : list Z) (n : Z) : Prop := s <> [] /\ Forall digit s /\ n = fold_left (fun v c => v * 10 + (c - 48)) s 0.

(** Answers that never have a body, and messages that may have one: requests, and answers with another status. *)
Definition bodyless (path : list Z) : Prop :=
  exists code, number path code /\ code < 2 ^ 31 /\ (100 <= code < 200 \/ code = 204 \/ code = 304).
Definition has_body (path : list Z) : Prop :=
  (forall c r, path = c :: r -> ~ digit c) \/
  (exists code, number path code /\ code < 2 ^ 31 /\ ~ (100 <= code < 200 \/ code = 204 \/ code = 304)).
(** Not chunked. *)
Definition not_chunked (hs : smap) : Prop :=
  silent hs (bs "Transfer-Encoding") \/ exists v, says hs (bs "Transfer-Encoding") v /\ v <> bs "chunked".
(** A posted form: its fields are variables. *)
Definition form_post (mt : list Z) (hs : smap) : Prop := mt = bs "POST" /\ says hs (bs "Content-Type") (bs "application/x-www-form-urlencoded").
Definition not_form (mt : list Z) (hs : smap) : Prop := mt <> bs "POST" \/ silent hs (bs "Content-Type") \/
  exists v, says hs (bs "Content-Type") v /\ v <> bs "application/x-www-form-urlencoded".

(** ** Chunked bodies *)
Definition hexdigit (c : Z) : Prop := 48 <= c <= 57 \/ 65 <= c <= 70 \/ 97 <= c <= 102.
Definition hexval (c : Z) : Z := if c <=? 57 then c - 48 else if c <=? 70 then c - 55 else c - 87.
Definition hexnum (s : list Z) (n : Z) : Prop := s <> [] /\ Forall hexdigit s /\ n = fold_left (fun v c => v * 16 + hexval c) s 0.
(** One chunk: its length in hexadecimal digits on a line of its own, the data, the end of the line. *)
Definition chunk_written (d t : list Z) : Prop :=
  exists l, hexnum l (len d) /\ 0 < len d < 2 ^ 32 /\ t = l ++ eol ++ d ++ eol.
Definition chunks_written (ds : list (list Z)) (t : list Z) : Prop :=
  exists ts, Forall2 chunk_written ds ts /\ t = List.concat ts.

(** ** Form variables *)
(** One assignment in a query string: a name, and perhaps a value; [sep] is what stands between two of them. *)
Definition part_text (e : list Z * option (list Z)) : list Z :=
  fst e ++ match snd e with Some v => bs "=" ++ v | None => [] end.
Fixpoint joined (sep : list Z) (l : list (list Z)) : list Z :=
  match l with [] => [] | [t] => t | t :: r => t ++ sep ++ joined sep r end.
Definition part_plain (sep : list Z) (e : list Z * option (list Z)) : Prop :=
  ~ In 61 (fst e) /\ ~ In (hd 0 sep) (part_text e).
(** What it assigns: nothing without a name, the empty value without "=". *)
Definition part_value (q : bool) (e : list Z * option (list Z)) : list Z * list Z :=
  (url_decode (fst e) q, match snd e with Some v => url_decode v q | None => [] end).
Definition named {A} (e : list Z * A) : bool := negb (beqb (fst e) []).
(** A std::map: every name once, names in increasing order, strings of bytes. *)
Definition var_map (l : smap) : Prop := Dtmi_Spec.increasing (map fst l) /\ Forall (fun e => bytesP (fst e) /\ bytesP (snd e)) l.

(** ** Messages that can be sent *)
Definition sendable_headers (hs : smap) : Prop :=
  var_map hs /\ Forall (fun h => fst h <> [] /\ snd h <> [] /\ line_text (fst h) /\ ~ In 58 (fst h) /\ tight (fst h) /\ line_text (snd h) /\ tight (snd h)) hs.
Definition versioned (p : list Z) : Prop := line_text p /\ exists a b, p = a ++ bs "/" ++ b /\ len a = 4.
