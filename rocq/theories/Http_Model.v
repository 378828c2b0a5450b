(** Model of /repo/lib/http_parser.cpp: form variables, headers and the request reader of
    HTTP::Parser on top of the parts of a Socket::Buffer.  A std::string is the list of its bytes. *)
From Verif Require Import Common Encode_Model Str_Model JsonVal_Model Url_Model.

(** std::map<std::string, std::string>: its entries in increasing order of the names. *)
Definition smap := list (list Z * list Z).
(** operator[] as target of an assignment. *)
Fixpoint sset (k v : list Z) (l : smap) : smap :=
  match l with
  | [] => [(k, v)]
  | (k', v') :: r => if sltb k k' then (k, v) :: l else if beqb k k' then (k, v) :: r else (k', v') :: sset k v r
  end.
(** find / count / at. *)
Fixpoint sget (k : list Z) (l : smap) : option (list Z) :=
  match l with [] => None | (k', v') :: r => if beqb k k' then Some v' else sget k r end.

(** lib/http_parser.cpp:745-774 parseVars, on the rest [data] of the string behind pos.  An empty separator would never
    end; all callers pass one of one or two characters.  [fuel]: one round per character is enough. *)
Fixpoint parseVars_loop (fuel : nat) (data : list Z) (storage : smap) (separator : list Z) (queryStr : bool) : smap :=
  match fuel with
  | O => storage
  | S k =>
      match data with
      | [] => storage
      | _ =>
          let nextpos := match find_str separator data 0 with Some i => i | None => len data end in
          let '(varname, varval) :=
            match findc 61 data with
            | Some eq_pos => if eq_pos <? nextpos
                             then (takez eq_pos data, takez (nextpos - eq_pos - 1) (dropz (eq_pos + 1) data))
                             else (takez nextpos data, [])
            | None => (takez nextpos data, [])
            end in
          let storage := if negb (len varname =? 0)
                         then sset (url_decode varname queryStr) (url_decode varval queryStr) storage
                         else storage in
          parseVars_loop k (dropz (nextpos + len separator) data) storage separator queryStr
      end
  end.
Definition parseVars (data : list Z) (storage : smap) (separator : list Z) (queryStr : bool) : smap :=
  parseVars_loop (List.length data) data storage separator queryStr.

(** lib/http_parser.cpp:776-788 argStr: the loop over the map with [ret] so far. *)
Definition argStr_step (withQuestionMark : bool) (ret : list Z) (it : list Z * list Z) : list Z :=
  if len (fst it) =? 0 then ret
  else (if len ret >? 1 then ret ++ bs "&" else if withQuestionMark then ret ++ bs "?" else ret)
       ++ url_encode (fst it) [] false ++ bs "=" ++ url_encode (snd it) [] false.
Definition argStr (vars : smap) (withQuestionMark : bool) : list Z :=
  fold_left (argStr_step withQuestionMark) vars [].

(** lib/http_parser.cpp:402-410 Trim. *)
Fixpoint trim_front (s : list Z) : list Z :=
  match s with c :: r => if (c =? 32) || (c =? 9) then trim_front r else s | [] => [] end.
Definition Trim (s : list Z) : list Z := rev (trim_front (rev (trim_front s))).
(** lib/http_parser.cpp:473-477 SetHeader. *)
Definition SetHeader (i v : list Z) (headers : smap) : smap := sset (Trim i) (Trim v) headers.
(** lib/http_parser.cpp:492-497 SetVar. *)
Definition SetVar (i v : list Z) (vars : smap) : smap := if len (Trim i) =? 0 then vars else sset (Trim i) (Trim v) vars.
(** strncasecmp of two strings of the same length: it stops at a zero byte in both. *)
Definition lower (c : Z) : Z := if (65 <=? c) && (c <=? 90) then c + 32 else c.
Fixpoint same_case (a b : list Z) : bool :=
  match a, b with
  | x :: a, y :: b => if negb (lower x =? lower y) then false else if x =? 0 then true else same_case a b
  | _, _ => true
  end.
(** lib/http_parser.cpp:437-446 GetHeader and 449-456 hasHeader. *)
Definition find_header (i : list Z) (headers : smap) : option (list Z) :=
  match sget i headers with
  | Some v => Some v
  | None => match find (fun it => (len (fst it) =? len i) && same_case (fst it) i) headers with
            | Some it => Some (snd it)
            | None => None
            end
  end.
Definition GetHeader (i : list Z) (headers : smap) : list Z := match find_header i headers with Some v => v | None => [] end.
Definition hasHeader (i : list Z) (headers : smap) : bool := match find_header i headers with Some _ => true | None => false end.

(** atoi and atoll: blanks, a sign, digits; strtol saturates. *)
Fixpoint skip_space (s : list Z) : list Z :=
  match s with c :: r => if (c =? 32) || ((9 <=? c) && (c <=? 13)) then skip_space r else s | [] => [] end.
Definition atoll (s : list Z) : Z :=
  match skip_space s with
  | c :: r => if c =? 45 then Z.max (- digits_val 0 r) (- 2 ^ 63)
              else if c =? 43 then Z.min (digits_val 0 r) (2 ^ 63 - 1)
              else Z.min (digits_val 0 (c :: r)) (2 ^ 63 - 1)
  | [] => 0
  end.
Definition atoi (s : list Z) : Z := s32 (atoll s).

(** lib/http_parser.h: the fields that reading uses.  [sink] is what a body callback (bodyCallback or onData) has been given. *)
Record msg := mkMsg { method : list Z; url : list Z; protocol : list Z; headers : smap; vars : smap }.
Record hp := mkHp { m : msg; seenHeaders : bool; seenReq : bool; possiblyComplete : bool; getChunks : bool; doingChunk : Z;
  body : list Z; length : Z; knownLength : bool; currentLength : Z; sink : list Z }.

(** lib/http_parser.cpp:29-52 Clean.  currentLength is not reset there. *)
Definition clean (cur : Z) : hp :=
  mkHp (mkMsg (bs "GET") (bs "/") (bs "HTTP/1.1") [] []) false false false false 0 [] 0 false cur [].

(** lib/http_parser.cpp:568: everything from the first carriage return on is dropped. *)
Definition cut_cr (s : list Z) : list Z := match findc 13 s with Some i => takez i s | None => s end.

(** lib/http_parser.cpp:581-585 and 597-601: variables and decoding of the URL. *)
Definition set_url (u : list Z) (v : smap) : list Z * smap :=
  match findc 63 u with
  | Some q => (url_decode (takez q u) false, parseVars (dropz (q + 1) u) v (bs "&") true)
  | None => (url_decode u false, v)
  end.
(** lib/http_parser.cpp:569-608: the first line; the result says whether it was one (seenReq). *)
Definition first_line (x : msg) (tmpA : list Z) : msg * bool :=
  match findc 32 tmpA with
  | None => (x, false)
  | Some f =>
      let a := takez f tmpA in
      let tmpB := dropz (f + 1) tmpA in
      if beqb (takez 4 tmpA) (bs "HTTP") then
        match findc 32 tmpB with
        | None => (mkMsg (method x) (url x) a (headers x) (vars x), false)
        | Some g => let (u, v) := set_url (takez g tmpB) (vars x) in (mkMsg (dropz (g + 1) tmpB) u a (headers x) v, true)
        end
      else
        match findc 32 tmpB with
        | None => (mkMsg a (url x) (protocol x) (headers x) (vars x), false)
        | Some g => let (u, v) := set_url (takez g tmpB) (vars x) in (mkMsg a u (dropz (g + 1) tmpB) (headers x) v, true)
        end
  end.
(** lib/http_parser.cpp:625-629: a header line. *)
Definition header_line (x : msg) (tmpA : list Z) : msg :=
  match findc 58 tmpA with
  | None => x
  | Some f => mkMsg (method x) (url x) (protocol x) (SetHeader (takez f tmpA) (dropz (f + 1) tmpA) (headers x)) (vars x)
  end.

Definition with_msg (st : hp) (x : msg) (req : bool) : hp :=
  mkHp x (seenHeaders st) req (possiblyComplete st) (getChunks st) (doingChunk st) (body st) (length st) (knownLength st)
       (currentLength st) (sink st).

Section Parse.
(** headerOnly, and whether a body callback is set. *)
Variable headerOnly cb : bool.

(** lib/http_parser.cpp:610-623: the end of the headers.  length is a size_t.  [None]: std::string::reserve throws
    std::length_error, which happens for negative lengths only. *)
Definition head_end (st : hp) : option hp :=
  let h := headers (m st) in
  let cl := GetHeader (bs "Content-Length") h in
  let known := negb (beqb cl []) in
  let length := if known then u64 (atoi cl) else length st in
  let chunked := beqb (GetHeader (bs "Transfer-Encoding") h) (bs "chunked") in
  if known && negb cb && (length >? 2 ^ 63) then None
  else Some (mkHp (m st) true (seenReq st) (possiblyComplete st) (if chunked then true else getChunks st)
                  (if chunked then 0 else doingChunk st) [] length known 0 (sink st)).

(** lib/http_parser.cpp:568-631: one line of the head. *)
Definition head_line (st : hp) (line : list Z) : option hp :=
  let tmpA := cut_cr line in
  if negb (seenReq st) then let (x, ok) := first_line (m st) tmpA in Some (with_msg st x ok)
  else if len tmpA =? 0 then head_end st
  else Some (with_msg st (header_line (m st) tmpA) true).

(** lib/http_parser.cpp:648-661, 679-690 and 719-730: body data goes to the callback or to the body. *)
Definition deliver (st : hp) (d : list Z) : hp :=
  mkHp (m st) (seenHeaders st) (seenReq st) (possiblyComplete st) (getChunks st) (doingChunk st)
       (if cb then body st else body st ++ d) (length st) (knownLength st) (currentLength st) (if cb then sink st ++ d else sink st).
Definition set_counts (st : hp) (chunks : bool) (doing cur : Z) : hp :=
  mkHp (m st) (seenHeaders st) (seenReq st) (possiblyComplete st) chunks doing (body st) (length st) (knownLength st) cur (sink st).
Definition set_complete (st : hp) : hp :=
  mkHp (m st) (seenHeaders st) (seenReq st) true (getChunks st) (doingChunk st) (body st) (length st) (knownLength st)
       (currentLength st) (sink st).
(** lib/http_parser.cpp:667: the variables of a posted form. *)
Definition post_vars (st : hp) : hp :=
  let x := m st in
  if beqb (method x) (bs "POST") && beqb (GetHeader (bs "Content-Type") (headers x)) (bs "application/x-www-form-urlencoded")
  then with_msg st (mkMsg (method x) (url x) (protocol x) (headers x) (parseVars (body st) (vars x) (bs "&") true)) (seenReq st)
  else st.
(** lib/http_parser.cpp:636-639: a status that never has a body. *)
Definition no_body (u : list Z) : bool :=
  match u with
  | c :: _ => if (48 <=? c) && (c <=? 57) then
                let code := u32 (atoi u) in ((code >=? 100) && (code <? 200)) || (code =? 204) || (code =? 304)
              else false
  | [] => false
  end.
(** lib/http_parser.cpp:698-702: unsigned int chunkLen. *)
Definition chunk_len (line : list Z) : Z := fold_left (fun n c => u32 (u32 (n << 4) .| hex_ord c)) line 0.

(** lib/http_parser.cpp:633-738: the body; the result is returned by parse. *)
Definition parse_body (st : hp) (buf : list Z) : bool * hp * list Z :=
  if headerOnly then (true, st, buf)
  else if no_body (url (m st)) then (true, st, buf)
  else if knownLength st && negb (getChunks st) then
    let toappend := u32 (length st - currentLength st) in
    let toappend := if toappend >? len buf then len buf else toappend in
    let '(st, buf) := if toappend >? 0
                      then (set_counts (deliver st (takez toappend buf)) (getChunks st) (doingChunk st) (u64 (currentLength st + toappend)),
                            dropz toappend buf)
                      else (st, buf) in
    if length st =? currentLength st then (true, post_vars st, buf) else (false, st, buf)
  else if getChunks st then
    let cur := u64 (currentLength st + len buf) in
    if negb (doingChunk st =? 0) then
      let toappend := u32 (len buf) in
      let toappend := if toappend >? doingChunk st then doingChunk st else toappend in
      (false, set_counts (deliver st (takez toappend buf)) true (doingChunk st - toappend) cur, dropz toappend buf)
    else
      match findc 10 buf with
      | None => (false, set_counts st true (doingChunk st) cur, buf)
      | Some f =>
          let tmpA := cut_cr (takez f buf) in
          let n := chunk_len tmpA in
          if negb (len tmpA =? 0) && (n =? 0) then (true, set_counts st false (doingChunk st) cur, buf)
          else (false, set_counts st true (if len tmpA =? 0 then doingChunk st else n) cur, dropz (f + 1) buf)
      end
  else if beqb (takez 4 (protocol (m st))) (bs "RTSP") || beqb (takez 4 (method (m st))) (bs "RTSP") then (true, st, buf)
  else (true, set_complete (deliver st (takez (u32 (len buf)) buf)), dropz (u32 (len buf)) buf).

(** lib/http_parser.cpp:553-741 parse.  Every round takes at least one line, so the length of the buffer is enough fuel. *)
Fixpoint parse_loop (fuel : nat) (st : hp) (buf : list Z) : option (bool * hp * list Z) :=
  match fuel with
  | O => Some (possiblyComplete st, st, buf)
  | S k =>
      match buf with
      | [] => Some (possiblyComplete st, st, buf)
      | _ =>
          if negb (seenHeaders st) then
            match findc 10 buf with
            | None => Some (false, st, buf)
            | Some f =>
                st <- head_line st (takez f buf) ;;
                let buf := dropz (f + 1) buf in
                if seenHeaders st then Some (parse_body st buf) else parse_loop k st buf
            end
          else Some (parse_body st buf)
      end
  end.
Definition parse (st : hp) (buf : list Z) : option (bool * hp * list Z) := parse_loop (S (List.length buf)) st buf.

(** lib/http_parser.cpp:508-530: the parts of the connection's buffer, oldest first.  [more]: the test behind parse() in line
    526, with [conn] for an open connection.  [None] in the first component: the length_error of parse. *)
Fixpoint drop_empty (d : list (list Z)) : list (list Z) :=
  match d with [] :: r => drop_empty r | _ => d end.
Definition more (conn : bool) (st : hp) : bool := negb (possiblyComplete st) || negb conn || (atoll (url (m st)) =? 0).
Definition wants_line (st : hp) : bool := negb (seenHeaders st) || (getChunks st && (doingChunk st =? 0)).
Fixpoint read_loop (fuel : nat) (conn : bool) (st : hp) (parts : list (list Z)) : option (bool * hp * list (list Z)) :=
  match fuel with
  | O => Some (false, st, parts)
  | S k =>
      match drop_empty parts with
      | [] => Some (false, st, [])
      | p :: r =>
          if wants_line st && negb (last p 0 =? 10) then
            match r with
            | [] => Some (false, st, [p])
            | q :: r' => read_loop k conn st ((p ++ q) :: r')
            end
          else
            match parse st p with
            | None => None
            | Some (done, st, p) => if done && more conn st then Some (true, st, p :: r) else read_loop k conn st (p :: r)
            end
      end
  end.
(** lib/http_parser.cpp:503-531 Read. *)
Definition Read (conn : bool) (st : hp) (parts : list (list Z)) : option (bool * hp * list (list Z)) :=
  match drop_empty parts with
  | [] => match parse st [] with
          | None => None
          | Some (done, st, p) => Some (done && more conn st, st, [])
          end
  | parts => read_loop (S (2 * List.length (List.concat parts) + 2 * List.length parts)) conn st parts
  end.
End Parse.

(** ** Sending *)
(** lib/http_parser.cpp:158-162: one header; empty names and values are left out. *)
Definition header_out (it : list Z * list Z) : list Z :=
  if negb (beqb (fst it) []) && negb (beqb (snd it) []) then fst it ++ bs ": " ++ snd it ++ [13; 10] else [].
(** lib/http_parser.cpp:152 and 226: a protocol without a version is replaced. *)
Definition protocol_out (p : list Z) : list Z := if (len p <? 5) || negb (nthz p 4 =? 47) then bs "HTTP/1.0" else p.
(** lib/http_parser.cpp:149-165 BuildRequest; [b] is the member body. *)
Definition BuildRequest (x : msg) (b : list Z) : list Z :=
  let form := beqb (method x) (bs "POST") && beqb (GetHeader (bs "Content-Type") (headers x)) (bs "application/x-www-form-urlencoded") in
  let query := if negb form && negb (len (vars x) =? 0) && match findc 63 (url x) with None => true | _ => false end
               then argStr (vars x) true else [] in
  method x ++ bs " " ++ url_encode (url x) (bs "/:=@[]") false ++ query ++ bs " " ++ protocol_out (protocol x) ++ [13; 10]
  ++ flat_map header_out (headers x) ++ [13; 10] ++ b.
(** lib/http_parser.cpp:223-239 BuildResponse: a Content-Length of 0 is left out as well. *)
Definition answer_header_out (it : list Z * list Z) : list Z :=
  if beqb (fst it) (bs "Content-Length") && beqb (snd it) (bs "0") then [] else header_out it.
Definition BuildResponse (x : msg) (code message b : list Z) : list Z :=
  protocol_out (protocol x) ++ bs " " ++ code ++ bs " " ++ message ++ [13; 10]
  ++ flat_map answer_header_out (headers x) ++ [13; 10] ++ b.

(** lib/socket.cpp:1542-1548: the hexadecimal digits of a length, least significant first; the array has room for eight, a ninth
    would be written in front of it ([None]). *)
Fixpoint len_digits (room : nat) (t_size : Z) : option (list Z) :=
  if t_size =? 0 then Some []
  else match room with
       | O => None
       | S k => r <- len_digits k (t_size >> 4) ;; Some (nthz (bs "0123456789abcdef") (t_size .& 15) :: r)
       end.
(** lib/socket.cpp:1533-1556 SendNow in chunked mode (HTTP::Parser::Chunkify, lib/http_parser.cpp:800-826, for a connection that
    sends chunks). *)
Definition send_chunk (data : list Z) : option (list Z) :=
  if len data =? 0 then Some (bs "0" ++ [13; 10; 13; 10])
  else d <- len_digits 8 (len data) ;; Some (rev d ++ [13; 10] ++ data ++ [13; 10]).
