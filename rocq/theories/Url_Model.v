(** Model of /repo/lib/url.cpp: class HTTP::URL.  A std::string is the list of its bytes.
    Positions given to substr and erase come from find or from lengths just tested, so none of
    them throws; std::string::npos is [None]. *)
From Verif Require Import Common Encode_Model Str_Model JsonText_Model.

(** lib/url.h:34-44: the fields. *)
Record url := mkUrl { host : list Z; protocol : list Z; port : list Z; path : list Z; args : list Z;
  frag : list Z; user : list Z; pass : list Z; IPv6Addr : bool }.

(** std::string::find of one character. *)
Definition findc (c : Z) (s : list Z) : option Z := findp (Z.eqb c) s 0.
(** std::string::rfind of one character. *)
Definition rfindc (c : Z) (s : list Z) : option Z :=
  match findc c (rev s) with Some i => Some (len s - 1 - i) | None => None end.
(** std::string::rfind(c, pos): the last one at or before [pos]. *)
Definition rfindc_to (c : Z) (s : list Z) (pos : Z) : option Z := rfindc c (takez (pos + 1) s).
(** std::string::erase(pos, n). *)
Definition erase (s : list Z) (pos n : Z) : list Z := takez pos s ++ dropz (pos + n) s.
(** std::string::substr(size - n) == t, for a string of at least [n] characters. *)
Definition last_is (n : Z) (s t : list Z) : bool := beqb (dropz (len s - n) s) t.

(** lib/url.cpp:10-16 is_numeric, on c_str(): what follows a zero byte is not looked at. *)
Fixpoint is_numeric (s : list Z) : bool :=
  match s with
  | [] => true
  | c :: r => if c =? 0 then true else if (c <? 48) || (c >? 57) then false else is_numeric r
  end.

(** lib/url.cpp:53-58 and 59-64: every occurrence of [pat], first one first, loses its first [n]
    characters.  [fuel] counts the iterations; each makes the string shorter. *)
Fixpoint squeeze (fuel : nat) (pat : list Z) (n : Z) (p : list Z) : list Z :=
  match fuel with
  | O => p
  | S k => match find_str pat p 0 with
           | None => p
           | Some dots => squeeze k pat n (erase p dots n)
           end
  end.

(** lib/url.cpp:66-75: removal of "/../" with the component in front of it.  With dots = 0 the
    position dots - 1 is npos, but then the first branch is taken anyway. *)
Fixpoint climb (fuel : nat) (p : list Z) : list Z :=
  match fuel with
  | O => p
  | S k =>
      match find_str (bs "/../") p 0 with
      | None => p
      | Some dots =>
          climb k
            (match (if dots =? 0 then rfindc 47 p else rfindc_to 47 p (dots - 1)) with
             | None => erase p 0 (dots + 4)
             | Some prevslash =>
                 if dots =? 0 then erase p 0 (dots + 4)
                 else erase p (prevslash + 1) (dots - prevslash + 3)
             end)
      end
  end.

(** lib/url.cpp:81-89: a ".." at the end.  rfind gives npos when there is one component only;
    npos + 1 is 0. *)
Definition end_dots (p : list Z) : list Z :=
  if (len p >? 2) && last_is 3 p (bs "/..") then
    if len p <=? 4 then []
    else if (len p >? 4) && negb (last_is 5 p (bs "../..")) then
      match rfindc_to 47 p (len p - 4) with
      | None => takez 0 p
      | Some prevslash => takez (prevslash + 1) p
      end
    else p
  else p.

(** path[0] == '/' (a character of the empty string is 0): lib/url.cpp:52, 65. *)
Definition drop_slash (p : list Z) : list Z := if nthz p 0 =? 47 then dropz 1 p else p.

(** lib/url.cpp:51-92: the clean-up of a path that is not empty. *)
Definition normalise (p : list Z) : list Z :=
  match p with
  | [] => []
  | _ =>
    let p := drop_slash p in
    let p := squeeze (List.length p) (bs "/./") 2 p in
    let p := squeeze (List.length p) (bs "//") 1 p in
    let p := drop_slash p in
    let p := climb (List.length p) p in
    let p := if beqb (takez 2 p) (bs "./") then dropz 2 p else p in
    let p := if beqb (takez 3 p) (bs "../") then dropz 3 p else p in
    let p := if beqb p (bs "..") then [] else p in
    let p := if beqb p (bs ".") then [] else p in
    let p := end_dots p in
    if (len p >? 1) && last_is 2 p (bs "/.") then takez (len p - 1) p else p
  end.

(** lib/url.cpp:242-251 isLocalPath. *)
Definition isLocalPath (u : url) : bool :=
  if beqb (protocol u) (bs "file") then true
  else (len (host u) =? 0) && (len (protocol u) =? 0) && (len (port u) =? 0).

(** lib/url.cpp:22-29: protocol and the position where the host begins. *)
Definition split_proto (s : list Z) : list Z * Z :=
  match find_str (bs "://") s 0 with
  | Some proto_sep => (takez proto_sep s, proto_sep + 3)
  | None => ([], if beqb (takez 2 s) (bs "//") then 2 else 0)
  end.

(** lib/url.cpp:33-96: path, arguments and fragment from what follows the host.  isLocalPath is
    called while host and port are still empty. *)
Definition parse_path (proto : list Z) (t : list Z) : list Z * list Z * list Z :=
  let p := if nthz t 0 =? 47 then dropz 1 t else t in
  let '(p, a, f) :=
    if beqb proto (bs "rtsp") then (p, [], [])
    else
      let '(p, f) := match findc 35 p with
                     | Some hmark => (takez hmark p, url_decode (dropz (hmark + 1) p) false)
                     | None => (p, [])
                     end in
      match findc 63 p with
      | Some qmark => (takez qmark p, dropz (qmark + 1) p, f)
      | None => (p, [], f)
      end in
  let q := normalise p in
  let q := if isLocalPath (mkUrl [] proto [] [] [] [] [] [] false) then q else url_decode q false in
  (if len p =? 0 then p else q, a, f).

(** lib/url.cpp:101-112: user name and password in front of the host. *)
Definition parse_creds (uphp : list Z) : list Z * list Z * list Z :=
  match findc 64 uphp with
  | None => ([], [], uphp)
  | Some at_sign =>
      let creds := takez at_sign uphp in
      let uphp := dropz (at_sign + 1) uphp in
      match findc 58 creds with
      | Some colon => (url_decode (takez colon creds) false, url_decode (dropz (colon + 1) creds) false, uphp)
      | None => (url_decode creds false, [], uphp)
      end
  end.

(** lib/url.cpp:114-155: host, port and whether the host is an IPv6 address.  Without a closing
    brace, closing_brace is npos: substr(1, npos - 1) is the rest and find(':', npos) finds nothing. *)
Definition parse_host (uphp : list Z) : list Z * list Z * bool :=
  let '(h, p, v) :=
    if nthz uphp 0 =? 91 then
      match findc 93 uphp with
      | None => (dropz 1 uphp, [], true)
      | Some closing_brace =>
          let h := takez (closing_brace - 1) (dropz 1 uphp) in
          match find_from (Z.eqb 58) uphp closing_brace with
          | None => (h, [], true)
          | Some colon =>
              let p := dropz (colon + 1) uphp in
              if is_numeric p then (h, p, true) else (h ++ bs ":" ++ p, [], true)
          end
      end
    else
      let '(h, p, v) :=
        match rfindc 58 uphp with
        | None => (uphp, [], false)
        | Some colon =>
            let p := dropz (colon + 1) uphp in
            let h := takez colon uphp in
            if is_numeric p then (h, p, false) else (h ++ bs ":" ++ p, [], true)
        end in
      (h, p, v || existsb (Z.eqb 58) h) in
  if negb (len h =? 0) && is_numeric h then ([], h, v) else (h, p, v).

(** lib/url.cpp:19-157: the constructor. *)
Definition URL (s : list Z) : url :=
  let '(proto, proto_sep) := split_proto s in
  let rest := dropz proto_sep s in
  (* url.find_first_of("/?#", proto_sep) *)
  let slash := findp (fun c => (c =? 47) || (c =? 63) || (c =? 35)) rest 0 in
  let '(p, a, f) := match slash with
                    | Some i => parse_path proto (dropz i rest)
                    | None => ([], [], [])
                    end in
  let uphp := match slash with Some i => takez i rest | None => rest end in
  let '(u, w, uphp) := parse_creds uphp in
  let '(h, n, v) := parse_host uphp in
  mkUrl h proto n p a f u w v.

(** atoi on a string that starts with a digit or nothing: strtol saturates, then the conversion to
    int and to uint16_t keeps the low 16 bits.  Simplification: leading blanks and signs, which the
    constructor never leaves in a port, are not interpreted. *)
Fixpoint digits_val (acc : Z) (s : list Z) : Z :=
  match s with
  | c :: r => if (48 <=? c) && (c <=? 57) then digits_val (acc * 10 + (c - 48)) r else acc
  | [] => acc
  end.
Definition atoi16 (s : list Z) : Z := u16 (Z.min (digits_val 0 s) 9223372036854775807).

(** lib/url.cpp:173-184 getDefaultPort. *)
Definition getDefaultPort (u : url) : Z :=
  let pr := protocol u in
  if beqb pr (bs "http") then 80
  else if beqb pr (bs "https") then 443
  else if beqb pr (bs "ws") then 80
  else if beqb pr (bs "wss") then 443
  else if beqb pr (bs "rtmp") then 1935
  else if beqb pr (bs "rtmps") then 443
  else if beqb pr (bs "dtsc") then 4200
  else if beqb pr (bs "rtsp") then 554
  else if beqb pr (bs "srt") then 8889
  else 0.

(** lib/url.cpp:160-163 getPort and 166-170 setPort. *)
Definition getPort (u : url) : Z := if len (port u) =? 0 then getDefaultPort u else atoi16 (port u).
Definition setPort (u : url) (n : Z) : url :=
  mkUrl (host u) (protocol u) (show_int n) (path u) (args u) (frag u) (user u) (pass u) (IPv6Addr u).

(** lib/url.cpp:187-194 getExt. *)
Definition getExt (u : url) : list Z :=
  match rfindc 46 (path u) with
  | None => []
  | Some dot =>
      match rfindc 47 (path u) with
      | Some slash => if slash >? dot then [] else dropz (dot + 1) (path u)
      | None => dropz (dot + 1) (path u)
      end
  end.

(** lib/url.cpp:230-239 getEncodedPath and 226-228 getFilePath. *)
Definition getEncodedPath (u : url) : list Z :=
  if beqb (protocol u) (bs "rtsp") then url_encode (path u) (bs "/:=@[]#?&") false
  else if isLocalPath u then url_encode (path u) (bs "/:=@[]+ ") false
  else url_encode (path u) (bs "/:=@[]") false.
Definition getFilePath (u : url) : list Z := 47 :: path u.

(** The parts shared by getUrl, getProxyUrl and getBareUrl. *)
(** lib/url.cpp:199-203. *)
Definition print_proto (u : url) : list Z :=
  if negb (len (protocol u) =? 0) then protocol u ++ bs "://" else bs "//".
(** lib/url.cpp:204-210. *)
Definition print_creds (u : url) : list Z :=
  if negb (len (user u) =? 0) || negb (len (pass u) =? 0) then
    if len (pass u) =? 0 then url_encode (user u) [] false ++ bs "@"
    else url_encode (user u) [] false ++ bs ":" ++ url_encode (pass u) [] false ++ bs "@"
  else [].
(** lib/url.cpp:211-216. *)
Definition print_host (u : url) : list Z :=
  (if IPv6Addr u || existsb (Z.eqb 58) (host u) then bs "[" ++ host u ++ bs "]" else host u)
  ++ (if negb (len (port u) =? 0) && negb (getPort u =? getDefaultPort u) then bs ":" ++ port u else []).

(** lib/url.cpp:197-223 getUrl. *)
Definition getUrl (u : url) : list Z :=
  print_proto u ++ print_creds u ++ print_host u
  ++ (if negb (beqb (protocol u) (bs "rist")) then bs "/" ++ getEncodedPath u else [])
  ++ (if negb (len (args u) =? 0) then bs "?" ++ args u else [])
  ++ (if negb (len (frag u) =? 0) then bs "#" ++ url_encode (frag u) (bs "/:=@[]#?&") false else []).

(** lib/url.cpp:254-271 getProxyUrl. *)
Definition getProxyUrl (u : url) : list Z :=
  print_proto u ++ print_host u ++ bs "/" ++ getEncodedPath u
  ++ (if negb (len (args u) =? 0) then bs "?" ++ args u else []).

(** lib/url.cpp:274-297 getBareUrl. *)
Definition getBareUrl (u : url) : list Z :=
  print_proto u ++ print_creds u ++ print_host u ++ bs "/" ++ getEncodedPath u.

(** lib/url.cpp:300-310 getBase; without a slash, npos + 1 is 0. *)
Definition getBase (u : url) : list Z :=
  let tmpUrl := if isLocalPath u then getFilePath u else getBareUrl u in
  match rfindc 47 tmpUrl with Some slashPos => takez (slashPos + 1) tmpUrl | None => [] end.

(** lib/url.cpp:315-327 getLinkFrom. *)
Definition getLinkFrom (u fromUrl : url) : list Z :=
  let to := if isLocalPath u then getFilePath u else getUrl u in
  let from := getBase fromUrl in
  if beqb (takez (len from) to) from then dropz (len from) to else to.

(** lib/url.cpp:330-359 link.  The second half of line 332 is l.find('/' != npos), that is
    l.find('\001'): false only if the first character has code 1. *)
Definition link (u : url) (l : list Z) : url :=
  let full :=
    match find_str (bs "://") l 0, findc 47 l with
    | Some a, Some b => a <? b
    | Some _, None => true
    | None, _ => false
    end && match findc 1 l with Some i => negb (i =? 0) | None => true end in
  if full then URL l
  else if nthz l 0 =? 47 then
    if (len l >? 1) && (nthz l 1 =? 47) then URL (protocol u ++ bs ":" ++ l)
    else
      let tmp := mkUrl (host u) (protocol u) (port u) (dropz 1 l) [] (frag u) (user u) (pass u) (IPv6Addr u) in
      if isLocalPath tmp then URL (getFilePath tmp) else URL (getUrl tmp)
  else URL (getBase u ++ l).

(** lib/url.cpp:362-364 operator==. *)
Definition url_eqb (a b : url) : bool :=
  beqb (host a) (host b) && (getPort a =? getPort b) && beqb (protocol a) (protocol b)
  && beqb (path a) (path b) && beqb (args a) (args b).
