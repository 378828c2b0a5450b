(** What a path means, independently of how lib/url.cpp edits it (RFC 3986, section 5.2.4): walk
    through the names between the slashes, starting at the root. *)
From Verif Require Import Common Encode_Model Encode_Spec Url_Model.

(** The texts between the slashes; always at least one. *)
Fixpoint segs (p : list Z) : list (list Z) :=
  match p with
  | [] => [[]]
  | c :: r => if c =? 47 then [] :: segs r
              else match segs r with g :: gs => (c :: g) :: gs | [] => [[c]] end
  end.
(** One step: nothing and "." stay, ".." goes to the parent (from the root to the root), any other
    name enters that directory. *)
Definition visit (at_ : list (list Z)) (g : list Z) : list (list Z) :=
  if beqb g [] || beqb g (bs ".") then at_
  else if beqb g (bs "..") then removelast at_
  else at_ ++ [g].
Definition walk (p : list Z) : list (list Z) := fold_left visit (segs p) [].
(** The place reached before the last text. *)
Definition before (p : list Z) : list (list Z) := fold_left visit (removelast (segs p)) [].
(** Whether the text names a directory as such. *)
Definition dirlike (p : list Z) : bool :=
  let g := last (segs p) [] in beqb g [] || beqb g (bs ".") || beqb g (bs "..").
Fixpoint slashed (l : list (list Z)) : list Z :=
  match l with
  | [] => []
  | [g] => g
  | g :: r => g ++ 47 :: slashed r
  end.
(** The text of the place reached. *)
Definition resolve (p : list Z) : list Z :=
  match walk p with
  | [] => []
  | w => if dirlike p then slashed w ++ [47] else slashed w
  end.

(** A proper name of a file or directory. *)
Definition name (g : list Z) : Prop := ~ In 47 g /\ g <> [] /\ g <> bs "." /\ g <> bs "..".
(** A path that stays below the root whatever it is appended to. *)
Definition tame (p : list Z) : Prop := exists l, Forall name l /\ (p = slashed l \/ l <> [] /\ p = slashed l ++ [47]).
(** The one shape of path that lib/url.cpp leaves alone: a final ".." behind a name that itself ends
    with two dots. *)
Definition odd_end (p : list Z) : Prop :=
  last (segs p) [] = bs ".." /\ exists x, last (before p) [] = x ++ bs "..".
(** Followed from any directory, the path stays inside that directory. *)
Definition stays_inside (p : list Z) : Prop := forall dir, exists below, fold_left visit (segs p) dir = dir ++ below.

(** Text without any of the characters of [bad]. *)
Definition without (bad : string) (s : list Z) : Prop := Forall (fun c => ~ In c (bs bad)) s.
Definition digit (c : Z) : Prop := 48 <= c <= 57.
(** A host that is not taken for a port number: empty, or with something else than a digit in it. *)
Definition hostname (h : list Z) : Prop := h = [] \/ exists a c b, h = a ++ c :: b /\ Forall digit a /\ c <> 0 /\ ~ digit c.

(** The values of a URL object that text can express. User name, password and path are any bytes;
    what cannot be written is a delimiter inside a part that is printed as it is. *)
Record ordinary (u : url) : Prop := {
  o_bytes : bytesP (user u) /\ bytesP (pass u) /\ bytesP (path u) /\ bytesP (frag u);
  o_proto : protocol u <> [] /\ without ":" (protocol u);
  o_host : without "/?#@" (host u) /\ hostname (host u);
  o_v6 : if IPv6Addr u then without "]" (host u) else without ":" (host u) /\ hd 0 (host u) <> ch "[";
  o_port : Forall digit (port u);
  o_path : tame (path u);
  o_args : without "#" (args u);
  o_rtsp : protocol u = bs "rtsp" -> args u = [] /\ frag u = [];
  o_rist : protocol u = bs "rist" -> path u = [];
  o_file : protocol u = bs "file" -> Forall (fun c => In c url_unreserved \/ In c (bs "/:=@[]+ ")) (path u) }.

(** The directory a path is in: all but the last text. *)
Definition folder (p : list Z) : list Z := slashed (removelast (segs p) ++ [[]]).
(** The optional parts behind a path. *)
Definition query_part (a : list Z) : Prop := (a = [] \/ exists x, a = bs "?" ++ x) /\ without "#" a.
Definition frag_part (f : list Z) : Prop := f = [] \/ exists x, f = bs "#" ++ x.
Definition contains (t s : list Z) : Prop := exists x y, s = x ++ t ++ y.

(** The text in front of the host, and the user name and password it stands for. *)
Definition creds_part (t u w : list Z) : Prop :=
  t = [] /\ u = [] /\ w = []
  \/ (exists U, without ":@/?#" U /\ t = U ++ bs "@" /\ u = url_decode U false /\ w = [])
  \/ (exists U W, without ":@/?#" U /\ without "@/?#" W /\ t = U ++ bs ":" ++ W ++ bs "@"
                  /\ u = url_decode U false /\ w = url_decode W false).
(** The text of host and port, and what it stands for; [v]: written as an IPv6 address. *)
Definition host_part (t h n : list Z) (v : bool) : Prop :=
  hostname h /\ Forall digit n /\ without "/?#@" h
  /\ (if v then without "]" h else without ":" h /\ hd 0 h <> ch "[")
  /\ let shown := if v then bs "[" ++ h ++ bs "]" else h in
     t = shown /\ n = [] \/ t = shown ++ bs ":" ++ n.
(** A link that names its own protocol: "://" before any slash. *)
Definition link_full (l : list Z) : Prop := exists x y, l = x ++ bs "://" ++ y /\ ~ In 47 x.
(** [u] with another port, and the port that is printed: none if it is the default one. *)
Definition with_port (u : url) (n : list Z) : url :=
  mkUrl (host u) (protocol u) n (path u) (args u) (frag u) (user u) (pass u) (IPv6Addr u).
Definition kept_port (u : url) : list Z := if getPort u =? getDefaultPort u then [] else port u.
(** The ports that the protocols use if none is given. *)
Definition usual_ports : list (list Z * Z) :=
  [ (bs "http", 80); (bs "https", 443); (bs "ws", 80); (bs "wss", 443); (bs "rtmp", 1935); (bs "rtmps", 443); (bs "dtsc", 4200);
    (bs "rtsp", 554); (bs "srt", 8889) ].
