(** Which connections belong to the same session. *)
From Verif Require Import Common SessId_Model.

Inductive kind := Viewer | Input | Output | Unspecified | Uncounted.
(** What a connection counts as. *)
Inductive counts_as (m : modes) (r : req) : kind -> Prop :=
| as_input x : protocol r = bs "INPUT:" ++ x -> counts_as m r Input
| as_output x : protocol r = bs "OUTPUT:" ++ x -> counts_as m r Output
| as_http_output : protocol r = bs "HTTP" -> infoMode m = HTTP_AS_OUTPUT -> counts_as m r Output
| as_http_none : protocol r = bs "HTTP" -> infoMode m = HTTP_DISABLED -> counts_as m r Uncounted
| as_http_unspecified : protocol r = bs "HTTP" -> infoMode m = HTTP_AS_UNSPECIFIED -> counts_as m r Unspecified
| as_http_viewer : protocol r = bs "HTTP" -> infoMode m <> HTTP_AS_OUTPUT -> infoMode m <> HTTP_DISABLED -> infoMode m <> HTTP_AS_UNSPECIFIED -> counts_as m r Viewer
| as_viewer : protocol r <> bs "HTTP" -> (forall x, protocol r <> bs "INPUT:" ++ x) -> (forall x, protocol r <> bs "OUTPUT:" ++ x) -> counts_as m r Viewer.
Definition mode_of (m : modes) (k : kind) : Z :=
  match k with Viewer => viewerMode m | Input => inputMode m | Output => outputMode m | Unspecified => unspecifiedMode m | Uncounted => 0 end.
(** The components that a mode selects: bit 3 the stream, bit 2 the address, bit 1 the token, bit 0 the protocol. *)
Definition selected (mode : Z) (r : req) : list (list Z) :=
  (if Z.testbit mode 3 then [stream r] else []) ++ (if Z.testbit mode 2 then [ip r] else [])
  ++ (if Z.testbit mode 1 then [tkn r] else []) ++ (if Z.testbit mode 0 then [protocol r] else []).
(** All but at most one of the selected components are equally long in both connections. *)
Inductive one_open : list (list Z) -> list (list Z) -> Prop :=
| open_nil : one_open [] []
| open_here x y l r : Forall2 (fun a b => List.length a = List.length b) l r -> one_open (x :: l) (y :: r)
| open_later x y l r : List.length x = List.length y -> one_open l r -> one_open (x :: l) (y :: r).
(** A digest as lower case hexadecimal digits that never collides. *)
Definition hexdigit (c : Z) : Prop := 48 <= c <= 57 \/ 97 <= c <= 102.
Definition perfect (sha : list Z -> list Z) : Prop :=
  (forall x y, sha x = sha y -> x = y) /\ forall x, Forall hexdigit (sha x).
