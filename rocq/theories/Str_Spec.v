(** What the string utilities promise, stated on plain byte strings. *)
From Verif Require Import Common.

(** ** Whitespace: space, tab, line feed, vertical tab, form feed, carriage return. *)
Definition blank (c : Z) : Prop := c = 32 \/ 9 <= c <= 13.
(** [r] is [s] without its leading and trailing whitespace. *)
Definition trimmed (s r : list Z) : Prop :=
  exists a b, s = a ++ r ++ b /\ Forall blank a /\ Forall blank b /\
    (forall c t, r = c :: t -> ~ blank c) /\ (forall t c, r = t ++ [c] -> ~ blank c).

(** ** Splitting at a delimiter *)
(** The pieces joined with the delimiter in between. *)
Fixpoint join (d : Z) (ps : list (list Z)) : list Z :=
  match ps with
  | [] => []
  | [p] => p
  | p :: r => p ++ d :: join d r
  end.
(** The pieces of [s]: put back together they give [s], and none contains the delimiter. *)
Definition pieces_of (d : Z) (s : list Z) (ps : list (list Z)) : Prop :=
  ps <> [] /\ join d ps = s /\ Forall (fun p => ~ In d p) ps.

(** ** Command lines *)
(** A command line reader that looks at one character at a time.  [q]: the open quote or 0;
    [full]: something was quoted in this argument; [arg]: the argument so far. *)
Definition unescape (c : Z) : Z :=
  if c =? 110 then 10 else if c =? 114 then 13 else if c =? 116 then 9 else if c =? 97 then 7 else c.
Definition emit (full : bool) (arg : list Z) : list (list Z) :=
  match arg with [] => if full then [[]] else [] | _ => [arg] end.
Fixpoint words (q : Z) (full : bool) (arg : list Z) (s : list Z) : list (list Z) :=
  match s with
  | [] => emit full arg
  | c :: t =>
      if c =? 92 then
        match t with
        | [] => emit full arg
        | e :: t' => words q full (arg ++ [unescape e]) t'
        end
      else if c =? 32 then
        if q =? 0 then emit full arg ++ words 0 false [] t else words q full (arg ++ [32]) t
      else if (c =? 39) || (c =? 34) then
        if q =? 0 then words c true arg t
        else if q =? c then words 0 full arg t
        else words q full (arg ++ [c]) t
      else words q full (arg ++ [c]) t
  end.
(** A way to write any argument: between single quotes, with a backslash before every
    backslash and single quote. *)
Definition quoted (arg : list Z) : list Z :=
  [39] ++ flat_map (fun c => if (c =? 39) || (c =? 92) then [92; c] else [c]) arg ++ [39].
Definition command_line (args : list (list Z)) : list Z := join 32 (map quoted args).

(** ** Replacing *)
(** [r] is [s] with [n] non-overlapping occurrences of [a] replaced by [b], taken leftmost
    first, and no occurrence left out. *)
Definition occurs_at (a s : list Z) (i : Z) : Prop := exists x y, s = x ++ a ++ y /\ len x = i.
Inductive replaced (a b : list Z) : list Z -> list Z -> Z -> Prop :=
| rep_none s : (forall i, ~ occurs_at a s i) -> replaced a b s s 0
| rep_one x y r n :
    (forall i, occurs_at a (x ++ a ++ y) i -> len x <= i) ->
    replaced a b y r n -> replaced a b (x ++ a ++ y) (x ++ b ++ r) (n + 1).

(** ** Stream names *)
Definition name_char (c : Z) : Prop :=
  97 <= c <= 122 \/ 48 <= c <= 57 \/ c = 95 \/ c = 45 \/ c = 46.
(** The two characters that end the sanitized part of a name. *)
Definition wild (c : Z) : Prop := c = 43 \/ c = 32.
Definition lower (c : Z) : Z := if (65 <=? c) && (c <=? 90) then c + 32 else c.
(** The name with everything else dropped, in lower case. *)
Inductive cleaned : list Z -> list Z -> Prop :=
| cl_nil : cleaned [] []
| cl_keep c s r : name_char (lower c) -> cleaned s r -> cleaned (c :: s) (lower c :: r)
| cl_drop c s r : ~ name_char (lower c) -> cleaned s r -> cleaned (c :: s) r.

(** ** Random identifiers *)
Definition alnum (c : Z) : Prop := 48 <= c <= 57 \/ 65 <= c <= 90 \/ 97 <= c <= 122.
(** Lower case hexadecimal digits. *)
Definition hexdig (c : Z) : Prop := 48 <= c <= 57 \/ 97 <= c <= 102.
(** A random UUID: dashes, the version digit 4, the variant digit 8, 9, a or b, else digits. *)
Definition uuid_form (u : list Z) : Prop :=
  len u = 36 /\
  forall i, 0 <= i < 36 ->
    (i = 8 \/ i = 13 \/ i = 18 \/ i = 23 -> nthz u i = 45) /\
    (i = 14 -> nthz u i = 52) /\
    (i = 19 -> In (nthz u i) [56; 57; 97; 98]) /\
    (i <> 8 /\ i <> 13 /\ i <> 18 /\ i <> 23 -> hexdig (nthz u i)).

(** Sum of [f 0 .. f n]. *)
Fixpoint total (f : Z -> Z) (n : nat) : Z :=
  match n with O => f 0 | S k => total f k + f (Z.of_nat n) end.
