(** Model of the string utilities of lib/util.cpp and of the stream name filter of
    lib/stream.cpp.  A std::string is the list of its bytes; [None] is the outcome of a
    std::out_of_range exception, of a read outside an array, or of running out of the
    (provably sufficient) loop count. *)
From Verif Require Import Common.

(** std::string::find_first_of / find with a one character argument: first index of [s]
    at or after [pos] whose character satisfies [f]; [None] is npos. *)
Fixpoint findp (f : Z -> bool) (s : list Z) (i : Z) : option Z :=
  match s with
  | [] => None
  | c :: t => if f c then Some i else findp f t (i + 1)
  end.
Definition find_from (f : Z -> bool) (s : list Z) (pos : Z) : option Z :=
  if pos <=? len s then findp f (dropz pos s) pos else None.

(** std::string::substr(pos, n): throws if [pos] is beyond the end, else at most [n] characters. *)
Definition substr (s : list Z) (pos n : Z) : option (list Z) :=
  if pos <=? len s then Some (takez n (dropz pos s)) else None.
(** std::string::substr(pos). *)
Definition substr_to_end (s : list Z) (pos : Z) : option (list Z) :=
  if pos <=? len s then Some (dropz pos s) else None.

(** ** stringTrim: lib/util.cpp:178-199 *)
(** Characters the two loops skip (util.cpp:184-185 and 192-193). *)
Definition trim_skips (c : Z) : bool := (c =? 32) || negb ((c <? 9) || (13 <? c)).

(** First loop, util.cpp:183-189: [startPos], zero if every character is skipped. *)
Fixpoint trim_start (s : list Z) (i : Z) : Z :=
  match s with
  | [] => 0
  | c :: t => if trim_skips c then trim_start t (i + 1) else i
  end.
(** Second loop, util.cpp:191-197: [i] runs from size-1 down to 1. *)
Fixpoint trim_len (s : list Z) (startPos : Z) (i : nat) : Z :=
  match i with
  | O => 0
  | S k => if trim_skips (nth i s 0) then trim_len s startPos k else Z.of_nat i + 1 - startPos
  end.
(** util.cpp:178-199.  [length] is computed in uint64_t. *)
Definition stringTrim (val : list Z) : option (list Z) :=
  if len val =? 0 then Some val
  else let startPos := trim_start val 0 in
       substr val startPos (u64 (trim_len val startPos (List.length val - 1))).

(** ** splitString: lib/util.cpp:202-221 *)
(** Collection of the positions of the delimiter, util.cpp:204-209. *)
Fixpoint split_positions (fuel : nat) (src : list Z) (delim pos : Z) : list Z :=
  match fuel with
  | O => []
  | S k => match find_from (Z.eqb delim) src pos with
           | None => []
           | Some p => p :: split_positions k src delim (p + 1)
           end
  end.
(** The loop over the positions, util.cpp:214-219, with the pieces made so far in order. *)
Fixpoint split_loop (src : list Z) (positions : list Z) (prevPos : Z) : option (list (list Z)) :=
  match positions with
  | [] => if prevPos <? len src
          then p <- substr_to_end src (prevPos + 1) ;; Some [p]
          else Some []
  | q :: r =>
      p <- (if prevPos =? 0 then substr src prevPos q
            else substr src (prevPos + 1) (q - prevPos - 1)) ;;
      rest <- split_loop src r q ;;
      Some (p :: rest)
  end.
Definition splitString (src : list Z) (delim : Z) : option (list (list Z)) :=
  match split_positions (S (List.length src)) src delim 0 with
  | [] => Some [src]
  | ps => split_loop src ps 0
  end.

(** ** shellSplit: lib/util.cpp:224-290 *)
(** util.cpp:231: the interesting characters: space, both quotes and the backslash. *)
Definition shell_special (c : Z) : bool := (c =? 32) || (c =? 39) || (c =? 34) || (c =? 92).
(** util.cpp:258-264: the character after a backslash. *)
Definition shell_escape (c : Z) : Z :=
  if c =? ch "n" then 10
  else if c =? ch "r" then 13
  else if c =? ch "t" then 9
  else if c =? ch "a" then 7
  else c.
(** util.cpp:235 and 243: push the argument if it holds something or was quoted. *)
Definition shell_push (arg : list Z) (argFull : bool) (result : list (list Z)) : list (list Z) :=
  if (0 <? len arg) || argFull then result ++ [arg] else result.

(** util.cpp:229-289. [quoting] is 0 or the quote character. *)
Fixpoint shell_loop (fuel : nat) (val : list Z) (startPos quoting : Z) (argFull : bool)
    (arg : list Z) (result : list (list Z)) : option (list (list Z)) :=
  match fuel with
  | O => None
  | S k =>
    match find_from shell_special val startPos with
    | None =>
        if startPos <? len val
        then p <- substr_to_end val startPos ;; Some (shell_push (arg ++ p) argFull result)
        else Some (shell_push arg argFull result)
    | Some nxt =>
        c <- rd val nxt ;;
        if c =? 32 then
          if quoting =? 0 then
            p <- substr val startPos (nxt - startPos) ;;
            shell_loop k val (nxt + 1) quoting false [] (shell_push (arg ++ p) argFull result)
          else
            p <- substr val startPos (nxt - startPos + 1) ;;
            shell_loop k val (nxt + 1) quoting argFull (arg ++ p) result
        else if c =? 92 then
          p <- substr val startPos (nxt - startPos) ;;
          if nxt + 1 <? len val then
            e <- rd val (nxt + 1) ;;
            shell_loop k val (nxt + 2) quoting argFull (arg ++ p ++ [shell_escape e]) result
          else shell_loop k val (nxt + 2) quoting argFull (arg ++ p) result
        else if (c =? 39) || (c =? 34) then
          if quoting =? 0 then
            p <- substr val startPos (nxt - startPos) ;;
            shell_loop k val (nxt + 1) c true (arg ++ p) result
          else if negb (quoting =? c) then
            p <- substr val startPos (nxt - startPos + 1) ;;
            shell_loop k val (nxt + 1) quoting argFull (arg ++ p) result
          else
            p <- substr val startPos (nxt - startPos) ;;
            shell_loop k val (nxt + 1) 0 argFull (arg ++ p) result
        else shell_loop k val startPos quoting argFull arg result
    end
  end.
(** The result queue starts empty (all callers pass a fresh one). *)
Definition shellSplit (val : list Z) : option (list (list Z)) :=
  shell_loop (S (S (List.length val))) val 0 0 false [] [].

(** ** replace: lib/util.cpp:165-175 *)
Fixpoint prefixb (p s : list Z) : bool :=
  match p, s with
  | [], _ => true
  | x :: p', y :: s' => (x =? y) && prefixb p' s'
  | _, _ => false
  end.
(** std::string::find of a string: first index at or after the start of [s] (index [i]) where [p] begins. *)
Fixpoint find_str (p s : list Z) (i : Z) : option Z :=
  if prefixb p s then Some i
  else match s with [] => None | _ :: t => find_str p t (i + 1) end.
(** The loop of util.cpp:169-173; [fuel] counts iterations. *)
Fixpoint replace_loop (fuel : nat) (str from to_ : list Z) (start_pos counter : Z) : option (list Z * Z) :=
  match fuel with
  | O => None
  | S k =>
      match (if start_pos <=? len str then find_str from (dropz start_pos str) start_pos else None) with
      | None => Some (str, counter)
      | Some p =>
          (* str.replace(p, from.length(), to) *)
          replace_loop k (takez p str ++ to_ ++ dropz (p + len from) str) from to_ (p + len to_) (counter + 1)
      end
  end.
Definition replace (str from to_ : list Z) : option (list Z * Z) :=
  if len from =? 0 then Some (str, 0)
  else replace_loop (S (List.length str)) str from to_ 0 0.

(** ** sanitizeName: lib/stream.cpp:247-271 *)
(** isalpha, isdigit and tolower of the C locale (the program never calls setlocale). *)
Definition isalphaC (c : Z) : bool := ((65 <=? c) && (c <=? 90)) || ((97 <=? c) && (c <=? 122)).
Definition isdigitC (c : Z) : bool := (48 <=? c) && (c <=? 57).
Definition tolowerC (c : Z) : Z := if (65 <=? c) && (c <=? 90) then c + 32 else c.
(** The condition of stream.cpp:265, negated. *)
Definition san_keep (c : Z) : bool :=
  isalphaC c || isdigitC c || (c =? ch "_") || (c =? ch ".") || (c =? ch "-").
(** The loop of stream.cpp:260-270; the iterator is at index [n - 1].  Erasing one character
    leaves the iterator at the same index. *)
Fixpoint san_loop (n : nat) (s : list Z) : list Z :=
  match n with
  | O => s
  | S k =>
      let c := nth k s 0 in
      if c =? ch "?" then firstn k s
      else if negb (san_keep c) then san_loop k (firstn k s ++ skipn (S k) s)
      else san_loop k (firstn k s ++ [tolowerC c] ++ skipn (S k) s)
  end.
(** stream.cpp:249-258: the recursive call is on a string without '+' and ' ', so the recursion
    is one level deep and is unfolded here. *)
Definition sanitizeName (s : list Z) : option (list Z) :=
  match find_from (fun c => (c =? ch "+") || (c =? 32)) s 0 with
  | Some index =>
      pre <- substr s 0 index ;;
      post <- substr_to_end s (index + 1) ;;
      let post' := match find_from (Z.eqb (ch "?")) post 0 with
                   | Some q => takez q post
                   | None => post
                   end in
      Some (san_loop (List.length pre) pre ++ [ch "+"] ++ post')
  | None => Some (san_loop (List.length s) s)
  end.

(** ** expBackoffMs: lib/util.cpp:401-410 *)
(** The loop of util.cpp:404-407, run [n] = maxIter - currIter times. *)
Fixpoint backoff_loop (n : nat) (w : Z) : Z :=
  match n with
  | O => w
  | S k => backoff_loop k (let w' := w >> 1 in if w' <? 2 then 2 else w')
  end.
(** [currIter] and [maxIter] are size_t, [maxWait] is int64_t. *)
Definition expBackoffMs (currIter maxIter maxWait : Z) : Z :=
  if maxIter <? currIter then 5
  else backoff_loop (Z.to_nat (maxIter - currIter)) (maxWait >> 1).

(** ** getRandomAlphanumeric: lib/util.cpp:427-441, [rnd] are the random bytes. *)
Definition alnum_of (b : Z) : Z :=
  let v := u8 (b mod 62) in
  if v <? 10 then u8 (v + 48)
  else if v <? 36 then u8 (v - 10 + 65)
  else u8 (v - 10 - 26 + 97).
Definition getRandomAlphanumeric (rnd : list Z) : list Z := map alnum_of rnd.

(** ** generateUUID: lib/util.cpp:443-460, [rnd] are the 16 random bytes. *)
Definition uuid_charset : list Z := bs "0123456789abcdef".
Definition uuid_template : list Z := bs "00000000-0000-4000-D000-000000000000".
(** util.cpp:446 and 449-450: the array of 16 random numbers after the two adjustments. *)
Definition uuid_nums (rnd : list Z) : list Z :=
  let a := splice rnd 6 [((nthz rnd 6) .& 15) .| 64] in
  splice a 8 [((nthz a 8) .& 63) .| 128].
(** util.cpp:453-458. *)
Fixpoint uuid_loop (nums tmpl : list Z) (j : Z) : option (list Z) :=
  match tmpl with
  | [] => Some []
  | c :: t =>
      if c =? ch "D" then
        r <- rd nums j ;; x <- rd uuid_charset (8 + r mod 4) ;;
        rest <- uuid_loop nums t (j + 1) ;; Some (x :: rest)
      else if c =? ch "0" then
        r <- rd nums j ;; x <- rd uuid_charset (r mod 16) ;;
        rest <- uuid_loop nums t (j + 1) ;; Some (x :: rest)
      else rest <- uuid_loop nums t j ;; Some (c :: rest)
  end.
Definition generateUUID (rnd : list Z) : option (list Z) := uuid_loop (uuid_nums rnd) uuid_template 0.
