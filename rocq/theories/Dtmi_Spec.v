(** Specification of the packed form: the grammar of well formed bytes, and what it means that the
    lookup functions report a given tree. *)
From Verif Require Import Common Outcome_Model JsonVal_Model Scan_Model.

(** A run given enough steps returns [x]; a run that no number of steps completes. *)
Definition returns {A} (run : nat -> res A) (x : A) : Prop := exists n, forall k, (n <= k)%nat -> run k = Ok x.
Definition never_returns {A} (run : nat -> res A) : Prop := forall k, run k = Stuck.
Definition undefined {A} (run : nat -> res A) : Prop := exists n, forall k, (n <= k)%nat -> run k = Ub.

(** Trees as they are written: an object starts with one of two tags and lists its members in any order. *)
Inductive wv :=
| WInt (n : Z) | WStr (s : list Z) | WNull | WDbl (bits : Z)
| WObj (tag : Z) (l : list (list Z * wv)) | WArr (l : list wv).

Fixpoint enc (v : wv) : list Z :=
  match v with
  | WInt n => 1 :: be 8 n
  | WStr s => 2 :: be 4 (len s) ++ s
  | WNull => [3]
  | WDbl d => 4 :: be 8 d
  | WObj t l => t :: flat_map (fun e => be 2 (len (fst e)) ++ fst e ++ enc (snd e)) l ++ [0; 0; 238]
  | WArr l => 10 :: flat_map enc l ++ [0; 0; 238]
  end.

(** Names have one to 65535 bytes, lengths fit their fields, numbers 64 bits. *)
Inductive wok : wv -> Prop :=
| wok_int n : - 2 ^ 63 <= n < 2 ^ 63 -> wok (WInt n)
| wok_str s : len s < 2 ^ 32 -> wok (WStr s)
| wok_null : wok WNull
| wok_dbl d : 0 <= d < 2 ^ 64 -> wok (WDbl d)
| wok_obj t l : t = 224 \/ t = 255 ->
    Forall (fun e => 0 < len (fst e) < 65536 /\ bytesP (fst e) /\ wok (snd e)) l -> wok (WObj t l)
| wok_arr l : Forall wok l -> wok (WArr l).

(** First member of a name. *)
Fixpoint first_of (k : list Z) (l : list (list Z * wv)) : option wv :=
  match l with [] => None | (k', v) :: r => if beqb k k' then Some v else first_of k r end.

(** The scan [s] over the bytes [m] reports the tree [v] through the lookup functions. *)
Inductive reads (m : list Z) : mscan -> wv -> Prop :=
| reads_int s n : getType m s = Ok 1 -> (forall d t, asInt m d t s = Ok n) -> reads m s (WInt n)
| reads_str s x : getType m s = Ok 2 -> getText m s = Ok x -> reads m s (WStr x)
| reads_null s : getType m s = Ok 3 -> reads m s WNull
| reads_dbl s b : getType m s = Ok 4 -> (forall d t, asInt m d t s = Ok (d b)) -> reads m s (WDbl b)
| reads_arr s l : getType m s = Ok 10 ->
    returns (fun f => getSize m f s) (len l) ->
    (forall i v, nth_error l i = Some v ->
       exists s', returns (fun f => getIndice m f (Z.of_nat i) s) (Some s') /\ reads m (Some s') v) ->
    (forall i, len l <= i -> returns (fun f => getIndice m f i s) None) ->
    reads m s (WArr l)
| reads_obj s t l : getType m s = Ok t ->
    returns (fun f => getSize m f s) (len l) ->
    (forall i k v, nth_error l i = Some (k, v) ->
       returns (fun f => getIndiceName m f (Z.of_nat i) s) k /\
       exists s', returns (fun f => getIndice m f (Z.of_nat i) s) (Some s') /\ reads m (Some s') v) ->
    (forall i, len l <= i -> returns (fun f => getIndice m f i s) None) ->
    (forall k v, ~ In 0 k -> first_of k l = Some v ->
       exists s', returns (fun f => getMember m f k s) (Some s') /\ reads m (Some s') v) ->
    (forall k, ~ In 0 k -> first_of k l = None -> returns (fun f => getMember m f k s) None) ->
    reads m s (WObj t l).

(** JSON values the packed form can hold: 64 bit integers, strings below 4 GiB, arrays and objects
    with at least one entry, names of one to 65535 bytes in map order. *)
Fixpoint increasing (l : list (list Z)) : Prop :=
  match l with
  | a :: (b :: _) as r => sltb a b = true /\ increasing r
  | _ => True
  end.
Inductive packable : jv -> Prop :=
| pk_null : packable JNull
| pk_int n : - 2 ^ 63 <= n < 2 ^ 63 -> packable (JInt n)
| pk_str s : len s < 2 ^ 32 -> bytesP s -> packable (JStr s)
| pk_arr l : l <> [] -> Forall packable l -> packable (JArr l)
| pk_obj l : l <> [] -> increasing (map fst l) ->
    Forall (fun e => 0 < len (fst e) < 65536 /\ bytesP (fst e) /\ packable (snd e)) l -> packable (JObj l).

(** No double anywhere inside. *)
Inductive no_double : jv -> Prop :=
| nd_unset : no_double JUnset | nd_null : no_double JNull
| nd_bool b : no_double (JBool b) | nd_int n : no_double (JInt n) | nd_str s : no_double (JStr s)
| nd_arr l : Forall no_double l -> no_double (JArr l)
| nd_obj l : Forall (fun e => no_double (snd e)) l -> no_double (JObj l).

(** The tree of a JSON value. *)
Fixpoint wire (v : jv) : wv :=
  match v with
  | JInt n => WInt n
  | JBool b => WInt b
  | JStr s => WStr s
  | JDbl d => WDbl d
  | JNull | JUnset => WNull
  | JArr l => WArr (map wire l)
  | JObj l => WObj 224 (map (fun e => (fst e, wire (snd e))) l)
  end.
