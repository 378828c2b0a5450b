(** Specification of the JSON text form. *)
From Verif Require Import Common JsonVal_Model Dtmi_Spec.

(** Texts: ASCII, two byte UTF-8 sequences (U+0080 to U+07FF) and four byte ones (U+10000 to U+10FFFF). *)
Definition trail (b : Z) : Prop := 0x80 <= b <= 0xBF.
Inductive text : list Z -> Prop :=
| t_nil : text []
| t_ascii c r : 0 <= c < 128 -> text r -> text (c :: r)
| t_two a b r : 0xC2 <= a <= 0xDF -> trail b -> text r -> text (a :: b :: r)
| t_four a b c d r : 0xF0 <= a <= 0xF4 -> (a = 0xF0 -> 0x90 <= b) -> (a = 0xF4 -> b <= 0x8F) ->
    trail b -> trail c -> trail d -> text r -> text (a :: b :: c :: d :: r).

(** Values without doubles and unset parts, integers above the smallest 64 bit one, names in map order. *)
Inductive printable : jv -> Prop :=
| pr_null : printable JNull
| pr_bool b : b = 0 \/ b = 1 -> printable (JBool b)
| pr_int n : - 2 ^ 63 < n < 2 ^ 63 -> printable (JInt n)
| pr_str s : text s -> printable (JStr s)
| pr_arr l : Forall printable l -> printable (JArr l)
| pr_obj l : increasing (map fst l) -> Forall (fun e => text (fst e) /\ printable (snd e)) l -> printable (JObj l).
