(** More facts about lists of bytes. *)
From Verif Require Import Common CommonFacts.
Import List.

Definition is_byte (b : Z) : bool := (0 <=? b) && (b <? 256).
Lemma all_bytes_ok l : forallb is_byte l = true -> bytesP l.
Proof.
  intros H. apply Forall_forall. intros x Hx. rewrite forallb_forall in H. specialize (H x Hx). unfold is_byte in H. unfold byteP. lia.
Qed.
Lemma firstn_exact {A} n (a b : list A) : List.length a = n -> firstn n (a ++ b) = a.
Proof. intros <-. rewrite firstn_app, Nat.sub_diag, firstn_O, app_nil_r. apply firstn_all. Qed.
Lemma unbe_firstn_be n v r : 0 <= v < 256 ^ Z.of_nat n -> unbe (firstn n (be n v ++ r)) = v.
Proof. intros H. rewrite firstn_exact by apply be_length. rewrite unbe_be. now apply Z.mod_small. Qed.
Lemma nthz_ext (a b : list Z) : len a = len b -> (forall i, 0 <= i < len a -> nthz a i = nthz b i) -> a = b.
Proof.
  intros L H. apply (nth_ext a b 0 0); [unfold len in L; lia|]. intros n Hn.
  specialize (H (Z.of_nat n) ltac:(unfold len; lia)). unfold nthz in H. now rewrite Nat2Z.id in H.
Qed.
