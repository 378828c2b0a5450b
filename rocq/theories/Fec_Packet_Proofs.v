(** What an error correction packet holds, and that it brings back packets. *)
From Verif Require Import Common CommonFacts CommonMore Mem_Model Rtp_Model Fec_Model Fec_Spec Fec_Xor_Proofs.
Import List.
Ltac Zify.zify_post_hook ::= Z.div_mod_to_equations.

(** A packet: sequence number, time stamp, payload. *)
Record pk := mkpk { k_seq : Z; k_ts : Z; k_pl : list Z }.
Definition bytes_of (ssrc : Z) (x : pk) : list Z := media ssrc (k_seq x) (k_ts x) (k_pl x).
Definition bits_of (n : Z) (x : pk) : list Z := [0] ++ [33] ++ be 4 (k_ts x) ++ be 2 n ++ k_pl x.
Definition acc (n : Z) (l : list pk) : option fecdata :=
  match l with [] => None | x :: r => Some (mkfd (k_seq x) (k_ts x) (xors (bits_of n x) (map (bits_of n) r))) end.
Definition sized (n : Z) (l : list pk) : Prop := Forall (fun x => len (k_pl x) = n) l.
Lemma acc_bits n l x : acc n l = Some x -> fd_bits x = all_xor (map (bits_of n) l).
Proof. destruct l as [|y l]; cbn [acc]; intros H; [discriminate|]. assert (E : x = mkfd (k_seq y) (k_ts y) (xors (bits_of n y) (map (bits_of n) l))) by congruence. subst. reflexivity. Qed.
Lemma const_len {A} (l : list A) (f : A -> list Z) m : (forall x, len (f x) = m) -> Forall (fun x => len (f x) = m) l.
Proof. intros H. apply Forall_forall. intros x _. apply H. Qed.
Lemma all_xor_alike n l : alike n l -> l <> [] -> len (all_xor l) = n.
Proof. intros A N. destruct l as [|x l]; [congruence|]. inversion A; subst. cbn [all_xor]. now apply xors_len. Qed.
Lemma parts n l : sized n l -> l <> [] ->
  all_xor (map (bits_of n) l) = [0; times (length l) 33] ++ all_xor (map (fun x => be 4 (k_ts x)) l) ++ all_xor (map (fun _ => be 2 n) l) ++ all_xor (map k_pl l).
Proof.
  intros S N. unfold bits_of. rewrite (all_xor_app 1 (fun _ => [0])) by (apply const_len; reflexivity). rewrite (all_xor_app 1 (fun _ => [33])) by (apply const_len; reflexivity).
  rewrite (all_xor_app 4 (fun x => be 4 (k_ts x))) by (apply const_len; intros; apply be_len). rewrite (all_xor_app 2 (fun _ => be 2 n)) by (apply const_len; intros; apply be_len).
  rewrite !all_same by exact N. unfold times. destruct (Nat.even (length l)); reflexivity.
Qed.
(** The packet made of [l]. *)
Definition fec_of (sn dist cnt : Z) (column : bool) (n : Z) (l : list pk) : list Z :=
  [0x80; 0x60; u8 (sn >> 8); u8 sn] ++ be 4 (match l with x :: _ => k_ts x | [] => 0 end) ++ [0; 0; 0; 0] ++
  be 2 (match l with x :: _ => k_seq x | [] => 0 end) ++ all_xor (map (fun _ => be 2 n) l) ++ [0x80 .| times (length l) 33; 0; 0; 0] ++
  all_xor (map (fun x => be 4 (k_ts x)) l) ++ [if column then 0 else 0x40; dist; cnt; 0] ++ all_xor (map k_pl l).
Lemma len4 (l : list Z) : len l = 4 -> exists a b c d, l = [a; b; c; d].
Proof. unfold len. intros H. destruct l as [|a [|b [|c [|d [|e l]]]]]; cbn [length] in H; try lia. now exists a, b, c, d. Qed.
Lemma len2 (l : list Z) : len l = 2 -> exists a b, l = [a; b].
Proof. unfold len. intros H. destruct l as [|a [|b [|c l]]]; cbn [length] in H; try lia. now exists a, b. Qed.
Lemma map_alike {A} m (f : A -> list Z) l : Forall (fun x => len (f x) = m) l -> alike m (map f l).
Proof. intros F. apply Forall_forall. intros y Hy. apply in_map_iff in Hy as (x & <- & Hx). rewrite Forall_forall in F. now apply F. Qed.
Lemma ts_len l : l <> [] -> len (all_xor (map (fun x => be 4 (k_ts x)) l)) = 4.
Proof. intros N. apply all_xor_alike; [apply map_alike, const_len; intros; apply be_len|]. now destruct l. Qed.
Lemma size_len n (l : list pk) : l <> [] -> len (all_xor (map (fun _ => be 2 n) l)) = 2.
Proof. intros N. apply all_xor_alike; [apply map_alike, const_len; intros; apply be_len|]. now destruct l. Qed.
Lemma pl_len n l : sized n l -> l <> [] -> len (all_xor (map k_pl l)) = n.
Proof. intros S N. apply all_xor_alike; [now apply map_alike|]. now destruct l. Qed.
Lemma fecPacket_ok f sn n column l x : sized n l -> acc n l = Some x ->
  fecPacket f x sn n column = Some (fec_of sn (if column then f_cols f else 1) (if column then f_rows f else f_cols f) column n l).
Proof.
  intros S E. assert (N : l <> []) by (intros ->; discriminate). pose proof (acc_bits n l x E) as B. rewrite (parts n l S N) in B.
  assert (E1 : fd_seq x = match l with x :: _ => k_seq x | [] => 0 end /\ fd_ts x = match l with x :: _ => k_ts x | [] => 0 end) by (destruct l as [|y l]; [discriminate|]; cbn [acc] in E; assert (x = mkfd (k_seq y) (k_ts y) (xors (bits_of n y) (map (bits_of n) l))) by congruence; subst; split; reflexivity).
  destruct E1 as [E1 E2]. unfold fecPacket, fec_of. rewrite E1, E2, B. pose proof (pl_len n l S N) as LP. destruct (len4 _ (ts_len l N)) as (a & b & c & d & ->). destruct (len2 _ (size_len n l N)) as (s0 & s1 & ->).
  assert (EP : peek ([0; times (length l) 33] ++ [a; b; c; d] ++ [s0; s1] ++ all_xor (map k_pl l)) 8 n = Some (all_xor (map k_pl l))).
  { pose proof (len_nonneg (all_xor (map k_pl l))). unfold peek. cbn [app]. rewrite !len_cons. rewrite (proj2 (Z.leb_le 0 n)) by lia. match goal with |- context[8 + n <=? ?y] => rewrite (proj2 (Z.leb_le (8 + n) y)) by lia end.
    change (0 <=? 8) with true. cbn [andb]. f_equal. change (dropz 8 (0 :: times (length l) 33 :: a :: b :: c :: d :: s0 :: s1 :: all_xor (map k_pl l))) with (all_xor (map k_pl l)).
    apply takez_all. lia. }
  rewrite EP. f_equal. generalize (all_xor (map k_pl l)). intros P. unfold times. destruct (Nat.even (length l)); destruct column; reflexivity.
Qed.

(** It corrects. *)
Lemma fec_corrects ssrc sn dist cnt column n l : sized n l -> l <> [] -> 0 <= n < 65536 -> 0 <= cnt -> length l = Z.to_nat cnt ->
  (forall j, (j < length l)%nat -> k_seq (nth j l (mkpk 0 0 [])) = u16 (k_seq (nth 0 l (mkpk 0 0 [])) + Z.of_nat j * dist)) ->
  corrects ssrc (fec_of sn dist cnt column n l) (map (bytes_of ssrc) l).
Proof.
  intros S N HN HC HL HS. pose proof (pl_len n l S N) as LP. pose proof (ts_len l N) as LT. pose proof (size_len n l N) as LZ.
  set (T := all_xor (map (fun x => be 4 (k_ts x)) l)) in *. set (SZ := all_xor (map (fun _ => be 2 n) l)) in *. set (P := all_xor (map k_pl l)) in *.
  set (s0 := match l with x :: _ => k_seq x | [] => 0 end). set (t0 := match l with x :: _ => k_ts x | [] => 0 end).
  assert (EF : fec_of sn dist cnt column n l = [0x80; 0x60; u8 (sn >> 8); u8 sn] ++ be 4 t0 ++ [0; 0; 0; 0] ++ be 2 s0 ++ SZ ++ [0x80 .| times (length l) 33; 0; 0; 0] ++ T ++ [if column then 0 else 0x40; dist; cnt; 0] ++ P) by reflexivity.
  rewrite EF. clear EF. destruct (len4 T LT) as (a & b & c & d & ET). destruct (len2 SZ LZ) as (z0 & z1 & EZ).
  assert (S0 : k_seq (nth 0 l (mkpk 0 0 [])) = s0) by (destruct l; reflexivity). rewrite S0 in HS.
  assert (SEQ : forall x : pk, unbe (takez 2 (dropz 2 (bytes_of ssrc x))) = u16 (k_seq x)).
  { intros x. unfold bytes_of, media. rewrite (dropz_app_exact [0x80; 33]) by reflexivity. rewrite takez_app_exact by (rewrite be_len; reflexivity). rewrite unbe_be. reflexivity. }
  split.
  - unfold protects. assert (EB : base ([0x80; 0x60; u8 (sn >> 8); u8 sn] ++ be 4 t0 ++ [0; 0; 0; 0] ++ be 2 s0 ++ SZ ++ [0x80 .| times (length l) 33; 0; 0; 0] ++ T ++ [if column then 0 else 0x40; dist; cnt; 0] ++ P) = u16 s0).
    { unfold base. match goal with |- unbe ?y = _ => change y with (be 2 s0) end. rewrite unbe_be. reflexivity. }
    rewrite EB. rewrite ET, EZ. change (be 4 t0) with ([nthz (be 4 t0) 0; nthz (be 4 t0) 1; nthz (be 4 t0) 2; nthz (be 4 t0) 3]). change (be 2 s0) with ([nthz (be 2 s0) 0; nthz (be 2 s0) 1]).
    cbn [app]. unfold count, distance. match goal with |- context[nthz ?x 26] => change (nthz x 26) with cnt; change (nthz x 25) with dist end.
    rewrite <- HL. rewrite map_map. apply nth_ext with (d := 0) (d' := 0); [now rewrite !map_length, seq_length|]. intros j Hj. rewrite map_length, seq_length in Hj.
    rewrite (nth_indep _ 0 (u16 (u16 s0 + Z.of_nat 0 * dist))) by (rewrite map_length, seq_length; exact Hj). rewrite (map_nth (fun j => u16 (u16 s0 + Z.of_nat j * dist))). rewrite seq_nth by exact Hj.
    rewrite (nth_indep _ 0 (unbe (takez 2 (dropz 2 (bytes_of ssrc (mkpk 0 0 [])))))) by (rewrite map_length; exact Hj). rewrite (map_nth (fun x => unbe (takez 2 (dropz 2 (bytes_of ssrc x))))), SEQ, (HS j Hj). cbn [Nat.add]. unfold u16. generalize (Z.of_nat j * dist). intros q. lia.
  - intros j Hj. rewrite map_length in Hj. set (x := nth j l (mkpk 0 0 [])).
    assert (EN : nth j (map (bytes_of ssrc) l) [] = bytes_of ssrc x) by (rewrite (nth_indep _ [] (bytes_of ssrc (mkpk 0 0 []))) by (rewrite map_length; exact Hj); apply map_nth).
    rewrite EN, SEQ. rewrite without_map. set (o := without j l).
    assert (SO : sized n o) by (apply without_Forall; exact S).
    unfold recover. rewrite !map_map.
    assert (E0 : map (fun m => takez 1 (bytes_of ssrc m)) o = map (fun _ => [0x80]) o) by reflexivity.
    assert (E1 : map (fun m => [nthz (bytes_of ssrc m) 1]) o = map (fun _ => [33]) o) by reflexivity.
    assert (E4 : map (fun m => takez 4 (dropz 4 (bytes_of ssrc m))) o = map (fun m => be 4 (k_ts m)) o).
    { apply map_ext. intros m. unfold bytes_of, media. rewrite app_assoc, dropz_app_exact by (rewrite len_app, be_len; reflexivity). apply takez_app_exact. now rewrite be_len. }
    assert (E2 : map (fun m => be 2 (len (bytes_of ssrc m) - 12)) o = map (fun _ => be 2 n) o).
    { apply map_ext_in. intros m Hm. unfold sized in SO. rewrite Forall_forall in SO. specialize (SO m Hm). unfold bytes_of, media. rewrite !len_app, !be_len, SO. f_equal. change (len [128; 33]) with 2. lia. }
    assert (E12 : map (fun m => dropz 12 (bytes_of ssrc m)) o = map k_pl o).
    { apply map_ext. intros m. unfold bytes_of, media. rewrite !app_assoc. apply dropz_app_exact. rewrite !len_app, !be_len. reflexivity. }
    rewrite E0, E1, E4, E2, E12. rewrite ET, EZ. change (be 4 t0) with ([nthz (be 4 t0) 0; nthz (be 4 t0) 1; nthz (be 4 t0) 2; nthz (be 4 t0) 3]). change (be 2 s0) with ([nthz (be 2 s0) 0; nthz (be 2 s0) 1]).
    cbn [app]. set (f := 0x80 :: 0x60 :: _).
    change (nthz f 0) with 0x80. change (nthz f 1) with 0x60. change (nthz f 16) with (0x80 .| times (length l) 33).
    change (takez 4 (dropz 20 f)) with [a; b; c; d]. change (takez 2 (dropz 14 f)) with [z0; z1]. change (dropz 28 f) with P.
    rewrite <- ET, <- EZ. rewrite !xors_same. rewrite !nthz_0.
    assert (LO : length o = (length l - 1)%nat) by (now apply without_length).
    assert (BK : forall {m} {g : pk -> list Z}, Forall (fun x => len (g x) = m) l -> xors (all_xor (map g l)) (map g o) = g x).
    { intros m g Hg. pose proof (brings_back m (map g l) j (map_alike m g l Hg) ltac:(now rewrite map_length)) as Q. rewrite without_map in Q. fold o in Q. rewrite Q. rewrite (nth_indep _ [] (g (mkpk 0 0 []))) by (rewrite map_length; exact Hj). apply map_nth. }
    unfold T at 1, SZ, P. rewrite (BK 4 (fun x => be 4 (k_ts x))) by (apply const_len; intros; apply be_len). rewrite (BK 2 (fun _ => be 2 n)) by (apply const_len; intros; apply be_len). rewrite (BK n k_pl S).
    rewrite unbe_be, Z.mod_small by lia. assert (LX : len (k_pl x) = n) by (unfold sized in S; rewrite Forall_forall in S; apply S; now apply nth_In).
    rewrite takez_all by lia. unfold bytes_of, media. assert (EU : be 2 (u16 (k_seq x)) = be 2 (k_seq x)) by (apply (be_mod 2)). rewrite EU.
    rewrite LO. destruct (length l) as [|k]; [lia|]. replace (Datatypes.S k - 1)%nat with k by lia. unfold times. rewrite Nat.even_succ, <- Nat.negb_even. destruct (Nat.even k); reflexivity.
Qed.

Lemma fec_kind sn dist cnt column n l : l <> [] -> nthz (fec_of sn dist cnt column n l) 24 = if column then 0 else 0x40.
Proof.
  intros N. pose proof (ts_len l N) as LT. pose proof (size_len n l N) as LZ. unfold fec_of.
  set (T := all_xor (map (fun x => be 4 (k_ts x)) l)) in *. set (SZ := all_xor (map (fun _ => be 2 n) l)) in *.
  destruct (len4 T LT) as (a & b & c & d & ->). destruct (len2 SZ LZ) as (z0 & z1 & ->). destruct column; reflexivity.
Qed.
Lemma fec_number sn dist cnt column n l : takez 2 (dropz 2 (fec_of sn dist cnt column n l)) = [u8 (sn >> 8); u8 sn].
Proof. reflexivity. Qed.
Lemma fec_proper j dist cnt column n l : l <> [] -> proper column j (fec_of (u16 j) dist cnt column n l).
Proof.
  intros N. unfold proper. split; [reflexivity|]. split; [|split; [|now apply fec_kind]].
  - rewrite fec_number. assert (SQ : [u8 (u16 j >> 8); u8 (u16 j)] = be 2 (u16 j)) by (unfold be, u8; rewrite Z.shiftr_div_pow2 by lia; change (256 ^ Z.of_nat 1) with 256; change (256 ^ Z.of_nat 0) with 1; change (2 ^ 8) with 256; rewrite Z.div_1_r; reflexivity). rewrite SQ, unbe_be. unfold u16. change (256 ^ Z.of_nat 2) with 65536. lia.
  - pose proof (ts_len l N) as LT. pose proof (size_len n l N) as LZ. unfold fec_of.
    set (T := all_xor (map (fun x => be 4 (k_ts x)) l)) in *. set (SZ := all_xor (map (fun _ => be 2 n) l)) in *.
    destruct (len4 T LT) as (a & b & c & d & ->). destruct (len2 SZ LZ) as (z0 & z1 & ->). change (nthz _ 16) with (0x80 .| times (length l) 33). unfold times. destruct (Nat.even (length l)); vm_compute; discriminate.
Qed.
