(** C60: MP4 boxes. *)
From Verif Require Import Common CommonFacts Outcome_Model Mem_Model Mp4_Model Mp4_Spec Mp4_Proofs.

(** A new box is an empty box of its type. *)
Theorem mp4_new : forall ty, len ty = 4 -> is_box (newBox ty) ty [] /\ b_data (newBox ty) = iso ty [].
Proof. intros ty T. split; [apply is_box_rep; exists []; apply rep_new, T | destruct (rep_new ty T) as (E & _); rewrite E at 1; cbn [b_data]; apply app_nil_r]. Qed.

(** Writing a field of [n] bytes inside the box changes these bytes only; writing it behind the end makes the box that much
    longer, with zeros in between when the box has no unused memory.  The field then reads as written.  Missing: a field that
    is half inside. *)
Theorem mp4_set_field_partial : forall b ty pl n v i, (0 < n)%nat -> is_box b ty pl -> 0 <= i -> room b (i + Z.of_nat n) ->
  (i + Z.of_nat n <= len pl -> exists b', setInt n v i b = Ok b' /\ is_box b' ty (takez i pl ++ be n v ++ dropz (i + Z.of_nat n) pl) /\ getIntC n i b' = Ok (v mod 256 ^ Z.of_nat n)) /\
  (len pl <= i -> exists b' gap, setInt n v i b = Ok b' /\ is_box b' ty (pl ++ gap ++ be n v) /\ len gap = i - len pl /\ getIntC n i b' = Ok (v mod 256 ^ Z.of_nat n) /\
     (b_data b = iso ty pl -> gap = zeros (i - len pl) /\ b_data b' = iso ty (pl ++ gap ++ be n v))).
Proof.
  intros b ty pl n v i Hn B Hi Hr. pose proof B as B'. apply is_box_rep in B' as (s & R). pose proof (rep_len _ _ _ _ R) as LD. unfold room in Hr. pose proof (len_nonneg s) as Ls. pose proof (len_nonneg pl) as Lp. split; intros H.
  - destruct (setInt_in b ty pl s n v i Hn R Hi H) as (b' & E & R'). exists b'.
    assert (Q : splice pl i (be n v) = takez i pl ++ be n v ++ dropz (i + Z.of_nat n) pl) by (unfold splice; rewrite be_len; reflexivity). rewrite Q in R'.
    split; [exact E |]. split; [apply is_box_rep; exists s; exact R' |].
    rewrite (getIntC_in _ _ _ _ n i Hn R' Hi).
    + rewrite dropz_app_exact by (rewrite len_takez; lia). rewrite takez_app_exact by (rewrite be_len; reflexivity). rewrite unbe_be. reflexivity.
    + rewrite !len_app, len_takez, be_len by lia. pose proof (len_nonneg (dropz (i + Z.of_nat n) pl)). lia.
  - destruct (setInt_end b ty pl s n v i Hn R H ltac:(lia)) as (b' & gap & s' & E & R' & Lg & Z1 & _). exists b', gap. split; [exact E |]. split; [apply is_box_rep; exists s'; exact R' |]. split; [exact Lg |]. split.
    + rewrite (getIntC_in _ _ _ _ n i Hn R' Hi).
      * rewrite app_assoc, dropz_app_exact by (rewrite len_app; lia). rewrite <- (app_nil_r (be n v)), takez_app_exact by (rewrite be_len; reflexivity). rewrite unbe_be. reflexivity.
      * rewrite !len_app, be_len. lia.
    + intros D. assert (s = []). { pose proof R as (D2 & _). rewrite D2 in D. cbn [b_data] in D. rewrite <- (app_nil_r (iso ty pl)) in D at 2. apply app_inv_head in D. exact D. }
      destruct (Z1 H0) as (G & S'). split; [exact G |]. subst s'. destruct R' as (D' & _). rewrite D'. cbn [b_data]. apply app_nil_r.
Qed.
(** Reading a field outside of a constant box yields zero; of any other box it yields zero and makes the box longer. *)
Theorem mp4_get_field : forall b ty pl n i, (0 < n)%nat -> is_box b ty pl -> 0 <= i -> room b (i + Z.of_nat n) ->
  (i + Z.of_nat n <= len pl -> getIntC n i b = Ok (unbe (takez (Z.of_nat n) (dropz i pl))) /\ getInt n i b = Ok (b, unbe (takez (Z.of_nat n) (dropz i pl)))) /\
  (len pl < i + Z.of_nat n -> getIntC n i b = Ok 0) /\
  (len pl <= i -> exists b' gap, getInt n i b = Ok (b', 0) /\ is_box b' ty (pl ++ gap ++ be n 0) /\ len gap = i - len pl).
Proof.
  intros b ty pl n i Hn B Hi Hr. pose proof B as B'. apply is_box_rep in B' as (s & R). pose proof (rep_len _ _ _ _ R) as LD. unfold room in Hr. pose proof (len_nonneg s) as Ls. pose proof (len_nonneg pl) as Lp. split; [| split]; intros H.
  - split; [eapply getIntC_in | eapply getInt_in]; eassumption.
  - eapply getIntC_out; try eassumption; lia.
  - destruct (getInt_end b ty pl s n i Hn R H ltac:(lia)) as (b' & gap & s' & E & R' & Lg & _). exists b', gap. split; [exact E |]. split; [apply is_box_rep; exists s'; exact R' | exact Lg].
Qed.
(** A field half inside the box is not overwritten: it is put before the bytes that were there, which stay at the end. *)
Theorem mp4_field_across_refuted : forall b ty a c n v, (0 < n)%nat -> is_box b ty (a ++ c) -> c <> [] -> len c < Z.of_nat n -> room b (Z.of_nat n) ->
  exists b', setInt n v (len a) b = Ok b' /\ is_box b' ty (a ++ be n v ++ c).
Proof.
  intros b ty a c n v Hn B Hc H Hr. apply is_box_rep in B as (s & R). pose proof (rep_len _ _ _ _ R) as LD. unfold room in Hr. rewrite len_app in LD.
  destruct (setInt_across b ty a c s n v Hn R Hc H ltac:(lia)) as (b' & s' & E & R'). exists b'. split; [exact E |]. apply is_box_rep. exists s'. exact R'.
Qed.

(** Text put at the end of a box is there, with its terminator; text in a box is read up to its terminator. *)
Theorem mp4_text_partial : forall b ty pl t, is_box b ty pl -> Forall (fun c => c <> 0) t -> room b (len t + 8) ->
  (exists b', setString t (len pl) b = Ok b' /\ is_box b' ty (pl ++ t ++ [0])) /\
  (forall a c, pl = a ++ t ++ 0 :: c -> getString (len a) b = Ok t).
Proof.
  intros b ty pl t B N Hr. pose proof B as B'. apply is_box_rep in B' as (s & R). pose proof (rep_len _ _ _ _ R) as LD. unfold room in Hr. split.
  - destruct (setString_end b ty pl s t R ltac:(lia) N) as (b' & s' & E & R' & _). exists b'. split; [exact E |]. apply is_box_rep. exists s'. exact R'.
  - intros a c ->. eapply getString_in; eassumption.
Qed.

(** Containers whose last box is not empty: the count, the boxes by number and by type, replacing one, adding one. *)
Theorem mp4_container_partial : forall b ty l, is_box b ty (children l) -> Forall child_ok l -> last_full l ->
  getContentCount b = Ok (b, Z.of_nat (List.length l)) /\
  (forall k, (k < List.length l)%nat -> getContent (Z.of_nat k) b = Ok (b, Some (child_at l k))) /\
  (forall q, getChildren q b = Ok (of_type q 8 l) /\ getChild q b = Ok (hd_error (of_type q 8 l))) /\
  (forall e t p, is_box e t p -> room b (8 + len p + 8) ->
     (exists b', setContent e (Z.of_nat (List.length l)) b = Ok b' /\ is_box b' ty (children (l ++ [(t, p)]))) /\
     (forall k c r, l = k ++ c :: r -> exists b', setContent e (Z.of_nat (List.length k)) b = Ok b' /\ is_box b' ty (children (k ++ (t, p) :: r)))).
Proof.
  intros b ty l B F LF. pose proof B as B'. apply is_box_rep in B' as (s & R). pose proof (rep_len _ _ _ _ R) as LD. pose proof (len_nonneg s) as Ls.
  split; [eapply content_count; eassumption |]. split; [| split; [intros q; eapply getChildren_ok; eassumption |]].
  - intros k Hk. destruct (nth_error l k) as [c |] eqn:N; [| apply nth_error_None in N; lia]. apply nth_error_split in N as (l1 & l2 & -> & <-). eapply getContent_ok; eassumption.
  - intros e t p Be Hr. apply is_box_rep in Be as (se & Re). unfold room in Hr. pose proof (len_nonneg p). split.
    + destruct (setContent_end b ty l s e t p se R F LF Re ltac:(lia)) as (b' & s' & E & R' & _). exists b'. split; [exact E |]. apply is_box_rep. exists s'. exact R'.
    + intros k c r ->. destruct (setContent_mid b ty k c r s e t p se R F LF Re ltac:(lia)) as (b' & s' & E & R'). exists b'. split; [exact E |]. apply is_box_rep. exists s'. exact R'.
Qed.
(** A container filled box after box holds exactly these boxes, and nothing else. *)
Theorem mp4_fill : forall ty es l, len ty = 4 -> Forall2 (fun e c => is_box e (fst c) (snd c)) es l -> Forall (fun c => snd c <> []) l -> len (children l) + 16 < 2 ^ 31 ->
  exists b, fill es 0 (newBox ty) = Ok b /\ is_box b ty (children l) /\ b_data b = iso ty (children l).
Proof.
  intros ty es l T M N B. destruct (fill_ok ty es l [] (newBox ty) [] (rep_new ty T) eq_refl ltac:(constructor)) as (b & E & R); [| exact M | exact N | exact B |].
  - intros k c Q. destruct k; discriminate.
  - exists b. split; [exact E |]. split; [apply is_box_rep; exists []; exact R |]. destruct R as (D & _). rewrite D. apply app_nil_r.
Qed.

(** Reading: a box at the front of what was received is taken, once all of it is there, and the rest is left. *)
Theorem mp4_read : forall ty pl rest, len ty = 4 -> 8 + len pl < 2 ^ 32 ->
  readString (iso ty pl ++ rest) = Ok (Some (mkbox (iso ty pl) true 8, rest)) /\ (forall x y, x ++ y = iso ty pl -> y <> [] -> readString x = Ok None).
Proof. intros ty pl rest T L. split; [apply read_whole; assumption |]. intros x y E N. eapply read_early; eassumption. Qed.
Theorem mp4_read_large_partial : forall ty pl rest, len ty = 4 -> 16 + len pl < 2 ^ 64 -> 0 < len pl + len rest ->
  readString (iso_large ty pl ++ rest) = Ok (Some (mkbox (iso_large ty pl) true 16, rest)).
Proof. exact read_large. Qed.
(** A box with size zero extends to the end of what is there. *)
Theorem mp4_read_rest : forall ty pl, len ty = 4 -> readString (be 4 0 ++ ty ++ pl) = Ok (Some (mkbox (be 4 0 ++ ty ++ pl) true 8, [])).
Proof.
  intros ty pl T. set (s := be 4 0 ++ ty ++ pl). pose proof (len_nonneg pl). assert (L : len s = 8 + len pl) by (unfold s; rewrite !len_app, T; change (len (be 4 0)) with 4; lia).
  unfold readString. destruct (Z.leb_spec (len s) 4); [lia |].
  assert (A : getbe (s ++ [0]) 0 4 = Ok 0) by (unfold s; rewrite <- !app_assoc; apply (getbe_at [] _ 0 4%nat 0 4); [reflexivity | reflexivity | lia]).
  rewrite A. change (0 =? 1) with false. cbn [andb fst snd]. change (0 =? 0) with true. cbv iota. rewrite Z.leb_refl, takez_all, dropz_all by lia. reflexivity.
Qed.
Print Assumptions mp4_read_rest.
(** The size of a box and of its payload, whichever way the size is written. *)
Theorem mp4_sizes : forall ty pl slack, len ty = 4 -> 8 + len pl < 2 ^ 32 ->
  boxedSize (mkbox (iso ty pl ++ slack) true 8) = Ok (len (iso ty pl)) /\ payloadSize (mkbox (iso ty pl ++ slack) true 8) = Ok (len pl) /\
  boxedSize (mkbox (iso_large ty pl ++ slack) true 16) = Ok (len (iso_large ty pl)) /\ payloadSize (mkbox (iso_large ty pl ++ slack) true 16) = Ok (len pl).
Proof.
  intros ty pl slack T L. pose proof (len_nonneg pl). rewrite (len_iso _ _ T), (len_large _ _ T). unfold payloadSize, boxedSize. cbn [b_off b_data]. change (8 =? 16) with false. change (16 =? 16) with true. cbv iota.
  assert (A : getbe (iso ty pl ++ slack) 0 4 = Ok (8 + len pl)) by (unfold iso; rewrite <- !app_assoc; apply (getbe_at [] _ 0 4%nat (8 + len pl) 4); [reflexivity | reflexivity | change (256 ^ Z.of_nat 4) with (2 ^ 32); lia]).
  assert (B : getbe (iso_large ty pl ++ slack) 8 8 = Ok (16 + len pl)).
  { unfold iso_large. rewrite <- !app_assoc. rewrite (app_assoc (be 4 1) ty). apply (getbe_at (be 4 1 ++ ty) _ 8 8%nat (16 + len pl) 8); [rewrite len_app, T; reflexivity | reflexivity | change (256 ^ Z.of_nat 8) with (2 ^ 64); lia]. }
  rewrite A, B. rewrite !u64_id by lia. repeat split; f_equal; lia.
Qed.
(** A box behind one with a size of 64 bits is found. *)
Theorem mp4_large_child : forall ty t p q pl slack, len ty = 4 -> len t = 4 -> len q = 4 -> t <> q -> pl <> [] -> len p + len pl + 100 < 2 ^ 31 ->
  getChild q (mkbox (iso ty (iso_large t p ++ iso q pl) ++ slack) true 8) = Ok (Some (8 + len (iso_large t p))).
Proof.
  intros ty t p q pl slack T T1 T2 N NE L. pose proof (len_nonneg p). pose proof (len_nonneg pl). assert (L1 : 1 <= len pl) by (destruct pl; [congruence | rewrite len_cons; pose proof (len_nonneg pl); lia]).
  assert (LP : len (iso_large t p ++ iso q pl) = 24 + len p + len pl) by (rewrite len_app, (len_large _ _ T1), (len_iso _ _ T2); lia).
  destruct (mp4_sizes ty (iso_large t p ++ iso q pl) slack T ltac:(lia)) as (SZ & _). unfold getChild. rewrite SZ. rewrite (len_iso _ _ T), LP. cbn [b_off].
  replace (S (Z.to_nat (8 + (24 + len p + len pl)))) with (S (S (Z.to_nat (7 + (24 + len p + len pl))))) by lia. rewrite (len_large _ _ T1).
  cbn [child_loop]. rewrite !u64_id by lia. destruct (Z.ltb_spec 8 (8 + (24 + len p + len pl) - 8)); [| lia].
  assert (Y1 : isTypeAt (mkbox (iso ty (iso_large t p ++ iso q pl) ++ slack) true 8) 8 q = Ok false).
  { unfold isTypeAt. cbn [b_data]. unfold iso at 1, iso_large. rewrite <- !app_assoc.
    match goal with |- context [getn (be 4 ?n ++ ty ++ be 4 1 ++ t ++ ?r) _ _] => replace (be 4 n ++ ty ++ be 4 1 ++ t ++ r) with ((be 4 n ++ ty ++ be 4 1) ++ t ++ r) by (rewrite <- !app_assoc; reflexivity) end.
    rewrite getn_at; [| rewrite !len_app, T; reflexivity | lia]. destruct (beqb q t) eqn:Bq; [apply beqb_eq in Bq; congruence | reflexivity]. }
  assert (Y2 : calcBoxSize (mkbox (iso ty (iso_large t p ++ iso q pl) ++ slack) true 8) 8 = Ok (16 + len p)).
  { unfold calcBoxSize. cbn [b_data]. unfold iso, iso_large. rewrite <- !app_assoc.
    match goal with |- context [getbe (be 4 ?n ++ ty ++ be 4 1 ++ t ++ be 8 ?m ++ ?r) 8 4] =>
      assert (G1 : getbe (be 4 n ++ ty ++ be 4 1 ++ t ++ be 8 m ++ r) 8 4 = Ok 1) by (rewrite (app_assoc (be 4 n)); apply (getbe_at (be 4 n ++ ty) _ 8 4%nat 1 4); [rewrite len_app, T; reflexivity | reflexivity | cbn; lia]);
      assert (G2 : getbe (be 4 n ++ ty ++ be 4 1 ++ t ++ be 8 m ++ r) (8 + 8) 8 = Ok m) by (replace (be 4 n ++ ty ++ be 4 1 ++ t ++ be 8 m ++ r) with ((be 4 n ++ ty ++ be 4 1 ++ t) ++ be 8 m ++ r) by (rewrite <- !app_assoc; reflexivity); apply (getbe_at _ _ 16 8%nat m 8); [rewrite !len_app, T, T1; reflexivity | reflexivity | change (256 ^ Z.of_nat 8) with (2 ^ 64); lia]) end.
    rewrite G1, G2. reflexivity. }
  rewrite Y1, Y2. rewrite (u64_id (8 + (16 + len p))) by lia. destruct (Z.ltb_spec (8 + (16 + len p)) (8 + (24 + len p + len pl) - 8)); [| lia].
  assert (Y3 : isTypeAt (mkbox (iso ty (iso_large t p ++ iso q pl) ++ slack) true 8) (8 + (16 + len p)) q = Ok true).
  { unfold isTypeAt. cbn [b_data]. unfold iso. rewrite <- !app_assoc.
    match goal with |- context [getn (be 4 ?n ++ ty ++ iso_large t p ++ be 4 ?m ++ q ++ ?r) _ _] => replace (be 4 n ++ ty ++ iso_large t p ++ be 4 m ++ q ++ r) with ((be 4 n ++ ty ++ iso_large t p ++ be 4 m) ++ q ++ r) by (rewrite <- !app_assoc; reflexivity) end.
    rewrite getn_at; [| rewrite !len_app, T, (len_large _ _ T1), !be_len; lia | lia]. rewrite (proj2 (beqb_eq q q) eq_refl). reflexivity. }
  rewrite Y3. f_equal.
Qed.
Print Assumptions mp4_sizes.
Print Assumptions mp4_large_child.
(** From a file, as long as at least sixteen bytes are left: reading it, and skipping it. *)
Theorem mp4_file_partial : forall a ty pl rest, len ty = 4 -> 8 + len pl < 2 ^ 32 -> 8 <= len pl + len rest ->
  readFile (a ++ iso ty pl ++ rest) (len a) = Ok (Some (mkbox (iso ty pl) true 8, len (a ++ iso ty pl))) /\
  skipBox (a ++ iso ty pl ++ rest) (len a) = Ok (Some (len (a ++ iso ty pl))).
Proof.
  intros a ty pl rest T L P. split; [| apply skip_ok; assumption]. rewrite read_file by assumption. rewrite len_app, len_iso, Z.add_assoc by exact T. reflexivity.
Qed.
Theorem mp4_skip_large : forall a ty pl rest, len ty = 4 -> 16 + len pl < 2 ^ 64 -> skipBox (a ++ iso_large ty pl ++ rest) (len a) = Ok (Some (len (a ++ iso_large ty pl))).
Proof. exact skip_large. Qed.

(** What goes wrong. *)
(** Asking for the box behind the last adds a box. *)
Theorem mp4_get_past_refuted : forall b ty l, is_box b ty (children l) -> Forall child_ok l -> last_full l -> room b 8 ->
  exists b', getContent (Z.of_nat (List.length l)) b = Ok (b', Some (child_at l (List.length l))) /\ is_box b' ty (children (l ++ [(bs "erro", [])])).
Proof.
  intros b ty l B F LF H. apply is_box_rep in B as (s & R). pose proof (rep_len _ _ _ _ R) as LD. unfold room in H. eapply getContent_past; try eassumption. lia.
Qed.
(** A search meets a box that says its size is zero: it never ends. *)
Theorem mp4_endless_refuted : forall fuel, child_loop fuel (bs "mdia") (mkbox (iso (bs "trak") (be 4 0 ++ bs "free" ++ [1])) true 8) 17 8 = Stuck.
Proof. intros fuel. apply child_zero; [lia | lia | vm_compute; reflexivity | vm_compute; reflexivity]. Qed.
Definition wide : box := mkbox (iso (bs "trak") (be 4 4096 ++ bs "tkhd" ++ [1; 2])) true 8.
(** A box in a box that says it is longer than the outer: found, and read outside of the memory. *)
Theorem mp4_child_outside_refuted : getChild (bs "tkhd") wide = Ok (Some 8) /\ getIntC 4 12 (childBox wide 8) = Ub.
Proof. split; vm_compute; reflexivity. Qed.
Definition empty_last : box := mkbox (iso (bs "moov") (children [(bs "mvhd", [1]); (bs "free", [])])) true 8.
(** An empty last box is counted but not found, and adding one behind it puts it in its place instead. *)
Theorem mp4_empty_last_refuted : getContentCount empty_last = Ok (empty_last, 2) /\ getChild (bs "free") empty_last = Ok None /\
  exists b, setContent (newBox (bs "udta")) 2 empty_last = Ok b /\ is_box b (bs "moov") (children [(bs "mvhd", [1]); (bs "udta", []); (bs "free", [])]).
Proof.
  split; [vm_compute; reflexivity |]. split; [vm_compute; reflexivity |]. eexists. split; [vm_compute; reflexivity |].
  split; [reflexivity |]. split; [reflexivity |]. split; [reflexivity |]. exists []. split; vm_compute; reflexivity.
Qed.
Definition texts : box := mkbox (iso (bs "hdlr") (bs "abc" ++ [0] ++ bs "12345678" ++ [0])) true 8.
(** Replacing a text by one of another length: the wrong text is measured, and part of what follows is lost. *)
Theorem mp4_text_replace_refuted : getString 0 texts = Ok (bs "abc") /\
  exists b, setString (bs "x") 0 texts = Ok b /\ is_box b (bs "hdlr") (bs "x" ++ [0] ++ bs "2345678" ++ [0]).
Proof.
  split; [vm_compute; reflexivity |]. eexists. split; [vm_compute; reflexivity |]. split; [reflexivity |]. split; [reflexivity |]. split; [reflexivity |]. eexists. split; vm_compute; reflexivity.
Qed.

Definition two_of (l : list (list Z * list Z)) : res box := fill (map (fun c => mkbox (iso (fst c) (snd c)) true 8) l) 0 (newBox (bs "moov")).
(** A box that became shorter keeps its old bytes behind its end: a field further on makes them part of it again. *)
Theorem mp4_stale_refuted : exists b1 b2, two_of [(bs "aaaa", [1; 2; 3; 4; 5; 6; 7; 8; 9])] = Ok b1 /\ setContent (mkbox (iso (bs "bbbb") [1]) true 8) 0 b1 = Ok b2 /\
  is_box b2 (bs "moov") (children [(bs "bbbb", [1])]) /\ exists b3, setInt 1 255 12 b2 = Ok b3 /\ is_box b3 (bs "moov") (children [(bs "bbbb", [1])] ++ [2; 3; 4] ++ [255]).
Proof.
  eexists. eexists. split; [vm_compute; reflexivity |]. split; [vm_compute; reflexivity |].
  split; [split; [reflexivity |]; split; [reflexivity |]; split; [reflexivity |]; eexists; split; vm_compute; reflexivity |].
  eexists. split; [vm_compute; reflexivity |]. split; [reflexivity |]. split; [reflexivity |]. split; [reflexivity |]. eexists. split; vm_compute; reflexivity.
Qed.
(** Setting a box further than just behind the last one puts its zeros into the box before. *)
Theorem mp4_set_past_refuted : exists b1 b2, two_of [(bs "aaaa", [1; 2; 3; 4; 5; 6; 7; 8; 9])] = Ok b1 /\ setContent (mkbox (iso (bs "bbbb") [1]) true 8) 2 b1 = Ok b2 /\
  is_box b2 (bs "moov") (iso (bs "aaaa") [1; 0; 0; 0; 0; 0; 0; 0; 0] ++ [2; 3; 4; 5; 6; 7; 8; 9] ++ iso (bs "bbbb") [1]).
Proof.
  eexists. eexists. split; [vm_compute; reflexivity |]. split; [vm_compute; reflexivity |].
  split; [reflexivity |]. split; [reflexivity |]. split; [reflexivity |]. exists []. split; vm_compute; reflexivity.
Qed.
Definition file_large : list Z := iso_large (bs "mdat") [7; 7; 7; 7; 7; 7; 7; 7; 7; 7; 7; 7].
(** A box with a size of 64 bits is not read from a file, although it is read from a string; and read from a string only when
    more than its sixteen bytes are there. *)
Theorem mp4_read_large_refuted : readFile file_large 0 = Ok None /\ readString file_large = Ok (Some (mkbox file_large true 16, [])) /\
  (forall ty, len ty = 4 -> readString (iso_large ty []) = Ok None).
Proof.
  split; [vm_compute; reflexivity |]. split; [vm_compute; reflexivity |]. intros ty T.
  destruct ty as [| a [| b [| c [| d [| e r]]]]]; try (cbn in T; lia). vm_compute. reflexivity.
Qed.
(** The last box of a file is not read when it is shorter than sixteen bytes. *)
Theorem mp4_short_last_refuted : forall a ty pl, len ty = 4 -> len pl < 8 -> readFile (a ++ iso ty pl) (len a) = Ok None.
Proof.
  intros a ty pl T L. unfold readFile, peek. rewrite len_app, (len_iso _ _ T). destruct (Z.leb_spec (len a + 16) (len a + (8 + len pl))); [lia |]. rewrite andb_false_r. reflexivity.
Qed.

(** Concrete cases that meet the hypotheses. *)
Definition a_box : box := mkbox (iso (bs "tkhd") [1; 2; 3; 4; 5]) true 8.
Example a_box_ok : is_box a_box (bs "tkhd") [1; 2; 3; 4; 5] /\ room a_box 100 /\ room (newBox (bs "moov")) 100.
Proof. split; [split; [reflexivity |]; split; [reflexivity |]; split; [reflexivity |]; exists []; split; vm_compute; reflexivity |]. split; vm_compute; reflexivity. Qed.
Example a_field : setInt 2 513 3 a_box = Ok (mkbox (iso (bs "tkhd") [1; 2; 3; 2; 1]) true 8) /\ setInt 4 7 6 a_box = Ok (mkbox (iso (bs "tkhd") [1; 2; 3; 4; 5; 0; 0; 0; 0; 7]) true 8).
Proof. split; vm_compute; reflexivity. Qed.
Example a_list : Forall child_ok [(bs "mvhd", [1]); (bs "free", []); (bs "trak", [2; 3])] /\ last_full [(bs "mvhd", [1]); (bs "free", []); (bs "trak", [2; 3])] /\
  of_type (bs "trak") 8 [(bs "mvhd", [1]); (bs "free", []); (bs "trak", [2; 3])] = [25].
Proof.
  split; [repeat constructor |]. split; [| vm_compute; reflexivity]. intros k c E. change [(bs "mvhd", [1]); (bs "free", []); (bs "trak", [2; 3])] with ([(bs "mvhd", [1]); (bs "free", [])] ++ [(bs "trak", [2; 3])]) in E.
  apply app_inj_tail in E as (_ & <-). discriminate.
Qed.
Example a_fill : two_of [(bs "mvhd", [1]); (bs "trak", [2; 3])] = Ok (mkbox (iso (bs "moov") (iso (bs "mvhd") [1] ++ iso (bs "trak") [2; 3])) true 8).
Proof. vm_compute. reflexivity. Qed.

Print Assumptions mp4_new.
Print Assumptions mp4_set_field_partial.
Print Assumptions mp4_get_field.
Print Assumptions mp4_field_across_refuted.
Print Assumptions mp4_text_partial.
Print Assumptions mp4_container_partial.
Print Assumptions mp4_fill.
Print Assumptions mp4_read.
Print Assumptions mp4_read_large_partial.
Print Assumptions mp4_file_partial.
Print Assumptions mp4_skip_large.
Print Assumptions mp4_get_past_refuted.
Print Assumptions mp4_endless_refuted.
Print Assumptions mp4_child_outside_refuted.
Print Assumptions mp4_empty_last_refuted.
Print Assumptions mp4_text_replace_refuted.
Print Assumptions mp4_stale_refuted.
Print Assumptions mp4_set_past_refuted.
Print Assumptions mp4_read_large_refuted.
Print Assumptions mp4_short_last_refuted.
