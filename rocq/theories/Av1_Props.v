(** C71: AV1 over RTP. *)
From Verif Require Import Common CommonFacts Av1_Model Av1_Spec Av1_Proofs.

(** C71, in part: a frame of any units is sent in packets, none larger than allowed, from which a receiver gets the units, whole and in order; the last packet
    alone has the marker, the first alone the flag of a keyframe, if there is one.  Missing because the code does not do it: units of less
    than 4 bytes after another one (F191), frames that are cut short (F192), sizes in 6 to 8 bytes (F193). *)
Theorem av1_rtp_partial us ds hs max : Forall2 (fun u d => unit_ok u /\ encodes 5 u d) us ds -> Forall (fun d => 4 <= len d) (tl ds) ->
  0 <= hs -> hs + 6 <= max -> 12 <= max < 2 ^ 28 ->
  exists bodies packets, sendAV1 hs max (List.concat ds) = Sent (map (fun b => (false, b)) (removelast bodies) ++ [(true, List.last bodies [])]) /\
    bodies <> [] /\ Forall2 carries packets bodies /\ receives packets ds /\ Forall (fun b => hs + len b <= max) bodies /\
    map n packets = existsb is_key us :: map (fun _ => false) (tl packets).
Proof.
  intros F A H1 H2 H3. unfold sendAV1. rewrite (key_ok us ds F) by lia. set (k := existsb is_key us).
  destruct (units_ok us ds F (S (List.length (List.concat ds))) hs max (mkpk (if k then 8 else 0) []) (mkpacket false false k [])) as (out & p' & qs & q' & N & R1 & R2 & R3 & R4 & R5 & R6); try assumption; try reflexivity; try lia.
  - split; [exists []; split; [constructor|destruct k; reflexivity]|unfold size; cbn [els]; change (len (@nil Z)) with 0; lia].
  - right. split; [unfold size; cbn [els]; change (len (@nil Z)) with 0; lia|exact A].
  - rewrite R1. set (f := fun p => agg p :: els p). exists (map f out ++ [f p']), (qs ++ [q']).
    rewrite removelast_last, last_last.
    split; [rewrite map_map; reflexivity|]. split; [intros E; apply (f_equal (@List.length _)) in E; rewrite app_length in E; cbn in E; lia|].
    split; [apply Forall2_app; [|constructor; [exact (proj1 R3)|constructor]]; clear - R2; induction R2 as [|a b l r [X _] _ IH]; constructor; assumption|].
    split; [unfold receives; change (join None (all_parts (qs ++ [q'])) = Some (ds, None)); rewrite R4; exact R5|].
    split.
    + apply Forall_app. split; [|constructor; [|constructor]].
      * clear - R2. induction R2 as [|a b l r [_ X] _ IH]; constructor; [|exact IH]. unfold f, size in *. rewrite len_cons. lia.
      * destruct R3 as [_ X]. unfold f, size in *. rewrite len_cons. lia.
    + rewrite map_app. cbn [map]. rewrite R6. cbn [n]. f_equal. destruct qs as [|q0 qs]; [reflexivity|]. cbn [map tl app]. rewrite map_app. cbn [map].
      clear. induction qs as [|q1 qs IH]; [reflexivity|]. cbn [map app]. rewrite <- IH. reflexivity.
Qed.
(** C71: sizes are written as the format says. *)
Theorem av1_leb128 i : 0 <= i < 2 ^ 64 -> uleb i (leb128 i).
Proof. intros H. apply leb_uleb; [change (2 ^ (7 * Z.of_nat 10)) with (2 ^ 70); lia|lia]. Qed.
(** C71: the size of a unit, and whether it is a keyframe, are found whatever follows it. *)
Theorem av1_unit u d more : unit_ok u -> encodes 5 u d -> exists h, init (d ++ more) = OValid (len d) h /\ isKeyframe (d ++ more) (len d) h = is_key u.
Proof. intros H E. destruct (init_ok u d more H E) as (h & A & B & _). exists h. split; assumption. Qed.

Fixpoint zeros (n : nat) : list Z := match n with O => [] | S k => 0 :: zeros k end.
(** C71, refuted: a unit of 2 bytes (a temporal delimiter) when a packet has 2 or 3 bytes left makes the length of a copy wrap around. *)
Theorem av1_small_unit_refuted : let a := [6 * 8 + 2; 128 + 74; 1] ++ zeros 202 in let b := [2 * 8 + 2; 0] in
  encodes 5 (mkunit 6 None (zeros 202)) a /\ encodes 5 (mkunit 2 None []) b /\
  sendAV1 12 222 (a ++ b) = Wild /\ sendAV1 12 223 (a ++ b) = Wild /\ exists l, sendAV1 12 224 (a ++ b) = Sent l.
Proof.
  split; [exists [128 + 74; 1]; split; [exact (u_more 1 74 [1] ltac:(lia) (u_last 1 ltac:(lia)))|split; [change (len [128 + 74; 1]) with 2; lia|reflexivity]]|].
  split; [exists [0]; split; [exact (u_last 0 ltac:(lia))|split; [change (len [0]) with 1; lia|reflexivity]]|].
  split; [vm_compute; reflexivity|]. split; [vm_compute; reflexivity|]. eexists. vm_compute. reflexivity.
Qed.
(** C71, refuted: a frame that is cut short, in any unit, is never done with. *)
Theorem av1_cut_short_refuted hs max : sendAV1 hs max [6 * 8 + 2; 10; 1; 2; 3] = Hangs /\ sendAV1 hs max [6 * 8 + 2; 1; 0; 6 * 8 + 2; 10; 1; 2; 3] = Hangs.
Proof. split; reflexivity. Qed.
(** C71, refuted: sizes with leading zeros, of 6 to 8 bytes, are within the format; an int is shifted by 35 bits for them. *)
Theorem av1_wide_size_refuted : let d := [6 * 8 + 2; 129; 128; 128; 128; 128; 0; 32] in encodes 8 (mkunit 6 None [32]) d /\ init d = OUndef.
Proof.
  split; [|vm_compute; reflexivity]. exists [129; 128; 128; 128; 128; 0]. split; [|split; [change (len [129; 128; 128; 128; 128; 0]) with 6; lia|reflexivity]].
  exact (u_more 0 1 _ ltac:(lia) (u_more 0 0 _ ltac:(lia) (u_more 0 0 _ ltac:(lia) (u_more 0 0 _ ltac:(lia) (u_more 0 0 _ ltac:(lia) (u_last 0 ltac:(lia))))))).
Qed.

(** The hypotheses are met: a keyframe in three units, in packets of 30 bytes. *)
Example av1_case : let us := [mkunit 2 None []; mkunit 1 (Some 0) [8; 0]; mkunit 6 None (16 :: zeros 29)] in
  let ds := [[18; 0]; [14; 0; 2; 8; 0]; [50; 30] ++ (16 :: zeros 29)] in
  Forall2 (fun u d => unit_ok u /\ encodes 5 u d) us ds /\ Forall (fun d => 4 <= len d) (tl ds) /\ existsb is_key us = true /\
  match sendAV1 12 30 (List.concat ds) with Sent l => map (fun x => (fst x, nth 0 (snd x) 0, len (snd x))) l | _ => [] end =
    [(false, 8, 10); (false, 64, 15); (false, 192, 15); (true, 128, 8)].
Proof.
  cbv zeta. split; [|split; [|split; vm_compute; reflexivity]].
  - constructor; [split|constructor; [split|constructor; [split|constructor]]].
    + split; [cbn; lia|]. split; [exact Logic.I|]. split; [constructor|]. split; [vm_compute; reflexivity|reflexivity].
    + exists [0]. split; [exact (u_last 0 ltac:(lia))|]. split; [change (len [0]) with 1; lia|reflexivity].
    + split; [cbn; lia|]. split; [cbn; lia|]. split; [constructor; [unfold byteP; lia|constructor; [unfold byteP; lia|constructor]]|]. split; [vm_compute; reflexivity|discriminate].
    + exists [2]. split; [exact (u_last 2 ltac:(lia))|]. split; [change (len [2]) with 1; lia|reflexivity].
    + split; [cbn; lia|]. split; [exact Logic.I|]. split; [cbn [t_payload zeros]; repeat (constructor; [unfold byteP; lia|]); constructor|]. split; [vm_compute; reflexivity|discriminate].
    + exists [30]. split; [exact (u_last 30 ltac:(lia))|]. split; [change (len [30]) with 1; lia|reflexivity].
  - constructor; [vm_compute; discriminate|constructor; [vm_compute; discriminate|constructor]].
Qed.

Print Assumptions av1_rtp_partial.
Print Assumptions av1_leb128.
Print Assumptions av1_unit.
Print Assumptions av1_small_unit_refuted.
Print Assumptions av1_cut_short_refuted.
Print Assumptions av1_wide_size_refuted.
