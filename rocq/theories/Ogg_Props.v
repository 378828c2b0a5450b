(** Properties of the Ogg streams that are sent. *)
From Verif Require Import Common CommonFacts Mem_Model Mem_Proofs Crc_Model Crc_Spec Ogg_Model Ogg_Spec Ogg_Proofs.
Local Ltac Zify.zify_post_hook ::= Z.div_mod_to_equations.

(** C68: a stream is a sequence of well formed pages, numbered from 0 on, that carry the header packets and then every packet
    sent, in order and whole; the first page is the only one that begins the stream and has the first header packet alone, pages
    tell whether a packet goes on in them, and what granule position they reach.  What is not in a page yet comes in the page at
    the end, and that one ends the stream.  Partial: for packets whose size is not a multiple of 255, and granule positions below
    2^31; without the checksum; the page at the end does not tell whether a packet goes on in it. *)
Theorem ogg_stream_partial serial first others l :
  Forall (fun d => ordinary (len d)) (first :: others) -> others <> [] -> entries [first] <= 255 -> entries others <= 255 ->
  Forall (fun x => ordinary (len (g_data (fst x))) /\ 0 <= g_gran (fst x) < 2 ^ 31) l ->
  exists p p' pg1 pg2 pgs n open todo,
    sendHeader serial first others = Some (p, encode pg1 ++ encode pg2) /\
    sendMany p l = Some (p', List.concat (map encode pgs)) /\
    carries (u32 serial) 0 [] (map (fun d => (d, 0)) (first :: others) ++ map (fun x => (g_data (fst x), g_gran (fst x))) l) (pg1 :: pg2 :: pgs) n open todo /\
    unlace [] (o_table pg1) (o_body pg1) = ([first], []) /\
    ((todo = [] /\ open = [] /\ exists q, finish p' = Some (q, [])) \/
     exists q pg, finish p' = Some (q, encode pg) /\ well_formed pg /\ o_flags pg = 4 /\ o_serial pg = u32 serial /\ o_number pg = u32 n /\
       unlace open (o_table pg) (o_body pg) = (map fst todo, []) /\ o_granule pg = List.last (map snd todo) no_granule).
Proof.
  intros F Ho L1 L2 Fl. unfold entries in *. cbn [fold_right] in L1.
  destruct (header_ok serial first others F Ho ltac:(lia) L2) as (p & pg1 & pg2 & A1 & A2 & A3 & A4 & A5 & A6 & A7 & A8).
  destruct (sendMany_ok l p 2 [] A6) as (p' & pgs & n & o & B1 & B2 & B3 & B4 & B5); [rewrite A7; cbn; lia|exact Fl|].
  rewrite A7, A8 in B2. cbn [tod app] in B2.
  exists p, p', pg1, pg2, pgs, n, o, (tod o (p_segs p')).
  split; [exact A1|]. split; [exact B1|]. split; [eapply (carries_trans _ _ _ _ [pg1; pg2]); [apply carries_more; exact A2|exact B2]|].
  split; [exact A5|].
  destruct (finish_ok p' n o (proj1 (proj1 B3)) B5) as [[E [q Q]]|(q & pg & C1 & C2 & C3 & C4 & C5 & C6 & C7 & C8)].
  - left. rewrite E. split; [reflexivity|]. split; [destruct B3 as [[[_ _ H _] _] _]; exact (H E)|]. exists q; exact Q.
  - right. exists q, pg. split; [exact C1|]. split; [exact C3|]. split; [exact C4|]. split; [rewrite C5, B4; exact A8|]. auto.
Qed.

(** C68: the checksum of pages is not that of Ogg: the bytes of the checksum itself are left out, instead of being zeros. *)
Definition opus_head : list Z := bs "OpusHead" ++ [1; 2; 56; 1; 128; 187; 0; 0; 0; 0; 0].
Theorem ogg_checksum_refuted :
  exists p b pg, sendTo (mkpage 2 0 0 [mkseg opus_head 0 false]) (Some 0) = Some (p, b) /\ b = encode pg /\ well_formed pg /\ ~ checksum_right pg.
Proof.
  do 2 eexists.
  exists (mkopage 2 0 0 0 (crc32c 0 (bs "OggS" ++ [0; 2] ++ le 8 0 ++ le 4 0 ++ le 4 0 ++ [1; 19] ++ opus_head)) [19] opus_head).
  split; [vm_compute; reflexivity|]. split; [vm_compute; reflexivity|].
  split; [split; [vm_compute; discriminate|split; [repeat constructor; discriminate|vm_compute; reflexivity]]|].
  unfold checksum_right. vm_compute. discriminate.
Qed.

(** C68: a packet that fills a page to the last byte has no end: the next packet is taken for the rest of it, and the page
    after is not marked as going on with a packet. *)
Theorem ogg_multiple_refuted p d g : p_segs p = [] -> len d = 255 * 255 -> 0 <= g < 2 ^ 31 ->
  exists p' pg, sendNext p (mkseg d g false) false = Some (p', encode pg) /\ well_formed pg /\ o_granule pg = g /\
    unlace [] (o_table pg) (o_body pg) = ([], d) /\ p_segs p' = [] /\ p_type p' = 0.
Proof.
  intros E L G. unfold sendNext. cbn [g_key fst snd]. rewrite E. cbn [app]. cbn [p_segs g_data List.length].
  set (q := mkpage (p_type p) (p_serial p) (p_number p) [mkseg d g false]).
  assert (S : shouldSend q false = true).
  { unfold shouldSend. cbn [q p_segs rev app g_key orb fold_right g_data]. rewrite L. reflexivity. }
  cbn [send_loop]. rewrite S.
  assert (T : exists pg, sendTo q None = Some (mkpage 0 (p_serial p) (u32 (p_number p + 1)) [], encode pg) /\ o_table pg = repeat 255 255 /\ o_body pg = d /\ o_granule pg = g).
  { unfold sendTo. cbn [q p_segs lace g_data]. rewrite L. change (255 * 255 / 255 + 0 + 1 <=? 255) with false. cbv iota.
    change (255 * 255 =? (255 - 0) * 255) with true. cbv iota. cbn [bodies]. change (0 =? 0) with true. cbv iota. cbn [g_data].
    change (Z.to_nat (255 - 0)) with 255%nat. set (crc := crc32c _ d).
    exists (mkopage (p_type p) g (p_serial p) (p_number p) crc (repeat 255 255) d).
    split; [|repeat split]. unfold encode, encode_with; cbn [o_flags o_granule o_serial o_number o_crc o_table o_body p_type p_serial p_number q].
    change (u8 (len (repeat 255 255))) with (len (repeat 255 255)).
    replace (granules [mkseg d g false] 0 None) with g by (unfold granules; cbn; symmetry; apply le_granule; lia). rewrite <- !app_assoc. reflexivity. }
  destruct T as (pg & T & T1 & T2 & T3). rewrite T. cbn [fst snd].
  exists (mkpage 0 (p_serial p) (u32 (p_number p + 1)) []), pg.
  split. { destruct (Z.to_nat (len d) + 1)%nat; cbn [send_loop shouldSend p_segs rev fst snd]; rewrite app_nil_r; reflexivity. }
  split. { unfold well_formed. rewrite T1, T2. split; [vm_compute; discriminate|]. split; [apply repeat_bytes|]. fold (suml (repeat 255 255)). rewrite suml_repeat, L. reflexivity. }
  split; [exact T3|]. split; [|split; reflexivity]. rewrite T1, T2.
  pose proof (unlace_full 255 [] d [] []) as U. rewrite !app_nil_r in U. rewrite U by exact L. reflexivity.
Qed.

(** C68: granule positions are cut to 32 bits with a sign: from 2^31 samples on (12.4 hours of Opus), they are negative. *)
Theorem ogg_granule_refuted :
  exists p b pg, finish (mkpage 0 0 7 [mkseg [1; 2; 3] (44739243 * 48) false]) = Some (p, b) /\ b = encode pg /\ well_formed pg /\
    44739243 * 48 = 2147483664 /\ o_granule pg = 2 ^ 64 - 2147483632.
Proof.
  do 2 eexists.
  exists (mkopage 4 (2 ^ 64 - 2147483632) 0 7 (crc32c 0 (bs "OggS" ++ [0; 4] ++ le 8 (2 ^ 64 - 2147483632) ++ le 4 0 ++ le 4 7 ++ [1; 3; 1; 2; 3])) [3] [1; 2; 3]).
  split; [vm_compute; reflexivity|]. split; [vm_compute; reflexivity|].
  split; [split; [vm_compute; discriminate|split; [repeat constructor; discriminate|vm_compute; reflexivity]]|]. split; reflexivity.
Qed.

(** C68: the page at the end does not tell that it goes on with a packet: after a packet of 65026 bytes, its last byte is in a
    page that has only the flag of the end. *)
Theorem ogg_end_refuted p d g : p_segs p = [] -> len d = 255 * 255 + 1 -> 0 <= g < 2 ^ 31 ->
  exists p' pg q last, sendNext p (mkseg d g false) false = Some (p', encode pg) /\ unlace [] (o_table pg) (o_body pg) = ([], takez 65025 d) /\
    p_type p' = 1 /\ finish p' = Some (q, encode last) /\ o_flags last = 4 /\ unlace (takez 65025 d) (o_table last) (o_body last) = ([d], []).
Proof.
  intros E L G. unfold sendNext. cbn [g_key fst snd]. rewrite E. cbn [app]. cbn [p_segs g_data List.length].
  set (q := mkpage (p_type p) (p_serial p) (p_number p) [mkseg d g false]).
  assert (S : shouldSend q false = true).
  { unfold shouldSend. cbn [q p_segs rev app g_key orb fold_right g_data]. rewrite L. reflexivity. }
  cbn [send_loop]. rewrite S. set (r := mkseg (dropz 65025 d) g false).
  assert (Lr : len (dropz 65025 d) = 1) by (rewrite len_dropz; lia).
  assert (Lt : len (takez 65025 d) = 65025) by (rewrite len_takez; lia).
  assert (T : exists pg, sendTo q None = Some (mkpage 1 (p_serial p) (u32 (p_number p + 1)) [r], encode pg) /\ o_table pg = repeat 255 255 /\ o_body pg = takez 65025 d).
  { unfold sendTo. cbn [q p_segs lace g_data]. rewrite L. change ((255 * 255 + 1) / 255 + 0 + 1 <=? 255) with false. cbv iota.
    change (255 * 255 + 1 =? (255 - 0) * 255) with false. cbv iota. cbn [bodies g_data g_gran g_key]. change ((255 - 0) * 255 =? 0) with false. cbv iota.
    change ((255 - 0) * 255) with 65025.
    assert (PK : peek d 0 65025 = Some (takez 65025 d)) by (rewrite peek_some by lia; reflexivity). rewrite PK. fold r.
    change (Z.to_nat (255 - 0)) with 255%nat. set (crc := crc32c _ (takez 65025 d)).
    exists (mkopage (p_type p) (2 ^ 64 - 1) (p_serial p) (p_number p) crc (repeat 255 255) (takez 65025 d)).
    split; [|split; reflexivity]. unfold encode, encode_with; cbn [o_flags o_granule o_serial o_number o_crc o_table o_body p_type p_serial p_number q].
    change (u8 (len (repeat 255 255))) with (len (repeat 255 255)).
    change (granules [mkseg d g false] 65025 None) with (-1). change (le 8 (-1)) with (le 8 (2 ^ 64 - 1)). rewrite <- !app_assoc. reflexivity. }
  destruct T as (pg & T & T1 & T2). rewrite T. cbn [fst snd].
  set (p' := mkpage 1 (p_serial p) (u32 (p_number p + 1)) [r]).
  assert (S' : shouldSend p' false = false).
  { unfold shouldSend. cbn [p' p_segs rev app g_key orb fold_right g_data r]. rewrite Lr. reflexivity. }
  assert (LL : send_loop (Z.to_nat (len d) + 1) p' false = Some (p', [])) by (destruct (Z.to_nat (len d) + 1)%nat; cbn [send_loop]; rewrite S'; reflexivity).
  rewrite LL. cbn [fst snd]. rewrite app_nil_r.
  destruct (finish_ok p' (p_number p + 1) (takez 65025 d)) as [[N _]|(q' & last & F1 & F2 & F3 & F4 & F5 & F6 & F7 & F8)].
  - constructor; [reflexivity|rewrite Lt; reflexivity|discriminate|]. constructor; [|constructor]. split; [|exact G]. cbn [r g_data fst]. rewrite takez_dropz. left. rewrite L. discriminate.
  - cbn [p' p_segs lacing fold_right r g_data]. rewrite Lr. reflexivity.
  - discriminate N.
  - exists p', pg, q', last. split; [reflexivity|]. split.
    { rewrite T1, T2. pose proof (unlace_full 255 [] (takez 65025 d) [] []) as U. rewrite !app_nil_r in U. rewrite U by (rewrite Lt; reflexivity). reflexivity. }
    split; [reflexivity|]. split; [exact F1|]. split; [exact F4|]. rewrite F7. cbn [p' p_segs tod map r g_data fst]. rewrite takez_dropz. reflexivity.
Qed.

(** C68: a comment header that needs more than a page: bytes after the end of the next packet are sent. *)
Theorem ogg_large_header_refuted serial first comment setup : len first < 65025 -> 65025 < len comment -> len setup < 65025 ->
  sendHeader serial first [comment; setup] = None.
Proof.
  intros L1 L2 L3. pose proof (len_nonneg first). unfold sendHeader. cbn [begin p_type p_serial p_number].
  set (p0 := mkpage 2 (u32 serial) 0 [mkseg first 0 false]).
  assert (T : exists b, sendTo p0 (Some 0) = Some (mkpage 0 (u32 serial) 1 [], b)).
  { unfold sendTo. cbn [p0 p_segs lace g_data]. assert (len first / 255 + 0 + 1 <=? 255 = true) as -> by (apply Z.leb_le; lia). cbv iota zeta. cbn [fst snd bodies].
    change (0 =? 0) with true. cbv iota. cbn [p_serial p_number p0]. change (u32 (0 + 1)) with 1. eexists; reflexivity. }
  destruct T as [b T]. rewrite T. cbn [fst snd p_type p_serial p_number p_segs map app].
  set (q := mkpage 0 (u32 serial) 1 [mkseg comment 0 false; mkseg setup 0 false]).
  assert (B : sendTo q (Some 0) = None).
  { unfold sendTo. cbn [q p_segs lace g_data]. assert (len comment / 255 + 0 + 1 <=? 255 = false) as -> by (apply Z.leb_gt; lia). cbv iota.
    change ((255 - 0) * 255) with 65025. assert (len comment =? 65025 = false) as -> by (apply Z.eqb_neq; lia). cbv iota. cbn [bodies g_data].
    change (65025 =? 0) with false. cbv iota. unfold peek. assert (H0 : (0 + 65025 <=? len setup) = false) by (apply Z.leb_gt; lia).
    rewrite H0. rewrite ?andb_false_r. reflexivity. }
  cbn [header_loop]. cbn [q p_segs]. fold q. rewrite B. reflexivity.
Qed.

(** C68: the second packet of Opus has the length of its vendor string in network order: no vendor can be read from it. *)
Theorem ogg_opus_tags_refuted :
  opus_vendor opus_tags = None /\ opus_vendor (bs "OpusTags" ++ le 4 10 ++ bs "MistServer" ++ le 4 0) = Some (bs "MistServer").
Proof. split; reflexivity. Qed.

(** Two packets after the headers of Opus; and what is sent for them. *)
Example ogg_stream_case :
  exists p p' q a b, sendHeader 5 opus_head [opus_tags] = Some (p, a) /\
    sendMany p [(mkseg [1; 2; 3] 960 false, false); (mkseg (repeat 7 300) 1920 false, false)] = Some (p', []) /\ finish p' = Some (q, b) /\
    Forall (fun d => ordinary (len d)) [opus_head; opus_tags] /\ entries [opus_head] <= 255 /\ entries [opus_tags] <= 255 /\
    Forall (fun x => ordinary (len (g_data (fst x))) /\ 0 <= g_gran (fst x) < 2 ^ 31) [(mkseg [1; 2; 3] 960 false, false); (mkseg (repeat 7 300) 1920 false, false)] /\
    takez 30 b = bs "OggS" ++ [0; 4] ++ le 8 1920 ++ le 4 5 ++ le 4 2 ++ takez 4 (dropz 22 b) ++ [3; 3; 255; 45].
Proof.
  do 5 eexists. split; [vm_compute; reflexivity|]. split; [vm_compute; reflexivity|]. split; [vm_compute; reflexivity|].
  split; [repeat constructor; discriminate|]. split; [vm_compute; discriminate|]. split; [vm_compute; discriminate|].
  split; [constructor; [split; [left; discriminate|cbn; lia]|constructor; [split; [left; discriminate|cbn; lia]|constructor]]|]. vm_compute. reflexivity.
Qed.

Print Assumptions ogg_stream_partial.
Print Assumptions ogg_checksum_refuted.
Print Assumptions ogg_multiple_refuted.
Print Assumptions ogg_granule_refuted.
Print Assumptions ogg_end_refuted.
Print Assumptions ogg_large_header_refuted.
Print Assumptions ogg_opus_tags_refuted.
