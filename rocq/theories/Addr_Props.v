(** C47: address range matching. *)
From Verif Require Import Common CommonFacts CommonMore Addr_Model Addr_Spec Addr_Proofs.

(** For every prefix length from 1 to 128, an address matches exactly if the leading bits agree. *)
Theorem address_match_partial : forall A B p, bytesP A -> bytesP B -> len A = 16 -> len B = 16 -> 1 <= p <= 128 ->
  exists b, matchIPv6Addr A B p = Some b /\ (b = true <-> same_network p A B).
Proof. exact match_ok. Qed.

(** The same for a textual range: an IPv4 or IPv6 address list with "/n". *)
Theorem address_range_partial : forall host n addrs, bytesP host -> len host = 16 -> Forall wf_sockaddr addrs ->
  (forall a, In a addrs -> sa_family a <> OtherFamily /\ (sa_family a = Inet -> 1 <= n <= 32)) -> 1 <= n <= 128 ->
  exists b, isBinAddress host (Some n) addrs = Some b /\ (b = true <-> Exists (fun a => in_range a n host) addrs).
Proof.
  intros host n addrs Hh Lh Hw Hf Hn. unfold isBinAddress. rewrite u8_id by (unfold byteP; lia). now apply any_ok.
Qed.

(** Two socket addresses are considered equal exactly if ports and canonical addresses are. *)
Theorem address_compare : forall A B, wf_sockaddr A -> wf_sockaddr B ->
  compareAddress A B = true <-> sa_port A = sa_port B /\ canonical A = canonical B /\ canonical A <> None.
Proof. exact cmp_ok. Qed.

Definition net10 : sockaddr := {| sa_family := Inet; sa_port := 0; sa_ip := [10; 0; 0; 0] |}.
Definition host10 : list Z := [0; 0; 0; 0; 0; 0; 0; 0; 0; 0; 255; 255; 10; 1; 2; 3].
Example address_case : isBinAddress host10 (Some 8) [net10] = Some true /\ isBinAddress host10 (Some 16) [net10] = Some false
  /\ wf_sockaddr net10 /\ bytesP host10.
Proof.
  split; [vm_compute; reflexivity|]. split; [vm_compute; reflexivity|].
  split; [split; [now apply all_bytes_ok|reflexivity]|now apply all_bytes_ok].
Qed.

(** F39: prefix length 0 is treated as 128: instead of every address, only the address itself matches. *)
Theorem address_prefix_zero_refuted : forall A B, len A = 16 -> len B = 16 -> A <> B ->
  same_network 0 A B /\ matchIPv6Addr A B 0 = Some false.
Proof.
  intros A B LA LB H. split; [intros i Hi; lia|]. rewrite match_zero by auto. apply beqb_neq in H. now rewrite H.
Qed.
(** F40: a prefix length of 144 or more reads beyond both addresses, so does an IPv4 range with
    a length from 48 on. *)
Theorem address_prefix_long_refuted : forall A B p, len A = 16 -> len B = 16 -> 144 <= p ->
  matchIPv6Addr A B p = None.
Proof. exact match_over. Qed.
Example address_prefix_long_case : isBinAddress host10 (Some 48) [net10] = None.
Proof. vm_compute. reflexivity. Qed.
(** F39 for textual ranges, and F41: the length is reduced modulo 256, so "/256" means "/128". *)
Theorem address_range_zero_refuted :
  in_range net10 0 host10 /\ isBinAddress host10 (Some 0) [net10] = Some false /\
  isBinAddress host10 (Some 256) [net10] = Some false.
Proof.
  split; [|split; vm_compute; reflexivity].
  eexists. split; [reflexivity|]. cbn [net10 sa_family sa_ip]. intros i Hi.
  assert (H : forallb (fun i => Bool.eqb (addr_bit ([0; 0; 0; 0; 0; 0; 0; 0; 0; 0; 255; 255] ++ [10; 0; 0; 0]) i) (addr_bit host10 i)) (range 96) = true) by (vm_compute; reflexivity).
  rewrite forallb_forall in H. apply Bool.eqb_prop, H, range_in. lia.
Qed.

Print Assumptions address_match_partial.
Print Assumptions address_range_partial.
Print Assumptions address_compare.
Print Assumptions address_prefix_zero_refuted.
Print Assumptions address_prefix_long_refuted.
Print Assumptions address_range_zero_refuted.
