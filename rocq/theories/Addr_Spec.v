(** What address matching means. *)
From Verif Require Import Common Addr_Model.

(** Bit [i] of an address, counted from the most significant bit of the first byte. *)
Definition addr_bit (A : list Z) (i : Z) : bool := Z.testbit (nthz A (i / 8)) (7 - i mod 8).
(** The leading [n] bits agree. *)
Definition same_network (n : Z) (A B : list Z) : Prop := forall i, 0 <= i < n -> addr_bit A i = addr_bit B i.

Definition wf_sockaddr (a : sockaddr) : Prop :=
  bytesP (sa_ip a) /\
  match sa_family a with Inet => len (sa_ip a) = 4 | Inet6 => len (sa_ip a) = 16 | OtherFamily => True end.

(** The canonical 128 bit form: IPv4 addresses are mapped into ::ffff:0:0/96. *)
Definition canonical (a : sockaddr) : option (list Z) :=
  match sa_family a with
  | Inet => Some ([0; 0; 0; 0; 0; 0; 0; 0; 0; 0; 255; 255] ++ sa_ip a)
  | Inet6 => Some (sa_ip a)
  | OtherFamily => None
  end.

(** [host] lies in the range given by address [a] and prefix length [n] (of 32 or 128 bits). *)
Definition in_range (a : sockaddr) (n : Z) (host : list Z) : Prop :=
  exists c, canonical a = Some c /\
    same_network (match sa_family a with Inet => 96 + n | _ => n end) c host.
