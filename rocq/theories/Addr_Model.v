(** Model of the address comparisons of lib/socket.cpp.  Binary addresses are strings of 16
    bytes; [None] is a read outside such a string. *)
From Verif Require Import Common.

(** memcmp of the first [n] bytes being zero.  Both arguments are std::string data, readable up
    to and including the terminating zero byte. *)
Definition mem_same (A B : list Z) (n : Z) : option bool :=
  if (n <=? len A + 1) && (n <=? len B + 1)
  then Some (beqb (takez n (A ++ [0])) (takez n (B ++ [0])))
  else None.

(** lib/socket.cpp:367-381, Socket::matchIPv6Addr without its debug message (368-374, only at
    higher debug levels).  [prefix] is a uint8_t. *)
Definition matchIPv6Addr (A B : list Z) (prefix0 : Z) : option bool :=
  let prefix := if prefix0 =? 0 then 128 else prefix0 in
  same <- mem_same A B (prefix / 8) ;;
  if negb same then Some false
  else if prefix mod 8 =? 0 then Some true
  else
    a <- rd (A ++ [0]) (prefix / 8) ;;
    b <- rd (B ++ [0]) (prefix / 8) ;;
    let m := 255 << (8 - prefix mod 8) in
    Some ((a .& m) =? (b .& m)).

(** A socket address: family, port and address bytes (4 or 16). *)
Inductive family := Inet | Inet6 | OtherFamily.
Record sockaddr := { sa_family : family; sa_port : Z; sa_ip : list Z }.

(** The ten zero and two 0xff bytes of socket.cpp:264, 393, 408. *)
Definition v4_prefix : list Z := [0; 0; 0; 0; 0; 0; 0; 0; 0; 0; 255; 255].

(** socket.cpp:263-271, Socket::Address::binForm. *)
Definition binForm (a : sockaddr) : list Z :=
  match sa_family a with
  | Inet => v4_prefix ++ takez 4 (sa_ip a)
  | Inet6 => takez 16 (sa_ip a)
  | OtherFamily => []
  end.

(** socket.cpp:383-415, Socket::compareAddress with two non-null arguments: the selected bytes,
    and whether the address counts as IPv6. *)
Definition cmp_side (a : sockaddr) : option (bool * list Z) :=
  match sa_family a with
  | Inet => Some (false, sa_ip a)
  | Inet6 => if beqb (takez 12 (sa_ip a)) v4_prefix then Some (false, dropz 12 (sa_ip a)) else Some (true, sa_ip a)
  | OtherFamily => None
  end.
Definition compareAddress (A B : sockaddr) : bool :=
  match cmp_side A, cmp_side B with
  | Some (aSix, a), Some (bSix, b) =>
      if negb (sa_port A =? sa_port B) then false
      else if negb (Bool.eqb aSix bSix) then false
      else let n := if aSix then 16 else 4 in beqb (takez n a) (takez n b)
  | _, _ => false
  end.

(** socket.cpp:419-440, Socket::isBinAddress.  [slash] is the number that atoi reads after the
    '/' if there is one; [addrs] are the addresses the name resolves to (getAddrs, not modelled).
    The sum [prefixLen + 96] is passed as uint8_t. *)
Fixpoint any_match (binAddr : list Z) (prefixLen : Z) (addrs : list sockaddr) : option bool :=
  match addrs with
  | [] => Some false
  | A :: r =>
      let p := match sa_family A with
               | Inet => if prefixLen =? 0 then 0 else u8 (prefixLen + 96)
               | _ => prefixLen
               end in
      m <- matchIPv6Addr (binForm A) binAddr p ;;
      if m then Some true else any_match binAddr prefixLen r
  end.
Definition isBinAddress (binAddr : list Z) (slash : option Z) (addrs : list sockaddr) : option bool :=
  any_match binAddr (match slash with Some n => u8 n | None => 0 end) addrs.
