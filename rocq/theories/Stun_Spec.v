(** STUN messages as RFC 5389 has them, independent of the code. *)
From Verif Require Import Common Crc_Spec Addr_Model.

(** Section 15: an attribute is its type, its length and its value, followed by zero to three bytes that are ignored. *)
Fixpoint attributes (fuel : nat) (l : list Z) : option (list (Z * list Z)) :=
  match fuel with
  | O => None
  | S k =>
      if len l =? 0 then Some [] else
      if len l <? 4 then None else
      let n := unbe (takez 2 (dropz 2 l)) in
      let whole := 4 + n + (- n) mod 4 in
      if len l <? whole then None else
      r <- attributes k (dropz whole l);; Some ((unbe (takez 2 l), takez n (dropz 4 l)) :: r)
  end.
(** Section 6: a message has a type, a transaction number and attributes. *)
Record message := mkmsg { m_type : Z; m_tid : list Z; m_attrs : list (Z * list Z) }.
Definition cookie : list Z := [0x21; 0x12; 0xa4; 0x42].
Definition decode (l : list Z) : option message :=
  if (len l <? 20) || negb (beqb (takez 4 (dropz 4 l)) cookie) || negb (unbe (takez 2 (dropz 2 l)) =? len l - 20) then None else
  a <- attributes (S (List.length l)) (dropz 20 l);; Some (mkmsg (unbe (takez 2 l)) (takez 12 (dropz 8 l)) a).
(** The first attribute of a type. *)
Fixpoint first (ty : Z) (l : list (Z * list Z)) : option (list Z) :=
  match l with [] => None | (t, v) :: r => if t =? ty then Some v else first ty r end.
(** The message up to position [i], its length field as if it ended at [e]. *)
Definition upto (l : list Z) (i e : Z) : list Z := takez 2 l ++ be 2 (e - 20) ++ takez (i - 4) (dropz 4 l).
(** Section 15.4: the attribute at [i], 24 bytes long, authenticates what precedes it. *)
Definition authentic (hmac : list Z -> list Z -> list Z) (key l : list Z) (i : Z) : Prop :=
  takez 24 (dropz i l) = be 2 8 ++ be 2 20 ++ hmac key (upto l i (i + 24)).
(** Section 15.5: the last attribute, 8 bytes long, is the CRC-32 of what precedes it. *)
Definition crc32_itu (l : list Z) : Z := Z.lxor (crc_lsb 0xEDB88320 0xFFFFFFFF l) 0xFFFFFFFF.
Definition fingerprinted (l : list Z) : Prop :=
  let i := len l - 8 in dropz i l = be 2 0x8028 ++ be 2 4 ++ be 4 (Z.lxor (crc32_itu (upto l i (len l))) 0x5354554e).
(** Section 15.2: the value for an address, with port and address hidden by cookie and transaction number. *)
Fixpoint hide (a b : list Z) : list Z := match a, b with x :: a, y :: b => Z.lxor x y :: hide a b | _, _ => [] end.
Definition address (tid v : list Z) : option (Z * list Z) :=
  let n := if nth 1 v 0 =? 1 then 4 else 16 in
  if negb ((nth 0 v 1 =? 0) && ((nth 1 v 0 =? 1) || (nth 1 v 0 =? 2)) && (len v =? 4 + n)) then None else
  Some (unbe (hide (takez 2 (dropz 2 v)) cookie), hide (dropz 4 v) (cookie ++ tid)).
(** The address that should be told: that of the socket, or the IPv4 address written inside an IPv6 one (RFC 4291, 2.5.5.2). *)
Definition told (a : sockaddr) (ip : list Z) : Prop :=
  match sa_family a with
  | Inet => ip = sa_ip a /\ len ip = 4
  | Inet6 => len (sa_ip a) = 16 /\ (sa_ip a = [0; 0; 0; 0; 0; 0; 0; 0; 0; 0; 255; 255] ++ ip \/ ip = sa_ip a /\ forall x, sa_ip a <> [0; 0; 0; 0; 0; 0; 0; 0; 0; 0; 255; 255] ++ x)
  | OtherFamily => False
  end.
(** A name, the first in the list with this name, and its password. *)
Definition user (tracks : list (list Z * list Z)) (name pwd : list Z) : Prop :=
  exists a b, tracks = a ++ (name, pwd) :: b /\ ~ In name (map fst a) /\ pwd <> [].
(** The text before the first colon. *)
Definition local_part (u name : list Z) : Prop := exists rest, u = name ++ 58 :: rest /\ ~ In 58 name.
