(** Model of STUN messages (lib/stun.cpp) and of answering them (src/output/output_webrtc.cpp).  The HMAC-SHA1 of mbedtls is a
    parameter: key and text to twenty bytes.  Memory is always granted. *)
From Verif Require Import Common Mem_Model Outcome_Model Crc_Model Addr_Model.

(** lib/stun.h *)
Definition STUN_MSG_BINDING_REQUEST := 0x0001.
Definition STUN_MSG_BINDING_RESPONSE_SUCCESS := 0x0101.
Definition STUN_ATTR_USERNAME := 0x0006.
Definition STUN_ATTR_MESSAGE_INTEGRITY := 0x0008.
Definition STUN_ATTR_XOR_MAPPED_ADDRESS := 0x0020.
Definition STUN_ATTR_USE_CANDIDATE := 0x0025.
Definition STUN_ATTR_FINGERPRINT := 0x8028.

Definition put (d : list Z) (i : Z) (xs : list Z) : res (list Z) := match poke d i xs with Some d => Ok d | None => Ub end.
Definition zeros (n : Z) : list Z := repeat 0 (Z.to_nat n).

(** lib/stun.cpp:10-15, 25-28 *)
Definition setType (type : Z) (d : list Z) : res (list Z) := if len d <? 2 then Ok d else put d 0 (be 2 type).
Definition newPacket (type : Z) : res (list Z) := d <~ put (zeros 20) 4 (be 4 0x2112a442);; setType type d.
(** lib/stun.cpp:20-23 *)
Definition getType (d : list Z) : res Z := if len d <? 2 then Ok 0 else getbe d 0 2.
(** lib/stun.cpp:30-33 genTID with the random bytes, 35-39 copyTID *)
Definition genTID (random : list Z) (d : list Z) : res (list Z) := if len d <? 20 then Ok d else put d 8 (takez 12 random).
Definition copyTID (p d : list Z) : res (list Z) :=
  if (len d <? 20) || (len p <? 20) then Ok d else x <~ getn p 8 12;; put d 8 x.

(** lib/stun.cpp:41-60 getAttributeByType: [None] where the code returns no text because none was found. *)
Fixpoint attr_loop (fuel : nat) (d : list Z) (type offset : Z) : res (option (list Z)) :=
  if offset + 4 <? len d then
    match fuel with
    | O => Stuck
    | S k =>
        t <~ getbe d offset 2;; l <~ getbe d (offset + 2) 2;;
        if len d <? offset + 4 + l then Ok None else
        if t =? type then x <~ getn d (offset + 4) l;; Ok (Some x) else
        attr_loop k d type ((offset + 4 + l + 3) / 4 * 4)
    end
  else Ok None.
Definition attribute (d : list Z) (type : Z) : res (option (list Z)) := attr_loop (S (List.length d)) d type 20.
Definition getAttributeByType (d : list Z) (type : Z) : res (list Z) := x <~ attribute d type;; Ok (match x with Some x => x | None => [] end).
(** lib/stun.cpp:62-81 hasAttribute *)
Definition hasAttribute (d : list Z) (type : Z) : res bool := x <~ attribute d type;; Ok (match x with Some _ => true | None => false end).

(** The start of all adders: room for [n] bytes, the length field, type and size of the attribute. *)
Definition addRoom (n type size : Z) (d : list Z) : res (list Z) :=
  let e := d ++ zeros n in
  e <~ put e 2 (be 2 (len e - 20));; e <~ put e (len d) (be 2 type);; put e (len d + 2) (be 2 size).
(** lib/stun.cpp:84-121 addXorMappedAddress; lib/socket.cpp:127-134 is4in6.  The loop over the address is one step. *)
Definition is4in6 (a : sockaddr) : bool := match sa_family a with Inet6 => beqb (takez 12 (sa_ip a)) v4_prefix | _ => false end.
Fixpoint xors (a b : list Z) : list Z := match a, b with x :: a, y :: b => Z.lxor x y :: xors a b | _, _ => [] end.
Definition addXorMappedAddress (a : sockaddr) (d : list Z) : res (list Z) :=
  match sa_family a with
  | OtherFamily => Ok d
  | _ =>
      let four := match sa_family a with Inet => true | _ => is4in6 a end in
      let n := if four then 4 else 16 in
      let o := len d in
      d <~ addRoom (n + 8) STUN_ATTR_XOR_MAPPED_ADDRESS (n + 4) d;;
      d <~ put d (o + 4) [0; if four then 1 else 2];;
      c <~ getn d 4 2;; d <~ put d (o + 6) (xors (be 2 (sa_port a)) c);;
      p <~ getn (sa_ip a) (if is4in6 a then 12 else 0) n;; c <~ getn d 4 n;; put d (o + 8) (xors p c)
  end.
(** lib/stun.cpp:123-159 addIntegrity *)
Definition addIntegrity (hmac : list Z -> list Z -> list Z) (pwd d : list Z) : res (list Z) :=
  let o := len d in
  d <~ addRoom 24 STUN_ATTR_MESSAGE_INTEGRITY 20 d;;
  x <~ getn d 0 o;; put d (o + 4) (hmac pwd x).
(** lib/stun.cpp:161-180 addFingerprint *)
Definition addFingerprint (d : list Z) : res (list Z) :=
  let o := len d in
  d <~ addRoom 8 STUN_ATTR_FINGERPRINT 4 d;;
  x <~ getn d 0 o;; put d (o + 4) (be 4 (Z.lxor (Z.lxor (crc32LE (Z.lxor 0 0xFFFFFFFF) x) 0xFFFFFFFF) 0x5354554e)).
(** lib/stun.cpp:182-199 addUseCandidate, 201-225 addUsername *)
Definition addUseCandidate (d : list Z) : res (list Z) := addRoom 4 STUN_ATTR_USE_CANDIDATE 0 d.
Definition addUsername (usr d : list Z) : res (list Z) :=
  let o := len d in
  let padding := (4 - len usr mod 4) mod 4 in
  d <~ addRoom (4 + len usr + padding) STUN_ATTR_USERNAME (len usr) d;;
  d <~ put d (o + 4) usr;; put d (o + 4 + len usr) (zeros padding).
(** lib/stun.cpp:361-365 operator bool *)
Definition isStun (d : list Z) : res bool := if len d <? 20 then Ok false else c <~ getbe d 4 4;; Ok (c =? 0x2112a442).

(** src/output/output_webrtc.cpp:1707-1713: the check sent to the other side. *)
Definition request (hmac : list Z -> list Z -> list Z) (random user pwd : list Z) (candidate : bool) : res (list Z) :=
  d <~ newPacket STUN_MSG_BINDING_REQUEST;; d <~ genTID random d;; d <~ addUsername user d;;
  d <~ (if candidate then addUseCandidate d else Ok d);; d <~ addIntegrity hmac pwd d;; addFingerprint d.

(** src/output/output_webrtc.cpp:2006-2070 handleReceivedSTUNPacket: the packet, the names and passwords of the tracks, where
    it came from, and whether use of the candidate is to be told; what is sent, if anything, and whether the sender asked to
    use this candidate. *)
Fixpoint colon (l : list Z) : option (list Z) :=
  match l with [] => None | c :: r => if c =? 58 then Some [] else x <- colon r;; Some (c :: x) end.
Fixpoint lookup (name : list Z) (l : list (list Z * list Z)) : list Z :=
  match l with [] => [] | (u, p) :: r => if beqb u name then p else lookup name r end.
Definition reply (hmac : list Z -> list Z -> list Z) (tid : list Z) (from : sockaddr) (pwd : list Z) (candidate : bool) : res (list Z) :=
  d <~ newPacket STUN_MSG_BINDING_RESPONSE_SUCCESS;; d <~ copyTID tid d;; d <~ addXorMappedAddress from d;;
  d <~ (if candidate then addUseCandidate d else Ok d);; d <~ addIntegrity hmac pwd d;; addFingerprint d.
Definition received (hmac : list Z -> list Z -> list Z) (d : list Z) (tracks : list (list Z * list Z)) (from : sockaddr) (candidate : bool) : res (option (list Z * bool)) :=
  ok <~ isStun d;; if negb ok then Ok None else
  t <~ getType d;; if t =? STUN_MSG_BINDING_RESPONSE_SUCCESS then Ok None else if negb (t =? STUN_MSG_BINDING_REQUEST) then Ok None else
  u <~ getAttributeByType d STUN_ATTR_USERNAME;; if len u =? 0 then Ok None else
  match colon u with
  | None => Ok None
  | Some name =>
      let pwd := lookup name tracks in
      if len pwd =? 0 then Ok None else
      c <~ hasAttribute d STUN_ATTR_USE_CANDIDATE;; r <~ reply hmac d from pwd candidate;; Ok (Some (r, c))
  end.
