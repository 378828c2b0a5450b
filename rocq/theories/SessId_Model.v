(** Model of how a connection gets its session id (lib/comms.cpp). The digest is a parameter. *)
From Verif Require Import Common.

Record req := mkreq { stream : list Z; ip : list Z; tkn : list Z; protocol : list Z }.
(** lib/comms.cpp:13-18: sessionViewerMode, sessionInputMode, sessionOutputMode, sessionUnspecifiedMode and
    sessionStreamInfoMode, all uint8_t. *)
Record modes := mkmodes { viewerMode : Z; inputMode : Z; outputMode : Z; unspecifiedMode : Z; infoMode : Z }.
(** lib/defines.h:299-306 *)
Definition defaults : modes := mkmodes 14 15 15 0 1.
Definition HTTP_AS_VIEWER : Z := 1.
Definition HTTP_AS_OUTPUT : Z := 2.
Definition HTTP_DISABLED : Z := 3.
Definition HTTP_AS_UNSPECIFIED : Z := 4.

Section Id.
Context (sha256 : list Z -> list Z).
(** lib/comms.cpp:629-656 generateSession, without its log message. *)
Definition generateSession (r : req) (mode : Z) : list Z :=
  sha256 ((if mode .& 0x08 =? 0 then [] else stream r) ++ (if mode .& 0x04 =? 0 then [] else ip r)
          ++ (if mode .& 0x02 =? 0 then [] else tkn r) ++ (if mode .& 0x01 =? 0 then [] else protocol r)).
(** lib/comms.cpp:355-388: None if the connection is not counted. *)
Definition sessionId (m : modes) (r : req) : option (list Z) :=
  if (6 <=? len (protocol r)) && beqb (takez 6 (protocol r)) (bs "INPUT:") then Some (bs "I" ++ generateSession r (inputMode m))
  else if (7 <=? len (protocol r)) && beqb (takez 7 (protocol r)) (bs "OUTPUT:") then Some (bs "O" ++ generateSession r (outputMode m))
  else if (len (protocol r) =? 4) && beqb (protocol r) (bs "HTTP") then
    if infoMode m =? HTTP_AS_VIEWER then Some (generateSession r (viewerMode m))
    else if infoMode m =? HTTP_AS_OUTPUT then Some (bs "O" ++ generateSession r (outputMode m))
    else if infoMode m =? HTTP_DISABLED then None
    else if infoMode m =? HTTP_AS_UNSPECIFIED then Some (bs "U" ++ generateSession r (unspecifiedMode m))
    else Some (generateSession r (viewerMode m))
  else Some (generateSession r (viewerMode m)).
End Id.
