(** Model of /repo/lib/bitfields.h (accessors) and /repo/lib/bitfields.cpp (getMSB, setMSB,
    stringToBool). A pointer is the list of bytes it points to. The writers are modelled by the
    list of bytes they store at p[0], p[1], ... *)
From Verif Require Import Common.

(** lib/bitfields.h:20-26 *)
Definition btohs (p : list Z) : Z := u16 ((nthz p 0 << 8) .| nthz p 1).
Definition htobs (val : Z) : list Z := let val := u16 val in [(val >> 8) .& 255; val .& 255].
(** lib/bitfields.h:29-39 *)
Definition btohl (p : list Z) : Z :=
  u32 ((nthz p 0 << 24) .| (nthz p 1 << 16) .| (nthz p 2 << 8) .| nthz p 3).
Definition htobl (val : Z) : list Z :=
  let val := u32 val in [(val >> 24) .& 255; (val >> 16) .& 255; (val >> 8) .& 255; val .& 255].
(** lib/bitfields.h:42-51 *)
Definition btoh24 (p : list Z) : Z := (nthz p 0 << 16) .| (nthz p 1 << 8) .| nthz p 2.
Definition htob24 (val : Z) : list Z :=
  let val := u64 val in [(val >> 16) .& 255; (val >> 8) .& 255; val .& 255].
(** lib/bitfields.h:54-66 *)
Definition btoh40 (p : list Z) : Z :=
  (nthz p 0 << 32) .| (nthz p 1 << 24) .| (nthz p 2 << 16) .| (nthz p 3 << 8) .| nthz p 4.
Definition htob40 (val : Z) : list Z :=
  let val := u64 val in
  [(val >> 32) .& 255; (val >> 24) .& 255; (val >> 16) .& 255; (val >> 8) .& 255; val .& 255].
(** lib/bitfields.h:69-82 *)
Definition btoh48 (p : list Z) : Z :=
  (nthz p 0 << 40) .| (nthz p 1 << 32) .| (nthz p 2 << 24) .| (nthz p 3 << 16) .| (nthz p 4 << 8) .| nthz p 5.
Definition htob48 (val : Z) : list Z :=
  let val := u64 val in
  [(val >> 40) .& 255; (val >> 32) .& 255; (val >> 24) .& 255; (val >> 16) .& 255; (val >> 8) .& 255; val .& 255].
(** lib/bitfields.h:85-99 *)
Definition btoh56 (p : list Z) : Z :=
  (nthz p 0 << 48) .| (nthz p 1 << 40) .| (nthz p 2 << 32) .| (nthz p 3 << 24) .| (nthz p 4 << 16)
  .| (nthz p 5 << 8) .| nthz p 6.
Definition htob56 (val : Z) : list Z :=
  let val := u64 val in
  [(val >> 48) .& 255; (val >> 40) .& 255; (val >> 32) .& 255; (val >> 24) .& 255; (val >> 16) .& 255;
   (val >> 8) .& 255; val .& 255].
(** lib/bitfields.h:102-118 *)
Definition btohll (p : list Z) : Z :=
  u64 ((nthz p 0 << 56) .| (nthz p 1 << 48) .| (nthz p 2 << 40) .| (nthz p 3 << 32) .| (nthz p 4 << 24)
       .| (nthz p 5 << 16) .| (nthz p 6 << 8) .| nthz p 7).
Definition htobll (val : Z) : list Z :=
  let val := u64 val in
  [(val >> 56) .& 255; (val >> 48) .& 255; (val >> 40) .& 255; (val >> 32) .& 255; (val >> 24) .& 255;
   (val >> 16) .& 255; (val >> 8) .& 255; val .& 255].

(** lib/bitfields.h:120-132. A float/double is represented by its 32/64 bit pattern; the
    reinterpret_cast in htobd is to uint32_t*, which on a little endian machine reads the low
    half of the pattern (on x86/ARM little endian, the supported targets). *)
Definition btohf (p : list Z) : Z := btohl p.
Definition htobf (pat : Z) : list Z := htobl pat.
Definition btohd (p : list Z) : Z := btohll p.
Definition htobd (pat : Z) : list Z := htobll (u32 pat).

(** lib/bitfields.h:135-185, little endian. *)
Definition btohs_le (p : list Z) : Z := u16 ((nthz p 1 << 8) .| nthz p 0).
Definition htobs_le (val : Z) : list Z := let val := u16 val in [val .& 255; (val >> 8) .& 255].
Definition btohl_le (p : list Z) : Z :=
  (nthz p 3 << 24) .| (nthz p 2 << 16) .| (nthz p 1 << 8) .| nthz p 0.
Definition htobl_le (val : Z) : list Z :=
  let val := u64 val in [val .& 255; (val >> 8) .& 255; (val >> 16) .& 255; (val >> 24) .& 255].
Definition btoh24_le (p : list Z) : Z := (nthz p 2 << 16) .| (nthz p 1 << 8) .| nthz p 0.
Definition htob24_le (val : Z) : list Z :=
  let val := u64 val in [val .& 255; (val >> 8) .& 255; (val >> 16) .& 255].
Definition btohll_le (p : list Z) : Z :=
  u64 ((nthz p 7 << 56) .| (nthz p 6 << 48) .| (nthz p 5 << 40) .| (nthz p 4 << 32)
       .| (nthz p 3 << 24) .| (nthz p 2 << 16) .| (nthz p 1 << 8) .| nthz p 0).
Definition htobll_le (val : Z) : list Z :=
  let val := u64 val in
  [val .& 255; (val >> 8) .& 255; (val >> 16) .& 255; (val >> 24) .& 255; (val >> 32) .& 255;
   (val >> 40) .& 255; (val >> 48) .& 255; (val >> 56) .& 255].

(** lib/bitfields.cpp:15-29: the loop of getMSB. [None]: read outside of the buffer. The fuel
    is dataBits: every iteration consumes at least one bit. *)
Fixpoint getMSB_loop (fuel : nat) (p : list Z) (ptr offsetBits dataBits retVal : Z) : option Z :=
  match fuel with
  | O => Some retVal
  | S k =>
      if dataBits =? 0 then Some retVal
      else
        let curBits := if 8 - offsetBits >? dataBits then dataBits else 8 - offsetBits in
        match rd p ptr with
        | None => None
        | Some b =>
            let retVal := u64 (retVal << curBits) in
            let retVal := u64 (retVal .| ((b << offsetBits) >> (8 - curBits))) in
            getMSB_loop k p (ptr + 1) 0 (dataBits - curBits) retVal
        end
  end.
(** lib/bitfields.cpp:8-31 Bit::getMSB. *)
Definition getMSB (p : list Z) (offsetBits dataBits : Z) : option Z :=
  getMSB_loop (Z.to_nat dataBits) p (offsetBits >> 3) (offsetBits .& 7) dataBits 0.

(** lib/bitfields.cpp:45-59: the loop of setMSB. [None]: access outside of the buffer. The first
    iteration may consume 0 bits (offsetBits = 0), hence fuel dataBits + 1. Stores truncate to char. *)
Fixpoint setMSB_loop (fuel : nat) (p : list Z) (ptr offsetBits dataBits value : Z) : option (list Z) :=
  match fuel with
  | O => Some p
  | S k =>
      if dataBits =? 0 then Some p
      else
        let curBits := if offsetBits >? dataBits then dataBits else offsetBits in
        match rd p ptr with
        | None => None
        | Some b =>
            let b' := u8 (((b << offsetBits) >> offsetBits) .| ((value .& 255) << (8 - offsetBits))) in
            setMSB_loop k (splice p ptr [b']) (ptr - 1) 8 (dataBits - curBits) (value >> offsetBits)
        end
  end.
(** lib/bitfields.cpp:38-60 Bit::setMSB. *)
Definition setMSB (p : list Z) (offsetBits dataBits value : Z) : option (list Z) :=
  setMSB_loop (Z.to_nat (dataBits + 1)) p ((offsetBits + dataBits) >> 3) ((offsetBits + dataBits) .& 7) dataBits (u64 value).

(** isspace and tolower in the "C" locale. *)
Definition isspace (c : Z) : bool := (c =? 32) || ((9 <=? c) && (c <=? 13)).
Definition tolower (c : Z) : Z := if (65 <=? c) && (c <=? 90) then c + 32 else c.

(** lib/bitfields.cpp:68-70: the first four non-blank characters, lower case. *)
Fixpoint stb_collect (l : list Z) (n : nat) : list Z :=
  match l, n with
  | [], _ => []
  | _, O => []
  | c :: r, S k => if isspace c then stb_collect r n else tolower c :: stb_collect r k
  end.
(** strncmp(tmp.c_str(), lit, strlen(lit)) == 0. c_str() ends at the first NUL byte; none of the
    literals contains one, so the comparison is "lit is a prefix". *)
Fixpoint prefixb (a b : list Z) : bool :=
  match a, b with
  | [], _ => true
  | x :: a', y :: b' => (x =? y) && prefixb a' b'
  | _ :: _, [] => false
  end.
(** lib/bitfields.cpp:65-73 Util::stringToBool. *)
Definition stringToBool (s : list Z) : bool :=
  let tmp := stb_collect s 4 in
  prefixb (bs "1") tmp || prefixb (bs "yes") tmp || prefixb (bs "true") tmp || prefixb (bs "cont") tmp.
