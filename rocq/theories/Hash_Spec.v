(** The published digests, independent of the code: MD5 (RFC 1321), SHA-256, SHA-384 and SHA-512
    (FIPS 180-4) and HMAC (RFC 2104). *)
From Verif Require Import Common.

(** ** Padding and blocks
    A one bit, then as few zero bits as make the total a multiple of the block size, counting
    the length field that ends the last block (RFC 1321 3.1 and 3.2, FIPS 180-4 5.1). *)
Definition pad (block : Z) (field : list Z) (m : list Z) : list Z :=
  m ++ [128] ++ repeat 0 (Z.to_nat ((- (len m + 1 + len field)) mod block)) ++ field.

Fixpoint cut (n : nat) (fuel : nat) (l : list Z) : list (list Z) :=
  match fuel, l with
  | S f, _ :: _ => firstn n l :: cut n f (skipn n l)
  | _, _ => []
  end.
(** The consecutive blocks of [n] bytes of a string. *)
Definition blocks (n : nat) (l : list Z) : list (list Z) := cut n (List.length l) l.

(** ** Words *)
Definition rotl (w n x : Z) : Z := (x * 2 ^ n) mod 2 ^ w + x / 2 ^ (w - n).
Definition rotr (w n x : Z) : Z := Z.lor (x / 2 ^ n) ((x * 2 ^ (w - n)) mod 2 ^ w).
Definition compl (w x : Z) : Z := 2 ^ w - 1 - x.
Definition add32 (l : list Z) : Z := fold_right Z.add 0 l mod 2 ^ 32.
Definition xor3 (a b c : Z) : Z := Z.lxor a (Z.lxor b c).

(** ** MD5, RFC 1321 section 3.4 *)
Definition T : list Z :=
  (* T[i] is the integer part of 4294967296 times abs(sin(i)), i in radians, 1 <= i <= 64 *)
  [ 3614090360; 3905402710; 606105819; 3250441966; 4118548399; 1200080426
   ; 2821735955; 4249261313; 1770035416; 2336552879; 4294925233; 2304563134
   ; 1804603682; 4254626195; 2792965006; 1236535329; 4129170786; 3225465664
   ; 643717713; 3921069994; 3593408605; 38016083; 3634488961; 3889429448
   ; 568446438; 3275163606; 4107603335; 1163531501; 2850285829; 4243563512
   ; 1735328473; 2368359562; 4294588738; 2272392833; 1839030562; 4259657740
   ; 2763975236; 1272893353; 4139469664; 3200236656; 681279174; 3936430074
   ; 3572445317; 76029189; 3654602809; 3873151461; 530742520; 3299628645
   ; 4096336452; 1126891415; 2878612391; 4237533241; 1700485571; 2399980690
   ; 4293915773; 2240044497; 1873313359; 4264355552; 2734768916; 1309151649
   ; 4149444226; 3174756917; 718787259; 3951481745 ].
Definition fF x y z := Z.lor (Z.land x y) (Z.land (compl 32 x) z).
Definition fG x y z := Z.lor (Z.land x z) (Z.land y (compl 32 z)).
Definition fH x y z := Z.lxor x (Z.lxor y z).
Definition fI x y z := Z.lxor y (Z.lor x (compl 32 z)).

(** The operations of the four rounds, each [(function, k, s)], as listed in the RFC. *)
Definition rounds : list ((Z -> Z -> Z -> Z) * Z * Z) :=
  [ (fF, 0, 7); (fF, 1, 12); (fF, 2, 17); (fF, 3, 22);  (fF, 4, 7); (fF, 5, 12); (fF, 6, 17); (fF, 7, 22);
    (fF, 8, 7); (fF, 9, 12); (fF, 10, 17); (fF, 11, 22);  (fF, 12, 7); (fF, 13, 12); (fF, 14, 17); (fF, 15, 22);
    (fG, 1, 5); (fG, 6, 9); (fG, 11, 14); (fG, 0, 20);  (fG, 5, 5); (fG, 10, 9); (fG, 15, 14); (fG, 4, 20);
    (fG, 9, 5); (fG, 14, 9); (fG, 3, 14); (fG, 8, 20);  (fG, 13, 5); (fG, 2, 9); (fG, 7, 14); (fG, 12, 20);
    (fH, 5, 4); (fH, 8, 11); (fH, 11, 16); (fH, 14, 23);  (fH, 1, 4); (fH, 4, 11); (fH, 7, 16); (fH, 10, 23);
    (fH, 13, 4); (fH, 0, 11); (fH, 3, 16); (fH, 6, 23);  (fH, 9, 4); (fH, 12, 11); (fH, 15, 16); (fH, 2, 23);
    (fI, 0, 6); (fI, 7, 10); (fI, 14, 15); (fI, 5, 21);  (fI, 12, 6); (fI, 3, 10); (fI, 10, 15); (fI, 1, 21);
    (fI, 8, 6); (fI, 15, 10); (fI, 6, 15); (fI, 13, 21);  (fI, 4, 6); (fI, 11, 10); (fI, 2, 15); (fI, 9, 21) ].

(** a = b + ((a + f(b,c,d) + X[k] + T[i]) <<< s) *)
Definition op f (X : list Z) (k s t a b c d : Z) : Z :=
  add32 [b; rotl 32 s (add32 [a; f b c d; nthz X k; t])].

(** The registers named by the operations rotate: ABCD, DABC, CDAB, BCDA, and again. *)
Fixpoint ops (X : list Z) (l : list ((Z -> Z -> Z -> Z) * Z * Z)) (t : list Z) (A B C D : Z) : Z * Z * Z * Z :=
  match l, t with
  | (f1, k1, s1) :: (f2, k2, s2) :: (f3, k3, s3) :: (f4, k4, s4) :: l', t1 :: t2 :: t3 :: t4 :: t' =>
    let A := op f1 X k1 s1 t1 A B C D in
    let D := op f2 X k2 s2 t2 D A B C in
    let C := op f3 X k3 s3 t3 C D A B in
    let B := op f4 X k4 s4 t4 B C D A in
    ops X l' t' A B C D
  | _, _ => (A, B, C, D)
  end.

Definition md5_block (s : Z * Z * Z * Z) (b : list Z) : Z * Z * Z * Z :=
  let '(A, B, C, D) := s in
  let '(A', B', C', D') := ops (map unle (blocks 4 b)) rounds T A B C D in
  (add32 [A'; A], add32 [B'; B], add32 [C'; C], add32 [D'; D]).

(** word A: 01 23 45 67, word B: 89 ab cd ef, word C: fe dc ba 98, word D: 76 54 32 10, low bytes first. *)
Definition md5_spec (m : list Z) : list Z :=
  let '(A, B, C, D) :=
    fold_left md5_block (blocks 64 (pad 64 (le 8 (8 * len m)) m))
      (unle [0x01; 0x23; 0x45; 0x67], unle [0x89; 0xab; 0xcd; 0xef],
       unle [0xfe; 0xdc; 0xba; 0x98], unle [0x76; 0x54; 0x32; 0x10]) in
  le 4 A ++ le 4 B ++ le 4 C ++ le 4 D.

(** ** SHA-2, FIPS 180-4 *)
Definition is_prime (n : Z) : bool :=
  (2 <=? n) && forallb (fun d => negb ((d * d <=? n) && (n mod d =? 0))) (map Z.of_nat (seq 2 19)).
(** The primes below 421 in order: the eightieth is 409. *)
Definition primes : list Z := filter is_prime (map Z.of_nat (seq 0 420)).

(** The largest [r] below 2^n with r * r * r <= x, one bit at a time. *)
Fixpoint cbrt_bits (n : nat) (x r : Z) : Z :=
  match n with
  | O => r
  | S k => let r' := r + 2 ^ Z.of_nat k in cbrt_bits k x (if r' * r' * r' <=? x then r' else r)
  end.
(** The first [w] bits of the fractional part of the cube root and of the square root of [p]. *)
Definition cbrt_frac (w p : Z) : Z := cbrt_bits (Z.to_nat w + 3) (p * 2 ^ (3 * w)) 0 mod 2 ^ w.
Definition sqrt_frac (w p : Z) : Z := Z.sqrt (p * 2 ^ (2 * w)) mod 2 ^ w.

(** What differs between the two word sizes (4.1.2, 4.1.3, 4.2.2, 4.2.3, 6.2, 6.4). *)
Record variant := { wbits : Z; turns : nat; S0 : Z * Z * Z; S1 : Z * Z * Z; s0 : Z * Z * Z; s1 : Z * Z * Z }.
Definition V32 : variant :=
  {| wbits := 32; turns := 64; S0 := (2, 13, 22); S1 := (6, 11, 25); s0 := (7, 18, 3); s1 := (17, 19, 10) |}.
Definition V64 : variant :=
  {| wbits := 64; turns := 80; S0 := (28, 34, 39); S1 := (14, 18, 41); s0 := (1, 8, 7); s1 := (19, 61, 6) |}.

Section Sha2.
  Variable v : variant.
  Let w := wbits v.
  Definition K : list Z := map (cbrt_frac w) (firstn (turns v) primes).
  Definition add (l : list Z) : Z := fold_right Z.add 0 l mod 2 ^ w.
  Definition Ch x y z := Z.lxor (Z.land x y) (Z.land (compl w x) z).
  Definition Maj x y z := xor3 (Z.land x y) (Z.land x z) (Z.land y z).
  Definition big (n : Z * Z * Z) x := let '(a, b, c) := n in xor3 (rotr w a x) (rotr w b x) (rotr w c x).
  Definition small (n : Z * Z * Z) x := let '(a, b, c) := n in xor3 (rotr w a x) (rotr w b x) (x / 2 ^ c).

  (** The message schedule: [n] words after the sixteen of the block. *)
  Fixpoint schedule (n : nat) (M : list Z) : list Z :=
    match n with
    | O => M
    | S k =>
      let W := schedule k M in
      let t := 16 + Z.of_nat k in
      W ++ [add [small (s1 v) (nthz W (t - 2)); nthz W (t - 7); small (s0 v) (nthz W (t - 15)); nthz W (t - 16)]]
    end.

  Fixpoint compress (kw : list (Z * Z)) (a b c d e f g h : Z) : list Z :=
    match kw with
    | [] => [a; b; c; d; e; f; g; h]
    | (k, x) :: r =>
      let T1 := add [h; big (S1 v) e; Ch e f g; k; x] in
      let T2 := add [big (S0 v) a; Maj a b c] in
      compress r (add [T1; T2]) a b c (add [d; T1]) e f g
    end.

  Definition sha_block (s : list Z) (b : list Z) : list Z :=
    let M := map unbe (blocks (Z.to_nat (w / 8)) b) in
    let W := schedule (turns v - 16) M in
    match s with
    | [a; b; c; d; e; f; g; h] =>
      map (fun p => add [fst p; snd p]) (combine (compress (combine K W) a b c d e f g h) s)
    | _ => s
    end.

  (** The digest as eight words. *)
  Definition sha_words (init : list Z) (m : list Z) : list Z :=
    let n := 2 * w in
    fold_left sha_block (blocks (Z.to_nat n) (pad n (be (Z.to_nat (w / 4)) (8 * len m)) m)) init.
End Sha2.

(** Initial values (5.3.3-5.3.5): square roots of the first eight primes, and for SHA-384 of the ninth
    to the sixteenth. *)
Definition sha256_spec (m : list Z) : list Z :=
  flat_map (be 4) (sha_words V32 (map (sqrt_frac 32) (firstn 8 primes)) m).
Definition sha512_spec (m : list Z) : list Z :=
  flat_map (be 8) (sha_words V64 (map (sqrt_frac 64) (firstn 8 primes)) m).
Definition sha384_spec (m : list Z) : list Z :=
  firstn 48 (flat_map (be 8) (sha_words V64 (map (sqrt_frac 64) (firstn 8 (skipn 8 primes))) m)).

(** ** HMAC, RFC 2104: H(K xor opad, H(K xor ipad, text)), with keys longer than [block] hashed first and keys
    shorter than [block] extended with zeros. *)
Definition hmac_spec (hash : list Z -> list Z) (block : nat) (key text : list Z) : list Z :=
  let k := if (block <? List.length key)%nat then hash key else key in
  let k := k ++ repeat 0 (block - List.length k) in
  hash (map (Z.lxor 0x5c) k ++ hash (map (Z.lxor 0x36) k ++ text)).

(** Lower case hexadecimal text, two characters for each byte. *)
Definition hex (l : list Z) : list Z :=
  flat_map (fun b => [nthz (bs "0123456789abcdef") (b / 16); nthz (bs "0123456789abcdef") (b mod 16)]) l.
