(** Model of the digests and of HMAC in lib/auth.cpp.
    [char] is unsigned (meson.build:2), so a loaded byte is 0..255 and promotes to a non-negative int;
    the shift by 24 of MD5's word load is defined for it (C++14 and later) and its value is taken
    modulo 2^32 by the assignment to uint32_t. A caller's string is a list of bytes; local arrays start with
    indeterminate contents, which the models take as the argument [junk]. *)
From Verif Require Import Common.

Definition upto (n : nat) : list Z := map Z.of_nat (seq 0 n).

(** memset(p + i, v, n) on a local array (lib/auth.cpp:117,121,236,240,406,410). *)
Definition memset (buf : list Z) (i v n : Z) : list Z := splice buf i (repeat v (Z.to_nat n)).

(** lib/auth.cpp:51-54, [shift]. *)
Definition md5_shift : list Z :=
  [ 7; 12; 17; 22; 7; 12; 17; 22; 7; 12; 17; 22; 7; 12; 17; 22
   ; 5; 9; 14; 20; 5; 9; 14; 20; 5; 9; 14; 20; 5; 9; 14; 20
   ; 4; 11; 16; 23; 4; 11; 16; 23; 4; 11; 16; 23; 4; 11; 16; 23
   ; 6; 10; 15; 21; 6; 10; 15; 21; 6; 10; 15; 21; 6; 10; 15; 21 ].

(** lib/auth.cpp:55-65, [K]. *)
Definition md5_K : list Z :=
  [ 0xd76aa478; 0xe8c7b756; 0x242070db; 0xc1bdceee; 0xf57c0faf; 0x4787c62a
   ; 0xa8304613; 0xfd469501; 0x698098d8; 0x8b44f7af; 0xffff5bb1; 0x895cd7be
   ; 0x6b901122; 0xfd987193; 0xa679438e; 0x49b40821; 0xf61e2562; 0xc040b340
   ; 0x265e5a51; 0xe9b6c7aa; 0xd62f105d; 0x02441453; 0xd8a1e681; 0xe7d3fbc8
   ; 0x21e1cde6; 0xc33707d6; 0xf4d50d87; 0x455a14ed; 0xa9e3e905; 0xfcefa3f8
   ; 0x676f02d9; 0x8d2a4c8a; 0xfffa3942; 0x8771f681; 0x6d9d6122; 0xfde5380c
   ; 0xa4beea44; 0x4bdecfa9; 0xf6bb4b60; 0xbebfbc70; 0x289b7ec6; 0xeaa127fa
   ; 0xd4ef3085; 0x04881d05; 0xd9d4d039; 0xe6db99e5; 0x1fa27cf8; 0xc4ac5665
   ; 0xf4292244; 0x432aff97; 0xab9423a7; 0xfc93a039; 0x655b59c3; 0x8f0ccc92
   ; 0xffeff47d; 0x85845dd1; 0x6fa87e4f; 0xfe2ce6e0; 0xa3014314; 0x4e0811a1
   ; 0xf7537e82; 0xbd3af235; 0x2ad7d2bb; 0xeb86d391 ].

(** lib/auth.cpp:46-50: the sixteen little endian words of a block. *)
Definition md5_word (data : list Z) (i : Z) : Z :=
  u32 (nthz data (i << 2) .| (nthz data ((i << 2) + 1) << 8) .| (nthz data ((i << 2) + 2) << 16)
       .| (nthz data ((i << 2) + 3) << 24)).

(** lib/auth.cpp:71-91: one turn of the loop; the registers are A, B, C, D. *)
Definition md5_turn (M : list Z) (r : Z * Z * Z * Z) (i : Z) : Z * Z * Z * Z :=
  let '(A, B, C, D) := r in
  let '(F, g) :=
    if i <? 16 then ((B .& C) .| (u32 (Z.lnot B) .& D), i)
    else if i <? 32 then ((D .& B) .| (u32 (Z.lnot D) .& C), (5 * i + 1) mod 16)
    else if i <? 48 then (Z.lxor (Z.lxor B C) D, (3 * i + 5) mod 16)
    else (Z.lxor C (B .| u32 (Z.lnot D)), (7 * i) mod 16) in
  let dTemp := D in
  let D := C in
  let C := B in
  let x := u32 (A + F + nthz md5_K i + nthz M g) in
  let B := u32 (B + (u32 (x << nthz md5_shift i) .| (x >> (32 - nthz md5_shift i)))) in
  let A := dTemp in
  (A, B, C, D).

(** lib/auth.cpp:43-96, [md5_add64]. *)
Definition md5_add64 (hash data : list Z) : list Z :=
  let M := map (md5_word data) (upto 16) in
  let '(A, B, C, D) :=
    fold_left (md5_turn M) (upto 64) (nthz hash 0, nthz hash 1, nthz hash 2, nthz hash 3) in
  [u32 (nthz hash 0 + A); u32 (nthz hash 1 + B); u32 (nthz hash 2 + C); u32 (nthz hash 3 + D)].

(** lib/auth.cpp:104-108, 223-227, 394-398: the loop over the whole blocks of the input, which leaves the
    hash and the offset of the first byte not consumed. [fuel] bounds the turns: the offset grows by
    [size] each time, so the input's length is enough. The offset is far below 2^64: it never
    exceeds the size of an object in memory. *)
Fixpoint feed (add : list Z -> list Z -> list Z) (size : Z) (fuel : nat) (hash input : list Z) (offset : Z)
  : list Z * Z :=
  match fuel with
  | O => (hash, offset)
  | S f => if offset + size <=? len input
           then feed add size f (add hash (takez size (dropz offset input))) input (offset + size)
           else (hash, offset)
  end.

(** lib/auth.cpp:99-153, [md5bin]; the last length byte is shifted by 54, as in the source. *)
Definition md5bin (junk input : list Z) : list Z :=
  let hash := [0x67452301; 0xefcdab89; 0x98badcfe; 0x10325476] in
  let '(hash, offset) := feed md5_add64 64 (List.length input) hash input 0 in
  let buffer := splice junk 0 (takez (len input - offset) (dropz offset input)) in
  let offset := len input - offset in
  let buffer := splice buffer offset [0x80] in
  let buffer := memset buffer (offset + 1) 0 (64 - offset - 1) in
  let '(hash, buffer) :=
    if offset >? 55 then (md5_add64 hash buffer, memset buffer 0 0 64) else (hash, buffer) in
  let bit_len := u64 (len input << 3) in
  let buffer := splice buffer 56 [(bit_len >> 0) .& 0xff] in
  let buffer := splice buffer 57 [(bit_len >> 8) .& 0xff] in
  let buffer := splice buffer 58 [(bit_len >> 16) .& 0xff] in
  let buffer := splice buffer 59 [(bit_len >> 24) .& 0xff] in
  let buffer := splice buffer 60 [(bit_len >> 32) .& 0xff] in
  let buffer := splice buffer 61 [(bit_len >> 40) .& 0xff] in
  let buffer := splice buffer 62 [(bit_len >> 48) .& 0xff] in
  let buffer := splice buffer 63 [(bit_len >> 54) .& 0xff] in
  let hash := md5_add64 hash buffer in
  flat_map (fun h => [(h >> 0) .& 0xff; (h >> 8) .& 0xff; (h >> 16) .& 0xff; (h >> 24) .& 0xff]) hash.

(** lib/auth.cpp:175-185, [k]. *)
Definition sha256_k : list Z :=
  [ 0x428a2f98; 0x71374491; 0xb5c0fbcf; 0xe9b5dba5; 0x3956c25b; 0x59f111f1
   ; 0x923f82a4; 0xab1c5ed5; 0xd807aa98; 0x12835b01; 0x243185be; 0x550c7dc3
   ; 0x72be5d74; 0x80deb1fe; 0x9bdc06a7; 0xc19bf174; 0xe49b69c1; 0xefbe4786
   ; 0x0fc19dc6; 0x240ca1cc; 0x2de92c6f; 0x4a7484aa; 0x5cb0a9dc; 0x76f988da
   ; 0x983e5152; 0xa831c66d; 0xb00327c8; 0xbf597fc7; 0xc6e00bf3; 0xd5a79147
   ; 0x06ca6351; 0x14292967; 0x27b70a85; 0x2e1b2138; 0x4d2c6dfc; 0x53380d13
   ; 0x650a7354; 0x766a0abb; 0x81c2c92e; 0x92722c85; 0xa2bfe8a1; 0xa81a664b
   ; 0xc24b8b70; 0xc76c51a3; 0xd192e819; 0xd6990624; 0xf40e3585; 0x106aa070
   ; 0x19a4c116; 0x1e376c08; 0x2748774c; 0x34b0bcb5; 0x391c0cb3; 0x4ed8aa4a
   ; 0x5b9cca4f; 0x682e6ff3; 0x748f82ee; 0x78a5636f; 0x84c87814; 0x8cc70208
   ; 0x90befffa; 0xa4506ceb; 0xbef9a3f7; 0xc67178f2 ].

(** lib/auth.cpp:161-164: the sixteen big endian words of a block. *)
Definition sha256_word (data : list Z) (i : Z) : Z :=
  nthz data ((i << 2) + 3) .| u32 (nthz data ((i << 2) + 2) << 8) .| u32 (nthz data ((i << 2) + 1) << 16)
  .| u32 (nthz data ((i << 2) + 0) << 24).

(** lib/auth.cpp:167, [rr]: its argument and its result are 64 bits wide. *)
Definition rr256 (x c : Z) : Z := u64 (x << (32 - c)) .| ((x .& 0xFFFFFFFF) >> c).

(** lib/auth.cpp:169-173: one turn of the loop that extends [w]; the array's later elements, not written yet,
    are left out of the list. *)
Definition sha256_extend (w : list Z) (i : Z) : list Z :=
  let s0 := u32 (Z.lxor (Z.lxor (rr256 (nthz w (i - 15)) 7) (rr256 (nthz w (i - 15)) 18))
                        ((nthz w (i - 15) .& 0xFFFFFFFF) >> 3)) in
  let s1 := u32 (Z.lxor (Z.lxor (rr256 (nthz w (i - 2)) 17) (rr256 (nthz w (i - 2)) 19))
                        ((nthz w (i - 2) .& 0xFFFFFFFF) >> 10)) in
  w ++ [u32 (nthz w (i - 16) + s0 + nthz w (i - 7) + s1)].

(** lib/auth.cpp:194-205: one turn of the compression loop; the registers are a..h. The sums contain a
    64 bit operand, so they are computed in uint64_t and then cut to uint32_t. *)
Definition sha256_turn (w : list Z) (r : Z * Z * Z * Z * Z * Z * Z * Z) (i : Z) : Z * Z * Z * Z * Z * Z * Z * Z :=
  let '(a, b, c, d, e, f, g, h) := r in
  let temp1 := u32 (u64 (h + Z.lxor (Z.lxor (rr256 e 6) (rr256 e 11)) (rr256 e 25)
                         + Z.lxor g (e .& Z.lxor f g) + nthz sha256_k i + nthz w i)) in
  let temp2 := u32 (u64 (Z.lxor (Z.lxor (rr256 a 2) (rr256 a 13)) (rr256 a 22)
                         + ((a .& b) .| (c .& (a .| b))))) in
  (u32 (temp1 + temp2), a, b, c, u32 (d + temp1), e, f, g).

(** lib/auth.cpp:158-214, [sha256_add64]. *)
Definition sha256_add64 (hash data : list Z) : list Z :=
  let w := fold_left sha256_extend (map (Z.add 16) (upto 48)) (map (sha256_word data) (upto 16)) in
  let '(a, b, c, d, e, f, g, h) :=
    fold_left (sha256_turn w) (upto 64)
      (nthz hash 0, nthz hash 1, nthz hash 2, nthz hash 3, nthz hash 4, nthz hash 5, nthz hash 6, nthz hash 7) in
  [u32 (nthz hash 0 + a); u32 (nthz hash 1 + b); u32 (nthz hash 2 + c); u32 (nthz hash 3 + d);
   u32 (nthz hash 4 + e); u32 (nthz hash 5 + f); u32 (nthz hash 6 + g); u32 (nthz hash 7 + h)].

(** lib/auth.cpp:218-291, [sha256bin]; the first length byte is shifted by 54, as in the source. The result's bytes,
    written one by one in the source, are listed in the order of their indices. *)
Definition sha256bin (junk input : list Z) : list Z :=
  let hash := [0x6a09e667; 0xbb67ae85; 0x3c6ef372; 0xa54ff53a; 0x510e527f; 0x9b05688c; 0x1f83d9ab; 0x5be0cd19] in
  let '(hash, offset) := feed sha256_add64 64 (List.length input) hash input 0 in
  let buffer := splice junk 0 (takez (len input - offset) (dropz offset input)) in
  let offset := len input - offset in
  let buffer := splice buffer offset [0x80] in
  let buffer := memset buffer (offset + 1) 0 (64 - offset - 1) in
  let '(hash, buffer) :=
    if offset >? 55 then (sha256_add64 hash buffer, memset buffer 0 0 64) else (hash, buffer) in
  let bit_len := u64 (len input << 3) in
  let buffer := splice buffer 56 [(bit_len >> 54) .& 0xff] in
  let buffer := splice buffer 57 [(bit_len >> 48) .& 0xff] in
  let buffer := splice buffer 58 [(bit_len >> 40) .& 0xff] in
  let buffer := splice buffer 59 [(bit_len >> 32) .& 0xff] in
  let buffer := splice buffer 60 [(bit_len >> 24) .& 0xff] in
  let buffer := splice buffer 61 [(bit_len >> 16) .& 0xff] in
  let buffer := splice buffer 62 [(bit_len >> 8) .& 0xff] in
  let buffer := splice buffer 63 [(bit_len >> 0) .& 0xff] in
  let hash := sha256_add64 hash buffer in
  flat_map (fun h => [(h >> 24) .& 0xff; (h >> 16) .& 0xff; (h >> 8) .& 0xff; h .& 0xff]) hash.

(** lib/auth.cpp:305-326, [k]. *)
Definition sha512_k : list Z :=
  [ 0x428a2f98d728ae22; 0x7137449123ef65cd; 0xb5c0fbcfec4d3b2f; 0xe9b5dba58189dbbc
   ; 0x3956c25bf348b538; 0x59f111f1b605d019; 0x923f82a4af194f9b; 0xab1c5ed5da6d8118
   ; 0xd807aa98a3030242; 0x12835b0145706fbe; 0x243185be4ee4b28c; 0x550c7dc3d5ffb4e2
   ; 0x72be5d74f27b896f; 0x80deb1fe3b1696b1; 0x9bdc06a725c71235; 0xc19bf174cf692694
   ; 0xe49b69c19ef14ad2; 0xefbe4786384f25e3; 0x0fc19dc68b8cd5b5; 0x240ca1cc77ac9c65
   ; 0x2de92c6f592b0275; 0x4a7484aa6ea6e483; 0x5cb0a9dcbd41fbd4; 0x76f988da831153b5
   ; 0x983e5152ee66dfab; 0xa831c66d2db43210; 0xb00327c898fb213f; 0xbf597fc7beef0ee4
   ; 0xc6e00bf33da88fc2; 0xd5a79147930aa725; 0x06ca6351e003826f; 0x142929670a0e6e70
   ; 0x27b70a8546d22ffc; 0x2e1b21385c26c926; 0x4d2c6dfc5ac42aed; 0x53380d139d95b3df
   ; 0x650a73548baf63de; 0x766a0abb3c77b2a8; 0x81c2c92e47edaee6; 0x92722c851482353b
   ; 0xa2bfe8a14cf10364; 0xa81a664bbc423001; 0xc24b8b70d0f89791; 0xc76c51a30654be30
   ; 0xd192e819d6ef5218; 0xd69906245565a910; 0xf40e35855771202a; 0x106aa07032bbd1b8
   ; 0x19a4c116b8d2d0c8; 0x1e376c085141ab53; 0x2748774cdf8eeb99; 0x34b0bcb5e19b48a8
   ; 0x391c0cb3c5c95a63; 0x4ed8aa4ae3418acb; 0x5b9cca4f7763e373; 0x682e6ff3d6b2b8a3
   ; 0x748f82ee5defb2fc; 0x78a5636f43172f60; 0x84c87814a1f0ab72; 0x8cc702081a6439ec
   ; 0x90befffa23631e28; 0xa4506cebde82bde9; 0xbef9a3f7b2c67915; 0xc67178f2e372532b
   ; 0xca273eceea26619c; 0xd186b8c721c0c207; 0xeada7dd6cde0eb1e; 0xf57d4f7fee6ed178
   ; 0x06f067aa72176fba; 0x0a637dc5a2c898a6; 0x113f9804bef90dae; 0x1b710b35131c471b
   ; 0x28db77f523047d84; 0x32caab7b40c72493; 0x3c9ebe0a15c9bebc; 0x431d67c49c100d4c
   ; 0x4cc5d4becb3e42b6; 0x597f299cfc657e2a; 0x5fcb6fab3ad6faec; 0x6c44198c4a475817 ].

(** lib/auth.cpp:292-295: the sixteen big endian words of a block. *)
Definition sha512_word (data : list Z) (i : Z) : Z :=
  fold_left (fun w j => w .| u64 (nthz data (i * 8 + j) << ((7 - j) * 8))) (upto 8) 0.

(** lib/auth.cpp:297, [rr]. *)
Definition rr512 (x c : Z) : Z := (x >> c) .| u64 (x << (64 - c)).

(** lib/auth.cpp:299-303. *)
Definition sha512_extend (w : list Z) (i : Z) : list Z :=
  let s0 := Z.lxor (Z.lxor (rr512 (nthz w (i - 15)) 1) (rr512 (nthz w (i - 15)) 8)) (nthz w (i - 15) >> 7) in
  let s1 := Z.lxor (Z.lxor (rr512 (nthz w (i - 2)) 19) (rr512 (nthz w (i - 2)) 61)) (nthz w (i - 2) >> 6) in
  w ++ [u64 (nthz w (i - 16) + s0 + nthz w (i - 7) + s1)].

(** lib/auth.cpp:330-346. *)
Definition sha512_turn (w : list Z) (r : Z * Z * Z * Z * Z * Z * Z * Z) (i : Z) : Z * Z * Z * Z * Z * Z * Z * Z :=
  let '(a, b, c, d, e, f, g, h) := r in
  let s1 := Z.lxor (Z.lxor (rr512 e 14) (rr512 e 18)) (rr512 e 41) in
  let ch := Z.lxor (e .& f) (u64 (Z.lnot e) .& g) in
  let temp1 := u64 (h + s1 + ch + nthz sha512_k i + nthz w i) in
  let s0 := Z.lxor (Z.lxor (rr512 a 28) (rr512 a 34)) (rr512 a 39) in
  let maj := Z.lxor (Z.lxor (a .& b) (a .& c)) (b .& c) in
  let temp2 := u64 (s0 + maj) in
  (u64 (temp1 + temp2), a, b, c, u64 (d + temp1), e, f, g).

(** lib/auth.cpp:289-356, [sha512_add128]. *)
Definition sha512_add128 (hash data : list Z) : list Z :=
  let w := fold_left sha512_extend (map (Z.add 16) (upto 64)) (map (sha512_word data) (upto 16)) in
  let '(a, b, c, d, e, f, g, h) :=
    fold_left (sha512_turn w) (upto 80)
      (nthz hash 0, nthz hash 1, nthz hash 2, nthz hash 3, nthz hash 4, nthz hash 5, nthz hash 6, nthz hash 7) in
  [u64 (nthz hash 0 + a); u64 (nthz hash 1 + b); u64 (nthz hash 2 + c); u64 (nthz hash 3 + d);
   u64 (nthz hash 4 + e); u64 (nthz hash 5 + f); u64 (nthz hash 6 + g); u64 (nthz hash 7 + h)].

(** lib/auth.cpp:370-427, [sha512bin] with its flag; its buffer is zero initialised (400). *)
Definition sha512bin' (input : list Z) (is384 : bool) : list Z :=
  let hash :=
    if is384
    then [0xcbbb9d5dc1059ed8; 0x629a292a367cd507; 0x9159015a3070dd17; 0x152fecd8f70e5939;
          0x67332667ffc00b31; 0x8eb44a8768581511; 0xdb0c2e0d64f98fa7; 0x47b5481dbefa4fa4]
    else [0x6a09e667f3bcc908; 0xbb67ae8584caa73b; 0x3c6ef372fe94f82b; 0xa54ff53a5f1d36f1;
          0x510e527fade682d1; 0x9b05688c2b3e6c1f; 0x1f83d9abfb41bd6b; 0x5be0cd19137e2179] in
  let '(hash, offset) := feed sha512_add128 128 (List.length input) hash input 0 in
  let buffer := repeat 0 128 in
  let buffer := splice buffer 0 (takez (len input - offset) (dropz offset input)) in
  let offset := len input - offset in
  let buffer := splice buffer offset [0x80] in
  let buffer := memset buffer (offset + 1) 0 (128 - offset - 1) in
  let '(hash, buffer) :=
    if offset >? 111 then (sha512_add128 hash buffer, memset buffer 0 0 128) else (hash, buffer) in
  let low := u64 (len input * 8) in
  let high := 0 in
  let buffer := fold_left (fun b i => splice b (112 + i) [(high >> (56 - i * 8)) .& 0xff]) (upto 8) buffer in
  let buffer := fold_left (fun b i => splice b (120 + i) [(low >> (56 - i * 8)) .& 0xff]) (upto 8) buffer in
  let hash := sha512_add128 hash buffer in
  let out_bytes := if is384 then 6%nat else 8%nat in
  flat_map (fun i => map (fun j => (nthz hash i >> (56 - j * 8)) .& 0xff) (upto 8)) (upto out_bytes).

(** lib/auth.cpp:359-366, [sha384bin] and [sha512bin] as handed to HMAC. *)
Definition sha384bin (input : list Z) : list Z := sha512bin' input true.
Definition sha512bin (input : list Z) : list Z := sha512bin' input false.

(** std::hex << std::setw(2) << std::setfill('0') << (size_t)(c & 0xff) (lib/auth.cpp:21,34,463): the
    digits of the number, most significant first, padded on the left to two characters. *)
Definition hexdigit (n : Z) : Z := if n <? 10 then 48 + n else 87 + n.
Definition hex2 (c : Z) : list Z :=
  let n := c .& 0xff in
  if n <? 16 then [48; hexdigit n] else [hexdigit (n / 16); hexdigit (n mod 16)].

(** lib/auth.cpp:16-24, [md5]; lib/auth.cpp:30-38, [sha256]. *)
Definition md5 (junk input : list Z) : list Z := flat_map hex2 (md5bin junk input).
Definition sha256 (junk input : list Z) : list Z := flat_map hex2 (sha256bin junk input).

(** lib/auth.cpp:472-497, [hmacbin]. The key buffer and the inner and outer buffers are local arrays of
    blockSize, blockSize + msg_len and blockSize + hashSize bytes; each is filled completely. *)
Definition hmacbin (hasher : list Z -> list Z) (hashSize blockSize : Z) (kjunk msg key : list Z) : list Z :=
  let key_data :=
    if len key >? blockSize
    then memset (splice kjunk 0 (hasher key)) hashSize 0 (blockSize - hashSize)
    else memset (splice kjunk 0 key) (len key) 0 (blockSize - len key) in
  let inner := map (fun b => Z.lxor b 0x36) key_data in
  let outer := map (fun b => Z.lxor b 0x5c) key_data in
  hasher (outer ++ hasher (inner ++ msg)).

(** lib/auth.cpp:457-467, [hmac]: the digest in hexadecimal. *)
Definition hmac (hasher : list Z -> list Z) (hashSize blockSize : Z) (kjunk msg key : list Z) : list Z :=
  flat_map hex2 (hmacbin hasher hashSize blockSize kjunk msg key).

(** lib/auth.h:7-8, [SHA]. *)
Inductive sha := SHA256 | SHA384 | SHA512.

(** lib/auth.cpp:430-436, [shabin]. *)
Definition shabin (alg : sha) (junk input : list Z) : list Z :=
  match alg with SHA256 => sha256bin junk input | SHA384 => sha384bin input | SHA512 => sha512bin input end.

(** lib/auth.cpp:515-521, [hmac_shabin]. *)
Definition hmac_shabin (alg : sha) (junk kjunk msg key : list Z) : list Z :=
  match alg with
  | SHA256 => hmacbin (sha256bin junk) 32 64 kjunk msg key
  | SHA384 => hmacbin sha384bin 48 128 kjunk msg key
  | SHA512 => hmacbin sha512bin 64 128 kjunk msg key
  end.

(** lib/auth.cpp:505-512, [hmac_sha]. *)
Definition hmac_sha (alg : sha) (junk kjunk msg key : list Z) : list Z :=
  match alg with
  | SHA256 => hmac (sha256bin junk) 32 64 kjunk msg key
  | SHA384 => hmac sha384bin 48 128 kjunk msg key
  | SHA512 => hmac sha512bin 64 128 kjunk msg key
  end.
