(** SHA-256, HMAC-SHA-256, MD5 and base64: concrete versions of the external crates
    [sha2], [hmac], [md-5] and [base64-simd] called by /repo/src/utils/crypto.rs and
    /repo/src/storages/fs.rs.  Definitions only; conformance vectors are in T_Vectors.v. *)
From Verif Require Export M_Base.
Local Open Scope N_scope.

(* 32-bit words of the digest algorithms; used by [Sha256], /repo/src/utils/crypto.rs:22,34
   and [Md5], /repo/src/storages/fs.rs:125. *)
Definition w32 (x : N) : N := N.land x 4294967295.
(* 32-bit addition of the same algorithms. *)
Definition add32 (x y : N) : N := w32 (x + y).
(* 32-bit complement of the same algorithms. *)
Definition not32 (x : N) : N := N.lxor x 4294967295.
(* Rotations and shifts of the same algorithms. *)
Definition rotr (n x : N) : N := w32 (N.lor (N.shiftr x n) (N.shiftl x (32 - n))).
Definition rotl (n x : N) : N := w32 (N.lor (N.shiftl x n) (N.shiftr x (32 - n))).

(* FIPS 180-4 functions of SHA-256, called through /repo/src/utils/crypto.rs:22. *)
Definition ch (x y z : N) : N := N.lxor (N.land x y) (N.land (not32 x) z).
Definition maj (x y z : N) : N := N.lxor (N.lxor (N.land x y) (N.land x z)) (N.land y z).
Definition bsig0 (x : N) : N := N.lxor (N.lxor (rotr 2 x) (rotr 13 x)) (rotr 22 x).
Definition bsig1 (x : N) : N := N.lxor (N.lxor (rotr 6 x) (rotr 11 x)) (rotr 25 x).
Definition ssig0 (x : N) : N := N.lxor (N.lxor (rotr 7 x) (rotr 18 x)) (N.shiftr x 3).
Definition ssig1 (x : N) : N := N.lxor (N.lxor (rotr 17 x) (rotr 19 x)) (N.shiftr x 10).

(* SHA-256 round constants, /repo/src/utils/crypto.rs:22. *)
Definition sha_k : list N :=
 [0x428a2f98; 0x71374491; 0xb5c0fbcf; 0xe9b5dba5; 0x3956c25b; 0x59f111f1; 0x923f82a4; 0xab1c5ed5;
  0xd807aa98; 0x12835b01; 0x243185be; 0x550c7dc3; 0x72be5d74; 0x80deb1fe; 0x9bdc06a7; 0xc19bf174;
  0xe49b69c1; 0xefbe4786; 0x0fc19dc6; 0x240ca1cc; 0x2de92c6f; 0x4a7484aa; 0x5cb0a9dc; 0x76f988da;
  0x983e5152; 0xa831c66d; 0xb00327c8; 0xbf597fc7; 0xc6e00bf3; 0xd5a79147; 0x06ca6351; 0x14292967;
  0x27b70a85; 0x2e1b2138; 0x4d2c6dfc; 0x53380d13; 0x650a7354; 0x766a0abb; 0x81c2c92e; 0x92722c85;
  0xa2bfe8a1; 0xa81a664b; 0xc24b8b70; 0xc76c51a3; 0xd192e819; 0xd6990624; 0xf40e3585; 0x106aa070;
  0x19a4c116; 0x1e376c08; 0x2748774c; 0x34b0bcb5; 0x391c0cb3; 0x4ed8aa4a; 0x5b9cca4f; 0x682e6ff3;
  0x748f82ee; 0x78a5636f; 0x84c87814; 0x8cc70208; 0x90befffa; 0xa4506ceb; 0xbef9a3f7; 0xc67178f2].

(* SHA-256 initial state, /repo/src/utils/crypto.rs:22. *)
Definition sha_h0 : list N :=
 [0x6a09e667; 0xbb67ae85; 0x3c6ef372; 0xa54ff53a; 0x510e527f; 0x9b05688c; 0x1f83d9ab; 0x5be0cd19].

(* Split into groups of [n] (the last one may be shorter); [fuel] bounds the number of
   groups by the length.  Block splitting of the digests. *)
Fixpoint chunks_of (fuel n : nat) {A} (l : list A) : list (list A) :=
  match fuel, l with
  | O, _ => []
  | _, [] => []
  | S f, _ => take n l :: chunks_of f n (drop n l)
  end.

(* Big-endian word of four bytes (SHA-256). *)
Definition be32 (l : bytes) : N := fold_left (fun n a => n * 256 + code a) l 0.
(* Little-endian word of four bytes (MD5). *)
Definition le32 (l : bytes) : N := fold_right (fun a n => n * 256 + code a) 0 l.

(* [n] bytes of a number, big-endian (SHA-256 output and length field). *)
Fixpoint be_bytes (n : nat) (x : N) : bytes :=
  match n with
  | O => []
  | S n' => ascii_of_N (N.land (N.shiftr x (8 * N.of_nat n')) 255) :: be_bytes n' x
  end.
(* [n] bytes of a number, little-endian (MD5 output and length field). *)
Fixpoint le_bytes (n : nat) (x : N) : bytes :=
  match n with
  | O => []
  | S n' => ascii_of_N (N.land x 255) :: le_bytes n' (N.shiftr x 8)
  end.

(* Padding to a multiple of 64 bytes: 0x80, zeros, 64-bit length in bits. *)
Definition pad_zeros (len : N) : nat := N.to_nat ((119 - len mod 64) mod 64).
Definition sha_pad (l : bytes) : bytes :=
  let len := N.of_nat (length l) in
  l ++ [ascii_of_N 128] ++ replicate (pad_zeros len) (ascii_of_N 0) ++ be_bytes 8 (8 * len).
Definition md5_pad (l : bytes) : bytes :=
  let len := N.of_nat (length l) in
  l ++ [ascii_of_N 128] ++ replicate (pad_zeros len) (ascii_of_N 0) ++ le_bytes 8 (8 * len).

(* SHA-256 message schedule: the list holds the last 16 words, newest first. *)
Fixpoint sha_schedule (n : nat) (win : list N) : list N :=
  match n with
  | O => []
  | S n' =>
      match win with
      | [w15; w14; w13; w12; w11; w10; w9; w8; w7; w6; w5; w4; w3; w2; w1; w0] =>
          let w := add32 (add32 (ssig1 w14) w9) (add32 (ssig0 w1) w0) in
          w :: sha_schedule n' [w; w15; w14; w13; w12; w11; w10; w9; w8; w7; w6; w5; w4; w3; w2; w1]
      | _ => []
      end
  end.

(* One SHA-256 round. *)
Definition sha_round (st : list N) (kw : N * N) : list N :=
  match st with
  | [a; b; c; d; e; f; g; h] =>
      let t1 := add32 (add32 (add32 h (bsig1 e)) (add32 (ch e f g) kw.1)) kw.2 in
      let t2 := add32 (bsig0 a) (maj a b c) in
      [add32 t1 t2; a; b; c; add32 d t1; e; f; g]
  | _ => st
  end.

(* SHA-256 compression function. *)
Definition sha_block (st : list N) (blk : bytes) : list N :=
  let ws := map be32 (chunks_of 16 4 blk) in
  let w := ws ++ sha_schedule 48 (rev ws) in
  zip_with add32 st (fold_left sha_round (zip sha_k w) st).

(* [Sha256::digest], /repo/src/utils/crypto.rs:22. *)
Definition sha256 (l : bytes) : bytes :=
  let p := sha_pad l in
  flat_map (be_bytes 4) (fold_left sha_block (chunks_of (length p) 64 p) sha_h0).

(* [hex_sha256], /repo/src/utils/crypto.rs:21-28. *)
Definition hex_sha256 (l : bytes) : bytes := to_hex (sha256 l).

(* [hex_sha256_chunk]: updating the hash piecewise equals hashing the concatenation,
   /repo/src/utils/crypto.rs:31-40. *)
Definition hex_sha256_chunk (ls : list bytes) : bytes := to_hex (sha256 (concat ls)).

(* Byte-wise exclusive or with a constant (HMAC pads). *)
Definition xor_byte (k : N) (a : ascii) : ascii := ascii_of_N (N.lxor k (code a)).

(* [hmac_sha256], /repo/src/utils/crypto.rs:43-48 (crate [hmac], RFC 2104, block 64). *)
Definition hmac_sha256 (key data : bytes) : bytes :=
  let k0 := if (64 <? length key)%nat then sha256 key else key in
  let k := k0 ++ replicate (64 - length k0) (ascii_of_N 0) in
  sha256 (map (xor_byte 0x5c) k ++ sha256 (map (xor_byte 0x36) k ++ data)).

(* [hex_hmac_sha256], /repo/src/utils/crypto.rs:51-58. *)
Definition hex_hmac_sha256 (key data : bytes) : bytes := to_hex (hmac_sha256 key data).

(* MD5 constants (RFC 1321), [Md5], /repo/src/storages/fs.rs:125,683,749. *)
Definition md5_k : list N :=
 [0xd76aa478; 0xe8c7b756; 0x242070db; 0xc1bdceee; 0xf57c0faf; 0x4787c62a; 0xa8304613; 0xfd469501;
  0x698098d8; 0x8b44f7af; 0xffff5bb1; 0x895cd7be; 0x6b901122; 0xfd987193; 0xa679438e; 0x49b40821;
  0xf61e2562; 0xc040b340; 0x265e5a51; 0xe9b6c7aa; 0xd62f105d; 0x02441453; 0xd8a1e681; 0xe7d3fbc8;
  0x21e1cde6; 0xc33707d6; 0xf4d50d87; 0x455a14ed; 0xa9e3e905; 0xfcefa3f8; 0x676f02d9; 0x8d2a4c8a;
  0xfffa3942; 0x8771f681; 0x6d9d6122; 0xfde5380c; 0xa4beea44; 0x4bdecfa9; 0xf6bb4b60; 0xbebfbc70;
  0x289b7ec6; 0xeaa127fa; 0xd4ef3085; 0x04881d05; 0xd9d4d039; 0xe6db99e5; 0x1fa27cf8; 0xc4ac5665;
  0xf4292244; 0x432aff97; 0xab9423a7; 0xfc93a039; 0x655b59c3; 0x8f0ccc92; 0xffeff47d; 0x85845dd1;
  0x6fa87e4f; 0xfe2ce6e0; 0xa3014314; 0x4e0811a1; 0xf7537e82; 0xbd3af235; 0x2ad7d2bb; 0xeb86d391].
(* MD5 rotation amounts. *)
Definition md5_s : list N :=
 [7;12;17;22;7;12;17;22;7;12;17;22;7;12;17;22;
  5;9;14;20;5;9;14;20;5;9;14;20;5;9;14;20;
  4;11;16;23;4;11;16;23;4;11;16;23;4;11;16;23;
  6;10;15;21;6;10;15;21;6;10;15;21;6;10;15;21].

(* One MD5 step on the state (a,b,c,d); [i] is the step index. *)
Definition md5_step (ws : list N) (st : N * N * N * N) (ik : N * (N * N)) : N * N * N * N :=
  let '(a, b, c, d) := st in
  let '(i, (k, s)) := ik in
  let '(f, g) :=
    if i <? 16 then (N.lor (N.land b c) (N.land (not32 b) d), i)
    else if i <? 32 then (N.lor (N.land d b) (N.land (not32 d) c), (5 * i + 1) mod 16)
    else if i <? 48 then (N.lxor (N.lxor b c) d, (3 * i + 5) mod 16)
    else (N.lxor c (N.lor b (not32 d)), (7 * i) mod 16) in
  let x := add32 (add32 f a) (add32 k (nth (N.to_nat g) ws 0)) in
  (d, add32 b (rotl s x), b, c).

(* MD5 compression function. *)
Definition md5_block (st : N * N * N * N) (blk : bytes) : N * N * N * N :=
  let ws := map le32 (chunks_of 16 4 blk) in
  let '(a, b, c, d) := st in
  let '(a', b', c', d') :=
    fold_left (md5_step ws) (zip (map N.of_nat (seq 0 64)) (zip md5_k md5_s)) st in
  (add32 a a', add32 b b', add32 c c', add32 d d').

(* [Md5::new/update/finalize] on the whole data, /repo/src/storages/fs.rs:125-139,683-691. *)
Definition md5 (l : bytes) : bytes :=
  let p := md5_pad l in
  let '(a, b, c, d) :=
    fold_left md5_block (chunks_of (length p) 64 p)
      (0x67452301, 0xefcdab89, 0x98badcfe, 0x10325476) in
  le_bytes 4 a ++ le_bytes 4 b ++ le_bytes 4 c ++ le_bytes 4 d.

(* The ETag text [format!("\"{}\"", md5_sum)], /repo/src/storages/fs.rs:246,419,706,767,848. *)
Definition quote : ascii := "034"%char.
Definition etag_of (content : bytes) : bytes := [quote] ++ to_hex (md5 content) ++ [quote].

(* URL-safe base64 digit, [base64_simd::URL_SAFE_NO_PAD], /repo/src/storages/fs.rs:78. *)
Definition b64url_digit (n : N) : ascii :=
  if n <? 26 then ascii_of_N (code "A" + n)
  else if n <? 52 then ascii_of_N (code "a" + (n - 26))
  else if n <? 62 then ascii_of_N (code "0" + (n - 52))
  else if n =? 62 then "-"%char else "_"%char.

(* [URL_SAFE_NO_PAD.encode_to_string], /repo/src/storages/fs.rs:78. *)
Fixpoint b64url (l : bytes) : bytes :=
  match l with
  | [] => []
  | [a] =>
      let x := code a in
      [b64url_digit (x / 4); b64url_digit (x mod 4 * 16)]
  | [a; b] =>
      let x := code a in let y := code b in
      [b64url_digit (x / 4); b64url_digit (x mod 4 * 16 + y / 16);
       b64url_digit (y mod 16 * 4)]
  | a :: b :: c :: l' =>
      let x := code a in let y := code b in let z := code c in
      b64url_digit (x / 4) :: b64url_digit (x mod 4 * 16 + y / 16)
      :: b64url_digit (y mod 16 * 4 + z / 64) :: b64url_digit (z mod 64) :: b64url l'
  end.

(* Standard base64 digit value, [base64_simd::STANDARD], /repo/src/utils/crypto.rs:62. *)
Definition b64std_val (a : ascii) : option N :=
  if is_upper a then Some (code a - code "A")
  else if is_lower a then Some (code a - code "a" + 26)
  else if is_digit a then Some (code a - code "0" + 52)
  else if aeq a "+" then Some 62
  else if aeq a "/" then Some 63
  else None.

(* [base64_simd::STANDARD.check]: padded standard alphabet, canonical (unused bits of the
   last digit must be zero), /repo/src/utils/crypto.rs:61-63. *)
Fixpoint is_base64_encoded (l : bytes) : bool :=
  match l with
  | [] => true
  | a :: b :: c :: d :: l' =>
      match b64std_val a, b64std_val b with
      | Some _, Some vb =>
          match b64std_val c, b64std_val d with
          | Some _, Some _ => is_base64_encoded l'
          | Some vc, None => aeq d "=" && (vc mod 4 =? 0) && beq l' []
          | None, _ => aeq c "=" && aeq d "=" && (vb mod 16 =? 0) && beq l' []
          end
      | _, _ => false
      end
  | _ => false
  end.
