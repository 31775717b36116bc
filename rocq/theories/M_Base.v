(** Bytes and the small string functions of the Rust standard library and of
    [nom] that the modelled code calls.  Definitions only. *)
From Coq Require Export Ascii String NArith ZArith.
From stdpp Require Export prelude strings sorting numbers.
Export stdpp.list.

(* Rust [&str], [String], [&[u8]], [Bytes] everywhere in /repo/src: a list of bytes. *)
Notation bytes := (list ascii).

(* Byte-string literals, e.g. /repo/src/headers/range.rs:72 [tag("bytes=")]. *)
Definition B (x : string) : bytes := list_ascii_of_string x.

(* Numeric value of a [u8], used by all byte range tests (e.g. /repo/src/path.rs:72). *)
Definition code (a : ascii) : N := N_of_ascii a.

(* Rust byte range pattern [lo..=hi], e.g. /repo/src/signature_v4.rs:123. *)
Definition in_range (lo hi : ascii) (a : ascii) : bool :=
  (code lo <=? code a)%N && (code a <=? code hi)%N.

(* [u8::is_ascii_digit], /repo/src/path.rs:72, /repo/src/headers/amz_date.rs:57;
   also nom's [digit1] character class, /repo/src/headers/range.rs:49. *)
Definition is_digit (a : ascii) : bool := in_range "0" "9" a.

(* [u8::is_ascii_lowercase], /repo/src/path.rs:72. *)
Definition is_lower (a : ascii) : bool := in_range "a" "z" a.

(* Byte class [A-Z], /repo/src/signature_v4.rs:123. *)
Definition is_upper (a : ascii) : bool := in_range "A" "Z" a.

(* [u8::to_ascii_lowercase] / [make_ascii_lowercase], /repo/src/ops/put_object.rs:70,
   [eq_ignore_ascii_case], /repo/src/streams/multipart.rs:46. *)
Definition to_lower (a : ascii) : ascii :=
  if is_upper a then ascii_of_N (code a + 32) else a.

(* [str::eq_ignore_ascii_case], /repo/src/streams/multipart.rs:46,167,169. *)
Definition eq_ignore_case (x y : bytes) : bool :=
  bool_decide (map to_lower x = map to_lower y).

(* [==] on strings and slices, e.g. /repo/src/service.rs:351. *)
Definition beq (x y : bytes) : bool := bool_decide (x = y).

(* [==] on bytes, e.g. /repo/src/streams/aws_chunked_stream.rs:290. *)
Definition aeq (x y : ascii) : bool := bool_decide (x = y).

(* [str::split_once(c)]: split at the first occurrence, /repo/src/path.rs:117,129. *)
Fixpoint split_once (c : ascii) (l : bytes) : option (bytes * bytes) :=
  match l with
  | [] => None
  | a :: l' =>
      if aeq a c then Some ([], l')
      else match split_once c l' with
           | None => None
           | Some (x, y) => Some (a :: x, y)
           end
  end.

(* [str::split(c)] collected to a vector, /repo/src/signature_v4.rs:95. *)
Fixpoint split_all (c : ascii) (l : bytes) : list bytes :=
  match l with
  | [] => [[]]
  | a :: l' =>
      if aeq a c then [] :: split_all c l'
      else match split_all c l' with
           | [] => [[a]]
           | x :: xs => (a :: x) :: xs
           end
  end.

(* nom's [tag] and [str::starts_with]: remove a prefix, /repo/src/headers/range.rs:72,
   /repo/src/path.rs:98. *)
Fixpoint strip_prefix (p l : bytes) : option bytes :=
  match p, l with
  | [], _ => Some l
  | a :: p', b :: l' => if aeq a b then strip_prefix p' l' else None
  | _ :: _, [] => None
  end.

(* [starts_with], /repo/src/path.rs:98, /repo/src/streams/multipart.rs:298,306. *)
Definition starts_with (p l : bytes) : bool :=
  match strip_prefix p l with Some _ => true | None => false end.

(* [str::ends_with(char)], /repo/src/storages/fs.rs:272,664. *)
Definition ends_with_char (c : ascii) (l : bytes) : bool :=
  match last l with Some a => aeq a c | None => false end.

(* nom's [take_till(p)] / [take_while]: longest prefix of bytes satisfying [f] and the
   remainder, /repo/src/headers/authorization_v4.rs:69,140,141,
   /repo/src/streams/aws_chunked_stream.rs:87. *)
Fixpoint span (f : ascii -> bool) (l : bytes) : bytes * bytes :=
  match l with
  | [] => ([], [])
  | a :: l' =>
      if f a then let '(x, y) := span f l' in (a :: x, y) else ([], l)
  end.

(* nom's [take(n)]: exactly [n] items or an error.  On [&str] inputs nom counts
   characters; the modelled callers then test every byte to be an ASCII digit or apply
   [take(1)] to an ASCII delimiter, so bytes and characters agree,
   /repo/src/headers/amz_date.rs:44-50, /repo/src/streams/aws_chunked_stream.rs:89. *)
Fixpoint take_n (n : nat) (l : bytes) : option (bytes * bytes) :=
  match n, l with
  | O, _ => Some ([], l)
  | S n', a :: l' =>
      match take_n n' l' with
      | None => None
      | Some (x, y) => Some (a :: x, y)
      end
  | S _, [] => None
  end.

(* Value of an ASCII digit, [str::parse::<u32/u64/i64>], /repo/src/headers/range.rs:49. *)
Definition digit_val (a : ascii) : N := (code a - code "0")%N.

(* Decimal value accumulated left to right, [str::parse::<u64>], /repo/src/headers/range.rs:49. *)
Definition dec_acc (acc : N) (l : bytes) : N :=
  fold_left (fun n a => n * 10 + digit_val a)%N l acc.

(* Decimal value of a digit string, /repo/src/headers/range.rs:49. *)
Definition dec_val (l : bytes) : N := dec_acc 0 l.

(* Largest [u64], /repo/src/headers/range.rs:49, /repo/src/storages/fs.rs:372. *)
Definition u64_max : N := 18446744073709551615%N.

(* Largest [u32], /repo/src/signature_v4.rs:87 and /repo/src/headers/amz_date.rs:75. *)
Definition u32_max : N := 4294967295%N.

(* Largest [i64], /repo/src/storages/fs.rs:379, /repo/src/ops/upload_part.rs:55. *)
Definition i64_max : N := 9223372036854775807%N.

(* [str::parse] for an unsigned type bounded by [mx] on a string of ASCII digits;
   overflow is an error, /repo/src/headers/range.rs:49,51,67. *)
Definition parse_uint (mx : N) (l : bytes) : option N :=
  if (dec_val l <=? mx)%N then Some (dec_val l) else None.

(* [str::parse] for unsigned types on an arbitrary string: an optional leading '+',
   then at least one digit, only digits, no overflow, /repo/src/signature_v4.rs:87-90. *)
Definition parse_uint_str (mx : N) (l : bytes) : option N :=
  let ds := match l with a :: l' => if aeq a "+" then l' else l | [] => l end in
  match ds with
  | [] => None
  | _ => if forallb is_digit ds then parse_uint mx ds else None
  end.

(* Lexicographic comparison of bytes, [Ord for str]; header and query sorting,
   /repo/src/data_structures/ordered_headers.rs:27, /repo/src/storages/fs.rs:547. *)
Fixpoint bytes_cmp (x y : bytes) : comparison :=
  match x, y with
  | [], [] => Eq
  | [], _ :: _ => Lt
  | _ :: _, [] => Gt
  | a :: x', b :: y' =>
      match N.compare (code a) (code b) with
      | Eq => bytes_cmp x' y'
      | c => c
      end
  end.

(* [Ord for (String, String)]: lexicographic on the pair,
   /repo/src/data_structures/ordered_qs.rs:29, /repo/src/signature_v4.rs:212. *)
Definition pair_cmp (p q : bytes * bytes) : comparison :=
  match bytes_cmp p.1 q.1 with
  | Eq => bytes_cmp p.2 q.2
  | c => c
  end.

(* [<=] derived from a comparison, used by the sorts below. *)
Definition cmp_le {A} (cmp : A -> A -> comparison) (x y : A) : Prop :=
  cmp x y <> Gt.

Global Instance cmp_le_dec {A} (cmp : A -> A -> comparison) : RelDecision (cmp_le cmp).
Proof. intros x y; unfold cmp_le; destruct (cmp x y); [left|left|right]; congruence. Defined.

(* [sort], [sort_unstable]: /repo/src/data_structures/ordered_headers.rs:37,
   /repo/src/data_structures/ordered_qs.rs:29, /repo/src/signature_v4.rs:212.
   (Elements that compare equal are identical, so stability is irrelevant there.) *)
Definition sort_by {A} (cmp : A -> A -> comparison) (l : list A) : list A :=
  merge_sort (cmp_le cmp) l.

(* Lowercase hexadecimal digit, [hex_simd::encode_to_string], /repo/src/utils/crypto.rs:11. *)
Definition hex_digit_lower (n : N) : ascii :=
  if (n <? 10)%N then ascii_of_N (code "0" + n) else ascii_of_N (code "a" + (n - 10)).

(* Uppercase hexadecimal digit, [HEX_UPPERCASE_TABLE], /repo/src/signature_v4.rs:117. *)
Definition hex_digit_upper (n : N) : ascii :=
  if (n <? 10)%N then ascii_of_N (code "0" + n) else ascii_of_N (code "A" + (n - 10)).

(* Value of a hexadecimal digit of either case: nom's [hex_u32]
   (/repo/src/streams/aws_chunked_stream.rs:98) and percent-decoding
   (/repo/src/service.rs:184). *)
Definition hex_val (a : ascii) : option N :=
  if is_digit a then Some (code a - code "0")%N
  else if in_range "a" "f" a then Some (code a - code "a" + 10)%N
  else if in_range "A" "F" a then Some (code a - code "A" + 10)%N
  else None.

(* [to_hex_string], /repo/src/utils/crypto.rs:10-12. *)
Definition to_hex (l : bytes) : bytes :=
  flat_map (fun a => [hex_digit_lower (code a / 16); hex_digit_lower (code a mod 16)]) l.

(* Rust [Result]: values or an error, everywhere. *)
Inductive result (E A : Type) : Type :=
| Ok (a : A)
| Err (e : E).
Arguments Ok {E A} a.
Arguments Err {E A} e.

(* CR LF, /repo/src/streams/aws_chunked_stream.rs:278, /repo/src/streams/multipart.rs:339. *)
Definition CR : ascii := "013"%char.
Definition LF : ascii := "010"%char.
Definition CRLF : bytes := [CR; LF].
