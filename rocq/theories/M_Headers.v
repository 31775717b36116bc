(** Header value parsers, /repo/src/headers/*.rs.  Definitions only. *)
From Verif Require Export M_Base M_Path.

(** ** Range, /repo/src/headers/range.rs *)

(* [Range], /repo/src/headers/range.rs:6-21. *)
Inductive range : Type :=
| RNormal (first : N) (last : option N)
| RSuffix (last : N).

(* nom [map_res(digit1, str::parse::<u64>)]: at least one digit, value must fit,
   /repo/src/headers/range.rs:49,51,67. *)
Definition p_u64 (l : bytes) : option (N * bytes) :=
  let '(ds, rest) := span is_digit l in
  match ds with
  | [] => None
  | _ => match parse_uint u64_max ds with
         | None => None
         | Some n => Some (n, rest)
         end
  end.

(* [normal_parser], /repo/src/headers/range.rs:47-64. *)
Definition p_range_normal (l : bytes) : option (range * bytes) :=
  match p_u64 l with
  | None => None
  | Some (first, l1) =>
      match strip_prefix (B "-") l1 with
      | None => None
      | Some l2 =>
          match p_u64 l2 with
          | None => Some (RNormal first None, l2)
          | Some (last, l3) =>
              if (last <? first)%N then None else Some (RNormal first (Some last), l3)
          end
      end
  end.

(* [suffix_parser], /repo/src/headers/range.rs:66-69. *)
Definition p_range_suffix (l : bytes) : option (range * bytes) :=
  match strip_prefix (B "-") l with
  | None => None
  | Some l1 =>
      match p_u64 l1 with
      | None => None
      | Some (n, l2) => Some (RSuffix n, l2)
      end
  end.

(* [alt((normal_parser, suffix_parser))], /repo/src/headers/range.rs:72. *)
Definition p_range_alt (l : bytes) : option (range * bytes) :=
  match p_range_normal l with
  | Some r => Some r
  | None => p_range_suffix l
  end.

(* [Range::from_header_str], /repo/src/headers/range.rs:36-83. *)
Definition range_from_header_str (header : bytes) : option range :=
  match strip_prefix (B "bytes=") header with
  | None => None
  | Some l =>
      match p_range_alt l with
      | Some (r, []) => Some r
      | _ => None
      end
  end.

(** ** x-amz-date, /repo/src/headers/amz_date.rs *)

(* [AmzDate], /repo/src/headers/amz_date.rs:5-18. *)
Record amz_date := AmzDate {
  year : N; month : N; day : N; hour : N; minute : N; second : N
}.

(* [AmzDate::from_header_str], /repo/src/headers/amz_date.rs:33-90.  The component
   strings have at most four digits, so [parse::<u32>] cannot overflow. *)
Definition amz_date_from_header_str (h : bytes) : option amz_date :=
  match take_n 4 h with None => None | Some (y, h) =>
  match take_n 2 h with None => None | Some (mo, h) =>
  match take_n 2 h with None => None | Some (d, h) =>
  match strip_prefix (B "T") h with None => None | Some h =>
  match take_n 2 h with None => None | Some (hh, h) =>
  match take_n 2 h with None => None | Some (mi, h) =>
  match take_n 2 h with None => None | Some (ss, h) =>
  match strip_prefix (B "Z") h with None => None | Some h =>
  match h with
  | _ :: _ => None
  | [] =>
      if forallb (forallb is_digit) [y; mo; d; hh; mi; ss]
      then Some (AmzDate (dec_val y) (dec_val mo) (dec_val d)
                         (dec_val hh) (dec_val mi) (dec_val ss))
      else None
  end end end end end end end end end.

(* The decimal digit character of a value below ten, [format!("{:02}")],
   /repo/src/headers/amz_date.rs:96. *)
Definition dig (n : N) : ascii := ascii_of_N (code "0" + n).

(* [{:02}] for values below 100, /repo/src/headers/amz_date.rs:96,104.  (Values come from
   two digit characters, so wider output never arises.) *)
Definition pad2 (n : N) : bytes := [dig (n / 10); dig (n mod 10)].

(* [{:04}] for values below 10000, /repo/src/headers/amz_date.rs:96,104. *)
Definition pad4 (n : N) : bytes :=
  [dig (n / 1000); dig (n / 100 mod 10); dig (n / 10 mod 10); dig (n mod 10)].

(* [AmzDate::to_date], /repo/src/headers/amz_date.rs:103-105. *)
Definition to_date (d : amz_date) : bytes :=
  pad4 (year d) ++ pad2 (month d) ++ pad2 (day d).

(* [AmzDate::to_iso8601], /repo/src/headers/amz_date.rs:94-99. *)
Definition to_iso8601 (d : amz_date) : bytes :=
  pad4 (year d) ++ pad2 (month d) ++ pad2 (day d) ++ B "T" ++
  pad2 (hour d) ++ pad2 (minute d) ++ pad2 (second d) ++ B "Z".

(** ** x-amz-content-sha256, /repo/src/headers/amz_content_sha256.rs *)

(* [AmzContentSha256], /repo/src/headers/amz_content_sha256.rs:9-20. *)
Inductive content_sha256 : Type :=
| MultipleChunks
| SingleChunk (payload_checksum : bytes)
| UnsignedPayload.

(* [crypto::is_sha256_checksum], /repo/src/utils/crypto.rs:15-18. *)
Definition is_sha256_checksum (s : bytes) : bool :=
  (length s =? 64)%nat && forallb (fun c => is_digit c || in_range "a" "f" c) s.

(* [AmzContentSha256::from_header_str], /repo/src/headers/amz_content_sha256.rs:34-46. *)
Definition content_sha256_from_header_str (h : bytes) : option content_sha256 :=
  if beq h (B "UNSIGNED-PAYLOAD") then Some UnsignedPayload
  else if beq h (B "STREAMING-AWS4-HMAC-SHA256-PAYLOAD") then Some MultipleChunks
  else if is_sha256_checksum h then Some (SingleChunk h) else None.

(** ** x-amz-copy-source, /repo/src/headers/amz_copy_source.rs *)

(* [ParseAmzCopySourceError], /repo/src/headers/amz_copy_source.rs:34-46. *)
Inductive copy_source_error : Type :=
| CsPatternMismatch
| CsInvalidBucketName
| CsInvalidKey.

(* Leftmost match of the regular expression [^(.+?)/(.+)$]: the lazy first group is the
   shortest non-empty newline-free prefix followed by '/', the second the non-empty
   newline-free rest, /repo/src/headers/amz_copy_source.rs:72. *)
Definition re_bucket_key (h : bytes) : option (bytes * bytes) :=
  match h with
  | [] => None
  | a :: h' =>
      match split_once "/" h' with
      | None => None
      | Some (x, k) =>
          if beq k [] then None
          else if existsb (fun c => aeq c LF) h then None
          else Some (a :: x, k)
      end
  end.

(* [AmzCopySource::from_header_str], /repo/src/headers/amz_copy_source.rs:67-91.  The
   [AccessPoint] variant is never produced by the code. *)
Definition copy_source_from_header_str (h : bytes) : result copy_source_error (bytes * bytes) :=
  match re_bucket_key h with
  | None => Err CsPatternMismatch
  | Some (bucket, key) =>
      if negb (check_bucket_name bucket) then Err CsInvalidBucketName
      else if negb (check_key key) then Err CsInvalidKey
      else Ok (bucket, key)
  end.

(* A non-empty newline-free run, then '/', then one newline-free character, anywhere:
   the unanchored expression [.+?/.+], one line of the header at a time,
   /repo/src/headers/amz_copy_source.rs:54. *)
Definition re_line_matches (l : bytes) : bool :=
  match l with
  | [] => false
  | _ :: l' => match split_once "/" l' with
               | Some (_, _ :: _) => true
               | _ => false
               end
  end.

(* [AmzCopySource::try_match], /repo/src/headers/amz_copy_source.rs:52-61. *)
Definition copy_source_try_match (h : bytes) : bool :=
  existsb re_line_matches (split_all LF h).

(** ** Authorization, /repo/src/headers/authorization_v4.rs *)

(* [CredentialV4], /repo/src/headers/authorization_v4.rs:36-45. *)
Record credential := Credential {
  access_key_id : bytes; cred_date : bytes; aws_region : bytes; aws_service : bytes
}.

(* [AuthorizationV4], /repo/src/headers/authorization_v4.rs:14-26. *)
Record authorization := Authorization {
  algorithm : bytes; auth_credential : credential;
  signed_headers : list bytes; auth_signature : bytes
}.

(* Days of a month in the proleptic Gregorian calendar, as used by chrono's
   [with_ymd_and_hms], /repo/src/headers/authorization_v4.rs:108-111. *)
Definition is_leap (y : N) : bool :=
  ((y mod 4 =? 0) && (negb (y mod 100 =? 0) || (y mod 400 =? 0)))%N.

(* Same call, /repo/src/headers/authorization_v4.rs:108-111. *)
Definition days_in_month (y m : N) : N :=
  (if m =? 2 then (if is_leap y then 29 else 28)
   else if (m =? 4) || (m =? 6) || (m =? 9) || (m =? 11) then 30 else 31)%N.

(* [str::parse] of the date parts: [i32] for the year and [u32] for month and day.  Both
   accept a leading '+', the year also a leading '-' (giving a year <= 0),
   /repo/src/headers/authorization_v4.rs:100-109.  [None] is a parse error. *)
Definition parse_u32_part (l : bytes) : option N := parse_uint_str u32_max l.

(* Year part as above; the sign is returned separately (negative years are valid for
   chrono), /repo/src/headers/authorization_v4.rs:109. *)
Definition parse_year_part (l : bytes) : option (bool * N) :=
  match l with
  | a :: l' =>
      if aeq a "-" then
        match l' with
        | [] => None
        | _ => if forallb is_digit l' then Some (true, dec_val l') else None
        end
      else match parse_u32_part l with Some n => Some (false, n) | None => None end
  | [] => None
  end.

(* [CredentialV4::verify_date], /repo/src/headers/authorization_v4.rs:88-114.  nom takes
   4+2+2 characters; non-ASCII characters make [parse] fail, so counting bytes gives the
   same acceptance.  Leap years of negative years follow from the absolute value. *)
Definition verify_date (l : bytes) : bool :=
  match take_n 4 l with
  | Some (y, l1) =>
      match take_n 2 l1 with
      | Some (m, l2) =>
          match take_n 2 l2 with
          | Some (d, []) =>
              match parse_year_part y, parse_u32_part m, parse_u32_part d with
              | Some (_, y), Some m, Some d =>
                  (1 <=? m)%N && (m <=? 12)%N && (1 <=? d)%N && (d <=? days_in_month y m)%N
              | _, _, _ => false
              end
          | _ => false
          end
      | None => false
      end
  | None => false
  end.

(* [terminated(take_till(|c| c == '/'), take(1))], /repo/src/headers/authorization_v4.rs:69. *)
Definition slash_tail0 (l : bytes) : option (bytes * bytes) :=
  match span (fun c => negb (aeq c "/")) l with
  | (x, _ :: rest) => Some (x, rest)
  | (_, []) => None
  end.

(* [terminated(take_till1(|c| c == '/'), take(1))], /repo/src/headers/authorization_v4.rs:68. *)
Definition slash_tail1 (l : bytes) : option (bytes * bytes) :=
  match slash_tail0 l with
  | Some ([], _) => None
  | r => r
  end.

(* [CredentialV4::parse_by_nom], /repo/src/headers/authorization_v4.rs:62-85; returns the
   unconsumed input as well. *)
Definition parse_credential (l : bytes) : option (credential * bytes) :=
  match slash_tail1 l with None => None | Some (ak, l) =>
  match slash_tail1 l with None => None | Some (date, l) =>
  if negb (verify_date date) then None else
  match slash_tail0 l with None => None | Some (region, l) =>
  match slash_tail1 l with None => None | Some (service, l) =>
  match strip_prefix (B "aws4_request") l with None => None | Some l =>
  Some (Credential ak date region service, l)
  end end end end end.

(* [char::is_ascii_whitespace]: space, tab, LF, FF, CR,
   /repo/src/headers/authorization_v4.rs:140,141. *)
Definition is_ascii_ws (a : ascii) : bool :=
  aeq a " " || aeq a "009" || aeq a "010" || aeq a "012" || aeq a "013".

(* nom's [multispace] class: space, tab, LF, CR, /repo/src/headers/authorization_v4.rs:144. *)
Definition is_multispace (a : ascii) : bool :=
  aeq a " " || aeq a "009" || aeq a "010" || aeq a "013".

(* The loop collecting signed header names: [tuple((take_till1(|c| c==';'||c==','), take(1)))]
   until the separator is a comma, /repo/src/headers/authorization_v4.rs:151-160.  [n] bounds
   the number of rounds by the length of the input (every round consumes input). *)
Fixpoint p_signed_headers (n : nat) (l : bytes) : option (list bytes * bytes) :=
  match n with
  | O => None
  | S n' =>
      match span (fun c => negb (aeq c ";" || aeq c ",")) l with
      | ([], _) => None
      | (_, []) => None
      | (h, sep :: rest) =>
          if aeq sep "," then Some ([h], rest)
          else match p_signed_headers n' rest with
               | None => None
               | Some (hs, rest') => Some (h :: hs, rest')
               end
      end
  end.

(* [AuthorizationV4::from_header_str], /repo/src/headers/authorization_v4.rs:130-181. *)
Definition authorization_from_header_str (l : bytes) : option authorization :=
  match span (fun c => negb (is_ascii_ws c)) l with
  | ([], _) => None
  | (alg, l) =>
  match span is_multispace l with
  | ([], _) => None
  | (_, l) =>
  match strip_prefix (B "Credential=") l with None => None | Some l =>
  match parse_credential l with None => None | Some (cred, l) =>
  match strip_prefix (B ",") l with None => None | Some l =>
  let l := (span is_multispace l).2 in
  match strip_prefix (B "SignedHeaders=") l with None => None | Some l =>
  match p_signed_headers (S (length l)) l with None => None | Some (hs, l) =>
  let l := (span is_multispace l).2 in
  match strip_prefix (B "Signature=") l with None => None | Some l =>
  let '(sig, l) := span (fun c => negb (is_ascii_ws c)) l in
  match (span is_multispace l).2 with
  | _ :: _ => None
  | [] => Some (Authorization alg cred hs sig)
  end end end end end end end end end.
