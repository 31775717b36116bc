(** AWS Signature Version 4, /repo/src/signature_v4.rs.  Definitions only. *)
From Verif Require Export M_Base M_Crypto M_Headers M_Ordered.

(* The match arm [A-Z a-z 0-9 _ - ~ .], /repo/src/signature_v4.rs:123. *)
Definition unreserved (a : ascii) : bool :=
  is_upper a || is_lower a || is_digit a
  || aeq a "_" || aeq a "-" || aeq a "~" || aeq a ".".

(* One iteration of the loop in [uri_encode], /repo/src/signature_v4.rs:121-147. *)
Definition uri_encode_byte (encode_slash : bool) (a : ascii) : bytes :=
  if unreserved a then [a]
  else if aeq a "/" then (if encode_slash then B "%2F" else [a])
  else ["%"%char; hex_digit_upper (code a / 16); hex_digit_upper (code a mod 16)].

(* [uri_encode], /repo/src/signature_v4.rs:115-152. *)
Definition uri_encode (encode_slash : bool) (l : bytes) : bytes :=
  flat_map (uri_encode_byte encode_slash) l.

(* [is_skipped_header], /repo/src/signature_v4.rs:155-157. *)
Definition is_skipped_header (h : bytes) : bool :=
  beq h (B "authorization") || beq h (B "user-agent").

(* [is_skipped_query_string], /repo/src/signature_v4.rs:160-162. *)
Definition is_skipped_query_string (n : bytes) : bool := beq n (B "X-Amz-Signature").

(* [EMPTY_STRING_SHA256_HASH], /repo/src/signature_v4.rs:165-166. *)
Definition empty_sha256_hash : bytes :=
  B "e3b0c44298fc1c149afbf4c8996fb92427ae41e4649b934ca495991b7852b855".

(* [Payload], /repo/src/signature_v4.rs:169-178. *)
Inductive payload : Type :=
| PlUnsigned
| PlEmpty
| PlSingleChunk (data : bytes)
| PlMultipleChunks.

(* Whitespace removed by [str::trim] on header values (which are ASCII, see [to_str]),
   /repo/src/signature_v4.rs:242. *)
Definition is_trim_ws (a : ascii) : bool :=
  ((9 <=? code a) && (code a <=? 13))%N || aeq a " ".

(* [str::trim_start] part of [trim], /repo/src/signature_v4.rs:242. *)
Fixpoint trim_start (l : bytes) : bytes :=
  match l with
  | a :: l' => if is_trim_ws a then trim_start l' else l
  | [] => []
  end.

(* [str::trim], /repo/src/signature_v4.rs:242,431. *)
Definition trim (l : bytes) : bytes := rev (trim_start (rev (trim_start l))).

(* [name=value] of one encoded pair, /repo/src/signature_v4.rs:216-219. *)
Definition qs_pair (p : bytes * bytes) : bytes := p.1 ++ B "=" ++ p.2.

(* Join with a separator: first element, then separator and element for the rest,
   /repo/src/signature_v4.rs:214-227 and 249-260. *)
Fixpoint join (sep : bytes) (ls : list bytes) : bytes :=
  match ls with
  | [] => []
  | [x] => x
  | x :: ls' => x ++ sep ++ join sep ls'
  end.

(* Encode name and value of a query pair, /repo/src/signature_v4.rs:204-210. *)
Definition encode_pair (p : bytes * bytes) : bytes * bytes :=
  (uri_encode true p.1, uri_encode true p.2).

(* Canonical query string, /repo/src/signature_v4.rs:201-228. *)
Definition canonical_query (qs : list (bytes * bytes)) : bytes :=
  join (B "&") (map qs_pair (sort_by pair_cmp (map encode_pair qs))).

(* Headers that are not skipped, /repo/src/signature_v4.rs:236-239,250-253. *)
Definition kept_headers (hs : list (bytes * bytes)) : list (bytes * bytes) :=
  List.filter (fun h => negb (is_skipped_header h.1)) hs.

(* Canonical headers without the final newline, /repo/src/signature_v4.rs:236-244. *)
Definition canonical_headers (hs : list (bytes * bytes)) : bytes :=
  flat_map (fun h => h.1 ++ B ":" ++ trim h.2 ++ [LF]) (kept_headers hs).

(* Signed header names, /repo/src/signature_v4.rs:249-260. *)
Definition signed_header_names (hs : list (bytes * bytes)) : bytes :=
  join (B ";") (map fst (kept_headers hs)).

(* Hashed payload, /repo/src/signature_v4.rs:266-271. *)
Definition hashed_payload (p : payload) : bytes :=
  match p with
  | PlUnsigned => B "UNSIGNED-PAYLOAD"
  | PlEmpty => empty_sha256_hash
  | PlSingleChunk data => hex_sha256 data
  | PlMultipleChunks => B "STREAMING-AWS4-HMAC-SHA256-PAYLOAD"
  end.

(* [create_canonical_request], /repo/src/signature_v4.rs:182-273. *)
Definition create_canonical_request (method uri_path : bytes) (qs hs : list (bytes * bytes))
  (p : payload) : bytes :=
  method ++ [LF]
  ++ uri_encode false uri_path ++ [LF]
  ++ canonical_query qs ++ [LF]
  ++ canonical_headers hs ++ [LF]
  ++ signed_header_names hs ++ [LF]
  ++ hashed_payload p.

(* [create_presigned_canonical_request], /repo/src/signature_v4.rs:369-457. *)
Definition create_presigned_canonical_request (method uri_path : bytes)
  (qs hs : list (bytes * bytes)) : bytes :=
  method ++ [LF]
  ++ uri_encode false uri_path ++ [LF]
  ++ canonical_query (List.filter (fun p => negb (is_skipped_query_string p.1)) qs) ++ [LF]
  ++ canonical_headers hs ++ [LF]
  ++ signed_header_names hs ++ [LF]
  ++ B "UNSIGNED-PAYLOAD".

(* Credential scope line [<date>/<region>/s3/aws4_request], /repo/src/signature_v4.rs:289-292. *)
Definition scope (d : amz_date) (region : bytes) : bytes :=
  to_date d ++ B "/" ++ region ++ B "/s3/aws4_request".

(* [create_string_to_sign], /repo/src/signature_v4.rs:276-298. *)
Definition create_string_to_sign (canonical_request : bytes) (d : amz_date) (region : bytes)
  : bytes :=
  B "AWS4-HMAC-SHA256" ++ [LF]
  ++ to_iso8601 d ++ [LF]
  ++ scope d region ++ [LF]
  ++ hex_sha256 canonical_request.

(* [create_chunk_string_to_sign], /repo/src/signature_v4.rs:301-336. *)
Definition create_chunk_string_to_sign (d : amz_date) (region prev_signature : bytes)
  (chunk_data : list bytes) : bytes :=
  B "AWS4-HMAC-SHA256-PAYLOAD" ++ [LF]
  ++ to_iso8601 d ++ [LF]
  ++ scope d region ++ [LF]
  ++ prev_signature ++ [LF]
  ++ empty_sha256_hash ++ [LF]
  ++ (match chunk_data with
      | [] => empty_sha256_hash
      | _ => hex_sha256_chunk chunk_data
      end).

(* The derived signing key, /repo/src/signature_v4.rs:345-362. *)
Definition signing_key (secret_key : bytes) (d : amz_date) (region : bytes) : bytes :=
  let date_key := hmac_sha256 (B "AWS4" ++ secret_key) (to_date d) in
  let date_region_key := hmac_sha256 date_key region in
  let date_region_service_key := hmac_sha256 date_region_key (B "s3") in
  hmac_sha256 date_region_service_key (B "aws4_request").

(* [calculate_signature], /repo/src/signature_v4.rs:339-366. *)
Definition calculate_signature (string_to_sign secret_key : bytes) (d : amz_date)
  (region : bytes) : bytes :=
  hex_hmac_sha256 (signing_key secret_key d region) string_to_sign.

(* [PresignedUrl], /repo/src/signature_v4.rs:37-50. *)
Record presigned_url := PresignedUrl {
  pu_algorithm : bytes; pu_credential : credential; pu_amz_date : amz_date;
  pu_expires : N; pu_signed_headers : list bytes; pu_signature : bytes
}.

(* [str::is_ascii], /repo/src/signature_v4.rs:92. *)
Definition is_ascii_str (l : bytes) : bool := forallb (fun a => (code a <? 128)%N) l.

(* [PresignedUrl::from_query], /repo/src/signature_v4.rs:63-111. *)
Definition presigned_from_query (qs : list (bytes * bytes)) : option presigned_url :=
  match ordered_get qs (B "X-Amz-Algorithm"), ordered_get qs (B "X-Amz-Credential"),
        ordered_get qs (B "X-Amz-Date"), ordered_get qs (B "X-Amz-Expires"),
        ordered_get qs (B "X-Amz-SignedHeaders"), ordered_get qs (B "X-Amz-Signature") with
  | Some alg, Some cred, Some date, Some expires, Some sh, Some sig =>
      match parse_credential cred with
      | Some (c, []) =>
          match amz_date_from_header_str date with
          | None => None
          | Some d =>
              match parse_uint_str u32_max expires with
              | None => None
              | Some e =>
                  if negb (is_ascii_str sh) then None
                  else if negb (is_sha256_checksum sig) then None
                  else Some (PresignedUrl alg c d e (split_all ";" sh) sig)
              end
          end
      | _ => None
      end
  | _, _, _, _, _, _ => None
  end.
