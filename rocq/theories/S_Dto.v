(** Specification of how the S3 REST API carries the members of requests and answers.  The rules
    are those of the API reference (and of its Rust rendering [rusoto_s3], which spells a member
    like [ServerSideEncryption] "server_side_encryption"); they do not look at the handlers'
    tables. *)
From Verif Require Import M_Base M_Http M_Json M_Storage M_Ops M_Time M_Dto S_Path S_Headers S_Service S_Dispatch S_Calls S_Http S_Xml S_Time.

Global Instance s3_op_eq : EqDecision s3_op.
Proof. solve_decision. Defined.

(** ** Names *)

Definition dashed (f : bytes) : bytes := map (fun a => if aeq a "_" then "-"%char else a) f.

(* Members that have a header of HTTP itself. *)
Definition http_members : list bytes :=
  [B "accept_ranges"; B "cache_control"; B "content_disposition"; B "content_encoding"; B "content_language"; B "content_length";
   B "content_md5"; B "content_range"; B "content_type"; B "expires"; B "if_match"; B "if_modified_since"; B "if_none_match";
   B "if_unmodified_since"; B "last_modified"; B "location"; B "range"].
(* Members that are called differently in their header. *)
Definition renamed : list (bytes * bytes) :=
  [(B "e_tag", B "etag"); (B "object_lock_enabled_for_bucket", B "x-amz-bucket-object-lock-enabled");
   (B "object_lock_legal_hold_status", B "x-amz-object-lock-legal-hold"); (B "parts_count", B "x-amz-mp-parts-count");
   (B "tag_count", B "x-amz-tagging-count"); (B "ssekms_key_id", B "x-amz-server-side-encryption-aws-kms-key-id");
   (B "ssekms_encryption_context", B "x-amz-server-side-encryption-context");
   (B "bucket_key_enabled", B "x-amz-server-side-encryption-bucket-key-enabled");
   (B "expected_source_bucket_owner", B "x-amz-source-expected-bucket-owner")].
Definition with_prefix (p f : bytes) : option bytes :=
  if decide (take (length p) f = p) then Some (drop (length p) f) else None.

(* The header of a member: "sse" stands for server-side encryption, and what is not HTTP's own
   begins with "x-amz-". *)
Definition header_of (f : bytes) : bytes :=
  match find (fun p => bool_decide (p.1 = f)) renamed with
  | Some p => p.2
  | None =>
      if decide (f ∈ http_members) then dashed f
      else match with_prefix (B "sse_") f, with_prefix (B "copy_source_sse_") f with
           | Some g, _ => B "x-amz-server-side-encryption-" ++ dashed g
           | None, Some g => B "x-amz-copy-source-server-side-encryption-" ++ dashed g
           | None, None => B "x-amz-" ++ dashed f
           end
  end.

(* The query parameter of a member. *)
Definition param_of (f : bytes) : bytes :=
  if decide (f = B "version_id") then B "versionId"
  else if decide (f = B "part_number") then B "partNumber" else dashed f.

(* Members carried by the query. *)
Definition in_query (op : s3_op) (f : bytes) : Prop :=
  f ∈ [B "version_id"; B "part_number"; B "response_cache_control"; B "response_content_disposition"; B "response_content_encoding";
       B "response_content_language"; B "response_content_type"; B "response_expires"] \/
  op ∈ [OpListObjects; OpListObjectsV2] /\ f ∉ [B "request_payer"; B "expected_bucket_owner"].
Global Instance in_query_dec op f : Decision (in_query op f).
Proof. unfold in_query. apply _. Defined.

(** ** Types *)

Definition flags : list bytes :=
  [B "object_lock_enabled_for_bucket"; B "bypass_governance_retention"; B "fetch_owner"; B "delete_marker"; B "bucket_key_enabled"].
Definition numbers : list bytes :=
  [B "max_keys"; B "content_length"; B "missing_meta"; B "parts_count"; B "tag_count"; B "part_number"].

(* The value of a member from its text. *)
Definition member_value (f t : bytes) (v : dval) : Prop :=
  if decide (f ∈ flags) then t = B "true" /\ v = DBool true \/ t = B "false" /\ v = DBool false
  else if decide (f ∈ numbers) then exists z, int_text t z /\ v = DInt z
  else v = DStr t.

(** ** The optional members of requests *)

Definition encryption : list bytes := [B "sse_customer_algorithm"; B "sse_customer_key"; B "sse_customer_key_md5"].
Definition conditions : list bytes := [B "if_match"; B "if_modified_since"; B "if_none_match"; B "if_unmodified_since"].
Definition new_object : list bytes :=
  [B "acl"; B "cache_control"; B "content_disposition"; B "content_encoding"; B "content_language"; B "content_type"; B "expires";
   B "grant_full_control"; B "grant_read"; B "grant_read_acp"; B "grant_write_acp"; B "server_side_encryption"; B "storage_class";
   B "website_redirect_location"; B "ssekms_key_id"; B "ssekms_encryption_context"; B "request_payer"; B "tagging";
   B "object_lock_mode"; B "object_lock_retain_until_date"; B "object_lock_legal_hold_status"] ++ encryption.
Definition overrides : list bytes :=
  [B "response_cache_control"; B "response_content_disposition"; B "response_content_encoding"; B "response_content_language";
   B "response_content_type"; B "response_expires"].

(* The optional members that the API has for an operation's headers and parameters. *)
Definition api_members (op : s3_op) : list bytes :=
  match op with
  | OpCompleteMultipartUpload => [B "request_payer"; B "expected_bucket_owner"]
  | OpCopyObject =>
      new_object ++ [B "copy_source_if_match"; B "copy_source_if_modified_since"; B "copy_source_if_none_match";
        B "copy_source_if_unmodified_since"; B "metadata_directive"; B "tagging_directive"; B "copy_source_sse_customer_algorithm";
        B "copy_source_sse_customer_key"; B "copy_source_sse_customer_key_md5"; B "bucket_key_enabled"; B "expected_bucket_owner";
        B "expected_source_bucket_owner"]
  | OpCreateBucket =>
      [B "acl"; B "grant_full_control"; B "grant_read"; B "grant_read_acp"; B "grant_write"; B "grant_write_acp";
       B "object_lock_enabled_for_bucket"]
  | OpCreateMultipartUpload => new_object ++ [B "bucket_key_enabled"; B "expected_bucket_owner"]
  | OpDeleteBucket | OpGetBucketLocation | OpHeadBucket => [B "expected_bucket_owner"]
  | OpDeleteObject => [B "bypass_governance_retention"; B "mfa"; B "request_payer"; B "version_id"; B "expected_bucket_owner"]
  | OpDeleteObjects => [B "bypass_governance_retention"; B "mfa"; B "request_payer"; B "expected_bucket_owner"]
  | OpGetObject =>
      conditions ++ encryption ++ overrides ++ [B "range"; B "request_payer"; B "part_number"; B "version_id"; B "expected_bucket_owner"]
  | OpHeadObject =>
      conditions ++ encryption ++ [B "range"; B "request_payer"; B "part_number"; B "version_id"; B "expected_bucket_owner"]
  | OpListBuckets => []
  | OpListObjects => [B "delimiter"; B "encoding_type"; B "marker"; B "max_keys"; B "prefix"; B "request_payer"; B "expected_bucket_owner"]
  | OpListObjectsV2 =>
      [B "continuation_token"; B "delimiter"; B "encoding_type"; B "fetch_owner"; B "max_keys"; B "prefix"; B "start_after";
       B "request_payer"; B "expected_bucket_owner"]
  | OpPutObject => new_object ++ [B "content_length"; B "content_md5"; B "bucket_key_enabled"; B "expected_bucket_owner"]
  | OpUploadPart => encryption ++ [B "content_length"; B "content_md5"; B "request_payer"; B "expected_bucket_owner"]
  end.

(* Those that this server does not pass on. *)
Definition not_passed (op : s3_op) (f : bytes) : Prop :=
  f = B "expected_bucket_owner" /\ op ∉ [OpDeleteBucket; OpGetBucketLocation; OpHeadBucket] \/
  f ∈ [B "bucket_key_enabled"; B "expected_source_bucket_owner"] \/
  op ∈ [OpGetObject; OpHeadObject] /\ f ∈ overrides ++ [B "part_number"; B "version_id"] \/
  op = OpUploadPart /\ f = B "request_payer".
Global Instance not_passed_dec op f : Decision (not_passed op f).
Proof. unfold not_passed. apply _. Defined.

(* What the request says of a member. *)
Definition says (rq : http_request) (op : s3_op) (f : bytes) (o : option bytes) : Prop :=
  if decide (in_query op f) then given_param rq (param_of f) o else given_header rq (header_of f) o.

(* The members [d] are those the request gives. *)
Definition members_of (rq : http_request) (op : s3_op) (d : dto) : Prop :=
  NoDup d.*1 /\
  (forall f, f ∈ d.*1 -> f ∈ api_members op /\ ~ not_passed op f) /\
  (forall f, f ∈ api_members op -> ~ not_passed op f -> exists o, says rq op f o /\
     match o with
     | Some t => exists v, member_value f t v /\ (f, v) ∈ d
     | None => f ∉ d.*1
     end).

(** ** Answers: headers *)

Definition answered_encryption : list bytes :=
  [B "server_side_encryption"; B "ssekms_key_id"; B "bucket_key_enabled"].
Definition customer_key : list bytes := [B "sse_customer_algorithm"; B "sse_customer_key_md5"].
Definition described : list bytes :=
  [B "delete_marker"; B "accept_ranges"; B "expiration"; B "restore"; B "last_modified"; B "content_length"; B "e_tag"; B "missing_meta";
   B "version_id"; B "cache_control"; B "content_disposition"; B "content_encoding"; B "content_language"; B "content_type"; B "expires";
   B "website_redirect_location"; B "storage_class"; B "request_charged"; B "replication_status"; B "parts_count";
   B "object_lock_mode"; B "object_lock_retain_until_date"; B "object_lock_legal_hold_status"] ++ answered_encryption ++ customer_key.

(* The members that the API has for the headers of an operation's answer. *)
Definition api_answers (op : s3_op) : list bytes :=
  match op with
  | OpCompleteMultipartUpload => [B "expiration"; B "version_id"; B "request_charged"] ++ answered_encryption
  | OpCopyObject =>
      [B "expiration"; B "copy_source_version_id"; B "version_id"; B "ssekms_encryption_context"; B "request_charged"] ++
      answered_encryption ++ customer_key
  | OpCreateBucket => [B "location"]
  | OpCreateMultipartUpload =>
      [B "abort_date"; B "abort_rule_id"; B "ssekms_encryption_context"; B "request_charged"] ++ answered_encryption ++ customer_key
  | OpDeleteObject => [B "delete_marker"; B "version_id"; B "request_charged"]
  | OpDeleteObjects => [B "request_charged"]
  | OpGetObject => B "content_range" :: B "tag_count" :: described
  | OpHeadObject => B "archive_status" :: described
  | OpPutObject =>
      [B "expiration"; B "e_tag"; B "version_id"; B "ssekms_encryption_context"; B "request_charged"] ++ answered_encryption ++ customer_key
  | OpUploadPart => [B "e_tag"; B "request_charged"] ++ answered_encryption ++ customer_key
  | OpDeleteBucket | OpGetBucketLocation | OpHeadBucket | OpListBuckets | OpListObjects | OpListObjectsV2 => []
  end.
(* Those that this server does not show. *)
Definition not_shown (f : bytes) : Prop := f ∈ [B "bucket_key_enabled"; B "archive_status"].

(* What can stand in a header: no control characters but tabs. *)
Definition header_text (t : bytes) : Prop := forall a, a ∈ t -> a = byte 9 \/ (32 <= code a)%N /\ code a <> 127%N.

(* Decimal text of an integer, as it is written. *)
Definition int_shown (t : bytes) (z : Z) : Prop :=
  exists ds n, denotes ds n /\ (t = ds /\ z = Z.of_N n \/ t = B "-" ++ ds /\ z = (- Z.of_N n)%Z).

(* The text of a member in its header.  Times are given by RFC 3339 and shown as dates of HTTP. *)
Definition member_shown (f : bytes) (v : dval) (t : bytes) : Prop :=
  if decide (f ∈ flags) then exists b, v = DBool b /\ t = if b : bool then B "true" else B "false"
  else if decide (f ∈ numbers) then exists z, v = DInt z /\ int_shown t z
  else if decide (f = B "last_modified") then exists s secs, v = DStr s /\ rfc3339 s secs /\ http_date t secs
  else v = DStr t.

(* Members of the right type whose text can stand in a header; times lie in years of four digits. *)
Definition showable (f : bytes) (v : dval) : Prop :=
  if decide (f ∈ flags) then exists b, v = DBool b
  else if decide (f ∈ numbers) then exists z, v = DInt z
  else if decide (f = B "last_modified") then
    exists s secs, v = DStr s /\ rfc3339 s secs /\ (-62167219200 <= secs < 253402300800)%Z
  else exists t, v = DStr t /\ header_text t.
(* Metadata that can be headers: names as in HTTP, in lower case. *)
Definition showable_metadata (m : metadata) : Prop :=
  NoDup m.*1 /\
  forall n v, (n, v) ∈ m -> (forall a, a ∈ n -> a ∈ name_chars) /\ (N.of_nat (length n) <= 65000)%N /\ header_text v.

(* The operations that answer with a document. *)
Definition has_document (op : s3_op) : Prop :=
  op ∈ [OpCompleteMultipartUpload; OpCopyObject; OpCreateMultipartUpload; OpDeleteObjects; OpGetBucketLocation; OpListBuckets;
        OpListObjects; OpListObjectsV2].

(* The metadata that an operation answers with. *)
Definition returned_metadata (op : s3_op) (md : option metadata) : metadata :=
  if decide (op = OpGetObject \/ op = OpHeadObject) then default [] md else [].

(* The headers are the members, the metadata, and [more]. *)
Definition headers_of (d : dto) (m : metadata) (more hs : list (bytes * bytes)) : Prop :=
  NoDup hs.*1 /\
  (forall f v, (f, v) ∈ d -> exists t, member_shown f v t /\ (header_of f, t) ∈ hs) /\
  (forall n v, (n, v) ∈ m -> (B "x-amz-meta-" ++ n, v) ∈ hs) /\
  (forall x, x ∈ more -> x ∈ hs) /\
  (forall n t, (n, t) ∈ hs ->
     (exists f v, (f, v) ∈ d /\ n = header_of f /\ member_shown f v t) \/
     (exists k, (k, t) ∈ m /\ n = B "x-amz-meta-" ++ k) \/ (n, t) ∈ more).

(** ** Answers: documents *)

(* The children of an element with a given name hold this text, flag or number; or there are none. *)
Definition text_child (n : bytes) (o : option bytes) (xs : list node) : Prop :=
  filter (named n) xs = match o with Some t => [Element n (text_nodes t)] | None => [] end.
Definition flag_child (n : bytes) (o : option bool) (xs : list node) : Prop :=
  text_child n (match o with Some true => Some (B "true") | Some false => Some (B "false") | None => None end) xs.
Definition int_child (n : bytes) (o : option Z) (xs : list node) : Prop :=
  match o with
  | Some z => exists t, int_shown t z /\ text_child n (Some t) xs
  | None => text_child n None xs
  end.
(* The children with a given name are these. *)
Definition list_child {A} (n : bytes) (P : A -> node -> Prop) (l : list A) (xs : list node) : Prop :=
  Forall2 P l (filter (named n) xs).
Definition opt_child {A} (n : bytes) (P : A -> node -> Prop) (o : option A) (xs : list node) : Prop :=
  list_child n P (match o with Some a => [a] | None => [] end) xs.
(* There are no children with other names. *)
Definition only (ns : list bytes) (xs : list node) : Prop := Forall (fun x => exists n, n ∈ ns /\ named n x = true) xs.

Definition reads_owner (o : owner_dto) (y : node) : Prop := exists xs, y = Element (B "Owner") xs /\
  text_child (B "ID") (ow_id o) xs /\ text_child (B "DisplayName") (ow_name o) xs /\ only [B "ID"; B "DisplayName"] xs.
Definition reads_entry (o : object_dto) (y : node) : Prop := exists xs, y = Element (B "Contents") xs /\
  text_child (B "Key") (ob_key o) xs /\ text_child (B "LastModified") (ob_modified o) xs /\ text_child (B "ETag") (ob_etag o) xs /\
  int_child (B "Size") (ob_size o) xs /\ text_child (B "StorageClass") (ob_class o) xs /\
  opt_child (B "Owner") reads_owner (ob_owner o) xs /\
  only [B "Key"; B "LastModified"; B "ETag"; B "Size"; B "StorageClass"; B "Owner"] xs.
Definition reads_deleted (d : deleted_dto) (y : node) : Prop := exists xs, y = Element (B "Deleted") xs /\
  flag_child (B "DeleteMarker") (de_marker d) xs /\ text_child (B "DeleteMarkerVersionId") (de_marker_version d) xs /\
  text_child (B "Key") (de_key d) xs /\ text_child (B "VersionId") (de_version d) xs /\
  only [B "DeleteMarker"; B "DeleteMarkerVersionId"; B "Key"; B "VersionId"] xs.
Definition reads_failed (f : failed_dto) (y : node) : Prop := exists xs, y = Element (B "Error") xs /\
  text_child (B "Code") (fa_code f) xs /\ text_child (B "Key") (fa_key f) xs /\ text_child (B "Message") (fa_message f) xs /\
  text_child (B "VersionId") (fa_version f) xs /\ only [B "Code"; B "Key"; B "Message"; B "VersionId"] xs.
Definition reads_bucket (b : bucket_dto) (y : node) : Prop := exists xs, y = Element (B "Bucket") xs /\
  text_child (B "CreationDate") (bu_date b) xs /\ text_child (B "Name") (bu_name b) xs /\ only [B "CreationDate"; B "Name"] xs.
Definition reads_buckets (l : list bucket_dto) (y : node) : Prop := exists xs, y = Element (B "Buckets") xs /\
  list_child (B "Bucket") reads_bucket l xs /\ only [B "Bucket"] xs.
(* The API has one element for each common prefix. *)
Definition reads_prefix (p : option bytes) (y : node) : Prop := exists xs, y = Element (B "CommonPrefixes") xs /\
  text_child (B "Prefix") p xs /\ only [B "Prefix"] xs.

Definition shared_names : list bytes :=
  [B "IsTruncated"; B "Contents"; B "Name"; B "Prefix"; B "Delimiter"; B "MaxKeys"; B "CommonPrefixes"; B "EncodingType"].
Definition reads_shared (l : listing_dto) (xs : list node) : Prop :=
  flag_child (B "IsTruncated") (li_truncated l) xs /\ list_child (B "Contents") reads_entry (default [] (li_contents l)) xs /\
  text_child (B "Name") (li_name l) xs /\ text_child (B "Prefix") (li_prefix l) xs /\ text_child (B "Delimiter") (li_delimiter l) xs /\
  int_child (B "MaxKeys") (li_max_keys l) xs /\ list_child (B "CommonPrefixes") reads_prefix (default [] (li_prefixes l)) xs /\
  text_child (B "EncodingType") (li_encoding l) xs.

(* The answer that a reader finds in a document, by the API's names of elements. *)
Definition reads_doc (d : doc_dto) (y : node) : Prop :=
  match d with
  | DocCompleted l b k t => exists xs, y = Element (B "CompleteMultipartUploadResult") xs /\
      text_child (B "Location") l xs /\ text_child (B "Bucket") b xs /\ text_child (B "Key") k xs /\ text_child (B "ETag") t xs /\
      only [B "Location"; B "Bucket"; B "Key"; B "ETag"] xs
  | DocCopied None => False
  | DocCopied (Some (t, m)) => exists xs, y = Element (B "CopyObjectResult") xs /\
      text_child (B "ETag") t xs /\ text_child (B "LastModified") m xs /\ only [B "ETag"; B "LastModified"] xs
  | DocInitiated b k u => exists xs, y = Element (B "InitiateMultipartUploadResult") xs /\
      text_child (B "Bucket") b xs /\ text_child (B "Key") k xs /\ text_child (B "UploadId") u xs /\
      only [B "Bucket"; B "Key"; B "UploadId"] xs
  | DocDeleted ds es => exists xs, y = Element (B "DeleteResult") xs /\
      list_child (B "Deleted") reads_deleted (default [] ds) xs /\ list_child (B "Error") reads_failed (default [] es) xs /\
      only [B "Deleted"; B "Error"] xs
  | DocLocation t => y = Element (B "LocationConstraint") (text_nodes (default [] t))
  | DocBuckets bs o => exists xs, y = Element (B "ListAllMyBucketsResult") xs /\
      opt_child (B "Buckets") reads_buckets bs xs /\ opt_child (B "Owner") reads_owner o xs /\ only [B "Buckets"; B "Owner"] xs
  | DocListing l => exists xs, y = Element (B "ListBucketResult") xs /\ reads_shared l xs /\
      text_child (B "Marker") (li_marker l) xs /\ text_child (B "NextMarker") (li_next_marker l) xs /\
      only (B "Marker" :: B "NextMarker" :: shared_names) xs
  | DocListing2 l => exists xs, y = Element (B "ListBucketResult") xs /\ reads_shared l xs /\
      int_child (B "KeyCount") (li_count l) xs /\ text_child (B "ContinuationToken") (li_token l) xs /\
      text_child (B "NextContinuationToken") (li_next_token l) xs /\ text_child (B "StartAfter") (li_start_after l) xs /\
      only (B "KeyCount" :: B "ContinuationToken" :: B "NextContinuationToken" :: B "StartAfter" :: shared_names) xs
  end.
