(** The requests and answers of any storage: what the handlers copy from the HTTP request into the
    fields of the storage's input, and from the fields of its output into the response
    (/repo/src/ops/*.rs; the types are those of the crate [rusoto_s3], /repo/src/dto.rs:3-19).
    [M_Ops] has the fields that the file-system storage reads and sets; this file has all of them.
    Definitions only. *)
From Verif Require Export M_Multipart M_Ops M_Time M_Service.

(* A value of an optional field: [String], [bool] or [i64] (rusoto_s3; /repo/src/dto.rs:4-19). *)
Inductive dval :=
| DStr (s : bytes)
| DBool (b : bool)
| DInt (z : Z).

(* The optional fields of a structure that are [Some] (rusoto_s3; /repo/src/dto.rs:4-19).  A list
   of names and values stands for the structure; a field that is not in it is [None]. *)
Definition dto := list (bytes * dval).

(* The field's value, and an assignment to it (/repo/src/data_structures/ordered_headers.rs:76,84). *)
Definition dto_get (f : bytes) (d : dto) : option dval :=
  match find (fun p => beq p.1 f) d with Some p => Some p.2 | None => None end.
Definition dto_set (f : bytes) (v : dval) (d : dto) : dto :=
  (f, v) :: List.filter (fun p => negb (beq p.1 f)) d.

(** ** Inputs *)

(* Where a field comes from: [ctx.headers] or [ctx.query_strings], /repo/src/ops.rs:77-80. *)
Inductive source :=
| SHeader (n : bytes)
| SQuery (n : bytes).

(* [assign_str], or [assign] to a [bool] or an [i64]; [KTime] is a string that is written as a date,
   /repo/src/data_structures/ordered_headers.rs:69-86, /repo/src/ops/get_object.rs:89-92. *)
Inductive kind := KStr | KBool | KInt | KTime.

(* One call of [assign] or [assign_str]: the field, where it comes from and its type,
   /repo/src/data_structures/ordered_headers.rs:69-86, ordered_qs.rs:43-56. *)
Record input_row := InputRow { in_field : bytes; in_source : source; in_kind : kind }.

(* /repo/src/ops/complete_multipart_upload.rs:64-64. *)
Definition complete_multipart_upload_inputs : list input_row :=
  [InputRow (B "request_payer") (SHeader (B "x-amz-request-payer")) KStr].

(* /repo/src/ops/copy_object.rs:67-144. *)
Definition copy_object_inputs : list input_row :=
  [InputRow (B "acl") (SHeader (B "x-amz-acl")) KStr;
   InputRow (B "cache_control") (SHeader (B "cache-control")) KStr;
   InputRow (B "content_disposition") (SHeader (B "content-disposition")) KStr;
   InputRow (B "content_encoding") (SHeader (B "content-encoding")) KStr;
   InputRow (B "content_language") (SHeader (B "content-language")) KStr;
   InputRow (B "content_type") (SHeader (B "content-type")) KStr;
   InputRow (B "copy_source_if_match") (SHeader (B "x-amz-copy-source-if-match")) KStr;
   InputRow (B "copy_source_if_modified_since") (SHeader (B "x-amz-copy-source-if-modified-since")) KStr;
   InputRow (B "copy_source_if_none_match") (SHeader (B "x-amz-copy-source-if-none-match")) KStr;
   InputRow (B "copy_source_if_unmodified_since") (SHeader (B "x-amz-copy-source-if-unmodified-since")) KStr;
   InputRow (B "expires") (SHeader (B "expires")) KStr;
   InputRow (B "grant_full_control") (SHeader (B "x-amz-grant-full-control")) KStr;
   InputRow (B "grant_read") (SHeader (B "x-amz-grant-read")) KStr;
   InputRow (B "grant_read_acp") (SHeader (B "x-amz-grant-read-acp")) KStr;
   InputRow (B "grant_write_acp") (SHeader (B "x-amz-grant-write-acp")) KStr;
   InputRow (B "metadata_directive") (SHeader (B "x-amz-metadata-directive")) KStr;
   InputRow (B "tagging_directive") (SHeader (B "x-amz-tagging-directive")) KStr;
   InputRow (B "server_side_encryption") (SHeader (B "x-amz-server-side-encryption")) KStr;
   InputRow (B "storage_class") (SHeader (B "x-amz-storage-class")) KStr;
   InputRow (B "website_redirect_location") (SHeader (B "x-amz-website-redirect-location")) KStr;
   InputRow (B "sse_customer_algorithm") (SHeader (B "x-amz-server-side-encryption-customer-algorithm")) KStr;
   InputRow (B "sse_customer_key") (SHeader (B "x-amz-server-side-encryption-customer-key")) KStr;
   InputRow (B "sse_customer_key_md5") (SHeader (B "x-amz-server-side-encryption-customer-key-md5")) KStr;
   InputRow (B "ssekms_key_id") (SHeader (B "x-amz-server-side-encryption-aws-kms-key-id")) KStr;
   InputRow (B "ssekms_encryption_context") (SHeader (B "x-amz-server-side-encryption-context")) KStr;
   InputRow (B "copy_source_sse_customer_algorithm") (SHeader (B "x-amz-copy-source-server-side-encryption-customer-algorithm")) KStr;
   InputRow (B "copy_source_sse_customer_key") (SHeader (B "x-amz-copy-source-server-side-encryption-customer-key")) KStr;
   InputRow (B "copy_source_sse_customer_key_md5") (SHeader (B "x-amz-copy-source-server-side-encryption-customer-key-md5")) KStr;
   InputRow (B "request_payer") (SHeader (B "x-amz-request-payer")) KStr;
   InputRow (B "tagging") (SHeader (B "x-amz-tagging")) KStr;
   InputRow (B "object_lock_mode") (SHeader (B "x-amz-object-lock-mode")) KStr;
   InputRow (B "object_lock_retain_until_date") (SHeader (B "x-amz-object-lock-retain-until-date")) KStr;
   InputRow (B "object_lock_legal_hold_status") (SHeader (B "x-amz-object-lock-legal-hold")) KStr].

(* /repo/src/ops/create_bucket.rs:56-65. *)
Definition create_bucket_inputs : list input_row :=
  [InputRow (B "acl") (SHeader (B "x-amz-acl")) KStr;
   InputRow (B "grant_full_control") (SHeader (B "x-amz-grant-full-control")) KStr;
   InputRow (B "grant_read") (SHeader (B "x-amz-grant-read")) KStr;
   InputRow (B "grant_read_acp") (SHeader (B "x-amz-grant-read-acp")) KStr;
   InputRow (B "grant_write") (SHeader (B "x-amz-grant-write")) KStr;
   InputRow (B "grant_write_acp") (SHeader (B "x-amz-grant-write-acp")) KStr;
   InputRow (B "object_lock_enabled_for_bucket") (SHeader (B "x-amz-bucket-object-lock-enabled")) KBool].

(* /repo/src/ops/create_multipart_upload.rs:109-159. *)
Definition create_multipart_upload_inputs : list input_row :=
  [InputRow (B "acl") (SHeader (B "x-amz-acl")) KStr;
   InputRow (B "cache_control") (SHeader (B "cache-control")) KStr;
   InputRow (B "content_disposition") (SHeader (B "content-disposition")) KStr;
   InputRow (B "content_encoding") (SHeader (B "content-encoding")) KStr;
   InputRow (B "content_language") (SHeader (B "content-language")) KStr;
   InputRow (B "content_type") (SHeader (B "content-type")) KStr;
   InputRow (B "expires") (SHeader (B "expires")) KStr;
   InputRow (B "grant_full_control") (SHeader (B "x-amz-grant-full-control")) KStr;
   InputRow (B "grant_read") (SHeader (B "x-amz-grant-read")) KStr;
   InputRow (B "grant_read_acp") (SHeader (B "x-amz-grant-read-acp")) KStr;
   InputRow (B "grant_write_acp") (SHeader (B "x-amz-grant-write-acp")) KStr;
   InputRow (B "server_side_encryption") (SHeader (B "x-amz-server-side-encryption")) KStr;
   InputRow (B "storage_class") (SHeader (B "x-amz-storage-class")) KStr;
   InputRow (B "website_redirect_location") (SHeader (B "x-amz-website-redirect-location")) KStr;
   InputRow (B "sse_customer_algorithm") (SHeader (B "x-amz-server-side-encryption-customer-algorithm")) KStr;
   InputRow (B "sse_customer_key") (SHeader (B "x-amz-server-side-encryption-customer-key")) KStr;
   InputRow (B "sse_customer_key_md5") (SHeader (B "x-amz-server-side-encryption-customer-key-md5")) KStr;
   InputRow (B "ssekms_key_id") (SHeader (B "x-amz-server-side-encryption-aws-kms-key-id")) KStr;
   InputRow (B "ssekms_encryption_context") (SHeader (B "x-amz-server-side-encryption-context")) KStr;
   InputRow (B "request_payer") (SHeader (B "x-amz-request-payer")) KStr;
   InputRow (B "tagging") (SHeader (B "x-amz-tagging")) KStr;
   InputRow (B "object_lock_mode") (SHeader (B "x-amz-object-lock-mode")) KStr;
   InputRow (B "object_lock_retain_until_date") (SHeader (B "x-amz-object-lock-retain-until-date")) KStr;
   InputRow (B "object_lock_legal_hold_status") (SHeader (B "x-amz-object-lock-legal-hold")) KStr].

(* /repo/src/ops/delete_bucket.rs:43-46. *)
Definition delete_bucket_inputs : list input_row :=
  [InputRow (B "expected_bucket_owner") (SHeader (B "x-amz-expected-bucket-owner")) KStr].

(* /repo/src/ops/delete_object.rs:49-59. *)
Definition delete_object_inputs : list input_row :=
  [InputRow (B "bypass_governance_retention") (SHeader (B "x-amz-bypass-governance-retention")) KBool;
   InputRow (B "mfa") (SHeader (B "x-amz-mfa")) KStr;
   InputRow (B "request_payer") (SHeader (B "x-amz-request-payer")) KStr;
   InputRow (B "version_id") (SQuery (B "versionId")) KStr].

(* /repo/src/ops/delete_objects.rs:55-60. *)
Definition delete_objects_inputs : list input_row :=
  [InputRow (B "mfa") (SHeader (B "x-amz-mfa")) KStr;
   InputRow (B "request_payer") (SHeader (B "x-amz-request-payer")) KStr;
   InputRow (B "bypass_governance_retention") (SHeader (B "x-amz-bypass-governance-retention")) KBool].

(* /repo/src/ops/get_bucket_location.rs:46-49. *)
Definition get_bucket_location_inputs : list input_row :=
  [InputRow (B "expected_bucket_owner") (SHeader (B "x-amz-expected-bucket-owner")) KStr].

(* /repo/src/ops/get_object.rs:55-72. *)
Definition get_object_inputs : list input_row :=
  [InputRow (B "if_match") (SHeader (B "if-match")) KStr;
   InputRow (B "if_modified_since") (SHeader (B "if-modified-since")) KStr;
   InputRow (B "if_none_match") (SHeader (B "if-none-match")) KStr;
   InputRow (B "if_unmodified_since") (SHeader (B "if-unmodified-since")) KStr;
   InputRow (B "range") (SHeader (B "range")) KStr;
   InputRow (B "sse_customer_algorithm") (SHeader (B "x-amz-server-side-encryption-customer-algorithm")) KStr;
   InputRow (B "sse_customer_key") (SHeader (B "x-amz-server-side-encryption-customer-key")) KStr;
   InputRow (B "sse_customer_key_md5") (SHeader (B "x-amz-server-side-encryption-customer-key-md5")) KStr;
   InputRow (B "request_payer") (SHeader (B "x-amz-request-payer")) KStr].

(* /repo/src/ops/head_bucket.rs:44-47. *)
Definition head_bucket_inputs : list input_row :=
  [InputRow (B "expected_bucket_owner") (SHeader (B "x-amz-expected-bucket-owner")) KStr].

(* /repo/src/ops/head_object.rs:55-72. *)
Definition head_object_inputs : list input_row :=
  [InputRow (B "if_match") (SHeader (B "if-match")) KStr;
   InputRow (B "if_modified_since") (SHeader (B "if-modified-since")) KStr;
   InputRow (B "if_none_match") (SHeader (B "if-none-match")) KStr;
   InputRow (B "if_unmodified_since") (SHeader (B "if-unmodified-since")) KStr;
   InputRow (B "range") (SHeader (B "range")) KStr;
   InputRow (B "sse_customer_algorithm") (SHeader (B "x-amz-server-side-encryption-customer-algorithm")) KStr;
   InputRow (B "sse_customer_key") (SHeader (B "x-amz-server-side-encryption-customer-key")) KStr;
   InputRow (B "sse_customer_key_md5") (SHeader (B "x-amz-server-side-encryption-customer-key-md5")) KStr;
   InputRow (B "request_payer") (SHeader (B "x-amz-request-payer")) KStr].

(* /repo/src/ops/list_objects.rs:48-57. *)
Definition list_objects_inputs : list input_row :=
  [InputRow (B "delimiter") (SQuery (B "delimiter")) KStr;
   InputRow (B "encoding_type") (SQuery (B "encoding-type")) KStr;
   InputRow (B "marker") (SQuery (B "marker")) KStr;
   InputRow (B "max_keys") (SQuery (B "max-keys")) KInt;
   InputRow (B "prefix") (SQuery (B "prefix")) KStr;
   InputRow (B "request_payer") (SHeader (B "x-amz-request-payer")) KStr].

(* /repo/src/ops/list_objects_v2.rs:53-65. *)
Definition list_objects_v2_inputs : list input_row :=
  [InputRow (B "continuation_token") (SQuery (B "continuation-token")) KStr;
   InputRow (B "delimiter") (SQuery (B "delimiter")) KStr;
   InputRow (B "encoding_type") (SQuery (B "encoding-type")) KStr;
   InputRow (B "fetch_owner") (SQuery (B "fetch-owner")) KBool;
   InputRow (B "max_keys") (SQuery (B "max-keys")) KInt;
   InputRow (B "prefix") (SQuery (B "prefix")) KStr;
   InputRow (B "start_after") (SQuery (B "start-after")) KStr;
   InputRow (B "request_payer") (SHeader (B "x-amz-request-payer")) KStr].

(* /repo/src/ops/put_object.rs:125-180. *)
Definition put_object_inputs : list input_row :=
  [InputRow (B "content_length") (SHeader (B "content-length")) KInt;
   InputRow (B "acl") (SHeader (B "x-amz-acl")) KStr;
   InputRow (B "cache_control") (SHeader (B "cache-control")) KStr;
   InputRow (B "content_disposition") (SHeader (B "content-disposition")) KStr;
   InputRow (B "content_encoding") (SHeader (B "content-encoding")) KStr;
   InputRow (B "content_language") (SHeader (B "content-language")) KStr;
   InputRow (B "content_md5") (SHeader (B "content-md5")) KStr;
   InputRow (B "content_type") (SHeader (B "content-type")) KStr;
   InputRow (B "expires") (SHeader (B "expires")) KStr;
   InputRow (B "grant_full_control") (SHeader (B "x-amz-grant-full-control")) KStr;
   InputRow (B "grant_read") (SHeader (B "x-amz-grant-read")) KStr;
   InputRow (B "grant_read_acp") (SHeader (B "x-amz-grant-read-acp")) KStr;
   InputRow (B "grant_write_acp") (SHeader (B "x-amz-grant-write-acp")) KStr;
   InputRow (B "server_side_encryption") (SHeader (B "x-amz-server-side-encryption")) KStr;
   InputRow (B "storage_class") (SHeader (B "x-amz-storage-class")) KStr;
   InputRow (B "website_redirect_location") (SHeader (B "x-amz-website-redirect-location")) KStr;
   InputRow (B "sse_customer_algorithm") (SHeader (B "x-amz-server-side-encryption-customer-algorithm")) KStr;
   InputRow (B "sse_customer_key") (SHeader (B "x-amz-server-side-encryption-customer-key")) KStr;
   InputRow (B "sse_customer_key_md5") (SHeader (B "x-amz-server-side-encryption-customer-key-md5")) KStr;
   InputRow (B "ssekms_key_id") (SHeader (B "x-amz-server-side-encryption-aws-kms-key-id")) KStr;
   InputRow (B "ssekms_encryption_context") (SHeader (B "x-amz-server-side-encryption-context")) KStr;
   InputRow (B "request_payer") (SHeader (B "x-amz-request-payer")) KStr;
   InputRow (B "tagging") (SHeader (B "x-amz-tagging")) KStr;
   InputRow (B "object_lock_mode") (SHeader (B "x-amz-object-lock-mode")) KStr;
   InputRow (B "object_lock_retain_until_date") (SHeader (B "x-amz-object-lock-retain-until-date")) KStr;
   InputRow (B "object_lock_legal_hold_status") (SHeader (B "x-amz-object-lock-legal-hold")) KStr].

(* /repo/src/ops/upload_part.rs:71-85. *)
Definition upload_part_inputs : list input_row :=
  [InputRow (B "content_length") (SHeader (B "content-length")) KInt;
   InputRow (B "content_md5") (SHeader (B "content-md5")) KStr;
   InputRow (B "sse_customer_algorithm") (SHeader (B "x-amz-server-side-encryption-customer-algorithm")) KStr;
   InputRow (B "sse_customer_key") (SHeader (B "x-amz-server-side-encryption-customer-key")) KStr;
   InputRow (B "sse_customer_key_md5") (SHeader (B "x-amz-server-side-encryption-customer-key-md5")) KStr].

(* The fields of each operation's request that are filled from headers and the query; the citations
   stand with the tables above. *)
Definition input_rows (op : s3_op) : list input_row :=
  match op with
  | OpCompleteMultipartUpload => complete_multipart_upload_inputs
  | OpCopyObject => copy_object_inputs
  | OpCreateBucket => create_bucket_inputs
  | OpCreateMultipartUpload => create_multipart_upload_inputs
  | OpDeleteBucket => delete_bucket_inputs
  | OpDeleteObject => delete_object_inputs
  | OpDeleteObjects => delete_objects_inputs
  | OpGetBucketLocation => get_bucket_location_inputs
  | OpGetObject => get_object_inputs
  | OpHeadBucket => head_bucket_inputs
  | OpHeadObject => head_object_inputs
  | OpListBuckets => []
  | OpListObjects => list_objects_inputs
  | OpListObjectsV2 => list_objects_v2_inputs
  | OpPutObject => put_object_inputs
  | OpUploadPart => upload_part_inputs
  end.

(* [get], /repo/src/data_structures/ordered_headers.rs:58-66, ordered_qs.rs:34-40. *)
Definition source_text (c : ctx) (s : source) : option bytes :=
  match s with
  | SHeader n => cx_header c n
  | SQuery n => cx_query c n
  end.

(* [parse], /repo/src/data_structures/ordered_headers.rs:75,84. *)
Definition read_kind (k : kind) (t : bytes) : option dval :=
  match k with
  | KStr | KTime => Some (DStr t)
  | KBool => match parse_bool t with Some b => Some (DBool b) | None => None end
  | KInt => match parse_i64 t with Some z => Some (DInt z) | None => None end
  end.

(* The calls one after the other, /repo/src/data_structures/ordered_headers.rs:69-86; errors become
   [invalid_request!] (e.g. /repo/src/ops/list_objects.rs:52). *)
Fixpoint fill (rows : list input_row) (c : ctx) : outcome dto :=
  match rows with
  | [] => Done []
  | r :: rows =>
      obind (assign (read_kind (in_kind r)) (source_text c (in_source r))) (fun v =>
      obind (fill rows c) (fun d =>
      Done (match v with Some v => (in_field r, v) :: d | None => d end)))
  end.

(* The fields of a form that [extract_from_multipart] reads, /repo/src/ops/put_object.rs:66-70. *)
Definition form_inputs : list (bytes * bytes) :=
  [(B "acl", B "acl"); (B "content_type", B "content-type"); (B "expires", B "expires"); (B "tagging", B "tagging");
   (B "storage_class", B "x-amz-storage-class")].

(* [extract_from_multipart], /repo/src/ops/put_object.rs:65-70: the form has the last word. *)
Definition fill_form (m : multipart) (d : dto) : dto :=
  fold_left (fun d r => match find_field_value m r.2 with Some t => dto_set r.1 (DStr t) d | None => d end) form_inputs d.

(* The optional fields of the storage's input.  The lines are those of the tables above; the
   mandatory fields, the body and user metadata are in [extract]. *)
Definition fields_of (op : s3_op) (c : ctx) : outcome dto :=
  obind (fill (input_rows op) c) (fun d =>
  match op, cx_multipart c with
  | OpPutObject, Some m => Done (fill_form m d)
  | _, _ => Done d
  end).

(** ** Outputs: headers *)

(* One call of [set_optional_header]: the field, the header and the type of the field,
   /repo/src/utils/response.rs:47-57. *)
Record output_row := OutputRow { out_field : bytes; out_header : bytes; out_kind : kind }.

(* /repo/src/ops/complete_multipart_upload.rs:79-86. *)
Definition complete_multipart_upload_outputs : list output_row :=
  [OutputRow (B "expiration") (B "x-amz-expiration") KStr;
   OutputRow (B "server_side_encryption") (B "x-amz-server-side-encryption") KStr;
   OutputRow (B "version_id") (B "x-amz-version-id") KStr;
   OutputRow (B "ssekms_key_id") (B "x-amz-server-side-encryption-aws-kms-key-id") KStr;
   OutputRow (B "request_charged") (B "x-amz-request-charged") KStr].

(* /repo/src/ops/copy_object.rs:153-173. *)
Definition copy_object_outputs : list output_row :=
  [OutputRow (B "expiration") (B "x-amz-expiration") KStr;
   OutputRow (B "copy_source_version_id") (B "x-amz-copy-source-version-id") KStr;
   OutputRow (B "version_id") (B "x-amz-version-id") KStr;
   OutputRow (B "server_side_encryption") (B "x-amz-server-side-encryption") KStr;
   OutputRow (B "sse_customer_algorithm") (B "x-amz-server-side-encryption-customer-algorithm") KStr;
   OutputRow (B "sse_customer_key_md5") (B "x-amz-server-side-encryption-customer-key-md5") KStr;
   OutputRow (B "ssekms_key_id") (B "x-amz-server-side-encryption-aws-kms-key-id") KStr;
   OutputRow (B "ssekms_encryption_context") (B "x-amz-server-side-encryption-context") KStr;
   OutputRow (B "request_charged") (B "x-amz-request-charged") KStr].

(* /repo/src/ops/create_bucket.rs:74-74. *)
Definition create_bucket_outputs : list output_row :=
  [OutputRow (B "location") (B "location") KStr].

(* /repo/src/ops/create_multipart_upload.rs:58-78. *)
Definition create_multipart_upload_outputs : list output_row :=
  [OutputRow (B "abort_date") (B "x-amz-abort-date") KStr;
   OutputRow (B "abort_rule_id") (B "x-amz-abort-rule-id") KStr;
   OutputRow (B "server_side_encryption") (B "x-amz-server-side-encryption") KStr;
   OutputRow (B "sse_customer_algorithm") (B "x-amz-server-side-encryption-customer-algorithm") KStr;
   OutputRow (B "sse_customer_key_md5") (B "x-amz-server-side-encryption-customer-key-md5") KStr;
   OutputRow (B "ssekms_key_id") (B "x-amz-server-side-encryption-aws-kms-key-id") KStr;
   OutputRow (B "ssekms_encryption_context") (B "x-amz-server-side-encryption-context") KStr;
   OutputRow (B "request_charged") (B "x-amz-request-charged") KStr].

(* /repo/src/ops/delete_object.rs:69-74. *)
Definition delete_object_outputs : list output_row :=
  [OutputRow (B "delete_marker") (B "x-amz-delete-marker") KBool;
   OutputRow (B "version_id") (B "x-amz-version-id") KStr;
   OutputRow (B "request_charged") (B "x-amz-request-charged") KStr].

(* /repo/src/ops/delete_objects.rs:70-70. *)
Definition delete_objects_outputs : list output_row :=
  [OutputRow (B "request_charged") (B "x-amz-request-charged") KStr].

(* /repo/src/ops/get_object.rs:80-147. *)
Definition get_object_outputs : list output_row :=
  [OutputRow (B "delete_marker") (B "x-amz-delete-marker") KBool;
   OutputRow (B "accept_ranges") (B "accept-ranges") KStr;
   OutputRow (B "expiration") (B "x-amz-expiration") KStr;
   OutputRow (B "restore") (B "x-amz-restore") KStr;
   OutputRow (B "last_modified") (B "last-modified") KTime;
   OutputRow (B "content_length") (B "content-length") KInt;
   OutputRow (B "e_tag") (B "etag") KStr;
   OutputRow (B "missing_meta") (B "x-amz-missing-meta") KInt;
   OutputRow (B "version_id") (B "x-amz-version-id") KStr;
   OutputRow (B "cache_control") (B "cache-control") KStr;
   OutputRow (B "content_disposition") (B "content-disposition") KStr;
   OutputRow (B "content_encoding") (B "content-encoding") KStr;
   OutputRow (B "content_language") (B "content-language") KStr;
   OutputRow (B "content_range") (B "content-range") KStr;
   OutputRow (B "content_type") (B "content-type") KStr;
   OutputRow (B "expires") (B "expires") KStr;
   OutputRow (B "website_redirect_location") (B "x-amz-website-redirect-location") KStr;
   OutputRow (B "server_side_encryption") (B "x-amz-server-side-encryption") KStr;
   OutputRow (B "sse_customer_algorithm") (B "x-amz-server-side-encryption-customer-algorithm") KStr;
   OutputRow (B "sse_customer_key_md5") (B "x-amz-server-side-encryption-customer-key-md5") KStr;
   OutputRow (B "ssekms_key_id") (B "x-amz-server-side-encryption-aws-kms-key-id") KStr;
   OutputRow (B "storage_class") (B "x-amz-storage-class") KStr;
   OutputRow (B "request_charged") (B "x-amz-request-charged") KStr;
   OutputRow (B "replication_status") (B "x-amz-replication-status") KStr;
   OutputRow (B "parts_count") (B "x-amz-mp-parts-count") KInt;
   OutputRow (B "tag_count") (B "x-amz-tagging-count") KInt;
   OutputRow (B "object_lock_mode") (B "x-amz-object-lock-mode") KStr;
   OutputRow (B "object_lock_retain_until_date") (B "x-amz-object-lock-retain-until-date") KStr;
   OutputRow (B "object_lock_legal_hold_status") (B "x-amz-object-lock-legal-hold") KStr].

(* /repo/src/ops/head_object.rs:80-145. *)
Definition head_object_outputs : list output_row :=
  [OutputRow (B "delete_marker") (B "x-amz-delete-marker") KBool;
   OutputRow (B "accept_ranges") (B "accept-ranges") KStr;
   OutputRow (B "expiration") (B "x-amz-expiration") KStr;
   OutputRow (B "restore") (B "x-amz-restore") KStr;
   OutputRow (B "last_modified") (B "last-modified") KTime;
   OutputRow (B "content_length") (B "content-length") KInt;
   OutputRow (B "e_tag") (B "etag") KStr;
   OutputRow (B "missing_meta") (B "x-amz-missing-meta") KInt;
   OutputRow (B "version_id") (B "x-amz-version-id") KStr;
   OutputRow (B "cache_control") (B "cache-control") KStr;
   OutputRow (B "content_disposition") (B "content-disposition") KStr;
   OutputRow (B "content_encoding") (B "content-encoding") KStr;
   OutputRow (B "content_language") (B "content-language") KStr;
   OutputRow (B "content_type") (B "content-type") KStr;
   OutputRow (B "expires") (B "expires") KStr;
   OutputRow (B "website_redirect_location") (B "x-amz-website-redirect-location") KStr;
   OutputRow (B "server_side_encryption") (B "x-amz-server-side-encryption") KStr;
   OutputRow (B "sse_customer_algorithm") (B "x-amz-server-side-encryption-customer-algorithm") KStr;
   OutputRow (B "sse_customer_key_md5") (B "x-amz-server-side-encryption-customer-key-md5") KStr;
   OutputRow (B "ssekms_key_id") (B "x-amz-server-side-encryption-aws-kms-key-id") KStr;
   OutputRow (B "storage_class") (B "x-amz-storage-class") KStr;
   OutputRow (B "request_charged") (B "x-amz-request-charged") KStr;
   OutputRow (B "replication_status") (B "x-amz-replication-status") KStr;
   OutputRow (B "parts_count") (B "x-amz-mp-parts-count") KInt;
   OutputRow (B "object_lock_mode") (B "x-amz-object-lock-mode") KStr;
   OutputRow (B "object_lock_retain_until_date") (B "x-amz-object-lock-retain-until-date") KStr;
   OutputRow (B "object_lock_legal_hold_status") (B "x-amz-object-lock-legal-hold") KStr].

(* /repo/src/ops/put_object.rs:207-227. *)
Definition put_object_outputs : list output_row :=
  [OutputRow (B "expiration") (B "x-amz-expiration") KStr;
   OutputRow (B "e_tag") (B "etag") KStr;
   OutputRow (B "server_side_encryption") (B "x-amz-server-side-encryption") KStr;
   OutputRow (B "version_id") (B "x-amz-version-id") KStr;
   OutputRow (B "sse_customer_algorithm") (B "x-amz-server-side-encryption-customer-algorithm") KStr;
   OutputRow (B "sse_customer_key_md5") (B "x-amz-server-side-encryption-customer-key-md5") KStr;
   OutputRow (B "ssekms_key_id") (B "x-amz-server-side-encryption-aws-kms-key-id") KStr;
   OutputRow (B "ssekms_encryption_context") (B "x-amz-server-side-encryption-context") KStr;
   OutputRow (B "request_charged") (B "x-amz-request-charged") KStr].

(* /repo/src/ops/upload_part.rs:93-109. *)
Definition upload_part_outputs : list output_row :=
  [OutputRow (B "e_tag") (B "etag") KStr;
   OutputRow (B "server_side_encryption") (B "x-amz-server-side-encryption") KStr;
   OutputRow (B "sse_customer_algorithm") (B "x-amz-server-side-encryption-customer-algorithm") KStr;
   OutputRow (B "sse_customer_key_md5") (B "x-amz-server-side-encryption-customer-key-md5") KStr;
   OutputRow (B "ssekms_key_id") (B "x-amz-server-side-encryption-aws-kms-key-id") KStr;
   OutputRow (B "request_charged") (B "x-amz-request-charged") KStr].

(* The headers of each operation's response that are made from fields of the answer; the citations
   stand with the tables above. *)
Definition output_rows (op : s3_op) : list output_row :=
  match op with
  | OpCompleteMultipartUpload => complete_multipart_upload_outputs
  | OpCopyObject => copy_object_outputs
  | OpCreateBucket => create_bucket_outputs
  | OpCreateMultipartUpload => create_multipart_upload_outputs
  | OpDeleteBucket => []
  | OpDeleteObject => delete_object_outputs
  | OpDeleteObjects => delete_objects_outputs
  | OpGetBucketLocation => []
  | OpGetObject => get_object_outputs
  | OpHeadBucket => []
  | OpHeadObject => head_object_outputs
  | OpListBuckets => []
  | OpListObjects => []
  | OpListObjectsV2 => []
  | OpPutObject => put_object_outputs
  | OpUploadPart => upload_part_outputs
  end.

(* [to_string] on [i64], e.g. /repo/src/ops/get_object.rs:95. *)
Definition show_int (z : Z) : bytes :=
  if (z <? 0)%Z then B "-" ++ num (Z.to_N (- z)) else num (Z.to_N z).

(* [to_string], e.g. /repo/src/ops/get_object.rs:81, or the conversion of a time stamp, :90-92. *)
Definition show_kind (k : kind) (v : dval) : option bytes :=
  match k, v with
  | KTime, DStr s => rfc3339_to_last_modified s
  | _, DStr s => Some s
  | _, DBool b => Some (if b then B "true" else B "false")
  | _, DInt z => Some (show_int z)
  end.

(* The calls of [set_optional_header] one after the other, /repo/src/utils/response.rs:47-57;
   [None] is an error. *)
Definition set_rows (rows : list output_row) (d : dto) (hs : option (list (bytes * bytes)))
  : option (list (bytes * bytes)) :=
  fold_left (fun hs r => match dto_get (out_field r) d with
                         | None => hs
                         | Some v => match show_kind (out_kind r) v with
                                     | Some t => set_header (out_header r) (Some t) hs
                                     | None => None
                                     end
                         end) rows hs.

(** ** Outputs: documents *)

(* [Owner], [Object], [DeletedObject], [Error] and [Bucket] of rusoto_s3, /repo/src/dto.rs:4-19. *)
Record owner_dto := OwnerDto { ow_id : option bytes; ow_name : option bytes }.
Record object_dto := ObjectDto {
  ob_key : option bytes; ob_modified : option bytes; ob_etag : option bytes; ob_size : option Z;
  ob_class : option bytes; ob_owner : option owner_dto
}.
Record deleted_dto := DeletedDto {
  de_marker : option bool; de_marker_version : option bytes; de_key : option bytes; de_version : option bytes
}.
Record failed_dto := FailedDto {
  fa_code : option bytes; fa_key : option bytes; fa_message : option bytes; fa_version : option bytes
}.
Record bucket_dto := BucketDto { bu_date : option bytes; bu_name : option bytes }.

(* [ListObjectsOutput] and [ListObjectsV2Output], /repo/src/dto.rs:15.  The fields from [li_count]
   on are those of the second; [li_marker] and [li_next_marker] are those of the first. *)
Record listing_dto := ListingDto {
  li_truncated : option bool; li_marker : option bytes; li_next_marker : option bytes;
  li_contents : option (list object_dto); li_name : option bytes; li_prefix : option bytes;
  li_delimiter : option bytes; li_max_keys : option Z; li_prefixes : option (list (option bytes));
  li_encoding : option bytes; li_count : option Z; li_token : option bytes;
  li_next_token : option bytes; li_start_after : option bytes
}.

(* The part of an output that goes to the document, /repo/src/ops/complete_multipart_upload.rs:90-93,
   copy_object.rs:173, create_multipart_upload.rs:78-80, delete_objects.rs:73-74,
   get_bucket_location.rs:59, list_buckets.rs:44-58, list_objects.rs:69-96, list_objects_v2.rs:77-106. *)
Inductive doc_dto :=
| DocCompleted (location bucket key etag : option bytes)
| DocCopied (result : option (option bytes * option bytes))
| DocInitiated (bucket key upload_id : option bytes)
| DocDeleted (deleted : option (list deleted_dto)) (errors : option (list failed_dto))
| DocLocation (constraint : option bytes)
| DocBuckets (buckets : option (list bucket_dto)) (owner : option owner_dto)
| DocListing (l : listing_dto)
| DocListing2 (l : listing_dto).

(* [opt_element] of a [bool] or an [i64], [opt_stack], /repo/src/utils/xml.rs:44-69. *)
Definition opt_bool (n : bytes) (v : option bool) : list xml :=
  opt_element n (match v with Some b => Some (if b then B "true" else B "false") | None => None end).
Definition opt_int (n : bytes) (v : option Z) : list xml :=
  opt_element n (match v with Some z => Some (show_int z) | None => None end).
Definition opt_stack {A} (n : bytes) (v : option A) (f : A -> list xml) : list xml :=
  match v with Some a => [XStack n (f a)] | None => [] end.

(* /repo/src/ops/list_objects.rs:79-83, list_objects_v2.rs:87-91. *)
Definition owner_elements (o : owner_dto) : list xml :=
  opt_element (B "ID") (ow_id o) ++ opt_element (B "DisplayName") (ow_name o).

(* /repo/src/ops/list_objects.rs:73-84, list_objects_v2.rs:81-92. *)
Definition object_element (o : object_dto) : xml :=
  XStack (B "Contents")
    (opt_element (B "Key") (ob_key o) ++ opt_element (B "LastModified") (ob_modified o) ++
     opt_element (B "ETag") (ob_etag o) ++ opt_int (B "Size") (ob_size o) ++
     opt_element (B "StorageClass") (ob_class o) ++ opt_stack (B "Owner") (ob_owner o) owner_elements).

(* /repo/src/ops/list_objects.rs:87-96, list_objects_v2.rs:95-102: the elements common to both. *)
Definition listing_common (l : listing_dto) : list xml :=
  map object_element (default [] (li_contents l)) ++
  opt_element (B "Name") (li_name l) ++ opt_element (B "Prefix") (li_prefix l) ++
  opt_element (B "Delimiter") (li_delimiter l) ++ opt_int (B "MaxKeys") (li_max_keys l) ++
  opt_stack (B "CommonPrefixes") (li_prefixes l) (flat_map (opt_element (B "Prefix"))) ++
  opt_element (B "EncodingType") (li_encoding l).

(* /repo/src/ops/delete_objects.rs:79-91. *)
Definition deleted_element (d : deleted_dto) : xml :=
  XStack (B "Deleted")
    (opt_bool (B "DeleteMarker") (de_marker d) ++ opt_element (B "DeleteMarkerVersionId") (de_marker_version d) ++
     opt_element (B "Key") (de_key d) ++ opt_element (B "VersionId") (de_version d)).

(* /repo/src/ops/delete_objects.rs:95-103. *)
Definition failed_element (f : failed_dto) : xml :=
  XStack (B "Error")
    (opt_element (B "Code") (fa_code f) ++ opt_element (B "Key") (fa_key f) ++
     opt_element (B "Message") (fa_message f) ++ opt_element (B "VersionId") (fa_version f)).

(* /repo/src/ops/list_buckets.rs:47-50. *)
Definition bucket_element (b : bucket_dto) : xml :=
  XStack (B "Bucket") (opt_element (B "CreationDate") (bu_date b) ++ opt_element (B "Name") (bu_name b)).

(* The document, /repo/src/ops/complete_multipart_upload.rs:95-103, copy_object.rs:175-180,
   create_multipart_upload.rs:82-89, delete_objects.rs:76-107, get_bucket_location.rs:58-60,
   list_buckets.rs:43-58, list_objects.rs:67-98, list_objects_v2.rs:75-108.  [None]: no element. *)
Definition document_of (d : doc_dto) : option xml :=
  match d with
  | DocCompleted l b k t =>
      Some (XStack (B "CompleteMultipartUploadResult")
              (opt_element (B "Location") l ++ opt_element (B "Bucket") b ++ opt_element (B "Key") k ++ opt_element (B "ETag") t))
  | DocCopied None => None
  | DocCopied (Some (t, m)) =>
      Some (XStack (B "CopyObjectResult") (opt_element (B "ETag") t ++ opt_element (B "LastModified") m))
  | DocInitiated b k u =>
      Some (XStack (B "InitialMultipartUploadResult")
              (opt_element (B "Bucket") b ++ opt_element (B "Key") k ++ opt_element (B "UploadId") u))
  | DocDeleted ds es =>
      Some (XStack (B "DeleteResult") (map deleted_element (default [] ds) ++ map failed_element (default [] es)))
  | DocLocation t => Some (XText (B "LocationConstraint") (default [] t))
  | DocBuckets bs o =>
      Some (XStack (B "ListAllMyBucketsResult")
              (opt_stack (B "Buckets") bs (map bucket_element) ++
               opt_stack (B "Owner") o (fun o => opt_element (B "DisplayName") (ow_name o) ++ opt_element (B "ID") (ow_id o))))
  | DocListing l =>
      Some (XStack (B "ListBucketResult")
              (opt_bool (B "IsTruncated") (li_truncated l) ++ opt_element (B "Marker") (li_marker l) ++
               opt_element (B "NextMarker") (li_next_marker l) ++ listing_common l))
  | DocListing2 l =>
      Some (XStack (B "ListBucketResult")
              (opt_bool (B "IsTruncated") (li_truncated l) ++ listing_common l ++ opt_int (B "KeyCount") (li_count l) ++
               opt_element (B "ContinuationToken") (li_token l) ++ opt_element (B "NextContinuationToken") (li_next_token l) ++
               opt_element (B "StartAfter") (li_start_after l)))
  end.

(** ** Outputs: responses *)

(* An output: the fields that go to headers, user metadata, and the document or the stream
   (rusoto_s3; /repo/src/dto.rs:4-34). *)
Record out_dto := OutDto { od_fields : dto; od_metadata : option metadata; od_doc : option doc_dto; od_stream : option resp_body }.

(* [try_into_response] of the outputs; citations as above, and for the order of headers, metadata
   and body /repo/src/ops/get_object.rs:79-138, /repo/src/utils/response.rs:69-89.  A document
   without an element is an XML declaration and nothing else; it is shown as an empty body. *)
Definition dto_response (op : s3_op) (o : out_dto) : sres response :=
  let hs := set_rows (output_rows op) (od_fields o) (Some []) in
  let hs := match op with OpGetObject | OpHeadObject => set_metadata_headers (od_metadata o) hs | _ => hs end in
  let st := match op with OpDeleteObject | OpDeleteBucket => 204%N | _ => 200%N end in
  match od_doc o with
  | Some d => wrap (set_header (B "content-type") (Some (B "text/xml")) hs) st
                (match document_of d with Some x => RbXml x | None => RbEmpty end)
  | None => wrap hs st (match op, od_stream o with OpGetObject, Some b => b | _, _ => RbEmpty end)
  end.

(** ** Outputs of the file system *)

(* A listing with only the fields that the file system fills, time stamps left out,
   /repo/src/storages/fs.rs:551-563,617-632. *)
Definition fs_listing (c : ctx) (b : bytes) (objs : list (bytes * N)) (count : option N) : listing_dto :=
  ListingDto None None None
    (Some (map (fun o => ObjectDto (Some o.1) None None (Some (Z.of_N o.2)) None None) objs)) (Some b) None
    (cx_query c (B "delimiter")) None None (cx_query c (B "encoding-type"))
    (match count with Some n => Some (Z.of_N n) | None => None end) None None None.

(* The outputs, time stamps left out, /repo/src/storages/fs.rs:203,244-251,263,281,306-309,325-327,
   414-421,438,459-465,494-497,551-563,617-632,668,705-708,720-725,769-772,849-854. *)
Definition fs_output (op : s3_op) (c : ctx) (a : s_ans) : out_dto :=
  match op, a with
  | OpGetBucketLocation, _ => OutDto [] None (Some (DocLocation None)) None
  | _, ACompleted b k t => OutDto [] None (Some (DocCompleted None (Some b) (Some k) (Some t))) None
  | _, ACopy t => OutDto [] None (Some (DocCopied (Some (Some t, None)))) None
  | _, ACreated b k u => OutDto [] None (Some (DocInitiated (Some b) (Some k) (Some u))) None
  | _, ADeleted ks =>
      OutDto [] None (Some (DocDeleted (Some (map (fun k => DeletedDto None None (Some k) None) ks)) None)) None
  | _, AGet h off lim len md t =>
      OutDto [(B "content_length", DInt (Z.of_N len)); (B "e_tag", DStr t)] md None (Some (RbFile h off lim))
  | _, AHead size md =>
      OutDto [(B "content_length", DInt (Z.of_N size)); (B "content_type", DStr (B "application/octet-stream"))] md None None
  | _, ABuckets names => OutDto [] None (Some (DocBuckets (Some (map (fun n => BucketDto None (Some n)) names)) None)) None
  | OpListObjects, AList b objs count => OutDto [] None (Some (DocListing (fs_listing c b objs None))) None
  | _, AList b objs count => OutDto [] None (Some (DocListing2 (fs_listing c b objs count))) None
  | _, APut (Some t) | _, APart t => OutDto [(B "e_tag", DStr t)] None None None
  | _, APut None | _, ADone => OutDto [] None None None
  end.
