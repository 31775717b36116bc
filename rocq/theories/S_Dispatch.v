(** The S3 API tables: which operation a request denotes.  Written from the S3 API reference,
    without the handlers. *)
From Verif Require Import M_Base M_Path M_Http M_Ops S_Path S_Service.

(* The operation denoted by a method, a kind of path, the parameters present ([has]), list-type=2
   ([v2]), an x-amz-copy-source header ([copy]) and a form in the body ([form]), among the
   sixteen that the server knows. *)
Inductive api_op (m : bytes) (p : s3path) (has : bytes -> Prop) (v2 copy form : Prop) : s3_op -> Prop :=
| api_list_buckets : m = B "GET" -> p = PRoot -> api_op m p has v2 copy form OpListBuckets
| api_get_location b : m = B "GET" -> p = PBucket b -> has (B "location") ->
    api_op m p has v2 copy form OpGetBucketLocation
| api_list b : m = B "GET" -> p = PBucket b -> ~ has (B "location") -> ~ has (B "list-type") ->
    api_op m p has v2 copy form OpListObjects
| api_list_v2 b : m = B "GET" -> p = PBucket b -> ~ has (B "location") -> v2 ->
    api_op m p has v2 copy form OpListObjectsV2
| api_head_bucket b : m = B "HEAD" -> p = PBucket b -> api_op m p has v2 copy form OpHeadBucket
| api_create_bucket b : m = B "PUT" -> p = PBucket b -> api_op m p has v2 copy form OpCreateBucket
| api_delete_bucket b : m = B "DELETE" -> p = PBucket b -> api_op m p has v2 copy form OpDeleteBucket
| api_delete_objects b : m = B "POST" -> p = PBucket b -> has (B "delete") ->
    api_op m p has v2 copy form OpDeleteObjects
| api_post_object b : m = B "POST" -> p = PBucket b -> ~ has (B "delete") -> form ->
    api_op m p has v2 copy form OpPutObject
| api_get_object b k : m = B "GET" -> p = PObject b k -> api_op m p has v2 copy form OpGetObject
| api_head_object b k : m = B "HEAD" -> p = PObject b k -> api_op m p has v2 copy form OpHeadObject
| api_delete_object b k : m = B "DELETE" -> p = PObject b k -> api_op m p has v2 copy form OpDeleteObject
| api_put_object b k : m = B "PUT" -> p = PObject b k -> ~ has (B "uploadId") -> ~ copy ->
    api_op m p has v2 copy form OpPutObject
| api_copy_object b k : m = B "PUT" -> p = PObject b k -> ~ has (B "uploadId") -> copy ->
    api_op m p has v2 copy form OpCopyObject
| api_upload_part b k : m = B "PUT" -> p = PObject b k -> has (B "uploadId") -> has (B "partNumber") -> ~ copy ->
    api_op m p has v2 copy form OpUploadPart
| api_create_upload b k : m = B "POST" -> p = PObject b k -> ~ form -> has (B "uploads") -> ~ has (B "uploadId") ->
    api_op m p has v2 copy form OpCreateMultipartUpload
| api_complete_upload b k : m = B "POST" -> p = PObject b k -> ~ form -> has (B "uploadId") ->
    api_op m p has v2 copy form OpCompleteMultipartUpload.

(* Operations of the API that the server does not offer: those selected by a sub-resource, and
   four others. *)
Definition other_subresources : list bytes :=
  [B "accelerate"; B "acl"; B "analytics"; B "attributes"; B "cors"; B "encryption";
   B "intelligent-tiering"; B "inventory"; B "legal-hold"; B "lifecycle"; B "logging";
   B "metrics"; B "notification"; B "object-lock"; B "ownershipControls"; B "policy";
   B "policyStatus"; B "publicAccessBlock"; B "replication"; B "requestPayment"; B "restore";
   B "retention"; B "select"; B "tagging"; B "torrent"; B "versioning"; B "versions"; B "website"].

Inductive api_lacking (m : bytes) (p : s3path) (has : bytes -> Prop) (copy : Prop) : Prop :=
| lack_subresource n : n ∈ other_subresources -> has n -> p <> PRoot -> api_lacking m p has copy
| lack_abort b k : m = B "DELETE" -> p = PObject b k -> has (B "uploadId") -> api_lacking m p has copy
| lack_list_parts b k : m = B "GET" -> p = PObject b k -> has (B "uploadId") -> api_lacking m p has copy
| lack_part_copy b k : m = B "PUT" -> p = PObject b k -> has (B "uploadId") -> copy -> api_lacking m p has copy
| lack_list_uploads b : m = B "GET" -> p = PBucket b -> has (B "uploads") -> api_lacking m p has copy.

(* The same for requests. *)
Definition has_param (rq : http_request) (n : bytes) : Prop :=
  exists ps v, query_params (rq_query rq) ps /\ (n, v) ∈ ps.
Definition has_header (rq : http_request) (n : bytes) : Prop := exists v, (n, v) ∈ rq_headers rq.

Definition denotes_lacking (rq : http_request) : Prop :=
  exists p, request_path rq p /\
    api_lacking (rq_method rq) p (has_param rq) (has_header rq (B "x-amz-copy-source")).

Definition denotes_op (sv : server) (rq : http_request) (op : s3_op) : Prop :=
  exists p, request_path rq p /\
    api_op (rq_method rq) p (has_param rq)
      (exists ps, query_params (rq_query rq) ps /\ (B "list-type", B "2") ∈ ps)
      (has_header rq (B "x-amz-copy-source")) (form_post sv rq) op /\
    ~ denotes_lacking rq.

(* What selects the operation is given once. *)
Definition selects_once (sv : server) (rq : http_request) : Prop :=
  (forall ps v v', query_params (rq_query rq) ps -> (B "list-type", v) ∈ ps -> (B "list-type", v') ∈ ps -> v = v') /\
  (forall m m', content_type sv rq m -> content_type sv rq m' -> m = m').

(* The request that crashes its task, see C53. *)
Definition root_part (rq : http_request) : Prop :=
  rq_method rq = B "PUT" /\ request_path rq PRoot /\
  has_param rq (B "partNumber") /\ has_param rq (B "uploadId").

(** ** Requests that must be refused *)

(* Attempts to authenticate. *)
Definition presents_credentials (sv : server) (rq : http_request) : Prop :=
  form_post sv rq \/ has_param rq (B "X-Amz-Signature") \/ has_header rq (B "authorization").

Inductive unacceptable (sv : server) (rq : http_request) : Prop :=
(* the path addresses nothing *)
| un_path : (forall p, ~ request_path rq p) -> unacceptable sv rq
(* a header value is not plain text *)
| un_header h : h ∈ rq_headers rq -> ~ visible h.2 -> unacceptable sv rq
(* the content type is not a media type *)
| un_type : has_header rq (B "content-type") -> (forall m, ~ content_type sv rq m) -> unacceptable sv rq
(* it is not authentic *)
| un_auth prov : sv_auth sv = Some prov -> ~ authentic sv prov rq -> unacceptable sv rq
(* it presents credentials and there is nothing to check them against *)
| un_open : sv_auth sv = None -> presents_credentials sv rq -> unacceptable sv rq
(* a form is sent to an object *)
| un_form b k : request_path rq (PObject b k) -> form_post sv rq -> unacceptable sv rq
(* it denotes no operation *)
| un_op : (forall op, ~ denotes_op sv rq op) -> ~ denotes_lacking rq -> ~ root_part rq -> unacceptable sv rq.
