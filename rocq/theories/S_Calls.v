(** Specification of what a request asks of the storage, in terms of the request: its target,
    its parameters and headers, its body.  Written without the model's containers and
    extraction functions. *)
From Verif Require Import M_Base M_Chunked M_Multipart M_Http M_Json M_Storage M_Ops
  S_Path S_Headers S_Chunked S_Service S_Dispatch.

(* A parameter or header that may be absent.  Of repeated ones, any may be taken. *)
Definition given_param (rq : http_request) (n : bytes) (o : option bytes) : Prop :=
  match o with
  | Some v => exists ps, query_params (rq_query rq) ps /\ (n, v) ∈ ps
  | None => ~ has_param rq n
  end.
Definition given_header (rq : http_request) (n : bytes) (o : option bytes) : Prop :=
  match o with
  | Some v => (n, v) ∈ rq_headers rq
  | None => ~ has_header rq n
  end.

(* Decimal text of a 64-bit integer. *)
Definition int_text (t : bytes) (z : Z) : Prop :=
  (- 2 ^ 63 <= z < 2 ^ 63)%Z /\
  exists ds n, denotes ds n /\
    (t = ds /\ z = Z.of_N n \/ t = B "+" ++ ds /\ z = Z.of_N n \/ t = B "-" ++ ds /\ z = (- Z.of_N n)%Z).

Definition given_int_header (rq : http_request) (n : bytes) (o : option Z) : Prop :=
  match o with
  | Some z => exists t, (n, t) ∈ rq_headers rq /\ int_text t z
  | None => ~ has_header rq n
  end.

(* The user's metadata among headers or form fields: every name after "x-amz-meta-" once, with a
   value it was sent with. *)
Definition user_metadata (pairs : list (bytes * bytes)) (md : option metadata) : Prop :=
  match md with
  | None => forall n v, (B "x-amz-meta-" ++ n, v) ∈ pairs -> n = []
  | Some m =>
      m <> [] /\ NoDup m.*1 /\
      (forall n v, (n, v) ∈ m -> n <> [] /\ (B "x-amz-meta-" ++ n, v) ∈ pairs) /\
      (forall n v, (B "x-amz-meta-" ++ n, v) ∈ pairs -> n <> [] -> n ∈ m.*1)
  end.

(* What form fields override. *)
Definition overridden {A} (field header : option A) (o : option A) : Prop :=
  match field with Some _ => o = field | None => o = header end.

(* The call.  [body] is the body after authentication, [form] the form of a form upload. *)
Inductive asks (sv : server) (rq : http_request) (body : list frame) (form : option multipart)
  : s3_op -> s_req -> Prop :=
| ask_list_buckets : asks sv rq body form OpListBuckets RListBuckets
| ask_location b : request_path rq (PBucket b) ->
    asks sv rq body form OpGetBucketLocation (RGetBucketLocation b)
| ask_head_bucket b : request_path rq (PBucket b) -> asks sv rq body form OpHeadBucket (RHeadBucket b)
| ask_create_bucket b t : request_path rq (PBucket b) -> broken body = false -> carried body = t ->
    sv_xml_bucket sv t = true -> asks sv rq body form OpCreateBucket (RCreateBucket b)
| ask_delete_bucket b : request_path rq (PBucket b) ->
    asks sv rq body form OpDeleteBucket (RDeleteBucket b)
| ask_list b prefix : request_path rq (PBucket b) -> given_param rq (B "prefix") prefix ->
    asks sv rq body form OpListObjects (RListObjects b prefix)
| ask_list_v2 b prefix : request_path rq (PBucket b) -> given_param rq (B "prefix") prefix ->
    asks sv rq body form OpListObjectsV2 (RListObjectsV2 b prefix)
| ask_delete_objects b t keys : request_path rq (PBucket b) -> broken body = false ->
    carried body = t -> sv_xml_delete sv t = Some keys ->
    asks sv rq body form OpDeleteObjects (RDeleteObjects b keys)
| ask_get b k range : request_path rq (PObject b k) -> given_header rq (B "range") range ->
    asks sv rq body form OpGetObject (RGetObject b k range)
| ask_head b k : request_path rq (PObject b k) -> asks sv rq body form OpHeadObject (RHeadObject b k)
| ask_delete b k : request_path rq (PObject b k) ->
    asks sv rq body form OpDeleteObject (RDeleteObject b k)
| ask_copy b k src : request_path rq (PObject b k) -> (B "x-amz-copy-source", src) ∈ rq_headers rq ->
    asks sv rq body form OpCopyObject (RCopyObject src b k)
| ask_put b k class len md : form = None -> request_path rq (PObject b k) ->
    given_header rq (B "x-amz-storage-class") class ->
    given_int_header rq (B "content-length") len -> user_metadata (rq_headers rq) md ->
    asks sv rq body form OpPutObject (RPutObject b k class len md (Some body))
| ask_form b m k field_class header_class class len field_md header_md md frames :
    form = Some m -> request_path rq (PBucket b) ->
    field_value (mp_fields m) (B "key") k -> (N.of_nat (length k) <= 1024)%N ->
    (forall x, field_class = Some x -> field_value (mp_fields m) (B "x-amz-storage-class") x) ->
    (field_class = None -> forall x, ~ field_value (mp_fields m) (B "x-amz-storage-class") x) ->
    given_header rq (B "x-amz-storage-class") header_class ->
    overridden field_class header_class class ->
    given_int_header rq (B "content-length") len ->
    user_metadata (map (fun f => (map to_lower f.1, f.2)) (mp_fields m)) field_md ->
    user_metadata (rq_headers rq) header_md -> overridden field_md header_md md ->
    (* the file, with an error at the end unless it was complete *)
    carried frames = concat (mp_stream m).1 ->
    (broken frames = false <-> (mp_stream m).2 = FileOk) ->
    asks sv rq body form OpPutObject (RPutObject b k class len md (Some frames))
| ask_create_upload b k : request_path rq (PObject b k) ->
    asks sv rq body form OpCreateMultipartUpload (RCreateMultipartUpload b k (sv_uuid sv))
| ask_part b k u n t : request_path rq (PObject b k) -> given_param rq (B "uploadId") (Some u) ->
    given_param rq (B "partNumber") (Some t) -> int_text t n ->
    asks sv rq body form OpUploadPart (RUploadPart u n (Some body))
| ask_complete b k u t parts : request_path rq (PObject b k) ->
    given_param rq (B "uploadId") (Some u) -> broken body = false -> carried body = t ->
    sv_xml_complete sv t = Some parts ->
    asks sv rq body form OpCompleteMultipartUpload (RCompleteMultipartUpload b k u parts).

(* Parameters, headers and documents that can be read. *)
Definition ints_ok (rq : http_request) (n : bytes) : Prop :=
  forall t, (n, t) ∈ rq_headers rq -> exists z, int_text t z.
Definition int_params_ok (rq : http_request) (n : bytes) : Prop :=
  forall ps t, query_params (rq_query rq) ps -> (n, t) ∈ ps -> exists z, int_text t z.
Definition bools_ok (rq : http_request) (n : bytes) : Prop :=
  forall t, (n, t) ∈ rq_headers rq -> t = B "true" \/ t = B "false".
Definition bool_params_ok (rq : http_request) (n : bytes) : Prop :=
  forall ps t, query_params (rq_query rq) ps -> (n, t) ∈ ps -> t = B "true" \/ t = B "false".
Definition document_ok {A} (parse : bytes -> option A) (body : list frame) : Prop :=
  broken body = false /\ exists x, parse (carried body) = Some x.

Definition arguments_ok (sv : server) (rq : http_request) (body : list frame) (form : option multipart)
  (op : s3_op) : Prop :=
  match op with
  | OpCompleteMultipartUpload => document_ok (sv_xml_complete sv) body
  | OpCopyObject =>
      forall src, (B "x-amz-copy-source", src) ∈ rq_headers rq ->
        exists x y, x <> [] /\ y <> [] /\ LF ∉ src /\ src = x ++ B "/" ++ y
  | OpCreateBucket =>
      broken body = false /\ sv_xml_bucket sv (carried body) = true /\
      bools_ok rq (B "x-amz-bucket-object-lock-enabled")
  | OpDeleteObject => bools_ok rq (B "x-amz-bypass-governance-retention")
  | OpDeleteObjects =>
      document_ok (sv_xml_delete sv) body /\ bools_ok rq (B "x-amz-bypass-governance-retention")
  | OpListObjects => int_params_ok rq (B "max-keys")
  | OpListObjectsV2 => int_params_ok rq (B "max-keys") /\ bool_params_ok rq (B "fetch-owner")
  | OpPutObject =>
      ints_ok rq (B "content-length") /\
      match form with
      | Some m => exists k, field_value (mp_fields m) (B "key") k /\ (N.of_nat (length k) <= 1024)%N
      | None => True
      end
  | OpUploadPart => int_params_ok rq (B "partNumber") /\ ints_ok rq (B "content-length")
  | _ => True
  end.
