(** The operation handlers: which request each one takes, what it asks of the storage and how
    it answers (/repo/src/ops.rs, /repo/src/ops/*.rs, /repo/src/utils/response.rs,
    /repo/src/output.rs).  Definitions only. *)
From Verif Require Export M_Http M_Json M_Storage.

(** ** Handlers *)

(* The handlers, /repo/src/ops.rs:3-20. *)
Inductive s3_op :=
| OpCompleteMultipartUpload
| OpCopyObject
| OpCreateBucket
| OpCreateMultipartUpload
| OpDeleteBucket
| OpDeleteObject
| OpDeleteObjects
| OpGetBucketLocation
| OpGetObject
| OpHeadBucket
| OpHeadObject
| OpListBuckets
| OpListObjects
| OpListObjectsV2
| OpPutObject
| OpUploadPart.

(* [setup_handlers], /repo/src/ops.rs:35-58: the order in which they are asked. *)
Definition handlers : list s3_op :=
  [OpCompleteMultipartUpload; OpCopyObject; OpCreateBucket; OpCreateMultipartUpload;
   OpDeleteBucket; OpDeleteObject; OpDeleteObjects; OpGetBucketLocation; OpGetObject;
   OpHeadBucket; OpHeadObject; OpListBuckets; OpListObjects; OpListObjectsV2; OpPutObject;
   OpUploadPart].

(* [.is_some()], /repo/src/ops/complete_multipart_upload.rs:31 and others. *)
Definition some {A} (o : option A) : bool := match o with Some _ => true | None => false end.

(* The [is_match] functions: /repo/src/ops/complete_multipart_upload.rs:27-32,
   copy_object.rs:34-38, create_bucket.rs:24-27, create_multipart_upload.rs:30-35,
   delete_bucket.rs:18-21, delete_object.rs:21-24, delete_objects.rs:23-28,
   get_bucket_location.rs:18-23, get_object.rs:28-31, head_bucket.rs:18-21,
   head_object.rs:28-31, list_buckets.rs:17-20, list_objects.rs:18-25,
   list_objects_v2.rs:18-24, put_object.rs:34-47, upload_part.rs:23-27. *)
Definition is_match (op : s3_op) (c : ctx) : bool :=
  let m x := beq (cx_method c) (B x) in
  let q x := cx_query c (B x) in
  match op with
  | OpCompleteMultipartUpload => m "POST"%string && is_object (cx_path c) && some (q "uploadId"%string)
  | OpCopyObject =>
      m "PUT"%string && is_object (cx_path c) && some (cx_header c (B "x-amz-copy-source"))
  | OpCreateBucket => m "PUT"%string && is_bucket (cx_path c)
  | OpCreateMultipartUpload => m "POST"%string && is_object (cx_path c) && some (q "uploads"%string)
  | OpDeleteBucket => m "DELETE"%string && is_bucket (cx_path c)
  | OpDeleteObject => m "DELETE"%string && is_object (cx_path c)
  | OpDeleteObjects => m "POST"%string && is_bucket (cx_path c) && some (q "delete"%string)
  | OpGetBucketLocation => m "GET"%string && is_bucket (cx_path c) && some (q "location"%string)
  | OpGetObject => m "GET"%string && is_object (cx_path c)
  | OpHeadBucket => m "HEAD"%string && is_bucket (cx_path c)
  | OpHeadObject => m "HEAD"%string && is_object (cx_path c)
  | OpListBuckets => m "GET"%string && is_root (cx_path c)
  | OpListObjects => m "GET"%string && is_bucket (cx_path c) && negb (some (q "list-type"%string))
  | OpListObjectsV2 =>
      m "GET"%string && is_bucket (cx_path c) &&
      match q "list-type"%string with Some t => beq t (B "2") | None => false end
  | OpPutObject =>
      if m "POST"%string then is_bucket (cx_path c) && some (cx_multipart c)
      else if m "PUT"%string then is_object (cx_path c) && negb (some (q "uploadId"%string))
      else false
  | OpUploadPart => m "PUT"%string && some (q "partNumber"%string) && some (q "uploadId"%string)
  end.

(** ** What the storage is asked *)

(* Outcome of extracting the operation's input: a value, an S3 error or a panic of the request
   task ([panic!] at /repo/src/ops.rs:103,113,124,133, /repo/src/ops/put_object.rs:114). *)
Inductive outcome (A : Type) :=
| Done (a : A)
| Fail (c : s3_code)
| Panic.
Arguments Done {A} a.
Arguments Fail {A} c.
Arguments Panic {A}.

(* [?], /repo/src/service.rs:145-179. *)
Definition obind {A B} (o : outcome A) (f : A -> outcome B) : outcome B :=
  match o with Done a => f a | Fail c => Fail c | Panic => Panic end.

(* [unwrap_object_path], /repo/src/ops.rs:100-107. *)
Definition unwrap_object_path (c : ctx) : outcome (bytes * bytes) :=
  match cx_path c with PObject b k => Done (b, k) | _ => Panic end.

(* [unwrap_bucket_path], /repo/src/ops.rs:110-117. *)
Definition unwrap_bucket_path (c : ctx) : outcome bytes :=
  match cx_path c with PBucket b => Done b | _ => Panic end.

(* [Option::unwrap], [unwrap_qs], [unwrap_header]: /repo/src/ops.rs:120-136,
   /repo/src/ops/put_object.rs:97. *)
Definition unwrap {A} (o : option A) : outcome A :=
  match o with Some a => Done a | None => Panic end.

(* [ok_or] and [map_err]: an error instead of a value, /repo/src/ops/put_object.rs:99-101. *)
Definition ok_or {A} (o : option A) (e : s3_code) : outcome A :=
  match o with Some a => Done a | None => Fail e end.

(* [str::parse::<i64>]: optional sign, digits, range, /repo/src/ops/upload_part.rs:54. *)
Definition parse_i64 (l : bytes) : option Z :=
  match l with
  | [] => None
  | a :: l' =>
      let neg := aeq a "-" in
      let ds := if neg || aeq a "+" then l' else l in
      match ds with
      | [] => None
      | _ =>
          if forallb is_digit ds then
            let v := Z.of_N (dec_val ds) in
            if neg then (if (v <=? Z.of_N i64_max + 1)%Z then Some (- v)%Z else None)
            else (if (v <=? Z.of_N i64_max)%Z then Some v else None)
          else None
      end
  end.

(* [str::parse::<bool>], /repo/src/ops/delete_object.rs:49-53. *)
Definition parse_bool (l : bytes) : option bool :=
  if beq l (B "true") then Some true
  else if beq l (B "false") then Some false else None.

(* [assign] on headers and queries: parse the value if there is one,
   /repo/src/data_structures/ordered_headers.rs:69-79, ordered_qs.rs:43-49. *)
Definition assign {A} (parse : bytes -> option A) (o : option bytes) : outcome (option A) :=
  match o with
  | None => Done None
  | Some v => match parse v with Some a => Done (Some a) | None => Fail InvalidRequest end
  end.

(* [deserialize_xml_body] with [invalid_request!], /repo/src/utils/body.rs:14-18 and its
   callers. *)
Definition xml_body {A} (parse : bytes -> option A) (c : ctx) : outcome A :=
  match to_bytes (cx_body c) with
  | None => Fail InvalidRequest
  | Some b => ok_or (parse b) InvalidRequest
  end.

(* Prefix of user metadata headers, /repo/src/ops/put_object.rs:67-75,181-191: collect the
   pairs named [x-amz-meta-*] into a [HashMap], the empty name excluded. *)
Definition collect_metadata (l : list (bytes * bytes)) : metadata :=
  fold_left (fun m h => match strip_prefix (B "x-amz-meta-") h.1 with
                        | Some (a :: k) => md_insert (a :: k) h.2 m
                        | _ => m
                        end) l [].

(* [if !metadata.is_empty()], /repo/src/ops/put_object.rs:79,192. *)
Definition non_empty (m : metadata) : option metadata :=
  match m with [] => None | _ => Some m end.

(* [transform_file_stream], /repo/src/utils/body.rs:31-42. *)
Definition frames_of_file (r : list bytes * file_end) : list frame :=
  map FData r.1 ++ match r.2 with FileOk => [] | _ => [FErr] end.

(* [make_ascii_lowercase] on the field names, /repo/src/ops/put_object.rs:70. *)
Definition lower_names (l : list (bytes * bytes)) : list (bytes * bytes) :=
  map (fun f => (map to_lower f.1, f.2)) l.

(* [extract] of PutObject, /repo/src/ops/put_object.rs:92-202, with [extract_from_multipart],
   :61-89.  Only the fields that the storage reads. *)
Definition extract_put (c : ctx) : outcome s_req :=
  obind (if beq (cx_method c) (B "POST") then
           obind (unwrap_bucket_path c) (fun b =>
           obind (unwrap (cx_multipart c)) (fun m =>
           obind (ok_or (find_field_value m (B "key")) UserKeyMustBeSpecified) (fun k =>
           if check_key k then Done (b, k) else Fail KeyTooLongError)))
         else if beq (cx_method c) (B "PUT") then unwrap_object_path c
         else Panic) (fun bk =>
  obind (assign parse_i64 (cx_header c (B "content-length"))) (fun len =>
  let class := cx_header c (B "x-amz-storage-class") in
  let md := non_empty (collect_metadata (cx_headers c)) in
  match cx_multipart c with
  | None => Done (RPutObject bk.1 bk.2 class len md (Some (cx_body c)))
  | Some m =>
      let class' := match find_field_value m (B "x-amz-storage-class") with
                    | Some x => Some x
                    | None => class
                    end in
      let md' := match non_empty (collect_metadata (lower_names (mp_fields m))) with
                 | Some x => Some x
                 | None => md
                 end in
      Done (RPutObject bk.1 bk.2 class' len md' (Some (frames_of_file (mp_stream m))))
  end)).

(* The [extract] functions: /repo/src/ops/complete_multipart_upload.rs:46-67,
   copy_object.rs:52-147, create_bucket.rs:41-69, create_multipart_upload.rs:99-162,
   delete_bucket.rs:35-49, delete_object.rs:38-63, delete_objects.rs:42-64,
   get_bucket_location.rs:37-52, get_object.rs:45-75, head_bucket.rs:35-50,
   head_object.rs:45-75, list_buckets.rs:34-36, list_objects.rs:39-60,
   list_objects_v2.rs:38-68, upload_part.rs:41-88.  Only the fields that the storage reads;
   all parse errors are kept. *)
Definition extract (sv : server) (op : s3_op) (c : ctx) : outcome s_req :=
  match op with
  | OpCompleteMultipartUpload =>
      obind (xml_body (sv_xml_complete sv) c) (fun parts =>
      obind (unwrap_object_path c) (fun bk =>
      obind (unwrap (cx_query c (B "uploadId"))) (fun u =>
      Done (RCompleteMultipartUpload bk.1 bk.2 u parts))))
  | OpCopyObject =>
      obind (unwrap_object_path c) (fun bk =>
      obind (unwrap (cx_header c (B "x-amz-copy-source"))) (fun src =>
      if copy_source_try_match src then Done (RCopyObject src bk.1 bk.2) else Fail InvalidRequest))
  | OpCreateBucket =>
      obind (unwrap_bucket_path c) (fun b =>
      obind (xml_body (fun x => if sv_xml_bucket sv x then Some tt else None) c) (fun _ =>
      obind (assign parse_bool (cx_header c (B "x-amz-bucket-object-lock-enabled"))) (fun _ =>
      Done (RCreateBucket b))))
  | OpCreateMultipartUpload =>
      obind (unwrap_object_path c) (fun bk => Done (RCreateMultipartUpload bk.1 bk.2 (sv_uuid sv)))
  | OpDeleteBucket => obind (unwrap_bucket_path c) (fun b => Done (RDeleteBucket b))
  | OpDeleteObject =>
      obind (unwrap_object_path c) (fun bk =>
      obind (assign parse_bool (cx_header c (B "x-amz-bypass-governance-retention"))) (fun _ =>
      Done (RDeleteObject bk.1 bk.2)))
  | OpDeleteObjects =>
      obind (unwrap_bucket_path c) (fun b =>
      obind (xml_body (sv_xml_delete sv) c) (fun keys =>
      obind (assign parse_bool (cx_header c (B "x-amz-bypass-governance-retention"))) (fun _ =>
      Done (RDeleteObjects b keys))))
  | OpGetBucketLocation => obind (unwrap_bucket_path c) (fun b => Done (RGetBucketLocation b))
  | OpGetObject =>
      obind (unwrap_object_path c) (fun bk =>
      Done (RGetObject bk.1 bk.2 (cx_header c (B "range"))))
  | OpHeadBucket => obind (unwrap_bucket_path c) (fun b => Done (RHeadBucket b))
  | OpHeadObject => obind (unwrap_object_path c) (fun bk => Done (RHeadObject bk.1 bk.2))
  | OpListBuckets => Done RListBuckets
  | OpListObjects =>
      obind (unwrap_bucket_path c) (fun b =>
      obind (assign parse_i64 (cx_query c (B "max-keys"))) (fun _ =>
      Done (RListObjects b (cx_query c (B "prefix")))))
  | OpListObjectsV2 =>
      obind (unwrap_bucket_path c) (fun b =>
      obind (assign parse_bool (cx_query c (B "fetch-owner"))) (fun _ =>
      obind (assign parse_i64 (cx_query c (B "max-keys"))) (fun _ =>
      Done (RListObjectsV2 b (cx_query c (B "prefix"))))))
  | OpPutObject => extract_put c
  | OpUploadPart =>
      obind (unwrap_object_path c) (fun _ =>
      obind (unwrap (cx_query c (B "partNumber"))) (fun pn =>
      obind (ok_or (parse_i64 pn) InvalidRequest) (fun n =>
      obind (unwrap (cx_query c (B "uploadId"))) (fun u =>
      obind (assign parse_i64 (cx_header c (B "content-length"))) (fun _ =>
      Done (RUploadPart u n (Some (cx_body c))))))))
  end.

(** ** Responses *)

(* XML written by [XmlWriterExt], /repo/src/utils/xml.rs:34-80: elements with text or with
   child elements.  The text form (declaration, escaping) is left to the xml-rs crate. *)
Inductive xml :=
| XText (name text : bytes)
| XStack (name : bytes) (children : list xml).

(* Response bodies: empty, an XML document, or the stream of an open file. *)
Inductive resp_body :=
| RbEmpty
| RbXml (x : xml)
| RbFile (h : handle) (off limit : N).

(* [hyper::Response]; header names are unique (only [insert] is used),
   /repo/src/utils/response.rs:39-103. *)
Record response := Response {
  rs_status : N; rs_headers : list (bytes * bytes); rs_body : resp_body
}.

(* [HeaderValue::try_from], [HeaderValue::from_bytes]: bytes from 32 on except DEL, and tab,
   /repo/src/utils/response.rs:53,98. *)
Definition header_value_ok (v : bytes) : bool := forallb is_value_token v.

(* [HeaderName::from_bytes]: token characters, at most 65535 of them, lowercased,
   /repo/src/utils/response.rs:97. *)
Definition header_name_of (n : bytes) : option bytes :=
  if forallb is_token n && negb (beq n []) && (N.of_nat (length n) <=? 65535)%N
  then Some (map to_lower n) else None.

(* [set_optional_header] with a value, /repo/src/utils/response.rs:47-57; [None] is an error. *)
Definition set_header (n : bytes) (v : option bytes) (hs : option (list (bytes * bytes)))
  : option (list (bytes * bytes)) :=
  match hs, v with
  | None, _ => None
  | Some hs, None => Some hs
  | Some hs, Some v => if header_value_ok v then Some (md_insert n v hs) else None
  end.

(* [set_metadata_headers], /repo/src/utils/response.rs:91-102. *)
Definition set_metadata_headers (md : option metadata) (hs : option (list (bytes * bytes)))
  : option (list (bytes * bytes)) :=
  fold_left (fun hs p => match hs, header_name_of (B "x-amz-meta-" ++ p.1) with
                         | Some hs', Some n =>
                             if header_value_ok p.2 then Some (md_insert n p.2 hs') else None
                         | _, _ => None
                         end) (default [] md) hs.

(* [set_mime(&mime::TEXT_XML)], /repo/src/utils/response.rs:86. *)
Definition xml_type : bytes * bytes := (B "content-type", B "text/xml").

(* Response with an XML document, /repo/src/utils/response.rs:69-89. *)
Definition xml_response (st : N) (x : xml) : response := Response st [xml_type] (RbXml x).

(* [wrap_internal_error], /repo/src/ops.rs:138-148. *)
Definition wrap (hs : option (list (bytes * bytes))) (st : N) (b : resp_body) : sres response :=
  match hs with
  | Some hs => Ok (Response st hs b)
  | None => Err InternalError
  end.

(* [u64]/[i64] [to_string], /repo/src/ops/get_object.rs:95. *)
Definition num (n : N) : bytes := B (pretty n).

(* [opt_element], /repo/src/utils/xml.rs:62-69. *)
Definition opt_element (n : bytes) (v : option bytes) : list xml :=
  match v with Some t => [XText n t] | None => [] end.

(* One [Contents] element of a listing, without the time stamp,
   /repo/src/ops/list_objects.rs:73-84. *)
Definition contents_xml (o : bytes * N) : xml :=
  XStack (B "Contents") [XText (B "Key") o.1; XText (B "Size") (num o.2)].

(* The [try_into_response] functions for successful answers, time stamps left out:
   /repo/src/ops/complete_multipart_upload.rs:77-105, copy_object.rs:151-186,
   create_bucket.rs:72-77, create_multipart_upload.rs:56-95, delete_bucket.rs:52-54,
   delete_object.rs:66-77, delete_objects.rs:68-111, get_bucket_location.rs:55-64,
   get_object.rs:78-159, head_bucket.rs:53-55, head_object.rs:78-153, list_buckets.rs:40-62,
   list_objects.rs:64-101, list_objects_v2.rs:72-111, put_object.rs:205-230,
   upload_part.rs:91-113.  [Delimiter] and [EncodingType] are echoed from the query
   (/repo/src/storages/fs.rs:553-554,620-621). *)
Definition respond_ok (op : s3_op) (c : ctx) (a : s_ans) : sres response :=
  match op, a with
  | OpGetBucketLocation, _ => Ok (xml_response 200 (XText (B "LocationConstraint") []))
  | OpDeleteBucket, _ => Ok (Response 204 [] RbEmpty)
  | OpDeleteObject, _ => Ok (Response 204 [] RbEmpty)
  | _, ACompleted b k tag =>
      Ok (xml_response 200 (XStack (B "CompleteMultipartUploadResult")
            [XText (B "Bucket") b; XText (B "Key") k; XText (B "ETag") tag]))
  | _, ACopy tag =>
      Ok (xml_response 200 (XStack (B "CopyObjectResult") [XText (B "ETag") tag]))
  | _, ACreated b k u =>
      Ok (xml_response 200 (XStack (B "InitialMultipartUploadResult")
            [XText (B "Bucket") b; XText (B "Key") k; XText (B "UploadId") u]))
  | _, ADeleted ks =>
      Ok (xml_response 200 (XStack (B "DeleteResult")
            (map (fun k => XStack (B "Deleted") [XText (B "Key") k]) ks)))
  | _, AGet h off lim len md tag =>
      wrap (set_metadata_headers md
              (set_header (B "etag") (Some tag)
                (set_header (B "content-length") (Some (num len)) (Some []))))
        200 (RbFile h off lim)
  | _, AHead size md =>
      wrap (set_metadata_headers md
              (set_header (B "content-type") (Some (B "application/octet-stream"))
                (set_header (B "content-length") (Some (num size)) (Some []))))
        200 RbEmpty
  | _, ABuckets names =>
      Ok (xml_response 200 (XStack (B "ListAllMyBucketsResult")
            [XStack (B "Buckets") (map (fun n => XStack (B "Bucket") [XText (B "Name") n]) names)]))
  | _, AList b objs count =>
      Ok (xml_response 200 (XStack (B "ListBucketResult")
            (map contents_xml objs
             ++ [XText (B "Name") b]
             ++ opt_element (B "Delimiter") (cx_query c (B "delimiter"))
             ++ opt_element (B "EncodingType") (cx_query c (B "encoding-type"))
             ++ match count with Some n => [XText (B "KeyCount") (num n)] | None => [] end)))
  | _, APut tag => wrap (set_header (B "etag") tag (Some [])) 200 RbEmpty
  | _, APart tag => wrap (set_header (B "etag") (Some tag) (Some [])) 200 RbEmpty
  | _, ADone => Ok (Response 200 [] RbEmpty)
  end.

(* [S3Output for S3StorageResult], /repo/src/output.rs:17-30. *)
Definition respond (op : s3_op) (c : ctx) (a : sres s_ans) : sres response :=
  match a with
  | Ok a => respond_ok op c a
  | Err e => Err e
  end.

(* [XmlErrorResponse::try_into_response], /repo/src/output.rs:32-55, without the message. *)
Definition error_response (c : s3_code) : response :=
  xml_response (response_status c) (XStack (B "Error") [XText (B "Code") (code_str c)]).
