(** HTTP requests as the service receives them and the request context built from them
    (/repo/src/service.rs:183-261, /repo/src/ops.rs:76-136).  Definitions only. *)
From Verif Require Export M_Base M_Path M_Headers M_Crypto M_Utf8 M_Ordered M_SigV4 M_Chunked
  M_Multipart M_Errors.

(* The parts of [hyper::Request] that the code reads, /repo/src/service.rs:145-179: method,
   path and query of the URI as sent, headers in order of arrival with the names already
   lowercased by hyper, body frames. *)
Record http_request := HttpRequest {
  rq_method : bytes; rq_path : bytes; rq_query : option bytes;
  rq_headers : list (bytes * bytes); rq_body : list frame
}.

(* What the code reads from a parsed [Mime], /repo/src/service.rs:271,333-335. *)
Record mime := Mime { mi_form_data : bool; mi_boundary : option bytes }.

(* The configured authentication provider and the external parsers.
   [sv_auth]: [S3Service::auth] with [get_secret_access_key], /repo/src/auth.rs:10-15, an error
   given by its code (NotSignedUp or the code of [S3AuthError::Other]).
   [sv_mime]: [str::parse::<Mime>], /repo/src/service.rs:221.
   [sv_xml_bucket], [sv_xml_complete], [sv_xml_delete]: [quick_xml::de::from_reader] at the
   three request types, /repo/src/ops/create_bucket.rs:43-46, complete_multipart_upload.rs:47-50
   (absent document, or the part numbers with a missing list read as empty),
   delete_objects.rs:43-45 (the keys).
   [sv_uuid]: the value of [Uuid::new_v4()] for this request, /repo/src/storages/fs.rs:718. *)
Record server := Server {
  sv_auth : option (bytes -> result s3_code bytes);
  sv_mime : bytes -> option mime;
  sv_xml_bucket : bytes -> bool;
  sv_xml_complete : bytes -> option (option (list (option Z)));
  sv_xml_delete : bytes -> option (list bytes);
  sv_uuid : bytes
}.

(** ** Percent-decoding *)

(* Percent-decoding that leaves malformed escapes alone: [urlencoding::decode_binary]
   (/repo/src/service.rs:184) and [percent_encoding::percent_decode] inside serde_urlencoded
   (/repo/src/data_structures/ordered_qs.rs:28). *)
Fixpoint pct_decode (l : bytes) : bytes :=
  match l with
  | [] => []
  | a :: l1 =>
      if aeq a "%" then
        match l1 with
        | h :: d :: l2 =>
            match hex_val h, hex_val d with
            | Some x, Some y => ascii_of_N (x * 16 + y) :: pct_decode l2
            | _, _ => a :: pct_decode l1
            end
        | _ => a :: pct_decode l1
        end
      else a :: pct_decode l1
  end.

(* [urlencoding::decode] in [decode_uri_path], /repo/src/service.rs:183-186: the result must be
   UTF-8. *)
Definition decode_uri_path (path : bytes) : option bytes :=
  let d := pct_decode path in
  if utf8_valid d then Some d else None.

(* '+' means a space in a query, serde_urlencoded, /repo/src/data_structures/ordered_qs.rs:28. *)
Definition plus_to_space (a : ascii) : ascii := if aeq a "+" then " "%char else a.

(* Name or value of a query pair, serde_urlencoded, /repo/src/data_structures/ordered_qs.rs:28. *)
Definition qs_decode (l : bytes) : bytes := utf8_lossy (pct_decode (map plus_to_space l)).

(* One '&'-separated piece, serde_urlencoded, /repo/src/data_structures/ordered_qs.rs:28. *)
Definition qs_piece (l : bytes) : bytes * bytes :=
  match split_once "=" l with
  | Some (n, v) => (qs_decode n, qs_decode v)
  | None => (qs_decode l, [])
  end.

(* [serde_urlencoded::from_str] at [Vec<(String, String)>], which never fails: empty pieces are
   skipped, /repo/src/data_structures/ordered_qs.rs:28. *)
Definition qs_parse (query : bytes) : list (bytes * bytes) :=
  map qs_piece (List.filter (fun x => negb (beq x [])) (split_all "&" query)).

(** ** The request context *)

(* [ReqContext], /repo/src/ops.rs:76-92. *)
Record ctx := Ctx {
  cx_method : bytes; cx_raw_path : bytes; cx_headers : list (bytes * bytes);
  cx_qs : option (list (bytes * bytes)); cx_body : list frame; cx_path : s3path;
  cx_mime : option mime; cx_multipart : option multipart
}.

(* Setting [ctx.body] and [ctx.multipart], /repo/src/service.rs:384,527,546. *)
Definition with_body (c : ctx) (b : list frame) : ctx :=
  Ctx (cx_method c) (cx_raw_path c) (cx_headers c) (cx_qs c) b (cx_path c) (cx_mime c)
    (cx_multipart c).
Definition with_multipart (c : ctx) (m : multipart) : ctx :=
  Ctx (cx_method c) (cx_raw_path c) (cx_headers c) (cx_qs c) (cx_body c) (cx_path c) (cx_mime c)
    (Some m).

(* [ctx.headers.get], /repo/src/data_structures/ordered_headers.rs:58-66. *)
Definition cx_header (c : ctx) (name : bytes) : option bytes := ordered_get (cx_headers c) name.

(* [ctx.query_strings.as_ref().and_then(|qs| qs.get(name))], /repo/src/ops.rs:122. *)
Definition cx_query (c : ctx) (name : bytes) : option bytes :=
  match cx_qs c with
  | Some q => ordered_get q name
  | None => None
  end.

(* [extract_s3_path], /repo/src/service.rs:189-203. *)
Definition path_error_code (e : path_error) : s3_code :=
  match e with
  | M_Path.InvalidPath => InvalidURI
  | M_Path.InvalidBucketName => InvalidBucketName
  | M_Path.KeyTooLong => KeyTooLongError
  end.

(* [extract_mime], /repo/src/service.rs:219-223. *)
Definition extract_mime (sv : server) (hs : list (bytes * bytes)) : result s3_code (option mime) :=
  match ordered_get hs (B "content-type") with
  | None => Ok None
  | Some t => match sv_mime sv t with Some m => Ok (Some m) | None => Err InvalidRequest end
  end.

(* The context built at the start of [handle], /repo/src/service.rs:146-161. *)
Definition make_ctx (sv : server) (rq : http_request) : result s3_code ctx :=
  match decode_uri_path (rq_path rq) with
  | None => Err InvalidURI
  | Some uri =>
      match try_from_path uri with
      | Err e => Err (path_error_code e)
      | Ok p =>
          match headers_from_req (rq_headers rq) with
          | None => Err InvalidRequest
          | Some hs =>
              let qs := match rq_query rq with
                        | Some q => Some (qs_from_pairs (qs_parse q))
                        | None => None
                        end in
              match extract_mime sv hs with
              | Err c => Err c
              | Ok m => Ok (Ctx (rq_method rq) (rq_path rq) hs qs (rq_body rq) p m None)
              end
          end
      end
  end.

(* [hyper::body::to_bytes]: the whole body, or an error if a frame is one,
   /repo/src/service.rs:506-509, /repo/src/utils/body.rs:15. *)
Fixpoint to_bytes (fs : list frame) : option bytes :=
  match fs with
  | [] => Some []
  | FErr :: _ => None
  | FData b :: fs' => match to_bytes fs' with Some r => Some (b ++ r) | None => None end
  end.

(* [Body::from(bytes)]: no frame for an empty buffer, /repo/src/service.rs:527. *)
Definition body_from (b : bytes) : list frame :=
  match b with [] => [] | _ => [FData b] end.
