(** Authentication of a request (/repo/src/service.rs:226-547).  Definitions only. *)
From Verif Require Export M_Http.

(* [extract_amz_content_sha256], /repo/src/service.rs:226-236. *)
Definition extract_content_sha256 (c : ctx) : result s3_code (option content_sha256) :=
  match cx_header c (B "x-amz-content-sha256") with
  | None => Ok None
  | Some v => match content_sha256_from_header_str v with
              | Some x => Ok (Some x)
              | None => Err XAmzContentSHA256Mismatch
              end
  end.

(* [extract_authorization_v4], /repo/src/service.rs:239-245. *)
Definition extract_authorization (c : ctx) : result s3_code (option authorization) :=
  match cx_header c (B "authorization") with
  | None => Ok None
  | Some v => match authorization_from_header_str v with
              | Some x => Ok (Some x)
              | None => Err InvalidRequest
              end
  end.

(* [extract_amz_date], /repo/src/service.rs:248-252. *)
Definition extract_amz_date (c : ctx) : result s3_code (option amz_date) :=
  match cx_header c (B "x-amz-date") with
  | None => Ok None
  | Some v => match amz_date_from_header_str v with
              | Some x => Ok (Some x)
              | None => Err InvalidRequest
              end
  end.

(* [check_post_signature], /repo/src/service.rs:297-387.  The credential parser's unread input
   is dropped (:358). *)
Definition check_post_signature (sv : server) (c : ctx) : result s3_code ctx :=
  match sv_auth sv with
  | None => Err NotSupported
  | Some provider =>
      match cx_mime c with
      | None => Err InternalError (* unreachable: the caller has seen the type, :270 *)
      | Some mi =>
          match mi_boundary mi with
          | None => Err InvalidRequest
          | Some boundary =>
              match transform_multipart boundary (cx_body c) with
              | None => Err InvalidRequest
              | Some m =>
                  match find_field_value m (B "policy"), find_field_value m (B "x-amz-algorithm"),
                        find_field_value m (B "x-amz-credential"), find_field_value m (B "x-amz-date"),
                        find_field_value m (B "x-amz-signature") with
                  | Some policy, Some alg, Some cred, Some date, Some sig =>
                      if negb (is_base64_encoded policy) then Err InvalidRequest
                      else if negb (beq alg (B "AWS4-HMAC-SHA256")) then Err NotSupported
                      else
                        match parse_credential cred with
                        | None => Err InvalidRequest
                        | Some (cr, _) =>
                            match amz_date_from_header_str date with
                            | None => Err InvalidRequest
                            | Some d =>
                                match provider (access_key_id cr) with
                                | Err e => Err e
                                | Ok secret =>
                                    if beq (calculate_signature policy secret d (aws_region cr)) sig
                                    then Ok (with_multipart (with_body c []) m)
                                    else Err SignatureDoesNotMatch
                                end
                            end
                        end
                  | _, _, _, _, _ => Err InvalidRequest
                  end
              end
          end
      end
  end.

(* [check_presigned_url], /repo/src/service.rs:390-442. *)
Definition check_presigned_url (sv : server) (c : ctx) : result s3_code ctx :=
  let qs := default [] (cx_qs c) in
  match presigned_from_query qs with
  | None => Err InvalidRequest
  | Some pu =>
      match extract_content_sha256 c with
      | Err e => Err e
      | Ok _ =>
          match sv_auth sv with
          | None => Err NotSupported
          | Some provider =>
              match provider (access_key_id (pu_credential pu)) with
              | Err e => Err e
              | Ok secret =>
                  let hs := map_signed_headers (cx_headers c) (pu_signed_headers pu) in
                  let creq := create_presigned_canonical_request (cx_method c) (cx_raw_path c) qs hs in
                  let region := aws_region (pu_credential pu) in
                  let sts := create_string_to_sign creq (pu_amz_date pu) region in
                  if beq (calculate_signature sts secret (pu_amz_date pu) region) (pu_signature pu)
                  then Ok c
                  else Err SignatureDoesNotMatch
              end
          end
      end
  end.

(* [sort_unstable] on the signed header names, /repo/src/service.rs:451. *)
Definition sort_names (l : list bytes) : list bytes := sort_by bytes_cmp l.

(* The payload descriptor of a request whose body has been read, /repo/src/service.rs:511-517. *)
Definition payload_of (x : content_sha256) (b : bytes) : payload :=
  match x with
  | UnsignedPayload => PlUnsigned
  | _ => match b with [] => PlEmpty | _ => PlSingleChunk b end
  end.

(* [check_header_auth], /repo/src/service.rs:445-547. *)
Definition check_header_auth (sv : server) (c : ctx) : result s3_code ctx :=
  match extract_authorization c with
  | Err e => Err e
  | Ok None => match sv_auth sv with Some _ => Err AccessDenied | None => Ok c end
  | Ok (Some a) =>
      match sv_auth sv with
      | None => Err NotSupported
      | Some provider =>
          match extract_content_sha256 c with
          | Err e => Err e
          | Ok None => Err InvalidRequest
          | Ok (Some sha) =>
              match provider (access_key_id (auth_credential a)) with
              | Err e => Err e
              | Ok secret =>
                  match extract_amz_date c with
                  | Err e => Err e
                  | Ok None => Err InvalidRequest
                  | Ok (Some d) =>
                      let region := aws_region (auth_credential a) in
                      let hs := map_signed_headers (cx_headers c) (sort_names (signed_headers a)) in
                      let sign p :=
                        let creq := create_canonical_request (cx_method c) (cx_raw_path c)
                                      (default [] (cx_qs c)) hs p in
                        calculate_signature (create_string_to_sign creq d region) secret d region in
                      match sha with
                      | MultipleChunks =>
                          let sig := sign PlMultipleChunks in
                          if beq sig (auth_signature a) then
                            Ok (with_body c (frames_of_stream (aws_chunked d region secret sig (cx_body c))))
                          else Err SignatureDoesNotMatch
                      | _ =>
                          match to_bytes (cx_body c) with
                          | None => Err InvalidRequest
                          | Some b =>
                              if beq (sign (payload_of sha b)) (auth_signature a)
                              then Ok (with_body c (body_from b))
                              else Err SignatureDoesNotMatch
                          end
                      end
                  end
              end
          end
      end
  end.

(* [check_signature], /repo/src/service.rs:264-286. *)
Definition check_signature (sv : server) (c : ctx) : result s3_code ctx :=
  if beq (cx_method c) (B "POST") && match cx_mime c with Some m => mi_form_data m | None => false end
  then check_post_signature sv c
  else
    match cx_query c (B "X-Amz-Signature") with
    | Some _ => check_presigned_url sv c
    | None => check_header_auth sv c
    end.

(* [SimpleAuth::get_secret_access_key], /repo/src/auth.rs:44-53: the registered pairs, later
   registrations replacing earlier ones (:31-33). *)
Definition simple_auth (keys : list (bytes * bytes)) (access_key : bytes) : result s3_code bytes :=
  match find (fun p => beq p.1 access_key) (rev keys) with
  | Some p => Ok p.2
  | None => Err NotSignedUp
  end.
