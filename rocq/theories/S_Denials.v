(** The code with which a request is refused that lacks valid credentials, for C100.  Nothing here
    follows the order of the checks; each case says what is wrong with the request and that what
    is needed to see this is in order. *)
From Verif Require Import M_Base M_Headers M_Errors M_Http M_Auth M_Service
  S_Path S_Headers S_SigV4 S_Chunked S_Multipart S_Service S_Dispatch.

(* The Authorization header can be read as [a]. *)
Definition signs_as (rq : http_request) (a : authorization) : Prop :=
  (exists w1 w2 w3 w4, (B "authorization", authorization_text a w1 w2 w3 w4) ∈ rq_headers rq /\
     authorization_fields_ok a w1 w2 w3 w4) /\
  calendar_date (cred_date (auth_credential a)).

(* Not a date, and not one that contains signs instead of digits either. *)
Definition wrong_date (s : bytes) : Prop :=
  length s <> 8%nat \/ (forall c, c ∈ s -> c ∈ digits) /\ ~ calendar_date s.

(* Values of x-amz-content-sha256. *)
Definition sha_value (v : bytes) : Prop :=
  v = B "UNSIGNED-PAYLOAD" \/ v = B "STREAMING-AWS4-HMAC-SHA256-PAYLOAD" \/
  (length v = 64%nat /\ forall a, a ∈ v -> a ∈ hex).

(* A request without signed form and presigned URL, sent to a server with keys. *)
Inductive header_denied (prov : provider) (rq : http_request) : s3_code -> Prop :=
| hd_anonymous : ~ has_header rq (B "authorization") -> header_denied prov rq AccessDenied
| hd_garbled v :
    (B "authorization", v) ∈ rq_headers rq ->
    (forall a w1 w2 w3 w4, authorization_fields_ok a w1 w2 w3 w4 -> v = authorization_text a w1 w2 w3 w4 ->
       wrong_date (cred_date (auth_credential a))) ->
    header_denied prov rq InvalidRequest
| hd_no_sha a :
    signs_as rq a -> ~ has_header rq (B "x-amz-content-sha256") -> header_denied prov rq InvalidRequest
| hd_bad_sha a v :
    signs_as rq a -> (B "x-amz-content-sha256", v) ∈ rq_headers rq -> ~ sha_value v ->
    header_denied prov rq XAmzContentSHA256Mismatch
| hd_unknown a v code :
    signs_as rq a -> (B "x-amz-content-sha256", v) ∈ rq_headers rq -> sha_value v ->
    prov (access_key_id (auth_credential a)) = Err code -> header_denied prov rq code
| hd_no_date a v secret :
    signs_as rq a -> (B "x-amz-content-sha256", v) ∈ rq_headers rq -> sha_value v ->
    prov (access_key_id (auth_credential a)) = Ok secret ->
    ~ has_header rq (B "x-amz-date") -> header_denied prov rq InvalidRequest
| hd_bad_date a v secret ts :
    signs_as rq a -> (B "x-amz-content-sha256", v) ∈ rq_headers rq -> sha_value v ->
    prov (access_key_id (auth_credential a)) = Ok secret ->
    (B "x-amz-date", ts) ∈ rq_headers rq -> (forall d, ~ date_text ts d) ->
    header_denied prov rq InvalidRequest
| hd_broken a v secret ts d :
    signs_as rq a -> (B "x-amz-content-sha256", v) ∈ rq_headers rq -> sha_value v ->
    v <> B "STREAMING-AWS4-HMAC-SHA256-PAYLOAD" ->
    prov (access_key_id (auth_credential a)) = Ok secret ->
    (B "x-amz-date", ts) ∈ rq_headers rq -> date_text ts d ->
    broken (rq_body rq) = true -> header_denied prov rq InvalidRequest
| hd_forged a v secret ts d :
    signs_as rq a -> (B "x-amz-content-sha256", v) ∈ rq_headers rq -> sha_value v ->
    prov (access_key_id (auth_credential a)) = Ok secret ->
    (B "x-amz-date", ts) ∈ rq_headers rq -> date_text ts d ->
    (v = B "STREAMING-AWS4-HMAC-SHA256-PAYLOAD" \/ broken (rq_body rq) = false) ->
    (forall ps payload creq, ~ header_signed prov rq (rq_path rq) a secret ts v ps payload creq) ->
    header_denied prov rq SignatureDoesNotMatch.

(* The parameters of a presigned URL can be read, its credential being [c]. *)
Definition url_in_order (ps : list (bytes * bytes)) (c : credential) : Prop :=
  exists alg ts d ex n sh sig,
    (B "X-Amz-Algorithm", alg) ∈ ps /\
    (B "X-Amz-Credential", credential_text c) ∈ ps /\ credential_fields_ok c /\
    calendar_date (cred_date c) /\
    (B "X-Amz-Date", ts) ∈ ps /\ date_text ts d /\
    (B "X-Amz-Expires", ex) ∈ ps /\ denotes ex n /\ (n < 2 ^ 32)%N /\
    (B "X-Amz-SignedHeaders", sh) ∈ ps /\ (forall a, a ∈ sh -> (N_of_ascii a < 128)%N) /\
    (B "X-Amz-Signature", sig) ∈ ps /\ length sig = 64%nat /\ (forall a, a ∈ sig -> a ∈ hex).

(* A request with a signature in its parameters [ps], sent to a server with keys. *)
Inductive url_denied (prov : provider) (rq : http_request) (ps : list (bytes * bytes)) : s3_code -> Prop :=
| ud_missing n : n ∈ presigned_names -> (forall v, (n, v) ∉ ps) -> url_denied prov rq ps InvalidRequest
| ud_bad_date ts : (B "X-Amz-Date", ts) ∈ ps -> (forall d, ~ date_text ts d) -> url_denied prov rq ps InvalidRequest
| ud_bad_signature sig :
    (B "X-Amz-Signature", sig) ∈ ps -> ~ (length sig = 64%nat /\ forall a, a ∈ sig -> a ∈ hex) ->
    url_denied prov rq ps InvalidRequest
| ud_bad_sha c v :
    url_in_order ps c -> (B "x-amz-content-sha256", v) ∈ rq_headers rq -> ~ sha_value v ->
    url_denied prov rq ps XAmzContentSHA256Mismatch
| ud_unknown c code :
    url_in_order ps c -> content_sha_ok rq ->
    prov (access_key_id c) = Err code -> url_denied prov rq ps code
| ud_forged c secret :
    url_in_order ps c -> content_sha_ok rq -> prov (access_key_id c) = Ok secret ->
    ~ presigned_authentic prov rq -> url_denied prov rq ps SignatureDoesNotMatch.

(* The fields that sign a form. *)
Definition signing_fields : list bytes :=
  [B "policy"; B "x-amz-algorithm"; B "x-amz-credential"; B "x-amz-date"; B "x-amz-signature"].
Definition form_in_order (fields : list (bytes * bytes)) (c : credential) : Prop :=
  exists policy rest ts d sig,
    field_value fields (B "policy") policy /\ (exists data, base64 data policy) /\
    field_value fields (B "x-amz-algorithm") (B "AWS4-HMAC-SHA256") /\
    field_value fields (B "x-amz-credential") (credential_text c ++ rest) /\
    credential_fields_ok c /\ calendar_date (cred_date c) /\
    field_value fields (B "x-amz-date") ts /\ date_text ts d /\
    field_value fields (B "x-amz-signature") sig.

(* A form with these fields, sent to a server with keys. *)
Inductive form_denied (prov : provider) (fields : list (bytes * bytes)) : s3_code -> Prop :=
| fd_missing n : n ∈ signing_fields -> (forall v, ~ field_value fields n v) -> form_denied prov fields InvalidRequest
| fd_bad_policy policy :
    field_value fields (B "policy") policy -> (forall data, ~ base64 data policy) ->
    form_denied prov fields InvalidRequest
| fd_unknown c code :
    form_in_order fields c -> prov (access_key_id c) = Err code -> form_denied prov fields code
| fd_forged c secret :
    form_in_order fields c -> prov (access_key_id c) = Ok secret ->
    (forall c', ~ policy_signed prov fields c') -> form_denied prov fields SignatureDoesNotMatch.
