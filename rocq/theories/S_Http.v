(** Specification vocabulary for HTTP exchanges with the server: what a client sees. *)
From Verif Require Import M_Base M_Headers M_Path M_Chunked M_BytesStream M_Fs M_Json M_Storage M_Http M_Ops M_Service
  S_Path S_Headers S_Chunked S_Storage S_Store S_Service S_Dispatch S_Calls.

(* One request handled alone: the store afterwards and the reply. *)
Definition exchange (e : env) (sv : server) (rq : http_request) (s : fs) : fs * reply :=
  run e (service e sv rq) s.

(* The store after a sequence of requests, each with the server (key, clock-free oracles, next
   upload id) that handles it. *)
Fixpoint after_requests (e : env) (xs : list (server * http_request)) (s : fs) : fs :=
  match xs with
  | [] => s
  | x :: xs' => after_requests e xs' (exchange e x.1 x.2 s).1
  end.

(* A response that reports success: a status of 2xx and no error document. *)
Definition success (resp : response) : Prop :=
  (200 <= rs_status resp < 300)%N /\ forall children, rs_body resp <> RbXml (XStack (B "Error") children).

(* Requests as hyper delivers them: header names are lower-case tokens. *)
Definition name_chars : bytes := letters ++ digits ++ B "!#$%&'*+-.^_`|~".
Definition wire (rq : http_request) : Prop :=
  forall h, h ∈ rq_headers rq -> h.1 <> [] /\ (N.of_nat (length h.1) <= 65535)%N /\ forall a, a ∈ h.1 -> a ∈ name_chars.

(* The request passes the checks and reaches the storage. *)
Definition accepted (sv : server) (rq : http_request) : Prop :=
  exists op c r, front sv rq = FrCall op c r.

(* The request does not write or delete the object [k] of [b] and has ordinary names. *)
Definition harmless (b k : bytes) (x : server * http_request) : Prop :=
  forall op c r, front x.1 x.2 = FrCall op c r -> plain_req r /\ ~ affects r b k.

(* Uploads, downloads and metadata requests for one object. *)
Definition puts_object (rq : http_request) (b k : bytes) : Prop :=
  rq_method rq = B "PUT" /\ request_path rq (PObject b k) /\
  ~ has_param rq (B "uploadId") /\ ~ has_header rq (B "x-amz-copy-source").
Definition gets_object (rq : http_request) (b k : bytes) : Prop :=
  rq_method rq = B "GET" /\ request_path rq (PObject b k).
Definition heads_object (rq : http_request) (b k : bytes) : Prop :=
  rq_method rq = B "HEAD" /\ request_path rq (PObject b k).

(* The data that the body of a request delivers: the body itself, or, when it is
   signed in chunks, the data of its chunks. *)
Definition streaming (rq : http_request) : Prop :=
  (B "x-amz-content-sha256", B "STREAMING-AWS4-HMAC-SHA256-PAYLOAD") ∈ rq_headers rq.
Definition only_streaming (rq : http_request) : Prop :=
  streaming rq /\ forall v, (B "x-amz-content-sha256", v) ∈ rq_headers rq ->
    v = B "STREAMING-AWS4-HMAC-SHA256-PAYLOAD".
Definition delivers (sv : server) (rq : http_request) (data : bytes) : Prop :=
  ((~ only_streaming rq \/ has_param rq (B "X-Amz-Signature") \/ sv_auth sv = None) /\
   data = carried (rq_body rq) /\ broken (rq_body rq) = false) \/
  (streaming rq /\ exists prov a secret ts sha ps payload creq d chunks rest,
     sv_auth sv = Some prov /\
     header_signed prov rq (rq_path rq) a secret ts sha ps payload creq /\ date_text ts d /\
     carried (rq_body rq) =
       encode_chunks d (aws_region (auth_credential a)) secret (auth_signature a) chunks ++ rest /\
     sizes_ok chunks /\ data = concat (map snd chunks) /\
     (* nothing is left but perhaps a beginning of a further header line *)
     LF ∉ rest /\ broken (rq_body rq) = false).

(* The metadata headers of a response. *)
Definition metadata_headers (md : metadata) : list (bytes * bytes) :=
  map (fun p => (B "x-amz-meta-" ++ p.1, p.2)) md.
(* The metadata sent with a request, possibly none. *)
Definition sent_metadata (rq : http_request) (md : metadata) : Prop :=
  user_metadata (rq_headers rq) (match md with [] => None | _ => Some md end).

(* The body of a response read from the store [s]: exactly [data], however the reads are cut. *)
Definition streams (s : fs) (body : resp_body) (data : bytes) : Prop :=
  exists h off lim, body = RbFile h off lim /\
    forall sched, Forall (fun st => st <> RdErr) sched ->
      carried (get_body s h off lim sched) = data /\ broken (get_body s h off lim sched) = false.
