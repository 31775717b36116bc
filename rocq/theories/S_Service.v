(** Specification of request authentication: how a request is read and what AWS Signature
    Version 4 says about it.  Written without the model's functions for parsing, sorting and
    signing; only the records of requests and of parsed headers, SHA-256, HMAC and lossy UTF-8
    decoding are shared with the model. *)
From Verif Require Import M_Base M_Crypto M_Utf8 M_Headers M_Chunked M_Http S_Path S_Headers
  S_SigV4 S_Chunked S_Form.

(** ** Order and text *)

(* Byte-wise dictionary order, and the order of pairs by name, then by value. *)
Inductive precedes : bytes -> bytes -> Prop :=
| pr_nil s : precedes [] s
| pr_less a b s t : (N_of_ascii a < N_of_ascii b)%N -> precedes (a :: s) (b :: t)
| pr_same a s t : precedes s t -> precedes (a :: s) (a :: t).

Definition pair_precedes (p q : bytes * bytes) : Prop :=
  (p.1 <> q.1 /\ precedes p.1 q.1) \/ (p.1 = q.1 /\ precedes p.2 q.2).

Definition in_order {A} (R : A -> A -> Prop) (l : list A) : Prop :=
  forall i j x y, (i < j)%nat -> l !! i = Some x -> l !! j = Some y -> R x y.

(* Strings put together with a separator. *)
Fixpoint glued (sep : bytes) (ls : list bytes) : bytes :=
  match ls with
  | [] => []
  | [x] => x
  | x :: ls' => x ++ sep ++ glued sep ls'
  end.

(* Lower-case hexadecimal text of a byte string. *)
Definition hex : bytes := B "0123456789abcdef".
Inductive hex_text : bytes -> bytes -> Prop :=
| ht_nil : hex_text [] []
| ht_cons a h l s t :
    hex !! (N.to_nat (N_of_ascii a) / 16) = Some h ->
    hex !! (N.to_nat (N_of_ascii a) mod 16) = Some l ->
    hex_text s t -> hex_text (a :: s) (h :: l :: t).

(** ** Reading a URI *)

(* Undoing percent-encoding; an escape is '%' and two hexadecimal digits, and a '%' that starts
   no escape stands for itself.  In forms ([form = true]) '+' is a space. *)
Definition escape (a : ascii) (h l : ascii) : Prop :=
  h ∈ hexdigits /\ l ∈ hexdigits /\ N_of_ascii a = (hexvalue h * 16 + hexvalue l)%N.

Inductive unescaped (form : bool) : bytes -> bytes -> Prop :=
| un_nil : unescaped form [] []
| un_plus t s : form = true -> unescaped form t s -> unescaped form ("+"%char :: t) (" "%char :: s)
| un_hex a h l t s : escape a h l -> unescaped form t s ->
    unescaped form ("%"%char :: h :: l :: t) (a :: s)
| un_plain a t s : (form = true -> a <> "+"%char) ->
    (a = "%"%char -> forall h l t' b, t = h :: l :: t' -> ~ escape b h l) ->
    unescaped form t s -> unescaped form (a :: t) (a :: s).

(* A name or value of a query; bytes that are not UTF-8 are replaced. *)
Definition form_text (x s : bytes) : Prop := exists y, unescaped true x y /\ s = utf8_lossy y.

Definition form_pair (x : bytes) (p : bytes * bytes) : Prop :=
  exists n v, "="%char ∉ n /\ (x = n ++ B "=" ++ v \/ x = n /\ v = []) /\
    form_text n p.1 /\ form_text v p.2.

(* The parameters of a query: the pieces between '&', empty ones left out. *)
Definition query_params (query : option bytes) (ps : list (bytes * bytes)) : Prop :=
  match query with
  | None => ps = []
  | Some q => exists pieces, q = glued (B "&") pieces /\ pieces <> [] /\
      (forall x, x ∈ pieces -> "&"%char ∉ x) /\
      Forall2 form_pair (filter (fun x => x <> []) pieces) ps
  end.

(* Where a request points. *)
Definition request_path (rq : http_request) (p : M_Path.s3path) : Prop :=
  exists uri, unescaped false (rq_path rq) uri /\ utf8_valid uri = true /\ addresses uri (M_Base.Ok p).

(** ** Signature Version 4 *)

(* The canonical query string. *)
Definition canonical_query_text (ps : list (bytes * bytes)) (t : bytes) : Prop :=
  exists es sorted,
    Forall2 (fun p e => pct_encoded false p.1 e.1 /\ pct_encoded false p.2 e.2) ps es /\
    sorted ≡ₚ es /\ in_order pair_precedes sorted /\
    t = glued (B "&") (map (fun e => e.1 ++ B "=" ++ e.2) sorted).

(* The line of one header. *)
Definition header_text (h : bytes * bytes) (t : bytes) : Prop :=
  exists v, trimmed h.2 v /\ t = h.1 ++ B ":" ++ v ++ [LF].

(* The canonical request for a method, a path, parameters, the headers to be signed (in any
   order; a repeated header gives one line for each occurrence) and the text for the payload. *)
Definition canonical_text (method path : bytes) (ps hs : list (bytes * bytes)) (payload t : bytes)
  : Prop :=
  exists uri query sorted lines,
    pct_encoded true path uri /\ canonical_query_text ps query /\
    sorted ≡ₚ hs /\ in_order pair_precedes sorted /\ Forall2 header_text sorted lines /\
    t = glued [LF] [method; uri; query; concat lines; semicolons (map fst sorted); payload].

(* The string to sign. *)
Definition string_to_sign_text (ts region creq t : bytes) : Prop :=
  exists h, hex_text (sha256 creq) h /\
    t = glued [LF] [B "AWS4-HMAC-SHA256"; ts;
                    glued (B "/") [take 8 ts; region; B "s3"; B "aws4_request"]; h].

(* The signing key and the signature. *)
Definition aws_key (secret ts region : bytes) : bytes :=
  foldl hmac_sha256 (B "AWS4" ++ secret) [take 8 ts; region; B "s3"; B "aws4_request"].
Definition aws_signature (secret ts region sts sig : bytes) : Prop :=
  hex_text (hmac_sha256 (aws_key secret ts region) sts) sig.

(* Signature of a canonical request. *)
Definition signs (secret ts region creq sig : bytes) : Prop :=
  exists sts, string_to_sign_text ts region creq sts /\ aws_signature secret ts region sts sig.

(** ** Authentic requests *)

Definition provider := bytes -> result s3_code bytes.

(* The headers chosen by a list of names. *)
Definition chosen (names : list bytes) (hs : list (bytes * bytes)) : list (bytes * bytes) :=
  filter (fun h => h.1 ∈ names /\ h.1 <> B "authorization" /\ h.1 <> B "user-agent") hs.

(* The text that stands for the payload, given the x-amz-content-sha256 header. *)
Inductive payload_text : bytes -> list frame -> bytes -> Prop :=
| pt_unsigned body :
    broken body = false -> payload_text (B "UNSIGNED-PAYLOAD") body (B "UNSIGNED-PAYLOAD")
| pt_streaming body : 
    payload_text (B "STREAMING-AWS4-HMAC-SHA256-PAYLOAD") body (B "STREAMING-AWS4-HMAC-SHA256-PAYLOAD")
| pt_hashed sha body t :
    length sha = 64%nat -> (forall a, a ∈ sha -> a ∈ hex) ->
    broken body = false -> hex_text (sha256 (carried body)) t ->
    payload_text sha body t.

(* A request signed in its Authorization header, with what the signature depends on.  [path]
   is the text taken for the path of the request. *)
Record header_signed (prov : provider) (rq : http_request) (path : bytes) (a : authorization)
  (secret ts sha : bytes) (ps : list (bytes * bytes)) (payload creq : bytes) : Prop := {
  hs_auth : exists w1 w2 w3 w4,
    (B "authorization", authorization_text a w1 w2 w3 w4) ∈ rq_headers rq /\
    authorization_fields_ok a w1 w2 w3 w4;
  hs_key : prov (access_key_id (auth_credential a)) = Ok secret;
  hs_date : (B "x-amz-date", ts) ∈ rq_headers rq /\ exists d, date_text ts d;
  hs_sha : (B "x-amz-content-sha256", sha) ∈ rq_headers rq;
  hs_query : query_params (rq_query rq) ps;
  hs_payload : payload_text sha (rq_body rq) payload;
  hs_creq : canonical_text (rq_method rq) path ps
              (chosen (signed_headers a) (rq_headers rq)) payload creq;
  hs_sig : signs secret ts (aws_region (auth_credential a)) creq (auth_signature a)
}.

Definition header_authentic (prov : provider) (rq : http_request) : Prop :=
  exists a secret ts sha ps payload creq,
    header_signed prov rq (rq_path rq) a secret ts sha ps payload creq.

(* A presigned request.  [signed] are the headers that the signature covers. *)
Record presigned (prov : provider) (rq : http_request) (path : bytes) (c : credential)
  (names : list bytes) (secret ts sig : bytes) (ps signed : list (bytes * bytes)) (creq : bytes) : Prop := {
  ps_query : query_params (rq_query rq) ps;
  ps_credential : (B "X-Amz-Credential", credential_text c) ∈ ps /\ credential_fields_ok c;
  ps_date : (B "X-Amz-Date", ts) ∈ ps /\ exists d, date_text ts d;
  ps_names : (B "X-Amz-SignedHeaders", semicolons names) ∈ ps /\ names <> [] /\
    (forall n, n ∈ names -> ";"%char ∉ n);
  ps_sig : (B "X-Amz-Signature", sig) ∈ ps;
  ps_key : prov (access_key_id c) = Ok secret;
  ps_creq : canonical_text (rq_method rq) path
              (filter (fun p => p.1 <> B "X-Amz-Signature") ps) signed
              (B "UNSIGNED-PAYLOAD") creq;
  ps_signs : signs secret ts (aws_region c) creq sig
}.

Definition presigned_authentic (prov : provider) (rq : http_request) : Prop :=
  exists c names secret ts sig ps signed creq,
    presigned prov rq (rq_path rq) c names secret ts sig ps signed creq /\
    (forall h, h ∈ signed -> h ∈ chosen names (rq_headers rq)) /\
    (in_order precedes names -> signed ≡ₚ chosen names (rq_headers rq)).

(* The value of a form field: that of the last field of this name, case ignored. *)
Definition field_value (fields : list (bytes * bytes)) (name v : bytes) : Prop :=
  exists xs n ys, fields = xs ++ (n, v) :: ys /\ eq_ignore_case n name = true /\
    forall f, f ∈ ys -> eq_ignore_case f.1 name = false.

(* Standard base64, RFC 4648: [base64 data t] says that [t] is the padded encoding of [data]. *)
Definition alphabet64 : bytes := LETTERS ++ letters ++ digits ++ B "+/".
Definition digit64 (n : nat) (c : ascii) : Prop := alphabet64 !! n = Some c.
Inductive base64 : bytes -> bytes -> Prop :=
| b64_nil : base64 [] []
| b64_one a c1 c2 :
    let x := N.to_nat (N_of_ascii a) in
    digit64 (x / 4) c1 -> digit64 (x mod 4 * 16) c2 ->
    base64 [a] [c1; c2; "="%char; "="%char]
| b64_two a b c1 c2 c3 :
    let x := N.to_nat (N_of_ascii a) in let y := N.to_nat (N_of_ascii b) in
    digit64 (x / 4) c1 -> digit64 (x mod 4 * 16 + y / 16) c2 -> digit64 (y mod 16 * 4) c3 ->
    base64 [a; b] [c1; c2; c3; "="%char]
| b64_three a b c c1 c2 c3 c4 s t :
    let x := N.to_nat (N_of_ascii a) in let y := N.to_nat (N_of_ascii b) in
    let z := N.to_nat (N_of_ascii c) in
    digit64 (x / 4) c1 -> digit64 (x mod 4 * 16 + y / 16) c2 ->
    digit64 (y mod 16 * 4 + z / 64) c3 -> digit64 (z mod 64) c4 ->
    base64 s t -> base64 (a :: b :: c :: s) (c1 :: c2 :: c3 :: c4 :: t).

(* A form whose policy is signed under the credential [c]. *)
Definition policy_signed (prov : provider) (fields : list (bytes * bytes)) (c : credential) : Prop :=
  exists policy rest ts secret sig,
    field_value fields (B "policy") policy /\ (exists data, base64 data policy) /\
    field_value fields (B "x-amz-algorithm") (B "AWS4-HMAC-SHA256") /\
    field_value fields (B "x-amz-credential") (credential_text c ++ rest) /\
    credential_fields_ok c /\
    field_value fields (B "x-amz-date") ts /\ (exists d, date_text ts d) /\
    field_value fields (B "x-amz-signature") sig /\
    prov (access_key_id c) = Ok secret /\
    aws_signature secret ts (aws_region c) policy sig.

(* The content type of a request, as the parser sees it; forms sent with POST. *)
Definition content_type (sv : server) (rq : http_request) (m : mime) : Prop :=
  exists t, (B "content-type", t) ∈ rq_headers rq /\ sv_mime sv t = Some m.
Definition form_post (sv : server) (rq : http_request) : Prop :=
  rq_method rq = B "POST" /\ exists m, content_type sv rq m /\ mi_form_data m = true.
Definition no_form_post (sv : server) (rq : http_request) : Prop :=
  rq_method rq = B "POST" -> forall m, content_type sv rq m -> mi_form_data m = false.

(* A form authenticated by its policy: the body is the text of a form with these fields and this
   file name and type, followed by [rest], and the policy among the fields is signed. *)
Definition form_signed (sv : server) (prov : provider) (rq : http_request)
  (boundary : bytes) (fields : list (bytes * bytes)) (filename ct rest : bytes) : Prop :=
  rq_method rq = B "POST" /\
  exists m c, content_type sv rq m /\ mi_form_data m = true /\ mi_boundary m = Some boundary /\
    body_form boundary (carried (rq_body rq)) fields filename ct rest /\ policy_signed prov fields c.
Definition form_authentic (sv : server) (prov : provider) (rq : http_request) : Prop :=
  exists boundary fields filename ct rest, form_signed sv prov rq boundary fields filename ct rest.

(* Authentic in one of the three ways. *)
Definition authentic (sv : server) (prov : provider) (rq : http_request) : Prop :=
  header_authentic prov rq \/ presigned_authentic prov rq \/ form_authentic sv prov rq.

(* A request that can be read: path, header values and content type are in order. *)
Definition visible (v : bytes) : Prop :=
  forall a, a ∈ v -> (32 <= N_of_ascii a < 127)%N \/ a = "009"%char.
Definition readable (sv : server) (rq : http_request) (p : M_Path.s3path) : Prop :=
  request_path rq p /\ (forall h, h ∈ rq_headers rq -> visible h.2) /\
  (forall t, (B "content-type", t) ∈ rq_headers rq -> exists m, sv_mime sv t = Some m).


(* What is executed is this request: its method, target, headers and parameters. *)
Definition of_request (rq : http_request) (c : ctx) : Prop :=
  cx_method c = rq_method rq /\ request_path rq (cx_path c) /\ cx_headers c ≡ₚ rq_headers rq /\
  exists ps, query_params (rq_query rq) ps /\ default [] (cx_qs c) ≡ₚ ps.

(* The body handed on is the one that came in. *)
Definition same_body (rq : http_request) (c : ctx) : Prop :=
  broken (cx_body c) = broken (rq_body rq) /\ carried (cx_body c) = carried (rq_body rq).

(* One value at most for these headers. *)
Definition unrepeated (rq : http_request) (names : list bytes) : Prop :=
  forall n v v', n ∈ names -> (n, v) ∈ rq_headers rq -> (n, v') ∈ rq_headers rq -> v = v'.

(* The path that AWS takes for the canonical request: the decoded one. *)
Definition aws_path (rq : http_request) (path : bytes) : Prop := unescaped false (rq_path rq) path.

(* One value at most for these parameters. *)
Definition unrepeated_params (ps : list (bytes * bytes)) (names : list bytes) : Prop :=
  forall n v v', n ∈ names -> (n, v) ∈ ps -> (n, v') ∈ ps -> v = v'.

(* The parameters of a presigned URL. *)
Definition presigned_names : list bytes :=
  [B "X-Amz-Algorithm"; B "X-Amz-Credential"; B "X-Amz-Date"; B "X-Amz-Expires";
   B "X-Amz-SignedHeaders"; B "X-Amz-Signature"].

(* An x-amz-content-sha256 header that can be read. *)
Definition content_sha_ok (rq : http_request) : Prop :=
  forall v, (B "x-amz-content-sha256", v) ∈ rq_headers rq ->
    v = B "UNSIGNED-PAYLOAD" \/ v = B "STREAMING-AWS4-HMAC-SHA256-PAYLOAD" \/
    (length v = 64%nat /\ forall a, a ∈ v -> a ∈ hex).

(** ** Time *)

(* Seconds from the start of the year 0 (proleptic Gregorian calendar) to a time stamp, for
   months 1 to 12. *)
Definition days_before_month (m : N) : N :=
  default 0%N ([0; 31; 59; 90; 120; 151; 181; 212; 243; 273; 304; 334]%N !! (N.to_nat m - 1)).
Definition leap_days (y : N) : N := ((y + 3) / 4 - (y + 99) / 100 + (y + 399) / 400)%N.
Definition leap_year (y : N) : bool :=
  ((y mod 4 =? 0) && (negb (y mod 100 =? 0) || (y mod 400 =? 0)))%N.
Definition instant (d : amz_date) : N :=
  let days := (year d * 365 + leap_days (year d) + days_before_month (month d)
               + (if leap_year (year d) && (2 <? month d)%N then 1 else 0) + day d - 1)%N in
  (days * 86400 + hour d * 3600 + minute d * 60 + second d)%N.

(* A presigned request whose time has run out at [now]. *)
Definition expired (ps : list (bytes * bytes)) (now : N) : Prop :=
  exists ts d ex n, (B "X-Amz-Date", ts) ∈ ps /\ date_text ts d /\
    (B "X-Amz-Expires", ex) ∈ ps /\ denotes ex n /\ (instant d + n < now)%N.

(** ** Tampering *)

(* The same request, as far as header authentication is concerned: method, path, parameters in
   some order, signed headers up to order and surrounding blanks, and body. *)
Definition same_headers (hs1 hs2 : list (bytes * bytes)) : Prop :=
  exists k1 k2, k1 ≡ₚ hs1 /\ k2 ≡ₚ hs2 /\ same_signed k1 k2.

Definition same_target (rq1 rq2 : http_request) (names1 names2 : list bytes) : Prop :=
  rq_method rq1 = rq_method rq2 /\ rq_path rq1 = rq_path rq2 /\
  (forall ps1 ps2, query_params (rq_query rq1) ps1 -> query_params (rq_query rq2) ps2 -> ps1 ≡ₚ ps2) /\
  same_headers (chosen names1 (rq_headers rq1)) (chosen names2 (rq_headers rq2)).

(* Two inputs of SHA-256 with one digest. *)
Definition collision (x y : bytes) : Prop := x <> y /\ sha256 x = sha256 y.

(* What the signature says about two bodies: both unsigned, both signed by chunks, or equal. *)
Definition bodies_bound (sha1 sha2 : bytes) (b1 b2 : list frame) : Prop :=
  (sha1 = B "UNSIGNED-PAYLOAD" /\ sha2 = B "UNSIGNED-PAYLOAD") \/
  (sha1 = B "STREAMING-AWS4-HMAC-SHA256-PAYLOAD" /\ sha2 = B "STREAMING-AWS4-HMAC-SHA256-PAYLOAD") \/
  (carried b1 = carried b2 \/ collision (carried b1) (carried b2)).

(* Text without percent escapes. *)
Definition no_escape (s : bytes) : Prop :=
  forall x h l y a, s = x ++ ["%"%char; h; l] ++ y -> ~ escape a h l.
