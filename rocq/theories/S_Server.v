(** The server over HTTP as a map: what replies show of the answers of the map of [S_Map]. *)
From Verif Require Import M_Base M_Headers M_Path M_Chunked M_BytesStream M_Fs M_Json M_Storage M_Http M_Errors M_Ops M_Service
  S_Path S_Headers S_Chunked S_Errors S_Storage S_Store S_Map S_Service S_Dispatch S_Calls S_Http.

(* Elements of an XML document. *)
Definition element_name (x : xml) : bytes := match x with XText n _ => n | XStack n _ => n end.
Definition elements (n : bytes) (xs : list xml) : list xml := filter (fun x => element_name x = n) xs.

(* One object of a listing. *)
Definition lists_object (o : bytes * N) (x : xml) : Prop :=
  exists t, denotes t o.2 /\ x = XStack (B "Contents") [XText (B "Key") o.1; XText (B "Size") t].

(* The document of a listing: the objects in order, the bucket, the number of keys if asked for
   by the second version of the request; parameters of the request may be echoed. *)
Definition lists_objects (b : bytes) (objs : list (bytes * N)) (count : option N) (x : xml) : Prop :=
  exists xs, x = XStack (B "ListBucketResult") xs /\
    Forall2 lists_object objs (elements (B "Contents") xs) /\
    elements (B "Name") xs = [XText (B "Name") b] /\
    (forall n, count = Some n -> exists t, denotes t n /\ elements (B "KeyCount") xs = [XText (B "KeyCount") t]) /\
    (forall y, y ∈ xs -> element_name y ∈
       [B "Contents"; B "Name"; B "KeyCount"; B "Delimiter"; B "EncodingType"]).

(* XML documents are sent as such. *)
Definition xml_reply (status : N) (P : xml -> Prop) (resp : response) : Prop :=
  rs_status resp = status /\ rs_headers resp = [(B "content-type", B "text/xml")] /\
  exists x, rs_body resp = RbXml x /\ P x.
Definition bare_reply (status : N) (headers : list (bytes * bytes)) (resp : response) : Prop :=
  resp = Response status headers RbEmpty.

(* What the reply to the request [r] must be when the map answers [v]; bodies of objects are read
   from the store [s]. *)
Definition shows_answer (r : s_req) (a : s_ans) (resp : response) : Prop :=
  match r, a with
  | (RDeleteBucket _ | RDeleteObject _ _), ADone => bare_reply 204 [] resp
  | (RCreateBucket _ | RHeadBucket _), ADone => bare_reply 200 [] resp
  | RGetBucketLocation _, ADone => xml_reply 200 (eq (XText (B "LocationConstraint") [])) resp
  | RListBuckets, ABuckets names =>
      xml_reply 200 (eq (XStack (B "ListAllMyBucketsResult")
        [XStack (B "Buckets") (map (fun n => XStack (B "Bucket") [XText (B "Name") n]) names)])) resp
  | (RListObjects _ _ | RListObjectsV2 _ _), AList b objs count => xml_reply 200 (lists_objects b objs count) resp
  | RHeadObject _ _, AHead size md =>
      exists t, denotes t size /\
        bare_reply 200 ([(B "content-length", t); (B "content-type", B "application/octet-stream")] ++
          metadata_headers (default [] md)) resp
  | RPutObject _ _ _ _ _ _, APut (Some tag) => bare_reply 200 [(B "etag", tag)] resp
  | RUploadPart _ _ _, APart tag => bare_reply 200 [(B "etag", tag)] resp
  | RDeleteObjects _ _, ADeleted ks =>
      xml_reply 200 (eq (XStack (B "DeleteResult") (map (fun k => XStack (B "Deleted") [XText (B "Key") k]) ks))) resp
  | RCopyObject _ _ _, ACopy tag => xml_reply 200 (eq (XStack (B "CopyObjectResult") [XText (B "ETag") tag])) resp
  | RCreateMultipartUpload _ _ _, ACreated b k u =>
      xml_reply 200 (eq (XStack (B "InitialMultipartUploadResult")
        [XText (B "Bucket") b; XText (B "Key") k; XText (B "UploadId") u])) resp
  | RCompleteMultipartUpload _ _ _ _, ACompleted b k tag =>
      xml_reply 200 (eq (XStack (B "CompleteMultipartUploadResult")
        [XText (B "Bucket") b; XText (B "Key") k; XText (B "ETag") tag])) resp
  | _, _ => False
  end.
Definition shows (s : fs) (r : s_req) (v : seen) (resp : response) : Prop :=
  match v with
  | Refused code =>
      exists status, documented (code_str code) status /\
        xml_reply status (eq (XStack (B "Error") [XText (B "Code") (code_str code)])) resp
  | Answered a => shows_answer r a resp
  | Object data md tag =>
      rs_status resp = 200%N /\
      (exists t, denotes t (N.of_nat (length data)) /\
         rs_headers resp = [(B "content-length", t); (B "etag", tag)] ++ metadata_headers (default [] md)) /\
      streams s (rs_body resp) data
  end.

(* Requests with the server (keys, oracles, next upload id) that gets them. *)
Definition received : Type := server * http_request.
(* The request passes all checks and asks for [r] (see C58 for how [r] comes from the request). *)
Definition stands_for (x : received) (r : s_req) : Prop :=
  exists op c, front x.1 x.2 = FrCall op c r.

(* The map over HTTP: requests that are refused before reaching the storage do not change it. *)
Inductive serves_received (st : store) (x : received) : option (s_req * seen) -> store -> Prop :=
| sr_served r v st' : stands_for x r -> serves st r v st' -> serves_received st x (Some (r, v)) st'
| sr_rejected : (forall r, ~ stands_for x r) -> serves_received st x None st.
Inductive serves_all_received : store -> list received -> list (option (s_req * seen)) -> store -> Prop :=
| sra_nil st : serves_all_received st [] [] st
| sra_cons st x v st1 xs vs st2 :
    serves_received st x v st1 -> serves_all_received st1 xs vs st2 ->
    serves_all_received st (x :: xs) (v :: vs) st2.

(* Metadata that can be sent in headers: lower-case names. *)
Definition metadata_fits (m : metadata) : Prop :=
  forall n v, (n, v) ∈ m -> (N.of_nat (length n) <= 65524)%N /\ (forall a, a ∈ n -> a ∈ name_chars) /\
    (forall a, a ∈ v -> (32 <= N_of_ascii a /\ N_of_ascii a <> 127)%N \/ a = "009"%char).
Definition well_behaved_received (e : env) (U : bytes -> bytes -> Prop) (st : store) (x : received) : Prop :=
  forall r, stands_for x r -> well_behaved e U st r /\
    forall b k c len m body, r = RPutObject b k c len (Some m) body -> metadata_fits m.
Definition all_well_behaved_received (e : env) (U : bytes -> bytes -> Prop) (st : store) (xs : list received) : Prop :=
  forall xs1 x xs2 vs st1, xs = xs1 ++ x :: xs2 -> serves_all_received st xs1 vs st1 ->
    well_behaved_received e U st1 x.

(* The replies of the server to requests arriving one after another. *)
Fixpoint shows_all (e : env) (s : fs) (xs : list received) (vs : list (option (s_req * seen))) : Prop :=
  match xs, vs with
  | [], [] => True
  | x :: xs', v :: vs' =>
      (forall r w, v = Some (r, w) ->
         exists resp, (exchange e x.1 x.2 s).2 = Replied resp /\ shows s r w resp) /\
      shows_all e (exchange e x.1 x.2 s).1 xs' vs'
  | _, _ => False
  end.
