(** Specification vocabulary for sequences of storage requests. *)
From Verif Require Import M_Base M_Path M_Headers M_Crypto M_Chunked M_BytesStream M_Fs M_Json M_Utf8 M_Storage
  S_Path S_Chunked S_Storage.

(* The answer to a request and the store afterwards, when it runs alone. *)
Definition answer (e : env) (r : s_req) (s : fs) : sres s_ans := (run e (storage e r) s).2.
Definition after (e : env) (r : s_req) (s : fs) : fs := (run e (storage e r) s).1.

(* The store after a sequence of requests. *)
Fixpoint after_all (e : env) (rs : list s_req) (s : fs) : fs :=
  match rs with
  | [] => s
  | r :: rs' => after_all e rs' (after e r s)
  end.

(* GetObject delivers exactly [data] and announces [len] bytes, metadata [md] and the tag
   [tag], however the reads of the file are cut. *)
Definition gets (e : env) (s : fs) (b k : bytes) (range : option bytes)
  (data : bytes) (len : N) (md : option metadata) (tag : bytes) : Prop :=
  exists h off lim,
    answer e (RGetObject b k range) s = Ok (AGet h off lim len md tag) /\
    forall sched, Forall (fun st => st <> RdErr) sched ->
      carried (get_body s h off lim sched) = data /\ broken (get_body s h off lim sched) = false.

(* Metadata as the HTTP layer passes it: different names, text. *)
Definition metadata_ok (m : metadata) : Prop :=
  NoDup m.*1 /\ Forall (fun x => utf8_valid x.1 = true /\ utf8_valid x.2 = true) m.

(* Requests with ordinary names: legal buckets, keys with ordinary segments, upload ids
   without slashes; no object is copied onto itself. *)
Definition plain_req (r : s_req) : Prop :=
  match r with
  | RCreateBucket b | RDeleteBucket b | RGetBucketLocation b | RHeadBucket b
  | RListObjects b _ | RListObjectsV2 b _ => legal_bucket b
  | RCopyObject src b k => legal_bucket b /\ ordinary k /\ src <> b ++ B "/" ++ k
  | RDeleteObject b k | RGetObject b k _ | RHeadObject b k
  | RCreateMultipartUpload b k _ => legal_bucket b /\ ordinary k
  | RDeleteObjects b ks => legal_bucket b /\ Forall ordinary ks
  | RListBuckets => True
  | RPutObject b k _ _ md _ => legal_bucket b /\ ordinary k /\ (forall m, md = Some m -> metadata_ok m)
  | RUploadPart u _ _ => "/"%char ∉ u
  | RCompleteMultipartUpload b k u _ => legal_bucket b /\ ordinary k /\ "/"%char ∉ u
  end.

(* Requests that write or delete the object [k] of [b] (or its bucket). *)
Definition affects (r : s_req) (b k : bytes) : Prop :=
  match r with
  | RCopyObject _ b' k' | RDeleteObject b' k' | RPutObject b' k' _ _ _ _
  | RCompleteMultipartUpload b' k' _ _ => b' = b /\ k' = k
  | RDeleteObjects b' ks => b' = b /\ k ∈ ks
  | RDeleteBucket b' => b' = b
  | _ => False
  end.

(* Every metadata file can be read. *)
Definition intact (s : fs) : Prop :=
  forall b k, match fs_nodes s !! [metadata_name b k] with
    | None => True
    | Some NDir => False
    | Some (NFile _) => exists c m, content s [metadata_name b k] = Some c /\ json_decode c = Some m
    end.

(* Requests whose names are text, as Rust strings are. *)
Definition text_req (r : s_req) : Prop :=
  let text x := utf8_valid x = true in
  match r with
  | RCreateBucket b | RDeleteBucket b | RGetBucketLocation b | RHeadBucket b => text b
  | RListObjects b x | RListObjectsV2 b x => text b /\ (forall y, x = Some y -> text y)
  | RCopyObject src b k => text src /\ text b /\ text k
  | RDeleteObject b k | RGetObject b k _ | RHeadObject b k | RCreateMultipartUpload b k _
  | RPutObject b k _ _ _ _ => text b /\ text k
  | RDeleteObjects b ks => text b /\ Forall text ks
  | RListBuckets => True
  | RUploadPart u _ _ => text u
  | RCompleteMultipartUpload b k u _ => text b /\ text k /\ text u
  end.

(* Every entry has a name of ordinary text that the operating system accepts. *)
Definition tidy (e : env) (s : fs) : Prop :=
  forall p, is_Some (fs_nodes s !! p) ->
    Forall segment_ok p /\ Forall (fun c => utf8_valid c = true) p /\ e_os_ok e p = true.

(* The part of the object a range denotes; none if it is not satisfiable. *)
Definition slice (r : range) (c : bytes) : option bytes :=
  match r with
  | RNormal f None => if decide (f < N.of_nat (length c))%N then Some (drop (N.to_nat f) c) else None
  | RNormal f (Some l) =>
      if decide (f < N.of_nat (length c))%N then Some (take (N.to_nat (l + 1 - f)) (drop (N.to_nat f) c)) else None
  | RSuffix n =>
      if decide (n <= N.of_nat (length c))%N then Some (drop (length c - N.to_nat n) c) else None
  end.

(* Ranges that end inside the object, or have no end. *)
Definition inside (r : range) (c : bytes) : Prop :=
  match r with
  | RNormal _ (Some l) => (l < N.of_nat (length c))%N
  | _ => True
  end.

(* Ascending order of byte strings: a proper prefix comes first, otherwise the first
   different byte decides. *)
Definition bytes_lt (x y : bytes) : Prop :=
  exists p, (x = p /\ exists a r, y = p ++ a :: r) \/
    exists a b r r', x = p ++ a :: r /\ y = p ++ b :: r' /\ (code a < code b)%N.

(* The tag of a content, as S3 defines it for plain objects. *)
Definition quoted_md5 (c : bytes) : bytes := [quote] ++ to_hex (md5 c) ++ [quote].
