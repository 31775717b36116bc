(** Replies with their dates: the service with a clock.  Definitions only. *)
From Verif Require Import M_Base M_Path M_Fs M_Storage M_Time M_Clock M_Errors M_Auth M_Ops M_Service M_Dto.

(* [time::to_rfc3339] of a time in nanoseconds, with the offset of the local time zone,
   /repo/src/utils/time.rs:17-20, /repo/src/storages/fs.rs:226,354,454,529,595. *)
Definition stamp_text (off t : Z) : bytes :=
  to_rfc3339 off (SysTime (t / 1000000000) (Z.to_N (t mod 1000000000))).

(* The dates that the storage puts into an answer: [last_modified] of the whole answer, and of each
   entry of a listing, /repo/src/storages/fs.rs:247,417,462,535,601. *)
Record dates := Dates { dt_whole : option bytes; dt_entry : bytes -> option bytes }.

(* The dates of the answer to a request.  The time of an entry is found by the path of its key, so
   entries whose names are not UTF-8 show none here, /repo/src/storages/fs.rs:226,354,454,529,595. *)
Definition dates_of (e : env) (ck : clock) (off : Z) (r : s_req) (w : world) : dates :=
  Dates (option_map (stamp_text off) (last_modified e ck r w))
    (fun k => match r with
              | RListObjects b _ | RListObjectsV2 b _ =>
                  match get_object_path e b k with
                  | Some p => option_map (stamp_text off) (listed_modified e ck r w p)
                  | None => None
                  end
              | _ => None
              end).

(* The header of GetObject and HeadObject, with [?] on the conversion,
   /repo/src/ops/get_object.rs:90-93, head_object.rs:90-93. *)
Definition date_header (d : option bytes) : option (list (bytes * bytes)) :=
  match map_opt_rfc3339_to_last_modified d with
  | None => None
  | Some v => set_header (B "last-modified") v (Some [])
  end.

(* One [Contents] element of a listing, /repo/src/ops/list_objects.rs:73-84,
   list_objects_v2.rs:79-90. *)
Definition dated_contents (d : dates) (o : bytes * N) : xml :=
  XStack (B "Contents")
    ([XText (B "Key") o.1] ++ opt_element (B "LastModified") (dt_entry d o.1) ++ [XText (B "Size") (num o.2)]).

(* The [try_into_response] functions with the dates: /repo/src/ops/get_object.rs:78-159,
   head_object.rs:78-153, copy_object.rs:176-183, list_objects.rs:64-101, list_objects_v2.rs:72-111;
   the other replies have none, but for ListBuckets, whose dates are in M_Birth.v
   (/repo/src/ops/list_buckets.rs:47). *)
Definition dated_respond_ok (op : s3_op) (c : ctx) (a : s_ans) (d : dates) : sres response :=
  match op, a with
  | (OpGetBucketLocation | OpDeleteBucket | OpDeleteObject), _ => respond_ok op c a
  | _, ACopy tag =>
      Ok (xml_response 200 (XStack (B "CopyObjectResult")
            ([XText (B "ETag") tag] ++ opt_element (B "LastModified") (dt_whole d))))
  | _, AGet h off lim len md tag =>
      wrap (set_metadata_headers md
              (set_header (B "etag") (Some tag)
                (set_header (B "content-length") (Some (num len)) (date_header (dt_whole d)))))
        200 (RbFile h off lim)
  | _, AHead size md =>
      wrap (set_metadata_headers md
              (set_header (B "content-type") (Some (B "application/octet-stream"))
                (set_header (B "content-length") (Some (num size)) (date_header (dt_whole d)))))
        200 RbEmpty
  | _, AList b objs count =>
      Ok (xml_response 200 (XStack (B "ListBucketResult")
            (map (dated_contents d) objs
             ++ [XText (B "Name") b]
             ++ opt_element (B "Delimiter") (cx_query c (B "delimiter"))
             ++ opt_element (B "EncodingType") (cx_query c (B "encoding-type"))
             ++ match count with Some n => [XText (B "KeyCount") (num n)] | None => [] end)))
  | _, _ => respond_ok op c a
  end.

(* [S3Output for S3StorageResult], /repo/src/output.rs:17-30. *)
Definition dated_respond (op : s3_op) (c : ctx) (a : sres s_ans) (d : dates) : sres response :=
  match a with
  | Ok a => dated_respond_ok op c a d
  | Err e => Err e
  end.

(* [hyper_call] with the clock of the machine and the offset of its time zone,
   /repo/src/service.rs:127-140. *)
Definition dated_service (e : env) (ck : clock) (off : Z) (sv : server) (rq : http_request) (w : world)
  : world * reply :=
  match front sv rq with
  | FrErr c => (w, Replied (error_response c))
  | FrPanic => (w, Panicked)
  | FrCall op c r =>
      let '(w', a) := timed e ck r w in
      (w', reply_of (dated_respond op c a (dates_of e ck off r w)))
  end.

(* Requests one after the other, /repo/src/service.rs:127-140. *)
Fixpoint dated_requests (e : env) (ck : clock) (off : Z) (xs : list (server * http_request)) (w : world) : world :=
  match xs with
  | [] => w
  | x :: xs' => dated_requests e ck off xs' (dated_service e ck off x.1 x.2 w).1
  end.

(* The outputs of the file system with their dates, /repo/src/storages/fs.rs:244-251,414-421,459-465,
   551-563,617-632; the creation dates of buckets (:487) are in M_Birth.v. *)
Definition fs_dated_output (op : s3_op) (c : ctx) (a : s_ans) (d : dates) : out_dto :=
  let whole := match dt_whole d with Some s => [(B "last_modified", DStr s)] | None => [] end in
  let listing b objs count :=
    ListingDto None None None
      (Some (map (fun o => ObjectDto (Some o.1) (dt_entry d o.1) None (Some (Z.of_N o.2)) None None) objs)) (Some b) None
      (cx_query c (B "delimiter")) None None (cx_query c (B "encoding-type"))
      (match count with Some n => Some (Z.of_N n) | None => None end) None None None in
  match op, a with
  | OpCopyObject, ACopy t => OutDto [] None (Some (DocCopied (Some (Some t, dt_whole d)))) None
  | OpGetObject, AGet h off lim len md t =>
      OutDto (whole ++ [(B "content_length", DInt (Z.of_N len)); (B "e_tag", DStr t)]) md None (Some (RbFile h off lim))
  | OpHeadObject, AHead size md =>
      OutDto (whole ++ [(B "content_length", DInt (Z.of_N size)); (B "content_type", DStr (B "application/octet-stream"))]) md None None
  | OpListObjects, AList b objs count => OutDto [] None (Some (DocListing (listing b objs None))) None
  | OpListObjectsV2, AList b objs count => OutDto [] None (Some (DocListing2 (listing b objs count))) None
  | _, _ => fs_output op c a
  end.
