(** The storage back end [FileSystem] (/repo/src/storages/fs.rs).  Definitions only.

    Every operation is a [prog]: the calls it makes, in order.  Time stamps in answers and
    log output are left out. *)
From stdpp Require Export pretty.
From Verif Require Export M_Base M_Path M_Headers M_Crypto M_Utf8 M_Chunked M_BytesStream
  M_Errors M_Json M_Fs.

(** ** Paths *)

(* One component of a path: [Path::components] skips empty and '.' components, and
   [path_absolutize] removes the component before '..' (never going above the top),
   /repo/src/storages/fs.rs:62-65. *)
Definition push_component (acc : path) (c : bytes) : path :=
  if beq c [] || beq c (B ".") then acc
  else if beq c (B "..") then removelast acc
  else acc ++ [c].

(* Lexical normalisation of a path string, /repo/src/storages/fs.rs:62-65.  (A relative path
   whose first component is '.' or '..' would be taken relative to the working directory by
   [path_absolutize]; all callers put a bucket name or a name starting with ".bucket-" or
   ".upload_id-" first.) *)
Definition normalize (str : bytes) : path :=
  fold_left push_component (split_all "/" str) [].

(* Components of [p] below [root], /repo/src/storages/fs.rs:64. *)
Fixpoint below (root p : path) : option path :=
  match root, p with
  | [], _ => Some p
  | a :: root', b :: p' => if beq a b then below root' p' else None
  | _ :: _, [] => None
  end.

(* [Path::absolutize_virtually(root)]: relative paths are placed below the root, absolute
   ones must lie below it already; the result is given relative to the root,
   /repo/src/storages/fs.rs:64,72,86,749,819. *)
Definition absolutize (e : env) (str : bytes) : option path :=
  if starts_with (B "/") str then below (e_root e) (normalize str) else Some (normalize str).

(* [Path::join]: an absolute second path replaces the first, /repo/src/storages/fs.rs:62-63. *)
Definition join_path (dir file : bytes) : bytes :=
  if starts_with (B "/") file then file else dir ++ B "/" ++ file.

(* [get_object_path], /repo/src/storages/fs.rs:59-67. *)
Definition get_object_path (e : env) (bucket key : bytes) : option path :=
  absolutize e (join_path bucket key).

(* [get_bucket_path], /repo/src/storages/fs.rs:70-74. *)
Definition get_bucket_path (e : env) (bucket : bytes) : option path := absolutize e bucket.

(* File name of the metadata of an object, /repo/src/storages/fs.rs:78-84. *)
Definition metadata_name (bucket key : bytes) : bytes :=
  B ".bucket-" ++ b64url bucket ++ B ".object-" ++ b64url key ++ B ".metadata.json".

(* [get_metadata_path], /repo/src/storages/fs.rs:77-88. *)
Definition get_metadata_path (e : env) (bucket key : bytes) : option path :=
  absolutize e (metadata_name bucket key).

(* File name of a part, /repo/src/storages/fs.rs:748,818. *)
Definition part_name (upload_id : bytes) (part_number : Z) : bytes :=
  B ".upload_id-" ++ upload_id ++ B ".part-" ++ B (pretty part_number).

(* Path of a part, /repo/src/storages/fs.rs:749,819. *)
Definition part_path (e : env) (upload_id : bytes) (part_number : Z) : option path :=
  absolutize e (part_name upload_id part_number).

(** ** Results *)

(* Storage results; an error is given by its code ([S3StorageError], errors.rs:167-173;
   [CreateBucketError::BucketAlreadyExists] has the code of the same name,
   /repo/src/ops/create_bucket.rs:100-112). *)
Notation sres := (result s3_code).

(* [trace_try!] on a fallible path computation, /repo/src/internal_macros.rs:77-84. *)
Definition try_path {A} (o : option path) (k : path -> prog (sres A)) : prog (sres A) :=
  match o with
  | Some p => k p
  | None => Ret (Err InternalError)
  end.

(* [trace_try!] on an I/O result, /repo/src/internal_macros.rs:77-84. *)
Definition try_io {A B} (m : prog (option A)) (k : A -> prog (sres B)) : prog (sres B) :=
  bind m (fun o => match o with Some a => k a | None => Ret (Err InternalError) end).

(* [trace_try!] on a storage-like result, /repo/src/internal_macros.rs:77-84. *)
Definition try_res {A B} (m : prog (sres A)) (k : A -> prog (sres B)) : prog (sres B) :=
  bind m (fun r => match r with Ok a => k a | Err c => Ret (Err c) end).

(** ** Helpers *)

(* [std::fs::create_dir_all] on the reversed path, /repo/src/storages/fs.rs:667,679: try
   mkdir; if a parent is missing create it first and try again; an existing directory is
   fine. *)
Fixpoint create_dir_all_rev (rp : path) : prog (option unit) :=
  let p := rev rp in
  let ok_if_dir := bind (call (CStat p)) (fun st =>
     match st with Some (true, _) => Ret (Some tt) | _ => Ret None end) in
  bind (call (CMkdir p)) (fun r =>
    match r with
    | MkOk => Ret (Some tt)
    | MkOther => ok_if_dir
    | MkNotFound =>
        match rp with
        | [] => Ret None
        | _ :: rp' =>
            bind (create_dir_all_rev rp') (fun o =>
              match o with
              | None => Ret None
              | Some _ =>
                  bind (call (CMkdir p)) (fun r' =>
                    match r' with MkOk => Ret (Some tt) | _ => ok_if_dir end)
              end)
        end
    end).

(* [async_fs::create_dir_all], /repo/src/storages/fs.rs:667,679. *)
Definition create_dir_all (p : path) : prog (option unit) := create_dir_all_rev (rev p).

(* Successive write calls for one buffer starting at [off]; the new offset,
   /repo/src/storages/fs.rs:153,823. *)
Fixpoint write_pieces (ino : N) (off : nat) (ps : list bytes) : prog (option nat) :=
  match ps with
  | [] => Ret (Some off)
  | b :: ps' =>
      bind (call (CWrite ino off b)) (fun o =>
        match o with
        | Some _ => write_pieces ino (off + length b) ps'
        | None => Ret None
        end)
  end.

(* [copy_bytes], /repo/src/storages/fs.rs:144-176.  [futures::io::copy_buf] flushes the
   [BufWriter] at the end of every buffer, so all bytes before a failing item have been
   written. *)
Fixpoint copy_bytes (e : env) (ino : N) (off : nat) (body : list frame) : prog (option nat) :=
  match body with
  | [] => Ret (Some off)
  | FErr :: _ => Ret None
  | FData b :: body' =>
      bind (write_pieces ino off (e_chop e b)) (fun o =>
        match o with
        | Some off' => copy_bytes e ino off' body'
        | None => Ret None
        end)
  end.

(* The bytes fed to the MD5 hasher by [inspect_ok], /repo/src/storages/fs.rs:681-682. *)
Fixpoint body_data (body : list frame) : bytes :=
  match body with
  | FData b :: body' => b ++ body_data body'
  | _ => []
  end.

(* Read an open file from [off] to its end, /repo/src/storages/fs.rs:98,128-136; fuel bounds the
   number of reads. *)
Fixpoint read_rest (fuel : nat) (h : handle) (off : nat) : prog (option bytes) :=
  match fuel with
  | O => Ret None
  | S fuel' =>
      bind (call (CRead h off)) (fun o =>
        match o with
        | None => Ret None
        | Some [] => Ret (Some [])
        | Some ((_ :: _) as b) =>
            bind (read_rest fuel' h (off + length b)) (fun o =>
              match o with Some c => Ret (Some (b ++ c)) | None => Ret None end)
        end)
  end.

(* Whole content of a file, [async_fs::read] and the loop of [get_md5_sum],
   /repo/src/storages/fs.rs:98,123-136. *)
Definition read_file (p : path) : prog (option bytes) :=
  bind (call (COpen p)) (fun o =>
    match o with
    | Some h => bind (call (CBound h)) (fun n => read_rest n h 0)
    | None => Ret None
    end).

(* Copy an open file from [roff] to its end to another one at [woff]; gives the offset after the
   last byte written, /repo/src/storages/fs.rs:243,823.  Simplification: what has been read is
   written before the next read, no write is delayed by buffers; fuel bounds the number of reads. *)
Fixpoint transfer (e : env) (fuel : nat) (h : handle) (roff : nat) (ino : N) (woff : nat)
  : prog (option nat) :=
  match fuel with
  | O => Ret None
  | S fuel' =>
      bind (call (CRead h roff)) (fun o =>
        match o with
        | None => Ret None
        | Some [] => Ret (Some woff)
        | Some ((_ :: _) as b) =>
            bind (write_pieces ino woff (e_chop e b)) (fun o =>
              match o with
              | Some woff' => transfer e fuel' h (roff + length b) ino woff'
              | None => Ret None
              end)
        end)
  end.

(* Open a file and append its content to another one, /repo/src/storages/fs.rs:821-823. *)
Definition append_file (e : env) (p : path) (ino : N) (off : nat) : prog (option nat) :=
  bind (call (COpen p)) (fun o =>
    match o with
    | Some h => bind (call (CBound h)) (fun n => transfer e n h 0 ino off)
    | None => Ret None
    end).

(* [async_fs::write], /repo/src/storages/fs.rs:117. *)
Definition write_file (e : env) (p : path) (b : bytes) : prog (option unit) :=
  bind (call (CCreate p)) (fun o =>
    match o with
    | Some i => bind (write_pieces i 0 (e_chop e b)) (fun o =>
                  match o with Some _ => Ret (Some tt) | None => Ret None end)
    | None => Ret None
    end).

(* [load_metadata], /repo/src/storages/fs.rs:91-105. *)
Definition load_metadata (e : env) (bucket key : bytes) : prog (option (option metadata)) :=
  match get_metadata_path e bucket key with
  | None => Ret None
  | Some p =>
      bind (call (CExists p)) (fun ex =>
        if ex : bool then
          bind (read_file p) (fun o =>
            match o with
            | Some content =>
                match json_decode content with
                | Some m => Ret (Some (Some m))
                | None => Ret None
                end
            | None => Ret None
            end)
        else Ret (Some None))
  end.

(* [save_metadata], /repo/src/storages/fs.rs:108-118. *)
Definition save_metadata (e : env) (bucket key : bytes) (m : metadata) : prog (option unit) :=
  match get_metadata_path e bucket key with
  | None => Ret None
  | Some p => write_file e p (json_encode m)
  end.

(* [get_md5_sum] as a quoted tag, /repo/src/storages/fs.rs:121-140,408.  Hashing successive
   buffers is hashing their concatenation. *)
Definition get_md5_sum (e : env) (bucket key : bytes) : prog (option bytes) :=
  match get_object_path e bucket key with
  | None => Ret None
  | Some p =>
      bind (read_file p) (fun o =>
        match o with
        | Some c => Ret (Some (etag_of c))
        | None => Ret None
        end)
  end.

(* [async_fs::copy] = [std::fs::copy]: open the source, refuse directories, create or
   truncate the destination, then transfer, /repo/src/storages/fs.rs:231,243. *)
Definition copy_file (e : env) (src dst : path) : prog (option unit) :=
  bind (call (COpen src)) (fun o =>
    match o with
    | Some (HFile i) =>
        bind (call (CCreate dst)) (fun o =>
          match o with
          | Some j =>
              bind (call (CBound (HFile i))) (fun n =>
                bind (transfer e n (HFile i) 0 j 0) (fun o =>
                  match o with Some _ => Ret (Some tt) | None => Ret None end))
          | None => Ret None
          end)
    | _ => Ret None
    end).

(* [std::fs::remove_dir_all]: empty the directory, then remove it; fuel bounds the depth,
   /repo/src/storages/fs.rs:262. *)
Fixpoint remove_dir_all (fuel : nat) (p : path) : prog (option unit) :=
  match fuel with
  | O => Ret None
  | S fuel' =>
      bind (call (CReadDir p)) (fun o =>
        match o with
        | None => Ret None
        | Some es =>
            (fix entries (es : list (bytes * bool)) : prog (option unit) :=
               match es with
               | [] => call (CRmdir p)
               | (c, d) :: es' =>
                   bind (if d : bool then remove_dir_all fuel' (p ++ [c]) else call (CUnlink (p ++ [c])))
                     (fun o => match o with Some _ => entries es' | None => Ret None end)
               end) es
        end)
  end.

(** ** Requests and answers *)

(* The fields of the request structures that /repo/src/storages/fs.rs reads.  [uuid] stands
   for the value of [Uuid::new_v4()], fs.rs:718. *)
Inductive s_req :=
| RCreateBucket (bucket : bytes)
| RCopyObject (copy_source bucket key : bytes)
| RDeleteBucket (bucket : bytes)
| RDeleteObject (bucket key : bytes)
| RDeleteObjects (bucket : bytes) (keys : list bytes)
| RGetBucketLocation (bucket : bytes)
| RGetObject (bucket key : bytes) (range : option bytes)
| RHeadBucket (bucket : bytes)
| RHeadObject (bucket key : bytes)
| RListBuckets
| RListObjects (bucket : bytes) (prefix : option bytes)
| RListObjectsV2 (bucket : bytes) (prefix : option bytes)
| RPutObject (bucket key : bytes) (storage_class : option bytes) (content_length : option Z)
    (md : option metadata) (body : option (list frame))
| RCreateMultipartUpload (bucket key uuid : bytes)
| RUploadPart (upload_id : bytes) (part_number : Z) (body : option (list frame))
| RCompleteMultipartUpload (bucket key upload_id : bytes) (parts : option (list (option Z))).

(* The fields of the answers that depend on the request or the store, fs.rs:200-855.
   [AGet]: open file, offset and length of the body stream, Content-Length, metadata, ETag.
   [AList]: keys with sizes; [count] is KeyCount of version 2. *)
Inductive s_ans :=
| ADone
| ACopy (etag : bytes)
| ADeleted (keys : list bytes)
| AGet (h : handle) (off : N) (limit : N) (content_length : N) (md : option metadata) (etag : bytes)
| AHead (size : N) (md : option metadata)
| ABuckets (names : list bytes)
| AList (bucket : bytes) (objects : list (bytes * N)) (count : option N)
| APut (etag : option bytes)
| ACreated (bucket key upload_id : bytes)
| APart (etag : bytes)
| ACompleted (bucket key etag : bytes).

(** ** Operations *)

(* [create_bucket], /repo/src/storages/fs.rs:182-205. *)
Definition create_bucket (e : env) (bucket : bytes) : prog (sres s_ans) :=
  try_path (get_bucket_path e bucket) (fun p =>
    bind (call (CExists p)) (fun ex =>
      if ex : bool then Ret (Err BucketAlreadyExists)
      else bind (call (CMkdir p)) (fun r =>
             match r with MkOk => Ret (Ok ADone) | _ => Ret (Err InternalError) end))).

(* [copy_object], /repo/src/storages/fs.rs:207-254. *)
Definition copy_object (e : env) (copy_source bucket key : bytes) : prog (sres s_ans) :=
  match copy_source_from_header_str copy_source with
  | Err _ => Ret (Err InvalidRequest)
  | Ok (src_bucket, src_key) =>
      try_path (get_object_path e src_bucket src_key) (fun src =>
      try_path (get_object_path e bucket key) (fun dst =>
      try_io (call (CStat src)) (fun _ =>
      try_io (copy_file e src dst) (fun _ =>
      try_path (get_metadata_path e src_bucket src_key) (fun src_md =>
      bind (call (CExists src_md)) (fun ex =>
      try_io (if ex : bool then
                match get_metadata_path e bucket key with
                | Some dst_md => copy_file e src_md dst_md
                | None => Ret None
                end
              else Ret (Some tt)) (fun _ =>
      try_io (get_md5_sum e src_bucket src_key) (fun tag => Ret (Ok (ACopy tag))))))))))
  end.

(* [delete_bucket], /repo/src/storages/fs.rs:256-264. *)
Definition delete_bucket (e : env) (bucket : bytes) : prog (sres s_ans) :=
  try_path (get_bucket_path e bucket) (fun p =>
    bind (call CCount) (fun n =>
      try_io (remove_dir_all n p) (fun _ => Ret (Ok ADone)))).

(* [delete_object], /repo/src/storages/fs.rs:266-283. *)
Definition delete_object (e : env) (bucket key : bytes) : prog (sres s_ans) :=
  try_path (get_object_path e bucket key) (fun p =>
    if ends_with_char "/" key then
      try_io (call (CReadDir p)) (fun es =>
        match es with
        | [] => try_io (call (CRmdir p)) (fun _ => Ret (Ok ADone))
        | _ :: _ => Ret (Ok ADone)
        end)
    else try_io (call (CUnlink p)) (fun _ => Ret (Ok ADone))).

(* The first loop of [delete_objects]: the objects that exist, /repo/src/storages/fs.rs:290-296. *)
Fixpoint existing_objects (e : env) (bucket : bytes) (keys : list bytes)
  : prog (sres (list (path * bytes))) :=
  match keys with
  | [] => Ret (Ok [])
  | key :: keys' =>
      try_path (get_object_path e bucket key) (fun p =>
        bind (call (CExists p)) (fun ex =>
          try_res (existing_objects e bucket keys') (fun l =>
            Ret (Ok (if ex : bool then (p, key) :: l else l)))))
  end.

(* The second loop of [delete_objects], /repo/src/storages/fs.rs:298-305. *)
Fixpoint remove_objects (l : list (path * bytes)) : prog (sres (list bytes)) :=
  match l with
  | [] => Ret (Ok [])
  | (p, key) :: l' =>
      try_io (call (CUnlink p)) (fun _ =>
        try_res (remove_objects l') (fun ks => Ret (Ok (key :: ks))))
  end.

(* [delete_objects], /repo/src/storages/fs.rs:285-311. *)
Definition delete_objects (e : env) (bucket : bytes) (keys : list bytes) : prog (sres s_ans) :=
  try_res (existing_objects e bucket keys) (fun l =>
    try_res (remove_objects l) (fun ks => Ret (Ok (ADeleted ks)))).

(* [get_bucket_location], /repo/src/storages/fs.rs:313-330. *)
Definition get_bucket_location (e : env) (bucket : bytes) : prog (sres s_ans) :=
  try_path (get_bucket_path e bucket) (fun p =>
    bind (call (CExists p)) (fun ex =>
      Ret (if ex : bool then Ok ADone else Err NoSuchBucket))).

(* [u64::wrapping_sub], /repo/src/storages/fs.rs:374. *)
Definition wrapping_sub (x y : N) : N :=
  ((x + (u64_max + 1) - y) mod (u64_max + 1))%N.

(* The end of a normal range, one past its last byte, /repo/src/storages/fs.rs:372-373. *)
Definition range_end (last : option N) (file_len : N) : N :=
  match last with
  | Some x => if (x + 1 <=? u64_max)%N then (x + 1)%N else file_len
  | None => file_len
  end.

(* Offset and length of the body, /repo/src/storages/fs.rs:355-391.  Seeking from the end
   asks for the length once more. *)
Definition get_extent (h : handle) (r : option range) (file_len : N) : prog (sres (N * N)) :=
  match r with
  | None => Ret (Ok (0, file_len)%N)
  | Some (RNormal first last) =>
      if (file_len <=? first)%N then Ret (Err InvalidRange)
      else Ret (Ok (first, wrapping_sub (range_end last file_len) first))
  | Some (RSuffix last) =>
      if (last <=? file_len)%N && (last <=? i64_max)%N then
        try_io (call (CLen h)) (fun len =>
          if (last <=? len)%N then Ret (Ok (len - last, last)%N) else Ret (Err InternalError))
      else Ret (Err InvalidRange)
  end.

(* [get_object], /repo/src/storages/fs.rs:332-424. *)
Definition get_object (e : env) (bucket key : bytes) (range : option bytes) : prog (sres s_ans) :=
  try_path (get_object_path e bucket key) (fun p =>
    let go r :=
      bind (call (COpen p)) (fun o =>
        match o with
        | None => Ret (Err NoSuchKey)
        | Some h =>
            try_io (call (CLen h)) (fun file_len =>
            try_res (get_extent h r file_len) (fun ol =>
            try_io (load_metadata e bucket key) (fun md =>
            try_io (get_md5_sum e bucket key) (fun tag =>
              if (ol.2 <=? i64_max)%N then Ret (Ok (AGet h ol.1 ol.2 ol.2 md tag))
              else Ret (Err InternalError)))))
        end) in
    match range with
    | None => go None
    | Some str =>
        match range_from_header_str str with
        | Some r => go (Some r)
        | None => Ret (Err InvalidRequest)
        end
    end).

(* The body of a GetObject answer, streamed by [BytesStream] from the open file,
   /repo/src/storages/fs.rs:394.  [sched] is how the reads behave. *)
Definition get_body (s : fs) (h : handle) (off limit : N) (sched : list read_step) : list frame :=
  match h with
  | HDir _ => [FErr]
  | HFile i => bytes_stream 4096 (Some limit) (drop (N.to_nat off) (data_of s i)) sched
  end.

(* [head_bucket], /repo/src/storages/fs.rs:426-439. *)
Definition head_bucket (e : env) (bucket : bytes) : prog (sres s_ans) :=
  try_path (get_bucket_path e bucket) (fun p =>
    bind (call (CExists p)) (fun ex =>
      Ret (if ex : bool then Ok ADone else Err NoSuchBucket))).

(* [head_object], /repo/src/storages/fs.rs:441-467. *)
Definition head_object (e : env) (bucket key : bytes) : prog (sres s_ans) :=
  try_path (get_object_path e bucket key) (fun p =>
    bind (call (CExists p)) (fun ex =>
      if ex : bool then
        try_io (call (CStat p)) (fun st =>
        try_io (load_metadata e bucket key) (fun md =>
          if (st.2 <=? i64_max)%N then Ret (Ok (AHead st.2 md)) else Ret (Err InternalError)))
      else Ret (Err NoSuchKey))).

(* The loop of [list_buckets], /repo/src/storages/fs.rs:477-492. *)
Fixpoint bucket_entries (es : list (bytes * bool)) : prog (sres (list bytes)) :=
  match es with
  | [] => Ret (Ok [])
  | (c, d) :: es' =>
      let name := utf8_lossy c in
      if (d : bool) && check_bucket_name name then
        try_io (call (CStat [c])) (fun _ =>
          try_res (bucket_entries es') (fun l => Ret (Ok (name :: l))))
      else bucket_entries es'
  end.

(* [list_buckets], /repo/src/storages/fs.rs:469-499. *)
Definition list_buckets : prog (sres s_ans) :=
  try_io (call (CReadDir [])) (fun es =>
    try_res (bucket_entries es) (fun l => Ret (Ok (ABuckets l)))).

(* A relative path as text, [Path::to_string_lossy], /repo/src/storages/fs.rs:522,534. *)
Fixpoint join_components (p : path) : bytes :=
  match p with
  | [] => []
  | [c] => c
  | c :: p' => c ++ B "/" ++ join_components p'
  end.

(* [strip_prefix(&path)] and [to_string_lossy], /repo/src/storages/fs.rs:521-522. *)
Definition key_text (root p : path) : option bytes :=
  match below root p with
  | Some q => Some (utf8_lossy (join_components q))
  | None => None
  end.

(* Entries of one directory: the subdirectories to visit and the objects found,
   /repo/src/storages/fs.rs:515-542. *)
Fixpoint list_entries (root : path) (prefix : option bytes) (dir : path) (es : list (bytes * bool))
  : prog (sres (list path * list (bytes * N))) :=
  match es with
  | [] => Ret (Ok ([], []))
  | (c, d) :: es' =>
      if d : bool then
        try_res (list_entries root prefix dir es') (fun r =>
          Ret (Ok ((dir ++ [c]) :: r.1, r.2)))
      else
        match key_text root (dir ++ [c]) with
        | None => Ret (Err InternalError)
        | Some key =>
            if match prefix with Some x => starts_with x key | None => true end then
              try_io (call (CStat (dir ++ [c]))) (fun st =>
                if (st.2 <=? i64_max)%N then
                  try_res (list_entries root prefix dir es') (fun r =>
                    Ret (Ok (r.1, (key, st.2) :: r.2)))
                else Ret (Err InternalError))
            else list_entries root prefix dir es'
        end
  end.

(* The queue of directories, /repo/src/storages/fs.rs:509-544; fuel bounds the number of
   directories. *)
Fixpoint list_queue (fuel : nat) (root : path) (prefix : option bytes) (queue : list path)
  : prog (sres (list (bytes * N))) :=
  match queue with
  | [] => Ret (Ok [])
  | dir :: queue' =>
      match fuel with
      | O => Ret (Err InternalError)
      | S fuel' =>
          try_io (call (CReadDir dir)) (fun es =>
          try_res (list_entries root prefix dir es) (fun r =>
          try_res (list_queue fuel' root prefix (queue' ++ r.1)) (fun l =>
            Ret (Ok (r.2 ++ l)))))
      end
  end.

(* Sorting by key, /repo/src/storages/fs.rs:546-550. *)
Definition sort_objects (l : list (bytes * N)) : list (bytes * N) :=
  sort_by (fun x y => bytes_cmp x.1 y.1) l.

(* [list_objects] and [list_objects_v2], /repo/src/storages/fs.rs:501-565, 567-633; the second
   also reports the number of keys (:616). *)
Definition list_objects (e : env) (v2 : bool) (bucket : bytes) (prefix : option bytes)
  : prog (sres s_ans) :=
  try_path (get_bucket_path e bucket) (fun p =>
    bind (call CCount) (fun n =>
      try_res (list_queue n p prefix [p]) (fun l =>
        Ret (Ok (AList bucket (sort_objects l)
                   (if v2 then Some (N.of_nat (length l)) else None)))))).

(* Storage classes, /repo/src/storages/fs.rs:641. *)
Definition storage_class_ok (c : option bytes) : bool :=
  match c with
  | None => true
  | Some x => beq x (B "STANDARD") || beq x (B "REDUCED_REDUNDANCY")
  end.

(* [put_object], /repo/src/storages/fs.rs:635-711. *)
Definition put_object (e : env) (bucket key : bytes) (storage_class : option bytes)
  (content_length : option Z) (md : option metadata) (body : option (list frame))
  : prog (sres s_ans) :=
  if negb (storage_class_ok storage_class) then Ret (Err InvalidStorageClass)
  else
    match body with
    | None => Ret (Err IncompleteBody)
    | Some body =>
        if ends_with_char "/" key then
          if bool_decide (content_length = Some 0%Z) then
            try_path (get_object_path e bucket key) (fun p =>
              try_io (create_dir_all p) (fun _ => Ret (Ok (APut None))))
          else Ret (Err UnexpectedContent)
        else
          try_path (get_object_path e bucket key) (fun p =>
          try_io (match parent p with
                  | Some (dir, _) => create_dir_all dir
                  | None => Ret (Some tt)
                  end) (fun _ =>
          try_io (call (CCreate p)) (fun i =>
          try_io (copy_bytes e i 0 body) (fun _ =>
          try_io (match md with
                  | Some m => save_metadata e bucket key m
                  | None => Ret (Some tt)
                  end) (fun _ =>
          Ret (Ok (APut (Some (etag_of (body_data body))))))))))
    end.

(* [create_multipart_upload], /repo/src/storages/fs.rs:713-728. *)
Definition create_multipart_upload (bucket key uuid : bytes) : prog (sres s_ans) :=
  Ret (Ok (ACreated bucket key uuid)).

(* [upload_part], /repo/src/storages/fs.rs:730-775. *)
Definition upload_part (e : env) (upload_id : bytes) (part_number : Z) (body : option (list frame))
  : prog (sres s_ans) :=
  match body with
  | None => Ret (Err IncompleteBody)
  | Some body =>
      try_path (part_path e upload_id part_number) (fun p =>
      try_io (call (CCreate p)) (fun i =>
      try_io (copy_bytes e i 0 body) (fun _ =>
      Ret (Ok (APart (etag_of (body_data body)))))))
  end.

(* The loop of [complete_multipart_upload], /repo/src/storages/fs.rs:806-835; returns the
   number of bytes written.  [cnt] does not reach the bound of [i64]. *)
Fixpoint append_parts (e : env) (upload_id : bytes) (ino : N) (off : nat) (cnt : Z)
  (parts : list (option Z)) : prog (sres nat) :=
  match parts with
  | [] => Ret (Ok off)
  | None :: _ => Ret (Err InternalError)
  | Some n :: parts' =>
      if negb (bool_decide (n = cnt + 1)%Z) then Ret (Err InternalError)
      else
        try_path (part_path e upload_id n) (fun p =>
        try_io (append_file e p ino off) (fun off' =>
        try_io (call (CUnlink p)) (fun _ =>
        append_parts e upload_id ino off' (cnt + 1)%Z parts')))
  end.

(* [complete_multipart_upload], /repo/src/storages/fs.rs:777-856. *)
Definition complete_multipart_upload (e : env) (bucket key upload_id : bytes)
  (parts : option (list (option Z))) : prog (sres s_ans) :=
  match parts with
  | None => Ret (Err InvalidPart)
  | Some parts =>
      try_path (get_object_path e bucket key) (fun p =>
      try_io (call (CCreate p)) (fun i =>
      try_res (append_parts e upload_id i 0 0%Z parts) (fun _ =>
      try_io (call (CStat p)) (fun _ =>
      try_io (get_md5_sum e bucket key) (fun tag =>
      Ret (Ok (ACompleted bucket key tag)))))))
  end.

(* The [S3Storage] implementation, /repo/src/storages/fs.rs:184-857. *)
Definition storage (e : env) (r : s_req) : prog (sres s_ans) :=
  match r with
  | RCreateBucket b => create_bucket e b
  | RCopyObject src b k => copy_object e src b k
  | RDeleteBucket b => delete_bucket e b
  | RDeleteObject b k => delete_object e b k
  | RDeleteObjects b ks => delete_objects e b ks
  | RGetBucketLocation b => get_bucket_location e b
  | RGetObject b k r => get_object e b k r
  | RHeadBucket b => head_bucket e b
  | RHeadObject b k => head_object e b k
  | RListBuckets => list_buckets
  | RListObjects b x => list_objects e false b x
  | RListObjectsV2 b x => list_objects e true b x
  | RPutObject b k sc cl md body => put_object e b k sc cl md body
  | RCreateMultipartUpload b k u => create_multipart_upload b k u
  | RUploadPart u n body => upload_part e u n body
  | RCompleteMultipartUpload b k u ps => complete_multipart_upload e b k u ps
  end.
