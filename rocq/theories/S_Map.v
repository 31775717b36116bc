(** The store as a map: what well-behaved requests are to answer, without files, directories or
    system calls. *)
From Verif Require Import M_Base M_Path M_Headers M_Chunked M_Fs M_Json M_Utf8 M_Storage
  S_Path S_Headers S_Chunked S_Storage S_Store.

(* Buckets, the content of objects, the metadata written last for every bucket and key (it
   outlives the object, see C45), and the parts of uploads. *)
Record store := Store {
  buckets : gset bytes;
  objects : gmap (bytes * bytes) bytes;
  metadatas : gmap (bytes * bytes) metadata;
  parts : gmap (bytes * Z) bytes;
}.
Definition nothing_stored : store := Store ∅ ∅ ∅ ∅.

Definition set_buckets (bs : gset bytes) (st : store) : store :=
  Store bs (objects st) (metadatas st) (parts st).
Definition set_object (b k d : bytes) (st : store) : store :=
  Store (buckets st) (<[(b, k) := d]> (objects st)) (metadatas st) (parts st).
Definition set_metadata (b k : bytes) (md : option metadata) (st : store) : store :=
  match md with
  | Some m => Store (buckets st) (objects st) (<[(b, k) := m]> (metadatas st)) (parts st)
  | None => st
  end.
Definition drop_objects (P : bytes * bytes -> Prop) `{!forall x, Decision (P x)} (st : store) : store :=
  Store (buckets st) (filter (fun x => ~ P x.1) (objects st)) (metadatas st) (parts st).
Definition set_part (u : bytes) (n : Z) (d : bytes) (st : store) : store :=
  Store (buckets st) (objects st) (metadatas st) (<[(u, n) := d]> (parts st)).
(* Without the parts 1 to [n] of an upload. *)
Definition drop_parts (u : bytes) (n : nat) (st : store) : store :=
  Store (buckets st) (objects st) (metadatas st)
    (filter (fun x => ~ (x.1.1 = u /\ (1 <= x.1.2 <= Z.of_nat n)%Z)) (parts st)).

(* The part numbers 1 to [n], and the data of these parts put together. *)
Definition one_to (n : nat) : list (option Z) := map Some (seqZ 1 (Z.of_nat n)).
Definition assembled (st : store) (u : bytes) (n : nat) (data : bytes) : Prop :=
  exists cs, length cs = n /\ data = concat cs /\
    forall j c, cs !! j = Some c -> parts st !! (u, (Z.of_nat j + 1)%Z) = Some c.

(* What a client sees of a request: an error, an answer, or an object. *)
Inductive seen :=
| Refused (code : s3_code)
| Answered (a : s_ans)
| Object (data : bytes) (md : option metadata) (tag : bytes).

Definition storage_classes : list (option bytes) :=
  [None; Some (B "STANDARD"); Some (B "REDUCED_REDUNDANCY")].

(* The objects of a bucket with a prefix, sorted. *)
Definition listing (st : store) (b : bytes) (prefix : option bytes) (l : list (bytes * N)) : Prop :=
  (forall k n, (k, n) ∈ l <-> (forall x, prefix = Some x -> x `prefix_of` k) /\
     exists d, objects st !! (b, k) = Some d /\ n = N.of_nat (length d)) /\
  StronglySorted (fun x y => bytes_lt x.1 y.1) l.

(* [serves st r v st']: the map [st] answers the request [r] with [v] and becomes [st']. *)
Inductive serves (st : store) : s_req -> seen -> store -> Prop :=
| sv_create_bucket b : b ∉ buckets st ->
    serves st (RCreateBucket b) (Answered ADone) (set_buckets ({[b]} ∪ buckets st) st)
| sv_create_again b : b ∈ buckets st ->
    serves st (RCreateBucket b) (Refused BucketAlreadyExists) st
| sv_delete_bucket b : b ∈ buckets st ->
    serves st (RDeleteBucket b) (Answered ADone)
      (set_buckets (buckets st ∖ {[b]}) (drop_objects (fun x => x.1 = b) st))
| sv_delete_no_bucket b : b ∉ buckets st ->
    serves st (RDeleteBucket b) (Refused InternalError) st
| sv_head_bucket b : b ∈ buckets st -> serves st (RHeadBucket b) (Answered ADone) st
| sv_head_no_bucket b : b ∉ buckets st -> serves st (RHeadBucket b) (Refused NoSuchBucket) st
| sv_locate b : b ∈ buckets st -> serves st (RGetBucketLocation b) (Answered ADone) st
| sv_locate_no_bucket b : b ∉ buckets st -> serves st (RGetBucketLocation b) (Refused NoSuchBucket) st
| sv_list_buckets l : NoDup l -> (forall b, b ∈ l <-> b ∈ buckets st) ->
    serves st RListBuckets (Answered (ABuckets l)) st
| sv_list b x l : b ∈ buckets st -> listing st b x l ->
    serves st (RListObjects b x) (Answered (AList b l None)) st
| sv_list_no_bucket b x : b ∉ buckets st -> serves st (RListObjects b x) (Refused InternalError) st
| sv_list2 b x l : b ∈ buckets st -> listing st b x l ->
    serves st (RListObjectsV2 b x) (Answered (AList b l (Some (N.of_nat (length l))))) st
| sv_list2_no_bucket b x : b ∉ buckets st -> serves st (RListObjectsV2 b x) (Refused InternalError) st
| sv_get b k d : objects st !! (b, k) = Some d ->
    serves st (RGetObject b k None) (Object d (metadatas st !! (b, k)) (quoted_md5 d)) st
| sv_get_range b k d str rg x : objects st !! (b, k) = Some d -> range_text str rg -> slice rg d = Some x ->
    serves st (RGetObject b k (Some str)) (Object x (metadatas st !! (b, k)) (quoted_md5 d)) st
| sv_get_no_range b k d str rg : objects st !! (b, k) = Some d -> range_text str rg -> slice rg d = None ->
    serves st (RGetObject b k (Some str)) (Refused InvalidRange) st
| sv_get_none b k range : objects st !! (b, k) = None ->
    serves st (RGetObject b k range) (Refused NoSuchKey) st
| sv_head b k d : objects st !! (b, k) = Some d ->
    serves st (RHeadObject b k) (Answered (AHead (N.of_nat (length d)) (metadatas st !! (b, k)))) st
| sv_head_none b k : objects st !! (b, k) = None ->
    serves st (RHeadObject b k) (Refused NoSuchKey) st
| sv_put b k c len md body : c ∈ storage_classes ->
    serves st (RPutObject b k c len md (Some body)) (Answered (APut (Some (quoted_md5 (carried body)))))
      (set_metadata b k md (set_object b k (carried body) (set_buckets ({[b]} ∪ buckets st) st)))
| sv_put_class b k c len md body : c ∉ storage_classes ->
    serves st (RPutObject b k c len md body) (Refused InvalidStorageClass) st
| sv_put_nothing b k c len md : c ∈ storage_classes ->
    serves st (RPutObject b k c len md None) (Refused IncompleteBody) st
| sv_delete b k : is_Some (objects st !! (b, k)) ->
    serves st (RDeleteObject b k) (Answered ADone) (drop_objects (fun x => x = (b, k)) st)
| sv_delete_none b k : objects st !! (b, k) = None ->
    serves st (RDeleteObject b k) (Refused InternalError) st
| sv_delete_many b ks :
    serves st (RDeleteObjects b ks) (Answered (ADeleted (filter (fun k => is_Some (objects st !! (b, k))) ks)))
      (drop_objects (fun x => x.1 = b /\ x.2 ∈ ks) st)
| sv_copy sb sk b k d : "/"%char ∉ sb -> objects st !! (sb, sk) = Some d ->
    serves st (RCopyObject (sb ++ B "/" ++ sk) b k) (Answered (ACopy (quoted_md5 d)))
      (set_metadata b k (metadatas st !! (sb, sk)) (set_object b k d st))
| sv_copy_none sb sk b k : "/"%char ∉ sb -> objects st !! (sb, sk) = None ->
    serves st (RCopyObject (sb ++ B "/" ++ sk) b k) (Refused InternalError) st
| sv_create_upload b k u : serves st (RCreateMultipartUpload b k u) (Answered (ACreated b k u)) st
| sv_part u n body :
    serves st (RUploadPart u n (Some body)) (Answered (APart (quoted_md5 (carried body))))
      (set_part u n (carried body) st)
| sv_part_nothing u n : serves st (RUploadPart u n None) (Refused IncompleteBody) st
| sv_complete b k u n data : assembled st u n data ->
    serves st (RCompleteMultipartUpload b k u (Some (one_to n))) (Answered (ACompleted b k (quoted_md5 data)))
      (drop_parts u n (set_object b k data st))
| sv_complete_nothing b k u : serves st (RCompleteMultipartUpload b k u None) (Refused InvalidPart) st.

(* The object names that a history uses: legal buckets, keys of ordinary segments where no key
   is a directory of another, short enough for the operating system. *)
Record names_ok (e : env) (U : bytes -> bytes -> Prop) : Prop := {
  nm_bucket b k : U b k -> legal_bucket b;
  nm_key b k : U b k -> ordinary k /\ legal_key k /\ utf8_valid k = true /\ LF ∉ k;
  nm_nesting b k k' r : U b k -> U b k' -> k' <> k ++ B "/" ++ r;
  nm_path b k p : U b k -> located b k p -> e_os_ok e p = true;
  nm_meta b k : U b k -> e_os_ok e [metadata_name b k] = true;
}.

(* Copies and completions do not create directories: the bucket is there, and the key is there
   or has no slash. *)
Definition can_hold (st : store) (b k : bytes) : Prop :=
  b ∈ buckets st /\ (is_Some (objects st !! (b, k)) \/ "/"%char ∉ k).
Definition small (d : bytes) : Prop := (N.of_nat (length d) <= i64_max)%N.

(* Well-behaved requests. *)
Definition well_behaved (e : env) (U : bytes -> bytes -> Prop) (st : store) (r : s_req) : Prop :=
  match r with
  | RCreateBucket b => legal_bucket b /\ e_os_ok e [b] = true
  | RDeleteBucket b | RGetBucketLocation b | RHeadBucket b => legal_bucket b
  | RListObjects b x | RListObjectsV2 b x => legal_bucket b /\ (forall y, x = Some y -> utf8_valid y = true)
  | RListBuckets => True
  | RGetObject b k range => U b k /\ forall str, range = Some str ->
      exists rg, range_text str rg /\ forall d, objects st !! (b, k) = Some d -> inside rg d
  | RHeadObject b k | RDeleteObject b k | RCreateMultipartUpload b k _ => U b k
  | RDeleteObjects b ks => legal_bucket b /\ Forall (U b) ks /\ NoDup ks
  | RPutObject b k _ _ md body => U b k /\ (forall m, md = Some m -> metadata_ok m) /\
      forall fs, body = Some fs -> broken fs = false /\ small (carried fs)
  | RCopyObject src b k => U b k /\
      exists sb sk, U sb sk /\ src = sb ++ B "/" ++ sk /\ (sb, sk) <> (b, k) /\
        (is_Some (objects st !! (sb, sk)) -> can_hold st b k)
  | RUploadPart u n body => "/"%char ∉ u /\ utf8_valid u = true /\ e_os_ok e [part_name u n] = true /\
      forall fs, body = Some fs -> broken fs = false
  | RCompleteMultipartUpload b k u ps => U b k /\ "/"%char ∉ u /\ utf8_valid u = true /\
      forall l, ps = Some l -> can_hold st b k /\
        exists n data, l = one_to n /\ assembled st u n data /\ small data
  end.

(* What is seen of the request [r] to the file system [s]. *)
Definition sees (e : env) (s : fs) (r : s_req) (v : seen) : Prop :=
  match v with
  | Refused c => answer e r s = Err c
  | Answered a => answer e r s = Ok a
  | Object d md tag => match r with
      | RGetObject b k range => gets e s b k range d (N.of_nat (length d)) md tag
      | _ => False
      end
  end.

(* Sequences of requests: what the map serves, what is seen of the server, good behaviour. *)
Inductive serves_all : store -> list s_req -> list seen -> store -> Prop :=
| sva_nil st : serves_all st [] [] st
| sva_cons st r v st1 rs vs st2 :
    serves st r v st1 -> serves_all st1 rs vs st2 -> serves_all st (r :: rs) (v :: vs) st2.
Fixpoint sees_all (e : env) (s : fs) (rs : list s_req) (vs : list seen) : Prop :=
  match rs, vs with
  | [], [] => True
  | r :: rs', v :: vs' => sees e s r v /\ sees_all e (after e r s) rs' vs'
  | _, _ => False
  end.
Definition all_well_behaved (e : env) (U : bytes -> bytes -> Prop) (st : store) (rs : list s_req) : Prop :=
  forall rs1 r rs2 vs st1, rs = rs1 ++ r :: rs2 -> serves_all st rs1 vs st1 -> well_behaved e U st1 r.
