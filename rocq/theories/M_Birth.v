(** The times at which directories were made, and the reply to ListBuckets.  Definitions only. *)
From Verif Require Import M_Base M_Path M_Fs M_Storage M_Time M_Clock M_Errors M_Auth M_Ops M_Service M_Dates.

(* The time at which each directory was made, if it is known, as [Metadata::created] tells it,
   /repo/src/storages/fs.rs:485. *)
Notation births := (gmap path Z).

(* Making a directory sets its time, /repo/src/storages/fs.rs:200,667,679. *)
Definition born (ck : clock) {R} (c : syscall R) (r : R) (n : nat) (m : births) : births :=
  match c in syscall R return R -> births with
  | CMkdir p => fun r => match r with MkOk => <[p := ck_now ck n]> m | _ => m end
  | _ => fun _ => m
  end r.

(* The times after a function of the storage, run alone to its end, /repo/src/storages/fs.rs throughout. *)
Fixpoint brun (e : env) (ck : clock) {A} (m : prog A) (w : world) (bs : births) : births :=
  match m with
  | Ret _ => bs
  | Do c k => let '(w', r) := texec e ck c w in brun e ck (k r) w' (born ck c r (w_calls w) bs)
  end.

(* One [Bucket] element, /repo/src/ops/list_buckets.rs:45-50, with the [creation_date] of
   /repo/src/storages/fs.rs:485-489; directories of unknown time count as made in 1970. *)
Definition bucket_xml (off : Z) (bs : births) (n : bytes) : xml :=
  XStack (B "Bucket") [XText (B "CreationDate") (stamp_text off (default 0%Z (bs !! [n]))); XText (B "Name") n].

(* The reply to ListBuckets, /repo/src/storages/fs.rs:484-490, /repo/src/ops/list_buckets.rs:38-61.
   [created] fails on file systems that do not keep the times ([keeps] is false). *)
Definition buckets_response (off : Z) (keeps : bool) (bs : births) (names : list bytes) : sres response :=
  if keeps || match names with [] => true | _ => false end then
    Ok (xml_response 200 (XStack (B "ListAllMyBucketsResult") [XStack (B "Buckets") (map (bucket_xml off bs) names)]))
  else Err InternalError.

(* The service, with all dates, /repo/src/service.rs:127-140. *)
Definition born_service (e : env) (ck : clock) (off : Z) (keeps : bool) (sv : server) (rq : http_request) (x : world * births)
  : (world * births) * reply :=
  let '(w, bs) := x in
  match front sv rq with
  | FrErr c => (x, Replied (error_response c))
  | FrPanic => (x, Panicked)
  | FrCall op c r =>
      let '(w', a) := timed e ck r w in
      ((w', brun e ck (storage e r) (World (w_fs w) (w_mtime w) (w_calls w) []) bs),
       match op, a with
       | OpListBuckets, Ok (ABuckets names) => reply_of (buckets_response off keeps bs names)
       | _, _ => reply_of (dated_respond op c a (dates_of e ck off r w))
       end)
  end.

(* Requests one after the other, /repo/src/service.rs:127-140. *)
Fixpoint born_requests (e : env) (ck : clock) (off : Z) (keeps : bool) (xs : list (server * http_request)) (x : world * births)
  : world * births :=
  match xs with
  | [] => x
  | y :: xs' => born_requests e ck off keeps xs' (born_service e ck off keeps y.1 y.2 x).1
  end.
