(** The service: from an HTTP request to the storage and back
    (/repo/src/service.rs:127-180).  Definitions only. *)
From Verif Require Export M_Auth M_Ops.

(* What [handle] comes to before the storage is called, /repo/src/service.rs:145-179: an error,
   a panic of the request task, or a call of the storage by one of the handlers. *)
Inductive front_result :=
| FrErr (c : s3_code)
| FrPanic
| FrCall (op : s3_op) (c : ctx) (r : s_req).

(* The loop over the handlers, /repo/src/service.rs:172-176. *)
Definition dispatch (c : ctx) : option s3_op := find (fun op => is_match op c) handlers.

(* The handler's [extract], or NotSupported, /repo/src/service.rs:172-179. *)
Definition handle_with (sv : server) (c : ctx) : front_result :=
  match dispatch c with
  | None => FrErr NotSupported
  | Some op =>
      match extract sv op c with
      | Done r => FrCall op c r
      | Fail e => FrErr e
      | Panic => FrPanic
      end
  end.

(* Everything before the call of the storage, /repo/src/service.rs:145-179. *)
Definition front (sv : server) (rq : http_request) : front_result :=
  match make_ctx sv rq with
  | Err e => FrErr e
  | Ok c =>
      match check_signature sv c with
      | Err e => FrErr e
      | Ok c =>
          if beq (cx_method c) (B "POST") && is_object (cx_path c) && some (cx_multipart c)
          then FrErr MethodNotAllowed
          else handle_with sv c
      end
  end.

(* The end of a request: a response, or no response because the task has panicked. *)
Inductive reply :=
| Replied (r : response)
| Panicked.

(* The [Err] arm of [hyper_call], /repo/src/service.rs:129-132. *)
Definition reply_of (r : sres response) : reply :=
  match r with
  | Ok r => Replied r
  | Err c => Replied (error_response c)
  end.

(* [hyper_call], /repo/src/service.rs:127-140, with the file-system storage. *)
Definition service (e : env) (sv : server) (rq : http_request) : prog reply :=
  match front sv rq with
  | FrErr c => Ret (Replied (error_response c))
  | FrPanic => Ret Panicked
  | FrCall op c r => bind (storage e r) (fun a => Ret (reply_of (respond op c a)))
  end.
