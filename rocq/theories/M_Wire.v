(** HTTP requests with the sending of the bodies of their replies.  Definitions only. *)
From Verif Require Import M_Base M_Chunked M_Fs M_Storage M_Ops M_Service M_Download.

(* The body of a reply as hyper polls it after [hyper_call] has returned: the bytes of an open file are read while they are
   sent, /repo/src/ops/get_object.rs:153-155, /repo/src/data_structures/bytes_stream.rs:36-63; other bodies are complete
   ([RbEmpty], [RbXml]) and are part of the reply. *)
Definition hearing (rep : reply) : prog (reply * list frame) :=
  match rep with
  | Replied (Response _ _ (RbFile h off lim)) =>
      bind (stream_file (S (N.to_nat lim)) h (N.to_nat off) (N.to_nat lim)) (fun fs => Ret (rep, fs))
  | _ => Ret (rep, [])
  end.

(* One request from its arrival to the end of its reply, /repo/src/service.rs:127-143.  Simplification: the client waits for
   the end of the reply. *)
Definition converse (e : env) (sv : server) (rq : http_request) : prog (reply * list frame) :=
  bind (service e sv rq) hearing.
