(** Downloads as they are sent while other requests are handled.  Definitions only. *)
From Verif Require Import M_Base M_Chunked M_BytesStream M_Fs M_Storage.

(* The stream of a download, /repo/src/data_structures/bytes_stream.rs:36-63 and
   /repo/src/storages/fs.rs:394: every item is one read of the open file at its position, into
   a buffer of at most 4096 bytes and at most as many as are left of [lim]; the stream ends when a
   read gives nothing and with the first error.  Every item takes at least one byte off [lim], so
   [S lim] rounds are enough.  Simplification: no read-ahead, [Poll::Pending] only delays. *)
Fixpoint stream_file (fuel : nat) (h : handle) (off lim : nat) : prog (list frame) :=
  match fuel with
  | O => Ret []
  | S fuel' =>
      bind (call (CRead h off)) (fun o =>
        match o with
        | None => Ret [FErr]
        | Some b =>
            let nread := length b `min` (lim `min` 4096) in
            match nread with
            | O => Ret []
            | S _ =>
                bind (stream_file fuel' h (off + nread) (lim - nread)) (fun fs =>
                  Ret (FData (take nread b) :: fs))
            end
        end)
  end.

(* A request with the sending of its answer: the answer of the storage and, for a download, the
   items of its body, /repo/src/storages/fs.rs:332-424 and /repo/src/service.rs:127-143. *)
Definition deliver (e : env) (r : s_req) : prog (sres s_ans * list frame) :=
  bind (storage e r) (fun a =>
    match a with
    | Ok (AGet h off lim _ _ _) =>
        bind (stream_file (S (N.to_nat lim)) h (N.to_nat off) (N.to_nat lim)) (fun fs => Ret (a, fs))
    | _ => Ret (a, [])
    end).
