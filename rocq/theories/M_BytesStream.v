(** [BytesStream]: the download body read from a file
    (/repo/src/data_structures/bytes_stream.rs).  Definitions only. *)
From Verif Require Import M_Base M_Chunked.
Local Open Scope N_scope.

(* What one [poll_read] of the underlying reader does: deliver some bytes (the number is the
   reader's choice, see [read_count]) or fail, /repo/src/data_structures/bytes_stream.rs:45.
   [Poll::Pending] only delays the call and is not modelled. *)
Inductive read_step :=
| RdSome (k : N)
| RdErr.

(* The number of bytes a read into a buffer of [buf_len] bytes delivers when [left] bytes
   remain: at least one and at most both bounds, and none only if one of them is zero
   (contract of [AsyncRead::poll_read]). *)
Definition read_count (k buf_len left : N) : N :=
  N.min (N.max 1 k) (N.min buf_len left).

(* Size of the buffer handed to the reader,
   /repo/src/data_structures/bytes_stream.rs:39-43. *)
Definition buf_len_of (limit : option N) (buf_size : N) : N :=
  match limit with Some lim => N.min lim buf_size | None => buf_size end.

(* All items of the stream, /repo/src/data_structures/bytes_stream.rs:36-63.  [sched] is the
   reader's behaviour on the successive polls; afterwards it fills the buffer.  The stream
   ends at the first [None] or error (consumers stop there).  Every round delivers at least
   one byte, so the length of the file bounds the number of rounds. *)
Fixpoint bytes_stream_loop (fuel : nat) (limit : option N) (buf_size : N) (content : bytes)
  (sched : list read_step) : list frame :=
  match fuel with
  | O => []
  | S fuel' =>
      let buf_len := buf_len_of limit buf_size in
      match head sched with
      | Some RdErr => [FErr]
      | st =>
          let k := match st with Some (RdSome k) => k | _ => buf_len end in
          let n := read_count k buf_len (N.of_nat (length content)) in
          if n =? 0 then []
          else
            let nread := N.min n buf_len in
            let limit' := match limit with Some lim => Some (lim - nread) | None => None end in
            FData (take (N.to_nat nread) content)
              :: bytes_stream_loop fuel' limit' buf_size (drop (N.to_nat n) content) (tail sched)
      end
  end.

(* [BytesStream::new] polled to the end, /repo/src/data_structures/bytes_stream.rs:23-31. *)
Definition bytes_stream (buf_size : N) (limit : option N) (content : bytes)
  (sched : list read_step) : list frame :=
  bytes_stream_loop (S (length content)) limit buf_size content sched.
