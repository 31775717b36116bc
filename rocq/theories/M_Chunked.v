(** Request body frames and the [aws-chunked] decoder
    (/repo/src/streams/aws_chunked_stream.rs).  Definitions only. *)
From Verif Require Import M_Base M_Headers M_Crypto M_SigV4.

(* One item of a [Stream<Item = io::Result<Bytes>>]: the bytes of one HTTP data frame or a
   transport error (/repo/src/streams/aws_chunked_stream.rs:136,
   /repo/src/streams/multipart.rs:83, /repo/src/dto.rs ByteStream).  The content of the
   error is not modelled.  A stream is a finite list; the end of the list is [None]. *)
Inductive frame :=
| FData (b : bytes)
| FErr.

(* [AwsChunkedStreamError], /repo/src/streams/aws_chunked_stream.rs:52-67. *)
Inductive chunk_error := CeIo | CeMismatch | CeFormat | CeIncomplete.

(* How a stream ended: [None] item reached, an error item, or (model only) the fuel of the
   model's loop was used up, which T_Chunked proves impossible. *)
Inductive stream_end :=
| SEnd
| SErr (e : chunk_error)
| SFuel.

(* [SignatureCtx], /repo/src/streams/aws_chunked_stream.rs:38-49. *)
Record signature_ctx := SignatureCtx {
  sc_date : amz_date; sc_region : bytes; sc_secret : bytes; sc_prev : bytes
}.

(* nom's [hex_u32] (complete): the longest run of hexadecimal digits, at least one, of which
   at most the first eight are read; the remainder of the input is dropped by the caller,
   /repo/src/streams/aws_chunked_stream.rs:98. *)
Definition hex_u32 (l : bytes) : option N :=
  let '(h, _) := span (fun a => match hex_val a with Some _ => true | None => false end) l in
  match h with
  | [] => None
  | _ => Some (fold_left (fun n a => n * 16 + default 0 (hex_val a))%N (take 8 h) 0%N)
  end.

(* [parse_chunk_meta], /repo/src/streams/aws_chunked_stream.rs:78-101: size and signature.
   [u32 -> usize] never fails on the 64-bit targets. *)
Definition parse_chunk_meta (l : bytes) : option (N * bytes) :=
  let '(size_str, l1) := span (fun a => negb (aeq a ";")) l in
  match size_str with
  | [] => None
  | _ =>
      match strip_prefix (B ";chunk-signature=") l1 with
      | None => None
      | Some l2 =>
          match take_n 64 l2 with
          | None => None
          | Some (signature, l3) =>
              if beq l3 CRLF then
                match hex_u32 size_str with
                | None => None
                | Some size => Some (size, signature)
                end
              else None
          end
      end
  end.

(* [check_signature], /repo/src/streams/aws_chunked_stream.rs:104-124. *)
Definition check_chunk_signature (ctx : signature_ctx) (expected : bytes)
  (chunk_data : list bytes) : option bytes :=
  let sts := create_chunk_string_to_sign (sc_date ctx) (sc_region ctx) (sc_prev ctx) chunk_data in
  let s := calculate_signature sts (sc_secret ctx) (sc_date ctx) (sc_region ctx) in
  if beq s expected then Some s else None.

(* Result of reading from the body: end of the body, a transport error, a format error, or a
   value with the unread part of the last frame and the frames not polled yet
   ([Option<Result<_, _>>], /repo/src/streams/aws_chunked_stream.rs:198-301). *)
Inductive read_result (A : Type) :=
| REof
| RIo
| RFormat
| ROk (a : A) (rest : bytes) (fs : list frame).
Arguments REof {A}.
Arguments RIo {A}.
Arguments RFormat {A}.
Arguments ROk {A} a rest fs.

(* [push_meta_bytes], /repo/src/streams/aws_chunked_stream.rs:208-218: split after the first
   LF ([memchr]). *)
Definition split_lf (l : bytes) : option (bytes * bytes) :=
  match split_once LF l with
  | None => None
  | Some (x, y) => Some (x ++ [LF], y)
  end.

(* [read_meta_bytes], /repo/src/streams/aws_chunked_stream.rs:198-234; [acc] is [buf], [cur]
   the bytes being pushed. *)
Fixpoint read_meta (acc cur : bytes) (fs : list frame) : read_result bytes :=
  match split_lf cur with
  | Some (leading, rest) => ROk (acc ++ leading) rest fs
  | None =>
      match fs with
      | [] => REof
      | FErr :: _ => RIo
      | FData b :: fs' => read_meta (acc ++ cur) b fs'
      end
  end.

(* First half of [read_data], /repo/src/streams/aws_chunked_stream.rs:245-277: collect
   [size] bytes, keeping the pieces; [cur] is the argument of [push_data_bytes]. *)
Fixpoint collect_data (size : N) (acc : list bytes) (cur : bytes) (fs : list frame)
  : read_result (list bytes) :=
  if (size =? 0)%N then ROk acc cur fs
  else if (size <=? N.of_nat (length cur))%N then
    ROk (acc ++ [take (N.to_nat size) cur]) (drop (N.to_nat size) cur) fs
  else
    match fs with
    | [] => REof
    | FErr :: _ => RIo
    | FData b :: fs' => collect_data (size - N.of_nat (length cur)) (acc ++ [cur]) b fs'
    end.

(* One round of the inner loop at /repo/src/streams/aws_chunked_stream.rs:283-296: read one
   expected byte, polling further frames while the current one is empty. *)
Fixpoint expect_byte (c : ascii) (cur : bytes) (fs : list frame) : read_result unit :=
  match cur with
  | x :: r => if aeq x c then ROk () r fs else RFormat
  | [] =>
      match fs with
      | [] => REof
      | FErr :: _ => RIo
      | FData b :: fs' => expect_byte c b fs'
      end
  end.

(* The CR LF after the data, /repo/src/streams/aws_chunked_stream.rs:278-298. *)
Definition expect_crlf (cur : bytes) (fs : list frame) : read_result unit :=
  if starts_with CRLF cur then ROk () (drop 2 cur) fs
  else
    match expect_byte CR cur fs with
    | ROk _ cur' fs' => expect_byte LF cur' fs'
    | r => r
    end.

(* [read_data], /repo/src/streams/aws_chunked_stream.rs:237-301. *)
Definition read_data (size : N) (prev : bytes) (fs : list frame) : read_result (list bytes) :=
  match collect_data size [] prev fs with
  | ROk data cur fs' =>
      match expect_crlf cur fs' with
      | ROk _ cur' fs'' => ROk data cur' fs''
      | REof => REof
      | RIo => RIo
      | RFormat => RFormat
      end
  | REof => REof
  | RIo => RIo
  | RFormat => RFormat
  end.

(* The loop of [AwsChunkedStream::new], /repo/src/streams/aws_chunked_stream.rs:154-188: the
   items yielded and how the stream ends.  Every round consumes at least one byte (the LF of
   the chunk header), so the loop is given the total number of bytes as fuel. *)
Fixpoint chunk_loop (fuel : nat) (ctx : signature_ctx) (prev : bytes) (fs : list frame)
  : list bytes * stream_end :=
  match fuel with
  | O => ([], SFuel)
  | S fuel' =>
      match read_meta [] prev fs with
      | REof => ([], SEnd)
      | RIo => ([], SErr CeIo)
      | RFormat => ([], SErr CeFormat)
      | ROk buf prev1 fs1 =>
          match parse_chunk_meta buf with
          | None => ([], SErr CeFormat)
          | Some (size, expected) =>
              match read_data size prev1 fs1 with
              | REof => ([], SErr CeIncomplete)
              | RIo => ([], SErr CeIo)
              | RFormat => ([], SErr CeFormat)
              | ROk data prev2 fs2 =>
                  match check_chunk_signature ctx expected data with
                  | None => ([], SErr CeMismatch)
                  | Some s =>
                      let ctx' := SignatureCtx (sc_date ctx) (sc_region ctx) (sc_secret ctx) s in
                      let '(out, e) := chunk_loop fuel' ctx' prev2 fs2 in
                      (data ++ out, e)
                  end
              end
          end
      end
  end.

(* Number of bytes in a list of frames: the fuel of [chunk_loop]
   (/repo/src/streams/aws_chunked_stream.rs:154). *)
Definition frames_len (fs : list frame) : nat :=
  sum_list_with (fun f => match f with FData b => length b | FErr => 0 end) fs.

(* [AwsChunkedStream::new], /repo/src/streams/aws_chunked_stream.rs:128-195. *)
Definition aws_chunked (d : amz_date) (region secret seed : bytes) (fs : list frame)
  : list bytes * stream_end :=
  chunk_loop (S (frames_len fs)) (SignatureCtx d region secret seed) [] fs.

(* [Body::wrap_stream] of the decoder, /repo/src/service.rs:540-546: the storage sees the
   yielded pieces as frames and a decoder error as a body error. *)
Definition frames_of_stream (r : list bytes * stream_end) : list frame :=
  map FData r.1 ++ match r.2 with SEnd => [] | _ => [FErr] end.
