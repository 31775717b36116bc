(** Specification of the [aws-chunked] transfer format, on the flat byte sequence of the
    body, written without reference to the decoder. *)
From Verif Require Import M_Base M_Headers M_Crypto M_SigV4 M_Chunked S_Path.

(* What a list of frames carries: the bytes before the first transport error, and whether
   there is one. *)
Fixpoint carried (fs : list frame) : bytes :=
  match fs with
  | FData b :: fs' => b ++ carried fs'
  | _ => []
  end.
Definition broken (fs : list frame) : bool :=
  existsb (fun f => match f with FErr => true | FData _ => false end) fs.

(* A hexadecimal digit and its value. *)
Definition hexdigits : bytes := B "0123456789abcdefABCDEF".
Definition hexvalue (a : ascii) : N :=
  if bool_decide (a ∈ digits) then code a - 48
  else if bool_decide (a ∈ letters) then code a - 87
  else code a - 55.

(* The number written by a string of hexadecimal digits. *)
Inductive hex_denotes : bytes -> N -> Prop :=
| hd_nil : hex_denotes [] 0
| hd_snoc s n a : hex_denotes s n -> a ∈ hexdigits -> hex_denotes (s ++ [a]) (n * 16 + hexvalue a).

(* A size field: one to eight hexadecimal digits, possibly followed by text that is ignored:
   after eight digits anything, after fewer only what does not start with a digit. *)
Definition size_field (s : bytes) (n : N) : Prop :=
  exists h r, s = h ++ r /\ h <> [] /\ hex_denotes h n /\ (length h <= 8)%nat /\
    (length h = 8%nat \/ forall a r', r = a :: r' -> a ∉ hexdigits).

(* The header line of a chunk. *)
Definition chunk_header (size sig : bytes) : bytes :=
  size ++ B ";chunk-signature=" ++ sig ++ CRLF.
Definition header_line (line : bytes) (n : N) (sig : bytes) : Prop :=
  exists size, line = chunk_header size sig /\ ";"%char ∉ size /\ size_field size n
    /\ length sig = 64%nat.

(* The signature AWS defines for a chunk: HMAC of the chunk's string to sign, which chains
   the previous signature and the hash of the data. *)
Definition chunk_sig (d : amz_date) (region secret prev data : bytes) : bytes :=
  to_hex (hmac_sha256 (signing_key secret d region)
    (B "AWS4-HMAC-SHA256-PAYLOAD" ++ [LF] ++ to_iso8601 d ++ [LF] ++
     to_date d ++ B "/" ++ region ++ B "/s3/aws4_request" ++ [LF] ++ prev ++ [LF] ++
     to_hex (sha256 []) ++ [LF] ++ to_hex (sha256 data))).

(* Meaning of a body received after a request with signature [prev]: which bytes are
   delivered and how the stream ends. *)
Inductive chunked_means (d : amz_date) (region secret : bytes) :
  bytes -> bytes -> bool -> bytes -> stream_end -> Prop :=
| cm_end prev input :
    (* no further header line: the end of the stream *)
    LF ∉ input ->
    chunked_means d region secret prev input false [] SEnd
| cm_io prev input :
    LF ∉ input ->
    chunked_means d region secret prev input true [] (SErr CeIo)
| cm_bad_header prev line rest br :
    LF ∉ line -> (forall n sig, ~ header_line (line ++ [LF]) n sig) ->
    chunked_means d region secret prev (line ++ [LF] ++ rest) br [] (SErr CeFormat)
| cm_chunk prev line n sig data rest br out e :
    header_line line n sig -> LF ∉ removelast line ->
    N.of_nat (length data) = n ->
    sig = chunk_sig d region secret prev data ->
    chunked_means d region secret sig rest br out e ->
    chunked_means d region secret prev (line ++ data ++ CRLF ++ rest) br (data ++ out) e
| cm_mismatch prev line n sig data rest br :
    header_line line n sig -> LF ∉ removelast line ->
    N.of_nat (length data) = n ->
    sig <> chunk_sig d region secret prev data ->
    chunked_means d region secret prev (line ++ data ++ CRLF ++ rest) br [] (SErr CeMismatch)
| cm_no_crlf prev line n sig data tail br :
    header_line line n sig -> LF ∉ removelast line ->
    N.of_nat (length data) = n ->
    (forall rest, tail <> CRLF ++ rest) -> tail <> [] -> tail <> [CR] ->
    chunked_means d region secret prev (line ++ data ++ tail) br [] (SErr CeFormat)
| cm_short prev line n sig rest (br : bool) :
    (* the body stops inside the data or inside the CR LF that follows *)
    header_line line n sig -> LF ∉ removelast line ->
    ((N.of_nat (length rest) < n)%N \/
     exists data, N.of_nat (length data) = n /\ (rest = data \/ rest = data ++ [CR])) ->
    chunked_means d region secret prev (line ++ rest) br []
      (SErr (if br then CeIo else CeIncomplete)).

(* A sender: chunks (size field and data) with chained signatures computed by [sign]. *)
Fixpoint encode_with (sign : bytes -> bytes -> bytes) (prev : bytes)
  (chunks : list (bytes * bytes)) : bytes :=
  match chunks with
  | [] => []
  | (size, data) :: cs =>
      chunk_header size (sign prev data) ++ data ++ CRLF ++
      encode_with sign (sign prev data) cs
  end.

(* The sender of the AWS protocol. *)
Definition encode_chunks (d : amz_date) (region secret : bytes) :=
  encode_with (chunk_sig d region secret).

(* The sizes written are right. *)
Definition sizes_ok (chunks : list (bytes * bytes)) : Prop :=
  Forall (fun c => size_field c.1 (N.of_nat (length c.2)) /\ ";"%char ∉ c.1 /\ LF ∉ c.1) chunks.
