(** The multipart/form-data parser (/repo/src/streams/multipart.rs).  Definitions only. *)
From Verif Require Import M_Base M_Utf8 M_Chunked.

(* [CrlfLines::next_line], /repo/src/streams/multipart.rs:372-397: the bytes before the first
   CR LF (the first LF that is preceded by a CR), or everything if there is none. *)
Fixpoint split_crlf (l : bytes) : option (bytes * bytes) :=
  match l with
  | [] => None
  | a :: l' =>
      match l' with
      | b :: l'' =>
          if aeq a CR && aeq b LF then Some ([], l'')
          else match split_crlf l' with
               | None => None
               | Some (x, y) => Some (a :: x, y)
               end
      | [] => None
      end
  end.

(* [CrlfLines::next_line], /repo/src/streams/multipart.rs:372-397: the line and what remains
   in [self.slice]. *)
Definition next_line (slice : bytes) : option (bytes * bytes) :=
  match split_crlf slice with
  | Some (x, y) => Some (x, y)
  | None => match slice with [] => None | _ => Some (slice, []) end
  end.

(* The loop of [CrlfLines::split_to], /repo/src/streams/multipart.rs:400-416: [slice] is
   [lines.slice], [len] the length counted so far.  Every round removes at least one byte, so
   the length of the slice is enough fuel; running out of it cannot happen and gives [None]. *)
Fixpoint split_to_loop (fuel : nat) (pat slice : bytes) (len : nat) : option (nat * bytes) :=
  match fuel with
  | O => None
  | S fuel' =>
      match next_line slice with
      | None => None
      | Some (line, rest) =>
          if beq line pat then Some (len, rest)
          else split_to_loop fuel' pat rest (len + length line + 2)
      end
  end.

(* [CrlfLines::split_to], /repo/src/streams/multipart.rs:400-416: the bytes before the line
   equal to [pat] and the new [self.slice]. *)
Definition split_to (pat slice : bytes) : option (bytes * bytes) :=
  match split_to_loop (S (length slice)) pat slice 0 with
  | None => None
  | Some (len, rest) => Some (take (Nat.min len (length slice)) slice, rest)
  end.

(* httparse's [is_header_name_token] (RFC 7230 token), /repo/src/streams/multipart.rs:158. *)
Definition is_token (a : ascii) : bool :=
  is_digit a || is_lower a || is_upper a || existsb (aeq a) (B "!#$%&'*+-.^_`|~").

(* httparse's [is_header_value_token]: tab, visible ASCII and space, bytes above 127,
   /repo/src/streams/multipart.rs:158. *)
Definition is_value_token (a : ascii) : bool :=
  (code a =? 9)%N || ((32 <=? code a)%N && negb (code a =? 127)%N).

(* Space or tab, /repo/src/streams/multipart.rs:158. *)
Definition is_blank (a : ascii) : bool := (code a =? 9)%N || (code a =? 32)%N.

(* [httparse::Status] of a parse: more input needed, malformed, or done. *)
Inductive parse_status (A : Type) :=
| PsPartial
| PsError
| PsDone (a : A) (rest : bytes).
Arguments PsPartial {A}.
Arguments PsError {A}.
Arguments PsDone {A} a rest.

(* Trailing blanks of a header value are dropped by httparse,
   /repo/src/streams/multipart.rs:158. *)
Definition trim_blank_end (l : bytes) : bytes := rev (snd (span is_blank (rev l))).

(* httparse: end of a header line, CR LF or a bare LF, /repo/src/streams/multipart.rs:158. *)
Definition header_eol (l : bytes) : parse_status unit :=
  match l with
  | [] => PsPartial
  | a :: l1 =>
      if aeq a LF then PsDone () l1
      else if aeq a CR then
        match l1 with
        | [] => PsPartial
        | b :: l2 => if aeq b LF then PsDone () l2 else PsError
        end
      else PsError
  end.

(* httparse: one header line [name ":" blanks value eol],
   /repo/src/streams/multipart.rs:158. *)
Definition parse_header_line (l : bytes) : parse_status (bytes * bytes) :=
  let '(name, l1) := span is_token l in
  match l1 with
  | [] => PsPartial
  | c :: l2 =>
      if negb (aeq c ":") then PsError
      else
        let '(_, l3) := span is_blank l2 in
        let '(v, l4) := span is_value_token l3 in
        match header_eol l4 with
        | PsPartial => PsPartial
        | PsError => PsError
        | PsDone _ rest => PsDone (name, trim_blank_end v) rest
        end
  end.

(* [httparse::parse_headers(slice, &mut headers)] with room for [room] headers, external crate
   httparse 1.7, called at /repo/src/streams/multipart.rs:158.  A line starting with a byte
   that is neither an end of line nor a token byte is an error; a header beyond the room is an
   error ([TooManyHeaders]).  (Where httparse reports "partial" for an unfinished third header
   the model already reports the error; both make the request fail.) *)
Fixpoint parse_headers (room : nat) (l : bytes) : parse_status (list (bytes * bytes)) :=
  match l with
  | [] => PsPartial
  | a :: _ =>
      if is_token a then
        match room with
        | O => PsError
        | S room' =>
            match parse_header_line l with
            | PsPartial => PsPartial
            | PsError => PsError
            | PsDone h rest =>
                match parse_headers room' rest with
                | PsPartial => PsPartial
                | PsError => PsError
                | PsDone hs rest' => PsDone (h :: hs) rest'
                end
            end
        end
      else
        match header_eol l with
        | PsPartial => PsPartial
        | PsError => PsError
        | PsDone _ rest => PsDone [] rest
        end
  end.

(* A quoted value [key="..."] with at least one byte, valid UTF-8, then the closing quote,
   /repo/src/streams/multipart.rs:436-446. *)
Definition quoted (key l : bytes) : option (bytes * bytes) :=
  match strip_prefix key l with
  | None => None
  | Some l1 =>
      let '(v, l2) := span (fun a => negb (aeq a """"%char)) l1 in
      match v with
      | [] => None
      | _ =>
          if utf8_valid v then
            match l2 with [] => None | _ :: l3 => Some (v, l3) end
          else None
      end
  end.

(* [parse_content_disposition], /repo/src/streams/multipart.rs:429-456: name and optional file
   name.  [opt] backtracks: if the second part does not parse, [all_consuming] fails on it. *)
Definition parse_content_disposition (l : bytes) : option (bytes * option bytes) :=
  match strip_prefix (B "form-data; ") l with
  | None => None
  | Some l1 =>
      match quoted (B "name=""") l1 with
      | None => None
      | Some (name, l2) =>
          let '(filename, l3) :=
            match strip_prefix (B "; ") l2 with
            | None => (None, l2)
            | Some l2' =>
                match quoted (B "filename=""") l2' with
                | None => (None, l2)
                | Some (f, l3) => (Some f, l3)
                end
            end in
          match l3 with [] => Some (name, filename) | _ => None end
      end
  end.

(* The last header with the given name (case-insensitively), the loop at
   /repo/src/streams/multipart.rs:167-175. *)
Definition find_header (name : bytes) (hs : list (bytes * bytes)) : option bytes :=
  fold_left (fun acc h => if eq_ignore_case h.1 name then Some h.2 else acc) hs None.

(* Result of [try_parse]: more data needed, a format error, or the fields, the file name, the
   content type and the unread part of the buffer ([remaining_bytes]),
   /repo/src/streams/multipart.rs:117-223. *)
Inductive try_result :=
| TMore
| TFormat
| TDone (fields : list (bytes * bytes)) (name content_type remaining : bytes).

(* The part loop of [try_parse], /repo/src/streams/multipart.rs:156-222.  [pat] is
   [pat_without_crlf].  Every round consumes at least one byte of the slice (the empty line
   that ends the part headers), so its length bounds the rounds. *)
Fixpoint parts_loop (fuel : nat) (pat slice : bytes) (fields : list (bytes * bytes))
  : try_result :=
  match fuel with
  | O => TMore
  | S fuel' =>
      match parse_headers 2 slice with
      | PsPartial => TMore
      | PsError => TFormat
      | PsDone hs slice1 =>
          match find_header (B "Content-Disposition") hs with
          | None => TMore
          | Some cd =>
              match parse_content_disposition cd with
              | None => TFormat
              | Some (name, None) =>
                  match split_to pat slice1 with
                  | None => TMore
                  | Some (b, slice2) =>
                      let v := take (length b - 2) b in
                      if utf8_valid v
                      then parts_loop fuel' pat slice2 (fields ++ [(name, v)])
                      else TFormat
                  end
              | Some (name, Some filename) =>
                  match find_header (B "Content-Type") hs with
                  | None => TMore
                  | Some ct =>
                      if utf8_valid ct then TDone fields filename ct slice1 else TFormat
                  end
              end
          end
      end
  end.

(* [try_parse], /repo/src/streams/multipart.rs:117-223. *)
Definition try_parse (boundary buf : bytes) : try_result :=
  let pat := B "--" ++ boundary in
  let go slice := parts_loop (S (length slice)) pat slice [] in
  match next_line buf with
  | None => TMore
  | Some ([], slice1) =>
      match next_line slice1 with
      | None => TMore
      | Some (line, slice2) => if beq line pat then go slice2 else TFormat
      end
  | Some (line, slice1) => if beq line pat then go slice1 else TFormat
  end.

(* [FileStreamError], /repo/src/streams/multipart.rs:226-235, and how a file stream ends. *)
Inductive file_end := FileOk | FileIncomplete | FileIo.

(* Result of scanning a buffer for the delimiter, state 2 of the automaton,
   /repo/src/streams/multipart.rs:294-321. *)
Inductive scan_result :=
| ScanFound (before : bytes)
| ScanPartial (before rest : bytes)
| ScanNone.

(* Put a byte in front of what precedes the match (model only). *)
Definition scan_cons (a : ascii) (r : scan_result) : scan_result :=
  match r with
  | ScanFound x => ScanFound (a :: x)
  | ScanPartial x y => ScanPartial (a :: x) y
  | ScanNone => ScanNone
  end.

(* State 2, /repo/src/streams/multipart.rs:294-321: at every CR, does the delimiter start
   here, or could it start here with the bytes that are still missing? *)
Fixpoint scan (pat l : bytes) : scan_result :=
  match l with
  | [] => ScanNone
  | a :: l' =>
      if aeq a CR then
        if (length pat <=? length l)%nat then
          if starts_with pat l then ScanFound [] else scan_cons a (scan pat l')
        else if starts_with l pat then ScanPartial [] l
        else scan_cons a (scan pat l')
      else scan_cons a (scan pat l')
  end.

(* The automaton from state 2 on, /repo/src/streams/multipart.rs:282-335: the pieces yielded
   and how the stream ends. *)
Fixpoint file_loop (pat cur : bytes) (fs : list frame) : list bytes * file_end :=
  match scan pat cur with
  | ScanFound before => ([before], FileOk)
  | ScanPartial before rest =>
      match fs with
      | [] => ([before], FileIncomplete)
      | FErr :: _ => ([before], FileIo)
      | FData b :: fs' =>
          let '(out, e) := file_loop pat (rest ++ b) fs' in (before :: out, e)
      end
  | ScanNone =>
      match fs with
      | [] => ([cur], FileIncomplete)
      | FErr :: _ => ([cur], FileIo)
      | FData b :: fs' =>
          let '(out, e) := file_loop pat b fs' in (cur :: out, e)
      end
  end.

(* [FileStream::new] polled to the end, /repo/src/streams/multipart.rs:259-347: without
   [prev_bytes] the automaton starts in state 1. *)
Definition file_stream (boundary : bytes) (prev : option bytes) (fs : list frame)
  : list bytes * file_end :=
  let pat := CRLF ++ B "--" ++ boundary in
  match prev with
  | Some b => file_loop pat b fs
  | None =>
      match fs with
      | [] => ([], FileIncomplete)
      | FErr :: _ => ([], FileIo)
      | FData b :: fs' => file_loop pat b fs'
      end
  end.

(* [Multipart] and [File], /repo/src/streams/multipart.rs:19-37.  The file stream is kept as
   its unread input: what [try_parse] left over and the frames not polled yet. *)
Record multipart := Multipart {
  mp_fields : list (bytes * bytes);
  mp_file_name : bytes; mp_content_type : bytes;
  mp_boundary : bytes; mp_prev : option bytes; mp_frames : list frame
}.

(* The loop of [transform_multipart], /repo/src/streams/multipart.rs:96-112: [None] is an
   error (transport error, end of the body, or format error). *)
Fixpoint transform_loop (boundary buf : bytes) (fs : list frame) : option multipart :=
  match fs with
  | [] => None
  | FErr :: _ => None
  | FData b :: fs' =>
      match try_parse boundary (buf ++ b) with
      | TMore => transform_loop boundary (buf ++ b) fs'
      | TFormat => None
      | TDone fields name ct remaining =>
          Some (Multipart fields name ct boundary
                  (match remaining with [] => None | _ => Some remaining end) fs')
      end
  end.

(* [transform_multipart], /repo/src/streams/multipart.rs:80-113. *)
Definition transform_multipart (boundary : bytes) (fs : list frame) : option multipart :=
  transform_loop boundary [] fs.

(* The file stream of a form polled to the end, /repo/src/streams/multipart.rs:204-209. *)
Definition mp_stream (m : multipart) : list bytes * file_end :=
  file_stream (mp_boundary m) (mp_prev m) (mp_frames m).

(* [Multipart::find_field_value], /repo/src/streams/multipart.rs:42-47: the last field with
   that name, ignoring case. *)
Definition find_field_value (m : multipart) (name : bytes) : option bytes :=
  match find (fun f => eq_ignore_case f.1 name) (rev (mp_fields m)) with
  | Some f => Some f.2
  | None => None
  end.
