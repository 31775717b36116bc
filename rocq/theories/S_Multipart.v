(** Specification of multipart/form-data bodies, written without the parser. *)
From Verif Require Import M_Base M_Utf8.

(* [pat] occurs in [input] first after [before]. *)
Definition first_at (pat input before after : bytes) : Prop :=
  input = before ++ pat ++ after /\
  forall x y, input = x ++ pat ++ y -> (length before <= length x)%nat.

(* [pat] does not occur in [input]. *)
Definition absent (pat input : bytes) : Prop := forall x y, input <> x ++ pat ++ y.

(* The delimiter that ends a part. *)
Definition delimiter (boundary : bytes) : bytes := CRLF ++ B "--" ++ boundary.

(* A browser form: plain fields (name, value) and then one file. *)
Record form := Form {
  f_fields : list (bytes * bytes);
  f_control : bytes;        (* name of the file control *)
  f_filename : bytes; f_type : bytes; f_content : bytes
}.

(* The encoding of RFC 7578 as browsers write it. *)
Definition encode_field (boundary : bytes) (f : bytes * bytes) : bytes :=
  B "Content-Disposition: form-data; name=""" ++ f.1 ++ B """" ++ CRLF ++ CRLF ++
  f.2 ++ CRLF ++ B "--" ++ boundary ++ CRLF.

Definition encode_file_head (f : form) : bytes :=
  B "Content-Disposition: form-data; name=""" ++ f_control f ++ B """; filename=""" ++
  f_filename f ++ B """" ++ CRLF ++ B "Content-Type: " ++ f_type f ++ CRLF ++ CRLF.

Definition encode_head (boundary : bytes) (f : form) : bytes :=
  B "--" ++ boundary ++ CRLF ++ concat (map (encode_field boundary) (f_fields f)) ++
  encode_file_head f.

(* The whole body; [trailer] is whatever follows the delimiter after the file, usually
   ["--" CRLF] or further fields. *)
Definition encode_form (boundary : bytes) (f : form) (trailer : bytes) : bytes :=
  encode_head boundary f ++ f_content f ++ delimiter boundary ++ trailer.

(* Bytes that may appear in a header value. *)
Definition printable (l : bytes) : Prop :=
  forall a, a ∈ l -> a = "009"%char \/ (32 <= code a)%N /\ code a <> 127%N.

(* Names: not empty, printable, no quote, valid UTF-8. *)
Definition name_ok (l : bytes) : Prop :=
  l <> [] /\ printable l /\ """"%char ∉ l /\ utf8_valid l = true.

(* Content types: printable UTF-8 without blanks at either end. *)
Definition type_ok (l : bytes) : Prop :=
  printable l /\ utf8_valid l = true /\
  (forall a, head l = Some a -> a <> " "%char /\ a <> "009"%char) /\
  (forall a, last l = Some a -> a <> " "%char /\ a <> "009"%char).

(* Boundaries contain no line break. *)
Definition boundary_ok (b : bytes) : Prop := CR ∉ b /\ LF ∉ b.

(* A well-formed form: the boundary does not occur in the values or the file. *)
Definition form_ok (boundary : bytes) (f : form) : Prop :=
  boundary_ok boundary /\
  Forall (fun p => name_ok p.1 /\ utf8_valid p.2 = true /\ absent (B "--" ++ boundary) p.2)
    (f_fields f) /\
  name_ok (f_control f) /\ name_ok (f_filename f) /\ type_ok (f_type f) /\
  absent (B "--" ++ boundary) (f_content f).
