(** Specification of the form texts that are accepted, written without the parser. *)
From Verif Require Import M_Base M_Utf8 S_Multipart.

(* Characters of header names, RFC 7230. *)
Definition name_char (a : ascii) : Prop :=
  (48 <= code a <= 57)%N \/ (65 <= code a <= 90)%N \/ (97 <= code a <= 122)%N \/ a ∈ B "!#$%&'*+-.^_`|~".
Definition blank (a : ascii) : Prop := a = " "%char \/ a = "009"%char.
Definition line_end (e : bytes) : Prop := e = CRLF \/ e = [LF].

(* A header line with the header [h], that is, its name and value. *)
Definition part_header (h : bytes * bytes) (t : bytes) : Prop :=
  exists bl1 bl2 e, t = h.1 ++ B ":" ++ bl1 ++ h.2 ++ bl2 ++ e /\
    h.1 <> [] /\ Forall name_char h.1 /\ Forall blank bl1 /\ Forall blank bl2 /\ line_end e /\
    printable h.2 /\ (forall a, head h.2 = Some a -> ~ blank a) /\ (forall a, last h.2 = Some a -> ~ blank a).

(* The headers of a part, at most two, and the empty line after them. *)
Definition header_block (hs : list (bytes * bytes)) (t : bytes) : Prop :=
  (length hs <= 2)%nat /\
  exists ts e, Forall2 part_header hs ts /\ line_end e /\ t = concat ts ++ e.

(* The last header named [n], in any case, has the value [v]. *)
Definition last_named (n : bytes) (hs : list (bytes * bytes)) (v : bytes) : Prop :=
  exists xs m ys, hs = xs ++ (m, v) :: ys /\ eq_ignore_case m n = true /\
    Forall (fun h => eq_ignore_case h.1 n = false) ys.

(* The value of Content-Disposition. *)
Definition quotable (x : bytes) : Prop := x <> [] /\ """"%char ∉ x /\ utf8_valid x = true.
Definition disposition (name : bytes) (filename : option bytes) (t : bytes) : Prop :=
  quotable name /\ (forall f, filename = Some f -> quotable f) /\
  t = B "form-data; name=""" ++ name ++ B """" ++
      match filename with None => [] | Some f => B "; filename=""" ++ f ++ B """" end.

(* [t] is the value [v], the delimiter line and [rest]; no earlier line is the delimiter.  (An
   empty value may also leave out its line break.) *)
Definition delimited (boundary t v rest : bytes) : Prop :=
  let line := B "--" ++ boundary in
  exists before, t = before ++ line ++ CRLF ++ rest /\
    (before = v ++ CRLF \/ before = [] /\ v = []) /\
    forall x y, t = x ++ line ++ CRLF ++ y -> x = [] \/ (exists x', x = x' ++ CRLF) ->
      (length before <= length x)%nat.

(* Fields and then a file, whose content and the rest of the body is [rest]. *)
Inductive form_parts (boundary : bytes) : bytes -> list (bytes * bytes) -> bytes -> bytes -> bytes -> Prop :=
| file_part t hs cd name filename ct rest :
    header_block hs t -> last_named (B "Content-Disposition") hs cd -> disposition name (Some filename) cd ->
    last_named (B "Content-Type") hs ct -> utf8_valid ct = true ->
    form_parts boundary (t ++ rest) [] filename ct rest
| field_part h hs cd name t v r fields filename ct rest :
    header_block hs h -> last_named (B "Content-Disposition") hs cd -> disposition name None cd ->
    delimited boundary t v r -> utf8_valid v = true ->
    form_parts boundary r fields filename ct rest ->
    form_parts boundary (h ++ t) ((name, v) :: fields) filename ct rest.

(* The whole text; it may start with an empty line. *)
Definition body_form (boundary t : bytes) (fields : list (bytes * bytes)) (filename ct rest : bytes) : Prop :=
  absent CRLF boundary /\
  exists lead t', (lead = [] \/ lead = CRLF) /\ t = lead ++ B "--" ++ boundary ++ CRLF ++ t' /\
    form_parts boundary t' fields filename ct rest.
