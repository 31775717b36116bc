(** How an XML document is read (XML 1.0, the part without attributes, comments, processing
    instructions and CDATA sections). *)
From Verif Require Import M_Base M_Storage M_Ops S_Path S_Headers.

Inductive node :=
| Element (name : bytes) (children : list node)
| Text (t : bytes).

(* Characters of documents: no control characters but tab and line ends, no surrogates, no
   U+FFFE and U+FFFF; encoded in UTF-8. *)
Definition byte (n : N) : ascii := ascii_of_N n.
Definition cont (a : ascii) : Prop := (128 <= code a < 192)%N.
Inductive xml_char : bytes -> Prop :=
| xc_ascii a : (32 <= code a < 128)%N \/ a = byte 9 \/ a = byte 10 \/ a = byte 13 -> xml_char [a]
| xc_two a b : (194 <= code a <= 223)%N -> cont b -> xml_char [a; b]
| xc_three a b c : (224 <= code a <= 239)%N -> cont b -> cont c ->
    (code a = 224 -> 160 <= code b)%N -> (code a = 237 -> code b < 160)%N ->
    ~ (code a = 239 /\ code b = 191 /\ 190 <= code c)%N -> xml_char [a; b; c]
| xc_four a b c d : (240 <= code a <= 244)%N -> cont b -> cont c -> cont d ->
    (code a = 240 -> 144 <= code b)%N -> (code a = 244 -> code b < 144)%N -> xml_char [a; b; c; d].
Definition xml_chars (t : bytes) : Prop := exists cs, t = concat cs /\ Forall xml_char cs.

(* Line ends are read as line feeds. *)
Inductive line_ends : bytes -> bytes -> Prop :=
| le_nil : line_ends [] []
| le_crlf t u : line_ends t u -> line_ends (CR :: LF :: t) (LF :: u)
| le_cr t u : head t <> Some LF -> line_ends t u -> line_ends (CR :: t) (LF :: u)
| le_other a t u : a <> CR -> line_ends t u -> line_ends (a :: t) (a :: u).

(* Character data: '<' ends it, '&' starts a reference. *)
Inductive char_data : bytes -> bytes -> Prop :=
| cd_nil : char_data [] []
| cd_plain a t u : a <> "<"%char -> a <> "&"%char -> char_data t u -> char_data (a :: t) (a :: u)
| cd_lt t u : char_data t u -> char_data (B "&lt;" ++ t) ("<"%char :: u)
| cd_gt t u : char_data t u -> char_data (B "&gt;" ++ t) (">"%char :: u)
| cd_amp t u : char_data t u -> char_data (B "&amp;" ++ t) ("&"%char :: u)
| cd_quot t u : char_data t u -> char_data (B "&quot;" ++ t) (""""%char :: u)
| cd_apos t u : char_data t u -> char_data (B "&apos;" ++ t) ("'"%char :: u).
(* The text "]]>" must not be written as such. *)
Definition plain_text (t u : bytes) : Prop :=
  char_data t u /\ forall x y, t <> x ++ B "]]>" ++ y.

Definition space (t : bytes) : Prop := forall a, a ∈ t -> a ∈ [" "%char; byte 9; byte 10; byte 13].
(* Element names (those of ASCII letters and digits). *)
Definition tag_name (n : bytes) : Prop := n <> [] /\ forall a, a ∈ n -> a ∈ letters ++ LETTERS ++ digits.

(* [element i x r]: the input begins with the element [x], followed by [r].
   [nodes i xs r]: likewise the content of an element, up to its end tag.
   Texts are taken as long as possible. *)
Inductive element : bytes -> node -> bytes -> Prop :=
| el_empty n w r : tag_name n -> space w -> element (B "<" ++ n ++ w ++ B "/>" ++ r) (Element n []) r
| el_full n w w' i xs r : tag_name n -> space w -> space w' -> nodes i xs (B "</" ++ n ++ w' ++ B ">" ++ r) ->
    element (B "<" ++ n ++ w ++ B ">" ++ i) (Element n xs) r
with nodes : bytes -> list node -> bytes -> Prop :=
| co_end r : nodes (B "</" ++ r) [] (B "</" ++ r)
| co_element i x i' xs r : element i x i' -> nodes i' xs r -> nodes i (x :: xs) r
| co_text t u i xs r : t <> [] -> plain_text t u -> head i = Some "<"%char -> nodes i xs r ->
    nodes (t ++ i) (Text u :: xs) r.

(* A document in UTF-8 with an XML declaration. *)
Definition document (body : bytes) (x : node) : Prop :=
  xml_chars body /\
  exists t w, line_ends body (B "<?xml version=""1.0"" encoding=""UTF-8""?>" ++ t ++ w) /\
    element (t ++ w) x w /\ space w.

(** ** What the documents of replies are read as *)

(* The tree of the elements of a reply. *)
Definition text_nodes (t : bytes) : list node := match t with [] => [] | _ => [Text t] end.
Fixpoint tree (x : xml) : node :=
  match x with
  | XText n t => Element n (text_nodes t)
  | XStack n xs => Element n (map tree xs)
  end.
Fixpoint texts (x : xml) : list bytes :=
  match x with XText _ t => [t] | XStack _ xs => flat_map texts xs end.

(* Texts that a document can hold: XML characters without carriage returns; and without "]]>" if
   the writer does not escape '>'. *)
Definition fine_text (gt : bool) (t : bytes) : Prop :=
  xml_chars t /\ CR ∉ t /\ (gt = false -> forall x y, t <> x ++ B "]]>" ++ y).

(* The objects that a reader finds in a listing. *)
Definition named (n : bytes) (x : node) : bool := match x with Element m _ => bool_decide (m = n) | Text _ => false end.
Definition reads_object (o : bytes * N) (x : node) : Prop :=
  exists t, denotes t o.2 /\ x = Element (B "Contents") [Element (B "Key") (text_nodes o.1); Element (B "Size") [Text t]].
Definition reads_listing (objs : list (bytes * N)) (y : node) : Prop :=
  exists xs, y = Element (B "ListBucketResult") xs /\ Forall2 reads_object objs (filter (named (B "Contents")) xs).
