(** Specification of the JSON texts (RFC 8259) of objects whose members are strings, for C101. *)
From Verif Require Import M_Base S_Headers S_Chunked S_Utf8.
Local Open Scope N_scope.

Definition quote : ascii := "034"%char.
Definition backslash : ascii := "\"%char.

(* Four hexadecimal digits and the number that they denote. *)
Inductive quad : bytes -> N -> Prop :=
| quad_digits a b c d : a ∈ hexdigits -> b ∈ hexdigits -> c ∈ hexdigits -> d ∈ hexdigits ->
    quad [a; b; c; d] (hexvalue a * 4096 + hexvalue b * 256 + hexvalue c * 16 + hexvalue d).

(* The escapes of two characters. *)
Definition short_escapes : list (ascii * ascii) :=
  [("034", "034"); ("\", "\"); ("/", "/"); ("b", "008"); ("f", "012"); ("n", "010"); ("r", "013");
   ("t", "009")]%char.

(* A piece of a string and the bytes that it stands for: a byte itself, an escape, or a pair of
   escapes for a character beyond U+FFFF (a surrogate pair). *)
Inductive piece : bytes -> bytes -> Prop :=
| piece_plain a : 32 <= N_of_ascii a -> a <> quote -> a <> backslash -> piece [a] [a]
| piece_short c v : (c, v) ∈ short_escapes -> piece [backslash; c] [v]
| piece_code q n : quad q n -> scalar n -> piece (backslash :: "u"%char :: q) (encode_scalar n)
| piece_pair q1 q2 n : 65536 <= n <= 1114111 ->
    quad q1 (55296 + (n - 65536) / 1024) -> quad q2 (56320 + (n - 65536) mod 1024) ->
    piece ((backslash :: "u"%char :: q1) ++ (backslash :: "u"%char :: q2)) (encode_scalar n).

Inductive pieces : bytes -> bytes -> Prop :=
| pieces_none : pieces [] []
| pieces_more t v ts vs : piece t v -> pieces ts vs -> pieces (t ++ ts) (v ++ vs).

(* A string. *)
Definition json_text (t v : bytes) : Prop :=
  exists inner, t = [quote] ++ inner ++ [quote] /\ pieces inner v /\ utf8_text v.

(* A member: name, colon, value. *)
Definition member (t : bytes) (m : bytes * bytes) : Prop :=
  exists tk w1 w2 tv, t = tk ++ w1 ++ B ":" ++ w2 ++ tv /\ blanks w1 /\ blanks w2 /\
    json_text tk m.1 /\ json_text tv m.2.

(* Members separated by commas. *)
Inductive members : bytes -> list (bytes * bytes) -> Prop :=
| members_one t m : member t m -> members t [m]
| members_more t m w1 w2 ts ms : member t m -> blanks w1 -> blanks w2 -> members ts ms ->
    members (t ++ w1 ++ B "," ++ w2 ++ ts) (m :: ms).

(* An object, with blanks around everything. *)
Inductive json_object : bytes -> list (bytes * bytes) -> Prop :=
| object_empty w0 w1 w2 : blanks w0 -> blanks w1 -> blanks w2 ->
    json_object (w0 ++ B "{" ++ w1 ++ B "}" ++ w2) []
| object_members w0 w1 w2 w3 t ms : blanks w0 -> blanks w1 -> blanks w2 -> blanks w3 -> members t ms ->
    json_object (w0 ++ B "{" ++ w1 ++ t ++ w2 ++ B "}" ++ w3) ms.

(* The map that a list of members stands for: of several members with one name the last counts. *)
Definition stands_for (ms m : list (bytes * bytes)) : Prop :=
  NoDup m.*1 /\
  forall k v, (k, v) ∈ m <-> exists xs ys, ms = xs ++ (k, v) :: ys /\ forall v', (k, v') ∉ ys.
