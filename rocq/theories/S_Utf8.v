(** Specification of UTF-8 (RFC 3629). *)
From Verif Require Import M_Base.
Local Open Scope N_scope.

(* Unicode scalar values: code points that are not surrogates. *)
Definition scalar (c : N) : Prop := c < 55296 \/ 57344 <= c <= 1114111.

Definition encode_scalar (c : N) : bytes :=
  map ascii_of_N
    (if c <? 128 then [c]
     else if c <? 2048 then [192 + c / 64; 128 + c mod 64]
     else if c <? 65536 then [224 + c / 4096; 128 + (c / 64) mod 64; 128 + c mod 64]
     else [240 + c / 262144; 128 + (c / 4096) mod 64; 128 + (c / 64) mod 64; 128 + c mod 64]).

Definition encode_text (cs : list N) : bytes := concat (map encode_scalar cs).
Definition utf8_text (l : bytes) : Prop := exists cs, Forall scalar cs /\ l = encode_text cs.

(* U+FFFD, the replacement character. *)
Definition replacement : N := 65533.

(* [x] is the beginning of the encoding of a scalar. *)
Definition begins_scalar (x : bytes) : Prop := exists c y, scalar c /\ encode_scalar c = x ++ y.

(* Replacing what is not text: a scalar that comes next is kept; otherwise the longest beginning of a
   scalar, or one byte if there is none, becomes U+FFFD. *)
Inductive replaced : bytes -> list N -> Prop :=
| replaced_end : replaced [] []
| replaced_scalar c l cs : scalar c -> replaced l cs -> replaced (encode_scalar c ++ l) (c :: cs)
| replaced_part x l cs : x <> [] -> begins_scalar x ->
    (forall c y, scalar c -> x ++ l <> encode_scalar c ++ y) ->
    (forall z y, l = z ++ y -> z <> [] -> ~ begins_scalar (x ++ z)) ->
    replaced l cs -> replaced (x ++ l) (replacement :: cs)
| replaced_byte a l cs : ~ begins_scalar [a] -> replaced l cs -> replaced (a :: l) (replacement :: cs).
