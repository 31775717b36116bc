(** Specification of path-style addressing and of bucket names, written without the
    model's helper functions. *)
From Verif Require Import M_Base M_Path.
From stdpp Require Import pretty.

Definition letters : bytes := B "abcdefghijklmnopqrstuvwxyz".
Definition digits : bytes := B "0123456789".
Definition LETTERS : bytes := B "ABCDEFGHIJKLMNOPQRSTUVWXYZ".

(** Decimal text of a number. *)
Definition decimal (n : N) : bytes := list_ascii_of_string (pretty n).

(** A dotted-quad IPv4 address. *)
Definition dotted_quad (s : bytes) : Prop :=
  exists a b c d : N,
    (a <= 255 /\ b <= 255 /\ c <= 255 /\ d <= 255)%N /\
    s = decimal a ++ B "." ++ decimal b ++ B "." ++ decimal c ++ B "." ++ decimal d.

(** The bucket naming rules. *)
Definition legal_bucket (b : bytes) : Prop :=
  3 <= length b <= 63 /\
  (forall a, a ∈ b -> a ∈ letters \/ a ∈ digits \/ a = "."%char \/ a = "-"%char) /\
  (exists a, head b = Some a /\ (a ∈ letters \/ a ∈ digits)) /\
  (exists a, last b = Some a /\ (a ∈ letters \/ a ∈ digits)) /\
  ~ dotted_quad b /\
  (forall r, b <> B "xn--" ++ r).

(** The forms of a request path. *)
Definition legal_key (k : bytes) : Prop := k <> [] /\ (N.of_nat (length k) <= 1024)%N.

(** Where a path points, as a relation; [first_segment] is what precedes the second '/'. *)
Inductive addresses : bytes -> result path_error s3path -> Prop :=
| addr_root : addresses (B "/") (Ok PRoot)
| addr_bucket b : legal_bucket b -> addresses (B "/" ++ b) (Ok (PBucket b))
| addr_bucket_slash b : legal_bucket b -> addresses (B "/" ++ b ++ B "/") (Ok (PBucket b))
| addr_object b k : legal_bucket b -> legal_key k ->
    addresses (B "/" ++ b ++ B "/" ++ k) (Ok (PObject b k))
| addr_too_long b k : legal_bucket b -> (1024 < N.of_nat (length k))%N ->
    addresses (B "/" ++ b ++ B "/" ++ k) (Err KeyTooLong)
| addr_bad_bucket b rest :
    ("/"%char ∉ b) -> ~ legal_bucket b -> (rest = [] \/ exists k, rest = B "/" ++ k) ->
    (b ++ rest <> []) ->
    addresses (B "/" ++ b ++ rest) (Err InvalidBucketName)
| addr_bad_path p : (forall r, p <> B "/" ++ r) -> addresses p (Err InvalidPath).
