(** Specification of the pieces of AWS Signature Version 4 that the properties need,
    written without the model's helper functions. *)
From Verif Require Import M_Base M_Crypto M_SigV4 S_Path.

(** Unreserved characters of RFC 3986. *)
Definition rfc_unreserved : bytes := LETTERS ++ letters ++ digits ++ B "-._~".
Definition HEX : bytes := B "0123456789ABCDEF".

(** Percent-encoding as a relation between a string and its encoding;
    [slash] says whether '/' is left alone. *)
Inductive pct_encoded (slash : bool) : bytes -> bytes -> Prop :=
| pe_nil : pct_encoded slash [] []
| pe_plain a s t : (a ∈ rfc_unreserved \/ (slash = true /\ a = "/"%char)) ->
    pct_encoded slash s t -> pct_encoded slash (a :: s) (a :: t)
| pe_hex a h l s t : a ∉ rfc_unreserved -> (slash = true -> a <> "/"%char) ->
    HEX !! (N.to_nat (N_of_ascii a) / 16) = Some h ->
    HEX !! (N.to_nat (N_of_ascii a) mod 16) = Some l ->
    pct_encoded slash s t -> pct_encoded slash (a :: s) ("%"%char :: h :: l :: t).

(** Percent-decoding. *)
Inductive pct_decoded : bytes -> bytes -> Prop :=
| pd_nil : pct_decoded [] []
| pd_plain a t s : a <> "%"%char -> pct_decoded t s -> pct_decoded (a :: t) (a :: s)
| pd_hex a h l t s :
    HEX !! (N.to_nat (N_of_ascii a) / 16) = Some h ->
    HEX !! (N.to_nat (N_of_ascii a) mod 16) = Some l ->
    pct_decoded t s -> pct_decoded ("%"%char :: h :: l :: t) (a :: s).

(** [trimmed v t]: [t] is [v] without leading and trailing white space. *)
Definition white (a : ascii) : Prop := a ∈ [" "; "009"; "010"; "011"; "012"; "013"]%char.
Definition trimmed (v t : bytes) : Prop :=
  exists w1 w2, v = w1 ++ t ++ w2 /\
    (forall a, a ∈ w1 -> white a) /\ (forall a, a ∈ w2 -> white a) /\
    (forall a, head t = Some a -> ~ white a) /\ (forall a, last t = Some a -> ~ white a).

(** Two header lists that sign the same thing: the same names in the same order, with the
    same values up to surrounding white space. *)
Definition same_signed (hs1 hs2 : list (bytes * bytes)) : Prop :=
  Forall2 (fun h1 h2 => h1.1 = h2.1 /\ exists t, trimmed h1.2 t /\ trimmed h2.2 t) hs1 hs2.

(** The headers that take part in signing (authorization and user-agent never do). *)
Definition never_signed (name : bytes) : Prop := name = B "authorization" \/ name = B "user-agent".

(** HTTP-level facts about requests: methods and header names are tokens, header values
    carry no line break. *)
Definition request_ok (method : bytes) (hs : list (bytes * bytes)) : Prop :=
  LF ∉ method /\
  forall h, h ∈ hs -> ":"%char ∉ h.1 /\ LF ∉ h.1 /\ LF ∉ h.2.

(** The data a payload descriptor commits to. *)
Definition payload_data (p : payload) : option bytes :=
  match p with
  | PlEmpty => Some []
  | PlSingleChunk d => Some d
  | PlUnsigned | PlMultipleChunks => None
  end.

(** Same payload, or a SHA-256 collision between the two payloads. *)
Definition same_payload (p1 p2 : payload) : Prop :=
  (p1 = PlUnsigned /\ p2 = PlUnsigned) \/
  (p1 = PlMultipleChunks /\ p2 = PlMultipleChunks) \/
  exists d1 d2, payload_data p1 = Some d1 /\ payload_data p2 = Some d2 /\
    (d1 = d2 \/ (d1 <> d2 /\ sha256 d1 = sha256 d2)).
