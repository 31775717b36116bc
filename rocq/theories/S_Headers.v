(** Specification of the header grammars, written without the model's parsers. *)
From Verif Require Import M_Base M_Path M_Headers S_Path.

(** [denotes ds n]: the digit string [ds] is a decimal numeral of value [n]. *)
Inductive denotes : bytes -> N -> Prop :=
| den_one d v : digits !! N.to_nat v = Some d -> denotes [d] v
| den_more ds n d v : denotes ds n -> digits !! N.to_nat v = Some d ->
    denotes (ds ++ [d]) (10 * n + v).

(** Numbers that fit in 64 bits. *)
Definition fits64 (n : N) : Prop := (n < 2 ^ 64)%N.

(** Range header grammar. *)
Inductive range_text : bytes -> range -> Prop :=
| rt_from F f : denotes F f -> fits64 f ->
    range_text (B "bytes=" ++ F ++ B "-") (RNormal f None)
| rt_from_to F f L l : denotes F f -> denotes L l -> fits64 f -> fits64 l -> (f <= l)%N ->
    range_text (B "bytes=" ++ F ++ B "-" ++ L) (RNormal f (Some l))
| rt_suffix X n : denotes X n -> fits64 n ->
    range_text (B "bytes=-" ++ X) (RSuffix n).

(** Time stamps: YYYYMMDD 'T' HHMMSS 'Z'. *)
Inductive date_text : bytes -> amz_date -> Prop :=
| date_text_intro Y M D h m s y mo d hh mi ss :
    length Y = 4 -> length M = 2 -> length D = 2 ->
    length h = 2 -> length m = 2 -> length s = 2 ->
    denotes Y y -> denotes M mo -> denotes D d ->
    denotes h hh -> denotes m mi -> denotes s ss ->
    date_text (Y ++ M ++ D ++ B "T" ++ h ++ m ++ s ++ B "Z") (AmzDate y mo d hh mi ss).

(** Days in the months of a Gregorian year. *)
Definition leap (y : N) : Prop :=
  (exists k, y = 4 * k)%N /\ ((forall k, y <> 100 * k)%N \/ (exists k, y = 400 * k)%N).
Definition month_lengths (february : N) : list N :=
  [31; february; 31; 30; 31; 30; 31; 31; 30; 31; 30; 31]%N.

(** A calendar date YYYYMMDD. *)
Definition calendar_date (s : bytes) : Prop :=
  exists Y M D y m d feb dm,
    s = Y ++ M ++ D /\ length Y = 4 /\ length M = 2 /\ length D = 2 /\
    denotes Y y /\ denotes M m /\ denotes D d /\
    ((leap y /\ feb = 29) \/ (~ leap y /\ feb = 28))%N /\
    (1 <= m)%N /\ month_lengths feb !! (N.to_nat m - 1) = Some dm /\
    (1 <= d <= dm)%N.

(** Blanks of header values. *)
Definition blanks (s : bytes) : Prop :=
  forall a, a ∈ s -> a ∈ [" "; "009"; "010"; "013"]%char.
Definition no_blank (s : bytes) : Prop :=
  forall a, a ∈ s -> a ∉ [" "; "009"; "010"; "012"; "013"]%char.

(** The text of an Authorization header: fields, and the blanks used between them. *)
Fixpoint semicolons (hs : list bytes) : bytes :=
  match hs with
  | [] => []
  | [h] => h
  | h :: hs' => h ++ B ";" ++ semicolons hs'
  end.

Definition credential_text (c : credential) : bytes :=
  access_key_id c ++ B "/" ++ cred_date c ++ B "/" ++ aws_region c ++ B "/" ++
  aws_service c ++ B "/aws4_request".

Definition authorization_text (a : authorization) (w1 w2 w3 w4 : bytes) : bytes :=
  algorithm a ++ w1 ++ B "Credential=" ++ credential_text (auth_credential a) ++ B "," ++ w2
  ++ B "SignedHeaders=" ++ semicolons (signed_headers a) ++ B "," ++ w3
  ++ B "Signature=" ++ auth_signature a ++ w4.

(** Fields that are free of their own delimiters; everything but the date. *)
Definition credential_fields_ok (c : credential) : Prop :=
  access_key_id c <> [] /\ "/"%char ∉ access_key_id c /\ "/"%char ∉ cred_date c /\
  "/"%char ∉ aws_region c /\ aws_service c <> [] /\ "/"%char ∉ aws_service c.

Definition authorization_fields_ok (a : authorization) (w1 w2 w3 w4 : bytes) : Prop :=
  algorithm a <> [] /\ no_blank (algorithm a) /\
  w1 <> [] /\ blanks w1 /\ blanks w2 /\ blanks w3 /\ blanks w4 /\
  credential_fields_ok (auth_credential a) /\
  signed_headers a <> [] /\
  (forall h, h ∈ signed_headers a -> h <> [] /\ ";"%char ∉ h /\ ","%char ∉ h) /\
  no_blank (auth_signature a).
