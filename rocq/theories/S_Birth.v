(** Specification: what a listing of the buckets says about a bucket. *)
From Verif Require Import M_Base M_Errors M_Auth M_Ops M_Service S_Store.

(* The reply lists the bucket [b] once, with the date [d]. *)
Definition says_created (resp : response) (b d : bytes) : Prop :=
  exists xs ys, rs_body resp = RbXml (XStack (B "ListAllMyBucketsResult") [XStack (B "Buckets")
      (xs ++ XStack (B "Bucket") [XText (B "CreationDate") d; XText (B "Name") b] :: ys)]) /\
    forall n zs, XStack n zs ∈ xs ++ ys -> XText (B "Name") b ∉ zs.

(* The request has ordinary names and does not delete the bucket [b]. *)
Definition spares (b : bytes) (x : server * http_request) : Prop :=
  forall op c r, front x.1 x.2 = FrCall op c r -> plain_req r /\ r <> RDeleteBucket b.
