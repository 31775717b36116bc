(** Specification: replies and the dates in them. *)
From Verif Require Import M_Base M_Ops M_Service.

(* A document without its elements LastModified. *)
Fixpoint undated (x : xml) : xml :=
  match x with
  | XText n t => XText n t
  | XStack n xs =>
      XStack n ((fix go (l : list xml) : list xml :=
        match l with
        | [] => []
        | XText m t :: l' => if decide (m = B "LastModified") then go l' else XText m t :: go l'
        | y :: l' => undated y :: go l'
        end) xs)
  end.

(* A reply without its dates. *)
Definition undated_response (r : response) : response :=
  Response (rs_status r) (filter (fun h => h.1 <> B "last-modified") (rs_headers r))
    (match rs_body r with RbXml x => RbXml (undated x) | b => b end).
Definition undated_reply (r : reply) : reply :=
  match r with Replied x => Replied (undated_response x) | Panicked => Panicked end.

(* The one header Last-Modified of a reply. *)
Definition says_modified (resp : response) (h : bytes) : Prop :=
  (B "last-modified", h) ∈ rs_headers resp /\ forall h', (B "last-modified", h') ∈ rs_headers resp -> h' = h.
