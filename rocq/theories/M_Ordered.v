(** Ordered header and query containers,
    /repo/src/data_structures/ordered_headers.rs and ordered_qs.rs.  Definitions only. *)
From Verif Require Export M_Base.

(* [slice::binary_search_by] of the Rust standard library: probe the middle of
   [left, right); [fuel] bounds the number of probes by the length.  Called from
   /repo/src/data_structures/ordered_headers.rs:48,60 and ordered_qs.rs:36. *)
Fixpoint bsearch {A} (f : A -> comparison) (l : list A) (fuel left right : nat) : option nat :=
  match fuel with
  | O => None
  | S fuel' =>
      if (left <? right)%nat then
        let mid := (left + (right - left) / 2)%nat in
        match l !! mid with
        | None => None
        | Some x =>
            match f x with
            | Lt => bsearch f l fuel' (S mid) right
            | Gt => bsearch f l fuel' left mid
            | Eq => Some mid
            end
        end
      else None
  end.

(* [binary_search_by] on the whole slice. *)
Definition binary_search_by {A} (f : A -> comparison) (l : list A) : option nat :=
  bsearch f l (S (length l)) 0 (length l).

(* [HeaderValue::to_str]: only visible ASCII and tab, /repo/src/data_structures/ordered_headers.rs:36. *)
Definition is_visible (a : ascii) : bool :=
  ((32 <=? code a) && (code a <? 127))%N || aeq a "009".

(* [OrderedHeaders::from_req], /repo/src/data_structures/ordered_headers.rs:31-42.  Header
   names are lowercased by hyper before this code sees them. *)
Definition headers_from_req (hs : list (bytes * bytes)) : option (list (bytes * bytes)) :=
  if forallb (fun h => forallb is_visible h.2) hs then Some (sort_by pair_cmp hs) else None.

(* [OrderedHeaders::map_signed_headers], /repo/src/data_structures/ordered_headers.rs:44-55. *)
Definition map_signed_headers (hs : list (bytes * bytes)) (signed : list bytes)
  : list (bytes * bytes) :=
  List.filter (fun h => match binary_search_by (fun probe => bytes_cmp probe h.1) signed with
                        | Some _ => true
                        | None => false
                        end) hs.

(* [OrderedHeaders::get], /repo/src/data_structures/ordered_headers.rs:58-66, and
   [OrderedQs::get], /repo/src/data_structures/ordered_qs.rs:34-40: the same code. *)
Definition ordered_get (l : list (bytes * bytes)) (name : bytes) : option bytes :=
  match binary_search_by (fun p => bytes_cmp p.1 name) l with
  | Some i => match l !! i with Some p => Some p.2 | None => None end
  | None => None
  end.

(* [OrderedQs::from_query] after decoding: sort the pairs,
   /repo/src/data_structures/ordered_qs.rs:27-31. *)
Definition qs_from_pairs (l : list (bytes * bytes)) : list (bytes * bytes) :=
  sort_by pair_cmp l.
