(** UTF-8 validity and lossy decoding ([std::str::from_utf8], [String::from_utf8_lossy]).
    Definitions only. *)
From Verif Require Import M_Base.
Local Open Scope N_scope.

(* Byte range test on numeric codes (Unicode Table 3-7, well-formed UTF-8 byte sequences),
   used by [from_utf8] at /repo/src/streams/multipart.rs:189,199. *)
Definition byte_in (lo hi : N) (a : ascii) : bool := (lo <=? code a) && (code a <=? hi).

(* Continuation byte, /repo/src/streams/multipart.rs:189. *)
Definition is_cont (a : ascii) : bool := byte_in 128 191 a.

(* Allowed range of the second byte after the lead byte [a] and the number of further
   continuation bytes; [None] for bytes that cannot start a sequence,
   /repo/src/streams/multipart.rs:189. *)
Definition utf8_lead (a : ascii) : option (N * N * nat) :=
  if byte_in 194 223 a then Some (128, 191, 0%nat)
  else if byte_in 224 224 a then Some (160, 191, 1%nat)
  else if byte_in 237 237 a then Some (128, 159, 1%nat)
  else if byte_in 225 239 a then Some (128, 191, 1%nat)
  else if byte_in 240 240 a then Some (144, 191, 2%nat)
  else if byte_in 241 243 a then Some (128, 191, 2%nat)
  else if byte_in 244 244 a then Some (128, 143, 2%nat)
  else None.

(* [std::str::from_utf8(..).is_ok()], /repo/src/streams/multipart.rs:189,199,436,442. *)
Fixpoint utf8_valid (l : bytes) : bool :=
  match l with
  | [] => true
  | a :: l1 =>
      if code a <? 128 then utf8_valid l1
      else
        match utf8_lead a, l1 with
        | Some (lo, hi, 0%nat), b :: l2 => byte_in lo hi b && utf8_valid l2
        | Some (lo, hi, 1%nat), b :: c :: l3 =>
            byte_in lo hi b && is_cont c && utf8_valid l3
        | Some (lo, hi, 2%nat), b :: c :: d :: l4 =>
            byte_in lo hi b && is_cont c && is_cont d && utf8_valid l4
        | _, _ => false
        end
  end.

(* One step of [String::from_utf8_lossy]: is the next sequence well formed, and how many
   bytes does it (or its maximal ill-formed part) take; serde_urlencoded,
   /repo/src/data_structures/ordered_qs.rs:28. *)
Definition utf8_step (a : ascii) (l1 : bytes) : bool * nat :=
  if code a <? 128 then (true, 1%nat)
  else
    match utf8_lead a with
    | None => (false, 1%nat)
    | Some (lo, hi, more) =>
        match l1 with
        | b :: l2 =>
            if byte_in lo hi b then
              match more with
              | 0%nat => (true, 2%nat)
              | _ =>
                  match l2 with
                  | c :: l3 =>
                      if is_cont c then
                        match more with
                        | 1%nat => (true, 3%nat)
                        | _ =>
                            match l3 with
                            | d :: _ => if is_cont d then (true, 4%nat) else (false, 3%nat)
                            | [] => (false, 3%nat)
                            end
                        end
                      else (false, 2%nat)
                  | [] => (false, 2%nat)
                  end
              end
            else (false, 1%nat)
        | [] => (false, 1%nat)
        end
    end.

(* [String::from_utf8_lossy]: ill-formed parts become U+FFFD (bytes EF BF BD); the fuel is
   the length of the input, /repo/src/data_structures/ordered_qs.rs:28. *)
Fixpoint utf8_lossy_loop (fuel : nat) (l : bytes) : bytes :=
  match fuel, l with
  | S fuel', a :: l1 =>
      let '(ok, n) := utf8_step a l1 in
      (if ok then take n l else map ascii_of_N [239; 191; 189])
        ++ utf8_lossy_loop fuel' (drop n l)
  | _, _ => []
  end.

(* [String::from_utf8_lossy], /repo/src/data_structures/ordered_qs.rs:28. *)
Definition utf8_lossy (l : bytes) : bytes := utf8_lossy_loop (length l) l.
