(** The JSON text of the metadata files: [serde_json::to_vec] and [serde_json::from_slice] at
    type [HashMap<String, String>] (/repo/src/storages/fs.rs:99,115).  Definitions only.

    A [HashMap] is represented by the list of its entries in iteration order (names pairwise
    different); theorems hold for every order. *)
From Verif Require Import M_Base M_Utf8.
Local Open Scope N_scope.

Notation metadata := (list (bytes * bytes)).

(* [HashMap::insert], /repo/src/storages/fs.rs:99, /repo/src/ops/put_object.rs:153. *)
Fixpoint md_insert (k v : bytes) (m : metadata) : metadata :=
  match m with
  | [] => [(k, v)]
  | (k', v') :: m' => if beq k' k then (k', v) :: m' else (k', v') :: md_insert k v m'
  end.

(* Backslash and quote characters, /repo/src/storages/fs.rs:115. *)
Definition bsl : ascii := "\"%char.
Definition dquote : ascii := "034"%char.

(* Escaping of one byte by serde_json, /repo/src/storages/fs.rs:115. *)
Definition json_escape (a : ascii) : bytes :=
  if aeq a dquote then [bsl; dquote]
  else if aeq a bsl then [bsl; bsl]
  else if code a =? 8 then [bsl; "b"%char]
  else if code a =? 9 then [bsl; "t"%char]
  else if code a =? 10 then [bsl; "n"%char]
  else if code a =? 12 then [bsl; "f"%char]
  else if code a =? 13 then [bsl; "r"%char]
  else if code a <? 32 then
    [bsl; "u"%char; "0"%char; "0"%char; hex_digit_lower (code a / 16); hex_digit_lower (code a mod 16)]
  else [a].

(* A JSON string, /repo/src/storages/fs.rs:115. *)
Definition json_string (s : bytes) : bytes := [dquote] ++ flat_map json_escape s ++ [dquote].

(* ["k":"v"], /repo/src/storages/fs.rs:115. *)
Definition json_entry (e : bytes * bytes) : bytes := json_string e.1 ++ B ":" ++ json_string e.2.

(* Entries separated by commas, /repo/src/storages/fs.rs:115. *)
Fixpoint json_entries (m : metadata) : bytes :=
  match m with
  | [] => []
  | [e] => json_entry e
  | e :: m' => json_entry e ++ B "," ++ json_entries m'
  end.

(* [serde_json::to_vec(&HashMap<String, String>)], /repo/src/storages/fs.rs:115. *)
Definition json_encode (m : metadata) : bytes := B "{" ++ json_entries m ++ B "}".

(* JSON white space, /repo/src/storages/fs.rs:99. *)
Definition json_ws (a : ascii) : bool :=
  (code a =? 32) || (code a =? 10) || (code a =? 9) || (code a =? 13).

(* Skip white space, /repo/src/storages/fs.rs:99. *)
Definition skip_ws (l : bytes) : bytes := (span json_ws l).2.

(* Four hexadecimal digits of a [\u] escape, /repo/src/storages/fs.rs:99. *)
Definition hex4 (a b c d : ascii) : option N :=
  match hex_val a, hex_val b, hex_val c, hex_val d with
  | Some x, Some y, Some z, Some w => Some (((x * 16 + y) * 16 + z) * 16 + w)
  | _, _, _, _ => None
  end.

(* UTF-8 encoding of a scalar value, /repo/src/storages/fs.rs:99. *)
Definition utf8_encode (n : N) : bytes :=
  if n <? 128 then [ascii_of_N n]
  else if n <? 2048 then [ascii_of_N (192 + n / 64); ascii_of_N (128 + n mod 64)]
  else if n <? 65536 then
    [ascii_of_N (224 + n / 4096); ascii_of_N (128 + n / 64 mod 64); ascii_of_N (128 + n mod 64)]
  else
    [ascii_of_N (240 + n / 262144); ascii_of_N (128 + n / 4096 mod 64);
     ascii_of_N (128 + n / 64 mod 64); ascii_of_N (128 + n mod 64)].

(* The inside of a string up to the closing quote; fuel is the length of the input,
   /repo/src/storages/fs.rs:99. *)
Fixpoint json_chars (fuel : nat) (l : bytes) : option (bytes * bytes) :=
  let put bs r := match r with Some (x, rest) => Some (bs ++ x, rest) | None => None end in
  match fuel with
  | O => None
  | S fuel' =>
      match l with
      | [] => None
      | a :: l1 =>
          if aeq a dquote then Some ([], l1)
          else if aeq a bsl then
            match l1 with
            | [] => None
            | b :: l2 =>
                if aeq b dquote || aeq b bsl || aeq b "/" then put [b] (json_chars fuel' l2)
                else if aeq b "b" then put [ascii_of_N 8] (json_chars fuel' l2)
                else if aeq b "f" then put [ascii_of_N 12] (json_chars fuel' l2)
                else if aeq b "n" then put [ascii_of_N 10] (json_chars fuel' l2)
                else if aeq b "r" then put [ascii_of_N 13] (json_chars fuel' l2)
                else if aeq b "t" then put [ascii_of_N 9] (json_chars fuel' l2)
                else if aeq b "u" then
                  match l2 with
                  | c1 :: c2 :: c3 :: c4 :: l3 =>
                      match hex4 c1 c2 c3 c4 with
                      | None => None
                      | Some n =>
                          if (56320 <=? n) && (n <? 57344) then None
                          else if (55296 <=? n) && (n <? 56320) then
                            match l3 with
                            | e1 :: e2 :: d1 :: d2 :: d3 :: d4 :: l4 =>
                                if aeq e1 bsl && aeq e2 "u" then
                                  match hex4 d1 d2 d3 d4 with
                                  | None => None
                                  | Some m =>
                                      if (56320 <=? m) && (m <? 57344) then
                                        put (utf8_encode ((n - 55296) * 1024 + (m - 56320) + 65536))
                                          (json_chars fuel' l4)
                                      else None
                                  end
                                else None
                            | _ => None
                            end
                          else put (utf8_encode n) (json_chars fuel' l3)
                      end
                  | _ => None
                  end
                else None
            end
          else if code a <? 32 then None
          else put [a] (json_chars fuel' l1)
      end
  end.

(* A string value; the result must be valid UTF-8, /repo/src/storages/fs.rs:99. *)
Definition json_parse_string (l : bytes) : option (bytes * bytes) :=
  match l with
  | a :: l1 =>
      if aeq a dquote then
        match json_chars (length l) l1 with
        | Some (s, rest) => if utf8_valid s then Some (s, rest) else None
        | None => None
        end
      else None
  | [] => None
  end.

(* One entry, starting at the quote of its name, /repo/src/storages/fs.rs:99. *)
Definition json_parse_entry (l : bytes) : option (bytes * bytes * bytes) :=
  match json_parse_string l with
  | None => None
  | Some (k, l1) =>
      match skip_ws l1 with
      | c :: l2 =>
          if aeq c ":" then
            match json_parse_string (skip_ws l2) with
            | Some (v, l3) => Some (k, v, l3)
            | None => None
            end
          else None
      | [] => None
      end
  end.

(* The entries after the first, up to the closing brace; fuel is the length of the input,
   /repo/src/storages/fs.rs:99. *)
Fixpoint json_parse_more (fuel : nat) (l : bytes) (m : metadata) : option (metadata * bytes) :=
  match fuel with
  | O => None
  | S fuel' =>
      match skip_ws l with
      | c :: l1 =>
          if aeq c "}" then Some (m, l1)
          else if aeq c "," then
            match json_parse_entry (skip_ws l1) with
            | Some (k, v, l2) => json_parse_more fuel' l2 (md_insert k v m)
            | None => None
            end
          else None
      | [] => None
      end
  end.

(* [serde_json::from_slice::<HashMap<String, String>>], /repo/src/storages/fs.rs:99. *)
Definition json_decode (l : bytes) : option metadata :=
  let close m rest := match skip_ws rest with [] => Some m | _ => None end in
  match skip_ws l with
  | c :: l1 =>
      if aeq c "{" then
        match skip_ws l1 with
        | d :: l2 =>
            if aeq d "}" then close [] l2
            else
              match json_parse_entry (d :: l2) with
              | Some (k, v, l3) =>
                  match json_parse_more (length l) l3 (md_insert k v []) with
                  | Some (m, rest) => close m rest
                  | None => None
                  end
              | None => None
              end
        | [] => None
        end
      else None
  | [] => None
  end.
