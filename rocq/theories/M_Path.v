(** Path-style addressing, /repo/src/path.rs.  Definitions only. *)
From Verif Require Export M_Base.

(* [S3Path], /repo/src/path.rs:11-26. *)
Inductive s3path : Type :=
| PRoot
| PBucket (bucket : bytes)
| PObject (bucket key : bytes).

(* [S3PathErrorKind], /repo/src/path.rs:52-59. *)
Inductive path_error : Type :=
| InvalidPath
| InvalidBucketName
| KeyTooLong.

(* One octet as read by [std::net] (decimal, 1 to 3 digits, no leading zero, at most 255),
   used through [name.parse::<IpAddr>()], /repo/src/path.rs:94. *)
Definition ipv4_octet (l : bytes) : bool :=
  match l with
  | [] => false
  | [a] => is_digit a
  | [a; b] => is_digit a && is_digit b && negb (aeq a "0")
  | [a; b; c] =>
      is_digit a && is_digit b && is_digit c && negb (aeq a "0")
      && (dec_val l <=? 255)%N
  | _ => false
  end.

(* [name.parse::<IpAddr>().is_ok()], /repo/src/path.rs:94.  Only the IPv4 form: every
   textual IPv6 address contains ':' which the preceding check (lines 69-75) excludes. *)
Definition is_ip_addr (name : bytes) : bool :=
  match split_all "." name with
  | [a; b; c; d] => ipv4_octet a && ipv4_octet b && ipv4_octet c && ipv4_octet d
  | _ => false
  end.

(* Closure [|&b| b.is_ascii_lowercase() || b.is_ascii_digit() || b == b'.' || b == b'-'],
   /repo/src/path.rs:72. *)
Definition bucket_char (a : ascii) : bool :=
  is_lower a || is_digit a || aeq a "." || aeq a "-".

(* Closure [|&b| b.is_ascii_lowercase() || b.is_ascii_digit()], /repo/src/path.rs:80,89. *)
Definition alnum_char (a : ascii) : bool := is_lower a || is_digit a.

(* [S3Path::check_bucket_name], /repo/src/path.rs:64-104. *)
Definition check_bucket_name (name : bytes) : bool :=
  if negb ((3 <=? length name) && (length name <? 64))%nat then false
  else if negb (forallb bucket_char name) then false
  else if negb (match head name with Some b => alnum_char b | None => false end) then false
  else if negb (match last name with Some b => alnum_char b | None => false end) then false
  else if is_ip_addr name then false
  else if starts_with (B "xn--") name then false
  else true.

(* [S3Path::check_key], /repo/src/path.rs:109-111. *)
Definition check_key (key : bytes) : bool := (N.of_nat (length key) <=? 1024)%N.

(* [S3Path::try_from_path], /repo/src/path.rs:116-153. *)
Definition try_from_path (path : bytes) : result path_error s3path :=
  match split_once "/" path with
  | Some ([], rest) =>
      if beq rest [] then Ok PRoot
      else
        let '(bucket, key) :=
          match split_once "/" rest with
          | None => (rest, None)
          | Some (x, []) => (x, None)
          | Some (b, k) => (b, Some k)
          end in
        if negb (check_bucket_name bucket) then Err InvalidBucketName
        else match key with
             | None => Ok (PBucket bucket)
             | Some k => if negb (check_key k) then Err KeyTooLong else Ok (PObject bucket k)
             end
  | _ => Err InvalidPath
  end.

(* [S3Path::is_root/is_bucket/is_object], /repo/src/path.rs:155-171. *)
Definition is_root (p : s3path) : bool := match p with PRoot => true | _ => false end.
Definition is_bucket (p : s3path) : bool := match p with PBucket _ => true | _ => false end.
Definition is_object (p : s3path) : bool := match p with PObject _ _ => true | _ => false end.
