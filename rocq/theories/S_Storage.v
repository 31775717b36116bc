(** What the storage theorems are about, stated without the model's helper functions:
    names, ordinary keys and the place of objects in the tree. *)
From Verif Require Import M_Base M_Fs.

(* A consistent disk: parents exist, files are not shared, inode numbers are old. *)
Record wf (s : fs) : Prop := Wf {
  wf_parent : forall p c, is_Some (fs_nodes s !! (p ++ [c])) -> fs_nodes s !! p = Some NDir;
  wf_inj : forall p q i, fs_nodes s !! p = Some (NFile i) -> fs_nodes s !! q = Some (NFile i) -> p = q;
  wf_next : forall p i, fs_nodes s !! p = Some (NFile i) -> (i < fs_next s)%N;
}.

(* The content of the file at [p]. *)
Definition content (s : fs) (p : path) : option bytes :=
  match fs_nodes s !! p with
  | Some (NFile i) => Some (data_of s i)
  | _ => None
  end.

(* A name a file or directory can have. *)
Definition segment_ok (c : bytes) : Prop :=
  c <> [] /\ c <> B "." /\ c <> B ".." /\ "/"%char ∉ c.

(* Segments separated by slashes. *)
Fixpoint slashed (segs : list bytes) : bytes :=
  match segs with
  | [] => []
  | [c] => c
  | c :: segs' => c ++ B "/" ++ slashed segs'
  end.

(* [key] has only ordinary segments: no empty, '.' or '..' segment (hence no leading or
   trailing slash), and the object [key] of [bucket] belongs at [p]. *)
Definition located (bucket key : bytes) (p : path) : Prop :=
  exists segs, segs <> [] /\ Forall segment_ok segs /\ key = slashed segs /\ p = bucket :: segs.

(* A key with only ordinary segments. *)
Definition ordinary (key : bytes) : Prop :=
  exists segs, segs <> [] /\ Forall segment_ok segs /\ key = slashed segs.

(* The place of the object [key] of [bucket] for any key without '..' segments that does not
   start with a slash: empty and '.' segments do not count. *)
Definition resolved (bucket key : bytes) (p : path) : Prop :=
  exists segs, segs <> [] /\ Forall (fun c => "/"%char ∉ c) segs /\ B ".." ∉ segs /\
    key = slashed segs /\ (forall r, key <> B "/" ++ r) /\
    p = bucket :: filter (fun c => c <> [] /\ c <> B ".") segs.
