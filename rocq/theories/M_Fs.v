(** The file system below the storage root, as far as /repo/src/storages/fs.rs uses it.
    Definitions only.

    Not modelled: symbolic and hard links, permissions, time stamps, anything outside the
    root.  Paths are lists of components relative to the root. *)
From stdpp Require Export gmap.
From Verif Require Export M_Base M_Path.

Notation path := (list bytes).

(* A directory entry: a directory, or a regular file with its inode number
   (files opened at /repo/src/storages/fs.rs:123,343,684,753,802,821). *)
Inductive node := NDir | NFile (ino : N).

Global Instance node_eq_dec : EqDecision node.
Proof. solve_decision. Defined.

(* The disk: directory tree, file contents by inode, next unused inode.  Contents of removed
   files stay in [fs_data] (still reachable through open handles only),
   /repo/src/storages/fs.rs:394. *)
Record fs := Fs {
  fs_nodes : gmap path node;
  fs_data : gmap N bytes;
  fs_next : N;
}.

(* What the model does not determine, chosen by the environment:
   - [e_root]: components of the absolute storage root, /repo/src/storages/fs.rs:53;
   - [e_os_ok]: paths the operating system can name (length limits, no NUL byte);
   - [e_order]: directory enumeration order, /repo/src/storages/fs.rs:476,514,580;
   - [e_dir_len]: st_size of directories, /repo/src/storages/fs.rs:352,454;
   - [e_chop]: how many write calls a buffer takes and how much a read call gives,
     /repo/src/storages/fs.rs:98,128,153,243,823;
   - [e_rounds]: how much longer than the store is large a loop over a directory tree or over the
     content of a file may go on because the tree or the file grows meanwhile,
     /repo/src/storages/fs.rs:98,128,243,262,512,578,823.  The loops of the code have no bound; every
     execution of them that ends is one of the model for large [e_rounds]. *)
Record env := Env {
  e_root : path;
  e_os_ok : path -> bool;
  e_order : path -> list bytes -> list bytes;
  e_dir_len : path -> N;
  e_chop : bytes -> list bytes;
  e_rounds : nat;
  e_os_prefix : forall p q, e_os_ok (p ++ q) = true -> e_os_ok p = true;
  e_order_perm : forall p l, Permutation (e_order p l) l;
  e_chop_concat : forall d, concat (e_chop d) = d;
}.

(* An open file or directory, [async_fs::File], /repo/src/storages/fs.rs:123,343. *)
Inductive handle := HDir (p : path) | HFile (ino : N).

(* Outcome of mkdir(2) as [create_dir_all] distinguishes it,
   /repo/src/storages/fs.rs:667,679. *)
Inductive mkdir_result := MkOk | MkNotFound | MkOther.

(* The calls to the operating system made by /repo/src/storages/fs.rs. *)
Inductive syscall : Type -> Type :=
(* [Path::exists], :190,241,294,320,433,448 *)
| CExists (p : path) : syscall bool
(* [async_fs::metadata], [DirEntry::metadata]: is it a directory, length; :228,453,484,529,838 *)
| CStat (p : path) : syscall (option (bool * N))
(* [File::open], :123,343,821 *)
| COpen (p : path) : syscall (option handle)
(* [file.metadata().len()], also the file end used by [SeekFrom::End], :352,383 *)
| CLen (h : handle) : syscall (option N)
(* one read(2) at the reader's offset; nothing at the end of the file, :128,98,243,823 *)
| CRead (h : handle) (off : nat) : syscall (option bytes)
(* [File::create]: create or truncate, :684,753,802 *)
| CCreate (p : path) : syscall (option N)
(* one write(2) at the writer's offset, :153,823 *)
| CWrite (ino : N) (off : nat) (b : bytes) : syscall (option unit)
(* mkdir(2), :200,667,679 *)
| CMkdir (p : path) : syscall mkdir_result
(* unlink(2), :279,301,834 *)
| CUnlink (p : path) : syscall (option unit)
(* rmdir(2), :276,262 *)
| CRmdir (p : path) : syscall (option unit)
(* [read_dir] with the type of every entry, :273,476,514,580 *)
| CReadDir (p : path) : syscall (option (list (bytes * bool)))
(* Not a system call: a bound for the loops over directory trees
   (the number of directory entries on the disk and [e_rounds]), :262,512,578 *)
| CCount : syscall nat
(* Not a system call: a bound for the loops over the content of an open file (its length and
   [e_rounds]), :98,128,243,823 *)
| CBound (h : handle) : syscall nat.

(* Content of an inode, /repo/src/storages/fs.rs:128. *)
Definition data_of (s : fs) (i : N) : bytes := default [] (fs_data s !! i).

(* What one read gives of the bytes that are left: a beginning of them, and nothing only at the
   end, /repo/src/storages/fs.rs:128. *)
Definition piece (e : env) (b : bytes) : bytes :=
  match List.filter (fun x => match x with [] => false | _ :: _ => true end) (e_chop e b) with
  | x :: _ => x
  | [] => []
  end.

(* pwrite: overwrite from [off], padding with zero bytes if the file is shorter
   (another process may have truncated it), /repo/src/storages/fs.rs:153. *)
Definition pwrite (c : bytes) (off : nat) (b : bytes) : bytes :=
  take off c ++ replicate (off - length c) "000"%char ++ b ++ drop (off + length b) c.

(* Parent and name of a path, /repo/src/storages/fs.rs:678. *)
Definition parent (p : path) : option (path * bytes) :=
  match rev p with
  | [] => None
  | c :: r => Some (rev r, c)
  end.

(* The name of [q] if it is directly below [p], /repo/src/storages/fs.rs:476. *)
Definition child_name (p q : path) : option bytes :=
  match parent q with
  | Some (p', c) => if bool_decide (p' = p) then Some c else None
  | None => None
  end.

(* Names in a directory, in some fixed order, /repo/src/storages/fs.rs:476,514. *)
Definition child_names (s : fs) (p : path) : list bytes :=
  omap (fun e => child_name p e.1) (map_to_list (fs_nodes s)).

(* Is it a directory, /repo/src/storages/fs.rs:480,518. *)
Definition is_dir (s : fs) (p : path) : bool :=
  match fs_nodes s !! p with Some NDir => true | _ => false end.

(* Is there a directory to hold [p]; the directory holding the root is outside the model and
   always there, /repo/src/storages/fs.rs:200,684. *)
Definition has_parent (s : fs) (p : path) : bool :=
  match parent p with
  | None => true
  | Some (q, _) => is_dir s q
  end.

(* Replace the tree, used by every change to a directory below. *)
Definition set_nodes (s : fs) (m : gmap path node) : fs := Fs m (fs_data s) (fs_next s).

(* Effect and result of each call.  Errors carry no reason because the code maps every one
   to InternalError (or, at :347, to NoSuchKey). *)
Definition exec (e : env) {R} (c : syscall R) (s : fs) : fs * R :=
  match c in syscall R return fs * R with
  | CExists p => (s, e_os_ok e p && bool_decide (is_Some (fs_nodes s !! p)))
  | CStat p =>
      (s, if negb (e_os_ok e p) then None
          else match fs_nodes s !! p with
               | Some NDir => Some (true, e_dir_len e p)
               | Some (NFile i) => Some (false, N.of_nat (length (data_of s i)))
               | None => None
               end)
  | COpen p =>
      (s, if negb (e_os_ok e p) then None
          else match fs_nodes s !! p with
               | Some NDir => Some (HDir p)
               | Some (NFile i) => Some (HFile i)
               | None => None
               end)
  | CLen (HDir p) => (s, Some (e_dir_len e p))
  | CLen (HFile i) => (s, Some (N.of_nat (length (data_of s i))))
  | CRead (HDir _) _ => (s, None)
  | CRead (HFile i) off => (s, Some (piece e (drop off (data_of s i))))
  | CCreate p =>
      if negb (e_os_ok e p) then (s, None)
      else match fs_nodes s !! p, parent p with
           | Some NDir, _ => (s, None)
           | Some (NFile i), _ => (Fs (fs_nodes s) (<[i := []]> (fs_data s)) (fs_next s), Some i)
           | None, Some (q, _) =>
               if is_dir s q then
                 let i := fs_next s in
                 (Fs (<[p := NFile i]> (fs_nodes s)) (<[i := []]> (fs_data s)) (i + 1)%N, Some i)
               else (s, None)
           | None, None => (s, None)
           end
  | CWrite i off b =>
      (Fs (fs_nodes s) (<[i := pwrite (data_of s i) off b]> (fs_data s)) (fs_next s), Some tt)
  | CMkdir p =>
      if negb (e_os_ok e p) then (s, MkOther)
      else match fs_nodes s !! p with
           | Some _ => (s, MkOther)
           | None =>
               if has_parent s p then (set_nodes s (<[p := NDir]> (fs_nodes s)), MkOk)
               else
                 (* ENOENT if the parent is missing, ENOTDIR if it is a file *)
                 (s, match parent p with
                     | Some (q, _) =>
                         match fs_nodes s !! q with None => MkNotFound | Some _ => MkOther end
                     | None => MkOther
                     end)
           end
  | CUnlink p =>
      match e_os_ok e p, fs_nodes s !! p with
      | true, Some (NFile _) => (set_nodes s (delete p (fs_nodes s)), Some tt)
      | _, _ => (s, None)
      end
  | CRmdir p =>
      match e_os_ok e p, fs_nodes s !! p with
      | true, Some NDir =>
          if bool_decide (child_names s p = []) then (set_nodes s (delete p (fs_nodes s)), Some tt)
          else (s, None)
      | _, _ => (s, None)
      end
  | CReadDir p =>
      (s, if e_os_ok e p && is_dir s p
          then Some (map (fun c => (c, is_dir s (p ++ [c]))) (e_order e p (child_names s p)))
          else None)
  | CCount => (s, S (size (fs_nodes s) + e_rounds e))
  | CBound (HDir _) => (s, 1)
  | CBound (HFile i) => (s, S (length (data_of s i) + e_rounds e))
  end.

(* What a call returns when the operating system fails it (disk full, I/O error, entry
   changed meanwhile); it then has no effect, /repo/src/internal_macros.rs:77-84. *)
Definition fail_of {R} (c : syscall R) : R :=
  match c in syscall R return R with
  | CExists _ => false
  | CStat _ => None
  | COpen _ => None
  | CLen _ => None
  | CRead _ _ => None
  | CCreate _ => None
  | CWrite _ _ _ => None
  | CMkdir _ => MkOther
  | CUnlink _ => None
  | CRmdir _ => None
  | CReadDir _ => None
  | CCount => O
  | CBound _ => O
  end.

(* An async function of /repo/src/storages/fs.rs: a sequence of calls, each followed by a
   possible switch to another task or by the end of the server process. *)
Inductive prog (A : Type) : Type :=
| Ret (a : A)
| Do {R : Type} (c : syscall R) (k : R -> prog A).
Arguments Ret {A} a.
Arguments Do {A R} c k.

(* Sequencing ([.await] and [;]), everywhere in /repo/src/storages/fs.rs. *)
Fixpoint bind {A B} (m : prog A) (f : A -> prog B) : prog B :=
  match m with
  | Ret a => f a
  | Do c k => Do c (fun r => bind (k r) f)
  end.

(* A single call. *)
Definition call {R} (c : syscall R) : prog R := Do c Ret.

(* Run alone to the end. *)
Fixpoint run (e : env) {A} (m : prog A) (s : fs) : fs * A :=
  match m with
  | Ret a => (s, a)
  | Do c k => let '(s', r) := exec e c s in run e (k r) s'
  end.

(* One step of one task: its next call is executed, or fails without effect. *)
Definition step (e : env) {A} (s : fs) (m : prog A) (s' : fs) (m' : prog A) : Prop :=
  match m with
  | Ret _ => False
  | Do c k => (s', m') = (let '(s1, r) := exec e c s in (s1, k r)) \/ (s', m') = (s, k (fail_of c))
  end.

(* Any number of steps: the states in which the server process may stop. *)
Inductive steps (e : env) {A} : fs -> prog A -> fs -> prog A -> Prop :=
| steps_refl s m : steps e s m s m
| steps_step s m s1 m1 s2 m2 : step e s m s1 m1 -> steps e s1 m1 s2 m2 -> steps e s m s2 m2.

(* Several tasks; each step is a step of one of them (an executor with any number of threads;
   the calls themselves are atomic). *)
Inductive psteps (e : env) {A} : fs -> list (prog A) -> fs -> list (prog A) -> Prop :=
| psteps_refl s ms : psteps e s ms s ms
| psteps_step s ms i m s1 m1 s2 ms2 :
    ms !! i = Some m -> step e s m s1 m1 -> psteps e s1 (<[i := m1]> ms) s2 ms2 ->
    psteps e s ms s2 ms2.

(* Executable version of [psteps] without failures: the schedule says which task moves. *)
Fixpoint run_sched (e : env) {A} (sched : list nat) (s : fs) (ms : list (prog A)) : fs * list (prog A) :=
  match sched with
  | [] => (s, ms)
  | i :: sched' =>
      match ms !! i with
      | Some (Do c k) =>
          let '(s', r) := exec e c s in run_sched e sched' s' (<[i := k r]> ms)
      | _ => run_sched e sched' s ms
      end
  end.

(* The first [n] calls of one task: the server stops after them. *)
Fixpoint run_n (e : env) {A} (n : nat) (m : prog A) (s : fs) : fs * prog A :=
  match n, m with
  | S n', Do c k => let '(s', r) := exec e c s in run_n e n' (k r) s'
  | _, _ => (s, m)
  end.
