(** Time stamps: the calls of the storage with a clock, and the times shown in replies. *)
From Verif Require Import M_Base M_Path M_Fs M_Storage M_Time.

(* The clock of the machine: the time (in nanoseconds since 1970) at each call to the operating
   system, and what a directory shows as its time of modification at a path, at that call
   (directories are not modelled further),
   /repo/src/storages/fs.rs:226,354,454,529,595. *)
Record clock := Clock { ck_now : nat -> Z; ck_dir : path -> nat -> Z }.

(* What was asked for its times: a path or an open file, /repo/src/storages/fs.rs:225,353,453,529. *)
Inductive looked := LkPath (p : path) | LkHandle (h : handle).

(* The disk with the time of the last write of every inode, the number of calls made, and the times
   seen by [Metadata::modified], the first one first, /repo/src/storages/fs.rs:226,354,454,529,595. *)
Record world := World { w_fs : fs; w_mtime : gmap N Z; w_calls : nat; w_seen : list (looked * Z) }.

(* The time of the last write of an inode, /repo/src/storages/fs.rs:354. *)
Definition mtime_of (w : world) (i : N) : Z := default 0%Z (w_mtime w !! i).

(* A call sets times: [File::create] creates or truncates, write(2) writes
   (/repo/src/storages/fs.rs:153,684,753,802,823; it is never called for no bytes).  Other calls
   leave files alone. *)
Definition stamped (ck : clock) {R} (c : syscall R) (r : R) (n : nat) (m : gmap N Z) : gmap N Z :=
  match c in syscall R return R -> gmap N Z with
  | CCreate _ => fun r => match r with Some i => <[i := ck_now ck n]> m | None => m end
  | CWrite i _ _ => fun _ => <[i := ck_now ck n]> m
  | _ => fun _ => m
  end r.

(* A call shows times: [metadata] of a path or an open file,
   /repo/src/storages/fs.rs:225,353,453,529,595. *)
Definition seen (ck : clock) {R} (c : syscall R) (r : R) (w : world) : list (looked * Z) :=
  match c in syscall R return R -> list (looked * Z) with
  | CStat p => fun r =>
      match r, fs_nodes (w_fs w) !! p with
      | Some (true, _), _ => [(LkPath p, ck_dir ck p (w_calls w))]
      | Some (false, _), Some (NFile i) => [(LkPath p, mtime_of w i)]
      | _, _ => []
      end
  | CLen (HFile i) => fun r => match r with Some _ => [(LkHandle (HFile i), mtime_of w i)] | None => [] end
  | CLen (HDir p) => fun r => match r with Some _ => [(LkHandle (HDir p), ck_dir ck p (w_calls w))] | None => [] end
  | _ => fun _ => []
  end r.

(* A call with the clock, /repo/src/storages/fs.rs throughout. *)
Definition texec (e : env) (ck : clock) {R} (c : syscall R) (w : world) : world * R :=
  let '(s, r) := exec e c (w_fs w) in
  (World s (stamped ck c r (w_calls w) (w_mtime w)) (S (w_calls w)) (w_seen w ++ seen ck c r w), r).

(* A function of the storage run alone to its end, /repo/src/storages/fs.rs throughout. *)
Fixpoint trun (e : env) (ck : clock) {A} (m : prog A) (w : world) : world * A :=
  match m with
  | Ret a => (w, a)
  | Do c k => let '(w', r) := texec e ck c w in trun e ck (k r) w'
  end.

(* A request to the storage from a world in which nothing has been looked at,
   /repo/src/storages/fs.rs:206-850. *)
Definition timed (e : env) (ck : clock) (r : s_req) (w : world) : world * sres s_ans :=
  trun e ck (storage e r) (World (w_fs w) (w_mtime w) (w_calls w) []).

(* The [last_modified] of an answer: of [copy_object] the time of the source, looked at first
   (/repo/src/storages/fs.rs:225-226,247), of [get_object] that of the open file (:353-354,417), of
   [head_object] that of the path (:453-454,462); all three are the first times looked at. *)
Definition last_modified (e : env) (ck : clock) (r : s_req) (w : world) : option Z :=
  let '(w', a) := timed e ck r w in
  match r, a with
  | (RGetObject _ _ _ | RHeadObject _ _ | RCopyObject _ _ _), Ok _ =>
      match w_seen w' with x :: _ => Some x.2 | [] => None end
  | _, _ => None
  end.

(* The [last_modified] of an entry of a listing: that of the path,
   /repo/src/storages/fs.rs:529-535,595-601. *)
Definition listed_modified (e : env) (ck : clock) (r : s_req) (w : world) (p : path) : option Z :=
  let '(w', a) := timed e ck r w in
  match a with
  | Ok (AList _ _ _) =>
      match find (fun x => match x.1 with LkPath q => bool_decide (q = p) | LkHandle _ => false end) (w_seen w') with
      | Some x => Some x.2
      | None => None
      end
  | _ => None
  end.

(* [time::to_rfc3339] and [map_opt_rfc3339_to_last_modified] on a time, with the offset of the
   local time zone: the header of a reply, /repo/src/storages/fs.rs:354,454,
   /repo/src/ops/get_object.rs:90-93, head_object.rs:90-93. *)
Definition last_modified_header (off t : Z) : option bytes :=
  rfc3339_to_last_modified (to_rfc3339 off (SysTime (t / 1000000000) (Z.to_N (t mod 1000000000)))).
