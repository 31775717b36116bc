(** C87: what lies in the root directory. *)
From Verif Require Import M_Base M_Path M_Headers M_Chunked M_BytesStream M_Crypto M_Multipart M_Fs M_Json M_Utf8 M_Http M_Auth M_Storage M_Ops M_Service
  S_Path S_Headers S_Chunked S_Storage S_Store S_Http S_Service S_Dispatch S_Calls L_Base L_Path L_Fs L_Names L_Storage L_Scope L_Results L_Request
  T_Store T_Auth T_Calls T_Http T_Web.

Local Opaque md5 etag_of json_decode json_encode.

(** ** The specification *)

(* Names of the files that the server keeps for itself. *)
Definition hidden_file (n : bytes) : Prop :=
  (exists x, n = B ".bucket-" ++ x ++ B ".metadata.json") \/ (exists x y, n = B ".upload_id-" ++ x ++ B ".part-" ++ y).

(* In the root directory there are buckets, which are directories with legal names, and files with
   metadata and parts; nothing else. *)
Definition orderly (s : fs) : Prop := forall n x, fs_nodes s !! [n] = Some x ->
  match x with NDir => legal_bucket n | NFile _ => hidden_file n end.

(* The key names something in the bucket [b]: it has no '..' segments, is not absolute and does not
   consist of dots and slashes only. *)
Definition inside (b k : bytes) : Prop := exists q, q <> [] /\ resolved b k (b :: q).
(* All keys to be written are inside their buckets, and upload ids have no slashes. *)
Definition tame (r : s_req) : Prop :=
  match r with
  | RCopyObject _ b k | RPutObject b k _ _ _ _ => inside b k
  | RUploadPart u _ _ => "/"%char ∉ u
  | RCompleteMultipartUpload b k u _ => inside b k /\ "/"%char ∉ u
  | _ => True
  end.
Definition tame_request (x : server * http_request) : Prop :=
  forall op c r, front x.1 x.2 = FrCall op c r -> tame r.

(* All executions: any requests are handled at the same time, calls may fail, the server may stop at
   any point; then it is started again, and so on. *)
Inductive history (e : env) : fs -> fs -> Prop :=
| hist_none s : history e s s
| hist_run s xs s1 ms s' : Forall tame_request xs -> psteps e s (serve e xs) s1 ms -> history e s1 s' -> history e s s'.

(** ** New entries *)

(* What a step adds lies in the scope of the task. *)
Definition adds (F D : path -> Prop) (s s' : fs) : Prop := forall p x, fs_nodes s' !! p = Some x ->
  fs_nodes s !! p = Some x \/ match x with NDir => D p | NFile _ => F p end.

(* The files and directories a program may create, whatever its calls return. *)
Fixpoint makes {A} (F D : path -> Prop) (m : prog A) {struct m} : Prop :=
  match m with
  | Ret _ => True
  | Do c k =>
      match c in syscall R return (R -> prog A) -> Prop with
      | CCreate p => fun k => F p /\ forall r, makes F D (k r)
      | CMkdir p => fun k => D p /\ forall r, makes F D (k r)
      | _ => fun k => forall r, makes F D (k r)
      end k
  end.

Lemma scoped_makes {A} (m : prog A) (F D X F' D' : path -> Prop) own :
  (forall p, F p -> F' p) -> (forall p, D p -> D' p) -> scoped F D X own m -> makes F' D' m.
Proof.
  intros HF HD. revert own. induction m as [a|R c k IH]; intros own H; [done|].
  destruct c; cbn [scoped makes] in *; try (intros r; eauto; fail);
    destruct H as [H1 H2]; try (split; [by auto|]); intros r; by eapply IH.
Qed.
Lemma makes_bind {A B} F D (m : prog A) (f : A -> prog B) : makes F D m -> (forall a, makes F D (f a)) -> makes F D (bind m f).
Proof.
  intros H Hf. induction m as [a|R c k IH]; [apply Hf|]. destruct c; cbn [makes bind] in *; try (intros r; by apply IH);
    destruct H as [H1 H2]; (split; [done|]); intros r; by apply IH.
Qed.
Lemma makes_try_io {A B} F D (m : prog (option A)) (k : A -> prog (sres B)) : makes F D m -> (forall a, makes F D (k a)) -> makes F D (try_io m k).
Proof. intros Hm Hk. apply makes_bind; [done|]. by intros [a|]; [apply Hk|]. Qed.
Lemma makes_try_res {A B} F D (m : prog (sres A)) (k : A -> prog (sres B)) : makes F D m -> (forall a, makes F D (k a)) -> makes F D (try_res m k).
Proof. intros Hm Hk. apply makes_bind; [done|]. by intros [a|]; [apply Hk|]. Qed.
Lemma makes_remove_dir_all F D fuel p : makes F D (remove_dir_all fuel p).
Proof.
  revert p. induction fuel as [|fuel IH]; intros p; [done|]. cbn [remove_dir_all bind call makes]. intros [es|]; [|done].
  induction es as [|[c d] es IHes]; [done|]. apply makes_bind; [by destruct d; [apply IH|]|]. by intros [u|]; [apply IHes|].
Qed.
Lemma makes_remove_objects F D l : makes F D (remove_objects l).
Proof.
  induction l as [|[p k] l IH]; [done|]. cbn [remove_objects]. apply makes_try_io; [done|]. intros _. by apply makes_try_res.
Qed.

Lemma exec_adds e {A R} (c : syscall R) (k : R -> prog A) F D s : makes F D (Do c k) ->
  adds F D s (exec e c s).1 /\ makes F D (k (exec e c s).2).
Proof.
  intros Hs. assert (Hr : adds F D s s) by by left.
  destruct c; cbn [exec makes] in *; try (by split; [|apply Hs]).
  - by destruct h.
  - by destruct h.
  - destruct Hs as [HF Hs]. split; [|apply Hs].
    destruct (negb _); [done|]. destruct (fs_nodes s !! p) as [[|i]|] eqn:Ep; [done|by left|].
    destruct (parent p) as [[q n]|]; [|done]. destruct (is_dir s q); [|done]. intros q' x. cbn.
    destruct (decide (p = q')) as [<-|Hne]; [rewrite lookup_insert; intros [= <-]; by right|].
    rewrite lookup_insert_ne by done. by left.
  - destruct Hs as [HD Hs]. split; [|apply Hs].
    destruct (negb _); [done|]. destruct (fs_nodes s !! p) as [x0|] eqn:Ep; [done|].
    destruct (has_parent s p); [|done]. intros q' x. cbn.
    destruct (decide (p = q')) as [<-|Hne]; [rewrite lookup_insert; intros [= <-]; by right|].
    rewrite lookup_insert_ne by done. by left.
  - split; [|apply Hs].
    destruct (e_os_ok e p); [|done]. destruct (fs_nodes s !! p) as [[|i]|]; [done| |done].
    intros q' x. cbn. intros H%lookup_delete_Some. left. tauto.
  - split; [|apply Hs].
    destruct (e_os_ok e p); [|done]. destruct (fs_nodes s !! p) as [[|i]|]; [|done|done].
    destruct (bool_decide _); [|done]. intros q' x. cbn. intros H%lookup_delete_Some. left. tauto.
  - by destruct h.
Qed.

Lemma step_adds e {A} (m : prog A) F D s s' m' : makes F D m -> step e s m s' m' -> adds F D s s' /\ makes F D m'.
Proof.
  destruct m as [a|R c k]; [done|]. intros Hs Hst. cbn [step] in Hst.
  pose proof (exec_adds e c k F D s Hs) as He.
  destruct (exec e c s) as [s1 r]. destruct Hst as [[= -> ->]|[= -> ->]]; [done|].
  split; [by left|]. destruct c; cbn [makes fail_of] in *; apply Hs.
Qed.

Lemma psteps_adds e {A} F D s (ms : list (prog A)) s' ms' : Forall (makes F D) ms -> psteps e s ms s' ms' -> adds F D s s'.
Proof.
  intros Hms Hst. induction Hst as [|s ms i m s1 m1 s2 ms2 Hi H1 Hst IH]; [by left|].
  destruct (step_adds e m F D s s1 m1 (Forall_lookup_1 _ _ _ _ Hms Hi) H1) as [Ha Hs'].
  intros p x Hp. destruct (IH ltac:(by apply Forall_insert) p x Hp) as [H|H]; [|by right]. by apply Ha.
Qed.

(** ** The theorem *)

Definition root_file (p : path) : Prop := forall n, p = [n] -> hidden_file n.
Definition root_dir (p : path) : Prop := forall n, p = [n] -> legal_bucket n.

Lemma inside_path e b k p : legal_bucket b -> inside b k -> get_object_path e b k = Some p -> exists x q, p = b :: x :: q.
Proof.
  intros Hb (q & Hq & Hr) Hp. rewrite (resolved_path e b k _ (legal_bucket_segment _ Hb) Hr) in Hp. injection Hp as <-.
  destruct q as [|x q]; [done|eauto].
Qed.

Lemma metadata_hidden b k : hidden_file (metadata_name b k).
Proof. left. exists (b64url b ++ B ".object-" ++ b64url k). unfold metadata_name. by rewrite <- !app_assoc. Qed.
Lemma part_hidden u n : hidden_file (part_name u n).
Proof. right. by exists u, (B (pretty n)). Qed.

Lemma called_bucket sv rq op c r : front sv rq = FrCall op c r ->
  match r with
  | RCreateBucket b | RCopyObject _ b _ | RPutObject b _ _ _ _ _ | RCompleteMultipartUpload b _ _ _ => legal_bucket b
  | _ => True
  end.
Proof.
  intros Hf. apply C58_called_as_asked in Hf.
  assert (Hbr : forall b, request_path rq (PBucket b) -> legal_bucket b).
  { intros b (uri & _ & _ & H). by inversion H. }
  destruct Hf; eauto using object_request.
Qed.

Lemma makes_storage e r : tame r ->
  match r with
  | RCreateBucket b | RCopyObject _ b _ | RPutObject b _ _ _ _ _ | RCompleteMultipartUpload b _ _ _ => legal_bucket b
  | _ => True
  end -> makes root_file root_dir (storage e r).
Proof.
  intros Ht Hb.
  assert (Hsc : (forall p, r_files e r p -> root_file p) -> (forall p, r_dirs e r p -> root_dir p) -> makes root_file root_dir (storage e r)).
  { intros HF HD. eapply scoped_makes; [exact HF|exact HD|apply scoped_storage]. }
  destruct r; cbn [r_files r_dirs tame] in *; try (by apply Hsc).
  - (* create_bucket *) apply Hsc; [done|]. intros p Hp n ->. 
    assert (get_bucket_path e bucket = Some [bucket]) as Hp' by (apply absolutize_segment; by apply legal_bucket_segment).
    congruence.
  - (* copy_object *) apply Hsc; [|done]. intros p [Hp|Hp] n ->.
    + by apply inside_path in Hp as (x & q & [=]).
    + rewrite metadata_path in Hp. injection Hp as <-. apply metadata_hidden.
  - (* delete_bucket *) cbn [storage]. unfold delete_bucket. destruct (get_bucket_path e bucket) as [p|]; [|done]. cbn [try_path bind call makes].
    intros n. apply makes_try_io; [apply makes_remove_dir_all|done].
  - (* delete_object *) cbn [storage]. unfold delete_object. destruct (get_object_path e bucket key) as [p|]; [|done]. cbn [try_path].
    destruct (ends_with_char "/" key); apply makes_try_io; try done. intros [|? ?]; [by apply makes_try_io|done].
  - (* delete_objects *) cbn [storage]. unfold delete_objects. apply makes_try_res.
    + eapply (scoped_makes _ root_file root_dir (fun _ => False)); [done|done|]. apply (scoped_existing_objects e _ _ _ _ _ no_own).
    + intros l. apply makes_try_res; [apply makes_remove_objects|done].
  - (* put_object *) apply Hsc.
    + intros p [Hp|[_ Hp]] n ->; [by apply inside_path in Hp as (x & q & [=])|].
      rewrite metadata_path in Hp. injection Hp as <-. apply metadata_hidden.
    + intros p (q & Hq & [r Hr]) n ->. apply inside_path in Hq as (x & q' & ->); [|done|done]. by injection Hr as <- _.
  - (* upload_part *) apply Hsc; [|done]. intros p Hp n ->. rewrite part_path_eq in Hp by done. injection Hp as <-. apply part_hidden.
  - (* complete *) destruct Ht as [Hk Hu]. apply Hsc; [|done]. intros p [Hp|(l & n' & _ & _ & Hp)] n ->.
    + by apply inside_path in Hp as (x & q & [=]).
    + rewrite part_path_eq in Hp by done. injection Hp as <-. apply part_hidden.
Qed.

Lemma makes_service e x : tame_request x -> makes root_file root_dir (service e x.1 x.2).
Proof.
  intros Ht. unfold service. destruct (front x.1 x.2) as [code| |op c r] eqn:Hf; [done|done|].
  apply makes_bind; [|done]. apply makes_storage; [by eapply Ht|by eapply called_bucket].
Qed.

(** C87: whatever requests are handled, one after another or at the same time, whatever fails and
    wherever the server is stopped and started again: in the root directory there is nothing but
    buckets and the server's own files. *)
Theorem C87_orderly e s s' : history e s s' -> orderly s -> orderly s'.
Proof.
  induction 1 as [|s xs s1 ms s' Hxs Hst _ IH]; [done|]. intros Ho. apply IH. intros n x Hn.
  assert (Ha : adds root_file root_dir s s1).
  { eapply psteps_adds; [|exact Hst]. apply Forall_fmap. eapply Forall_impl; [exact Hxs|]. intros y Hy. by apply makes_service. }
  destruct (Ha _ _ Hn) as [H|H]; [by apply Ho|]. by destruct x; apply H.
Qed.
Print Assumptions C87_orderly.

Lemma orderly_empty : orderly empty_store.
Proof. intros n x H. cbn [empty_store fs_nodes] in H. by apply lookup_singleton_Some in H as [? _]. Qed.

(** ** The limits *)

Definition ex_status (r : reply) : option N := match r with Replied x => Some (rs_status x) | Panicked => None end.
Definition plain_request (m path : bytes) : http_request := HttpRequest m path None [] [].

(** C87: an upload to the key "." of a bucket that does not exist succeeds and leaves a file in the
    place of the bucket: the bucket then seems to exist and cannot be created, but it is not listed,
    and nothing can be uploaded to it, not even listing or deleting it is possible. *)
Theorem C87_dot_key_refuted : exists e sv rq s s' r,
  orderly s /\ request_path rq (PObject (B "bkt") (B ".")) /\ exchange e sv rq s = (s', r) /\ ex_status r = Some 200%N /\ ~ orderly s' /\
  map (fun m => ex_status (exchange e sv (plain_request m (B "/bkt")) s').2) [B "HEAD"; B "PUT"; B "GET"; B "DELETE"] =
    [Some 200%N; Some 409%N; Some 500%N; Some 500%N] /\
  answer e RListBuckets s' = Ok (ABuckets []) /\
  ex_status (exchange e sv (ex_put_object (B "/bkt/a") [] (B "data")) s').2 = Some 500%N.
Proof.
  pose (rq := ex_put_object (B "/bkt/%2E") [] (B "x")).
  exists ex_env, ex_open_server, rq, empty_store, (exchange ex_env ex_open_server rq empty_store).1, (exchange ex_env ex_open_server rq empty_store).2.
  split; [apply orderly_empty|].
  split; [apply request_path_spec; eexists; split; vm_compute; reflexivity|].
  split; [apply surjective_pairing|]. split; [vm_compute; reflexivity|]. split; [|split_and!; vm_compute; reflexivity].
  intros Ho. specialize (Ho (B "bkt") (NFile 0)).
  destruct (Ho ltac:(vm_compute; reflexivity)) as [(x & Hx)|(x & y & Hx)]; discriminate Hx.
Qed.
Print Assumptions C87_dot_key_refuted.

(** C87: keys with '..' segments put anything into the root directory. *)
Theorem C87_climbing_key_refuted : exists e sv rq s s' r,
  orderly s /\ request_path rq (PObject (B "bkt") (B "../Any Name")) /\ exchange e sv rq s = (s', r) /\ ex_status r = Some 200%N /\
  content s' [B "Any Name"] = Some (B "x").
Proof.
  pose (rq := ex_put_object (B "/bkt/..%2FAny%20Name") [] (B "x")).
  exists ex_env, ex_open_server, rq, empty_store, (exchange ex_env ex_open_server rq empty_store).1, (exchange ex_env ex_open_server rq empty_store).2.
  split; [apply orderly_empty|].
  split; [apply request_path_spec; eexists; split; vm_compute; reflexivity|].
  split; [apply surjective_pairing|]. split; vm_compute; reflexivity.
Qed.
Print Assumptions C87_climbing_key_refuted.

(** C87: deleting everything does not clear the disk.  An object is uploaded with metadata and
    deleted, then its bucket is deleted; the metadata are still there. *)
Theorem C87_leftover_refuted : exists e sv rqs s n c,
  map ex_status (replies e (map (fun rq => (sv, rq)) rqs) s) = [Some 200%N; Some 204%N; Some 204%N] /\
  map rq_method rqs = [B "PUT"; B "DELETE"; B "DELETE"] /\
  fs_nodes s = {[ [] := NDir ]} /\ answer e RListBuckets (after_requests e (map (fun rq => (sv, rq)) rqs) s) = Ok (ABuckets []) /\
  content (after_requests e (map (fun rq => (sv, rq)) rqs) s) [n] = Some c /\ hidden_file n /\
  exists x y, c = x ++ B "confidential" ++ y.
Proof.
  exists ex_env, ex_open_server, [ex_put_object (B "/bkt/k") [(B "x-amz-meta-note", B "confidential")] (B "data");
    plain_request (B "DELETE") (B "/bkt/k"); plain_request (B "DELETE") (B "/bkt")], empty_store, (metadata_name (B "bkt") (B "k")).
  eexists. split; [vm_compute; reflexivity|]. split; [done|]. split; [done|]. split; [vm_compute; reflexivity|].
  split; [vm_compute; reflexivity|]. split; [apply metadata_hidden|].
  exists (B "{""note"":"""), (B """}"). vm_compute. reflexivity.
Qed.
Print Assumptions C87_leftover_refuted.

(** ** Example *)

(* Two uploads at the same time, stopped in the middle: a bucket and a file with metadata. *)
Example C87_ex :
  let xs := [(ex_open_server, ex_put_object (B "/bkt/k") [(B "x-amz-meta-a", B "1")] (B "data"));
             (ex_open_server, ex_put_object (B "/bkt/b/c") [] (B "more"))] in
  let r := run_sched ex_env [0; 1; 0; 1; 1; 0; 0; 0; 0; 1; 0; 0; 0]%nat empty_store (serve ex_env xs) in
  Forall tame_request xs /\ fs_nodes r.1 !! [B "bkt"] = Some NDir /\
  fs_nodes r.1 !! [metadata_name (B "bkt") (B "k")] = Some (NFile 2) /\ size (fs_nodes r.1) = 6%nat.
Proof.
  cbv zeta. split; [|split_and!; vm_compute; reflexivity].
  assert (Hin : forall c, "/"%char ∉ c -> c <> [] -> c <> B "." -> c <> B ".." -> inside (B "bkt") c).
  { intros c H1 H2 H3 H4. exists [c]. split; [done|]. exists [c]. split; [done|]. split; [by repeat constructor|].
    split; [by intros ?%elem_of_list_singleton|]. split; [done|]. split; [intros r ->; apply H1; left|]. f_equal.
    rewrite filter_cons_True by done. done. }
  repeat constructor; intros op c r Hf; cbn [fst snd] in Hf.
  - assert (Hc : called (front ex_open_server (ex_put_object (B "/bkt/k") [(B "x-amz-meta-a", B "1")] (B "data"))) =
      Some (OpPutObject, RPutObject (B "bkt") (B "k") None None (Some [(B "a", B "1")]) (Some [FData (B "data")]))) by (vm_compute; reflexivity).
    rewrite Hf in Hc. injection Hc as _ ->. apply Hin; compute_done.
  - assert (Hc : called (front ex_open_server (ex_put_object (B "/bkt/b/c") [] (B "more"))) =
      Some (OpPutObject, RPutObject (B "bkt") (B "b/c") None None None (Some [FData (B "more")]))) by (vm_compute; reflexivity).
    rewrite Hf in Hc. injection Hc as _ ->. exists [B "b"; B "c"]. split; [done|]. exists [B "b"; B "c"].
    split; [done|]. split; [compute_done|]. split; [compute_done|]. split; [done|]. by split.
Qed.
