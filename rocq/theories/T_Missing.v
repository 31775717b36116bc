(** C88: what is answered about buckets and objects that do not exist. *)
From Verif Require Import M_Base M_Path M_Headers M_Chunked M_BytesStream M_Crypto M_Multipart M_Fs M_Json M_Utf8 M_Http M_Auth M_Storage M_Ops M_Service
  S_Path S_Headers S_Chunked S_Storage S_Store S_Http S_Service S_Dispatch S_Calls L_Base L_Path L_Fs L_Names L_Headers L_Storage L_Ops L_Scope L_Results L_Request
  T_Store T_Auth T_Calls T_Http.

Local Opaque md5 etag_of json_decode json_encode metadata_name part_name.

(** ** The specification *)

(* No bucket [b]; nothing at the place [p]. *)
Definition no_bucket (s : fs) (b : bytes) : Prop := fs_nodes s !! [b] = None.
Definition nothing_at (s : fs) (p : path) : Prop := fs_nodes s !! p = None.

(* Nothing lies below a place where nothing is. *)
Lemma nothing_below s p q : wf s -> nothing_at s p -> nothing_at s (p ++ q).
Proof.
  intros Hwf Hp. induction q as [|c q IH] using rev_ind; [by rewrite app_nil_r|]. unfold nothing_at in *.
  destruct (fs_nodes s !! (p ++ q ++ [c])) as [n|] eqn:E; [|done]. rewrite app_assoc in E.
  pose proof (wf_parent _ Hwf (p ++ q) c ltac:(by eexists)) as H. congruence.
Qed.

(* What the server answers to a request about the missing bucket [b]. *)
Inductive says_missing (b : bytes) : s_req -> s3_code -> Prop :=
| sm_head : says_missing b (RHeadBucket b) NoSuchBucket
| sm_location : says_missing b (RGetBucketLocation b) NoSuchBucket
| sm_delete_bucket : says_missing b (RDeleteBucket b) InternalError
| sm_list prefix : says_missing b (RListObjects b prefix) InternalError
| sm_list_v2 prefix : says_missing b (RListObjectsV2 b prefix) InternalError
| sm_get k p : resolved b k p -> says_missing b (RGetObject b k None) NoSuchKey
| sm_get_range k p t rg : resolved b k p -> range_text t rg -> says_missing b (RGetObject b k (Some t)) NoSuchKey
| sm_head_object k p : resolved b k p -> says_missing b (RHeadObject b k) NoSuchKey
| sm_delete k p : resolved b k p -> says_missing b (RDeleteObject b k) InternalError
| sm_copy_from k k' b' p : ordinary k -> legal_key k -> LF ∉ b ++ B "/" ++ k -> legal_bucket b' -> resolved b' k' p ->
    says_missing b (RCopyObject (b ++ B "/" ++ k) b' k') InternalError
| sm_complete k p q u ps : resolved b k p -> p = b :: q -> q <> [] -> says_missing b (RCompleteMultipartUpload b k u (Some ps)) InternalError.

(** ** Theorems *)

Lemma resolved_cons b k p : resolved b k p -> exists q, p = [b] ++ q.
Proof. intros (segs & _ & _ & _ & _ & _ & ->). by eexists. Qed.

Lemma run_missing e s r b code : wf s -> legal_bucket b -> no_bucket s b -> says_missing b r code ->
  run e (storage e r) s = (s, Err code).
Proof.
  intros Hwf Hb Hn Hr. pose proof (legal_bucket_segment _ Hb) as Hbs.
  assert (Hbp : get_bucket_path e b = Some [b]) by by apply absolutize_segment.
  assert (Hop : forall k p, resolved b k p -> get_object_path e b k = Some p /\ nothing_at s p).
  { intros k p Hr'. split; [by apply resolved_path|]. destruct (resolved_cons _ _ _ Hr') as [q ->]. by apply nothing_below. }
  unfold no_bucket in Hn. destruct Hr; cbn [storage].
  - unfold head_bucket. rewrite run_try_path, Hbp, run_bind, run_call. cbn [exec run]. rewrite Hn, andb_false_r. done.
  - unfold get_bucket_location. rewrite run_try_path, Hbp, run_bind, run_call. cbn [exec run]. rewrite Hn, andb_false_r. done.
  - unfold delete_bucket. rewrite run_try_path, Hbp, run_bind, run_call. cbn [exec]. rewrite run_try_io. cbn [remove_dir_all].
    rewrite run_bind, run_call. cbn [exec]. unfold is_dir. rewrite Hn, andb_false_r. done.
  - unfold list_objects. rewrite run_try_path, Hbp, run_bind, run_call. cbn [exec]. rewrite run_try_res. cbn [list_queue].
    rewrite run_try_io, run_call. cbn [exec]. unfold is_dir. rewrite Hn, andb_false_r. done.
  - unfold list_objects. rewrite run_try_path, Hbp, run_bind, run_call. cbn [exec]. rewrite run_try_res. cbn [list_queue].
    rewrite run_try_io, run_call. cbn [exec]. unfold is_dir. rewrite Hn, andb_false_r. done.
  - destruct (Hop _ _ H) as [Hp Hx]. unfold get_object. rewrite run_try_path, Hp. cbv zeta. rewrite run_bind, run_call. cbn [exec].
    unfold nothing_at in Hx. rewrite Hx. by destruct (negb _).
  - destruct (Hop _ _ H) as [Hp Hx]. unfold get_object. rewrite run_try_path, Hp. cbv zeta. apply range_spec in H0. rewrite H0.
    rewrite run_bind, run_call. cbn [exec]. unfold nothing_at in Hx. rewrite Hx. by destruct (negb _).
  - destruct (Hop _ _ H) as [Hp Hx]. unfold head_object. rewrite run_try_path, Hp, run_bind, run_call. cbn [exec].
    unfold nothing_at in Hx. rewrite Hx, andb_false_r. done.
  - destruct (Hop _ _ H) as [Hp Hx]. unfold delete_object. rewrite run_try_path, Hp. unfold nothing_at in Hx. destruct (ends_with_char "/" k).
    + rewrite run_try_io, run_call. cbn [exec]. unfold is_dir. rewrite Hx, andb_false_r. done.
    + rewrite run_try_io, run_call. cbn [exec]. rewrite Hx. by destruct (e_os_ok e p).
  - unfold copy_object.
    assert (Hcs : copy_source_from_header_str (b ++ B "/" ++ k) = Ok (b, k)) by by apply copy_source_spec.
    destruct H as (segs & Hne & Hok & Hk). 
    assert (Hl : located b k (b :: segs)) by by exists segs.
    rewrite Hcs. rewrite run_try_path, (located_path e b k _ Hbs Hl).
    rewrite run_try_path, (resolved_path e b' k' p (legal_bucket_segment _ H2) H3). rewrite run_try_io, run_call. cbn [exec].
    rewrite (nothing_below s [b] segs Hwf Hn). by destruct (negb _).
  - destruct (Hop _ _ H) as [Hp Hx]. unfold complete_multipart_upload. rewrite run_try_path, Hp, run_try_io, run_call. cbn [exec].
    unfold nothing_at in Hx. rewrite Hx. destruct (negb _); [done|]. destruct (parent p) as [[dir c]|] eqn:Epar; [|done].
    apply parent_Some in Epar. assert (Hd : nothing_at s dir).
    { destruct q as [|x q _] using rev_ind; [done|]. rewrite H0 in Epar.
      change (b :: q ++ [x]) with ((b :: q) ++ [x]) in Epar. apply app_inj_tail in Epar as [<- _]. by apply (nothing_below s [b] q). }
    unfold is_dir. rewrite Hd. done.
Qed.

(** C88: requests about a bucket that does not exist change nothing, and this is how each of them is
    answered: HeadBucket and GetBucketLocation say so, downloads say that there is no such key, and
    the others report an internal error. *)
Theorem C88_missing_bucket e sv rq op c r s b code :
  front sv rq = FrCall op c r -> wf s -> legal_bucket b -> no_bucket s b -> says_missing b r code ->
  exchange e sv rq s = (s, Replied (error_response code)).
Proof.
  intros Hf Hwf Hb Hn Hr. rewrite (exchange_call _ _ _ _ _ _ _ Hf).
  unfold after, answer. by rewrite (run_missing e s r b code).
Qed.
Print Assumptions C88_missing_bucket.

(** C88: a download or head request of an object is answered with NoSuchKey exactly if there is nothing
    under its key (an operating system willing to name it). *)
Theorem C88_no_such_key e s b k p : legal_bucket b -> resolved b k p -> e_os_ok e p = true ->
  (answer e (RGetObject b k None) s = Err NoSuchKey <-> nothing_at s p) /\
  (answer e (RHeadObject b k) s = Err NoSuchKey <-> nothing_at s p).
Proof.
  intros Hb Hr Hos. pose proof (resolved_path e b k p (legal_bucket_segment _ Hb) Hr) as Hp. unfold nothing_at, answer. cbn [storage].
  assert (Hio : forall {A} (m : prog (option A)) (k : A -> prog (sres s_ans)) s,
    (forall a s', (run e (k a) s').2 <> Err NoSuchKey) -> (run e (try_io m k) s).2 <> Err NoSuchKey).
  { intros A m k' s0 H. rewrite run_try_io. destruct (run e m s0) as [s' [a|]]; [apply H|done]. }
  split.
  - unfold get_object. rewrite run_try_path, Hp. cbv zeta. rewrite run_bind, run_call. cbn [exec]. rewrite Hos. cbn [negb].
    destruct (fs_nodes s !! p) as [[|i]|] eqn:E; [| |done]; (split; [|done]); intros H; exfalso; revert H.
    all: apply Hio; intros len s1; rewrite run_try_res; cbn [get_extent run]; apply Hio; intros md s2; apply Hio; intros tag s3;
      by destruct (_ <=? _)%N.
  - unfold head_object. rewrite run_try_path, Hp, run_bind, run_call. cbn [exec]. rewrite Hos. cbn [andb].
    case_bool_decide as Hd; cbn [run]; [|rewrite <- eq_None_not_Some in Hd; done].
    split; [|intros Hn; rewrite Hn in Hd; by destruct Hd]. intros H; exfalso; revert H.
    apply Hio; intros st s1. apply Hio; intros md s2. by destruct (_ <=? _)%N.
Qed.
Print Assumptions C88_no_such_key.

(** ** The limits *)

Definition answered (r : reply) : option N := match r with Replied x => Some (rs_status x) | Panicked => None end.
Definition bare (m path : bytes) : http_request := HttpRequest m path None [] [].

(** C88: against the S3 API, an upload to a bucket that does not exist succeeds and creates the
    bucket. *)
Theorem C88_upload_creates_refuted : exists e sv rq s b k, request_path rq (PObject b k) /\ no_bucket s b /\
  answered (exchange e sv rq s).2 = Some 200%N /\ answered (exchange e sv (bare (B "HEAD") (B "/" ++ b)) (exchange e sv rq s).1).2 = Some 200%N.
Proof.
  exists ex_env, ex_open_server, (ex_put_object (B "/bkt/k") [] (B "x")), empty_store, (B "bkt"), (B "k").
  split; [apply request_path_spec; eexists; split; vm_compute; reflexivity|]. split; [done|]. split; vm_compute; reflexivity.
Qed.
Print Assumptions C88_upload_creates_refuted.

(** C88: against the S3 API, listing or deleting a bucket that does not exist, deleting an object that
    does not exist and copying one are all answered with status 500 instead of 404, 404, 204 and
    404. *)
Theorem C88_internal_refuted : exists e sv s, no_bucket s (B "none") /\ content s [B "bkt"; B "none"] = None /\
  fs_nodes s !! [B "bkt"] = Some NDir /\
  map (fun rq => answered (exchange e sv rq s).2)
    [bare (B "GET") (B "/none"); bare (B "DELETE") (B "/none"); bare (B "DELETE") (B "/bkt/none");
     HttpRequest (B "PUT") (B "/bkt/copy") None [(B "x-amz-copy-source", B "bkt/none")] []] =
  [Some 500%N; Some 500%N; Some 500%N; Some 500%N].
Proof.
  exists ex_env, ex_open_server, (exchange ex_env ex_open_server (bare (B "PUT") (B "/bkt")) empty_store).1.
  split_and!; vm_compute; reflexivity.
Qed.
Print Assumptions C88_internal_refuted.

(** ** Example *)

Example C88_ex :
  let s := (exchange ex_env ex_open_server (ex_put_object (B "/bkt/a/b") [] (B "x")) empty_store).1 in
  map (fun rq => answered (exchange ex_env ex_open_server rq s).2)
    [bare (B "HEAD") (B "/none"); bare (B "GET") (B "/bkt/a/c"); bare (B "HEAD") (B "/none/x"); bare (B "GET") (B "/bkt/a/b")] =
  [Some 404%N; Some 404%N; Some 404%N; Some 200%N].
Proof. vm_compute. reflexivity. Qed.
