(** The scope of every storage operation: which files and directories it may change. *)
From Verif Require Import M_Base M_Fs M_Storage S_Storage L_Base L_Fs L_Storage.

Definition no_own (i : N) : Prop := False.

(* Files a request may create, overwrite or remove. *)
Definition r_files (e : env) (r : s_req) (p : path) : Prop :=
  match r with
  | RCopyObject _ b k => get_object_path e b k = Some p \/ get_metadata_path e b k = Some p
  | RDeleteBucket b => exists q, get_bucket_path e b = Some q /\ q `prefix_of` p
  | RDeleteObject b k => get_object_path e b k = Some p
  | RDeleteObjects b ks => exists k, k ∈ ks /\ get_object_path e b k = Some p
  | RPutObject b k _ _ md _ => get_object_path e b k = Some p \/ (is_Some md /\ get_metadata_path e b k = Some p)
  | RUploadPart u n _ => part_path e u n = Some p
  | RCompleteMultipartUpload b k u ps =>
      get_object_path e b k = Some p \/
      exists l n, ps = Some l /\ Some n ∈ l /\ part_path e u n = Some p
  | _ => False
  end.

(* Directories a request may create. *)
Definition r_dirs (e : env) (r : s_req) (p : path) : Prop :=
  match r with
  | RCreateBucket b => get_bucket_path e b = Some p
  | RPutObject b k _ _ _ _ => exists q, get_object_path e b k = Some q /\ p `prefix_of` q
  | _ => False
  end.

(* Directories a request may remove. *)
Definition r_rmdirs (e : env) (r : s_req) (p : path) : Prop :=
  match r with
  | RDeleteBucket b => exists q, get_bucket_path e b = Some q /\ q `prefix_of` p
  | RDeleteObject b k => get_object_path e b k = Some p
  | _ => False
  end.

Section scopes.
  Context (e : env) (F D X : path -> Prop).

  Lemma scoped_try_path {A} o (k : path -> prog (sres A)) own :
    (forall p, o = Some p -> scoped F D X own (k p)) -> scoped F D X own (try_path o k).
  Proof. intros H. destruct o; [by apply H|done]. Qed.

  Lemma scoped_try_io {A B} (m : prog (option A)) (k : A -> prog (sres B)) own :
    scoped F D X own m ->
    (forall a (own' : N -> Prop), (forall i, own i -> own' i) -> scoped F D X own' (k a)) ->
    scoped F D X own (try_io m k).
  Proof.
    intros Hm Hk. unfold try_io. apply scoped_bind; [done|]. intros [a|] own' Ho; [by apply Hk|done].
  Qed.

  Lemma scoped_try_res {A B} (m : prog (sres A)) (k : A -> prog (sres B)) own :
    scoped F D X own m ->
    (forall a (own' : N -> Prop), (forall i, own i -> own' i) -> scoped F D X own' (k a)) ->
    scoped F D X own (try_res m k).
  Proof.
    intros Hm Hk. unfold try_res. apply scoped_bind; [done|]. intros [a|] own' Ho; [by apply Hk|done].
  Qed.

  (* Creating a file hands its inode to the continuation. *)
  Lemma scoped_create {B} p (k : option N -> prog B) own :
    F p -> (forall i, scoped F D X (fun j => own j \/ j = i) (k (Some i))) -> scoped F D X own (k None) ->
    scoped F D X own (bind (call (CCreate p)) k).
  Proof.
    intros HF Hs Hn. cbn. split; [done|]. intros [i|].
    - eapply scoped_weaken; [..|apply Hs]; eauto. intros j [Hj|Hj]; subst; auto.
    - eapply scoped_weaken; [..|apply Hn]; eauto.
  Qed.

  Lemma scoped_write_pieces i ps off (own : N -> Prop) : own i -> scoped F D X own (write_pieces i off ps).
  Proof.
    revert off. induction ps as [|b ps IH]; intros off Ho; [done|]. cbn. split; [done|].
    intros [[]|]; [by apply IH|done].
  Qed.

  Lemma scoped_copy_bytes i body off (own : N -> Prop) : own i -> scoped F D X own (copy_bytes e i off body).
  Proof.
    revert off own. induction body as [|[b|] body IH]; intros off own Ho; [done| |done]. cbn [copy_bytes].
    apply scoped_bind; [by apply scoped_write_pieces|]. intros [o|] own' Hown; [|done]. eauto.
  Qed.

  Lemma scoped_read_rest n h off own : scoped F D X own (read_rest n h off).
  Proof.
    revert off own. induction n as [|n IH]; intros off own; [done|]. cbn [read_rest bind call scoped].
    intros [[|a x]|]; [done| |done]. apply scoped_bind; [apply IH|]. by intros [c|] own' _.
  Qed.
  Lemma scoped_read_file p own : scoped F D X own (read_file p).
  Proof. cbn. intros [h|]; [|done]. intros n. apply scoped_read_rest. Qed.

  Lemma scoped_transfer n h i roff woff (own : N -> Prop) : own i -> scoped F D X own (transfer e n h roff i woff).
  Proof.
    revert roff woff own. induction n as [|n IH]; intros roff woff own Ho; [done|]. cbn [transfer bind call scoped].
    intros [[|a x]|]; [done| |done]. apply scoped_bind; [by apply scoped_write_pieces|]. intros [woff'|] own' H'; [|done]. apply IH. auto.
  Qed.
  Lemma scoped_append_file p i off (own : N -> Prop) : own i -> scoped F D X own (append_file e p i off).
  Proof. intros Ho. cbn. intros [h|]; [|done]. intros n. by apply scoped_transfer. Qed.

  Lemma scoped_write_file p b own : F p -> scoped F D X own (write_file e p b).
  Proof.
    intros HF. unfold write_file. apply scoped_create; [done| |done]. intros i.
    apply scoped_bind; [apply scoped_write_pieces; auto|]. by intros [] ? ?.
  Qed.

  Lemma scoped_copy_file src dst own : F dst -> scoped F D X own (copy_file e src dst).
  Proof.
    intros HF. unfold copy_file. cbn [bind call scoped]. intros [[p|i]|]; try done.
    apply scoped_create; [done| |done]. intros j. cbn [bind call scoped].
    intros n. apply scoped_bind; [apply scoped_transfer; auto|]. by intros [] ? ?.
  Qed.

  Lemma scoped_load_metadata b k own : scoped F D X own (load_metadata e b k).
  Proof.
    unfold load_metadata. destruct (get_metadata_path e b k) as [p|]; [|done].
    cbn [bind call scoped]. intros [|]; [|done]. apply scoped_bind; [apply scoped_read_file|].
    intros [c|] own' _; [|done]. by destruct (json_decode c).
  Qed.

  Lemma scoped_save_metadata b k m own :
    (forall p, get_metadata_path e b k = Some p -> F p) -> scoped F D X own (save_metadata e b k m).
  Proof.
    intros H. unfold save_metadata. destruct (get_metadata_path e b k) as [p|]; [|done].
    apply scoped_write_file. by apply H.
  Qed.

  Lemma scoped_get_md5_sum b k own : scoped F D X own (get_md5_sum e b k).
  Proof.
    unfold get_md5_sum. destruct (get_object_path e b k) as [p|]; [|done].
    apply scoped_bind; [apply scoped_read_file|]. by intros [c|] own' _.
  Qed.

  Lemma scoped_create_dir_all_rev rp own :
    (forall q, q `prefix_of` rev rp -> D q) -> scoped F D X own (create_dir_all_rev rp).
  Proof.
    revert own. induction rp as [|c rp IH]; intros own HD.
    - cbn. split; [apply HD; done|]. intros [| |]; try done. cbn. by intros [[[] ?]|].
    - cbn [create_dir_all_rev]. cbn [bind call]. cbn [scoped]. split; [by apply HD|].
      intros [| |]; try done.
      + apply scoped_bind.
        * apply IH. intros q Hq. apply HD. cbn [rev]. by apply prefix_app_r.
        * intros [u|] own' _; [|done]. cbn. split; [by apply HD|].
          intros [| |]; try done; cbn; by intros [[[] ?]|].
      + cbn. by intros [[[] ?]|].
  Qed.

  Lemma scoped_create_dir_all p own : (forall q, q `prefix_of` p -> D q) -> scoped F D X own (create_dir_all p).
  Proof. intros H. apply scoped_create_dir_all_rev. by rewrite rev_involutive. Qed.

  Lemma scoped_remove_dir_all fuel p own :
    (forall q, p `prefix_of` q -> F q) -> (forall q, p `prefix_of` q -> X q) ->
    scoped F D X own (remove_dir_all fuel p).
  Proof.
    revert p own. induction fuel as [|fuel IH]; intros p own HF HX; [done|].
    cbn [remove_dir_all bind call scoped]. intros [es|]; [|done].
    assert (Hp : forall c q, (p ++ [c]) `prefix_of` q -> p `prefix_of` q).
    { intros c q [r ->]. rewrite <- app_assoc. by apply prefix_app_r. }
    revert own. induction es as [|[c d] es IHes]; intros own.
    - cbn. split; [by apply HX|done].
    - apply scoped_bind.
      + destruct d; [apply IH; eauto|]. cbn. split; [|done]. apply HF. by apply prefix_app_r.
      + intros [u|] own' _; [|done]. apply IHes.
  Qed.

  Lemma scoped_existing_objects b keys own : scoped F D X own (existing_objects e b keys).
  Proof.
    revert own. induction keys as [|k keys IH]; intros own; [done|]. cbn [existing_objects].
    apply scoped_try_path. intros p _. cbn [bind call scoped]. intros ex.
    apply scoped_try_res; [apply IH|]. done.
  Qed.

  Lemma scoped_remove_objects l own : (forall x, x ∈ l -> F x.1) -> scoped F D X own (remove_objects l).
  Proof.
    revert own. induction l as [|[p k] l IH]; intros own H; [done|]. cbn [remove_objects].
    apply scoped_try_io.
    - cbn. split; [|done]. apply (H (p, k)). by left.
    - intros _ own' _. apply scoped_try_res; [|done]. apply IH. intros x Hx. apply H. by right.
  Qed.

  Lemma scoped_append_parts u i parts off cnt (own : N -> Prop) :
    own i -> (forall n p, Some n ∈ parts -> part_path e u n = Some p -> F p) ->
    scoped F D X own (append_parts e u i off cnt parts).
  Proof.
    revert off cnt own. induction parts as [|[n|] parts IH]; intros off cnt own Ho HF; [done| |done].
    cbn [append_parts]. destruct (negb _); [done|]. apply scoped_try_path. intros p Hp.
    apply scoped_try_io; [apply scoped_append_file; auto|]. intros off' own2 H2.
    apply scoped_try_io.
    - cbn. split; [|done]. eapply HF; [|exact Hp]. by left.
    - intros _ own3 H3. apply IH; [auto|]. intros m q Hm. apply HF. by right.
  Qed.

  Lemma scoped_bucket_entries es own : scoped F D X own (bucket_entries es).
  Proof.
    revert own. induction es as [|[c d] es IH]; intros own; [done|]. cbn [bucket_entries].
    destruct (_ && _); [|apply IH]. apply scoped_try_io; [done|]. intros _ own' _.
    apply scoped_try_res; [apply IH|done].
  Qed.

  Lemma scoped_list_entries root prefix dir es own : scoped F D X own (list_entries root prefix dir es).
  Proof.
    revert own. induction es as [|[c d] es IH]; intros own; [done|]. cbn [list_entries].
    destruct d; [apply scoped_try_res; [apply IH|done]|].
    destruct (key_text _ _) as [key|]; [|done]. destruct (match prefix with Some _ => _ | None => _ end); [|apply IH].
    apply scoped_try_io; [done|]. intros st own' _. destruct (_ <=? _)%N; [|done].
    apply scoped_try_res; [apply IH|done].
  Qed.

  Lemma scoped_list_queue fuel root prefix queue own : scoped F D X own (list_queue fuel root prefix queue).
  Proof.
    revert queue own. induction fuel as [|fuel IH]; intros [|dir queue] own; try done. cbn [list_queue].
    apply scoped_try_io; [done|]. intros es own1 _.
    apply scoped_try_res; [apply scoped_list_entries|]. intros r own2 _.
    apply scoped_try_res; [apply IH|done].
  Qed.

  Lemma scoped_get_extent h r len own : scoped F D X own (get_extent h r len).
  Proof.
    unfold get_extent. destruct r as [[a b|a]|]; [by destruct (_ <=? _)%N| |done].
    destruct (_ && _); [|done]. apply scoped_try_io; [done|]. intros n own' _. by destruct (_ <=? _)%N.
  Qed.
End scopes.

Lemma existing_objects_paths e b keys s s' l :
  run e (existing_objects e b keys) s = (s', Ok l) ->
  forall x, x ∈ l -> x.2 ∈ keys /\ get_object_path e b x.2 = Some x.1.
Proof.
  revert s s' l. induction keys as [|k keys IH]; intros s s' l; cbn [existing_objects].
  - intros [= <- <-] x Hx. by apply elem_of_nil in Hx.
  - unfold try_path. destruct (get_object_path e b k) as [p|] eqn:Hp; [|done].
    rewrite run_bind, run_call. cbn [exec].
    unfold try_res. rewrite run_bind. destruct (run e (existing_objects e b keys) s) as [s1 [l1|c]] eqn:E; [|done].
    cbn. intros [= <- <-] x Hx.
    assert (Hx' : x = (p, k) \/ x ∈ l1).
    { destruct (_ && _); [by apply elem_of_cons in Hx|by right]. }
    destruct Hx' as [-> |Hx']; [split; [by left|done]|].
    destruct (IH _ _ _ E x Hx'). split; [by right|done].
Qed.

(* As a scoped statement: the list handed on contains only listed keys. *)
Lemma scoped_existing_then {A} e F D X b keys (k : list (path * bytes) -> prog (sres A)) own :
  (forall l (own' : N -> Prop), (forall x, x ∈ l -> x.2 ∈ keys /\ get_object_path e b x.2 = Some x.1) ->
     scoped F D X own' (k l)) ->
  scoped F D X own (try_res (existing_objects e b keys) k).
Proof.
  revert k own. induction keys as [|key keys IH]; intros k own Hk; cbn [existing_objects].
  - cbn. apply Hk. intros x Hx. by apply elem_of_nil in Hx.
  - unfold try_path. destruct (get_object_path e b key) as [p|] eqn:Hp; [|done].
    cbn [call bind]. unfold try_res at 1. cbn [bind scoped]. intros ex.
    assert (Hassoc : forall (m : prog (sres (list (path * bytes)))) (g : list (path * bytes) -> list (path * bytes)),
      bind (try_res m (fun l => Ret (Ok (g l)))) (fun r => match r with Ok a => k a | Err c => Ret (Err c) end)
      = try_res m (fun l => k (g l)) \/ True) by by right.
    clear Hassoc. unfold try_res.
    specialize (IH (fun l => k (if ex : bool then (p, key) :: l else l)) own).
    assert (Hs : scoped F D X own (try_res (existing_objects e b keys)
       (fun l => k (if ex then (p, key) :: l else l)))).
    { apply IH. intros l own' Hl. apply Hk. intros x Hx.
      assert (Hx' : x = (p, key) \/ x ∈ l) by (destruct ex; [by apply elem_of_cons in Hx|by right]).
      destruct Hx' as [-> |Hx']; [split; [by left|done]|]. destruct (Hl x Hx'). split; [by right|done]. }
    revert Hs. unfold try_res. clear. revert own. generalize (existing_objects e b keys).
    intros m. induction m as [[l|c]|R c k' IHm]; intros own Hs; [exact Hs|done|].
    destruct c; cbn [bind scoped] in *; try (intros r; apply IHm; by apply Hs);
      (destruct Hs as [Hs1 Hs2]; split; [done|]; intros r; apply IHm; apply Hs2).
Qed.

(** Every operation stays in its scope. *)
Lemma scoped_storage e r : scoped (r_files e r) (r_dirs e r) (r_rmdirs e r) no_own (storage e r).
Proof.
  destruct r; cbn [storage].
  - (* create_bucket *)
    unfold create_bucket. apply scoped_try_path. intros p Hp. cbn [bind call scoped]. intros [|]; [done|].
    cbn. split; [done|]. by intros [].
  - (* copy_object *)
    unfold copy_object. destruct (copy_source_from_header_str copy_source) as [[sb sk]|]; [|done].
    apply scoped_try_path. intros src Hsrc. apply scoped_try_path. intros dst Hdst.
    apply scoped_try_io; [done|]. intros st own1 _.
    apply scoped_try_io; [apply scoped_copy_file; by left|]. intros u own2 _.
    apply scoped_try_path. intros smd Hsmd. cbn [bind call scoped]. intros ex.
    apply scoped_try_io.
    { destruct ex; [|done]. destruct (get_metadata_path e bucket key) as [q|] eqn:Hq; [|done].
      apply scoped_copy_file. by right. }
    intros u' own3 _. apply scoped_try_io; [apply scoped_get_md5_sum|done].
  - (* delete_bucket *)
    unfold delete_bucket. apply scoped_try_path. intros p Hp. cbn [bind call scoped]. intros n.
    apply scoped_try_io; [|done]. apply scoped_remove_dir_all; intros q Hq; by exists p.
  - (* delete_object *)
    unfold delete_object. apply scoped_try_path. intros p Hp. destruct (ends_with_char "/" key).
    + apply scoped_try_io; [done|]. intros [|] own1 _; [|done].
      apply scoped_try_io; [|done]. by cbn.
    + apply scoped_try_io; [|done]. by cbn.
  - (* delete_objects *)
    unfold delete_objects. apply scoped_existing_then. intros l own' Hl.
    apply scoped_try_res; [|done]. apply scoped_remove_objects. intros x Hx.
    destruct (Hl x Hx). by exists x.2.
  - unfold get_bucket_location. apply scoped_try_path. intros p Hp. done.
  - (* get_object *)
    unfold get_object. apply scoped_try_path. intros p Hp.
    assert (Hgo : forall r, scoped (r_files e (RGetObject bucket key range)) (r_dirs e (RGetObject bucket key range))
      (r_rmdirs e (RGetObject bucket key range)) no_own
      (bind (call (COpen p)) (fun o =>
        match o with
        | None => Ret (Err NoSuchKey)
        | Some h =>
            try_io (call (CLen h)) (fun file_len =>
            try_res (get_extent h r file_len) (fun ol =>
            try_io (load_metadata e bucket key) (fun md =>
            try_io (get_md5_sum e bucket key) (fun tag =>
              if (ol.2 <=? i64_max)%N then Ret (Ok (AGet h ol.1 ol.2 ol.2 md tag))
              else Ret (Err InternalError)))))
        end))).
    { intros r. cbn [bind call scoped]. intros [h|]; [|done]. apply scoped_try_io; [done|].
      intros len own1 _. apply scoped_try_res; [apply scoped_get_extent|]. intros ol own2 _.
      apply scoped_try_io; [apply scoped_load_metadata|]. intros md own3 _.
      apply scoped_try_io; [apply scoped_get_md5_sum|]. intros tag own4 _. by destruct (_ <=? _)%N. }
    destruct range as [str|]; [|apply Hgo]. destruct (range_from_header_str str); [apply Hgo|done].
  - unfold head_bucket. apply scoped_try_path. intros p Hp. done.
  - (* head_object *)
    unfold head_object. apply scoped_try_path. intros p Hp. cbn [bind call scoped]. intros [|]; [|done].
    apply scoped_try_io; [done|]. intros st own1 _. apply scoped_try_io; [apply scoped_load_metadata|].
    intros md own2 _. by destruct (_ <=? _)%N.
  - (* list_buckets *)
    unfold list_buckets. apply scoped_try_io; [done|]. intros es own1 _.
    apply scoped_try_res; [apply scoped_bucket_entries|done].
  - unfold list_objects. apply scoped_try_path. intros p Hp. cbn [bind call scoped]. intros n.
    apply scoped_try_res; [apply scoped_list_queue|done].
  - unfold list_objects. apply scoped_try_path. intros p Hp. cbn [bind call scoped]. intros n.
    apply scoped_try_res; [apply scoped_list_queue|done].
  - (* put_object *)
    unfold put_object. destruct (negb _); [done|]. destruct body as [body|]; [|done].
    destruct (ends_with_char "/" key).
    + case_bool_decide; [|done]. apply scoped_try_path. intros p Hp. apply scoped_try_io; [|done].
      apply scoped_create_dir_all. intros q Hq. by exists p.
    + apply scoped_try_path. intros p Hp. apply scoped_try_io.
      { destruct (parent p) as [[dir c]|] eqn:Epar; [|done]. apply parent_Some in Epar.
        apply scoped_create_dir_all. intros q Hq. exists p. split; [done|]. subst p. by apply prefix_app_r. }
      intros u own1 _. unfold try_io at 1. apply scoped_create; [by left| |done].
      intros i. apply scoped_try_io; [apply scoped_copy_bytes; auto|]. intros n own2 _.
      apply scoped_try_io; [|done]. destruct md as [m|]; [|done].
      apply scoped_save_metadata. intros q Hq. right. split; [by eexists|done].
  - done.
  - (* upload_part *)
    unfold upload_part. destruct body as [body|]; [|done]. apply scoped_try_path. intros p Hp.
    unfold try_io at 1. apply scoped_create; [done| |done]. intros i.
    apply scoped_try_io; [apply scoped_copy_bytes; auto|done].
  - (* complete_multipart_upload *)
    unfold complete_multipart_upload. destruct parts as [parts|]; [|done].
    apply scoped_try_path. intros p Hp. unfold try_io at 1. apply scoped_create; [by left| |done].
    intros i. apply scoped_try_res.
    + apply scoped_append_parts; [auto|]. intros n q Hn Hq. right. by exists parts, n.
    + intros off own1 _. apply scoped_try_io; [done|]. intros st own2 _.
      apply scoped_try_io; [apply scoped_get_md5_sum|done].
Qed.
