(** C85: a refusal has no effect. *)
From Verif Require Import M_Base M_Path M_Headers M_Chunked M_BytesStream M_Crypto M_Multipart M_Fs M_Json M_Utf8 M_Http M_Auth M_Storage M_Ops M_Service
  S_Path S_Headers S_Chunked S_Storage S_Store S_Http L_Base L_Fs L_Storage L_Scope T_Store T_Auth T_Http.

Local Opaque md5 etag_of json_decode json_encode metadata_name part_name.

(** ** The specification *)

(* The calls that change the disk. *)
Definition changing {R} (c : syscall R) : bool :=
  match c with
  | CCreate _ | CWrite _ _ _ | CMkdir _ | CUnlink _ | CRmdir _ => true
  | CExists _ | CStat _ | COpen _ | CLen _ | CRead _ _ | CReadDir _ | CCount | CBound _ => false
  end.

(* A task runs to its end, with any results of its calls: whatever other tasks do meanwhile and
   whatever fails.  The list says of each call whether it changes the disk. *)
Fixpoint plays {A} (m : prog A) (tr : list bool) (a : A) : Prop :=
  match m with
  | Ret x => tr = [] /\ a = x
  | Do c k => exists r tr', tr = changing c :: tr' /\ plays (k r) tr' a
  end.

(* No call changed anything. *)
Definition quiet (tr : list bool) : Prop := Forall (fun b => b = false) tr.

(** ** Refusals come first *)

(* No way to a refusal: every end is a success or an internal error. *)
Fixpoint committed {A} (m : prog (sres A)) : Prop :=
  match m with
  | Ret (Err c) => c = InternalError
  | Ret (Ok _) => True
  | Do c k => forall r, committed (k r)
  end.
(* After the first change there is no way to a refusal. *)
Fixpoint prudent {A} (m : prog (sres A)) : Prop :=
  match m with
  | Ret _ => True
  | Do c k => forall r, if changing c then committed (k r) else prudent (k r)
  end.

Lemma committed_plays {A} (m : prog (sres A)) tr c : committed m -> plays m tr (Err c) -> c = InternalError.
Proof.
  revert tr. induction m as [a|R c' k IH]; intros tr Hm; cbn [plays committed] in *.
  - intros [_ <-]. done.
  - intros (r & tr' & _ & Hp). by apply (IH r tr').
Qed.
Lemma prudent_plays {A} (m : prog (sres A)) tr c : prudent m -> plays m tr (Err c) -> c <> InternalError -> quiet tr.
Proof.
  revert tr. induction m as [a|R c' k IH]; intros tr Hm; cbn [plays prudent] in *.
  - intros [-> _] _. constructor.
  - intros (r & tr' & -> & Hp) Hc. specialize (Hm r). destruct (changing c') eqn:Ec.
    + by apply (committed_plays _ _ _ Hm) in Hp.
    + constructor; [done|]. by apply (IH r).
Qed.

Lemma committed_prudent {A} (m : prog (sres A)) : committed m -> prudent m.
Proof. induction m as [a|R c k IH]; [done|]. cbn. intros H r. destruct (changing c); auto. Qed.

Lemma committed_bind {A B} (m : prog A) (f : A -> prog (sres B)) : (forall a, committed (f a)) -> committed (bind m f).
Proof. intros Hf. induction m as [a|R c k IH]; [apply Hf|]. cbn. intros r. apply IH. Qed.
Lemma committed_io {A B} (m : prog (option A)) (f : A -> prog (sres B)) : (forall a, committed (f a)) -> committed (try_io m f).
Proof. intros Hf. apply committed_bind. intros [a|]; [apply Hf|done]. Qed.
Lemma committed_path {A} o (f : path -> prog (sres A)) : (forall p, committed (f p)) -> committed (try_path o f).
Proof. intros Hf. destruct o; [apply Hf|done]. Qed.
Lemma committed_res {A B} (m : prog (sres A)) (f : A -> prog (sres B)) : committed m -> (forall a, committed (f a)) -> committed (try_res m f).
Proof.
  intros Hm Hf. unfold try_res. induction m as [[a|c]|R c k IH]; [apply Hf|done|]. cbn in *. intros r. apply IH. apply Hm.
Qed.

(* Programs that change nothing. *)
Fixpoint looks {A} (m : prog A) : Prop :=
  match m with
  | Ret _ => True
  | Do c k => changing c = false /\ forall r, looks (k r)
  end.
Lemma looks_prudent {A} (m : prog (sres A)) : looks m -> prudent m.
Proof. induction m as [a|R c k IH]; [done|]. cbn. intros [-> H] r. auto. Qed.
Lemma prudent_bind {A B} (m : prog A) (f : A -> prog (sres B)) : looks m -> (forall a, prudent (f a)) -> prudent (bind m f).
Proof.
  intros Hm Hf. induction m as [a|R c k IH]; [apply Hf|]. cbn in *. destruct Hm as [-> Hm]. intros r. auto.
Qed.
Lemma prudent_io {A B} (m : prog (option A)) (f : A -> prog (sres B)) : looks m -> (forall a, prudent (f a)) -> prudent (try_io m f).
Proof. intros Hm Hf. apply prudent_bind; [done|]. intros [a|]; [apply Hf|done]. Qed.
Lemma prudent_res {A B} (m : prog (sres A)) (f : A -> prog (sres B)) : looks m -> (forall a, prudent (f a)) -> prudent (try_res m f).
Proof. intros Hm Hf. apply prudent_bind; [done|]. intros [a|]; [apply Hf|done]. Qed.
Lemma prudent_path {A} o (f : path -> prog (sres A)) : (forall p, prudent (f p)) -> prudent (try_path o f).
Proof. intros Hf. destruct o; [apply Hf|done]. Qed.

Lemma scoped_looks {A} (m : prog A) own : (forall i, ~ own i) ->
  scoped (fun _ => False) (fun _ => False) (fun _ => False) own m -> looks m.
Proof.
  intros Ho. induction m as [a|R c k IH]; [done|]. destruct c; cbn [scoped looks changing]; intros H; try (split; [done|]; intros r; by apply IH);
    try (by destruct H as [[] _]). destruct H as [Hi _]. by apply Ho in Hi.
Qed.

Lemma committed_append e u i off cnt parts : committed (append_parts e u i off cnt parts).
Proof.
  revert off cnt. induction parts as [|[n|] parts IH]; intros off cnt; [done| |done]. cbn [append_parts].
  destruct (negb _); [done|]. apply committed_path. intros p. apply committed_io. intros off'.
  apply committed_io. intros _. apply IH.
Qed.

Lemma prudent_storage e r : prudent (storage e r).
Proof.
  assert (Hl : (forall p, ~ r_files e r p) -> (forall p, ~ r_dirs e r p) -> (forall p, ~ r_rmdirs e r p) -> prudent (storage e r)).
  { intros H1 H2 H3. apply looks_prudent, (scoped_looks _ no_own); [by intros i []|].
    eapply scoped_weaken; [..|apply scoped_storage]; [by intros p ?%H1|by intros p ?%H2|by intros p ?%H3|done]. }
  destruct r; try (apply Hl; intros p H; exact H); clear Hl; cbn [storage].
  - (* create bucket *)
    apply prudent_path. intros p. apply prudent_bind; [by cbn|]. intros [|]; [done|]. cbn. by intros [| |].
  - (* copy *)
    unfold copy_object. destruct (copy_source_from_header_str copy_source) as [[sb sk]|]; [|done].
    apply prudent_path. intros src. apply prudent_path. intros dst. apply prudent_io; [by cbn|]. intros _.
    apply committed_prudent, committed_io. intros _. apply committed_path. intros md. apply committed_bind. intros ex.
    apply committed_io. intros _. apply committed_io. done.
  - (* delete bucket *)
    apply prudent_path. intros p. apply prudent_bind; [by cbn|]. intros n. apply committed_prudent, committed_io. done.
  - (* delete object *)
    apply prudent_path. intros p. apply committed_prudent. destruct (ends_with_char "/" key); apply committed_io; [|done].
    intros [|]; [|done]. by apply committed_io.
  - apply prudent_res.
    + clear. induction keys as [|key keys IH]; [done|]. cbn [existing_objects]. unfold try_path.
      destruct (get_object_path e bucket key); [|done]. cbn. split; [done|]. intros ex. unfold try_res.
      revert IH. generalize (existing_objects e bucket keys). intros m. induction m as [[a|c]|R c k IH]; [done|done|].
      cbn. intros [-> H]. split; [done|]. intros r. by apply IH.
    + intros l. apply committed_prudent, committed_res; [|done]. induction l as [|[p key] l IH]; [done|]. cbn [remove_objects].
      apply committed_io. intros _. by apply committed_res.
  - (* put *)
    unfold put_object. destruct (negb _); [done|]. destruct body as [body|]; [|done].
    destruct (ends_with_char "/" key).
    + destruct (bool_decide _); [|done]. apply prudent_path. intros p. apply committed_prudent, committed_io. done.
    + apply prudent_path. intros p. apply committed_prudent. apply committed_io. intros _. apply committed_io. intros i.
      apply committed_io. intros off. apply committed_io. done.
  - (* upload part *)
    unfold upload_part. destruct body as [body|]; [|done]. apply prudent_path. intros p. apply committed_prudent.
    apply committed_io. intros i. apply committed_io. done.
  - (* complete *)
    unfold complete_multipart_upload. destruct parts as [parts|]; [|done]. apply prudent_path. intros p. apply committed_prudent.
    apply committed_io. intros i. apply committed_res; [apply committed_append|]. intros _. apply committed_io. intros _.
    apply committed_io. done.
Qed.

(** C85, part 1: whatever the calls return, whatever other tasks do meanwhile: a request that the
    storage refuses (ends with an error other than InternalError) has not made a single call that
    changes the disk. *)
Theorem C85_storage_refusal e r tr code : plays (storage e r) tr (Err code) -> code <> InternalError -> quiet tr.
Proof. apply prudent_plays, prudent_storage. Qed.
Print Assumptions C85_storage_refusal.


Lemma plays_bind {A B} (m : prog A) (f : A -> prog B) tr b : plays (bind m f) tr b ->
  exists t1 t2 a, tr = t1 ++ t2 /\ plays m t1 a /\ plays (f a) t2 b.
Proof.
  revert tr. induction m as [a|R c k IH]; intros tr H; [by exists [], tr, a|].
  cbn in H. destruct H as (r & tr' & -> & H). destruct (IH r tr' H) as (t1 & t2 & a & -> & H1 & H2).
  exists (changing c :: t1), t2, a. split; [done|]. split; [|done]. by exists r, t1.
Qed.

Lemma plays_run e {A} (m : prog A) s : exists tr, plays m tr (run e m s).2 /\ (quiet tr -> (run e m s).1 = s).
Proof.
  revert s. induction m as [a|R c k IH]; intros s; [by exists []|]. cbn [run plays].
  destruct (exec e c s) as [s' r] eqn:E. destruct (IH r s') as (tr & Hp & Hq). exists (changing c :: tr).
  split; [by exists r, tr|]. intros H. apply Forall_cons in H as [Hc H]. rewrite (Hq H).
  destruct c; cbn [changing exec] in *; try done; try (by injection E as <- _);
    destruct h; by injection E as <- _.
Qed.

Lemma respond_ok_status op c a :
  match respond_ok op c a with Ok x => rs_status x = 200%N \/ rs_status x = 204%N | Err code => code = InternalError end.
Proof.
  assert (Hw : forall hs b, match wrap hs 200 b with Ok x => rs_status x = 200%N \/ rs_status x = 204%N | Err code => code = InternalError end).
  { intros [hs|] b; cbn; auto. }
  destruct op, a; cbn [respond_ok]; first [apply Hw|cbn; by auto].
Qed.

(** C85, part 2: over HTTP, a reply with a status from 400 to 499 means that the request has changed
    nothing, whatever happened at the same time. *)
Theorem C85_client_error e sv rq tr resp : plays (service e sv rq) tr (Replied resp) ->
  (400 <= rs_status resp < 500)%N -> quiet tr.
Proof.
  unfold service. destruct (front sv rq) as [code| |op c r].
  - intros [-> _] _. constructor.
  - by intros [_ ?].
  - intros (t1 & t2 & a & -> & Hp & [-> Hr])%plays_bind Hst. rewrite app_nil_r.
    destruct a as [a|code].
    + exfalso. cbn [respond] in Hr. pose proof (respond_ok_status op c a) as Hs. destruct (respond_ok op c a) as [x|code]; cbn [reply_of] in Hr; injection Hr as ->; [lia|]. subst code. vm_compute in Hst. by destruct Hst.
    + cbn in Hr. injection Hr as ->. apply (C85_storage_refusal e r t1 code Hp). intros ->. vm_compute in Hst. by destruct Hst.
Qed.
Print Assumptions C85_client_error.

Corollary C85_client_error_store e sv rq s s' resp : exchange e sv rq s = (s', Replied resp) ->
  (400 <= rs_status resp < 500)%N -> s' = s.
Proof.
  unfold exchange. intros Hx Hst. destruct (plays_run e (service e sv rq) s) as (tr & Hp & Hq). rewrite Hx in *.
  symmetry. rewrite <- Hq; [done|]. by eapply C85_client_error.
Qed.
Print Assumptions C85_client_error_store.

(** ** The limits *)

(* An operating system whose file names have at most 255 bytes. *)
Definition short_names (p : path) : bool := forallb (fun c => Nat.leb (length c) 255) p.
Lemma short_names_prefix p q : short_names (p ++ q) = true -> short_names p = true.
Proof. unfold short_names. rewrite forallb_app, andb_true_iff. tauto. Qed.
Definition linux_env : env := {|
  e_root := [B "srv"; B "data"]; e_os_ok := short_names; e_order := fun _ l => l;
  e_dir_len := fun _ => 4096%N; e_chop := fun d => [take 3 d; drop 3 d]; e_rounds := 0;
  e_os_prefix := short_names_prefix; e_order_perm := fun _ l => Permutation_refl l;
  e_chop_concat := fun d => ltac:(by cbn; rewrite app_nil_r, take_drop) |}.
Definition long_key : bytes := replicate 100 "k"%char ++ B "/" ++ replicate 100 "k"%char.

(** C85: an internal error need not be without effect.  A complete upload with metadata, to a key of
    201 bytes where 255 bytes are allowed in a name, is answered with status 500; but the old content
    of the object is gone and the new one is there. *)
Theorem C85_internal_error_refuted : exists e sv rq s s' resp,
  exchange e sv rq s = (s', Replied resp) /\ rs_status resp = 500%N /\ (forall f, f ∈ rq_body rq -> exists d, f = FData d) /\
  content s [B "bkt"; replicate 100 "k"%char; replicate 100 "k"%char] = Some (B "old") /\
  content s' [B "bkt"; replicate 100 "k"%char; replicate 100 "k"%char] = Some (B "new").
Proof.
  pose (put hs d := ex_put_object (B "/bkt/" ++ long_key) hs d).
  pose (s := (exchange linux_env ex_open_server (put [] (B "old")) empty_store).1).
  pose (rq := put [(B "x-amz-meta-owner", B "me")] (B "new")).
  exists linux_env, ex_open_server, rq, s, (exchange linux_env ex_open_server rq s).1, (error_response InternalError).
  split; [apply pair_of_snd; vm_compute; reflexivity|]. split; [vm_compute; reflexivity|].
  split; [intros f ->%elem_of_list_singleton; eauto|]. split; vm_compute; reflexivity.
Qed.
Print Assumptions C85_internal_error_refuted.

(** ** Example *)

(* An upload over an object with an unknown storage class. *)
Example C85_ex :
  let put := ex_put_object (B "/bkt/a") [] (B "one") in
  let bad := ex_put_object (B "/bkt/a") [(B "x-amz-storage-class", B "NONE")] (B "two") in
  let s := (exchange ex_env ex_open_server put empty_store).1 in
  let r := (exchange ex_env ex_open_server bad s).2 in
  match r with Replied resp => rs_status resp | Panicked => 0%N end = 400%N /\
  content s [B "bkt"; B "a"] = Some (B "one").
Proof. cbv zeta. split; vm_compute; reflexivity. Qed.
