(** C41: every access of the storage stays inside its root directory. *)
From Verif Require Import M_Base M_Path M_Headers M_Chunked M_BytesStream M_Crypto M_Fs M_Json M_Utf8 M_Storage
  S_Path S_Headers S_Chunked S_Storage S_Store L_Base L_Fs L_Storage L_Scope L_Names L_Ops L_Results L_Tidy
  T_Store.

Local Opaque md5 etag_of json_decode json_encode metadata_name part_name.

(* How the operating system walks along path components: '..' leads to the parent, '.' and
   nothing stay where they are. *)
Definition walk (start p : path) : path :=
  fold_left (fun at_ c => if decide (c = B "..") then removelast at_
                          else if decide (c = [] \/ c = B ".") then at_ else at_ ++ [c]) p start.

(* A path, given relative to the storage root, that names something inside the root; no
   directory on the way is outside either, and no component hides a slash. *)
Definition inside (root p : path) : Prop :=
  Forall (fun c => "/"%char ∉ c) p /\
  forall q, q `prefix_of` p -> root `prefix_of` walk root q.

(* The path a system call names, if any; the others act on files opened before. *)
Definition call_path {R} (c : syscall R) : option path :=
  match c with
  | CExists p | CStat p | COpen p | CCreate p | CMkdir p | CUnlink p | CRmdir p | CReadDir p => Some p
  | CLen _ | CRead _ _ | CWrite _ _ _ | CCount | CBound _ => None
  end.

(* Every call in the program names a path with the property, provided directory listings
   contain only ordinary names. *)
Definition listing_ok {R} (c : syscall R) : R -> Prop :=
  match c in syscall R return R -> Prop with
  | CReadDir p => fun r => forall es, r = Some es -> Forall (fun x => segment_ok x.1) es
  | _ => fun _ => True
  end.
Fixpoint visits_to {A} (P : path -> Prop) (Q : A -> Prop) (m : prog A) : Prop :=
  match m with
  | Ret a => Q a
  | Do c k => (forall p, call_path c = Some p -> P p) /\ forall r, listing_ok c r -> visits_to P Q (k r)
  end.
Definition visits {A} (P : path -> Prop) (m : prog A) : Prop := visits_to P (fun _ => True) m.

Lemma visits_to_bind {A B} (P : path -> Prop) (Q : A -> Prop) (Q' : B -> Prop) (m : prog A) (f : A -> prog B) :
  visits_to P Q m -> (forall a, Q a -> visits_to P Q' (f a)) -> visits_to P Q' (bind m f).
Proof.
  intros Hm Hf. induction m as [a|R c k IH]; [by apply Hf|]. destruct Hm as [H1 H2]. split; [done|].
  intros r Hr. by apply IH, H2.
Qed.
Lemma visits_bind {A B} (P : path -> Prop) (m : prog A) (f : A -> prog B) :
  visits P m -> (forall a, visits P (f a)) -> visits P (bind m f).
Proof. intros Hm Hf. eapply visits_to_bind; [exact Hm|]. intros a _. apply Hf. Qed.
Lemma visits_call {R} (P : path -> Prop) (c : syscall R) : (forall p, call_path c = Some p -> P p) -> visits P (call c).
Proof. done. Qed.

(* The store only has ordinary names in it. *)
Definition named (s : fs) : Prop := forall p, is_Some (fs_nodes s !! p) -> Forall segment_ok p.

Lemma exec_listing e {R} (c : syscall R) s : named s -> listing_ok c (exec e c s).2.
Proof.
  intros Hs. destruct c; try done. cbn [listing_ok exec snd]. destruct (_ && _); [|done].
  intros es [= <-]. apply Forall_forall. intros [c d] Hin. apply elem_of_list_fmap in Hin as (c' & [= -> ->] & Hc).
  rewrite e_order_perm in Hc. apply elem_child_names, Hs, Forall_app in Hc as [_ Hc]. by inversion Hc.
Qed.

Lemma visits_steps e {A} (m : prog A) s s' m' : named s -> visits (Forall segment_ok) m ->
  steps e s m s' m' -> named s' /\ visits (Forall segment_ok) m'.
Proof.
  intros Hs Hm Hst. revert Hs Hm. induction Hst as [s m|s m s1 m1 s2 m2 Hstep Hst IH]; [done|]. intros Hs Hm.
  destruct m as [a|R c k]; [done|]. destruct Hm as [H1 H2]. destruct Hstep as [Hstep|Hstep].
  - pose proof (exec_listing e c s Hs) as Hl. pose proof (exec_new e c s) as Hn.
    destruct (exec e c s) as [s3 r]. injection Hstep as -> ->. cbn [fst snd] in *. apply IH; [|by apply H2].
    intros p Hp. destruct (Hn p Hp) as [?|[_ Hc]]; [by apply Hs|]. apply H1. destruct c; try done; by subst.
  - injection Hstep as -> ->. apply IH; [done|]. apply H2. by destruct c.
Qed.

(** The operations. *)
Local Notation ok := (Forall segment_ok).

Lemma v_call {R} (c : syscall R) : (forall p, call_path c = Some p -> ok p) -> visits ok (call c).
Proof. done. Qed.
Lemma v_path {A} o (k : path -> prog (sres A)) : (forall p, o = Some p -> ok p) ->
  (forall p, ok p -> visits ok (k p)) -> visits ok (try_path o k).
Proof. intros Ho Hk. destruct o as [p|]; [|done]. by apply Hk, Ho. Qed.
Lemma v_io {A B} (m : prog (option A)) (k : A -> prog (sres B)) : visits ok m -> (forall a, visits ok (k a)) ->
  visits ok (try_io m k).
Proof. intros Hm Hk. apply visits_bind; [done|]. by intros [a|]. Qed.
Lemma v_res {A B} (m : prog (sres A)) (k : A -> prog (sres B)) : visits ok m -> (forall a, visits ok (k a)) ->
  visits ok (try_res m k).
Proof. intros Hm Hk. apply visits_bind; [done|]. by intros [a|]. Qed.

Lemma v_object e b k p : get_object_path e b k = Some p -> ok p.
Proof. apply absolutize_segments. Qed.
Lemma v_bucket e b p : get_bucket_path e b = Some p -> ok p.
Proof. apply absolutize_segments. Qed.
Lemma v_meta e b k p : get_metadata_path e b k = Some p -> ok p.
Proof. apply absolutize_segments. Qed.
Lemma v_part e u n p : part_path e u n = Some p -> ok p.
Proof. apply absolutize_segments. Qed.

Lemma v_create_dir_all_rev rp : ok (rev rp) -> visits ok (create_dir_all_rev rp).
Proof.
  induction rp as [|c rp IH]; intros Hp.
  - cbn [create_dir_all_rev]. apply visits_bind; [apply v_call; by intros p [= <-]|].
    intros [| |]; [done|done|]. apply visits_bind; [apply v_call; by intros p [= <-]|]. by intros [[[] ?]|].
  - assert (Hst : visits ok (bind (call (CStat (rev (c :: rp)))) (fun st =>
       match st with Some (true, _) => Ret (Some tt) | _ => Ret None end))).
    { apply visits_bind; [apply v_call; by intros p [= <-]|]. by intros [[[] ?]|]. }
    cbn [create_dir_all_rev]. apply visits_bind; [apply v_call; by intros p [= <-]|].
    intros [| |]; [done| |done]. apply visits_bind.
    + apply IH. cbn [rev] in Hp. by apply Forall_app in Hp as [? _].
    + intros [u|]; [|done]. apply visits_bind; [apply v_call; by intros p [= <-]|]. by intros [| |].
Qed.
Lemma v_create_dir_all p : ok p -> visits ok (create_dir_all p).
Proof. intros Hp. apply v_create_dir_all_rev. by rewrite rev_involutive. Qed.

Lemma v_write_pieces i ps : forall off, visits ok (write_pieces i off ps).
Proof. induction ps as [|b ps IH]; intros off; [done|]. apply visits_bind; [by apply v_call|]. by intros [u|]. Qed.
Lemma v_copy_bytes e i body : forall off, visits ok (copy_bytes e i off body).
Proof.
  induction body as [|[b|] body IH]; intros off; [done| |done]. apply visits_bind; [apply v_write_pieces|]. by intros [u|].
Qed.
Lemma v_read_file p : ok p -> visits ok (read_file p).
Proof.
  intros Hp. apply visits_bind; [apply v_call; by intros q [= <-]|]. intros [h|]; [|done].
  apply visits_bind; [by apply v_call|]. intros n. generalize 0 at 1. induction n as [|n IH]; intros off; [done|]. cbn [read_rest].
  apply visits_bind; [by apply v_call|]. intros [[|a x]|]; [done| |done]. apply visits_bind; [apply IH|]. by intros [c|].
Qed.
Lemma v_transfer e n h i : forall roff woff, visits ok (transfer e n h roff i woff).
Proof.
  induction n as [|n IH]; intros roff woff; [done|]. cbn [transfer]. apply visits_bind; [by apply v_call|].
  intros [[|a x]|]; [done| |done]. apply visits_bind; [apply v_write_pieces|]. intros [o|]; [apply IH|done].
Qed.
Lemma v_append_file e p i off : ok p -> visits ok (append_file e p i off).
Proof.
  intros Hp. apply visits_bind; [apply v_call; by intros q [= <-]|]. intros [h|]; [|done].
  apply visits_bind; [by apply v_call|]. intros n. apply v_transfer.
Qed.
Lemma v_write_file e p b : ok p -> visits ok (write_file e p b).
Proof.
  intros Hp. apply visits_bind; [apply v_call; by intros q [= <-]|]. intros [i|]; [|done].
  apply visits_bind; [apply v_write_pieces|]. by intros [u|].
Qed.
Lemma v_load_metadata e b k : visits ok (load_metadata e b k).
Proof.
  unfold load_metadata. destruct (get_metadata_path e b k) as [p|] eqn:Hp; [|done]. apply v_meta in Hp.
  apply visits_bind; [apply v_call; by intros q [= <-]|]. intros [|]; [|done].
  apply visits_bind; [by apply v_read_file|]. intros [c|]; [|done]. by destruct (json_decode c).
Qed.
Lemma v_save_metadata e b k m : visits ok (save_metadata e b k m).
Proof.
  unfold save_metadata. destruct (get_metadata_path e b k) as [p|] eqn:Hp; [|done]. apply v_meta in Hp. by apply v_write_file.
Qed.
Lemma v_get_md5_sum e b k : visits ok (get_md5_sum e b k).
Proof.
  unfold get_md5_sum. destruct (get_object_path e b k) as [p|] eqn:Hp; [|done]. apply v_object in Hp.
  apply visits_bind; [by apply v_read_file|]. by intros [c|].
Qed.
Lemma v_copy_file e src dst : ok src -> ok dst -> visits ok (copy_file e src dst).
Proof.
  intros Hs Hd. apply visits_bind; [apply v_call; by intros q [= <-]|]. intros [[|i]|]; [done| |done].
  apply visits_bind; [apply v_call; by intros q [= <-]|]. intros [j|]; [|done].
  apply visits_bind; [by apply v_call|]. intros n. apply visits_bind; [apply v_transfer|]. by intros [u|].
Qed.
Lemma ok_snoc p c : ok p -> segment_ok c -> ok (p ++ [c]).
Proof. intros. apply Forall_app. split; [done|]. by constructor. Qed.

(* The answer of read_dir carries ordinary names. *)
Lemma v_readdir {A} p (f : option (list (bytes * bool)) -> prog A) : ok p -> visits ok (f None) ->
  (forall es, Forall (fun x => segment_ok x.1) es -> visits ok (f (Some es))) ->
  visits ok (bind (call (CReadDir p)) f).
Proof.
  intros Hp Hn Hf. cbn [bind call]. split; [by intros q [= <-]|]. intros [es|] Hr; [|done]. apply Hf. by apply Hr.
Qed.
Lemma v_remove_dir_all n : forall p, ok p -> visits ok (remove_dir_all n p).
Proof.
  induction n as [|n IH]; intros p Hp; [done|]. cbn [remove_dir_all]. apply v_readdir; [done|done|].
  intros es Hes. induction Hes as [|[c d] es Hc Hes IHes]; [apply v_call; by intros q [= <-]|].
  cbn in Hc. pose proof (ok_snoc p c Hp Hc). apply visits_bind; [|intros [u|]; [apply IHes|done]]. destruct d; [by apply IH|].
  apply v_call. by intros q [= <-].
Qed.
Lemma v_list_entries root prefix dir es : ok dir -> Forall (fun x => segment_ok x.1) es ->
  visits_to ok (fun r => forall x, r = Ok x -> Forall ok x.1) (list_entries root prefix dir es).
Proof.
  intros Hd. induction 1 as [|[c d] es Hc Hes IH]; [intros x [= <-]; constructor|]. cbn [list_entries]. destruct d.
  - eapply visits_to_bind; [exact IH|]. intros [r|] Hr; [|by intros x [=]]. intros x [= <-].
    constructor; [by apply ok_snoc|]. by apply Hr.
  - destruct (key_text root (dir ++ [c])); [|by intros x [=]].
    destruct (match prefix with Some x => _ | None => _ end); [|done].
    apply (visits_to_bind _ (fun _ => True)); [apply v_call; intros q [= <-]; by apply ok_snoc|].
    intros [st|] _; [|by intros x [=]]. destruct (_ <=? _)%N; [|by intros x [=]].
    eapply visits_to_bind; [exact IH|]. intros [r|] Hr; [|by intros x [=]]. intros x [= <-]. exact (Hr r eq_refl).
Qed.
Lemma v_list_queue n root prefix : forall queue, Forall ok queue -> visits ok (list_queue n root prefix queue).
Proof.
  induction n as [|n IH]; intros [|dir queue] Hq; [done..|]. cbn [list_queue]. inversion Hq; subst.
  apply v_readdir; [done|done|]. intros es Hes.
  eapply visits_to_bind; [by apply v_list_entries|]. intros [r|] Hr; [|done].
  apply v_res; [|done]. apply IH. apply Forall_app. split; [done|]. by apply Hr.
Qed.
Lemma v_bucket_entries es : Forall (fun x => segment_ok x.1) es -> visits ok (bucket_entries es).
Proof.
  induction 1 as [|[c d] es Hc Hes IH]; [done|]. cbn [bucket_entries]. destruct (_ && _); [|done].
  apply v_io; [apply v_call; intros q [= <-]; by constructor|]. intros st. by apply v_res.
Qed.
Lemma v_existing e b ks : visits_to ok (fun r => forall l, r = Ok l -> Forall (fun x => ok x.1) l) (existing_objects e b ks).
Proof.
  induction ks as [|k ks IH]; [intros l [= <-]; constructor|]. cbn [existing_objects].
  destruct (get_object_path e b k) as [p|] eqn:Hp; [|by intros l [=]]. apply v_object in Hp. cbn [try_path].
  apply (visits_to_bind _ (fun _ => True)); [apply v_call; by intros q [= <-]|]. intros ex _.
  eapply visits_to_bind; [exact IH|]. intros [l|] Hl; [|by intros x [=]]. intros x [= <-]. destruct ex; [|by apply Hl].
  constructor; [done|]. by apply Hl.
Qed.
Lemma v_remove_objects l : Forall (fun x => ok x.1) l -> visits ok (remove_objects l).
Proof.
  induction 1 as [|[p k] l Hp Hl IH]; [done|]. cbn [remove_objects]. apply v_io; [apply v_call; by intros q [= <-]|].
  intros _. by apply v_res.
Qed.
Lemma v_append_parts e u i parts : forall off cnt, visits ok (append_parts e u i off cnt parts).
Proof.
  induction parts as [|[n|] parts IH]; intros off cnt; [done| |done]. cbn [append_parts]. destruct (negb _); [done|].
  apply v_path; [apply v_part|]. intros p Hp. apply v_io; [by apply v_append_file|].
  intros off'. apply v_io; [apply v_call; by intros q [= <-]|]. intros _. apply IH.
Qed.
Lemma v_get_extent h r n : visits ok (get_extent h r n).
Proof.
  destruct r as [[f l|l]|]; cbn [get_extent]; [by destruct (_ <=? _)%N| |done]. destruct (_ && _); [|done].
  apply v_io; [by apply v_call|]. intros len. by destruct (_ <=? _)%N.
Qed.

Lemma storage_visits e r : visits ok (storage e r).
Proof.
  assert (Hc : forall {R} (c : syscall R) p, ok p -> call_path c = Some p -> visits ok (call c)).
  { intros R c p Hp Hc. apply v_call. intros q Hq. rewrite Hc in Hq. by injection Hq as <-. }
  destruct r; cbn [storage].
  - apply v_path; [apply v_bucket|]. intros p Hp. apply visits_bind; [eapply Hc; [|reflexivity]; done|]. intros [|]; [done|].
    apply visits_bind; [eapply Hc; [|reflexivity]; done|]. by intros [| |].
  - unfold copy_object. destruct (copy_source_from_header_str copy_source) as [[sb sk]|]; [|done].
    apply v_path; [apply v_object|]. intros src Hsrc. apply v_path; [apply v_object|]. intros dst Hdst.
    apply v_io; [eapply Hc; [|reflexivity]; done|]. intros _. apply v_io; [by apply v_copy_file|]. intros _.
    apply v_path; [apply v_meta|]. intros sm Hsm. apply visits_bind; [eapply Hc; [|reflexivity]; done|]. intros ex.
    apply v_io.
    + destruct ex; [|done]. destruct (get_metadata_path e bucket key) as [dm|] eqn:Hdm; [|done].
      apply v_meta in Hdm. by apply v_copy_file.
    + intros _. apply v_io; [apply v_get_md5_sum|done].
  - apply v_path; [apply v_bucket|]. intros p Hp. apply visits_bind; [by apply v_call|]. intros n.
    apply v_io; [by apply v_remove_dir_all|done].
  - apply v_path; [apply v_object|]. intros p Hp. destruct (ends_with_char _ _).
    + apply v_readdir; [done|done|]. intros [|x es] _; [|done]. apply v_io; [eapply Hc; [|reflexivity]; done|done].
    + apply v_io; [eapply Hc; [|reflexivity]; done|done].
  - unfold delete_objects. eapply visits_to_bind; [apply v_existing|]. intros [l|] Hl; [|done].
    apply v_res; [|done]. apply v_remove_objects. by apply Hl.
  - apply v_path; [apply v_bucket|]. intros p Hp. apply visits_bind; [eapply Hc; [|reflexivity]; done|]. by intros [|].
  - apply v_path; [apply v_object|]. intros p Hp.
    assert (Hgo : forall r, visits ok (bind (call (COpen p)) (fun o =>
        match o with
        | None => Ret (Err NoSuchKey)
        | Some h =>
            try_io (call (CLen h)) (fun file_len =>
            try_res (get_extent h r file_len) (fun ol =>
            try_io (load_metadata e bucket key) (fun md =>
            try_io (get_md5_sum e bucket key) (fun tag =>
              if (ol.2 <=? i64_max)%N then Ret (Ok (AGet h ol.1 ol.2 ol.2 md tag))
              else Ret (Err InternalError)))))
        end))).
    { intros r. apply visits_bind; [eapply Hc; [|reflexivity]; done|]. intros [h|]; [|done]. apply v_io; [by apply v_call|]. intros n.
      apply v_res; [apply v_get_extent|]. intros ol. apply v_io; [apply v_load_metadata|]. intros md.
      apply v_io; [apply v_get_md5_sum|]. intros tag. by destruct (_ <=? _)%N. }
    destruct range as [str|]; [|apply Hgo]. destruct (range_from_header_str str); [apply Hgo|done].
  - apply v_path; [apply v_bucket|]. intros p Hp. apply visits_bind; [eapply Hc; [|reflexivity]; done|]. by intros [|].
  - apply v_path; [apply v_object|]. intros p Hp. apply visits_bind; [eapply Hc; [|reflexivity]; done|]. intros [|]; [|done].
    apply v_io; [eapply Hc; [|reflexivity]; done|]. intros st. apply v_io; [apply v_load_metadata|]. intros md. by destruct (_ <=? _)%N.
  - apply v_readdir; [by constructor|done|]. intros es Hes. apply v_res; [by apply v_bucket_entries|done].
  - apply v_path; [apply v_bucket|]. intros p Hp. apply visits_bind; [by apply v_call|]. intros n.
    apply v_res; [|done]. apply v_list_queue. by constructor.
  - apply v_path; [apply v_bucket|]. intros p Hp. apply visits_bind; [by apply v_call|]. intros n.
    apply v_res; [|done]. apply v_list_queue. by constructor.
  - unfold put_object. destruct (negb _); [done|]. destruct body as [body|]; [|done]. destruct (ends_with_char _ _).
    + case_bool_decide; [|done]. apply v_path; [apply v_object|]. intros p Hp.
      apply v_io; [by apply v_create_dir_all|done].
    + apply v_path; [apply v_object|]. intros p Hp. apply v_io.
      { destruct (parent p) as [[dir c]|] eqn:Ep; [|done]. apply parent_Some in Ep as ->. apply v_create_dir_all.
        by apply Forall_app in Hp as [? _]. }
      intros _. apply v_io; [eapply Hc; [|reflexivity]; done|]. intros i. apply v_io; [apply v_copy_bytes|]. intros off.
      apply v_io; [|done]. destruct md as [m|]; [apply v_save_metadata|done].
  - done.
  - unfold upload_part. destruct body as [body|]; [|done]. apply v_path; [apply v_part|]. intros p Hp.
    apply v_io; [eapply Hc; [|reflexivity]; done|]. intros i. apply v_io; [apply v_copy_bytes|done].
  - unfold complete_multipart_upload. destruct parts as [parts|]; [|done]. apply v_path; [apply v_object|]. intros p Hp.
    apply v_io; [eapply Hc; [|reflexivity]; done|]. intros i. apply v_res; [apply v_append_parts|]. intros n.
    apply v_io; [eapply Hc; [|reflexivity]; done|]. intros st. apply v_io; [apply v_get_md5_sum|done].
Qed.

Lemma walk_ok root p : ok p -> walk root p = root ++ p.
Proof.
  intros Hp. revert root. induction Hp as [|c p (H1 & H2 & H3 & H4) Hp IH]; intros root; [by rewrite app_nil_r|].
  unfold walk. cbn [fold_left]. rewrite decide_False, decide_False by naive_solver. fold (walk (root ++ [c]) p).
  rewrite IH. by rewrite <- app_assoc.
Qed.
Lemma ok_inside root p : ok p -> inside root p.
Proof.
  intros Hp. split; [eapply Forall_impl; [done|]; by intros c (_ & _ & _ & ?)|].
  intros q Hq. rewrite walk_ok by by eapply prefix_Forall. by eexists.
Qed.

(** C41: whatever the request, at every moment of its execution (also with failing system
    calls), the path of the next system call is inside the root. *)
Theorem C41_confined e r s s' R (c : syscall R) k p : named s ->
  steps e s (storage e r) s' (Do c k) -> call_path c = Some p -> inside (e_root e) p.
Proof.
  intros Hs Hst Hp. destruct (visits_steps e _ s s' _ Hs (storage_visits e r) Hst) as [_ [Hv _]].
  by apply ok_inside, Hv.
Qed.
Print Assumptions C41_confined.

(* The hypothesis holds in the empty store and at every moment afterwards. *)
Theorem C41_named_kept e r s s' m' : named s -> steps e s (storage e r) s' m' -> named s'.
Proof. intros Hs Hst. by destruct (visits_steps e _ s s' _ Hs (storage_visits e r) Hst). Qed.
Print Assumptions C41_named_kept.

Lemma named_empty : named empty_store.
Proof. intros p [n Hn]. cbn in Hn. apply lookup_singleton_Some in Hn as [<- _]. constructor. Qed.

(* Climbing out ends at the root; absolute keys outside the root are refused. *)
Example ex_confined :
  get_object_path ex_env (B "photos") (B "../../../etc/passwd") = Some [B "etc"; B "passwd"] /\
  get_object_path ex_env (B "photos") (B "/etc/passwd") = None /\
  get_object_path ex_env (B "photos") (B "/srv/data/x/../y") = Some [B "y"] /\
  ~ inside [B "srv"; B "data"] [B "photos"; B ".."; B ".."; B "etc"].
Proof.
  split_and!; try by vm_compute. intros [_ H]. specialize (H [B "photos"; B ".."; B ".."; B "etc"] ltac:(done)).
  destruct H as [x Hx]. vm_compute in Hx. done.
Qed.
