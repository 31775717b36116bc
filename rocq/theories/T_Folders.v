(** C56: which keys an object can be created under, depending on the way it is created. *)
From Verif Require Import M_Base M_Path M_Headers M_Chunked M_BytesStream M_Crypto M_Fs M_Json M_Utf8 M_Storage
  S_Path S_Headers S_Chunked S_Storage S_Store S_Map L_Base L_Headers L_Fs L_Storage L_Scope L_Names L_Json L_Ops
  L_Results L_Path T_Store T_Copy T_Etag T_Uploads L_MapOps.

Local Opaque md5 etag_of json_decode json_encode metadata_name part_name.

(* Nothing on the way to [p] is a file, and [p] itself is not a folder. *)
Definition room (e : env) (s : fs) (p : path) : Prop :=
  e_os_ok e p = true /\ fs_nodes s !! p <> Some NDir /\
  forall q i, q `prefix_of` p -> q <> p -> fs_nodes s !! q <> Some (NFile i).

(* The folder of [p] exists. *)
Definition folder_there (s : fs) (p : path) : Prop :=
  exists dir c, p = dir ++ [c] /\ fs_nodes s !! dir = Some NDir.

Lemma room_writable e s p : wf s -> writable e s p <-> room e s p /\ folder_there s p.
Proof.
  intros Hwf. split.
  - intros (Hos & Hnd & dir & c & -> & Hd). split; [|by exists dir, c]. split_and!; [done|done|].
    intros q i Hq Hne Hf.
    assert (Hqd : q `prefix_of` dir).
    { destruct Hq as [r Hr]. destruct r as [|x r _] using rev_ind; [by rewrite app_nil_r in Hr|].
      rewrite app_assoc in Hr. apply snoc_inj in Hr as [-> _]. by exists r. }
    destruct (decide (q = dir)) as [->|Hnd']; [congruence|].
    pose proof (wf_prefix s dir q Hwf ltac:(by eexists) Hqd Hnd'). congruence.
  - intros [(Hos & Hnd & _) Hf]. by split_and!.
Qed.

(* PutObject creates the missing folders. *)
Theorem C56_put_exact e s b k sc cl fs p : wf s -> legal_bucket b -> located b k p ->
  sc ∈ storage_classes -> broken fs = false ->
  (exists a, answer e (RPutObject b k sc cl None (Some fs)) s = Ok a) <-> room e s p.
Proof.
  intros Hwf Hb Hl Hsc Hbr.
  destruct (run_put e b k sc cl None fs p s Hwf (legal_bucket_segment _ Hb) Hl (proj2 (class_ok _) Hsc))
    as (dir & c & -> & Hdir & Hcase).
  unfold answer. cbn [storage]. destruct Hcase as [[Hno Hr]|(Hosd & Hnf & Hcase)].
  - rewrite Hr. cbn [snd]. split; [by intros [? ?]|]. intros (Hos & _ & Hq). exfalso. apply Hno.
    split; [exact (e_os_prefix e dir [c] Hos)|]. intros q i Hpre. apply Hq; [by apply prefix_app_r|].
    intros ->. destruct Hpre as [r Hpre]. apply (f_equal length) in Hpre. rewrite !app_length in Hpre. cbn in Hpre. lia.
  - cbn zeta in Hcase.
    set (s1 := set_nodes s (mkdirs dir (fs_nodes s))) in *.
    assert (Hwf1 : wf s1).
    { destruct (run_create_dir_all e dir s Hwf) as [(_ & _ & Hr)|[[] _]]; [|done].
      by eapply (wf_run' e _ _ _ _ Hr). }
    assert (Hp1 : fs_nodes s1 !! (dir ++ [c]) = fs_nodes s !! (dir ++ [c])).
    { cbn. rewrite mkdirs_lookup. rewrite decide_False; [done|]. intros [[r Hr] _]. apply (f_equal length) in Hr.
      rewrite !app_length in Hr. cbn in Hr. lia. }
    assert (Hd1 : fs_nodes s1 !! dir = Some NDir).
    { cbn. rewrite mkdirs_lookup. destruct (fs_nodes s !! dir) as [[|i]|] eqn:Ed.
      - by rewrite decide_False by (by intros [_ ?]).
      - exfalso. by eapply (Hnf dir i).
      - by rewrite decide_True by done. }
    assert (Hw : writable e s1 (dir ++ [c]) <-> room e s (dir ++ [c])).
    { split.
      - intros (Hos & Hnd & _). rewrite Hp1 in Hnd. split_and!; [done|done|]. intros q i Hpre Hne. apply Hnf.
        destruct Hpre as [r Hr]. destruct r as [|x r _] using rev_ind; [by rewrite app_nil_r in Hr|].
        rewrite app_assoc in Hr. apply snoc_inj in Hr as [-> _]. by exists r.
      - intros (Hos & Hnd & _). split; [done|]. rewrite Hp1. split; [done|]. by exists dir, c. }
    rewrite <- Hw, (create_writable e s1 (dir ++ [c]) Hwf1 ltac:(by destruct dir)).
    destruct (exec e (CCreate (dir ++ [c])) s1) as [s2 [i|]].
    + rewrite body_ok_broken, Hbr in Hcase. cbn [negb] in Hcase. rewrite Hcase. cbn [snd].
      split; intros _; eauto.
    + rewrite Hcase. cbn [snd]. split; [by intros [? ?]|by intros (? & ? & ?)].
Qed.
Print Assumptions C56_put_exact.

(* CopyObject does not. *)
Theorem C56_copy_exact e s sb sk ps c b k pd : wf s -> fs_nodes s !! [] = Some NDir -> intact s ->
  legal_bucket sb -> located sb sk ps -> legal_key sk -> LF ∉ sk -> e_os_ok e ps = true -> content s ps = Some c ->
  legal_bucket b -> located b k pd -> e_os_ok e [metadata_name b k] = true -> ps <> pd ->
  let r := RCopyObject (sb ++ B "/" ++ sk) b k in
  ((exists a, answer e r s = Ok a) <-> room e s pd /\ folder_there s pd) /\
  (forall err, answer e r s = Err err -> err = InternalError /\ after e r s = s).
Proof.
  intros Hwf Hroot Hint Hsb Hls Hlk Hlf Hoss Hcs Hb Hl Hosm Hpp r. rewrite <- room_writable by done.
  assert (Hps : get_object_path e sb sk = Some ps).
  { apply resolved_path; [by apply legal_bucket_segment|by apply located_resolved]. }
  assert (Hp : get_object_path e b k = Some pd).
  { apply resolved_path; [by apply legal_bucket_segment|by apply located_resolved]. }
  assert (Hnode : exists i, fs_nodes s !! ps = Some (NFile i)).
  { unfold content in Hcs. destruct (fs_nodes s !! ps) as [[|i]|]; [done|eauto|done]. }
  destruct Hnode as [i Hi].
  assert (HLF : LF ∉ sb ++ B "/" ++ sk).
  { intros Hin. apply elem_of_app in Hin as [Hin|Hin]; [|apply elem_of_cons in Hin as [?|?]; done].
    by apply (bucket_no_LF _ Hsb). }
  assert (Hne : pd <> []) by (destruct Hl as (? & _ & _ & _ & ->); done).
  rewrite (create_writable e s pd Hwf Hne).
  assert (Hbad : forall s1, exec e (CCreate pd) s = (s1, None) ->
            run e (storage e r) s = (s, Err InternalError)).
  { intros s1 E. subst r. cbn [storage]. unfold copy_object. rewrite copy_source_text by done.
    rewrite Hps, Hp. cbn [try_path]. rewrite run_try_io, run_call. cbn [exec]. rewrite Hoss, Hi. cbn [negb].
    rewrite run_try_io, run_copy_file, Hcs, Hoss, E. cbn [exec] in E.
    assert (s1 = s) as ->; [|done].
    destruct (negb _); [by injection E|]. destruct (fs_nodes s !! pd) as [[|?]|]; [by injection E|done|].
    destruct (parent pd) as [[q ?]|]; [|by injection E]. destruct (is_dir s q); [done|by injection E]. }
  assert (Hgood : writable e s pd -> exists s1 a, run e (storage e r) s = (s1, Ok a)).
  { intros Hw. subst r. cbn [storage]. unfold copy_object. rewrite copy_source_text by done.
    rewrite Hps, Hp. cbn [try_path]. rewrite run_try_io, run_call. cbn [exec]. rewrite Hoss, Hi. cbn [negb].
    rewrite run_try_io.
    destruct (copy_file_works e s ps pd c Hwf Hcs Hoss Hw) as [s1 E1].
    rewrite E1. destruct (copy_file_ok _ _ _ _ _ Hwf E1) as (c' & Hc & _ & _ & Hwf1 & Hdst & Hoth).
    rewrite metadata_path. cbn [try_path]. rewrite run_bind, run_exists, run_try_io, metadata_path.
    assert (Hm : forall b' k', fs_nodes s1 !! [metadata_name b' k'] = fs_nodes s !! [metadata_name b' k'] /\
                   content s1 [metadata_name b' k'] = content s [metadata_name b' k']).
    { intros b' k'. destruct (Hoth [metadata_name b' k']) as [? ?]; [|done].
      intros Heq. symmetry in Heq. by apply (located_not_meta _ _ _ _ _ Hl) in Heq. }
    destruct (Hm sb sk) as [Hms1 Hms2]. rewrite Hms1.
    assert (Hr : exists s2, run e (if e_os_ok e [metadata_name sb sk] &&
                 bool_decide (is_Some (fs_nodes s !! [metadata_name sb sk]))
               then copy_file e [metadata_name sb sk] [metadata_name b k] else Ret (Some ())) s1 = (s2, Some tt) /\
               content s2 ps = Some c).
    { destruct (Hoth ps Hpp) as [Hps1 _].
      destruct (e_os_ok e [metadata_name sb sk] && bool_decide (is_Some (fs_nodes s !! [metadata_name sb sk]))) eqn:Ee.
      - apply andb_true_iff in Ee as [Eo Eb]. apply bool_decide_eq_true in Eb as [n Hn].
        pose proof (Hint sb sk) as Hin. rewrite Hn in Hin. destruct n as [|j]; [done|].
        destruct Hin as (cm & _ & Hcm & _). destruct (Hm b k) as [Hmd1 Hmd2].
        assert (Hw' : writable e s1 [metadata_name b k]).
        { split; [done|]. split.
          - rewrite Hmd1. intros Heq. pose proof (Hint b k) as Hin. by rewrite Heq in Hin.
          - exists [], (metadata_name b k). split; [done|]. destruct (Hoth []) as [_ ->]; [|done].
            destruct Hl as (? & _ & _ & _ & ->). done. }
        rewrite <- Hms2 in Hcm.
        destruct (copy_file_works e s1 _ [metadata_name b k] cm Hwf1 Hcm Eo Hw') as [s2 E2]. exists s2. split; [done|].
        destruct (copy_file_ok _ _ _ _ _ Hwf1 E2) as (_ & _ & _ & _ & _ & _ & Ho2).
        destruct (Ho2 ps) as [-> _]; [by eapply located_not_meta|]. congruence.
      - exists s1. split; [done|]. congruence. }
    destruct Hr as (s2 & -> & Hps2). rewrite run_try_io, (run_get_md5 _ _ _ ps), Hoss, Hps2 by done. eauto. }
  destruct (exec e (CCreate pd) s) as [s1 [j|]] eqn:E.
  - destruct Hgood as (s2 & a & Hr); [apply (create_writable e s pd Hwf Hne); eauto|].
    unfold answer, after. rewrite Hr. cbn [fst snd]. split; [split; intros _; eauto|done].
  - specialize (Hbad s1 eq_refl). unfold answer, after. rewrite Hbad. cbn [fst snd].
    split; [split; [by intros [? ?]|by intros (? & ? & ?)]|]. by intros ? [= <-].
Qed.
Print Assumptions C56_copy_exact.

(* An object is copied to a key exactly when it could be uploaded there and the folder exists;
   the completion of a multipart upload likewise. *)
Theorem C56_copy_needs_folder_partial e s sb sk ps c b k pd fs : wf s -> fs_nodes s !! [] = Some NDir -> intact s ->
  legal_bucket sb -> located sb sk ps -> legal_key sk -> LF ∉ sk -> e_os_ok e ps = true -> content s ps = Some c ->
  legal_bucket b -> located b k pd -> e_os_ok e [metadata_name b k] = true -> ps <> pd -> broken fs = false ->
  (exists a, answer e (RCopyObject (sb ++ B "/" ++ sk) b k) s = Ok a) <->
  (exists a, answer e (RPutObject b k None None None (Some fs)) s = Ok a) /\ folder_there s pd.
Proof.
  intros Hwf Hroot Hint Hsb Hls Hlk Hlf Hoss Hcs Hb Hl Hosm Hpp Hbr.
  rewrite (C56_put_exact e s b k None None fs pd) by (try done; left).
  by apply (C56_copy_exact e s sb sk ps c b k pd).
Qed.
Print Assumptions C56_copy_needs_folder_partial.

Theorem C56_completion_needs_folder_partial e s b k u p cs fs : wf s -> legal_bucket b -> located b k p ->
  "/"%char ∉ u -> (forall j c, cs !! j = Some c -> holds e s u (Z.of_nat j + 1) c) -> broken fs = false ->
  (exists a, answer e (RCompleteMultipartUpload b k u (Some (in_order (length cs)))) s = Ok a) <->
  (exists a, answer e (RPutObject b k None None None (Some fs)) s = Ok a) /\ folder_there s p.
Proof.
  intros Hwf Hb Hl Hu Hh Hbr. rewrite (C56_put_exact e s b k None None fs p) by (try done; left).
  rewrite <- room_writable by done.
  destruct (C38_completion e s b k u p (in_order (length cs)) Hwf Hb (located_resolved _ _ _ Hl) Hu) as [Hc _].
  rewrite Hc. split; [by intros [? _]|]. intros Hw. split; [done|]. by exists cs.
Qed.
Print Assumptions C56_completion_needs_folder_partial.

(* The claim fails: a key an object can be uploaded to need not be one it can be copied to, nor one
   a multipart upload can be completed to. *)
Theorem C56_folders_refuted : exists e s b k x u c,
  (exists a, answer e (RPutObject b k None None None (Some [FData (B "new")])) s = Ok a) /\
  content s [b; x] = Some c /\
  answer e (RCopyObject (b ++ B "/" ++ x) b k) s = Err InternalError /\
  content s [part_name u 1] = Some (B "one") /\
  answer e (RCompleteMultipartUpload b k u (Some [Some 1%Z])) s = Err InternalError.
Proof.
  exists ex_env, (after_all ex_env [RCreateBucket (B "photos");
    RPutObject (B "photos") (B "cat") None None None (Some [FData (B "meow")]);
    RUploadPart ex_uuid 1 (Some [FData (B "one")])] empty_store), (B "photos"), (B "a/dog"), (B "cat"), ex_uuid, (B "meow").
  split; [eexists; by vm_compute|]. vm_compute. done.
Qed.
Print Assumptions C56_folders_refuted.

Lemma content_files s p : content s p =
  omap (fun n => match n with NFile i => Some (data_of s i) | NDir => None end) (fs_nodes s) !! p.
Proof. rewrite lookup_omap. unfold content. by destruct (fs_nodes s !! p) as [[|i]|]. Qed.

(* Two histories that leave the same objects with the same content need not leave the same store:
   the folder of an object that has been deleted remains, and copies to it succeed. *)
Theorem C56_history_refuted : exists e rs rs' b x k,
  let s := after_all e rs empty_store in
  let s' := after_all e rs' empty_store in
  (forall p, content s p = content s' p) /\
  (exists a, answer e (RCopyObject (b ++ B "/" ++ x) b k) s = Ok a) /\
  answer e (RCopyObject (b ++ B "/" ++ x) b k) s' = Err InternalError.
Proof.
  exists ex_env, [RCreateBucket (B "photos");
    RPutObject (B "photos") (B "cat") None None None (Some [FData (B "meow")]);
    RPutObject (B "photos") (B "a/bird") None None None (Some [FData (B "chirp")]);
    RDeleteObject (B "photos") (B "a/bird")],
   [RCreateBucket (B "photos");
    RPutObject (B "photos") (B "cat") None None None (Some [FData (B "meow")])], (B "photos"), (B "cat"), (B "a/dog").
  cbn zeta. split; [|split; [eexists; by vm_compute|by vm_compute]].
  assert (Hf : forall s s' : fs, omap (fun n => match n with NFile i => Some (data_of s i) | NDir => None end) (fs_nodes s) =
     omap (fun n => match n with NFile i => Some (data_of s' i) | NDir => None end) (fs_nodes s') ->
     forall p, content s p = content s' p) by (intros s s' Heq p; by rewrite !content_files, Heq).
  apply Hf. apply (bool_decide_unpack _). vm_compute. done.
Qed.
Print Assumptions C56_history_refuted.

(* The theorems say something: in a store with one object, a key in a new folder has room but no folder. *)
Example ex_folders :
  let s := after_all ex_env [RCreateBucket (B "photos");
    RPutObject (B "photos") (B "cat") None None None (Some [FData (B "meow")])] empty_store in
  wf s /\ (fs_nodes s !! [] = Some NDir) /\ intact s /\
  located (B "photos") (B "cat") [B "photos"; B "cat"] /\ content s [B "photos"; B "cat"] = Some (B "meow") /\
  located (B "photos") (B "a/dog") [B "photos"; B "a"; B "dog"] /\
  room ex_env s [B "photos"; B "a"; B "dog"] /\ ~ folder_there s [B "photos"; B "a"; B "dog"] /\
  room ex_env s [B "photos"; B "dog"] /\ folder_there s [B "photos"; B "dog"].
Proof.
  intros s.
  assert (Hl : forall segs, segs <> [] -> Forall segment_ok segs ->
    located (B "photos") (slashed segs) (B "photos" :: segs)) by (intros segs ? ?; by exists segs).
  split_and!.
  - do 2 apply wf_after. apply wf_empty.
  - by vm_compute.
  - apply intact_after; [apply wf_after, wf_empty| |].
    + apply intact_after; [apply wf_empty|apply intact_empty|]. apply check_bucket_name_spec. by vm_compute.
    + split_and!; [apply check_bucket_name_spec; by vm_compute| |done]. exists [B "cat"]. by compute_done.
  - apply (Hl [B "cat"]); by compute_done.
  - by vm_compute.
  - apply (Hl [B "a"; B "dog"]); by compute_done.
  - split_and!; [done|by vm_compute|]. intros q i Hq Hne.
    assert (q ∈ [[]; [B "photos"]; [B "photos"; B "a"]]) as Hin.
    { destruct q as [|x [|y [|z q]]]; destruct Hq as [r Hr]; cbn [app] in Hr; simplify_eq; try by compute_done.
      exfalso. by destruct q. }
    rewrite !elem_of_cons, elem_of_nil in Hin. destruct Hin as [->|[->|[->|[]]]]; by vm_compute.
  - intros (dir & x & Heq & Hd). change [B "photos"; B "a"; B "dog"] with ([B "photos"; B "a"] ++ [B "dog"]) in Heq.
    apply snoc_inj in Heq as [<- _]. by vm_compute in Hd.
  - split_and!; [done|by vm_compute|]. intros q i Hq Hne.
    assert (q ∈ [[]; [B "photos"]]) as Hin.
    { destruct q as [|x [|y q]]; destruct Hq as [r Hr]; cbn [app] in Hr; simplify_eq; try by compute_done.
      exfalso. by destruct q. }
    rewrite !elem_of_cons, elem_of_nil in Hin. destruct Hin as [->|[->|[]]]; by vm_compute.
  - exists [B "photos"], (B "dog"). split; [done|]. by vm_compute.
Qed.
