(** C37: the life cycle of buckets. *)
From Verif Require Import M_Base M_Path M_Headers M_Chunked M_BytesStream M_Crypto M_Fs M_Json M_Utf8 M_Storage
  S_Path S_Headers S_Chunked S_Storage S_Store L_Base L_Path L_Headers L_Utf8 L_Fs L_Storage L_Scope L_Names L_Ops L_Results
  L_Tidy T_Store T_Copy T_Listing.

Local Opaque md5 etag_of json_decode json_encode metadata_name part_name.

Lemma legal_bucket_ascii b : legal_bucket b -> Forall (fun a => code a < 128)%N b.
Proof.
  intros (_ & Hc & _).
  assert (Hall : Forall (fun a => code a < 128)%N (letters ++ digits ++ B ".-")) by (apply plain_ascii_Forall; by vm_compute).
  rewrite Forall_forall in Hall |- *. intros a Ha. apply Hall. rewrite !elem_of_app.
  destruct (Hc a Ha) as [?|[?|[->| ->]]]; [by left|right; by left|right; right; compute_done|right; right; compute_done].
Qed.

Lemma run_create_bucket e b s : legal_bucket b ->
  run e (create_bucket e b) s =
  (if e_os_ok e [b] && bool_decide (is_Some (fs_nodes s !! [b])) then (s, Err BucketAlreadyExists)
   else if e_os_ok e [b] && is_dir s [] then (set_nodes s (<[[b] := NDir]> (fs_nodes s)), Ok ADone)
   else (s, Err InternalError)).
Proof.
  intros Hb. unfold create_bucket. rewrite bucket_path by by apply legal_bucket_segment. cbn [try_path].
  rewrite run_bind, run_exists. destruct (e_os_ok e [b]) eqn:Hos; cbn [andb].
  - case_bool_decide as Hn; [done|]. rewrite run_bind, run_call. cbn [exec]. rewrite Hos. cbn [negb].
    apply eq_None_not_Some in Hn. rewrite Hn. unfold has_parent. change (parent [b]) with (Some ([] : path, b)).
    cbn. destruct (is_dir s []); [done|]. by destruct (fs_nodes s !! []).
  - rewrite run_bind, run_call. cbn [exec]. by rewrite Hos.
Qed.

(** CreateBucket succeeds exactly when the bucket does not exist yet (and the root directory is
    there and the name is one the file system takes). *)
Theorem C37_create_exact e b s : legal_bucket b -> e_os_ok e [b] = true -> fs_nodes s !! [] = Some NDir ->
  (answer e (RCreateBucket b) s = Ok ADone <-> answer e (RHeadBucket b) s = Err NoSuchBucket) /\
  (answer e (RCreateBucket b) s = Err BucketAlreadyExists <-> answer e (RHeadBucket b) s = Ok ADone).
Proof.
  intros Hb Hos Hr. unfold answer. cbn [storage]. rewrite run_create_bucket by done. unfold head_bucket.
  rewrite bucket_path by by apply legal_bucket_segment. cbn [try_path]. rewrite run_bind, run_exists, Hos.
  rewrite (proj2 (is_dir_true s [])) by done. cbn [andb]. by case_bool_decide.
Qed.
Print Assumptions C37_create_exact.

(** HeadBucket and GetBucketLocation tell whether the bucket exists. *)
Theorem C37_head_and_location e b s : legal_bucket b ->
  let there := e_os_ok e [b] = true /\ is_Some (fs_nodes s !! [b]) in
  (there -> answer e (RHeadBucket b) s = Ok ADone /\ answer e (RGetBucketLocation b) s = Ok ADone) /\
  (~ there -> answer e (RHeadBucket b) s = Err NoSuchBucket /\ answer e (RGetBucketLocation b) s = Err NoSuchBucket).
Proof.
  intros Hb there. unfold answer. cbn [storage]. unfold head_bucket, get_bucket_location.
  rewrite bucket_path by by apply legal_bucket_segment. cbn [try_path]. rewrite !run_bind, !run_exists.
  unfold there. split.
  - intros [Hos Hn]. rewrite Hos, bool_decide_true by done. done.
  - intros Hn. destruct (e_os_ok e [b]) eqn:Eo; cbn [andb]; [|done]. rewrite bool_decide_false; [done|]. by intros H; apply Hn.
Qed.
Print Assumptions C37_head_and_location.

Theorem C37_create_effect e b s a : legal_bucket b -> answer e (RCreateBucket b) s = Ok a ->
  let s' := after e (RCreateBucket b) s in
  answer e (RHeadBucket b) s' = Ok ADone /\ answer e (RGetBucketLocation b) s' = Ok ADone /\
  fs_nodes s' !! [b] = Some NDir /\
  (wf s -> forall k p, located b k p -> fs_nodes s' !! p = None) /\
  (forall q, q <> [b] -> fs_nodes s' !! q = fs_nodes s !! q /\ content s' q = content s q).
Proof.
  intros Hb. unfold answer, after. cbn [storage]. rewrite run_create_bucket by done.
  destruct (e_os_ok e [b]) eqn:Hos; cbn [andb]; [|done]. case_bool_decide as Hn; [done|].
  destruct (is_dir s []); [|done]. intros _. cbn [fst].
  set (s' := set_nodes _ _). assert (Hn' : fs_nodes s' !! [b] = Some NDir) by apply lookup_insert.
  assert (Hoth : forall q, q <> [b] -> fs_nodes s' !! q = fs_nodes s !! q /\ content s' q = content s q).
  { intros q Hq. unfold content. cbn. by rewrite lookup_insert_ne by done. }
  unfold head_bucket, get_bucket_location. rewrite bucket_path by by apply legal_bucket_segment. cbn [try_path].
  rewrite !run_bind, !run_exists, Hos, Hn'. rewrite bool_decide_true by by eexists. split_and!; try done.
  intros Hwf k p (segs & Hne & _ & _ & ->). destruct (Hoth (b :: segs)) as [-> _]; [by intros [= ->]|].
  apply eq_None_not_Some. intros Hs. apply Hn. rewrite (wf_prefix s (b :: segs) [b]); [by eexists|done|done|by eexists|].
  by intros [= <-].
Qed.
Print Assumptions C37_create_effect.

(** DeleteBucket. *)
Lemma remove_dir_all_ok e n p s s' : run e (remove_dir_all n p) s = (s', Some tt) -> fs_nodes s' !! p = None.
Proof.
  destruct n as [|n]; [done|]. cbn [remove_dir_all]. rewrite run_bind.
  destruct (run e (call (CReadDir p)) s) as [s1 [es|]]; [|done]. revert s1.
  induction es as [|[c d] es IH]; intros s1.
  - rewrite run_call. cbn [exec]. destruct (e_os_ok e p); [|done]. destruct (fs_nodes s1 !! p) as [[|]|]; [|done|done].
    case_bool_decide; [|done]. intros [= <-]. apply lookup_delete.
  - rewrite run_bind. destruct (run e (if d then _ else _) s1) as [s2 [[]|]]; [|done]. apply IH.
Qed.

Theorem C37_delete_effect e b s a : wf s -> legal_bucket b -> answer e (RDeleteBucket b) s = Ok a ->
  let s' := after e (RDeleteBucket b) s in
  answer e (RHeadBucket b) s' = Err NoSuchBucket /\
  (forall k p, located b k p ->
     content s' p = None /\ answer e (RHeadObject b k) s' = Err NoSuchKey /\
     answer e (RGetObject b k None) s' = Err NoSuchKey) /\
  (forall b' k' p', legal_bucket b' -> b' <> b -> located b' k' p' -> 
     content s' p' = content s p' /\
     forall range, answer e (RGetObject b' k' range) s' = answer e (RGetObject b' k' range) s /\
       answer e (RHeadObject b' k') s' = answer e (RHeadObject b' k') s) /\
  (forall b', legal_bucket b' -> b' <> b -> answer e (RHeadBucket b') s' = answer e (RHeadBucket b') s).
Proof.
  intros Hwf Hb Ha s'. pose proof (legal_bucket_segment _ Hb) as Hbs.
  assert (Hwf' : wf s') by by apply wf_after.
  assert (Hgone : fs_nodes s' !! [b] = None).
  { apply run_answer in Ha. fold s' in Ha. cbn [storage] in Ha. unfold delete_bucket in Ha.
    rewrite bucket_path in Ha by done. cbn [try_path] in Ha. rewrite run_bind, run_call in Ha. cbn [exec] in Ha.
    rewrite run_try_io in Ha. destruct (run e (remove_dir_all _ _) s) as [s1 [[]|]] eqn:E; [|done].
    injection Ha as <- _. by eapply remove_dir_all_ok. }
  pose proof (storage_untouched e (RDeleteBucket b) s Hwf) as Hu. fold s' in Hu.
  assert (Hin : forall q, (exists q', get_bucket_path e b = Some q' /\ q' `prefix_of` q) -> exists rest, q = b :: rest).
  { intros q (q' & Hq' & [rest ->]). rewrite bucket_path in Hq' by done. injection Hq' as <-. by exists rest. }
  assert (Hout : forall q, (forall rest, q <> b :: rest) -> content s' q = content s q /\ fs_nodes s' !! q = fs_nodes s !! q).
  { intros q Hq. split; apply Hu; try (by intros []); intros [rest ->]%Hin; by eapply Hq. }
  split_and!.
  - unfold answer. cbn [storage]. unfold head_bucket. rewrite bucket_path by done. cbn [try_path].
    rewrite run_bind, run_exists, Hgone. rewrite bool_decide_false by (by intros [? ?]). by rewrite andb_false_r.
  - intros k p Hl. pose proof (located_path e b k p Hbs Hl) as Hp.
    destruct Hl as (segs & Hne & _ & _ & ->).
    assert (Hn : fs_nodes s' !! (b :: segs) = None).
    { apply eq_None_not_Some. intros Hs.
      assert (H : fs_nodes s' !! [b] = Some NDir); [|by rewrite Hgone in H].
      apply (wf_prefix s' (b :: segs)); [done|done|by eexists|]. by intros [= <-]. }
    split_and!; [unfold content; by rewrite Hn|..]; unfold answer; cbn [storage].
    + by rewrite (run_head_absent e b k (b :: segs)) by auto.
    + by rewrite (run_get_absent e b k None (b :: segs)) by auto.
  - intros b' k' p' Hb' Hne Hl.
    assert (H1 : content s' p' = content s p' /\ fs_nodes s' !! p' = fs_nodes s !! p').
    { apply Hout. intros rest Heq. destruct Hl as (segs & _ & _ & _ & ->). by injection Heq. }
    assert (H2 : content s' [metadata_name b' k'] = content s [metadata_name b' k'] /\
                 fs_nodes s' !! [metadata_name b' k'] = fs_nodes s !! [metadata_name b' k']).
    { apply Hout. intros rest Heq. apply cons_head in Heq. symmetry in Heq. by eapply (bucket_not_meta b). }
    split; [apply H1|]. intros range. apply (get_same e b' k' range p'); try apply H1; try apply H2.
    apply located_path; [by apply legal_bucket_segment|done].
  - intros b' Hb' Hne. unfold answer. cbn [storage]. unfold head_bucket.
    rewrite bucket_path by by apply legal_bucket_segment. cbn [try_path]. rewrite !run_bind, !run_exists.
    destruct (Hout [b']) as [_ ->]; [by intros rest [= ]|done].
Qed.
Print Assumptions C37_delete_effect.

(** DeleteBucket does succeed on an existing bucket, whatever is in it. *)
Section removal.
  Context (e : env).

  Definition dirs_below (s : fs) (p : path) : gset path := pending s [p].
  Lemma elem_dirs_below s p d : d ∈ dirs_below s p <-> fs_nodes s !! d = Some NDir /\ p `prefix_of` d.
  Proof.
    unfold dirs_below. rewrite elem_pending. split.
    - intros [? (q & ->%elem_of_list_singleton & ?)]. done.
    - intros [? ?]. split; [done|]. exists p. split; [by apply elem_of_list_singleton|done].
  Qed.

  Lemma run_remove_dir_all n : forall p s, wf s -> tidy e s -> fs_nodes s !! p = Some NDir ->
    size (dirs_below s p) <= n ->
    exists s', run e (remove_dir_all n p) s = (s', Some tt) /\
      (forall q, ~ p `prefix_of` q -> fs_nodes s' !! q = fs_nodes s !! q) /\
      (forall q, p `prefix_of` q -> fs_nodes s' !! q = None).
  Proof.
    induction n as [|n IH]; intros p s Hwf Ht Hp Hsz.
    { exfalso. assert (H : p ∈ dirs_below s p) by by apply elem_dirs_below.
      assert (H0 : size (dirs_below s p) = 0) by lia. apply size_empty_inv in H0. set_solver. }
    cbn [remove_dir_all]. rewrite run_bind, run_call. cbn [exec].
    destruct (Ht p ltac:(by eexists)) as (_ & _ & Hos). rewrite Hos, (proj2 (is_dir_true s p)) by done. cbn [andb].
    set (names := e_order e p (child_names s p)).
    assert (Hnames : forall c, c ∈ names <-> is_Some (fs_nodes s !! (p ++ [c]))).
    { intros c. unfold names. rewrite e_order_perm. apply elem_child_names. }
    assert (Hnd : NoDup names) by (unfold names; rewrite e_order_perm; apply NoDup_child_names).
    clearbody names.
    assert (Hloop : forall (fl : bytes -> bool) s1, wf s1 -> (forall q, fs_nodes s1 !! q = None \/ fs_nodes s1 !! q = fs_nodes s !! q) ->
      (forall q, ~ p `prefix_of` q -> fs_nodes s1 !! q = fs_nodes s !! q) -> fs_nodes s1 !! p = Some NDir ->
      (forall c, c ∈ names <-> is_Some (fs_nodes s1 !! (p ++ [c]))) -> (forall c, c ∈ names -> fl c = is_dir s1 (p ++ [c])) ->
      exists s', run e ((fix entries (es : list (bytes * bool)) : prog (option unit) :=
               match es with
               | [] => call (CRmdir p)
               | (c, d) :: es' =>
                   bind (if d : bool then remove_dir_all n (p ++ [c]) else call (CUnlink (p ++ [c])))
                     (fun o => match o with Some _ => entries es' | None => Ret None end)
               end) (map (fun c => (c, fl c)) names)) s1 = (s', Some tt) /\
      (forall q, ~ p `prefix_of` q -> fs_nodes s' !! q = fs_nodes s !! q) /\
      (forall q, p `prefix_of` q -> fs_nodes s' !! q = None)).
    2:{ apply (Hloop (fun c => is_dir s (p ++ [c])) s); auto. }
    intros fl. clear Hnames.
    induction Hnd as [|c names Hc Hnd IHn]; intros s1 Hwf1 Hor Hout Hp1 Hnames Hflag.
    - cbn [map]. rewrite run_call. cbn [exec]. rewrite Hos, Hp1.
      assert (Hch : child_names s1 p = []).
      { destruct (child_names s1 p) as [|c l] eqn:E; [done|]. exfalso.
        assert (H : c ∈ child_names s1 p) by (rewrite E; by left). apply elem_child_names, Hnames in H. by apply elem_of_nil in H. }
      rewrite bool_decide_true by done. eexists. split; [done|]. cbn [set_nodes fs_nodes]. split.
      + intros q Hq. rewrite lookup_delete_ne by (by intros ->; apply Hq). by apply Hout.
      + intros q Hq. destruct (decide (q = p)) as [->|Hne]; [apply lookup_delete|]. rewrite lookup_delete_ne by done.
        apply eq_None_not_Some. intros Hs. destruct Hq as [rest ->]. destruct rest as [|c rest]; [by rewrite app_nil_r in Hne|].
        assert (H : c ∈ ([] : list bytes)); [|by apply elem_of_nil in H]. apply Hnames.
        destruct rest as [|c' rest]; [done|]. change (c :: c' :: rest) with ([c] ++ c' :: rest) in Hs. rewrite app_assoc in Hs.
        rewrite (wf_prefix s1 ((p ++ [c]) ++ c' :: rest) (p ++ [c])); [by eexists|done|exact Hs|by eexists|].
        intros Heq. apply (f_equal length) in Heq. rewrite !app_length in Heq. cbn in Heq. lia.
    - cbn [map]. rewrite run_bind.
      assert (Hcs : is_Some (fs_nodes s1 !! (p ++ [c]))) by (apply Hnames; by left).
      assert (Hss : forall q, is_Some (fs_nodes s1 !! q) -> fs_nodes s1 !! q = fs_nodes s !! q).
      { intros q [x Hx]. destruct (Hor q) as [H|H]; [by rewrite Hx in H|done]. }
      assert (Hstep : exists s2, run e (if fl c then remove_dir_all n (p ++ [c]) else call (CUnlink (p ++ [c]))) s1 = (s2, Some tt) /\
        (forall q, ~ (p ++ [c]) `prefix_of` q -> fs_nodes s2 !! q = fs_nodes s1 !! q) /\
        (forall q, (p ++ [c]) `prefix_of` q -> fs_nodes s2 !! q = None)).
      { rewrite (Hflag c) by by left. destruct (is_dir s1 (p ++ [c])) eqn:Hd.
        - apply is_dir_true in Hd. apply IH; [done| |done|].
          + intros q Hq. apply Ht. rewrite <- (Hss q); done.
          + assert (Hlt : dirs_below s1 (p ++ [c]) ⊂ dirs_below s p); [|apply subset_size in Hlt; lia].
            split.
            * intros d. rewrite !elem_dirs_below. intros [H1 H2]. rewrite <- (Hss d) by by eexists. split; [done|].
              etrans; [|done]. by eexists.
            * intros H. assert (Hx : p ∈ dirs_below s1 (p ++ [c])) by by apply H, elem_dirs_below.
              apply elem_dirs_below in Hx as [_ Hx]. by apply prefix_snoc_not in Hx.
        - rewrite run_call. cbn [exec]. destruct (Ht (p ++ [c])) as (_ & _ & ->); [by rewrite <- Hss|].
          destruct Hcs as [[|i] Hi]; [by rewrite (proj2 (is_dir_true s1 (p ++ [c]))) in Hd|]. rewrite Hi.
          eexists. split; [done|]. cbn [set_nodes fs_nodes]. split.
          + intros q Hq. rewrite lookup_delete_ne; [done|]. intros <-. by apply Hq.
          + intros q Hq. destruct (decide (q = p ++ [c])) as [->|Hne]; [apply lookup_delete|]. rewrite lookup_delete_ne by done.
            apply eq_None_not_Some. intros Hs. pose proof (wf_prefix s1 q (p ++ [c]) Hwf1 Hs Hq ltac:(done)) as H. by rewrite Hi in H. }
      destruct Hstep as (s2 & Hrun & H1 & H2). rewrite Hrun.
      apply IHn.
      + eapply wf_run'; [exact Hrun|done].
      + intros q. destruct (decide ((p ++ [c]) `prefix_of` q)); [left; by apply H2|]. rewrite H1 by done. apply Hor.
      + intros q Hq. rewrite H1; [by apply Hout|]. intros Hq'. apply Hq. etrans; [|done]. by eexists.
      + rewrite H1; [done|]. apply prefix_snoc_not.
      + intros c'. destruct (decide (c' = c)) as [->|Hne].
        * rewrite (H2 (p ++ [c])) by done. split; [done|by intros [? ?]].
        * rewrite H1.
          -- rewrite <- Hnames. rewrite elem_of_cons. naive_solver.
          -- intros H. apply prefix_app_inv, prefix_cons_inv_1 in H. done.
      + intros c' Hc'. rewrite Hflag by by right. unfold is_dir. rewrite H1; [done|].
        intros H. apply prefix_app_inv, prefix_cons_inv_1 in H as ->. done.
  Qed.
End removal.

Theorem C37_delete_succeeds e b s : wf s -> tidy e s -> legal_bucket b -> fs_nodes s !! [b] = Some NDir ->
  answer e (RDeleteBucket b) s = Ok ADone.
Proof.
  intros Hwf Ht Hb Hd. unfold answer. cbn [storage]. unfold delete_bucket.
  rewrite bucket_path by by apply legal_bucket_segment. cbn [try_path]. rewrite run_bind, run_call. cbn [exec].
  rewrite run_try_io. destruct (run_remove_dir_all e (S (size (fs_nodes s) + e_rounds e)) [b] s Hwf Ht Hd) as (s' & -> & _); [|done].
  assert (H : dirs_below s [b] ⊆ dom (fs_nodes s)) by (intros d (H & _)%elem_dirs_below; apply elem_of_dom; by eexists).
  apply subseteq_size in H. rewrite size_dom in H. lia.
Qed.
Print Assumptions C37_delete_succeeds.

(** ListBuckets shows exactly the existing buckets. *)
Lemma run_bucket_entries e s names : tidy e s -> Forall (fun c => is_Some (fs_nodes s !! [c])) names ->
  run e (bucket_entries (map (fun c => (c, is_dir s [c])) names)) s =
  (s, Ok (filter (fun c => is_dir s [c] = true /\ check_bucket_name c = true) names)).
Proof.
  intros Ht Hall. induction Hall as [|c names Hc Hall IH]; [done|]. cbn [map bucket_entries app]. rewrite filter_cons.
  destruct (Ht [c] Hc) as (_ & Hu & Hos). rewrite Forall_singleton in Hu. rewrite utf8_lossy_valid by done.
  destruct (is_dir s [c]) eqn:Hd; cbn [andb].
  - destruct (check_bucket_name c) eqn:Hb.
    + rewrite decide_True by done. rewrite run_try_io, run_call. cbn [exec]. rewrite Hos. cbn [negb].
      apply is_dir_true in Hd. rewrite Hd. by rewrite run_try_res, IH.
    + rewrite decide_False by (by intros [_ ?]). apply IH.
  - rewrite decide_False by (by intros [? _]). apply IH.
Qed.

Theorem C37_list_buckets e s : wf s -> tidy e s -> fs_nodes s !! [] = Some NDir ->
  exists l, answer e RListBuckets s = Ok (ABuckets l) /\ NoDup l /\
    forall b, b ∈ l <-> legal_bucket b /\ fs_nodes s !! [b] = Some NDir.
Proof.
  intros Hwf Ht Hr. unfold answer. cbn [storage]. unfold list_buckets. rewrite run_try_io, run_call. cbn [exec].
  destruct (Ht [] ltac:(by eexists)) as (_ & _ & ->). rewrite (proj2 (is_dir_true s [])) by done. cbn [andb].
  set (names := e_order e [] (child_names s [])).
  assert (Hnames : forall c, c ∈ names <-> is_Some (fs_nodes s !! [c])).
  { intros c. unfold names. rewrite e_order_perm. apply (elem_child_names s [] c). }
  assert (Hnd : NoDup names) by (unfold names; rewrite e_order_perm; apply NoDup_child_names).
  clearbody names. change (map _ names) with (map (fun c => (c, is_dir s [c])) names). rewrite run_try_res, (run_bucket_entries e s names); [|done|by apply Forall_forall; intros c Hc; apply Hnames].
  eexists. split; [done|]. split; [by apply NoDup_filter|]. intros b. rewrite elem_of_list_filter, is_dir_true.
  rewrite check_bucket_name_spec. split; [naive_solver|]. intros [? H]. split; [done|]. apply Hnames. by eexists.
Qed.
Print Assumptions C37_list_buckets.

(* A life cycle. *)
Example ex_life :
  let s1 := after ex_env (RCreateBucket (B "photos")) empty_store in
  let s2 := after_all ex_env [RPutObject (B "photos") (B "a/b/c") None None None (Some [FData (B "x")]); RCreateBucket (B "other")] s1 in
  let s3 := after ex_env (RDeleteBucket (B "photos")) s2 in
  answer ex_env (RHeadBucket (B "photos")) empty_store = Err NoSuchBucket /\
  answer ex_env (RCreateBucket (B "photos")) empty_store = Ok ADone /\
  answer ex_env (RCreateBucket (B "photos")) s1 = Err BucketAlreadyExists /\
  answer ex_env RListBuckets s1 = Ok (ABuckets [B "photos"]) /\
  answer ex_env (RDeleteBucket (B "photos")) s2 = Ok ADone /\
  answer ex_env (RGetObject (B "photos") (B "a/b/c") None) s3 = Err NoSuchKey /\
  answer ex_env RListBuckets s3 = Ok (ABuckets [B "other"]).
Proof. split_and!; vm_compute; reflexivity. Qed.
