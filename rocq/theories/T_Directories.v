(** C74: keys that end in a slash. *)
From Verif Require Import M_Base M_Path M_Headers M_Chunked M_BytesStream M_Crypto M_Fs M_Json M_Utf8 M_Storage
  S_Path S_Headers S_Chunked S_Storage S_Store S_Map L_Base L_Headers L_Fs L_Storage L_Scope L_Names L_Json L_Ops
  L_Results L_Path L_Tidy T_Store T_Copy T_Etag T_Uploads L_MapOps T_Listing T_Map L_Utf8.

Local Opaque md5 etag_of json_decode json_encode metadata_name part_name.

Lemma ends_slash k : ends_with_char "/" (k ++ B "/") = true.
Proof. unfold ends_with_char. change (B "/") with ["/"%char]. by rewrite last_snoc. Qed.

(* An upload to such a key creates the folder, if the request says that it has no content. *)
Theorem C74_put_folder e s b k p sc cl md fs : wf s -> legal_bucket b -> resolved b (k ++ B "/") p ->
  sc ∈ storage_classes ->
  let r := RPutObject b (k ++ B "/") sc cl md (Some fs) in
  let s' := after e r s in
  (cl <> Some 0%Z -> answer e r s = Err UnexpectedContent /\ s' = s) /\
  (cl = Some 0%Z ->
     (* it succeeds exactly if no file is in the way, *)
     ((exists a, answer e r s = Ok a) <->
        e_os_ok e p = true /\ forall q i, q `prefix_of` p -> fs_nodes s !! q <> Some (NFile i)) /\
     (* then the folders up to it are there and everything else is as before, *)
     (forall a, answer e r s = Ok a ->
        (forall q, q `prefix_of` p -> fs_nodes s' !! q = Some NDir) /\
        (forall q, ~ q `prefix_of` p -> fs_nodes s' !! q = fs_nodes s !! q) /\
        (forall q, content s' q = content s q)) /\
     (* and otherwise nothing happens *)
     (forall c, answer e r s = Err c -> c = InternalError /\ s' = s)).
Proof.
  intros Hwf Hb Hres Hsc r s'. subst s'. unfold answer, after. subst r. cbn [storage]. unfold put_object.
  rewrite (proj2 (class_ok sc) Hsc), ends_slash. cbn [negb].
  rewrite (resolved_path e b (k ++ B "/") p) by (try done; by apply legal_bucket_segment). cbn [try_path]. split.
  { intros Hcl. by rewrite bool_decide_false by done. }
  intros ->. rewrite bool_decide_true by done. rewrite run_try_io.
  destruct (run_create_dir_all e p s Hwf) as [(Hos & Hnf & ->)|[Hno ->]]; cbn [fst snd].
  - split_and!; [split; [by intros _|eauto]| |done]. intros _ _.
    assert (Hl : forall q, fs_nodes (set_nodes s (mkdirs p (fs_nodes s))) !! q =
      if decide (q `prefix_of` p /\ fs_nodes s !! q = None) then Some NDir else fs_nodes s !! q)
      by (intros q; apply mkdirs_lookup).
    split_and!; intros q.
    + intros Hq. rewrite Hl. destruct (fs_nodes s !! q) as [[|i]|] eqn:En.
      * by rewrite decide_False by (by intros [_ ?]).
      * by destruct (Hnf q i).
      * by rewrite decide_True.
    + intros Hq. rewrite Hl. by rewrite decide_False by tauto.
    + unfold content. rewrite Hl. case_decide as Hd; [|done]. destruct Hd as [_ ->]. done.
  - split_and!; [|by intros ? [=]|by intros ? [= <-]]. split; [by intros [? ?]|]. intros H. by destruct Hno.
Qed.
Print Assumptions C74_put_folder.

(* A deletion removes the folder if it is empty; otherwise nothing changes, but the answer is the same. *)
Theorem C74_delete_folder e s b k p : wf s -> legal_bucket b -> resolved b (k ++ B "/") p ->
  let r := RDeleteObject b (k ++ B "/") in
  let s' := after e r s in
  ((exists a, answer e r s = Ok a) <-> e_os_ok e p = true /\ fs_nodes s !! p = Some NDir) /\
  (forall a, answer e r s = Ok a -> (forall q x, p ++ x :: q ∉ dom (fs_nodes s)) ->
     fs_nodes s' !! p = None /\ (forall q, q <> p -> fs_nodes s' !! q = fs_nodes s !! q) /\
     forall q, content s' q = content s q) /\
  (forall q x, p ++ x :: q ∈ dom (fs_nodes s) -> s' = s) /\
  (forall c, answer e r s = Err c -> c = InternalError /\ s' = s).
Proof.
  intros Hwf Hb Hres r s'. subst s'. unfold answer, after. subst r. cbn [storage]. unfold delete_object.
  rewrite (resolved_path e b (k ++ B "/") p) by (try done; by apply legal_bucket_segment). cbn [try_path].
  rewrite ends_slash, run_try_io, run_call. cbn [exec].
  assert (Hempty : child_names s p = [] <-> forall q x, p ++ x :: q ∉ dom (fs_nodes s)).
  { split.
    - intros Hc q x [n Hn]%elem_of_dom. 
      assert (is_Some (fs_nodes s !! (p ++ [x]))) as Hin.
      { destruct q as [|y q]; [by eexists|]. eexists. eapply (wf_prefix s (p ++ x :: y :: q)); [done|by eexists| |].
        - exists (y :: q). by rewrite <- app_assoc.
        - intros Heq. apply app_inv_head in Heq. done. }
      apply elem_child_names in Hin. rewrite Hc in Hin. by apply elem_of_nil in Hin.
    - intros H. destruct (child_names s p) as [|x l] eqn:Ec; [done|].
      exfalso. apply (H [] x), elem_of_dom, elem_child_names. rewrite Ec. left. }
  destruct (e_os_ok e p) eqn:Hos; cbn [andb]; [|cbn [fst snd]; split_and!; try done; [split; [by intros [? ?]|by intros [? _]]|by intros ? [= <-]]].
  destruct (is_dir s p) eqn:Hd.
  2: { cbn [fst snd]. split_and!; try done; [|by intros ? [= <-]]. split; [by intros [? ?]|]. intros [_ ?%is_dir_true]. congruence. }
  pose proof (proj1 (is_dir_true s p) Hd) as Hdir.
  assert (Hperm : map (fun c => (c, is_dir s (p ++ [c]))) (e_order e p (child_names s p)) = [] <-> child_names s p = []).
  { pose proof (e_order_perm e p (child_names s p)) as Hp. split.
    - intros ?%map_eq_nil. apply Permutation_nil. rewrite <- H. by symmetry.
    - intros Heq. rewrite Heq in Hp. apply Permutation_sym, Permutation_nil in Hp. by rewrite Heq, Hp. }
  destruct (map _ _) as [|x l].
  - pose proof (proj1 Hperm eq_refl) as Hc. rewrite run_try_io, run_call. cbn [exec].
    rewrite Hos, Hdir, bool_decide_true by done. cbn [fst snd]. split_and!; [split; [by intros _|eauto]| | |done].
    + intros _ _ _. split_and!.
      * cbn. by rewrite lookup_delete.
      * intros q Hq. cbn. by rewrite lookup_delete_ne.
      * intros q. unfold content. cbn. destruct (decide (q = p)) as [->|Hq]; [by rewrite lookup_delete, Hdir|].
        by rewrite lookup_delete_ne.
    + intros q y Hq. by destruct (proj1 Hempty Hc q y).
  - cbn [fst snd]. rewrite run_ret. cbn [fst snd]. split_and!; [split; [by intros _|eauto]| |done|done].
    intros _ _ Hno. apply Hempty, Hperm in Hno. done.
Qed.
Print Assumptions C74_delete_folder.

(* Neither folders that have been created this way nor any others can be read. *)
Theorem C74_folder_unreadable e s b k p rg : legal_bucket b -> resolved b k p -> fs_nodes s !! p = Some NDir ->
  exists c, answer e (RGetObject b k rg) s = Err c.
Proof.
  intros Hb Hres Hn. unfold answer. cbn [storage]. unfold get_object.
  rewrite (resolved_path e b k p) by (try done; by apply legal_bucket_segment). cbn [try_path].
  assert (Hgo : forall r, exists c, snd (run e (bind (call (COpen p)) (fun o =>
        match o with
        | None => Ret (Err NoSuchKey)
        | Some h =>
            try_io (call (CLen h)) (fun file_len =>
            try_res (get_extent h r file_len) (fun ol =>
            try_io (load_metadata e b k) (fun md =>
            try_io (get_md5_sum e b k) (fun tag =>
              if (ol.2 <=? i64_max)%N then Ret (Ok (AGet h ol.1 ol.2 ol.2 md tag))
              else Ret (Err InternalError)))))
        end)) s) = Err c).
  { intros r. rewrite run_bind, run_call. cbn [exec]. rewrite Hn. destruct (negb (e_os_ok e p)) eqn:Ho; [by eexists|].
    rewrite run_try_io, run_call. cbn [exec].
    assert (Hext : forall h len, exists x, run e (get_extent h r len) s = (s, x)).
    { intros h len. unfold get_extent. destruct r as [[f l|l]|]; [destruct (_ <=? _)%N; by eexists| |by eexists].
      destruct (_ && _); [|by eexists]. rewrite run_try_io, run_call. destruct h; cbn [exec];
        destruct (_ <=? _)%N; by eexists. }
    destruct (Hext (HDir p) (e_dir_len e p)) as [x Hx]. rewrite run_try_res, Hx. destruct x as [ol|c]; [|by eexists].
    rewrite run_try_io, run_load_metadata. destruct (meta_of e s b k) as [md|]; [|by eexists].
    rewrite run_try_io, (run_get_md5 e b k p); [|apply resolved_path; [by apply legal_bucket_segment|done]].
    unfold content. rewrite Hn. destruct (e_os_ok e p); by eexists. }
  destruct rg as [str|]; [|apply Hgo]. destruct (range_from_header_str str); [apply Hgo|by eexists].
Qed.
Print Assumptions C74_folder_unreadable.

(* They do not appear in listings either: these are the same before and after. *)
Lemma same_sorted (l l' : list (bytes * N)) : (forall z, z ∈ l <-> z ∈ l') ->
  StronglySorted (fun x y => bytes_lt x.1 y.1) l -> StronglySorted (fun x y => bytes_lt x.1 y.1) l' -> l = l'.
Proof.
  intros Heq S1. revert l' Heq. induction S1 as [|z l S1 IH Hz]; intros l' Heq S2.
  - destruct l' as [|y l']; [done|]. exfalso. assert (y ∈ @nil (bytes * N)) by (apply Heq; left). by apply elem_of_nil in H.
  - destruct S2 as [|y l' S2 Hy].
    { exfalso. assert (z ∈ @nil (bytes * N)) by (apply Heq; left). by apply elem_of_nil in H. }
    rewrite Forall_forall in Hz, Hy.
    assert (z = y) as <-.
    { assert (Hzy : z ∈ y :: l') by (apply Heq; left). assert (Hyz : y ∈ z :: l) by (apply Heq; left).
      apply elem_of_cons in Hzy as [?|Hzy]; [done|]. apply elem_of_cons in Hyz as [?|Hyz]; [done|].
      exfalso. eapply bytes_lt_asym; [apply Hy, Hzy|apply Hz, Hyz]. }
    f_equal. apply IH; [|done]. intros w.
    assert (Hnz : forall m : list (bytes * N), (forall w, w ∈ m -> bytes_lt z.1 w.1) -> z ∉ m).
    { intros m Hm Hin. eapply bytes_lt_asym; by apply Hm. }
    split; intros Hw.
    + assert (Hw' : w ∈ z :: l') by (apply Heq; by right). apply elem_of_cons in Hw' as [->|?]; [|done].
      by apply Hnz in Hw.
    + assert (Hw' : w ∈ z :: l) by (apply Heq; by right). apply elem_of_cons in Hw' as [->|?]; [|done].
      by apply Hnz in Hw.
Qed.

Theorem C74_folder_unlisted e rs b k p sc md fs prefix (v2 : bool) : e_os_ok e [] = true -> Forall text_req rs ->
  legal_bucket b -> resolved b (k ++ B "/") p -> utf8_valid k = true -> sc ∈ storage_classes ->
  let s := after_all e rs empty_store in
  fs_nodes s !! [b] = Some NDir ->
  (forall q c, content s (b :: q) = Some c -> (N.of_nat (length c) <= i64_max)%N) ->
  let list_it := if v2 then RListObjectsV2 b prefix else RListObjects b prefix in
  answer e list_it (after e (RPutObject b (k ++ B "/") sc (Some 0%Z) md (Some fs)) s) = answer e list_it s.
Proof.
  intros Hos Hrs Hb Hres Hk Hsc s Hd Hlen list_it.
  set (r := RPutObject b (k ++ B "/") sc (Some 0%Z) md (Some fs)).
  assert (Hwf : wf s) by (apply (after_all_inv wf); [intros r' s' _; apply wf_after|apply wf_empty]).
  destruct (C74_put_folder e s b k p sc (Some 0%Z) md fs Hwf Hb Hres Hsc) as [_ [_ [Hok Herr]]]; [done|]. fold r in Hok, Herr.
  destruct (answer e r s) as [a|c] eqn:Ha; [|by destruct (Herr c eq_refl) as [_ ->]].
  destruct (Hok a eq_refl) as (Hpre & _ & Hc). clear Hok Herr.
  assert (Hs' : after e r s = after_all e (rs ++ [r]) empty_store).
  { subst s. clear. generalize empty_store. induction rs as [|r0 rs IH]; intros s0; [done|]. cbn [after_all app]. apply IH. }
  destruct (C36_listing_reachable e rs b prefix v2 Hos Hrs Hb Hd Hlen) as (l & Ha0 & Hl & Sl).
  destruct (C36_listing_reachable e (rs ++ [r]) b prefix v2 Hos) as (l' & Ha' & Hl' & Sl').
  - apply Forall_app. split; [done|]. apply Forall_singleton. cbn. split; [by apply text_bucket|].
    change (B "/") with ["/"%char]. rewrite utf8_valid_cut by done. by rewrite Hk.
  - done.
  - rewrite <- Hs'. apply Hpre. destruct Hres as (segs & _ & _ & _ & _ & _ & ->). by eexists.
  - intros q c. rewrite <- Hs', Hc. apply Hlen.
  - unfold list_it. rewrite Hs', Ha'. unfold s. rewrite Ha0. rewrite <- Hs' in Hl'. rewrite (same_sorted l' l); [done| |done|done].
    intros [k0 n]. rewrite Hl, Hl'. by setoid_rewrite Hc.
Qed.
Print Assumptions C74_folder_unlisted.

(* The claim fails: an empty object that was stored with success cannot be read, is not listed, and
   its length is told to be that of a folder.  (Concretely: the key ["a/"].) *)
Theorem C74_empty_object_refuted : exists e s b k a,
  let r := RPutObject b k None (Some 0%Z) None (Some []) in
  let s' := after e r s in
  answer e r s = Ok a /\
  answer e (RGetObject b k None) s' = Err InternalError /\
  answer e (RHeadObject b k) s' = Ok (AHead 4096 None) /\
  answer e (RListObjects b None) s' = Ok (AList b [] None).
Proof.
  exists ex_env, (after ex_env (RCreateBucket (B "photos")) empty_store), (B "photos"), (B "a/").
  eexists. split_and!; by vm_compute.
Qed.
Print Assumptions C74_empty_object_refuted.

(* Deleting such a key is answered with success though it is still there. *)
Theorem C74_delete_refuted : exists e s b k x a,
  answer e (RDeleteObject b k) s = Ok a /\ after e (RDeleteObject b k) s = s /\
  is_Some (fs_nodes s !! x) /\ answer e (RHeadObject b k) s = Ok (AHead 4096 None).
Proof.
  exists ex_env, (after_all ex_env [RCreateBucket (B "photos");
    RPutObject (B "photos") (B "a/cat") None None None (Some [FData (B "meow")])] empty_store),
    (B "photos"), (B "a/"), [B "photos"; B "a"].
  eexists. split_and!; try by vm_compute. eexists. by vm_compute.
Qed.
Print Assumptions C74_delete_refuted.

Example ex_directories :
  let s := after ex_env (RCreateBucket (B "photos")) empty_store in
  let s' := after ex_env (RPutObject (B "photos") (B "a/b/") None (Some 0%Z) None (Some [])) s in
  resolved (B "photos") (B "a/b" ++ B "/") [B "photos"; B "a"; B "b"] /\
  fs_nodes s' !! [B "photos"; B "a"; B "b"] = Some NDir /\
  fs_nodes s' !! [B "photos"; B "a"] = Some NDir /\ fs_nodes s !! [B "photos"; B "a"] = None /\
  fs_nodes (after ex_env (RDeleteObject (B "photos") (B "a/b/")) s') !! [B "photos"; B "a"; B "b"] = None /\
  answer ex_env (RPutObject (B "photos") (B "a/b/") None (Some 5%Z) None (Some [FData (B "12345")])) s = Err UnexpectedContent.
Proof.
  split; [|by vm_compute]. exists [B "a"; B "b"; []]. split_and!; try by compute_done.
  intros r. cbn. done.
Qed.
