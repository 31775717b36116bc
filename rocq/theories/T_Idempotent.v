(** C81: requests by methods that HTTP calls idempotent can be repeated. *)
From Verif Require Import M_Base M_Path M_Headers M_Chunked M_Crypto M_Fs M_Json M_Utf8 M_Storage M_Http M_Auth M_Ops M_Service
  S_Path S_Headers S_Chunked S_Storage S_Store S_Http L_Base L_Headers L_Fs L_Storage L_Scope L_Names L_Json L_Ops
  L_Results L_Path L_Tidy S_Service S_Dispatch S_Calls T_Scope T_Store T_Buckets T_Copy T_Calls T_Http T_Dispatch T_Auth L_Request.

Local Opaque md5 etag_of json_decode json_encode metadata_name part_name.

(* Sent again, the request has no further effect. *)
Definition repeatable (e : env) (r : s_req) (s : fs) : Prop := after e r (after e r s) = after e r s.

(** ** Writing a file *)

(* [File::create] and all of the content. *)
Definition written (e : env) (p : path) (d : bytes) (s : fs) : fs * bool :=
  match exec e (CCreate p) s with
  | (s1, Some i) => (set_data s1 i d, true)
  | (s1, None) => (s1, false)
  end.

Lemma create_again e p s i : e_os_ok e p = true -> fs_nodes s !! p = Some (NFile i) ->
  exec e (CCreate p) s = (set_data s i [], Some i).
Proof. intros Ho Hp. cbn [exec]. by rewrite Ho, Hp. Qed.

(* There is such a file. *)
Definition holds (e : env) (p : path) (d : bytes) (s : fs) : Prop :=
  exists i, e_os_ok e p = true /\ fs_nodes s !! p = Some (NFile i) /\ fs_data s !! i = Some d.

Lemma written_holds e p d s s' : written e p d s = (s', true) -> holds e p d s'.
Proof.
  unfold written. destruct (exec e (CCreate p) s) as [s1 [i|]] eqn:E; [|done]. intros [= <-].
  apply create_file in E as (H1 & _ & H2). exists i. split_and!; [done|done|]. apply set_data_lookup.
Qed.
Lemma written_fail e p d s s' : written e p d s = (s', false) -> s' = s.
Proof.
  unfold written. destruct (exec e (CCreate p) s) as [s1 [i|]] eqn:E; [done|]. intros [= <-]. by apply create_fail in E.
Qed.
Lemma written_again e p d s : holds e p d s -> written e p d s = (s, true).
Proof.
  intros (i & Ho & Hp & Hd). unfold written. rewrite (create_again e p s i) by done.
  by rewrite set_data_set, set_data_id.
Qed.
Lemma written_nodes e p d s s' ok q n : written e p d s = (s', ok) -> fs_nodes s !! q = Some n -> fs_nodes s' !! q = Some n.
Proof.
  intros H Hq. unfold written in H. destruct (exec e (CCreate p) s) as [s1 o] eqn:E.
  assert (Hk : fs_nodes s1 !! q = Some n).
  { cbn [exec] in E. destruct (negb (e_os_ok e p)); [by injection E as <- <-|].
    destruct (fs_nodes s !! p) as [[|i]|] eqn:Hp; [by injection E as <- <-|by injection E as <- <-|].
    destruct (parent p) as [[p' c]|]; [|by injection E as <- <-]. destruct (is_dir s p'); [|by injection E as <- <-].
    injection E as <- <-. cbn. rewrite lookup_insert_ne; [done|]. congruence. }
  destruct o; injection H as <- <-; done.
Qed.
Lemma written_keeps e p d s s' ok q d' : wf s -> written e p d s = (s', ok) -> q <> p -> holds e q d' s -> holds e q d' s'.
Proof.
  intros Hwf H Hne (j & Ho & Hq & Hd). pose proof (written_nodes _ _ _ _ _ _ _ _ H Hq) as Hq'.
  exists j. split_and!; [done|done|]. unfold written in H. destruct (exec e (CCreate p) s) as [s1 o] eqn:E.
  cbn [exec] in E. destruct (negb (e_os_ok e p)); [injection E as <- <-; by injection H as <- <-|].
  destruct (fs_nodes s !! p) as [[|i]|] eqn:Hp.
  - injection E as <- <-. by injection H as <- <-.
  - injection E as <- <-. injection H as <- <-. unfold set_data. cbn.
    assert (i <> j) by (intros ->; by apply Hne, (wf_inj s Hwf q p j)).
    by rewrite !lookup_insert_ne.
  - destruct (parent p) as [[p' c]|]; [|injection E as <- <-; by injection H as <- <-].
    destruct (is_dir s p'); [|injection E as <- <-; by injection H as <- <-]. injection E as <- <-. injection H as <- <-.
    unfold set_data. cbn. pose proof (wf_next s Hwf q j Hq). by rewrite !lookup_insert_ne by lia.
Qed.

Lemma written_wf e p d s s' ok : wf s -> written e p d s = (s', ok) -> wf s'.
Proof.
  intros Hwf H. unfold written in H. destruct (exec e (CCreate p) s) as [s1 o] eqn:E. pose proof (wf_exec' _ _ _ _ _ E Hwf).
  destruct o; injection H as <- <-; [by apply wf_set_data|done].
Qed.

(** Two writes after one another, the second only if wanted, repeated. *)
Lemma two_writes_again e p d q d' s s1 s2 : wf s1 -> written e p d s = (s1, true) -> written e q d' s1 = (s2, true) ->
  (written e p d s2).2 = true /\ written e q d' (written e p d s2).1 = (s2, true).
Proof.
  intros Hwf H1 H2. destruct (decide (q = p)) as [->|Hne].
  - pose proof (written_holds _ _ _ _ _ H2) as (i & Ho & Hp & Hd). unfold written. rewrite (create_again e p s2 i) by done.
    cbn [fst snd]. split; [done|]. rewrite set_data_set. rewrite (create_again e p _ i) by done. rewrite !set_data_set.
    by rewrite set_data_id.
  - pose proof (written_keeps e q d' s1 s2 true p d Hwf H2 ltac:(done) (written_holds _ _ _ _ _ H1)) as H3.
    rewrite (written_again _ _ _ _ H3). cbn [fst snd]. split; [done|]. apply written_again. by eapply written_holds.
Qed.

(** ** Folders *)

Lemma mkdirs_id p m : (forall q, q `prefix_of` p -> is_Some (m !! q)) -> mkdirs p m = m.
Proof.
  intros H. apply map_eq. intros q. rewrite mkdirs_lookup. destruct (decide _) as [[H1 H2]|]; [|done].
  apply H in H1 as [? H1]. congruence.
Qed.

Lemma dirs_again e p s s' : wf s -> wf s' -> run e (create_dir_all p) s = (s', Some tt) ->
  forall s2, wf s2 -> (forall q n, fs_nodes s' !! q = Some n -> fs_nodes s2 !! q = Some n) ->
  run e (create_dir_all p) s2 = (s2, Some tt).
Proof.
  intros Hwf Hwf' H s2 Hwf2 Hk. destruct (run_create_dir_all e p s Hwf) as [(Ho & Hn & H')|[_ H']]; rewrite H' in H; [|done].
  injection H as <-.
  assert (Hd : forall q, q `prefix_of` p -> fs_nodes s2 !! q = Some NDir).
  { intros q Hq. apply Hk. cbn. rewrite mkdirs_lookup. destruct (decide _) as [[_ ?]|Hnd]; [done|].
    destruct (fs_nodes s !! q) as [[|i]|] eqn:E; [done|by destruct (Hn q i)|]. by destruct Hnd. }
  destruct (run_create_dir_all e p s2 Hwf2) as [(_ & _ & H2)|[Hf _]].
  - rewrite H2. f_equal. unfold set_nodes. rewrite mkdirs_id; [by destruct s2|]. intros q Hq. rewrite Hd by done. by eexists.
  - destruct Hf. split; [done|]. intros q i Hq. by rewrite Hd.
Qed.

(** ** Uploads *)

Lemma run_put_written e b k sc cl md body p s : storage_class_ok sc = true -> ends_with_char "/" k = false ->
  get_object_path e b k = Some p ->
  run e (put_object e b k sc cl md (Some body)) s =
  match run e (match parent p with Some (dir, _) => create_dir_all dir | None => Ret (Some tt) end) s with
  | (s1, None) => (s1, Err InternalError)
  | (s1, Some _) =>
      match written e p (body_data body) s1 with
      | (s2, false) => (s2, Err InternalError)
      | (s2, true) =>
          if body_ok body then
            match match md with
                  | None => (s2, true)
                  | Some m => written e [metadata_name b k] (json_encode m) s2
                  end with
            | (s3, true) => (s3, Ok (APut (Some (etag_of (body_data body)))))
            | (s3, false) => (s3, Err InternalError)
            end
          else (s2, Err InternalError)
      end
  end.
Proof.
  intros Hsc Hk Hp. unfold put_object. rewrite Hsc, Hk, Hp. cbn [negb try_path]. rewrite run_try_io.
  destruct (run e (match parent p with Some (dir, _) => create_dir_all dir | None => Ret (Some tt) end) s) as [s1 [[]|]]; [|done].
  rewrite run_try_io, run_call. unfold written at 1. destruct (exec e (CCreate p) s1) as [s2 [i|]] eqn:E; [|done].
  apply create_file in E as (_ & Hd & _). rewrite run_try_io, run_copy_bytes_0 by done.
  destruct (body_ok body); [|done]. rewrite run_try_io. destruct md as [m|]; [|done].
  rewrite run_save_metadata. unfold written. destruct (exec e _ _) as [s3 [j|]]; done.
Qed.

Lemma storage_state e r s a : run e (storage e r) s = a -> after e r s = a.1.
Proof. by intros <-. Qed.

Lemma put_again e b k sc cl md body s : wf s -> repeatable e (RPutObject b k sc cl md body) s.
Proof.
  intros Hwf. unfold repeatable. pose proof (wf_after e (RPutObject b k sc cl md body) s Hwf) as Hwf'. revert Hwf'.
  unfold after. cbn [storage].
  destruct (storage_class_ok sc) eqn:Hsc; [|unfold put_object; by rewrite Hsc].
  destruct body as [body|]; [|unfold put_object; by rewrite Hsc].
  destruct (get_object_path e b k) as [p|] eqn:Hp.
  2:{ unfold put_object. rewrite Hsc, Hp. cbn [negb try_path]. destruct (ends_with_char _ _); [|done]. by destruct (bool_decide _). }
  destruct (ends_with_char "/" k) eqn:Hk.
  { unfold put_object. rewrite Hsc, Hk, Hp. cbn [negb try_path]. destruct (bool_decide _); [|done].
    rewrite !run_try_io. destruct (run e (create_dir_all p) s) as [s1 o] eqn:E. intros Hwf'.
    destruct o as [[]|]; cbn [run fst] in *.
    - by rewrite (dirs_again e p s s1 Hwf Hwf' E).
    - destruct (run_create_dir_all e p s Hwf) as [(_ & _ & H)|[_ H]]; rewrite H in E; [done|]. injection E as <-.
      by rewrite H. }
  intros _. rewrite !(run_put_written e b k sc cl md body p) by done.
  set (D := match parent p with Some (dir, _) => create_dir_all dir | None => Ret (Some tt) end).
  assert (HD : exists s1 o, run e D s = (s1, o) /\ wf s1 /\
    match o with None => s1 = s | Some _ => forall s2, wf s2 -> (forall q n, fs_nodes s1 !! q = Some n -> fs_nodes s2 !! q = Some n) -> run e D s2 = (s2, Some tt) end).
  { destruct (run e D s) as [s1 o] eqn:E. exists s1, o. pose proof (wf_run' _ _ _ _ _ E Hwf) as Hwf1. split; [done|]. split; [done|].
    unfold D in *. destruct (parent p) as [[dir c]|]; [|by injection E as <- <-].
    destruct o as [[]|]; [by apply (dirs_again e dir s s1)|].
    destruct (run_create_dir_all e dir s Hwf) as [(_ & _ & H)|[_ H]]; rewrite H in E; [done|]. by injection E as <-. }
  destruct HD as (s1 & o & HD & Hwf1 & HD2). rewrite HD. destruct o as [u|]; cbn [fst].
  2:{ subst s1. by rewrite HD. }
  destruct (written e p (body_data body) s1) as [s2 ok] eqn:E2.
  assert (Hk2 : forall q n, fs_nodes s1 !! q = Some n -> fs_nodes s2 !! q = Some n) by (intros q n; by apply (written_nodes _ _ _ _ _ _ _ _ E2)).
  pose proof (written_wf _ _ _ _ _ _ Hwf1 E2) as Hwf2.
  destruct ok; [|apply written_fail in E2 as Hs; subst s2; cbn [fst]; rewrite HD2 by done; by rewrite E2].
  destruct (body_ok body); [|cbn [fst]; rewrite HD2 by done; by rewrite (written_again _ _ _ _ (written_holds _ _ _ _ _ E2))].
  destruct md as [m|].
  2:{ cbn [fst]. rewrite HD2 by done. by rewrite (written_again _ _ _ _ (written_holds _ _ _ _ _ E2)). }
  destruct (written e [metadata_name b k] (json_encode m) s2) as [s3 ok3] eqn:E3.
  pose proof (written_wf _ _ _ _ _ _ Hwf2 E3) as Hwf3.
  destruct ok3; cbn [fst].
  - rewrite HD2; [|done|intros q n Hq; eapply written_nodes; [exact E3|by apply Hk2]].
    destruct (two_writes_again _ _ _ _ _ _ _ _ Hwf2 E2 E3) as [H4 H5].
    destruct (written e p (body_data body) s3) as [s4 ok4]. cbn [fst snd] in H4, H5. subst ok4. by rewrite H5.
  - apply written_fail in E3 as Hs. subst s3. rewrite HD2 by done.
    rewrite (written_again _ _ _ _ (written_holds _ _ _ _ _ E2)). by rewrite E3.
Qed.

(** ** Copies *)

Lemma run_copy_written e src dst s : wf s ->
  run e (copy_file e src dst) s =
  match content s src with
  | Some c =>
      if e_os_ok e src then
        match written e dst (if decide (src = dst) then [] else c) s with
        | (s1, true) => (s1, Some tt)
        | (s1, false) => (s1, None)
        end
      else (s, None)
  | None => (s, None)
  end.
Proof.
  intros Hwf. rewrite run_copy_file. destruct (content s src) as [c|] eqn:Hc; [|done]. destruct (e_os_ok e src); [|done].
  unfold written. destruct (exec e (CCreate dst) s) as [s1 [j|]] eqn:E; [|done]. do 3 f_equal.
  unfold content in Hc |- *. destruct (fs_nodes s !! src) as [[|i]|] eqn:Hn; [done| |done]. injection Hc as <-.
  cbn [exec] in E. destruct (negb (e_os_ok e dst)); [done|]. destruct (fs_nodes s !! dst) as [[|i']|] eqn:Hd; [done| |].
  - injection E as <- <-. cbn. rewrite Hn. unfold data_of. cbn. destruct (decide (src = dst)) as [->|Hne].
    + rewrite Hd in Hn. injection Hn as ->. by rewrite lookup_insert.
    + rewrite lookup_insert_ne; [done|]. intros ->. by apply Hne, (wf_inj s Hwf src dst i).
  - destruct (decide (src = dst)) as [->|Hne]; [congruence|].
    destruct (parent dst) as [[q x]|]; [|done]. destruct (is_dir s q); [|done]. injection E as <- <-. cbn.
    rewrite lookup_insert_ne, Hn by done. unfold data_of. cbn. rewrite lookup_insert_ne; [done|].
    pose proof (wf_next s Hwf src i Hn). lia.
Qed.

Lemma holds_content e p d s : holds e p d s -> content s p = Some d.
Proof. intros (i & _ & Hp & Hd). unfold content, data_of. by rewrite Hp, Hd. Qed.
Lemma written_content e p d s s' ok q c : wf s -> written e p d s = (s', ok) -> q <> p -> content s q = Some c -> content s' q = Some c.
Proof.
  intros Hwf H Hne Hc. unfold content in Hc |- *. destruct (fs_nodes s !! q) as [[|j]|] eqn:Hq; [done| |done].
  rewrite (written_nodes _ _ _ _ _ _ _ _ H Hq). injection Hc as <-. f_equal. unfold written in H.
  destruct (exec e (CCreate p) s) as [s1 o] eqn:E.
  cbn [exec] in E. destruct (negb (e_os_ok e p)); [injection E as <- <-; by injection H as <- <-|]. unfold data_of.
  destruct (fs_nodes s !! p) as [[|i]|] eqn:Hp.
  - injection E as <- <-. by injection H as <- <-.
  - injection E as <- <-. injection H as <- <-. unfold set_data. cbn.
    assert (i <> j) by (intros ->; by apply Hne, (wf_inj s Hwf q p j)).
    by rewrite !lookup_insert_ne.
  - destruct (parent p) as [[p' x]|]; [|injection E as <- <-; by injection H as <- <-].
    destruct (is_dir s p'); [|injection E as <- <-; by injection H as <- <-]. injection E as <- <-. injection H as <- <-.
    unfold set_data. cbn. pose proof (wf_next s Hwf q j Hq). by rewrite !lookup_insert_ne by lia.
Qed.


(* The state that a copy leaves. *)
Definition copied (e : env) (src dst src_md dst_md : path) (s : fs) : fs :=
  match content s src with
  | None => s
  | Some c =>
      if e_os_ok e src then
        match written e dst (if decide (src = dst) then [] else c) s with
        | (s1, false) => s1
        | (s1, true) =>
            if e_os_ok e src_md then
              match content s1 src_md with
              | None => s1
              | Some c' => (written e dst_md (if decide (src_md = dst_md) then [] else c') s1).1
              end
            else s1
        end
      else s
  end.

Lemma copied_spec e copy_source b k b' k' src dst s : wf s ->
  copy_source_from_header_str copy_source = Ok (b', k') ->
  get_object_path e b' k' = Some src -> get_object_path e b k = Some dst ->
  after e (RCopyObject copy_source b k) s = copied e src dst [metadata_name b' k'] [metadata_name b k] s.
Proof.
  intros Hwf Hcs Hsrc Hdst. unfold after. cbn [storage]. unfold copy_object, copied. rewrite Hcs, Hsrc, Hdst. cbn [try_path].
  rewrite run_try_io, run_call. cbn [exec]. unfold content at 1.
  destruct (e_os_ok e src) eqn:Ho; cbn [negb]; [|by destruct (fs_nodes s !! src) as [[|i]|]].
  destruct (fs_nodes s !! src) as [[|i]|] eqn:En; [| |done].
  { rewrite run_try_io, run_copy_written by done. unfold content. by rewrite En. }
  rewrite run_try_io, run_copy_written by done. unfold content at 1. rewrite En, Ho.
  destruct (written e dst _ s) as [s1 [|]] eqn:E1; [|done]. pose proof (written_wf _ _ _ _ _ _ Hwf E1) as Hwf1.
  rewrite !metadata_path. cbn [try_path]. rewrite run_bind, run_exists.
  assert (Htail : forall s2, (run e (try_io (get_md5_sum e b' k') (fun tag => Ret (Ok (ACopy tag)))) s2).1 = s2).
  { intros s2. rewrite run_try_io, (run_get_md5 e b' k' src) by done. by destruct (if e_os_ok e src then _ else _). }
  destruct (e_os_ok e [metadata_name b' k']) eqn:Hm; cbn [andb].
  - unfold content. case_bool_decide as Hex.
    + rewrite run_try_io, run_copy_written by done. rewrite Hm. unfold content.
      destruct (fs_nodes s1 !! [metadata_name b' k']) as [[|j]|]; [done| |done].
      destruct (written e [metadata_name b k] _ s1) as [s2 [|]]; [|done]. apply Htail.
    + apply eq_None_not_Some in Hex. rewrite Hex. rewrite run_try_io. cbn [run]. apply Htail.
  - rewrite run_try_io. cbn [run]. apply Htail.
Qed.

Lemma copied_again e src dst src_md dst_md s : wf s -> src <> dst_md -> dst <> dst_md -> dst <> src_md ->
  copied e src dst src_md dst_md (copied e src dst src_md dst_md s) = copied e src dst src_md dst_md s.
Proof.
  intros Hwf H1 H2 H3. unfold copied at 2 3. destruct (content s src) as [c|] eqn:Hc; [|unfold copied; by rewrite Hc].
  destruct (e_os_ok e src) eqn:Ho; [|unfold copied; by rewrite Hc, Ho].
  set (d := if decide (src = dst) then [] else c).
  destruct (written e dst d s) as [s1 ok] eqn:E1. pose proof (written_wf _ _ _ _ _ _ Hwf E1) as Hwf1.
  destruct ok.
  2:{ apply written_fail in E1 as Hs. subst s1. unfold copied. rewrite Hc, Ho. fold d. by rewrite E1. }
  (* the first part again *)
  assert (Hsrc1 : content s1 src = Some d).
  { unfold d in *. destruct (decide (src = dst)) as [->|Hne]; [by eapply holds_content, written_holds|].
    by apply (written_content e dst c s s1 true). }
  assert (Hd : forall s2, content s2 src = Some d -> holds e dst d s2 -> copied e src dst src_md dst_md s2 =
     if e_os_ok e src_md then
       match content s2 src_md with
       | None => s2
       | Some c' => (written e dst_md (if decide (src_md = dst_md) then [] else c') s2).1
       end
     else s2).
  { intros s2 Hs2 Hh. unfold copied. rewrite Hs2, Ho.
    assert ((if decide (src = dst) then [] else d) = d) as -> by (unfold d; by destruct (decide (src = dst))).
    by rewrite (written_again _ _ _ _ Hh). }
  pose proof (written_holds _ _ _ _ _ E1) as Hh1.
  destruct (e_os_ok e src_md) eqn:Hm; [|by rewrite Hd].
  destruct (content s1 src_md) as [c'|] eqn:Hc'; [|rewrite Hd, Hc' by done; done].
  set (d' := if decide (src_md = dst_md) then [] else c').
  destruct (written e dst_md d' s1) as [s2 ok2] eqn:E2. cbn [fst]. destruct ok2.
  2:{ apply written_fail in E2 as Hs. subst s2. rewrite (Hd s1) by done. rewrite Hc'. fold d'. by rewrite E2. }
  assert (Hsrc2 : content s2 src_md = Some d').
  { unfold d' in *. destruct (decide (src_md = dst_md)) as [->|Hne]; [by eapply holds_content, written_holds|].
    by apply (written_content e dst_md c' s1 s2 true). }
  rewrite Hd; [|by apply (written_content e dst_md d' s1 s2 true)|by apply (written_keeps e dst_md d' s1 s2 true)].
  rewrite Hsrc2. assert ((if decide (src_md = dst_md) then [] else d') = d') as -> by (unfold d'; by destruct (decide (src_md = dst_md))).
  by rewrite (written_again _ _ _ _ (written_holds _ _ _ _ _ E2)).
Qed.

Lemma copy_again e copy_source b k s : wf s -> legal_bucket b -> ordinary k ->
  (forall b' k', copy_source_from_header_str copy_source = Ok (b', k') -> ordinary k') ->
  repeatable e (RCopyObject copy_source b k) s.
Proof.
  intros Hwf Hb Hk Hsrc. unfold repeatable.
  destruct (copy_source_from_header_str copy_source) as [[b' k']|] eqn:Hcs.
  2:{ unfold after. cbn [storage]. unfold copy_object. by rewrite Hcs. }
  specialize (Hsrc b' k' eq_refl).
  assert (Hb' : legal_bucket b').
  { unfold copy_source_from_header_str in Hcs. destruct (re_bucket_key _) as [[b2 k2]|]; [|done].
    destruct (check_bucket_name b2) eqn:E; [|done]. destruct (check_key k2); [|done]. injection Hcs as <- <-.
    by apply check_bucket_name_spec. }
  destruct (ordinary_located k b Hk) as [dst Hdst]. destruct (ordinary_located k' b' Hsrc) as [src Hs].
  pose proof (located_path e _ _ _ (legal_bucket_segment _ Hb) Hdst) as Hp.
  pose proof (located_path e _ _ _ (legal_bucket_segment _ Hb') Hs) as Hp'.
  assert (Hwf' : wf (after e (RCopyObject copy_source b k) s)) by by apply wf_after.
  rewrite (copied_spec e copy_source b k b' k' src dst _ Hwf') by done.
  rewrite (copied_spec e copy_source b k b' k' src dst s Hwf) by done.
  apply copied_again; [done|by eapply located_not_meta|by eapply located_not_meta|by eapply located_not_meta].
Qed.

(** ** Parts, buckets and deletions *)

Lemma part_again e u n body s : repeatable e (RUploadPart u n body) s.
Proof.
  unfold repeatable, after. cbn [storage]. unfold upload_part. destruct body as [body|]; [|done].
  destruct (part_path e u n) as [p|]; [|done]. cbn [try_path].
  assert (H : forall s, (run e (try_io (call (CCreate p)) (fun i => try_io (copy_bytes e i 0 body) (fun _ =>
      Ret (Ok (APart (etag_of (body_data body))))))) s).1 = (written e p (body_data body) s).1).
  { intros s0. rewrite run_try_io, run_call. unfold written. destruct (exec e (CCreate p) s0) as [s1 [i|]] eqn:E; [|done].
    apply create_file in E as (_ & Hd & _). rewrite run_try_io, run_copy_bytes_0 by done. by destruct (body_ok body). }
  rewrite !H. destruct (written e p (body_data body) s) as [s1 ok] eqn:E. cbn [fst]. destruct ok.
  - by rewrite (written_again _ _ _ _ (written_holds _ _ _ _ _ E)).
  - apply written_fail in E as Hs. subst s1. by rewrite E.
Qed.

Lemma create_bucket_again e b s : legal_bucket b -> repeatable e (RCreateBucket b) s.
Proof.
  intros Hb. unfold repeatable, after. cbn [storage]. rewrite (run_create_bucket e b s Hb).
  destruct (e_os_ok e [b] && bool_decide (is_Some (fs_nodes s !! [b]))) eqn:E1; cbn [fst].
  - rewrite run_create_bucket, E1 by done. done.
  - destruct (e_os_ok e [b] && is_dir s []) eqn:E2; cbn [fst].
    + rewrite run_create_bucket by done. cbn [fs_nodes set_nodes]. rewrite lookup_insert.
      apply andb_true_iff in E2 as [-> _]. rewrite bool_decide_true by by eexists. done.
    + by rewrite run_create_bucket, E1, E2 by done.
Qed.

Lemma delete_bucket_again e b s : wf s -> tidy e s -> legal_bucket b -> repeatable e (RDeleteBucket b) s.
Proof.
  intros Hwf Ht Hb. unfold repeatable.
  assert (Hno : forall s, fs_nodes s !! [b] <> Some NDir -> after e (RDeleteBucket b) s = s).
  { intros s0 Hn. unfold after. cbn [storage]. unfold delete_bucket. rewrite bucket_path by by apply legal_bucket_segment.
    cbn [try_path]. rewrite run_bind, run_call. cbn [exec]. rewrite run_try_io.
    assert (run e (remove_dir_all (S (size (fs_nodes s0) + e_rounds e)) [b]) s0 = (s0, None)) as ->; [|done].
    cbn [remove_dir_all]. rewrite run_bind, run_call. cbn [exec].
    assert (is_dir s0 [b] = false) as -> by (unfold is_dir; by destruct (fs_nodes s0 !! [b]) as [[|i]|]).
    by rewrite andb_false_r. }
  destruct (decide (fs_nodes s !! [b] = Some NDir)) as [Hd|Hd]; [|rewrite (Hno s Hd); by apply Hno].
  apply Hno. pose proof (C37_delete_succeeds e b s Hwf Ht Hb Hd) as Ha.
  pose proof (C37_delete_effect e b s ADone Hwf Hb Ha) as [Hh _]. intros Hd'.
  unfold answer in Hh. cbn [storage] in Hh. unfold head_bucket in Hh. rewrite bucket_path in Hh by by apply legal_bucket_segment.
  cbn [try_path] in Hh. rewrite run_bind, run_exists, Hd' in Hh. rewrite bool_decide_true in Hh by by eexists.
  destruct (Ht [b]) as (_ & _ & Ho); [by eexists|]. by rewrite Ho in Hh.
Qed.

Lemma unlink_again e p s : (exec e (CUnlink p) (exec e (CUnlink p) s).1).1 = (exec e (CUnlink p) s).1.
Proof.
  cbn [exec]. destruct (e_os_ok e p) eqn:Ho; cbn [fst]; [|done].
  destruct (fs_nodes s !! p) as [[|i]|] eqn:E; cbn [fst]; rewrite ?E; [done| |done].
  cbn [fs_nodes set_nodes]. by rewrite lookup_delete.
Qed.

Lemma delete_again e b k s : wf s -> repeatable e (RDeleteObject b k) s.
Proof.
  intros Hwf. unfold repeatable, after. cbn [storage]. destruct (get_object_path e b k) as [p|] eqn:Hp.
  2:{ unfold delete_object. by rewrite Hp. }
  destruct (ends_with_char "/" k) eqn:Hk.
  2:{ assert (H : forall s, (run e (delete_object e b k) s).1 = (exec e (CUnlink p) s).1).
      { intros s0. rewrite (run_delete e b k p) by done. by destruct (exec e (CUnlink p) s0). }
      rewrite !H. apply unlink_again. }
  unfold delete_object. rewrite Hp, Hk. cbn [try_path].
  assert (H : forall s, (run e (try_io (call (CReadDir p)) (fun es => match es with
      | [] => try_io (call (CRmdir p)) (fun _ => Ret (Ok ADone)) | _ :: _ => Ret (Ok ADone) end)) s).1 =
      match (exec e (CReadDir p) s).2 with Some [] => (exec e (CRmdir p) s).1 | _ => s end).
  { intros s0. rewrite run_try_io, run_call.
    assert (Hs : exec e (CReadDir p) s0 = (s0, (exec e (CReadDir p) s0).2)) by (cbn [exec]; done).
    rewrite Hs. cbn [fst snd]. destruct (exec e (CReadDir p) s0).2 as [[|x es]|]; [|done|done].
    rewrite run_try_io, run_call. by destruct (exec e (CRmdir p) s0) as [s1 [u|]]. }
  rewrite !H. destruct (exec e (CReadDir p) s).2 as [[|x es]|] eqn:E; [|by rewrite E|by rewrite E].
  cbn [exec fst]. destruct (e_os_ok e p) eqn:Ho; cbn [fst]; [|cbn [exec snd] in E; by rewrite Ho in E].
  cbn [exec snd] in E. unfold is_dir at 1 in E. destruct (fs_nodes s !! p) as [[|i]|] eqn:Hn; cbn [fst]; [|by rewrite andb_false_r in E|by rewrite andb_false_r in E].
  case_bool_decide as Hch; cbn [fst].
  - unfold is_dir at 1. cbn [fs_nodes set_nodes]. by rewrite lookup_delete, andb_false_r.
  - unfold is_dir at 1. rewrite Hn. rewrite Ho in E. cbn [andb] in E |- *. rewrite E. by rewrite bool_decide_false.
Qed.

(** ** The storage *)

(* Copies are considered between ordinary keys only (a key with '..' may lead to a file that holds
   the metadata of the other); buckets have legal names. *)
Definition usual (r : s_req) : Prop :=
  match r with
  | RCreateBucket b | RDeleteBucket b => legal_bucket b
  | RCopyObject src b k => legal_bucket b /\ ordinary k /\
      forall b' k', src = b' ++ B "/" ++ k' -> legal_bucket b' -> ordinary k'
  | _ => True
  end.

Theorem C81_storage e r s : wf s -> tidy e s -> usual r ->
  match r with
  | RCompleteMultipartUpload _ _ _ _ | RDeleteObjects _ _ => True
  | _ => after e r (after e r s) = after e r s
  end.
Proof.
  intros Hwf Ht Hu. destruct r; cbn [usual] in Hu; try done;
    try (rewrite !C51_reads_leave_store by done; done).
  all: lazymatch goal with
    | |- after _ (RCopyObject _ _ _) _ = _ => destruct Hu as (Hb & Hk & Hs); apply copy_again; try done;
        intros b' k' (-> & Hb' & _)%copy_source_spec; by eapply Hs
    | |- after _ (RCreateBucket _) _ = _ => by apply create_bucket_again
    | |- after _ (RDeleteBucket _) _ = _ => by apply delete_bucket_again
    | |- after _ (RDeleteObject _ _) _ = _ => by apply delete_again
    | |- after _ (RPutObject _ _ _ _ _ _) _ = _ => by apply put_again
    | |- after _ (RUploadPart _ _ _) _ = _ => by apply part_again
    end.
Qed.
Print Assumptions C81_storage.

(** ** Requests *)

(* The methods that RFC 9110 calls idempotent, as far as the server knows them. *)
Definition idempotent_method (m : bytes) : Prop := m ∈ [B "GET"; B "HEAD"; B "PUT"; B "DELETE"].

Definition usual_request (rq : http_request) : Prop :=
  forall src b k, (B "x-amz-copy-source", src) ∈ rq_headers rq -> request_path rq (PObject b k) ->
    ordinary k /\ forall b' k', src = b' ++ B "/" ++ k' -> legal_bucket b' -> ordinary k'.

Lemma bucket_target rq b : request_path rq (PBucket b) -> legal_bucket b.
Proof. intros (uri & _ & _ & H). by inversion H. Qed.

Theorem C81_idempotent_methods e sv rq s : wf s -> tidy e s -> usual_request rq -> idempotent_method (rq_method rq) ->
  let s1 := (exchange e sv rq s).1 in (exchange e sv rq s1).1 = s1.
Proof.
  intros Hwf Ht Hu Hm s1. subst s1. destruct (front sv rq) as [er| |op c r] eqn:Ef.
  - unfold exchange, service. by rewrite Ef.
  - unfold exchange, service. by rewrite Ef.
  - rewrite !(exchange_call e sv rq _ op c r) by done. cbn [fst].
    pose proof (C58_called_as_asked _ _ _ _ _ Ef) as Ha.
    apply called_entered in Ef as (He & Hd & _). apply entered_ctx in He as (_ & Hcm & _).
    apply find_some in Hd as [_ Hd].
    assert (cx_method c <> B "POST") as Hp.
    { rewrite Hcm. intros H. rewrite H in Hm. revert Hm. unfold idempotent_method. by compute_done. }
    assert (usual r) as Hr.
    { inversion Ha; subst; cbn [usual]; try done; try (by eapply bucket_target).
      split; [by eapply object_request|]. by eapply Hu. }
    pose proof (C81_storage e r s Hwf Ht Hr) as H.
    inversion Ha; subst; try exact H.
    all: exfalso; unfold is_match in Hd; apply Hp; apply beq_true;
      repeat (apply andb_true_iff in Hd as [Hd _]); done.
Qed.
Print Assumptions C81_idempotent_methods.

(* Hence any number of repetitions does what one does. *)
Corollary C81_any_number e sv rq s n : wf s -> tidy e s -> usual_request rq -> idempotent_method (rq_method rq) ->
  (Nat.iter (S n) (fun s => (exchange e sv rq s).1) s) = (exchange e sv rq s).1.
Proof.
  intros Hwf Ht Hu Hm. induction n as [|n IH]; [done|].
  change (Nat.iter (S (S n)) (fun s => (exchange e sv rq s).1) s) with
    ((exchange e sv rq (Nat.iter (S n) (fun s => (exchange e sv rq s).1) s)).1).
  rewrite IH. by apply C81_idempotent_methods.
Qed.
Print Assumptions C81_any_number.

(** ** What may not be repeated *)

Definition ex_upload : bytes := B "67e55044-10b1-426f-9247-bb680e5fe0c8".

(* A completed upload destroys the object when the completion is sent once more. *)
Theorem C81_completion_refuted : exists e s b k u ps,
  let r := RCompleteMultipartUpload b k u (Some ps) in
  (exists x, answer e r s = Ok x) /\ content (after e r s) [b; k] = Some (B "onetwo") /\
  (exists c, answer e r (after e r s) = Err c) /\ content (after e r (after e r s)) [b; k] = Some [].
Proof.
  exists ex_env, (after_all ex_env [RCreateBucket (B "photos");
    RUploadPart ex_upload 1 (Some [FData (B "one")]); RUploadPart ex_upload 2 (Some [FData (B "two")])] empty_store),
    (B "photos"), (B "cat"), ex_upload, [Some 1%Z; Some 2%Z].
  vm_compute. repeat split; by eexists.
Qed.
Print Assumptions C81_completion_refuted.

(* A deletion that names a key twice stops there: sent again it deletes more. *)
Theorem C81_batch_delete_refuted : exists e s b ks,
  let r := RDeleteObjects b ks in
  content s [b; B "dog"] = Some (B "2") /\ content (after e r s) [b; B "dog"] = Some (B "2") /\
  content (after e r (after e r s)) [b; B "dog"] = None.
Proof.
  exists ex_env, (after_all ex_env [RPutObject (B "photos") (B "cat") None None None (Some [FData (B "1")]);
    RPutObject (B "photos") (B "dog") None None None (Some [FData (B "2")])] empty_store), (B "photos"),
    [B "cat"; B "cat"; B "dog"].
  vm_compute. done.
Qed.
Print Assumptions C81_batch_delete_refuted.

(** ** Example *)

Example ex_repeated :
  let put := ex_put_object (B "/bkt/dir/a") [(B "x-amz-meta-owner", B "me")] (B "hello") in
  let copy := ex_put_object (B "/bkt/b") [(B "x-amz-copy-source", B "bkt/dir/a")] [] in
  let s1 := after_requests ex_env [(ex_open_server, put); (ex_open_server, copy)] empty_store in
  content s1 [B "bkt"; B "b"] = Some (B "hello") /\ usual_request copy /\ idempotent_method (rq_method copy) /\
  after_requests ex_env [(ex_open_server, copy); (ex_open_server, copy)] s1 = s1.
Proof.
  cbv zeta. split; [by vm_compute|]. split; [|split].
  - intros src b k [= ->]%elem_of_list_singleton Hp.
    assert (request_path (ex_put_object (B "/bkt/b") [(B "x-amz-copy-source", B "bkt/dir/a")] []) (PObject (B "bkt") (B "b"))) as Hq.
    { apply request_path_spec. eexists. split; vm_compute; reflexivity. }
    apply request_path_spec in Hp as (u & Hu & Hp). apply request_path_spec in Hq as (u' & Hu' & Hq).
    rewrite Hu in Hu'. injection Hu' as <-. rewrite Hp in Hq. injection Hq as -> ->. split.
    + exists [B "b"]. by split_and!; try compute_done.
    + intros b' k' H Hb.
      assert (b' = B "bkt" /\ k' = B "dir/a") as [-> ->].
      { assert ("/"%char ∉ b') as Hs.
        { destruct Hb as (_ & Ha & _). intros H'. apply Ha in H'. revert H'. compute_done. }
        clear Hb. do 4 (destruct b' as [|? b']; [cbn in H; try discriminate H; simplify_eq/=; try done|]).
        all: cbn in H; simplify_eq/=. exfalso. apply Hs. by repeat constructor. }
      exists [B "dir"; B "a"]. by split_and!; try compute_done.
  - compute_done.
  - assert (forall a b : fs, fs_nodes a = fs_nodes b -> fs_data a = fs_data b -> fs_next a = fs_next b -> a = b) as Heq.
    { intros [] []; cbn. by intros -> -> ->. }
    apply Heq; apply (bool_decide_unpack _); vm_compute; done.
Qed.
