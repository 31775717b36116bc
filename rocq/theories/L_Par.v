(** Concurrent tasks: what each may rely on, and what holds of all interleavings. *)
From Verif Require Import M_Base M_Path M_Headers M_Chunked M_BytesStream M_Crypto M_Fs M_Json M_Utf8 M_Storage
  S_Path S_Chunked S_Storage S_Store L_Base L_Fs L_Storage L_Scope L_Names L_Ops L_Results L_Rely L_Chunked.

Local Opaque md5 etag_of json_decode json_encode metadata_name part_name.

Lemma untouched_weaken (F D X F' D' X' : path -> Prop) s s' :
  (forall p, F p -> F' p) -> (forall p, D p -> D' p) -> (forall p, X p -> X' p) ->
  untouched F D X s s' -> untouched F' D' X' s s'.
Proof. intros HF HD HX [H1 H2 H3 H4 H5]. split; intros; [apply H1|apply H2|apply H3|apply H4|apply H5]; auto. Qed.

(* New entries get a new inode. *)
Lemma exec_inodes e {R} (c : syscall R) s : (fs_next s <= fs_next (exec e c s).1)%N /\
  forall p i, fs_nodes (exec e c s).1 !! p = Some (NFile i) -> fs_nodes s !! p = Some (NFile i) \/ (fs_next s <= i)%N.
Proof.
  assert (H0 : (fs_next s <= fs_next s)%N /\
    forall p i, fs_nodes s !! p = Some (NFile i) -> fs_nodes s !! p = Some (NFile i) \/ (fs_next s <= i)%N).
  { split; [lia|]. auto. }
  destruct c; cbn [exec]; try exact H0; try (by destruct h).
  - destruct (e_os_ok e p); cbn [negb]; [|exact H0].
    destruct (fs_nodes s !! p) as [[|i]|] eqn:Hp; cbn [fst]; [exact H0| |].
    + cbn. split; [lia|]. auto.
    + destruct (parent p) as [[q c]|]; [|exact H0]. destruct (is_dir s q); [|exact H0]. cbn. split; [lia|].
      intros p' i. destruct (decide (p' = p)) as [->|Hne].
      * rewrite lookup_insert. intros [= <-]. right. lia.
      * rewrite lookup_insert_ne by done. auto.
  - destruct (e_os_ok e p); cbn [negb]; [|exact H0].
    destruct (fs_nodes s !! p) as [n|] eqn:Hp; [exact H0|]. destruct (has_parent s p); [|exact H0]. cbn. split; [lia|].
    intros p' i. destruct (decide (p' = p)) as [->|Hne]; [by rewrite lookup_insert|].
    rewrite lookup_insert_ne by done. auto.
  - destruct (e_os_ok e p); [|exact H0].
    destruct (fs_nodes s !! p) as [[|i]|] eqn:Hp; [exact H0| |exact H0]. cbn. split; [lia|].
    intros p' j. rewrite lookup_delete_Some. naive_solver.
  - destruct (e_os_ok e p); [|exact H0].
    destruct (fs_nodes s !! p) as [[|i]|] eqn:Hp; [|exact H0|exact H0].
    case_bool_decide; [|exact H0]. cbn. split; [lia|].
    intros p' j. rewrite lookup_delete_Some. naive_solver.
Qed.

Lemma owns_exec e {R} (c : syscall R) F own s : owns F own s -> owns F own (exec e c s).1.
Proof.
  destruct (exec_inodes e c s) as [H1 H2]. intros [H3 H4]. split.
  - intros i Hi. specialize (H3 i Hi). lia.
  - intros p i Hi Hp. destruct (H2 p i Hp) as [H|H]; [by eapply H4|]. specialize (H3 i Hi). lia.
Qed.

Section par.
  Context (e : env) {A : Type} (faults : Prop) (F D X : nat -> path -> Prop).

  (* What task [i] may rely on: the others change only what they are allowed to. *)
  Definition others (i : nat) (s s' : fs) : Prop :=
    (wf s -> wf s') /\
    untouched (fun p => exists j, j <> i /\ F j p) (fun p => exists j, j <> i /\ D j p)
      (fun p => exists j, j <> i /\ X j p) s s'.

  Lemma others_refl i s : others i s s.
  Proof. split; [done|apply untouched_refl]. Qed.
  Lemma others_trans i s1 s2 s3 : others i s1 s2 -> others i s2 s3 -> others i s1 s3.
  Proof. intros [H1 H2] [H3 H4]. split; [auto|by eapply untouched_trans]. Qed.

  Context (I : nat -> fs -> Prop) (Q : nat -> A -> fs -> Prop).

  Definition par_inv (s : fs) (ms : list (prog A)) : Prop :=
    wf s /\ forall i m, ms !! i = Some m -> exists own : N -> Prop,
      owns (F i) own s /\ scoped (F i) (D i) (X i) own m /\ rg e faults (others i) (I i) (Q i) m s.

  Lemma par_init s ms : wf s ->
    (forall i m, ms !! i = Some m -> scoped (F i) (D i) (X i) no_own m /\ rg e faults (others i) (I i) (Q i) m s) ->
    par_inv s ms.
  Proof.
    intros Hwf H. split; [done|]. intros i m Hm. destruct (H i m Hm). exists no_own. by split; [split|].
  Qed.

  Lemma par_move s ms i m s1 m1 : par_inv s ms -> ms !! i = Some m -> wf s1 ->
    (exists own : N -> Prop, owns (F i) own s1 /\ scoped (F i) (D i) (X i) own m1) ->
    rg e faults (others i) (I i) (Q i) m1 s1 ->
    untouched (F i) (D i) (X i) s s1 ->
    (forall P own, owns P own s -> owns P own s1) ->
    par_inv s1 (<[i := m1]> ms).
  Proof.
    intros [Hwf Hms] Hi Hwf1 (own & Ho & Hsc) Hrg Hu Hown. split; [done|].
    intros j mj Hj. destruct (decide (i = j)) as [<-|Hne].
    - rewrite list_lookup_insert in Hj by by eapply lookup_lt_Some. injection Hj as <-. by exists own.
    - rewrite list_lookup_insert_ne in Hj by done. destruct (Hms j mj Hj) as (own' & Ho' & Hsc' & Hrg').
      exists own'. split; [by apply Hown|]. split; [done|].
      apply (rg_stable e faults (others j) (I j) (others_trans j) (Q j) mj s s1 Hrg').
      split; [done|]. eapply untouched_weaken; [..|exact Hu]; intros p Hp; by exists i.
  Qed.

  Lemma par_exec s ms i {R} (c : syscall R) k : par_inv s ms -> ms !! i = Some (Do c k) ->
    par_inv (exec e c s).1 (<[i := k (exec e c s).2]> ms).
  Proof.
    intros Hinv Hi. pose proof Hinv as [Hwf Hms]. destruct (Hms i _ Hi) as (own & Ho & Hsc & Hrg).
    destruct (Hrg s (others_refl i s)) as (_ & Hrg1 & _).
    pose proof (scoped_exec e c k _ _ _ own s Hwf Ho Hsc) as H.
    eapply par_move; [done|exact Hi|by apply wf_exec| |exact Hrg1| |].
    - destruct (exec e c s) as [s1 r]. destruct H as (_ & own' & _ & H1 & H2). by exists own'.
    - destruct (exec e c s) as [s1 r]. apply H.
    - intros P own'. apply owns_exec.
  Qed.

  Lemma par_fault s ms i {R} (c : syscall R) k : faults -> par_inv s ms -> ms !! i = Some (Do c k) ->
    par_inv s (<[i := k (fail_of c)]> ms).
  Proof.
    intros Hf Hinv Hi. pose proof Hinv as [Hwf Hms]. destruct (Hms i _ Hi) as (own & Ho & Hsc & Hrg).
    destruct (Hrg s (others_refl i s)) as (_ & _ & Hrg1).
    eapply par_move; [done|exact Hi|done| |by apply Hrg1|apply untouched_refl|done].
    exists own. split; [done|]. by apply scoped_fail.
  Qed.

  Lemma par_result s ms i a : par_inv s ms -> ms !! i = Some (Ret a) -> Q i a s.
  Proof. intros [_ Hms] Hi. destruct (Hms i _ Hi) as (_ & _ & _ & Hrg). by apply (Hrg s (others_refl i s)). Qed.
  Lemma par_always s ms i m : par_inv s ms -> ms !! i = Some m -> I i s.
  Proof.
    intros [_ Hms] Hi. destruct (Hms i _ Hi) as (_ & _ & _ & Hrg). destruct m; by apply (Hrg s (others_refl i s)).
  Qed.

  Lemma par_psteps s ms s' ms' : faults -> par_inv s ms -> psteps e s ms s' ms' -> par_inv s' ms'.
  Proof.
    intros Hf Hinv Hst. revert Hinv. induction Hst as [s ms|s ms i m s1 m1 s2 ms2 Hi Hstep Hst IH]; intros Hinv; [done|].
    apply IH. destruct m as [a|R c k]; [done|]. destruct Hstep as [Hstep|Hstep].
    - pose proof (par_exec s ms i c k Hinv Hi) as H. destruct (exec e c s). injection Hstep as -> ->. exact H.
    - injection Hstep as -> ->. by apply par_fault.
  Qed.

  Lemma par_untouched s ms s' ms' : faults -> par_inv s ms -> psteps e s ms s' ms' ->
    untouched (fun p => exists i, F i p) (fun p => exists i, D i p) (fun p => exists i, X i p) s s'.
  Proof.
    intros Hf Hinv Hst. revert Hinv. induction Hst as [s ms|s ms i m s1 m1 s2 ms2 Hi Hstep Hst IH]; intros Hinv.
    - apply untouched_refl.
    - assert (H1 : psteps e s ms s1 (<[i := m1]> ms)) by (econstructor; [done|done|constructor]).
      eapply untouched_trans; [|apply IH; by eapply par_psteps].
      destruct Hinv as [Hwf Hms]. destruct (Hms i _ Hi) as (own & Ho & Hsc & _).
      destruct (scoped_step e m _ _ _ own s s1 m1 Hwf Ho Hsc Hstep) as [Hu _].
      eapply untouched_weaken; [..|exact Hu]; intros p Hp; by exists i.
  Qed.

  Lemma par_run_sched sched s ms : par_inv s ms ->
    par_inv (run_sched e sched s ms).1 (run_sched e sched s ms).2.
  Proof.
    revert s ms. induction sched as [|i sched IH]; intros s ms Hinv; [done|]. cbn [run_sched].
    destruct (ms !! i) as [[a|R c k]|] eqn:Hi; [by apply IH| |by apply IH].
    pose proof (par_exec s ms i c k Hinv Hi) as H. destruct (exec e c s) as [s1 r]. by apply IH.
  Qed.
End par.

(** ** PutObject succeeds *)

Section live.
  Context (e : env) (R : fs -> fs -> Prop) (dir : path) (c mn : bytes).
  Context (R_refl : forall s, R s s).
  Context (Hmn : forall q, q `prefix_of` dir -> q <> [mn]).
  Context (Hos : e_os_ok e (dir ++ [c]) = true).

  (* The store in which the put can succeed. *)
  Definition ready (s : fs) : Prop :=
    wf s /\ fs_nodes s !! [] = Some NDir /\ no_file_above s dir /\
    fs_nodes s !! (dir ++ [c]) <> Some NDir /\ fs_nodes s !! [mn] <> Some NDir.
  Context (R_ready : forall s s', R s s' -> ready s -> ready s').
  Context (R_dir : forall s s' q, R s s' -> fs_nodes s !! q = Some NDir -> fs_nodes s' !! q = Some NDir).

  Lemma above_ne q : q `prefix_of` dir -> q <> dir ++ [c].
  Proof. intros [r Hr] H. apply (f_equal length) in H, Hr. rewrite app_length in H, Hr. cbn in H. lia. Qed.

  Lemma os_above q : q `prefix_of` dir -> e_os_ok e q = true.
  Proof. intros [r Hr]. apply (e_os_prefix e q (r ++ [c])). by rewrite app_assoc, <- Hr. Qed.

  Lemma ready_untouched s s' : ready s -> wf s' ->
    untouched (fun q => q = dir ++ [c] \/ q = [mn]) (fun q => q `prefix_of` dir) (fun _ => False) s s' -> ready s'.
  Proof.
    intros (Hwf & Hr & Hn & Hp & Hm) Hwf' Hu. split; [done|]. split; [by apply (un_dir _ _ _ _ _ Hu); auto|]. split_and!.
    - intros q i Hq Hi. apply (Hn q i Hq).
      assert (Hc : content s' q = content s q).
      { apply (un_content _ _ _ _ _ Hu). intros [->| ->]; [by eapply above_ne|by eapply Hmn]. }
      unfold content in Hc. rewrite Hi in Hc. destruct (fs_nodes s !! q) as [[|j]|] eqn:E; [done| |done].
      exfalso. by apply (Hn q j).
    - intros Hd. apply Hp. apply (un_new_dir _ _ _ _ _ Hu); [|done]. intros Hq. by eapply above_ne.
    - intros Hd. apply Hm. apply (un_new_dir _ _ _ _ _ Hu); [|done]. intros Hq. by eapply Hmn.
  Qed.

  Lemma ready_mkdir q s : q `prefix_of` dir -> ready s -> ready (exec e (CMkdir q) s).1.
  Proof.
    intros Hq Hs. eapply ready_untouched; [done|apply wf_exec, Hs|].
    pose proof (scoped_run e (call (CMkdir q)) (fun q => q = dir ++ [c] \/ q = [mn]) (fun q => q `prefix_of` dir)
      (fun _ => False) s ltac:(apply Hs)) as H. rewrite run_call in H. apply H. cbn. done.
  Qed.
  Lemma ready_create q s : q = dir ++ [c] \/ q = [mn] -> ready s -> ready (exec e (CCreate q) s).1.
  Proof.
    intros Hq Hs. eapply ready_untouched; [done|apply wf_exec, Hs|].
    pose proof (scoped_run e (call (CCreate q)) (fun q => q = dir ++ [c] \/ q = [mn]) (fun q => q `prefix_of` dir)
      (fun _ => False) s ltac:(apply Hs)) as H. rewrite run_call in H. apply H. cbn. done.
  Qed.
  Lemma ready_write i off b s : ready s -> ready (exec e (CWrite i off b) s).1.
  Proof.
    intros ([W1 W2 W3] & H1 & H2 & H3). cbn [exec fst]. split; [by split|]. done.
  Qed.

  (* Trying to make a directory whose parent exists, then looking at it. *)
  Lemma mkdir_ok q s : q `prefix_of` dir -> ready s -> has_parent s q = true ->
    fs_nodes (exec e (CMkdir q) s).1 !! q = Some NDir /\
    ((exec e (CMkdir q) s).2 = MkOk \/ (exec e (CMkdir q) s).2 = MkOther).
  Proof.
    intros Hq (_ & _ & Hn & _) Hpar. cbn [exec]. rewrite os_above by done. cbn [negb].
    destruct (fs_nodes s !! q) as [[|i]|] eqn:E.
    - cbn. auto.
    - by apply Hn in E.
    - rewrite Hpar. cbn. rewrite lookup_insert. auto.
  Qed.

  Lemma live_stat q s : q `prefix_of` dir -> ready s -> fs_nodes s !! q = Some NDir ->
    rg e False R ready (fun o s' => o = Some tt /\ fs_nodes s' !! q = Some NDir)
      (bind (call (CStat q)) (fun st => match st with Some (true, _) => Ret (Some tt) | _ => Ret None end)) s.
  Proof.
    intros Hq Hs Hd s' Hr. assert (ready s') by by eapply R_ready. split; [done|]. split; [|done].
    cbn [exec fst snd]. rewrite os_above by done. cbn [negb]. rewrite (R_dir s s' q) by done.
    intros s'' Hr'. split; [by eapply R_ready|]. split; [done|]. eapply R_dir; [done|]. by eapply R_dir.
  Qed.

  Lemma live_create_dir_all_rev rp : rev rp `prefix_of` dir -> forall s, ready s ->
    rg e False R ready (fun o s' => o = Some tt /\ fs_nodes s' !! rev rp = Some NDir) (create_dir_all_rev rp) s.
  Proof.
    induction rp as [|x rp IH]; intros Hp s Hs.
    - cbn [create_dir_all_rev]. intros s' Hr. assert (Hs' : ready s') by by eapply R_ready. split; [done|].
      split; [|done]. cbn [exec rev]. rewrite os_above by done. cbn [negb]. destruct Hs' as (Hw & Hroot & Hs').
      rewrite Hroot. cbn [fst snd]. apply (live_stat []); [done|done|done].
    - set (q := rev (x :: rp)) in *. assert (Hq' : rev rp `prefix_of` dir).
      { etrans; [|exact Hp]. unfold q. cbn [rev]. by eexists. }
      assert (Hpar : parent q = Some (rev rp, x)) by (unfold q; cbn [rev]; apply parent_snoc).
      assert (Htail : forall t, ready t -> fs_nodes t !! rev rp = Some NDir -> forall (f : mkdir_result -> prog (option unit)),
        f MkOk = Ret (Some tt) -> f MkOther = bind (call (CStat q)) (fun st => match st with Some (true, _) => Ret (Some tt) | _ => Ret None end) ->
        rg e False R ready (fun o s' => o = Some tt /\ fs_nodes s' !! q = Some NDir) (bind (call (CMkdir q)) f) t).
      { intros t Ht Hd f Hf1 Hf2 t' Hr. assert (Ht' : ready t') by by eapply R_ready. split; [done|]. split; [|done].
        cbn [bind].
        assert (Hpt : has_parent t' q = true).
        { unfold has_parent. rewrite Hpar. apply is_dir_true. by eapply R_dir. }
        destruct (mkdir_ok q t' Hp Ht' Hpt) as [Hdq [Ho|Ho]]; rewrite Ho.
        - rewrite Hf1. intros t'' Hr'. assert (ready t'') by (eapply R_ready; [done|]; by apply ready_mkdir).
          split; [done|]. split; [done|]. by eapply R_dir.
        - rewrite Hf2. apply live_stat; [done|by apply ready_mkdir|done]. }
      cbn [create_dir_all_rev]. fold q. intros s' Hr. assert (Hs' : ready s') by by eapply R_ready.
      split; [done|]. split; [|done]. cbn [bind].
      pose proof (ready_mkdir q s' Hp Hs') as Hs1.
      destruct (has_parent s' q) eqn:Hh.
      + destruct (mkdir_ok q s' Hp Hs' Hh) as [Hdq [Ho|Ho]]; rewrite Ho.
        * intros s'' Hr'. assert (ready s'') by by eapply R_ready. split; [done|]. split; [done|]. by eapply R_dir.
        * by apply live_stat.
      + destruct Hs' as (Hw & Hroot & Hn & Hrest).
        assert (Hnone : fs_nodes s' !! q = None).
        { destruct (fs_nodes s' !! q) eqn:E; [|done]. exfalso.
          unfold has_parent in Hh. rewrite Hpar in Hh.
          assert (Hx : fs_nodes s' !! rev rp = Some NDir).
          { apply (wf_parent s' Hw _ x). unfold q in E. cbn [rev] in E. by rewrite E. }
          apply is_dir_true in Hx. congruence. }
        assert (Hex : exec e (CMkdir q) s' = (s', MkNotFound)).
        { cbn [exec]. rewrite os_above by done. cbn [negb]. rewrite Hnone, Hh, Hpar.
          destruct (fs_nodes s' !! rev rp) as [[|i]|] eqn:E; [|by apply Hn in E|done].
          unfold has_parent in Hh. rewrite Hpar in Hh. apply is_dir_true in E. congruence. }
        rewrite Hex in *. cbn [fst snd] in *.
        apply (rg_bind e False R ready R_refl (fun o t => o = Some tt /\ ready t /\ fs_nodes t !! rev rp = Some NDir)).
        * eapply rg_impl; [by apply IH|done|]. cbn beta. naive_solver.
        * intros o t (-> & Ht & Hd). by apply Htail.
  Qed.

  Lemma live_create_dir_all s : ready s ->
    rg e False R ready (fun o s' => o = Some tt /\ fs_nodes s' !! dir = Some NDir) (create_dir_all dir) s.
  Proof.
    intros Hs. pose proof (live_create_dir_all_rev (rev dir)) as H. rewrite rev_involutive in H. by apply H.
  Qed.

  Lemma live_create q s : (q = dir ++ [c] /\ fs_nodes s !! dir = Some NDir) \/ q = [mn] -> e_os_ok e q = true -> ready s ->
    rg e False R ready (fun o _ => is_Some o) (call (CCreate q)) s.
  Proof.
    intros Hq Ho Hs. apply rg_call. intros s' Hr. assert (Hs' : ready s') by by eapply R_ready. split; [done|].
    split; [|done]. intros s'' Hr'. split.
    { eapply R_ready; [done|]. apply ready_create; [naive_solver|done]. }
    cbn [exec]. rewrite Ho. cbn [negb]. destruct Hs' as (Hw & Hroot & Hn & Hp & Hm).
    assert (Hnd : fs_nodes s' !! q <> Some NDir) by (by destruct Hq as [[-> _]| ->]).
    destruct (fs_nodes s' !! q) as [[|i]|]; [done|by eexists|].
    assert (Hpar : exists r y, parent q = Some (r, y) /\ is_dir s' r = true).
    { destruct Hq as [[-> Hd]| ->].
      - rewrite parent_snoc. do 2 eexists. split; [done|]. apply is_dir_true. by eapply R_dir.
      - change [mn] with ([] ++ [mn]). rewrite parent_snoc. do 2 eexists. split; [done|]. by apply is_dir_true. }
    destruct Hpar as (r & y & -> & Hd). rewrite Hd. cbn. by eexists.
  Qed.

  Lemma live_write_pieces i ps : forall off s, ready s ->
    rg e False R ready (fun o _ => is_Some o) (write_pieces i off ps) s.
  Proof.
    induction ps as [|b ps IH]; intros off s Hs; cbn [write_pieces]; intros s' Hr;
      (assert (ready s') by by eapply R_ready); (split; [done|]).
    - by eexists.
    - split; [|done]. cbn [exec snd]. apply IH. by apply ready_write.
  Qed.

  Lemma live_copy_bytes i body : broken body = false -> forall off s, ready s ->
    rg e False R ready (fun o _ => is_Some o) (copy_bytes e i off body) s.
  Proof.
    intros Hb. induction body as [|[b|] body IH]; intros off s Hs; cbn [copy_bytes].
    - intros s' Hr. assert (ready s') by by eapply R_ready. split; [done|]. by eexists.
    - apply (rg_bind e False R ready R_refl (fun o t => is_Some o /\ ready t)).
      + eapply rg_impl; [by apply live_write_pieces|done|]. naive_solver.
      + intros o t [[off' ->] Ht]. apply IH; [|done]. by rewrite broken_cons_data in Hb.
    - done.
  Qed.

  Lemma live_put b k sc cl md body s : dir <> [] -> legal_bucket b -> located b k (dir ++ [c]) -> mn = metadata_name b k ->
    storage_class_ok sc = true -> broken body = false -> (is_Some md -> e_os_ok e [mn] = true) -> ready s ->
    rg e False R ready (fun r _ => exists a, r = Ok a) (storage e (RPutObject b k sc cl md (Some body))) s.
  Proof.
    intros Hdir Hb Hl Hmeq Hsc Hbr Hom Hs. cbn [storage]. unfold put_object. rewrite Hsc. cbn [negb].
    rewrite ordinary_no_slash_end by by eapply located_ordinary.
    rewrite (located_path e b k (dir ++ [c])) by (try done; by apply legal_bucket_segment). cbn [try_path].
    rewrite parent_snoc. unfold try_io at 1.
    apply (rg_bind e False R ready R_refl (fun o t => o = Some tt /\ ready t /\ fs_nodes t !! dir = Some NDir)).
    { eapply rg_impl; [by apply live_create_dir_all|done|]. cbn beta. naive_solver. }
    intros o s1 (-> & Hs1 & Hd1). unfold try_io at 1.
    apply (rg_bind e False R ready R_refl (fun o t => is_Some o /\ ready t)).
    { eapply rg_impl; [apply live_create; [by left|done|done]|done|]. naive_solver. }
    intros o s2 [[i ->] Hs2]. unfold try_io at 1.
    apply (rg_bind e False R ready R_refl (fun o t => is_Some o /\ ready t)).
    { eapply rg_impl; [by apply live_copy_bytes|done|]. naive_solver. }
    intros o s3 [[off ->] Hs3]. unfold try_io at 1.
    apply (rg_bind e False R ready R_refl (fun o t => is_Some o /\ ready t)).
    { destruct md as [m|].
      - unfold save_metadata. rewrite metadata_path, <- Hmeq. unfold write_file.
        apply (rg_bind e False R ready R_refl (fun o t => is_Some o /\ ready t)).
        { eapply rg_impl; [apply live_create; [by right|by apply Hom|done]|done|]. naive_solver. }
        intros o s4 [[j ->] Hs4]. apply (rg_bind e False R ready R_refl (fun o t => is_Some o /\ ready t)).
        { eapply rg_impl; [by apply live_write_pieces|done|]. naive_solver. }
        intros o s5 [[? ->] Hs5] s6 Hr. assert (ready s6) by by eapply R_ready. split; [done|]. split; [by eexists|done].
      - intros s4 Hr. assert (ready s4) by by eapply R_ready. split; [done|]. split; [by eexists|done]. }
    intros o s4 [[u ->] Hs4] s5 Hr. split; [by eapply R_ready|]. by eexists.
  Qed.
End live.

(** ** Programs that only look *)

(* The program looks at paths in [P] only, and at the handles [hs] and those it opens. *)
Fixpoint looks {A} (P : path -> Prop) (hs : handle -> Prop) (m : prog A) {struct m} : Prop :=
  match m with
  | Ret _ => True
  | Do c k =>
      match c in syscall R return (R -> prog A) -> Prop with
      | CExists p => fun k => P p /\ forall r, looks P hs (k r)
      | CStat p => fun k => P p /\ forall r, looks P hs (k r)
      | COpen p => fun k => P p /\ forall r, looks P (fun h => hs h \/ r = Some h) (k r)
      | CLen h => fun k => hs h /\ forall r, looks P hs (k r)
      | CRead h _ => fun k => hs h /\ forall r, looks P hs (k r)
      | CBound h => fun k => hs h /\ forall r, looks P hs (k r)
      | _ => fun _ => False
      end k
  end.

Lemma looks_weaken {A} P (m : prog A) : forall (hs hs' : handle -> Prop), (forall h, hs h -> hs' h) -> looks P hs m -> looks P hs' m.
Proof.
  induction m as [a|X c k IH]; [done|]. intros hs hs' Hh. destruct c; cbn [looks]; try done.
  - intros [? H]. split; [done|]. intros r. eapply IH; [done|apply H].
  - intros [? H]. split; [done|]. intros r. eapply IH; [done|apply H].
  - intros [? H]. split; [done|]. intros r. eapply IH; [|apply H]. naive_solver.
  - intros [? H]. split; [auto|]. intros r. eapply IH; [done|apply H].
  - intros [? H]. split; [auto|]. intros r. eapply IH; [done|apply H].
  - intros [? H]. split; [auto|]. intros r. eapply IH; [done|apply H].
Qed.

Lemma looks_bind {A B} P (f : A -> prog B) (m : prog A) : forall hs : handle -> Prop, looks P hs m ->
  (forall a (hs' : handle -> Prop), (forall h, hs h -> hs' h) -> looks P hs' (f a)) -> looks P hs (bind m f).
Proof.
  induction m as [a|X c k IH]; intros hs Hm Hf; cbn [bind]; [by apply Hf|].
  destruct c; cbn [looks] in *; try done; destruct Hm as [? Hm]; (split; [done|]); intros r; apply IH; auto.
Qed.

Definition sees (P : path -> Prop) (s s' : fs) : Prop :=
  forall p, P p -> fs_nodes s' !! p = fs_nodes s !! p /\ content s' p = content s p.

Definition opened (P : path -> Prop) (s : fs) (h : handle) : Prop :=
  match h with
  | HDir _ => True
  | HFile i => exists p, P p /\ fs_nodes s !! p = Some (NFile i)
  end.

Lemma sees_data P s s' p i : sees P s s' -> P p -> fs_nodes s !! p = Some (NFile i) -> data_of s' i = data_of s i.
Proof.
  intros Hs Hp Hn. destruct (Hs p Hp) as [H1 H2]. unfold content in H2. rewrite H1, Hn in H2. by injection H2.
Qed.

Lemma rg_looks e {A} (R : fs -> fs -> Prop) P s0 (m : prog A) :
  (forall s1 s2 s3, R s1 s2 -> R s2 s3 -> R s1 s3) ->
  (forall s, R s0 s -> sees P s0 s) ->
  forall hs s, R s0 s -> looks P hs m -> (forall h, hs h -> opened P s0 h) ->
  rg e False R (fun s => R s0 s) (fun a _ => a = (run e m s0).2) m s.
Proof.
  intros Htr Hsee. induction m as [a|X c k IH]; intros hs s Hs Hm Hh s' Hr; assert (Hs' : R s0 s') by by eapply Htr.
  - done.
  - split; [done|]. split; [|done].
    assert (Hex : exec e c s' = (s', (exec e c s0).2) /\ (exec e c s0).1 = s0).
    { pose proof (Hsee s' Hs') as Hv. destruct c; cbn [looks] in Hm; try done.
      - destruct Hm as [Hp _]. cbn [exec]. destruct (Hv p Hp) as [-> _]. done.
      - destruct Hm as [Hp _]. cbn [exec]. destruct (Hv p Hp) as [-> _]. cbn [snd fst]. split; [|done].
        destruct (fs_nodes s0 !! p) as [[|i]|] eqn:E; [done| |done]. by rewrite (sees_data P s0 s' p i).
      - destruct Hm as [Hp _]. cbn [exec]. destruct (Hv p Hp) as [-> _]. done.
      - destruct Hm as [Ho _]. apply Hh in Ho. destruct h as [q|i]; [done|]. destruct Ho as (p & Hp & Hn). cbn [exec].
        by rewrite (sees_data P s0 s' p i).
      - destruct Hm as [Ho _]. apply Hh in Ho. destruct h as [q|i]; [done|]. destruct Ho as (p & Hp & Hn). cbn [exec].
        by rewrite (sees_data P s0 s' p i).
      - destruct Hm as [Ho _]. apply Hh in Ho. destruct h as [q|i]; [done|]. destruct Ho as (p & Hp & Hn). cbn [exec].
        by rewrite (sees_data P s0 s' p i). }
    destruct Hex as [Hex Hex0]. rewrite Hex. cbn [fst snd].
    assert (Hrun : (run e (Do c k) s0).2 = (run e (k (exec e c s0).2) s0).2).
    { cbn [run]. destruct (exec e c s0) as [s1 r]. cbn [fst snd] in *. by subst. }
    assert (Hk : exists hs' : handle -> Prop, looks P hs' (k (exec e c s0).2) /\ forall h, hs' h -> opened P s0 h).
    { destruct c; cbn [looks] in Hm; try done; destruct Hm as [Hp Hm]; eexists; (split; [apply Hm|]); try done.
      cbn [exec snd]. intros h [Ho|Ho]; [by apply Hh|]. destruct (e_os_ok e p); [|done]. cbn [negb] in Ho.
      destruct (fs_nodes s0 !! p) as [[|i]|] eqn:E; [by injection Ho as <-| |done]. injection Ho as <-. by exists p. }
    destruct Hk as (hs' & Hk & Hh'). rewrite Hrun. by eapply IH.
Qed.

Lemma looks_read_rest (P : path -> Prop) (h : handle) n : forall (hs : handle -> Prop) off, hs h -> looks P hs (read_rest n h off).
Proof.
  induction n as [|n IH]; intros hs off Hh; [done|]. cbn [read_rest bind call looks]. split; [done|].
  intros [[|a x]|]; [done| |done]. apply looks_bind; [by apply IH|]. by intros [c|] hs' _.
Qed.
Lemma looks_read_file (P : path -> Prop) (hs : handle -> Prop) p : P p -> looks P hs (read_file p).
Proof.
  intros Hp. unfold read_file. cbn [bind call looks]. split; [done|]. intros [h|]; [|done]. cbn [looks]. split; [by right|].
  intros n. apply looks_read_rest. by right.
Qed.

Lemma looks_load_metadata e (P : path -> Prop) (hs : handle -> Prop) b k : P [metadata_name b k] -> looks P hs (load_metadata e b k).
Proof.
  intros Hp. unfold load_metadata. rewrite metadata_path. cbn [bind call looks]. split; [done|].
  intros [|]; [|done]. apply looks_bind; [by apply looks_read_file|]. intros [d|] hs' _; [|done].
  by destruct (json_decode d).
Qed.

Lemma looks_read e (P : path -> Prop) (hs : handle -> Prop) b k p : get_object_path e b k = Some p -> P p -> looks P hs (get_md5_sum e b k).
Proof.
  intros Hg Hp. unfold get_md5_sum. rewrite Hg. apply looks_bind; [by apply looks_read_file|]. by intros [d|] hs' _.
Qed.

Lemma looks_get e b k range p (P : path -> Prop) hs : get_object_path e b k = Some p -> P p -> P [metadata_name b k] ->
  looks P hs (storage e (RGetObject b k range)).
Proof.
  intros Hg Hp Hm. cbn [storage]. unfold get_object. rewrite Hg. cbn [try_path].
  assert (Hgo : forall r, looks P hs
      (bind (call (COpen p)) (fun o =>
        match o with
        | None => Ret (Err NoSuchKey)
        | Some h =>
            try_io (call (CLen h)) (fun file_len =>
            try_res (get_extent h r file_len) (fun ol =>
            try_io (load_metadata e b k) (fun md =>
            try_io (get_md5_sum e b k) (fun tag =>
              if (ol.2 <=? i64_max)%N then Ret (Ok (AGet h ol.1 ol.2 ol.2 md tag))
              else Ret (Err InternalError)))))
        end))).
  { intros r. cbn [bind call looks]. split; [done|]. intros [h|]; [|done].
    unfold try_io at 1. cbn [bind call looks]. split; [by right|]. intros [len|]; [|done].
    unfold try_res. apply looks_bind.
    { unfold get_extent. destruct r as [[f l|l]|]; [by destruct (len <=? f)%N| |done].
      destruct ((l <=? len)%N && (l <=? i64_max)%N); [|done]. cbn. split; [by right|].
      intros [len'|]; [|done]. cbn. by destruct (l <=? len')%N. }
    intros [ol|] hs1 _; [|done]. unfold try_io at 1. apply looks_bind; [by apply looks_load_metadata|].
    intros [md|] hs2 _; [|done]. unfold try_io. apply looks_bind; [by eapply looks_read|].
    intros [tag|] hs3 _; [|done]. by destruct (ol.2 <=? i64_max)%N. }
  destruct range as [str|]; [|apply Hgo]. destruct (range_from_header_str str); [apply Hgo|done].
Qed.

Lemma looks_head e b k p (P : path -> Prop) hs : get_object_path e b k = Some p -> P p -> P [metadata_name b k] ->
  looks P hs (storage e (RHeadObject b k)).
Proof.
  intros Hg Hp Hm. cbn [storage]. unfold head_object. rewrite Hg. cbn [try_path bind call looks]. split; [done|].
  intros [|]; [|done]. unfold try_io at 1. cbn [bind call looks]. split; [done|]. intros [st|]; [|done].
  unfold try_io. apply looks_bind; [by apply looks_load_metadata|]. intros [md|] hs2 _; [|done].
  by destruct (st.2 <=? i64_max)%N.
Qed.
