(** The file system: well-formedness, and programs that touch only part of it. *)
From Verif Require Import M_Base M_Fs S_Storage L_Base.

Lemma parent_snoc p c : parent (p ++ [c]) = Some (p, c).
Proof. unfold parent. by rewrite rev_unit, rev_involutive. Qed.
Lemma parent_Some p q c : parent p = Some (q, c) -> p = q ++ [c].
Proof.
  unfold parent. destruct (rev p) as [|x r] eqn:E; [done|]. intros [= <- <-].
  rewrite <- (rev_involutive p), E. done.
Qed.
Lemma parent_None p : parent p = None -> p = [].
Proof.
  unfold parent. destruct (rev p) as [|x r] eqn:E; [|done]. intros _.
  rewrite <- (rev_involutive p), E. done.
Qed.

Lemma child_name_Some p q c : child_name p q = Some c <-> q = p ++ [c].
Proof.
  unfold child_name. split.
  - destruct (parent q) as [[p' c']|] eqn:E; [|done]. apply parent_Some in E.
    case_bool_decide; [|done]. intros [= ->]. by subst.
  - intros ->. rewrite parent_snoc. by rewrite bool_decide_true.
Qed.

Lemma elem_child_names s p c : c ∈ child_names s p <-> is_Some (fs_nodes s !! (p ++ [c])).
Proof.
  unfold child_names. rewrite elem_of_list_omap. split.
  - intros ([q n] & Hin & Hc). cbn in Hc. apply child_name_Some in Hc as ->.
    apply elem_of_map_to_list in Hin. eauto.
  - intros [n Hn]. exists (p ++ [c], n). split; [by apply elem_of_map_to_list|].
    by apply child_name_Some.
Qed.

Lemma NoDup_child_names s p : NoDup (child_names s p).
Proof.
  unfold child_names. pose proof (NoDup_fst_map_to_list (fs_nodes s)) as Hd.
  induction (map_to_list (fs_nodes s)) as [|[q n] l IH]; [constructor|].
  cbn [fmap list_fmap] in Hd. apply NoDup_cons in Hd as [Hq Hd]. specialize (IH Hd).
  cbn. destruct (child_name p q) as [c|] eqn:E; [|done]. constructor; [|done].
  intros (e & He & Hc)%elem_of_list_omap. destruct e as [q' n']. cbn in Hc.
  apply child_name_Some in E, Hc. subst q q'. apply Hq.
  apply elem_of_list_fmap. by exists (p ++ [c], n').
Qed.

Lemma is_dir_true s p : is_dir s p = true <-> fs_nodes s !! p = Some NDir.
Proof. unfold is_dir. destruct (fs_nodes s !! p) as [[]|]; naive_solver. Qed.

Lemma set_nodes_id s : set_nodes s (fs_nodes s) = s.
Proof. by destruct s. Qed.

(** ** Well-formedness is preserved by every call *)

Lemma snoc_inj {A} (p q : list A) c d : p ++ [c] = q ++ [d] -> p = q /\ c = d.
Proof. apply app_inj_tail. Qed.
Lemma snoc_neq {A} (p : list A) c : p ++ [c] <> p.
Proof. intros H. apply (f_equal length) in H. rewrite app_length in H. simpl in H. lia. Qed.

Lemma wf_exec e {R} (c : syscall R) s : wf s -> wf (exec e c s).1.
Proof.
  intros Hwf. destruct c; cbn [exec]; try done.
  - by destruct h.
  - by destruct h.
  - (* CCreate *)
    destruct (e_os_ok e p); cbn [negb]; [|done].
    destruct (fs_nodes s !! p) as [[|i]|] eqn:Hp; try done.
    + by destruct Hwf; split.
    + destruct (parent p) as [[q c]|] eqn:Epar; [|done].
      destruct (is_dir s q) eqn:Ed; [|done]. apply is_dir_true in Ed.
      apply parent_Some in Epar as ->. cbn [fst]. destruct Hwf as [W1 W2 W3]. split; cbn.
      * intros p' c' [n Hn]. destruct (decide (q ++ [c] = p')) as [<-|Hne].
        -- rewrite lookup_insert_ne in Hn by (intros E; by apply (snoc_neq (q ++ [c]) c')).
           apply mk_is_Some, W1 in Hn. congruence.
        -- rewrite lookup_insert_ne by done. destruct (decide (q ++ [c] = p' ++ [c'])) as [Heq|Hne'].
           ++ apply snoc_inj in Heq as [-> ->]. done.
           ++ rewrite lookup_insert_ne in Hn by done. eauto.
      * intros p1 p2 i. destruct (decide (q ++ [c] = p1)) as [<-|H1], (decide (q ++ [c] = p2)) as [<-|H2];
          rewrite ?lookup_insert, ?lookup_insert_ne by done; try done; try naive_solver.
        -- intros [= <-] H. apply W3 in H. lia.
        -- intros H [= <-]. apply W3 in H. lia.
      * intros p1 i. destruct (decide (q ++ [c] = p1)) as [<-|H1];
          rewrite ?lookup_insert, ?lookup_insert_ne by done.
        -- intros [= <-]. lia.
        -- intros H. apply W3 in H. lia.
  - (* CWrite *) by destruct Hwf; split.
  - (* CMkdir *)
    destruct (e_os_ok e p); cbn [negb]; [|done].
    destruct (fs_nodes s !! p) as [|] eqn:Hp; [done|].
    destruct (has_parent s p) eqn:Hpar; [|by destruct (parent p) as [[]|]].
    cbn [fst]. destruct Hwf as [W1 W2 W3]. split; cbn.
    + intros p' c' [n Hn]. destruct (decide (p = p')) as [<-|Hne].
      * rewrite lookup_insert_ne in Hn by (intros E; by apply (snoc_neq p c')).
        apply mk_is_Some, W1 in Hn. congruence.
      * rewrite lookup_insert_ne by done. destruct (decide (p = p' ++ [c'])) as [-> |Hne'].
        -- unfold has_parent in Hpar. rewrite parent_snoc in Hpar. by apply is_dir_true.
        -- rewrite lookup_insert_ne in Hn by done. eauto.
    + intros p1 p2 i. destruct (decide (p = p1)) as [<-|H1], (decide (p = p2)) as [<-|H2];
        rewrite ?lookup_insert, ?lookup_insert_ne by done; try done; naive_solver.
    + intros p1 i. destruct (decide (p = p1)) as [<-|H1];
        rewrite ?lookup_insert, ?lookup_insert_ne by done; naive_solver.
  - (* CUnlink *)
    destruct (e_os_ok e p); [|done].
    destruct (fs_nodes s !! p) as [[|i]|] eqn:Hp; try done.
    cbn [fst]. destruct Hwf as [W1 W2 W3]. split; cbn.
    + intros p' c' [n [Hne Hn]%lookup_delete_Some]. rewrite lookup_delete_ne; [eauto|].
      intros ->. apply mk_is_Some, W1 in Hn. congruence.
    + intros p1 p2 j [_ H1]%lookup_delete_Some [_ H2]%lookup_delete_Some. eauto.
    + intros p1 j [_ H1]%lookup_delete_Some. eauto.
  - (* CRmdir *)
    destruct (e_os_ok e p); [|done].
    destruct (fs_nodes s !! p) as [[|i]|] eqn:Hp; try done.
    case_bool_decide as Hc; [|done].
    cbn [fst]. destruct Hwf as [W1 W2 W3]. split; cbn.
    + intros p' c' [n [Hne Hn]%lookup_delete_Some]. rewrite lookup_delete_ne; [eauto|].
      intros ->. apply mk_is_Some, elem_child_names in Hn. rewrite Hc in Hn. by apply elem_of_nil in Hn.
    + intros p1 p2 j [_ H1]%lookup_delete_Some [_ H2]%lookup_delete_Some. eauto.
    + intros p1 j [_ H1]%lookup_delete_Some. eauto.
  - by destruct h.
Qed.

Lemma wf_step e {A} s (m : prog A) s' m' : step e s m s' m' -> wf s -> wf s'.
Proof.
  destruct m as [a|R c k]; [done|]. cbn [step].
  destruct (exec e c s) as [s1 r] eqn:E. intros [[= -> ->]|[= -> ->]] Hwf; [|done].
  change s1 with ((s1, r).1). rewrite <- E. by apply wf_exec.
Qed.
Lemma wf_steps e {A} s (m : prog A) s' m' : steps e s m s' m' -> wf s -> wf s'.
Proof. induction 1; [done|]. intros Hwf. eauto using wf_step. Qed.

Lemma wf_run e {A} (m : prog A) s : wf s -> wf (run e m s).1.
Proof.
  revert s. induction m as [a|R c k IH]; intros s Hwf; [done|]. cbn [run].
  destruct (exec e c s) as [s' r] eqn:E. apply IH.
  change s' with ((s', r).1). rewrite <- E. by apply wf_exec.
Qed.

(** ** Scopes: which paths a program may change *)

(* [F]: files created, overwritten or unlinked; [D]: directories created; [X]: directories
   removed; [own]: inodes of files it created. *)
Fixpoint scoped {A} (F D X : path -> Prop) (own : N -> Prop) (m : prog A) {struct m} : Prop :=
  match m with
  | Ret _ => True
  | Do c k =>
      match c in syscall R return (R -> prog A) -> Prop with
      | CCreate p => fun k => F p /\
          forall r : option N, scoped F D X (fun j => own j \/ r = Some j) (k r)
      | CWrite i _ _ => fun k => own i /\ forall r, scoped F D X own (k r)
      | CMkdir p => fun k => D p /\ forall r, scoped F D X own (k r)
      | CUnlink p => fun k => F p /\ forall r, scoped F D X own (k r)
      | CRmdir p => fun k => X p /\ forall r, scoped F D X own (k r)
      | _ => fun k => forall r, scoped F D X own (k r)
      end k
  end.

Lemma scoped_weaken {A} (m : prog A) (F D X F' D' X' : path -> Prop) (own own' : N -> Prop) :
  (forall p, F p -> F' p) -> (forall p, D p -> D' p) -> (forall p, X p -> X' p) ->
  (forall i, own i -> own' i) -> scoped F D X own m -> scoped F' D' X' own' m.
Proof.
  intros HF HD HX. revert own own'. induction m as [a|R c k IH]; intros own own' Ho H; [done|].
  destruct c; cbn [scoped] in *; try (intros r; eauto; fail);
    try (destruct H as [H1 H2]; split; [by auto|]; intros r; try (by eapply IH; eauto)).
  eapply IH; [|apply H2]. intros j [Hj|Hj]; auto.
Qed.

Lemma scoped_bind {A B} (m : prog A) (f : A -> prog B) F D X own :
  scoped F D X own m -> (forall a (own' : N -> Prop), (forall i, own i -> own' i) -> scoped F D X own' (f a)) ->
  scoped F D X own (bind m f).
Proof.
  revert own. induction m as [a|R c k IH]; intros own H Hf; [by apply Hf|].
  destruct c; cbn [scoped bind] in *; try (intros r; eauto; fail);
    try (destruct H as [H1 H2]; split; [done|]; intros r; try (by eapply IH; eauto)).
Qed.

(* Invariant: the owned inodes belong to files in scope (or to no path). *)
Definition owns (F : path -> Prop) (own : N -> Prop) (s : fs) : Prop :=
  (forall i, own i -> (i < fs_next s)%N) /\
  forall p i, own i -> fs_nodes s !! p = Some (NFile i) -> F p.

(* What a scoped program leaves alone. *)
Record untouched (F D X : path -> Prop) (s s' : fs) : Prop := Untouched {
  un_content : forall p, ~ F p -> content s' p = content s p;
  un_node : forall p, ~ F p -> ~ D p -> ~ X p -> fs_nodes s' !! p = fs_nodes s !! p;
  un_file : forall p i, ~ F p -> fs_nodes s !! p = Some (NFile i) -> fs_nodes s' !! p = Some (NFile i);
  un_dir : forall p, ~ X p -> fs_nodes s !! p = Some NDir -> fs_nodes s' !! p = Some NDir;
  un_new_dir : forall p, ~ D p -> fs_nodes s' !! p = Some NDir -> fs_nodes s !! p = Some NDir;
}.

Lemma untouched_refl F D X s : untouched F D X s s.
Proof. by split. Qed.
Lemma untouched_trans F D X s1 s2 s3 :
  untouched F D X s1 s2 -> untouched F D X s2 s3 -> untouched F D X s1 s3.
Proof.
  intros [A1 A2 A3 A4 A5] [B1 B2 B3 B4 B5]. split; eauto; intros.
  - rewrite B1, A1; done.
  - rewrite B2, A2; done.
Qed.

Lemma content_insert_data s i b p :
  fs_nodes s !! p <> Some (NFile i) ->
  content (Fs (fs_nodes s) (<[i := b]> (fs_data s)) (fs_next s)) p = content s p.
Proof.
  intros H. unfold content. cbn. destruct (fs_nodes s !! p) as [[|j]|]; [done| |done].
  unfold data_of. cbn. rewrite lookup_insert_ne by congruence. done.
Qed.

(* One call of a scoped program, alone. *)
Lemma scoped_exec e {A R} (c : syscall R) (k : R -> prog A) F D X own s :
  wf s -> owns F own s -> scoped F D X own (Do c k) ->
  let '(s', r) := exec e c s in
  untouched F D X s s' /\
  exists own' : N -> Prop, (forall i, own i -> own' i) /\ owns F own' s' /\ scoped F D X own' (k r).
Proof.
  intros Hwf Ho Hs.
  assert (Hsame : forall r, scoped F D X own (k r) -> untouched F D X s s /\
    exists own' : N -> Prop, (forall i, own i -> own' i) /\ owns F own' s /\ scoped F D X own' (k r)).
  { intros r Hr. split; [apply untouched_refl|]. eauto. }
  destruct c; cbn [exec scoped] in *; try (apply Hsame; apply Hs).
  - destruct h; by apply Hsame.
  - destruct h; by apply Hsame.
  - (* CCreate *)
    destruct Hs as [HF Hs].
    assert (Hnone : scoped F D X own (k None)).
    { eapply scoped_weaken; [..|apply (Hs None)]; eauto. naive_solver. }
    destruct (e_os_ok e p); cbn [negb]; [|by apply Hsame].
    destruct (fs_nodes s !! p) as [[|i]|] eqn:Hp; [by apply Hsame| |].
    + split.
      * split; cbn; try done. intros q Hq. apply content_insert_data.
        intros Hn. rewrite (wf_inj _ Hwf p q i Hp Hn) in HF. done.
      * exists (fun j => own j \/ Some i = Some j). split; [auto|]. split; [|by apply Hs].
        destruct Ho as [Ho1 Ho2]. split; cbn.
        -- intros j [Hj|[= <-]]; [by apply Ho1|]. by eapply wf_next.
        -- intros q j [Hj|[= <-]] Hq; [by eapply Ho2|]. by rewrite <- (wf_inj _ Hwf p q i Hp Hq).
    + destruct (parent p) as [[q c]|] eqn:Epar; [|by apply Hsame].
      destruct (is_dir s q) eqn:Ed; [|by apply Hsame].
      assert (Hfresh : forall x, fs_nodes s !! x <> Some (NFile (fs_next s))).
      { intros x Hx. apply (wf_next _ Hwf) in Hx. lia. }
      split.
      * split; cbn.
        -- intros x Hx. unfold content. cbn. rewrite lookup_insert_ne by congruence.
           destruct (fs_nodes s !! x) as [[|j]|] eqn:Ex; [done| |done]. unfold data_of. cbn.
           rewrite lookup_insert_ne; [done|]. intros <-. by apply (Hfresh x).
        -- intros x HF' _ _. by rewrite lookup_insert_ne by congruence.
        -- intros x i HF' Hx. by rewrite lookup_insert_ne by congruence.
        -- intros x HX Hx. rewrite lookup_insert_ne by congruence. done.
        -- intros x HD. destruct (decide (p = x)) as [<-|Hne].
           ++ by rewrite lookup_insert.
           ++ by rewrite lookup_insert_ne.
      * exists (fun j => own j \/ Some (fs_next s) = Some j). split; [auto|]. split; [|by apply Hs].
        destruct Ho as [Ho1 Ho2]. split; cbn.
        -- intros j [Hj|[= <-]]; [|lia]. apply Ho1 in Hj. lia.
        -- intros x j [Hj|[= <-]] Hx.
           ++ destruct (decide (p = x)) as [<-|Hne]; [done|].
              rewrite lookup_insert_ne in Hx by done. by eapply Ho2.
           ++ destruct (decide (p = x)) as [<-|Hne]; [done|].
              rewrite lookup_insert_ne in Hx by done. by apply Hfresh in Hx.
  - (* CWrite *)
    destruct Hs as [Hi Hs]. split.
    + split; cbn; try done. intros q Hq. apply content_insert_data.
      intros Hn. apply Hq. by eapply Ho.
    + exists own. split; [done|]. split; [|by apply Hs]. done.
  - (* CMkdir *)
    destruct Hs as [HD Hs].
    destruct (e_os_ok e p); cbn [negb]; [|by apply Hsame].
    destruct (fs_nodes s !! p) as [|] eqn:Hp; [by apply Hsame|].
    destruct (has_parent s p); [|by destruct (parent p) as [[q ?]|]; [destruct (fs_nodes s !! q)|]; apply Hsame].
    split.
    + split; cbn.
      * intros x Hx. unfold content. cbn. destruct (decide (p = x)) as [<-|Hne].
        -- by rewrite lookup_insert, Hp.
        -- by rewrite lookup_insert_ne.
      * intros x _ HD' _. by rewrite lookup_insert_ne by congruence.
      * intros x i _ Hx. by rewrite lookup_insert_ne by congruence.
      * intros x _ Hx. by rewrite lookup_insert_ne by congruence.
      * intros x HD'. by rewrite lookup_insert_ne by congruence.
    + exists own. split; [done|]. split; [|by apply Hs]. destruct Ho as [Ho1 Ho2]. split; cbn; [done|].
      intros x i Hi Hx. destruct (decide (p = x)) as [<-|Hne].
      * by rewrite lookup_insert in Hx.
      * rewrite lookup_insert_ne in Hx by done. by eapply Ho2.
  - (* CUnlink *)
    destruct Hs as [HF Hs]. destruct (e_os_ok e p); [|by apply Hsame].
    destruct (fs_nodes s !! p) as [[|i]|] eqn:Hp; [by apply Hsame| |by apply Hsame].
    split.
    + split; cbn.
      * intros x Hx. unfold content. cbn. by rewrite lookup_delete_ne by congruence.
      * intros x Hx _ _. by rewrite lookup_delete_ne by congruence.
      * intros x j Hx Hn. by rewrite lookup_delete_ne by congruence.
      * intros x _ Hx. by rewrite lookup_delete_ne by congruence.
      * intros x _ Hx. by apply lookup_delete_Some in Hx as [_ ?].
    + exists own. split; [done|]. split; [|by apply Hs]. destruct Ho as [Ho1 Ho2]. split; cbn; [done|].
      intros x j Hj Hx. apply lookup_delete_Some in Hx as [_ Hx]. by eapply Ho2.
  - (* CRmdir *)
    destruct Hs as [HX Hs]. destruct (e_os_ok e p); [|by apply Hsame].
    destruct (fs_nodes s !! p) as [[|i]|] eqn:Hp; [|by apply Hsame|by apply Hsame].
    case_bool_decide; [|by apply Hsame].
    split.
    + split; cbn.
      * intros x Hx. unfold content. cbn. destruct (decide (p = x)) as [<-|Hne].
        -- by rewrite lookup_delete, Hp.
        -- by rewrite lookup_delete_ne.
      * intros x _ _ HX'. by rewrite lookup_delete_ne by congruence.
      * intros x j Hx Hn. by rewrite lookup_delete_ne by congruence.
      * intros x HX' Hx. by rewrite lookup_delete_ne by congruence.
      * intros x _ Hx. by apply lookup_delete_Some in Hx as [_ ?].
    + exists own. split; [done|]. split; [|by apply Hs]. destruct Ho as [Ho1 Ho2]. split; cbn; [done|].
      intros x j Hj Hx. apply lookup_delete_Some in Hx as [_ Hx]. by eapply Ho2.
  - by destruct h; apply Hsame.
Qed.

Lemma scoped_fail {A R} (c : syscall R) (k : R -> prog A) F D X own :
  scoped F D X own (Do c k) -> scoped F D X own (k (fail_of c)).
Proof.
  destruct c; cbn [scoped fail_of]; intros H; try apply H.
  destruct H as [_ H]. eapply scoped_weaken; [..|apply (H None)]; eauto. naive_solver.
Qed.

Lemma scoped_step e {A} (m : prog A) F D X own s s' m' :
  wf s -> owns F own s -> scoped F D X own m -> step e s m s' m' ->
  untouched F D X s s' /\
  exists own' : N -> Prop, (forall i, own i -> own' i) /\ owns F own' s' /\ scoped F D X own' m'.
Proof.
  destruct m as [a|R c k]; [done|]. intros Hwf Ho Hs Hst. cbn [step] in Hst.
  pose proof (scoped_exec e c k F D X own s Hwf Ho Hs) as He.
  destruct (exec e c s) as [s1 r]. destruct Hst as [[= -> ->]|[= -> ->]]; [done|].
  split; [apply untouched_refl|]. exists own. split; [done|]. split; [done|]. by apply scoped_fail.
Qed.

(** A program started in scope leaves the rest alone at every point of its execution,
    whatever calls fail. *)
Theorem scoped_steps e {A} (m : prog A) F D X s s' m' :
  wf s -> scoped F D X (fun _ => False) m -> steps e s m s' m' -> untouched F D X s s'.
Proof.
  intros Hwf Hs Hst.
  assert (Ho : owns F (fun _ => False) s) by by split.
  revert Ho Hs. generalize (fun _ : N => False). induction Hst as [|s m s1 m1 s2 m2 H1 Hst IH]; intros own Ho Hs.
  - apply untouched_refl.
  - destruct (scoped_step _ _ _ _ _ _ _ _ _ Hwf Ho Hs H1) as (Hu & own' & _ & Ho' & Hs').
    eapply untouched_trans; [exact Hu|]. apply (IH (wf_step _ _ _ _ _ H1 Hwf) own'); done.
Qed.

(* Running alone is one of the executions. *)
Lemma run_steps e {A} (m : prog A) s : steps e s m (run e m s).1 (Ret (run e m s).2).
Proof.
  revert s. induction m as [a|R c k IH]; intros s; [apply steps_refl|].
  cbn [run]. destruct (exec e c s) as [s' r] eqn:E.
  eapply steps_step; [|apply IH]. cbn [step]. left. by rewrite E.
Qed.

Lemma run_n_steps e {A} n (m : prog A) s : steps e s m (run_n e n m s).1 (run_n e n m s).2.
Proof.
  revert m s. induction n as [|n IH]; intros m s; [destruct m; apply steps_refl|].
  destruct m as [a|R c k]; [apply steps_refl|]. cbn [run_n].
  destruct (exec e c s) as [s' r] eqn:E.
  eapply steps_step; [|apply IH]. cbn [step]. left. by rewrite E.
Qed.

Lemma run_bind e {A B} (m : prog A) (f : A -> prog B) s :
  run e (bind m f) s = let '(s', a) := run e m s in run e (f a) s'.
Proof.
  revert s. induction m as [a|R c k IH]; intros s; [done|]. cbn [run bind].
  destruct (exec e c s) as [s' r]. apply IH.
Qed.

Lemma run_call e {R} (c : syscall R) s : run e (call c) s = exec e c s.
Proof. unfold call. cbn. by destruct (exec e c s). Qed.

Theorem scoped_run e {A} (m : prog A) F D X s :
  wf s -> scoped F D X (fun _ => False) m -> untouched F D X s (run e m s).1.
Proof. intros Hwf Hs. eapply scoped_steps; [done|exact Hs|apply run_steps]. Qed.
