(** C92: the directory tree is all there is to a store. *)
From Verif Require Import M_Base M_Path M_Headers M_Chunked M_BytesStream M_Crypto M_Fs M_Json M_Utf8 M_Storage M_Http M_Errors M_Ops M_Service
  S_Path S_Headers S_Chunked S_Errors S_Storage S_Store S_Service S_Dispatch S_Calls S_Http S_Server
  L_Base L_Path L_Headers L_Fs L_Storage L_Scope L_Names L_Json L_Ops L_Results L_Tidy L_MapOps
  T_Errors T_Headers T_Auth T_Store T_Copy T_Scope T_Listing T_Buckets T_Calls T_Http T_Map T_Server T_Tenants.

Local Opaque md5 etag_of json_decode json_encode metadata_name part_name.

(** ** What the theorem says *)

(* The same names, and below them the same directories and files with the same bytes. *)
Definition same_tree (s t : fs) : Prop :=
  forall p, is_dir s p = is_dir t p /\ content s p = content t p.
(* Machines that may differ in the order in which they list directories. *)
Record same_machine (e e' : env) : Prop := {
  sm_root : e_root e' = e_root e;
  sm_os p : e_os_ok e' p = e_os_ok e p;
  sm_len p : e_dir_len e' p = e_dir_len e p;
  sm_chop d : e_chop e' d = e_chop e d;
  sm_rounds : e_rounds e' = e_rounds e;
}.

(* Answers of the storage, with the disk from which the body is read. *)
Inductive same_answer (r : s_req) (s t : fs) : sres s_ans -> sres s_ans -> Prop :=
| sa_equal a : (forall h off lim len md tag, a <> Ok (AGet h off lim len md tag)) -> same_answer r s t a a
| sa_get h h' off lim len md tag : (forall sched, get_body s h off lim sched = get_body t h' off lim sched) ->
    same_answer r s t (Ok (AGet h off lim len md tag)) (Ok (AGet h' off lim len md tag))
| sa_buckets l l' : r = RListBuckets -> l ≡ₚ l' -> same_answer r s t (Ok (ABuckets l)) (Ok (ABuckets l')).

Definition small (s : fs) : Prop := forall p c, content s p = Some c -> (N.of_nat (length c) <= i64_max)%N.

(* Requests that name a bucket of legal name, as every request over HTTP does. *)
Definition names_bucket (r : s_req) : Prop :=
  match r with
  | RDeleteBucket b | RListObjects b _ | RListObjectsV2 b _ => legal_bucket b
  | _ => True
  end.

(** ** Disks that differ in the numbers of files *)

Record mirror (W : N -> N -> Prop) (s t : fs) : Prop := {
  mi_node p : match fs_nodes s !! p, fs_nodes t !! p with
              | None, None | Some NDir, Some NDir => True
              | Some (NFile i), Some (NFile j) => W i j
              | _, _ => False
              end;
  mi_data i j : W i j -> data_of s i = data_of t j;
  mi_left i j j' : W i j -> W i j' -> j = j';
  mi_right i i' j : W i j -> W i' j -> i = i';
  mi_fresh i j : W i j -> (i < fs_next s)%N /\ (j < fs_next t)%N;
}.

Definition handles (W : N -> N -> Prop) (h h' : handle) : Prop :=
  match h, h' with
  | HDir p, HDir q => p = q
  | HFile i, HFile j => W i j
  | _, _ => False
  end.

Definition dirs_alike (x y : option (list (bytes * bool))) : Prop :=
  match x, y with
  | Some l, Some l' => l ≡ₚ l'
  | None, None => True
  | _, _ => False
  end.

Definition grows (W W' : N -> N -> Prop) : Prop := forall i j, W i j -> W' i j.
Lemma grows_refl W : grows W W.
Proof. by intros i j. Qed.
Local Hint Resolve grows_refl : core.

Lemma tree_mirror s t : wf s -> wf t -> same_tree s t ->
  mirror (fun i j => exists p, fs_nodes s !! p = Some (NFile i) /\ fs_nodes t !! p = Some (NFile j)) s t.
Proof.
  intros Hs Ht Hst.
  split.
  - intros p. destruct (Hst p) as [Hd Hc]. unfold is_dir, content in *.
    destruct (fs_nodes s !! p) as [[|i]|] eqn:E1, (fs_nodes t !! p) as [[|j]|] eqn:E2; try done. by exists p.
  - intros i j (p & H1 & H2). destruct (Hst p) as [_ Hc]. unfold content in Hc. rewrite H1, H2 in Hc. by injection Hc.
  - intros i j j' (p & H1 & H2) (q & H3 & H4). assert (p = q) as -> by by eapply (wf_inj _ Hs). congruence.
  - intros i i' j (p & H1 & H2) (q & H3 & H4). assert (p = q) as -> by by eapply (wf_inj _ Ht). congruence.
  - intros i j (p & H1 & H2). split; [by eapply (wf_next _ Hs)|by eapply (wf_next _ Ht)].
Qed.
Lemma mirror_tree W s t : mirror W s t -> same_tree s t.
Proof.
  intros Hm p. pose proof (mi_node _ _ _ Hm p) as Hp. unfold is_dir, content.
  destruct (fs_nodes s !! p) as [[|i]|], (fs_nodes t !! p) as [[|j]|]; try done. split; [done|]. f_equal. by eapply mi_data.
Qed.

Section mirror.
  Context (e e' : env) (He : same_machine e e').

  (* The two programs keep the disks alike and have results that are related by [Q]. *)
  Definition sim {A} (W : N -> N -> Prop) (Q : (N -> N -> Prop) -> A -> A -> Prop) (m m' : prog A) : Prop :=
    forall s t, mirror W s t -> exists W', grows W W' /\
      mirror W' (run e m s).1 (run e' m' t).1 /\ Q W' (run e m s).2 (run e' m' t).2.
  Definition equal {A} : (N -> N -> Prop) -> A -> A -> Prop := fun _ => eq.

  Lemma sim_ret {A} W (Q : (N -> N -> Prop) -> A -> A -> Prop) (a a' : A) : Q W a a' -> sim W Q (Ret a) (Ret a').
  Proof. intros HQ s t Hm. by exists W. Qed.
  Lemma sim_bind {A C} W (Q : (N -> N -> Prop) -> A -> A -> Prop) (Q' : (N -> N -> Prop) -> C -> C -> Prop) (m m' : prog A) (f f' : A -> prog C) : sim W Q m m' ->
    (forall W' a a', grows W W' -> Q W' a a' -> sim W' Q' (f a) (f' a')) -> sim W Q' (bind m f) (bind m' f').
  Proof.
    intros Hm Hf s t Hst. destruct (Hm s t Hst) as (W1 & Hg & H1 & HQ). rewrite !run_bind.
    destruct (run e m s) as [s1 a], (run e' m' t) as [t1 a']. cbn [fst snd] in *.
    destruct (Hf W1 a a' Hg HQ s1 t1 H1) as (W2 & Hg' & H2 & HQ'). exists W2. split; [|done]. intros i j H. apply Hg'. by apply Hg.
  Qed.
  Lemma sim_call {R} W (Q : (N -> N -> Prop) -> R -> R -> Prop) (c c' : syscall R) : (forall s t, mirror W s t -> exists W', grows W W' /\
      mirror W' (exec e c s).1 (exec e' c' t).1 /\ Q W' (exec e c s).2 (exec e' c' t).2) -> sim W Q (call c) (call c').
  Proof. intros Hc s t Hm. rewrite !run_call. by apply Hc. Qed.

  Lemma mi_is_dir W s t p : mirror W s t -> is_dir t p = is_dir s p.
  Proof. intros Hm. destruct (mirror_tree _ _ _ Hm p). done. Qed.
  Lemma mi_some W s t p : mirror W s t -> is_Some (fs_nodes t !! p) <-> is_Some (fs_nodes s !! p).
  Proof.
    intros Hm. pose proof (mi_node _ _ _ Hm p). destruct (fs_nodes s !! p) as [[|i]|], (fs_nodes t !! p) as [[|j]|]; try done.
  Qed.
  Lemma mi_child_names W s t p : mirror W s t -> child_names s p ≡ₚ child_names t p.
  Proof.
    intros Hm. apply NoDup_Permutation; [apply NoDup_child_names..|]. intros c. rewrite !elem_child_names. symmetry. by eapply mi_some.
  Qed.

  Lemma mi_set W s t p x : mirror W s t -> (x = None \/ x = Some NDir) ->
    mirror W (set_nodes s (partial_alter (fun _ => x) p (fs_nodes s))) (set_nodes t (partial_alter (fun _ => x) p (fs_nodes t))).
  Proof.
    intros Hm Hx. split; [|apply Hm..]. intros q. cbn [set_nodes fs_nodes]. destruct (decide (q = p)) as [->|Hn].
    - rewrite !lookup_partial_alter. by destruct Hx as [->| ->].
    - rewrite !lookup_partial_alter_ne by done. apply Hm.
  Qed.
  Lemma mi_write W s t i j d : mirror W s t -> W i j ->
    mirror W (Fs (fs_nodes s) (<[i := d]> (fs_data s)) (fs_next s)) (Fs (fs_nodes t) (<[j := d]> (fs_data t)) (fs_next t)).
  Proof.
    intros Hm Hw. split; [apply Hm| |apply Hm..]. intros i' j' Hw'. unfold data_of. cbn [fs_data].
    destruct (decide (i' = i)) as [->|Hi].
    - assert (j' = j) as -> by by eapply mi_left. by rewrite !lookup_insert.
    - assert (j' <> j) by (intros ->; apply Hi; by eapply mi_right). rewrite !lookup_insert_ne by done. by apply (mi_data _ _ _ Hm).
  Qed.
  Lemma mi_new W s t p : mirror W s t -> fs_nodes s !! p = None -> fs_nodes t !! p = None ->
    let i := fs_next s in let j := fs_next t in
    mirror (fun a b => W a b \/ a = i /\ b = j)
      (Fs (<[p := NFile i]> (fs_nodes s)) (<[i := []]> (fs_data s)) (i + 1)%N)
      (Fs (<[p := NFile j]> (fs_nodes t)) (<[j := []]> (fs_data t)) (j + 1)%N).
  Proof.
    intros Hm Hs Ht. cbn zeta. remember (fs_next s) as i eqn:Ei. remember (fs_next t) as j eqn:Ej.
    assert (Hl : forall a b, W a b -> a <> i /\ b <> j).
    { intros a b Hw. destruct (mi_fresh _ _ _ Hm _ _ Hw). lia. }
    split; cbn [fs_nodes fs_next].
    - intros q. destruct (decide (q = p)) as [->|Hn]; [rewrite !lookup_insert; by right|]. rewrite !lookup_insert_ne by done.
      pose proof (mi_node _ _ _ Hm q). destruct (fs_nodes s !! q) as [[|a]|], (fs_nodes t !! q) as [[|b]|]; try done. by left.
    - intros a b [Hw|[Ea Eb]]; unfold data_of; cbn [fs_data]; [|by rewrite Ea, Eb, !lookup_insert].
      destruct (Hl a b Hw). rewrite !lookup_insert_ne by done. by apply (mi_data _ _ _ Hm).
    - intros a b b' [H1|[Ea Eb]] [H2|[Ea' Eb']]; [by eapply mi_left| | |congruence].
      + by destruct (Hl _ _ H1).
      + by destruct (Hl _ _ H2).
    - intros a a' b [H1|[Ea Eb]] [H2|[Ea' Eb']]; [by eapply mi_right| | |congruence].
      + by destruct (Hl _ _ H1).
      + by destruct (Hl _ _ H2).
    - intros a b [H1|[Ea Eb]]; [destruct (mi_fresh _ _ _ Hm _ _ H1); lia|lia].
  Qed.

  Lemma sim_exists W p : sim W equal (call (CExists p)) (call (CExists p)).
  Proof.
    apply sim_call. intros s t Hm. exists W. split; [done|]. split; [done|]. cbn [exec snd]. rewrite (sm_os _ _ He). unfold equal. f_equal.
    apply bool_decide_ext. symmetry. by eapply mi_some.
  Qed.
  Lemma sim_stat W p : sim W equal (call (CStat p)) (call (CStat p)).
  Proof.
    apply sim_call. intros s t Hm. exists W. split; [done|]. split; [done|]. cbn [exec snd]. rewrite (sm_os _ _ He), (sm_len _ _ He). unfold equal.
    destruct (negb _); [done|]. pose proof (mi_node _ _ _ Hm p). destruct (fs_nodes s !! p) as [[|i]|], (fs_nodes t !! p) as [[|j]|]; try done.
    by rewrite (mi_data _ _ _ Hm i j).
  Qed.
  Lemma sim_open W p : sim W (fun W' => option_Forall2 (handles W')) (call (COpen p)) (call (COpen p)).
  Proof.
    apply sim_call. intros s t Hm. exists W. split; [done|]. split; [done|]. cbn [exec snd]. rewrite (sm_os _ _ He).
    destruct (negb _); [constructor|]. pose proof (mi_node _ _ _ Hm p).
    destruct (fs_nodes s !! p) as [[|i]|], (fs_nodes t !! p) as [[|j]|]; try done; by constructor.
  Qed.
  Lemma sim_len (W : N -> N -> Prop) h h' : handles W h h' -> sim W equal (call (CLen h)) (call (CLen h')).
  Proof.
    intros Hh. apply sim_call. intros s t Hm. exists W. destruct h as [p|i], h' as [q|j]; try done; cbn [handles exec fst snd] in *.
    - subst q. by rewrite (sm_len _ _ He).
    - split; [done|]. split; [done|]. unfold equal. by rewrite (mi_data _ _ _ Hm i j).
  Qed.
  Lemma sim_read (W : N -> N -> Prop) h h' off : handles W h h' -> sim W equal (call (CRead h off)) (call (CRead h' off)).
  Proof.
    intros Hh. apply sim_call. intros s t Hm. exists W. destruct h as [p|i], h' as [q|j]; try done; cbn [handles exec fst snd] in *.
    split; [done|]. split; [done|]. unfold equal, piece. by rewrite (mi_data _ _ _ Hm i j), (sm_chop _ _ He).
  Qed.
  Lemma sim_bound (W : N -> N -> Prop) h h' : handles W h h' -> sim W equal (call (CBound h)) (call (CBound h')).
  Proof.
    intros Hh. apply sim_call. intros s t Hm. exists W. destruct h as [p|i], h' as [q|j]; try done; cbn [handles exec fst snd] in *.
    split; [done|]. split; [done|]. unfold equal. by rewrite (mi_data _ _ _ Hm i j), (sm_rounds _ _ He).
  Qed.
  Lemma sim_create (W : N -> N -> Prop) p : sim W (fun W' => option_Forall2 W') (call (CCreate p)) (call (CCreate p)).
  Proof.
    apply sim_call. intros s t Hm. cbn [exec]. rewrite (sm_os _ _ He).
    assert (Hsame : exists W', grows W W' /\ mirror W' s t /\ option_Forall2 W' None None) by (exists W; split; [done|]; split; [done|constructor]).
    destruct (negb _); [done|]. pose proof (mi_node _ _ _ Hm p) as Hp.
    destruct (fs_nodes s !! p) as [[|i]|] eqn:E1, (fs_nodes t !! p) as [[|j]|] eqn:E2; try done.
    - exists W. split; [done|]. split; [by apply mi_write|by constructor].
    - destruct (parent p) as [[q c]|]; [|done]. rewrite (mi_is_dir _ _ _ q Hm). destruct (is_dir s q); [|done]. cbn [fst snd].
      eexists. split; [|split; [by apply mi_new|constructor; by right]]. intros a b Hw. by left.
  Qed.
  Lemma sim_write (W : N -> N -> Prop) i j off b : W i j -> sim W equal (call (CWrite i off b)) (call (CWrite j off b)).
  Proof.
    intros Hw. apply sim_call. intros s t Hm. exists W. split; [done|]. split; [|done]. cbn [exec fst].
    rewrite (mi_data _ _ _ Hm i j) by done. by apply mi_write.
  Qed.
  Lemma sim_mkdir W p : sim W equal (call (CMkdir p)) (call (CMkdir p)).
  Proof.
    apply sim_call. intros s t Hm. exists W. split; [done|]. cbn [exec]. rewrite (sm_os _ _ He).
    destruct (negb _); [done|]. pose proof (mi_node _ _ _ Hm p) as Hp.
    assert (Hpar : has_parent t p = has_parent s p).
    { unfold has_parent. destruct (parent p) as [[q c]|]; [|done]. by eapply mi_is_dir. }
    rewrite Hpar. destruct (fs_nodes s !! p) as [[|i]|] eqn:E1, (fs_nodes t !! p) as [[|j]|] eqn:E2; try done.
    destruct (has_parent s p); cbn [fst snd].
    - split; [|done]. apply mi_set; [done|by right].
    - split; [done|]. unfold equal. destruct (parent p) as [[q c]|]; [|done]. pose proof (mi_node _ _ _ Hm q).
      by destruct (fs_nodes s !! q) as [[|i]|], (fs_nodes t !! q) as [[|j]|].
  Qed.
  Lemma sim_unlink W p : sim W equal (call (CUnlink p)) (call (CUnlink p)).
  Proof.
    apply sim_call. intros s t Hm. exists W. split; [done|]. cbn [exec]. rewrite (sm_os _ _ He).
    destruct (e_os_ok e p); [|done]. pose proof (mi_node _ _ _ Hm p) as Hp.
    destruct (fs_nodes s !! p) as [[|i]|] eqn:E1, (fs_nodes t !! p) as [[|j]|] eqn:E2; try done. cbn [fst snd].
    split; [|done]. apply mi_set; [done|by left].
  Qed.
  Lemma sim_rmdir W p : sim W equal (call (CRmdir p)) (call (CRmdir p)).
  Proof.
    apply sim_call. intros s t Hm. exists W. split; [done|]. cbn [exec]. rewrite (sm_os _ _ He).
    destruct (e_os_ok e p); [|done]. pose proof (mi_node _ _ _ Hm p) as Hp.
    assert (Hc : bool_decide (child_names t p = []) = bool_decide (child_names s p = [])).
    { pose proof (mi_child_names _ _ _ p Hm) as Hc. apply bool_decide_ext. split; intros H; rewrite H in Hc.
      - by apply Permutation_nil_r in Hc.
      - symmetry in Hc. by apply Permutation_nil_r in Hc. }
    rewrite Hc. destruct (fs_nodes s !! p) as [[|i]|] eqn:E1, (fs_nodes t !! p) as [[|j]|] eqn:E2; try done.
    destruct (bool_decide (child_names s p = [])); cbn [fst snd]; [|done]. split; [|done]. apply mi_set; [done|by left].
  Qed.
  Lemma sim_readdir W p : sim W (fun _ => dirs_alike) (call (CReadDir p)) (call (CReadDir p)).
  Proof.
    apply sim_call. intros s t Hm. exists W. split; [done|]. split; [done|]. cbn [exec snd]. rewrite (sm_os _ _ He), (mi_is_dir _ _ _ p Hm).
    destruct (_ && _); [|done]. cbn [dirs_alike]. rewrite (e_order_perm e), (e_order_perm e'), (mi_child_names _ _ _ p Hm).
    apply Permutation_refl'. apply map_ext. intros c. by rewrite (mi_is_dir _ _ _ _ Hm).
  Qed.

  (** *** Helpers *)

  Lemma sim_bind_eq {A C} W (Q : (N -> N -> Prop) -> C -> C -> Prop) (m m' : prog A) (f f' : A -> prog C) : sim W equal m m' ->
    (forall W' a, grows W W' -> sim W' Q (f a) (f' a)) -> sim W Q (bind m f) (bind m' f').
  Proof. intros Hm Hf. eapply sim_bind; [done|]. intros W' a a' Hg <-. by apply Hf. Qed.
  Lemma grows_at (W W' : N -> N -> Prop) i j : grows W W' -> W i j -> W' i j.
  Proof. intros Hg. apply Hg. Qed.

  (* Results of storage functions. *)
  Definition res_alike {A} (R : (N -> N -> Prop) -> A -> A -> Prop) (W : N -> N -> Prop) (x y : sres A) : Prop :=
    match x, y with
    | Ok a, Ok b => R W a b
    | Err c, Err c' => c = c'
    | _, _ => False
    end.
  Lemma sim_try_path {A} W (R : (N -> N -> Prop) -> A -> A -> Prop) o o' k k' : o' = o -> (forall p, sim W (res_alike R) (k p) (k' p)) ->
    sim W (res_alike R) (try_path o k) (try_path o' k').
  Proof. intros -> Hk. destruct o; cbn [try_path]; [apply Hk|by apply sim_ret]. Qed.
  Lemma sim_try_io {A C} W (R : (N -> N -> Prop) -> C -> C -> Prop) (m m' : prog (option A)) k k' : sim W equal m m' ->
    (forall W' a, grows W W' -> sim W' (res_alike R) (k a) (k' a)) -> sim W (res_alike R) (try_io m k) (try_io m' k').
  Proof. intros Hm Hk. apply sim_bind_eq; [done|]. intros W' [a|] Hg; [by apply Hk|by apply sim_ret]. Qed.
  Lemma sim_try_io_rel {A C} W (P : (N -> N -> Prop) -> A -> A -> Prop) (R : (N -> N -> Prop) -> C -> C -> Prop) (m m' : prog (option A)) k k' :
    sim W (fun W' => option_Forall2 (P W')) m m' ->
    (forall W' a a', grows W W' -> P W' a a' -> sim W' (res_alike R) (k a) (k' a')) -> sim W (res_alike R) (try_io m k) (try_io m' k').
  Proof.
    intros Hm Hk. eapply sim_bind; [done|]. intros W' a a' Hg Ha. destruct Ha; [by apply Hk|by apply sim_ret].
  Qed.
  Lemma sim_try_res {A C} W (R : (N -> N -> Prop) -> C -> C -> Prop) (m m' : prog (sres A)) k k' : sim W (res_alike equal) m m' ->
    (forall W' a, grows W W' -> sim W' (res_alike R) (k a) (k' a)) -> sim W (res_alike R) (try_res m k) (try_res m' k').
  Proof.
    intros Hm Hk. eapply sim_bind; [done|]. intros W' [a|c] [a'|c'] Hg Ha; try done.
    - unfold res_alike, equal in Ha. subst a'. by apply Hk.
    - cbn in Ha. subst c'. by apply sim_ret.
  Qed.

  Lemma absolutize_same str : absolutize e' str = absolutize e str.
  Proof. unfold absolutize. by rewrite (sm_root _ _ He). Qed.

  Lemma sim_create_dir_all_rev rp : forall W, sim W equal (create_dir_all_rev rp) (create_dir_all_rev rp).
  Proof.
    induction rp as [|c rp IH]; intros W; cbn [create_dir_all_rev].
    - apply sim_bind_eq; [apply sim_mkdir|]. intros W1 [] _; try by apply sim_ret.
      apply sim_bind_eq; [apply sim_stat|]. intros W2 [[[] n]|] _; by apply sim_ret.
    - assert (Hd : forall W, sim W equal (bind (call (CStat (rev (c :: rp)))) (fun st => match st with Some (true, _) => Ret (Some tt) | _ => Ret None end))
        (bind (call (CStat (rev (c :: rp)))) (fun st => match st with Some (true, _) => Ret (Some tt) | _ => Ret None end))).
      { intros W'. apply sim_bind_eq; [apply sim_stat|]. intros W2 [[[] n]|] _; by apply sim_ret. }
      apply sim_bind_eq; [apply sim_mkdir|]. intros W1 [] _; [by apply sim_ret| |by apply Hd].
      apply sim_bind_eq; [apply IH|]. intros W2 [u|] _; [|by apply sim_ret].
      apply sim_bind_eq; [apply sim_mkdir|]. intros W3 [] _; [by apply sim_ret|by apply Hd..].
  Qed.
  Lemma sim_create_dir_all W p : sim W equal (create_dir_all p) (create_dir_all p).
  Proof. apply sim_create_dir_all_rev. Qed.
  Lemma sim_write_pieces (W : N -> N -> Prop) i j off ps : W i j -> sim W equal (write_pieces i off ps) (write_pieces j off ps).
  Proof.
    revert W off. induction ps as [|b ps IH]; intros W off Hw; cbn [write_pieces]; [by apply sim_ret|].
    apply sim_bind_eq; [by apply sim_write|]. intros W1 [u|] Hg; [apply IH; by apply Hg|by apply sim_ret].
  Qed.
  Lemma sim_copy_bytes (W : N -> N -> Prop) i j off body : W i j -> sim W equal (copy_bytes e i off body) (copy_bytes e' j off body).
  Proof.
    revert W off. induction body as [|[b|] body IH]; intros W off Hw; cbn [copy_bytes]; [by apply sim_ret| |by apply sim_ret].
    rewrite (sm_chop _ _ He). apply sim_bind_eq; [by apply sim_write_pieces|].
    intros W1 [off'|] Hg; [apply IH; by apply Hg|by apply sim_ret].
  Qed.
  Lemma sim_read_rest (W : N -> N -> Prop) n h h' off : handles W h h' -> sim W equal (read_rest n h off) (read_rest n h' off).
  Proof.
    revert W off. induction n as [|n IH]; intros W off Hh; cbn [read_rest]; [by apply sim_ret|].
    apply sim_bind_eq; [by apply sim_read|]. intros W1 [[|c b]|] Hg; try by apply sim_ret.
    apply sim_bind_eq; [apply IH; by destruct h, h'; try done; apply Hg|]. intros W2 [d|] _; by apply sim_ret.
  Qed.
  Lemma sim_read_file W p : sim W equal (read_file p) (read_file p).
  Proof.
    eapply sim_bind; [apply sim_open|]. intros W1 o o' _ Ho. destruct Ho as [h h' Hh|]; [|by apply sim_ret].
    apply sim_bind_eq; [by apply sim_bound|]. intros W2 n Hg. apply sim_read_rest. by destruct h, h'; try done; apply Hg.
  Qed.
  Lemma sim_transfer (W : N -> N -> Prop) n h h' roff i j woff : handles W h h' -> W i j ->
    sim W equal (transfer e n h roff i woff) (transfer e' n h' roff j woff).
  Proof.
    revert W roff woff. induction n as [|n IH]; intros W roff woff Hh Hw; cbn [transfer]; [by apply sim_ret|].
    apply sim_bind_eq; [by apply sim_read|]. intros W1 [[|c b]|] Hg; try by apply sim_ret. rewrite (sm_chop _ _ He).
    apply sim_bind_eq; [apply sim_write_pieces; by apply Hg|]. intros W2 [w|] Hg2; [|by apply sim_ret].
    apply IH; [destruct h, h'; try done; by apply Hg2, Hg|by apply Hg2, Hg].
  Qed.
  Lemma sim_append_file (W : N -> N -> Prop) p i j off : W i j -> sim W equal (append_file e p i off) (append_file e' p j off).
  Proof.
    intros Hw. eapply sim_bind; [apply sim_open|]. intros W1 o o' Hg1 Ho. destruct Ho as [h h' Hh|]; [|by apply sim_ret].
    apply sim_bind_eq; [by apply sim_bound|]. intros W2 n Hg. apply sim_transfer; [destruct h, h'; try done; by apply Hg|by apply Hg, Hg1].
  Qed.
  Lemma sim_write_file W p b : sim W equal (write_file e p b) (write_file e' p b).
  Proof.
    eapply sim_bind; [apply sim_create|]. intros W1 o o' _ Ho. destruct Ho as [i j Hw|]; [|by apply sim_ret].
    rewrite (sm_chop _ _ He). apply sim_bind_eq; [by apply sim_write_pieces|]. intros W2 [?|] _; by apply sim_ret.
  Qed.
  Lemma sim_load_metadata W b k : sim W equal (load_metadata e b k) (load_metadata e' b k).
  Proof.
    unfold load_metadata, get_metadata_path. rewrite absolutize_same. destruct (absolutize e _) as [p|]; [|by apply sim_ret].
    apply sim_bind_eq; [apply sim_exists|]. intros W1 [] _; [|by apply sim_ret].
    apply sim_bind_eq; [apply sim_read_file|]. intros W2 [c|] _; [|by apply sim_ret]. destruct (json_decode c); by apply sim_ret.
  Qed.
  Lemma sim_save_metadata W b k m : sim W equal (save_metadata e b k m) (save_metadata e' b k m).
  Proof.
    unfold save_metadata, get_metadata_path. rewrite absolutize_same. destruct (absolutize e _) as [p|]; [apply sim_write_file|by apply sim_ret].
  Qed.
  Lemma sim_get_md5_sum W b k : sim W equal (get_md5_sum e b k) (get_md5_sum e' b k).
  Proof.
    unfold get_md5_sum, get_object_path. rewrite absolutize_same. destruct (absolutize e _) as [p|]; [|by apply sim_ret].
    apply sim_bind_eq; [apply sim_read_file|]. intros W2 [c|] _; by apply sim_ret.
  Qed.
  Lemma sim_copy_file W p q : sim W equal (copy_file e p q) (copy_file e' p q).
  Proof.
    eapply sim_bind; [apply sim_open|]. intros W1 o o' _ Ho. destruct Ho as [h h' Hh|]; [|by apply sim_ret].
    destruct h as [d|i], h' as [d'|j]; try done; [by apply sim_ret|]. cbn in Hh.
    eapply sim_bind; [apply sim_create|]. intros W2 o o' Hg2 Ho. destruct Ho as [i2 j2 Hw|]; [|by apply sim_ret].
    apply sim_bind_eq; [apply sim_bound; by apply Hg2|]. intros W3 n Hg3.
    apply sim_bind_eq; [apply sim_transfer; [by apply Hg3, Hg2|by apply Hg3]|]. intros W4 [?|] _; by apply sim_ret.
  Qed.

  (** *** Operations *)

  Inductive ans_alike (r : s_req) (W : N -> N -> Prop) : s_ans -> s_ans -> Prop :=
  | aa_equal a : (forall h off lim len md tag, a <> AGet h off lim len md tag) -> ans_alike r W a a
  | aa_get h h' off lim len md tag : reading r -> handles W h h' -> ans_alike r W (AGet h off lim len md tag) (AGet h' off lim len md tag).
  Ltac ret := by (apply sim_ret; first [done|by constructor]).

  Lemma sim_get_extent (W : N -> N -> Prop) h h' r len : handles W h h' -> sim W (res_alike equal) (get_extent h r len) (get_extent h' r len).
  Proof.
    intros Hh. destruct r as [[f l|l]|]; cbn [get_extent]; [destruct (_ <=? _)%N; ret| |ret].
    destruct (_ && _); [|ret]. apply sim_try_io; [by apply sim_len|]. intros W1 a _. destruct (_ <=? _)%N; ret.
  Qed.
  Lemma sim_existing W b ks : sim W (res_alike equal) (existing_objects e b ks) (existing_objects e' b ks).
  Proof.
    revert W. induction ks as [|k ks IH]; intros W; cbn [existing_objects]; [ret|].
    apply sim_try_path; [apply absolutize_same|]. intros p. apply sim_bind_eq; [apply sim_exists|]. intros W1 ex _.
    apply sim_try_res; [apply IH|]. intros W2 l _. ret.
  Qed.
  Lemma sim_remove_objects W l : sim W (res_alike equal) (remove_objects l) (remove_objects l).
  Proof.
    revert W. induction l as [|[p k] l IH]; intros W; cbn [remove_objects]; [ret|].
    apply sim_try_io; [apply sim_unlink|]. intros W1 u _. apply sim_try_res; [apply IH|]. intros W2 ks _. ret.
  Qed.
  Lemma sim_append_parts u ps : forall (W : N -> N -> Prop) i j off cnt, W i j ->
    sim W (res_alike equal) (append_parts e u i off cnt ps) (append_parts e' u j off cnt ps).
  Proof.
    induction ps as [|[n|] ps IH]; intros W i j off cnt Hw; cbn [append_parts]; [ret| |ret].
    destruct (negb _); [ret|]. apply sim_try_path; [apply absolutize_same|]. intros p.
    apply sim_try_io; [by apply sim_append_file|]. intros W1 off' G1.
    apply sim_try_io; [apply sim_unlink|]. intros W2 _ G2. apply IH. by apply G2, G1.
  Qed.

  Lemma sim_storage W r : (match r with RDeleteBucket _ | RListBuckets | RListObjects _ _ | RListObjectsV2 _ _ => False | _ => True end) ->
    sim W (res_alike (ans_alike r)) (storage e r) (storage e' r).
  Proof.
    intros Hr. destruct r; try done; cbn [storage].
    - apply sim_try_path; [apply absolutize_same|]. intros p. apply sim_bind_eq; [apply sim_exists|]. intros W1 [] _; [ret|].
      apply sim_bind_eq; [apply sim_mkdir|]. intros W2 [] _; ret.
    - unfold copy_object. destruct (copy_source_from_header_str _) as [[sb sk]|]; [|ret].
      apply sim_try_path; [apply absolutize_same|]. intros p. apply sim_try_path; [apply absolutize_same|]. intros q.
      apply sim_try_io; [apply sim_stat|]. intros W1 st _. apply sim_try_io; [apply sim_copy_file|]. intros W2 ? _.
      apply sim_try_path; [apply absolutize_same|]. intros sm. apply sim_bind_eq; [apply sim_exists|]. intros W3 ex _.
      apply sim_try_io.
      { unfold get_metadata_path. rewrite absolutize_same. destruct ex; [|by apply sim_ret].
        destruct (absolutize e _); [apply sim_copy_file|by apply sim_ret]. }
      intros W4 ? _. apply sim_try_io; [apply sim_get_md5_sum|]. intros W5 tag _. ret.
    - apply sim_try_path; [apply absolutize_same|]. intros p. destruct (ends_with_char _ _).
      + eapply sim_bind; [apply sim_readdir|]. intros W1 es es' _ Hes. destruct es as [es|], es' as [es'|]; try done; [|ret]. cbn in Hes.
        destruct es as [|x es], es' as [|x' es'].
        * apply sim_try_io; [apply sim_rmdir|]. intros W2 ? _. ret.
        * by apply Permutation_nil_cons in Hes.
        * symmetry in Hes. by apply Permutation_nil_cons in Hes.
        * ret.
      + apply sim_try_io; [apply sim_unlink|]. intros W2 ? _. ret.
    - apply sim_try_res; [apply sim_existing|]. intros W1 l _. apply sim_try_res; [apply sim_remove_objects|]. intros W2 ks _. ret.
    - apply sim_try_path; [apply absolutize_same|]. intros p. apply sim_bind_eq; [apply sim_exists|]. intros W1 [] _; ret.
    - apply sim_try_path; [apply absolutize_same|]. intros p.
      assert (Hgo : forall r W, sim W (res_alike (ans_alike (RGetObject bucket key range)))
        (bind (call (COpen p)) (fun o => match o with None => Ret (Err NoSuchKey) | Some h =>
            try_io (call (CLen h)) (fun file_len => try_res (get_extent h r file_len) (fun ol =>
            try_io (load_metadata e bucket key) (fun md => try_io (get_md5_sum e bucket key) (fun tag =>
              if (ol.2 <=? i64_max)%N then Ret (Ok (AGet h ol.1 ol.2 ol.2 md tag)) else Ret (Err InternalError))))) end))
        (bind (call (COpen p)) (fun o => match o with None => Ret (Err NoSuchKey) | Some h =>
            try_io (call (CLen h)) (fun file_len => try_res (get_extent h r file_len) (fun ol =>
            try_io (load_metadata e' bucket key) (fun md => try_io (get_md5_sum e' bucket key) (fun tag =>
              if (ol.2 <=? i64_max)%N then Ret (Ok (AGet h ol.1 ol.2 ol.2 md tag)) else Ret (Err InternalError))))) end))).
      { intros r W0. eapply sim_bind; [apply sim_open|]. intros W1 o o' _ Ho. destruct Ho as [h h' Hh|]; [|ret].
        assert (Hm : forall W', grows W1 W' -> handles W' h h').
        { intros W' Hg. destruct h, h'; try done. by apply Hg. }
        apply sim_try_io; [by apply sim_len|]. intros W2 len G2. apply sim_try_res; [apply sim_get_extent; by apply Hm|]. intros W3 ol G3.
        apply sim_try_io; [apply sim_load_metadata|]. intros W4 md G4. apply sim_try_io; [apply sim_get_md5_sum|]. intros W5 tag G5.
        destruct (_ <=? _)%N; [|ret]. apply sim_ret. cbn. constructor; [done|]. apply Hm. intros i j H. by apply G5, G4, G3, G2. }
      destruct range as [str|]; [|apply Hgo]. destruct (range_from_header_str str); [apply Hgo|ret].
    - apply sim_try_path; [apply absolutize_same|]. intros p. apply sim_bind_eq; [apply sim_exists|]. intros W1 [] _; ret.
    - apply sim_try_path; [apply absolutize_same|]. intros p. apply sim_bind_eq; [apply sim_exists|]. intros W1 [] _; [|ret].
      apply sim_try_io; [apply sim_stat|]. intros W2 st _. apply sim_try_io; [apply sim_load_metadata|]. intros W3 md _.
      destruct (_ <=? _)%N; ret.
    - unfold put_object. destruct (negb _); [ret|]. destruct body as [body|]; [|ret]. destruct (ends_with_char _ _).
      + destruct (bool_decide _); [|ret]. apply sim_try_path; [apply absolutize_same|]. intros p.
        apply sim_try_io; [apply sim_create_dir_all|]. intros W1 ? _. ret.
      + apply sim_try_path; [apply absolutize_same|]. intros p.
        apply sim_try_io. { destruct (parent p) as [[d c]|]; [apply sim_create_dir_all|by apply sim_ret]. }
        intros W1 ? _. eapply sim_try_io_rel; [apply sim_create|]. intros W2 i j _ Hw.
        apply sim_try_io; [by apply sim_copy_bytes|]. intros W3 ? _.
        apply sim_try_io. { destruct md; [apply sim_save_metadata|by apply sim_ret]. }
        intros W4 ? _. ret.
    - ret.
    - unfold upload_part. destruct body as [body|]; [|ret]. apply sim_try_path; [apply absolutize_same|]. intros p.
      eapply sim_try_io_rel; [apply sim_create|]. intros W2 i j _ Hw.
      apply sim_try_io; [by apply sim_copy_bytes|]. intros W3 ? _. ret.
    - unfold complete_multipart_upload. destruct parts as [ps|]; [|ret]. apply sim_try_path; [apply absolutize_same|]. intros p.
      eapply sim_try_io_rel; [apply sim_create|]. intros W2 i j _ Hw.
      apply sim_try_res; [by apply sim_append_parts|]. intros W3 ? _. apply sim_try_io; [apply sim_stat|]. intros W4 ? _.
      apply sim_try_io; [apply sim_get_md5_sum|]. intros W5 ? _. ret.
  Qed.
End mirror.

(** ** One request *)

Section step.
  Context (e e' : env) (He : same_machine e e').

  Lemma tree_dir s t p : same_tree s t -> fs_nodes s !! p = Some NDir -> fs_nodes t !! p = Some NDir.
  Proof. intros Hst Hd. destruct (Hst p) as [H _]. unfold is_dir in H. rewrite Hd in H. by destruct (fs_nodes t !! p) as [[]|]. Qed.
  Lemma tree_tidy s t : same_tree s t -> tidy e s -> tidy e' t.
  Proof.
    intros Hst Ht p [x Hx]. rewrite (sm_os _ _ He). apply Ht. destruct (Hst p) as [H1 H2]. unfold is_dir, content in *. rewrite Hx in H1, H2.
    destruct (fs_nodes s !! p) as [y|]; [by eexists|]. by destruct x.
  Qed.

  Lemma step_list s t b x (v2 : bool) : wf s -> wf t -> tidy e s -> small s -> same_tree s t -> legal_bucket b ->
    answer e (if v2 then RListObjectsV2 b x else RListObjects b x) s = answer e' (if v2 then RListObjectsV2 b x else RListObjects b x) t /\
    forall h off lim len md tag, answer e (if v2 then RListObjectsV2 b x else RListObjects b x) s <> Ok (AGet h off lim len md tag).
  Proof.
    intros Hs Ht Hti Hsm Hst Hb. pose proof (tree_tidy _ _ Hst Hti) as Hti'.
    destruct (is_dir s [b]) eqn:Ed.
    - assert (Hd : fs_nodes s !! [b] = Some NDir) by (unfold is_dir in Ed; by destruct (fs_nodes s !! [b]) as [[]|]).
      destruct (C36_listing e s b x v2 Hs Hti Hb Hd) as (l & -> & Hl & Sl). { intros q c Hc. by eapply Hsm. }
      destruct (C36_listing e' t b x v2 Ht Hti' Hb (tree_dir _ _ _ Hst Hd)) as (l' & -> & Hl' & Sl').
      { intros q c Hc. destruct (Hst (b :: q)) as [_ H]. rewrite <- H in Hc. by eapply Hsm. }
      assert (l = l') as <-; [|done]. apply sorted_unique; [done|done|]. intros [k n]. rewrite Hl, Hl'.
      split; intros (Hp & p & c & Hlo & Hc & ->); (split; [done|]; exists p, c; split_and!; [done| |done]); destruct (Hst p) as [_ H]; congruence.
    - assert (Hr : forall e u, is_dir u [b] = false -> answer e (if v2 then RListObjectsV2 b x else RListObjects b x) u = Err InternalError).
      { intros e0 u Hu. assert (answer e0 (if v2 then RListObjectsV2 b x else RListObjects b x) u = (run e0 (list_objects e0 v2 b x) u).2) as -> by by destruct v2.
        unfold list_objects. rewrite bucket_path by by apply legal_bucket_segment. cbn [try_path].
        rewrite run_bind, run_call. cbn [exec]. rewrite run_try_res. cbn [list_queue].
        rewrite run_try_io, run_call. cbn [exec]. rewrite Hu, andb_false_r. done. }
      rewrite !Hr; [done|by destruct (Hst [b]) as [<- _]|done].
  Qed.

  Lemma step_same r s t : wf s -> wf t -> tidy e s -> small s -> names_bucket r -> same_tree s t ->
    same_tree (after e r s) (after e' r t) /\ same_answer r s t (answer e r s) (answer e' r t).
  Proof.
    intros Hs Ht Hti Hsm Hr Hst. pose proof (tree_mirror s t Hs Ht Hst) as Hm. pose proof (tree_tidy _ _ Hst Hti) as Hti'.
    assert ((match r with RDeleteBucket _ | RListBuckets | RListObjects _ _ | RListObjectsV2 _ _ => False | _ => True end) \/
      ~ (match r with RDeleteBucket _ | RListBuckets | RListObjects _ _ | RListObjectsV2 _ _ => False | _ => True end)) as [Hl|Hl] by (destruct r; tauto).
    - destruct (sim_storage e e' He _ r Hl s t Hm) as (W & _ & Hm' & Ha). split; [by eapply mirror_tree|].
      unfold answer. fold (after e r s) (after e' r t) in Hm'. destruct (run e (storage e r) s).2 as [a|c] eqn:E1, (run e' (storage e' r) t).2 as [a'|c'] eqn:E2; try done.
      + cbn in Ha. destruct Ha as [a Hno|h h' off lim len md tag Hre Hh].
        * apply sa_equal. intros h off lim len md tag [= ->]. by eapply Hno.
        * apply sa_get. intros sched.
          rewrite (C51_reads_leave_store e r s Hre), (C51_reads_leave_store e' r t Hre) in Hm'.
          destruct h as [p|i], h' as [q|j]; try done. cbn [get_body]. by rewrite (mi_data _ _ _ Hm' i j).
      + cbn in Ha. subst c'. by apply sa_equal.
    - destruct r; try (exfalso; by apply Hl); clear Hl; cbn [names_bucket] in Hr.
      + destruct (is_dir s [bucket]) eqn:Ed.
        * assert (Hd : fs_nodes s !! [bucket] = Some NDir) by (unfold is_dir in Ed; by destruct (fs_nodes s !! [bucket]) as [[]|]).
          destruct (deleted_nodes e s bucket Hs Hti Hr Hd) as [-> Hn].
          destruct (deleted_nodes e' t bucket Ht Hti' Hr (tree_dir _ _ _ Hst Hd)) as [-> Hn']. split; [|by apply sa_equal].
          pose proof (storage_untouched e (RDeleteBucket bucket) s Hs) as Hu. pose proof (storage_untouched e' (RDeleteBucket bucket) t Ht) as Hu'.
          intros p. unfold is_dir. rewrite Hn, Hn'. destruct (decide _) as [Hp|Hp].
          { split; [done|]. unfold content. rewrite Hn, Hn'. by destruct (decide _). }
          split; [apply Hst|]. rewrite (un_content _ _ _ _ _ Hu), (un_content _ _ _ _ _ Hu'); [apply Hst|..]; cbn.
          all: intros (q & Hq & Hpq); rewrite bucket_path in Hq by (by apply legal_bucket_segment); by injection Hq as <-.
        * assert (Hr' : forall e u, is_dir u [bucket] = false -> run e (delete_bucket e bucket) u = (u, Err InternalError)).
          { intros e0 u Hu. unfold delete_bucket. rewrite bucket_path by by apply legal_bucket_segment. cbn [try_path].
            rewrite run_bind, run_call. cbn [exec]. rewrite run_try_io. cbn [remove_dir_all]. rewrite run_bind, run_call. cbn [exec]. by rewrite Hu, andb_false_r. }
          unfold after, answer. cbn [storage]. rewrite !Hr'; [by split; [|apply sa_equal]|by destruct (Hst [bucket]) as [<- _]|done].
      + rewrite (C51_reads_leave_store e), (C51_reads_leave_store e') by done. split; [done|].
        destruct (is_dir s []) eqn:Ed.
        * assert (Hd : fs_nodes s !! [] = Some NDir) by (unfold is_dir in Ed; by destruct (fs_nodes s !! []) as [[]|]).
          destruct (C37_list_buckets e s Hs Hti Hd) as (l & -> & N1 & Hl). destruct (C37_list_buckets e' t Ht Hti' (tree_dir _ _ _ Hst Hd)) as (l' & -> & N2 & Hl').
          apply sa_buckets; [done|]. apply NoDup_Permutation; [done|done|]. intros b. rewrite Hl, Hl'. split; intros [H1 H2]; (split; [done|]).
          -- by eapply tree_dir.
          -- eapply (tree_dir t s); [|done]. intros p. destruct (Hst p). done.
        * assert (Hr' : forall e u, is_dir u [] = false -> answer e RListBuckets u = Err InternalError).
          { intros e0 u Hu. unfold answer. cbn [storage]. unfold list_buckets. rewrite run_try_io, run_call. cbn [exec]. by rewrite Hu, andb_false_r. }
          rewrite !Hr'; [by apply sa_equal|by destruct (Hst []) as [<- _]|done].
      + rewrite (C51_reads_leave_store e), (C51_reads_leave_store e') by done. split; [done|].
        destruct (step_list s t bucket prefix false Hs Ht Hti Hsm Hst Hr) as [<- Hno]. by apply sa_equal.
      + rewrite (C51_reads_leave_store e), (C51_reads_leave_store e') by done. split; [done|].
        destruct (step_list s t bucket prefix true Hs Ht Hti Hsm Hst Hr) as [<- Hno]. by apply sa_equal.
  Qed.
End step.

(** ** Requests over HTTP *)

Definition bucket_list (names : list bytes) : response :=
  xml_response 200 (XStack (B "ListAllMyBucketsResult")
    [XStack (B "Buckets") (map (fun n => XStack (B "Bucket") [XText (B "Name") n]) names)]).

(* Replies, with the disks their bodies are read from: they are the same and their bodies are read alike, or
   they are lists of the same buckets. *)
Inductive reads_same (s t : fs) : reply -> reply -> Prop :=
| rs_equal rep : (forall resp, rep = Replied resp -> forall h off lim, rs_body resp <> RbFile h off lim) -> reads_same s t rep rep
| rs_file st hs h h' off lim : (forall sched, get_body s h off lim sched = get_body t h' off lim sched) ->
    reads_same s t (Replied (Response st hs (RbFile h off lim))) (Replied (Response st hs (RbFile h' off lim)))
| rs_buckets l l' : l ≡ₚ l' -> reads_same s t (Replied (bucket_list l)) (Replied (bucket_list l')).
Definition heard_same (x y : fs * reply) : Prop := reads_same x.1 y.1 x.2 y.2.

Lemma respond_same op c r s t a a' : same_answer r s t a a' -> (r = RListBuckets -> op = OpListBuckets) ->
  reads_same s t (reply_of (respond op c a)) (reply_of (respond op c a')).
Proof.
  intros Ha Hop. destruct Ha as [a Hno|h h' off lim len md tag Hb|l l' Hr Hl].
  - apply rs_equal. intros resp. by apply respond_no_file.
  - destruct (respond_alike op c h h' off off lim lim len md tag) as [(hs & -> & ->)|[Hs Hno]]; [by apply rs_file|].
    rewrite <- Hs. apply rs_equal. intros resp Hr. destruct (respond op c (Ok (AGet h off lim len md tag))) as [resp'|code].
    + injection Hr as <-. by apply Hno.
    + by injection Hr as <-.
  - rewrite (Hop Hr). by apply rs_buckets.
Qed.

Lemma called_names sv rq op c r : front sv rq = FrCall op c r -> names_bucket r.
Proof.
  intros Hf. apply C58_called_as_asked in Hf.
  assert (Hbr : forall b, request_path rq (PBucket b) -> legal_bucket b).
  { intros b (uri & _ & _ & H). by inversion H. }
  destruct Hf; cbn [names_bucket]; eauto using object_request.
Qed.
Lemma buckets_asked sv rq op c : front sv rq = FrCall op c RListBuckets -> op = OpListBuckets.
Proof. intros Hf%C58_called_as_asked. by inversion Hf. Qed.

Lemma exchange_same e e' x s t : same_machine e e' -> wf s -> wf t -> tidy e s -> small s -> same_tree s t ->
  (forall r, stands_for x r -> text_req r) ->
  same_tree (exchange e x.1 x.2 s).1 (exchange e' x.1 x.2 t).1 /\ reads_same s t (exchange e x.1 x.2 s).2 (exchange e' x.1 x.2 t).2 /\
  wf (exchange e x.1 x.2 s).1 /\ wf (exchange e' x.1 x.2 t).1 /\ tidy e (exchange e x.1 x.2 s).1.
Proof.
  intros He Hs Ht Hti Hsm Hst Hx. destruct (front x.1 x.2) as [code| |op c r] eqn:Ef.
  - unfold exchange, service. rewrite Ef. cbn [run fst snd]. split; [done|]. split; [|done]. apply rs_equal. by intros resp [= <-].
  - unfold exchange, service. rewrite Ef. cbn [run fst snd]. split; [done|]. split; [|done]. by apply rs_equal.
  - rewrite !(exchange_call _ _ _ _ _ _ _ Ef). cbn [fst snd].
    destruct (step_same e e' He r s t Hs Ht Hti Hsm (called_names _ _ _ _ _ Ef) Hst) as [H1 H2]. split; [done|].
    split; [|split_and!; [by apply wf_after|by apply wf_after|apply tidy_after; [done|]; apply Hx; by eexists _, _]].
    eapply respond_same; [done|]. intros ->. by eapply buckets_asked.
Qed.

(** C92: two stores with the same directory tree cannot be told apart, however they came about.  A copy of the
    directory is a complete backup. *)
Theorem C92_backup e e' xs s t : same_machine e e' -> wf s -> wf t -> tidy e s -> same_tree s t ->
  Forall (fun x => forall r, stands_for x r -> text_req r) xs -> (forall n, small (after_requests e (take n xs) s)) ->
  same_tree (after_requests e xs s) (after_requests e' xs t) /\
  Forall2 heard_same (heard e (fun _ => true) s xs) (heard e' (fun _ => true) t xs).
Proof.
  intros He Hs Ht Hti Hst Hxs. revert s t Hs Ht Hti Hst. induction Hxs as [|x xs Hx _ IH]; intros s t Hs Ht Hti Hst Hsm; [by split; [|constructor]|].
  cbn [heard after_requests]. destruct (exchange_same e e' x s t He Hs Ht Hti (Hsm 0) Hst Hx) as (H1 & H2 & H3 & H4 & H5).
  destruct (IH _ _ H3 H4 H5 H1) as [I1 I2]. { intros n. apply (Hsm (S n)). }
  split; [done|]. constructor; [done|]. done.
Qed.
Print Assumptions C92_backup.

(** ** Deleted data *)

(* Disks that differ in the content of one file. *)
Definition differ_at (i : N) (s t : fs) : Prop :=
  fs_nodes t = fs_nodes s /\ fs_next t = fs_next s /\ forall j, j <> i -> fs_data t !! j = fs_data s !! j.
Lemma differ_set i j d s t : differ_at i s t -> differ_at i (set_data s j d) (set_data t j d).
Proof.
  intros (H1 & H2 & H3). split; [done|]. split; [done|]. intros l Hl. cbn. destruct (decide (l = j)) as [->|]; [by rewrite !lookup_insert|].
  rewrite !lookup_insert_ne by done. by apply H3.
Qed.
Lemma differ_create e i p s t : differ_at i s t ->
  differ_at i (exec e (CCreate p) s).1 (exec e (CCreate p) t).1 /\ (exec e (CCreate p) t).2 = (exec e (CCreate p) s).2.
Proof.
  intros Hd. pose proof Hd as (H1 & H2 & H3). cbn [exec]. destruct (negb _); [done|]. rewrite H1.
  destruct (fs_nodes s !! p) as [[|j]|] eqn:Ep; [done| |].
  - split; [|done]. cbn [fst]. split; [done|]. split; [done|]. intros l Hl. cbn. destruct (decide (l = j)) as [->|]; [by rewrite !lookup_insert|].
    rewrite !lookup_insert_ne by done. by apply H3.
  - destruct (parent p) as [[q c]|]; [|done]. unfold is_dir. rewrite H1. destruct (fs_nodes s !! q) as [[]|]; try done.
    cbn [fst snd]. rewrite H2. split; [|done]. split; [done|]. split; [done|]. intros l Hl. cbn.
    destruct (decide (l = fs_next s)) as [->|]; [by rewrite !lookup_insert|]. rewrite !lookup_insert_ne by done. by apply H3.
Qed.

Lemma puts_differ e b k sc cl cl' md fs fs' p s a a' : wf s -> segment_ok b -> located b k p ->
  answer e (RPutObject b k sc cl md (Some fs)) s = Ok a -> answer e (RPutObject b k sc cl' md (Some fs')) s = Ok a' ->
  exists i, differ_at i (after e (RPutObject b k sc cl md (Some fs)) s) (after e (RPutObject b k sc cl' md (Some fs')) s) /\
    fs_nodes (after e (RPutObject b k sc cl md (Some fs)) s) !! p = Some (NFile i) /\ e_os_ok e p = true.
Proof.
  intros Hwf Hb Hl Ha Ha'.
  assert (Hi : exists i, fs_nodes (after e (RPutObject b k sc cl md (Some fs)) s) !! p = Some (NFile i) /\ e_os_ok e p = true /\
    forall j, fs_nodes (after e (RPutObject b k sc cl md (Some fs)) s) !! p = Some (NFile j) -> j = i).
  { unfold after, answer in *. cbn [storage] in *. destruct (run e (put_object e b k sc cl md (Some fs)) s) as [s1 r1] eqn:Er. cbn [fst snd] in *. subst r1.
    destruct (put_ok e b k sc cl md (Some fs) p s s1 a Hwf Hb Hl Er) as (f & _ & _ & _ & Hc & Hos & _). unfold content in Hc.
    destruct (fs_nodes s1 !! p) as [[|i]|]; try done. exists i. split; [done|]. split; [done|]. by intros j [= ->]. }
  destruct Hi as (i & Hi & Hos & Hu).
  assert (Hsc : storage_class_ok sc = true).
  { unfold answer in Ha. cbn [storage] in Ha. unfold put_object in Ha. by destruct (storage_class_ok sc). }
  destruct (run_put e b k sc cl md fs p s Hwf Hb Hl Hsc) as (dir & c & Hp & Hne & [[_ Hr]|(_ & _ & Hr)]).
  { unfold answer in Ha. cbn [storage] in Ha. by rewrite Hr in Ha. }
  destruct (run_put e b k sc cl' md fs' p s Hwf Hb Hl Hsc) as (dir' & c' & Hp' & _ & [[_ Hr']|(_ & _ & Hr')]).
  { unfold answer in Ha'. cbn [storage] in Ha'. by rewrite Hr' in Ha'. }
  rewrite Hp in Hp'. apply app_inj_tail in Hp' as [<- <-]. cbn zeta in Hr, Hr'.
  destruct (exec e (CCreate p) (set_nodes s (mkdirs dir (fs_nodes s)))) as [s2 [i0|]] eqn:Ec;
    [|unfold answer in Ha; cbn [storage] in Ha; by rewrite Hr in Ha].
  unfold after, answer in *. cbn [storage] in *. rewrite Hr in Ha, Hi, Hu |- *. rewrite Hr' in Ha' |- *. clear Hr Hr'.
  apply create_file in Ec as (Hn & _ & _).
  destruct (body_ok fs); [|done]. destruct (body_ok fs'); [|done].
  assert (Hd : differ_at i0 (set_data s2 i0 (body_data fs)) (set_data s2 i0 (body_data fs'))).
  { split; [done|]. split; [done|]. intros j Hj. cbn. by rewrite !lookup_insert_ne. }
  destruct md as [m|]; cbn [fst snd] in *.
  - rewrite !run_save_metadata in *. destruct (differ_create e i0 [metadata_name b k] _ _ Hd) as [Hc1 Hc2].
    destruct (exec e (CCreate [metadata_name b k]) (set_data s2 i0 (body_data fs))) as [s4 o] eqn:E4.
    destruct (exec e (CCreate [metadata_name b k]) (set_data s2 i0 (body_data fs'))) as [s4' o'] eqn:E4'.
    cbn [fst snd] in *. subst o'. destruct o as [j|]; [|done]. cbn [fst snd] in *. exists i. split; [|done].
    assert (i0 = i) as <-; [|by apply differ_set]. apply Hu. cbn.
    assert (Hneq : p <> [metadata_name b k]). { rewrite Hp. intros H%(f_equal length). rewrite app_length in H. cbn in H. destruct dir; [done|cbn in H; lia]. }
    clear -E4 Hn Hneq. cbn [exec] in E4. destruct (negb _); [done|]. cbn [set_data fs_nodes] in E4.
    destruct (fs_nodes s2 !! [metadata_name b k]) as [[|x]|]; [done| |].
    + injection E4 as <- <-. done.
    + destruct (parent _) as [[q c0]|]; [|done]. destruct (is_dir _ _); [|done]. injection E4 as <- <-. cbn. by rewrite lookup_insert_ne.
  - exists i. split; [|done]. assert (i0 = i) as <-; [|done]. by apply Hu.
Qed.

(** C92: once an object has been deleted, nothing that the server does depends on what it contained. *)
Theorem C92_deleted_gone e b k p sc cl cl' md fs fs' s a a' xs : wf s -> tidy e s -> legal_bucket b -> located b k p -> utf8_valid k = true ->
  let put := RPutObject b k sc cl md (Some fs) in let put' := RPutObject b k sc cl' md (Some fs') in
  answer e put s = Ok a -> answer e put' s = Ok a' ->
  let u := after e (RDeleteObject b k) (after e put s) in let u' := after e (RDeleteObject b k) (after e put' s) in
  answer e (RDeleteObject b k) (after e put s) = Ok ADone /\ answer e (RDeleteObject b k) (after e put' s) = Ok ADone /\
  same_tree u u' /\
  (Forall (fun x => forall r, stands_for x r -> text_req r) xs -> (forall n, small (after_requests e (take n xs) u)) ->
   Forall2 heard_same (heard e (fun _ => true) u xs) (heard e (fun _ => true) u' xs)).
Proof.
  intros Hwf Hti Hb Hl Hk put put' Ha Ha' u u'. pose proof (legal_bucket_segment _ Hb) as Hbs.
  destruct (puts_differ e b k sc cl cl' md fs fs' p s a a' Hwf Hbs Hl Ha Ha') as (i & (Hn & _ & Hd) & Hi & Hos). fold put put' in Hn, Hd, Hi.
  assert (Hs1 : wf (after e put s)) by by apply wf_after. assert (Hs2 : wf (after e put' s)) by by apply wf_after.
  assert (Hdel : forall v, fs_nodes v !! p = Some (NFile i) -> run e (delete_object e b k) v = (set_nodes v (delete p (fs_nodes v)), Ok ADone)).
  { intros v Hv. unfold delete_object. rewrite (located_path e b k p Hbs Hl), run_try_path. pose proof (located_ordinary _ _ _ Hl) as Hor.
    rewrite (ordinary_no_slash_end _ Hor), run_try_io, run_call. cbn [exec]. by rewrite Hos, Hv. }
  assert (Ht : same_tree u u').
  { unfold u, u', after at 1 3. cbn [storage]. rewrite Hdel, Hdel; [|by rewrite Hn|done]. cbn [fst]. intros q.
    unfold is_dir, content. cbn [set_nodes fs_nodes]. rewrite Hn. split; [done|].
    destruct (decide (q = p)) as [->|Hq]; [by rewrite lookup_delete|]. rewrite lookup_delete_ne by done.
    destruct (fs_nodes (after e put s) !! q) as [[|j]|] eqn:Ej; try done. f_equal. unfold data_of. cbn [fs_data set_nodes].
    rewrite Hd; [done|]. intros ->. apply Hq. by eapply (wf_inj _ Hs1). }
  assert (Htxt : text_req put /\ text_req (RDeleteObject b k)).
  { split; cbn; (split; [by apply text_bucket|done]). }
  split; [unfold answer; cbn [storage]; by rewrite Hdel|]. split; [unfold answer; cbn [storage]; by rewrite Hdel; [|rewrite Hn]|]. split; [done|].
  intros Hx Hsm. eapply C92_backup; try done; [by apply wf_after|by apply wf_after|]. apply tidy_after; [apply tidy_after; tauto|tauto].
Qed.
Print Assumptions C92_deleted_gone.

(** ** Examples *)

Definition tree (s : fs) : gmap path (option bytes) :=
  (fun n => match n with NDir => None | NFile i => Some (data_of s i) end) <$> fs_nodes s.
Lemma tree_same s t : tree s = tree t -> same_tree s t.
Proof.
  intros H p. assert (Hp : tree s !! p = tree t !! p) by by rewrite H. unfold tree in Hp. rewrite !lookup_fmap in Hp. unfold is_dir, content.
  destruct (fs_nodes s !! p) as [[|i]|], (fs_nodes t !! p) as [[|j]|]; cbn in Hp; try done. by injection Hp as ->.
Qed.
Lemma tree_small s : forallb (fun x => match x.2 with None => true | Some c => (N.of_nat (length c) <=? i64_max)%N end) (map_to_list (tree s)) = true -> small s.
Proof.
  intros H p c Hc. rewrite forallb_forall in H. specialize (H (p, Some c)).
  apply N.leb_le. apply H. apply elem_of_list_In. apply elem_of_map_to_list. unfold tree. rewrite lookup_fmap. unfold content in Hc.
  destruct (fs_nodes s !! p) as [[|i]|]; try done. by injection Hc as <-.
Qed.

(* A store on which files were overwritten, deleted and uploaded in parts, and a copy of its directory. *)
Definition ex_worn : fs := after_all ex_env
  [RCreateBucket (B "photos"); RCreateBucket (B "music");
   RPutObject (B "photos") (B "tmp") None None None (Some [FData (B "old")]); RDeleteObject (B "photos") (B "tmp");
   RUploadPart (B "id") 1 (Some [FData (B "hel")]); RUploadPart (B "id") 2 (Some [FData (B "lo")]);
   RPutObject (B "photos") (B "a/cat") None None (Some [(B "owner", B "me")]) (Some [FData (B "miau")]);
   RCompleteMultipartUpload (B "photos") (B "hello") (B "id") (Some [Some 1; Some 2]%Z)] empty_store.
Definition ex_restored : fs :=
  let files := map_to_list (tree ex_worn) in
  fold_left (fun t f => match f.2 with
    | None => set_nodes t (<[f.1 := NDir]> (fs_nodes t))
    | Some c => Fs (<[f.1 := NFile (fs_next t)]> (fs_nodes t)) (<[fs_next t := c]> (fs_data t)) (fs_next t + 1)%N
    end) files (Fs ∅ ∅ 0%N).
Definition ex_wf_b (s : fs) : bool :=
  forallb (fun x => match rev x.1 with [] => true | _ :: q => bool_decide (fs_nodes s !! rev q = Some NDir) end &&
    match x.2 with NDir => true | NFile i => (i <? fs_next s)%N &&
      forallb (fun y => match y.2 with NDir => true | NFile j => negb (i =? j)%N || bool_decide (x.1 = y.1) end) (map_to_list (fs_nodes s)) end)
    (map_to_list (fs_nodes s)).
Lemma ex_wf_spec s : ex_wf_b s = true -> wf s.
Proof.
  unfold ex_wf_b. rewrite forallb_forall. intros H.
  assert (Hin : forall p n, fs_nodes s !! p = Some n -> In (p, n) (map_to_list (fs_nodes s))).
  { intros p n Hp. by apply elem_of_list_In, elem_of_map_to_list. }
  split.
  - intros p c [n Hn]. apply Hin, H, andb_prop in Hn as [Hn _]. cbn [fst] in Hn. rewrite rev_app_distr in Hn. cbn in Hn.
    rewrite rev_involutive in Hn. by apply bool_decide_eq_true in Hn.
  - intros p q i Hp Hq. apply Hin, H, andb_prop in Hp as [_ Hp]. cbn [fst snd] in Hp. apply andb_prop in Hp as [_ Hp].
    rewrite forallb_forall in Hp. apply Hin, Hp in Hq. cbn [fst snd] in Hq. rewrite N.eqb_refl in Hq. cbn in Hq. by apply bool_decide_eq_true in Hq.
  - intros p i Hp. apply Hin, H, andb_prop in Hp as [_ Hp]. cbn [fst snd] in Hp. apply andb_prop in Hp as [Hp _]. by apply N.ltb_lt.
Qed.
Definition ex_other : env := {|
  e_root := e_root ex_env; e_os_ok := e_os_ok ex_env; e_order := fun _ l => rev l; e_dir_len := e_dir_len ex_env; e_chop := e_chop ex_env; e_rounds := e_rounds ex_env;
  e_os_prefix := e_os_prefix ex_env; e_order_perm := fun _ l => Permutation_sym (Permutation_rev l); e_chop_concat := e_chop_concat ex_env |}.
Definition ex_asked : list received := map (pair ex_open_server)
  [HttpRequest (B "GET") (B "/") None [] [];
   HttpRequest (B "GET") (B "/photos/hello") None [] [];
   HttpRequest (B "HEAD") (B "/photos/a/cat") None [] [];
   HttpRequest (B "GET") (B "/photos") None [] [];
   HttpRequest (B "DELETE") (B "/photos") None [] [];
   HttpRequest (B "GET") (B "/photos/hello") None [] []].
Example C92_ex :
  same_machine ex_env ex_other /\ wf ex_worn /\ wf ex_restored /\ tidy ex_env ex_worn /\ same_tree ex_worn ex_restored /\
  ex_worn <> ex_restored /\
  Forall (fun x => forall r, stands_for x r -> text_req r) ex_asked /\ (forall n, small (after_requests ex_env (take n ex_asked) ex_worn)) /\
  map (fun x => match x.2 with Replied resp => rs_status resp | Panicked => 0%N end) (heard ex_other (fun _ => true) ex_restored ex_asked) =
    [200; 200; 200; 200; 204; 404]%N /\
  (heard ex_other (fun _ => true) ex_restored (take 1 ex_asked)).*2 <> (heard ex_env (fun _ => true) ex_worn (take 1 ex_asked)).*2.
Proof.
  split_and!.
  - by split.
  - apply ex_wf_spec. vm_compute. reflexivity.
  - apply ex_wf_spec. vm_compute. reflexivity.
  - apply reachable_tidy; [done|]. repeat (apply Forall_cons; split); [..|apply Forall_nil_2]; cbn; repeat split; by vm_compute.
  - apply tree_same. apply (bool_decide_unpack _). vm_compute. done.
  - intros H%(f_equal fs_next). vm_compute in H. discriminate.
  - unfold ex_asked. cbn [map]. repeat (apply Forall_cons; split); [..|apply Forall_nil_2]; intros r (op & c & Hf); apply (f_equal called) in Hf;
      vm_compute in Hf; injection Hf as <- <-; cbn; repeat split; by vm_compute.
  - intros n. apply tree_small. do 6 (destruct n as [|n]; [vm_compute; reflexivity|]). destruct n; vm_compute; reflexivity.
  - vm_compute. reflexivity.
  - vm_compute. discriminate.
Qed.
Example C92_ex_deleted :
  let put d := RPutObject (B "photos") (B "s") None None None (Some [FData d]) in
  let gone d := after ex_env (RDeleteObject (B "photos") (B "s")) (after ex_env (put d) ex_worn) in
  (exists a, answer ex_env (put (B "secret")) ex_worn = Ok a) /\ (exists a, answer ex_env (put (B "other text")) ex_worn = Ok a) /\
  gone (B "secret") <> gone (B "other text") /\ tree (gone (B "secret")) = tree (gone (B "other text")).
Proof.
  split_and!; [eexists; vm_compute; reflexivity|eexists; vm_compute; reflexivity| |].
  - intros H%(f_equal (fun s => (map_to_list (fs_data s)).*2)). vm_compute in H. discriminate.
  - apply (bool_decide_unpack _). vm_compute. done.
Qed.
