(** Who wrote the bytes of a file that several tasks write at the same time. *)
From Verif Require Import M_Base M_Fs M_Storage S_Storage S_Chunked S_Store L_Base L_Fs L_Storage L_Scope.

Local Opaque md5 etag_of json_decode json_encode metadata_name part_name.

(* A program that creates only files in [C] and writes only [W]; [own]: inodes of the files it
   created, with the path it used. *)
Fixpoint tracked {A} (C : path -> Prop) (W : path -> nat -> bytes -> Prop) (own : N -> path -> Prop)
  (m : prog A) {struct m} : Prop :=
  match m with
  | Ret _ => True
  | Do c k =>
      match c in syscall R return (R -> prog A) -> Prop with
      | CCreate q => fun k => C q /\
          forall r : option N, tracked C W (fun j q' => own j q' \/ (r = Some j /\ q' = q)) (k r)
      | CWrite i off b => fun k => (exists q, own i q /\ W q off b) /\ forall r, tracked C W own (k r)
      | _ => fun k => forall r, tracked C W own (k r)
      end k
  end.

Lemma tracked_weaken {A} (m : prog A) (C C' : path -> Prop) (W W' : path -> nat -> bytes -> Prop) (own own' : N -> path -> Prop) :
  (forall q, C q -> C' q) -> (forall q off b, W q off b -> W' q off b) -> (forall i q, own i q -> own' i q) ->
  tracked C W own m -> tracked C' W' own' m.
Proof.
  intros HC HW. revert own own'. induction m as [a|R c k IH]; intros own own' Ho H; [done|].
  destruct c; cbn [tracked] in *; try (intros r; by eapply IH; eauto).
  - destruct H as [H1 H2]. split; [auto|]. intros r. eapply IH; [|apply H2]. intros j q [Hj|Hj]; auto.
  - destruct H as [(q & H1 & H2) H3]. split; [exists q; auto|]. intros r. eapply IH; eauto.
Qed.

Lemma tracked_bind {A B} (m : prog A) (f : A -> prog B) C W own :
  tracked C W own m ->
  (forall a (own' : N -> path -> Prop), (forall i q, own i q -> own' i q) -> tracked C W own' (f a)) ->
  tracked C W own (bind m f).
Proof.
  revert own. induction m as [a|R c k IH]; intros own H Hf; [by apply Hf|].
  destruct c; cbn [tracked bind] in *; try (intros r; by eapply IH; eauto).
  - destruct H as [H1 H2]. split; [done|]. intros r. eapply IH; [apply H2|]. intros a own' Ho. apply Hf. eauto.
  - destruct H as [H1 H2]. split; [done|]. intros r. eapply IH; eauto.
Qed.

(* What is scoped is tracked. *)
Lemma scoped_tracked {A} (m : prog A) F D X (own : N -> Prop) (own' : N -> path -> Prop) :
  (forall i, own i -> exists q, own' i q /\ F q) -> scoped F D X own m -> tracked F (fun q _ _ => F q) own' m.
Proof.
  revert own own'. induction m as [a|R c k IH]; intros own own' Ho H; [done|].
  destruct c; cbn [tracked scoped] in *; try (intros r; try (destruct H as [_ H]); by eapply IH; [|apply H]; eauto).
  - destruct H as [H1 H2]. split; [done|]. intros r. eapply IH; [|apply H2].
    intros i [Hi|Hi]; [|by exists p; auto]. destruct (Ho i Hi) as (q & ? & ?). exists q. auto.
  - destruct H as [H1 H2]. split; [by apply Ho|]. intros r. eapply IH; eauto.
Qed.

(* Programs that neither create nor write files. *)
Definition no_writes {A} (m : prog A) : Prop := tracked (fun _ => False) (fun _ _ _ => False) (fun _ _ => False) m.
Lemma no_writes_tracked {A} (m : prog A) C W own : no_writes m -> tracked C W own m.
Proof. apply tracked_weaken; done. Qed.
Lemma no_writes_scoped {A} (m : prog A) D X : scoped (fun _ => False) D X no_own m -> no_writes m.
Proof. intros H. by eapply scoped_tracked in H. Qed.
Lemma no_writes_bind {A B} (m : prog A) (f : A -> prog B) : no_writes m -> (forall a, no_writes (f a)) -> no_writes (bind m f).
Proof. intros Hm Hf. apply tracked_bind; [done|]. intros a own' _. by apply no_writes_tracked. Qed.
Lemma no_writes_remove_dir_all fuel p : no_writes (remove_dir_all fuel p).
Proof.
  revert p. induction fuel as [|fuel IH]; intros p; [done|].
  cbn [remove_dir_all bind call]. intros [es|]; [|done].
  induction es as [|[c d] es IHes]; [done|]. apply no_writes_bind; [by destruct d|].
  intros [u|]; [|done]. apply IHes.
Qed.
Lemma no_writes_try_res {A B} (m : prog (sres A)) (k : A -> prog (sres B)) :
  no_writes m -> (forall a, no_writes (k a)) -> no_writes (try_res m k).
Proof. intros Hm Hk. apply no_writes_bind; [done|]. by intros [a|]. Qed.
Lemma no_writes_existing_objects e b keys : no_writes (existing_objects e b keys).
Proof. eapply (no_writes_scoped _ (fun _ => False) (fun _ => False)). apply scoped_existing_objects. Qed.
Lemma no_writes_remove_objects l : no_writes (remove_objects l).
Proof.
  induction l as [|[p k] l IH]; [done|]. cbn [remove_objects]. unfold try_io. cbn. intros [[]|]; [|done].
  by apply no_writes_try_res.
Qed.

Lemma deletions_no_writes e r :
  match r with RDeleteObject _ _ | RDeleteObjects _ _ | RDeleteBucket _ => True | _ => False end -> no_writes (storage e r).
Proof.
  destruct r; try done; intros _; cbn [storage].
  - unfold delete_bucket. destruct (get_bucket_path e _); [|done]. cbn [try_path bind call]. intros n.
    apply no_writes_bind; [apply no_writes_remove_dir_all|]. by intros [|].
  - unfold delete_object. destruct (get_object_path e _ _); [|done]. cbn [try_path]. destruct (ends_with_char _ _).
    + cbn. intros [[|]|]; try done. by intros [|].
    + cbn. by intros [|].
  - unfold delete_objects. apply no_writes_try_res; [apply no_writes_existing_objects|]. intros l.
    apply no_writes_try_res; [apply no_writes_remove_objects|done].
Qed.

(** *** Puts *)
Lemma tracked_write_pieces (C : path -> Prop) (W : path -> nat -> bytes -> Prop) (own : N -> path -> Prop) i q ps : forall off, own i q ->
  (forall j b, ps !! j = Some b -> W q (off + length (concat (take j ps))) b) -> tracked C W own (write_pieces i off ps).
Proof.
  induction ps as [|b ps IH]; intros off Ho HW; [done|]. cbn. split.
  - exists q. split; [done|]. specialize (HW 0 b eq_refl). cbn in HW. by rewrite Nat.add_0_r in HW.
  - intros [[]|]; [|done]. apply IH; [done|]. intros j b' Hj. specialize (HW (S j) b' Hj). cbn in HW.
    by rewrite app_length, Nat.add_assoc in HW.
Qed.

(* [b] is what [d] has at [off]. *)
Definition slice_at (d : bytes) (off : nat) (b : bytes) : Prop :=
  off + length b <= length d /\ forall x c, b !! x = Some c -> d !! (off + x) = Some c.
Lemma slice_at_app d1 d2 d3 : slice_at (d1 ++ d2 ++ d3) (length d1) d2.
Proof.
  split; [rewrite !app_length; lia|]. intros x c Hx. rewrite lookup_app_r by lia.
  replace (length d1 + x - length d1) with x by lia. by apply lookup_app_l_Some.
Qed.

Lemma write_pieces_length i ps : forall off (P : option nat -> Prop), P None -> P (Some (off + length (concat ps))) ->
  forall C W own, tracked C W own (write_pieces i off ps) -> forall B (f : option nat -> prog B),
  (forall o (own' : N -> path -> Prop), P o -> (forall j q, own j q -> own' j q) -> tracked C W own' (f o)) ->
  tracked C W own (bind (write_pieces i off ps) f).
Proof.
  induction ps as [|b ps IH]; intros off P HN HS C W own H B f Hf.
  - cbn. apply Hf; [|done]. cbn in HS. by rewrite Nat.add_0_r in HS.
  - cbn in *. destruct H as [H1 H2]. split; [done|]. intros [[]|].
    + eapply (IH (off + length b) P); [done| |apply (H2 (Some tt))|done].
      by rewrite app_length, Nat.add_assoc in HS.
    + cbn. by apply Hf.
Qed.

Lemma tracked_copy_bytes e (C : path -> Prop) (W : path -> nat -> bytes -> Prop) q d i : (forall off b, slice_at d off b -> W q off b) ->
  forall body off (own : N -> path -> Prop), own i q -> (exists d0, length d0 = off /\ d = d0 ++ carried body) ->
  tracked C W own (copy_bytes e i off body).
Proof.
  intros HW. induction body as [|[b|] body IH]; intros off own Ho (d0 & Hd0 & Hd); [done| |done]. cbn [copy_bytes carried] in *.
  eapply (write_pieces_length i _ _ (fun o => o = None \/ o = Some (off + length (concat (e_chop e b)))));
    [by left|by right| |].
  - apply (tracked_write_pieces C W own i q); [done|]. intros j x Hj. apply HW. rewrite Hd.
    assert (Hb : b = concat (take j (e_chop e b)) ++ x ++ concat (drop (S j) (e_chop e b))).
    { rewrite <- (e_chop_concat e b) at 1. rewrite <- (take_drop_middle _ _ _ Hj) at 1. by rewrite concat_app. }
    rewrite Hb at 1. rewrite <- !app_assoc, app_assoc, <- Hd0, <- app_length. apply slice_at_app.
  - intros o own' [->| ->] Hown; [done|]. apply IH; [auto|]. exists (d0 ++ b).
    rewrite e_chop_concat, app_length, Hd0. split; [done|]. by rewrite Hd, app_assoc.
Qed.

Lemma tracked_put e b k sc cl md body p :
  get_object_path e b k = Some p -> get_metadata_path e b k <> Some p ->
  tracked (fun _ => True) (fun q off x => q = p -> slice_at (carried body) off x) (fun _ _ => False)
    (storage e (RPutObject b k sc cl md (Some body))).
Proof.
  intros Hp Hm. cbn [storage]. unfold put_object. destruct (storage_class_ok sc); [|done]. cbn [negb].
  assert (Hdir : forall q, no_writes (create_dir_all q)).
  { intros q. eapply (no_writes_scoped _ (fun _ => True) (fun _ => False)). by apply scoped_create_dir_all. }
  rewrite Hp. cbn [try_path]. destruct (ends_with_char _ _).
  { case_bool_decide; [|done]. apply no_writes_tracked. apply no_writes_bind; [done|]. by intros [|]. }
  unfold try_io at 1. apply tracked_bind.
  { apply no_writes_tracked. destruct (parent p) as [[q c]|]; [apply Hdir|done]. }
  intros [[]|] own1 _; [|done]. unfold try_io at 1. cbn [bind call tracked]. split; [done|]. intros [i|]; [|done].
  unfold try_io at 1. apply tracked_bind.
  { apply (tracked_copy_bytes e _ _ p (carried body)); [by intros off x H _|by right|]. by exists []. }
  intros [off|] own2 _; [|done]. unfold try_io. apply tracked_bind; [|by intros [|]].
  destruct md as [m|]; [|done].
  eapply (tracked_weaken _ (fun q => q <> p) _ (fun q _ _ => q <> p) _ (fun _ _ => False)); [done|by intros q off' x ? ?|done|].
  eapply (scoped_tracked _ _ (fun _ => True) (fun _ => True) (fun _ => False)); [done|]. apply scoped_save_metadata.
  intros q Hq ->. done.
Qed.

(** *** Reads *)
(* What a program answers ([G]) is about files it opened at [p]. *)
Fixpoint opened {A} (p : path) (G : (N -> Prop) -> A -> Prop) (own : N -> Prop) (m : prog A) {struct m} : Prop :=
  match m with
  | Ret a => G own a
  | Do c k =>
      match c in syscall R return (R -> prog A) -> Prop with
      | COpen q => fun k => forall r : option handle, opened p G (fun j => own j \/ (q = p /\ r = Some (HFile j))) (k r)
      | _ => fun k => forall r, opened p G own (k r)
      end k
  end.
Lemma opened_bind {A B} p (m : prog A) (f : A -> prog B) G (own : N -> Prop) :
  (forall a (own' : N -> Prop), (forall i, own i -> own' i) -> opened p G own' (f a)) -> opened p G own (bind m f).
Proof.
  revert own. induction m as [a|R c k IH]; intros own Hf; [by apply Hf|].
  destruct c; cbn [opened bind]; intros r; apply IH; intros a own' Ho; apply Hf; auto.
Qed.

(* The file of the answer to GetObject. *)
Definition answers_file (own : N -> Prop) (a : sres s_ans) : Prop :=
  forall i off lim len md tag, a = Ok (AGet (HFile i) off lim len md tag) -> own i.
Lemma opened_get e b k rng p : get_object_path e b k = Some p ->
  opened p answers_file (fun _ => False) (storage e (RGetObject b k rng)).
Proof.
  intros Hp. cbn [storage]. unfold get_object. rewrite Hp. cbn [try_path].
  assert (Hgo : forall r, opened p answers_file (fun _ => False)
    (bind (call (COpen p)) (fun o =>
        match o with
        | None => Ret (Err NoSuchKey)
        | Some h =>
            try_io (call (CLen h)) (fun file_len =>
            try_res (get_extent h r file_len) (fun ol =>
            try_io (load_metadata e b k) (fun md =>
            try_io (get_md5_sum e b k) (fun tag =>
              if (ol.2 <=? i64_max)%N then Ret (Ok (AGet h ol.1 ol.2 ol.2 md tag))
              else Ret (Err InternalError)))))
        end))).
  { intros r. cbn [bind call opened]. intros [h|]; [|by intros ?].
    unfold try_io at 1. apply opened_bind. intros [len|] own1 H1; [|by intros ?].
    unfold try_res at 1. apply opened_bind. intros [ol|] own2 H2; [|by intros ?].
    unfold try_io at 1. apply opened_bind. intros [md|] own3 H3; [|by intros ?].
    unfold try_io. apply opened_bind. intros [tag|] own4 H4; [|by intros ?].
    destruct (_ <=? _)%N; [|by intros ?]. intros i off lim len' md' tag' [= -> _ _ _ _].
    apply H4, H3, H2, H1. by right. }
  destruct rng as [str|]; [|apply Hgo]. destruct (range_from_header_str str); [apply Hgo|by intros ?].
Qed.

(** *** Any number of tasks *)
Section mix.
  Context (e : env) {A : Type} (p : path) (Mix : bytes -> Prop) (C : path -> Prop) (W : path -> nat -> bytes -> Prop).
  Context (HC : C p -> Mix []) (HW : forall d off b, W p off b -> Mix d -> Mix (pwrite d off b)).
  Context (old : option bytes).

  (* [Bn]: at which path an inode was created; [T]: inodes created at [p] by one of the tasks. *)
  Record mix_inv (Bn : N -> path -> Prop) (T : N -> Prop) (s : fs) : Prop := {
    mi_wf : wf s;
    mi_fun : forall i q q', Bn i q -> Bn i q' -> q = q';
    mi_next : forall i q, Bn i q -> (i < fs_next s)%N;
    mi_node : forall i q, fs_nodes s !! q = Some (NFile i) -> Bn i q;
    mi_mix : forall i, T i -> Bn i p /\ Mix (data_of s i);
    mi_old : forall i, Bn i p -> T i \/ Some (data_of s i) = old;
  }.
  Definition task_inv (Bn : N -> path -> Prop) (T : N -> Prop) (m : prog A) : Prop :=
    exists own : N -> path -> Prop, (forall i q, own i q -> Bn i q) /\ (forall i, own i p -> T i) /\ tracked C W own m.

  (* Changes that create no file and write no data. *)
  Lemma mix_shrink Bn T s s' : mix_inv Bn T s -> wf s' -> fs_data s' = fs_data s -> fs_next s' = fs_next s ->
    (forall q i, fs_nodes s' !! q = Some (NFile i) -> fs_nodes s !! q = Some (NFile i)) -> mix_inv Bn T s'.
  Proof.
    intros [H1 H2 H3 H4 H5 H6] Hwf Hd Hn Hq.
    assert (Hdo : forall i, data_of s' i = data_of s i) by (intros i; unfold data_of; by rewrite Hd).
    split; [done|done|by rewrite Hn|by eauto| |].
    - intros i Hi. rewrite Hdo. auto.
    - intros i Hi. rewrite Hdo. auto.
  Qed.

  Lemma data_of_insert n d nx i x j : data_of (Fs n (<[i := x]> d) nx) j = if decide (i = j) then x else data_of (Fs n d nx) j.
  Proof. unfold data_of. cbn. case_decide; [subst; by rewrite lookup_insert|by rewrite lookup_insert_ne]. Qed.

  Lemma mix_exec Bn T s {R} (c : syscall R) (k : R -> prog A) :
    mix_inv Bn T s -> task_inv Bn T (Do c k) ->
    exists (Bn' : N -> path -> Prop) (T' : N -> Prop), (forall i q, Bn i q -> Bn' i q) /\ (forall i, T i -> T' i) /\
      mix_inv Bn' T' (exec e c s).1 /\ task_inv Bn' T' (k (exec e c s).2).
  Proof.
    intros Hinv (own & Ho1 & Ho2 & Htr).
    pose proof (wf_exec e c s (mi_wf _ _ _ Hinv)) as Hwf.
    assert (Hsame : (exec e c s).1 = s -> tracked C W own (k (exec e c s).2) ->
      exists (Bn' : N -> path -> Prop) (T' : N -> Prop), (forall i q, Bn i q -> Bn' i q) /\ (forall i, T i -> T' i) /\
      mix_inv Bn' T' (exec e c s).1 /\ task_inv Bn' T' (k (exec e c s).2)).
    { intros -> Hk. exists Bn, T. split_and!; [done|done|done|]. by exists own. }
    destruct c; cbn [tracked] in Htr; try (apply Hsame; [by try destruct h|apply Htr]; fail).
    - (* create *)
      destruct Htr as [Hc Htr]. cbn [exec] in *. destruct (e_os_ok e p0) eqn:Eos; cbn [negb] in *.
      2:{ apply Hsame; [done|]. eapply tracked_weaken; [done|done| |apply (Htr None)]. by intros i q [?|[? _]]. }
      destruct (fs_nodes s !! p0) as [[|i]|] eqn:Hn.
      { apply Hsame; [done|]. eapply tracked_weaken; [done|done| |apply (Htr None)]. by intros i q [?|[? _]]. }
      + (* truncated *)
        cbn [fst snd] in *. clear Hsame. destruct Hinv as [H1 H2 H3 H4 H5 H6].
        exists Bn, (fun j => T j \/ (p0 = p /\ j = i)). split; [done|]. split; [by left|]. split.
        * split; [done|done|done|done| |].
          -- intros j Hj. rewrite data_of_insert. destruct s as [n d nx]. cbn [fs_nodes fs_data fs_next] in *.
             destruct Hj as [Hj|[-> ->]].
             ++ split; [by apply H5|]. case_decide as Hij; [|by apply H5]. subst j. apply HC.
                by rewrite <- (H2 i p0 p (H4 _ _ Hn) (proj1 (H5 i Hj))).
             ++ split; [by apply H4|]. rewrite decide_True by done. by apply HC.
          -- intros j Hj. rewrite data_of_insert. destruct s as [n d nx]. cbn [fs_nodes fs_data fs_next] in *.
             case_decide as Hij.
             ++ subst j. left. right. split; [|done]. by eapply H2; [apply H4|].
             ++ destruct (H6 j Hj); auto.
        * exists (fun j q => own j q \/ (Some i = Some j /\ q = p0)). split_and!; [| |apply Htr].
          -- intros j q [Hj|[[= ->] ->]]; [auto|by apply H4].
          -- intros j [Hj|[[= ->] ->]]; [left; auto|by right].
      + (* new *)
        destruct (parent p0) as [[q c]|] eqn:Hpar.
        2:{ apply Hsame; [done|]. eapply tracked_weaken; [done|done| |apply (Htr None)]. by intros i q [?|[? _]]. }
        destruct (is_dir s q) eqn:Hdir.
        2:{ apply Hsame; [done|]. eapply tracked_weaken; [done|done| |apply (Htr None)]. by intros i q' [?|[? _]]. }
        cbn [fst snd] in *. clear Hsame. destruct Hinv as [H1 H2 H3 H4 H5 H6].
        set (i := fs_next s) in *.
        exists (fun j q' => Bn j q' \/ (j = i /\ q' = p0)), (fun j => T j \/ (p0 = p /\ j = i)).
        split; [by left|]. split; [by left|]. split.
        * split; [done| | | | |].
          -- intros j q1 q2 [Hj1|[-> ->]] [Hj2|[E ->]]; [by eapply H2| | |done].
             ++ apply H3 in Hj1. subst i. lia.
             ++ apply H3 in Hj2. subst i. lia.
          -- intros j q1 [Hj|[-> ->]]; cbn; [apply H3 in Hj; lia|subst i; lia].
          -- intros j q1. cbn. rewrite lookup_insert_Some. intros [[<- [= <-]]|[_ Hj]]; [by right|left; auto].
          -- intros j Hj. rewrite data_of_insert. destruct s as [n d nx]. cbn [fs_nodes fs_data fs_next] in *.
             destruct Hj as [Hj|[-> ->]].
             ++ destruct (H5 j Hj) as [Hb Hm]. split; [by left|]. case_decide as Hij; [|done].
                apply H3 in Hb. subst i. lia.
             ++ split; [by right|]. rewrite decide_True by done. by apply HC.
          -- intros j. rewrite data_of_insert. destruct s as [n d nx].
             cbn [fs_nodes fs_data fs_next] in *. intros [Hj|[-> ->]]; [|left; by right].
             case_decide as Hij.
             ++ apply H3 in Hj. subst i. lia.
             ++ destruct (H6 j Hj); auto.
        * exists (fun j q' => own j q' \/ (Some i = Some j /\ q' = p0)). split_and!; [| |apply Htr].
          -- intros j q' [Hj|[[= ->] ->]]; [left; auto|by right].
          -- intros j [Hj|[[= ->] ->]]; [left; auto|by right].
    - (* write *)
      destruct Htr as [(q & Hq & Hw) Htr]. cbn [exec fst snd] in *. clear Hsame. destruct Hinv as [H1 H2 H3 H4 H5 H6].
      exists Bn, T. split; [done|]. split; [done|]. split; [|by exists own].
      split; [done|done|done|done| |].
      + intros j Hj. rewrite data_of_insert. destruct s as [n d nx]. cbn [fs_nodes fs_data fs_next] in *.
        destruct (H5 j Hj) as [Hb Hm]. split; [done|]. case_decide as Hij; [|done]. subst j.
        rewrite (H2 ino q p (Ho1 _ _ Hq) Hb) in Hw. by apply HW.
      + intros j Hj. rewrite data_of_insert. destruct s as [n d nx]. cbn [fs_nodes fs_data fs_next] in *.
        case_decide as Hij; [|by apply H6]. subst j. left. apply Ho2.
        by rewrite <- (H2 ino q p (Ho1 _ _ Hq) Hj).
    - (* mkdir *)
      exists Bn, T. split; [done|]. split; [done|]. split; [|by exists own].
      apply (mix_shrink Bn T s); [done|done|..]; cbn [exec]; destruct (e_os_ok e p0); cbn [negb fst]; try done;
        destruct (fs_nodes s !! p0) eqn:Hn; cbn [fst]; try done; destruct (has_parent s p0); cbn [fst]; try done.
      intros q i. cbn. rewrite lookup_insert_Some. by intros [[_ ?]|[_ ?]].
    - (* unlink *)
      exists Bn, T. split; [done|]. split; [done|]. split; [|by exists own].
      apply (mix_shrink Bn T s); [done|done|..]; cbn [exec]; destruct (e_os_ok e p0); cbn [fst]; try done;
        destruct (fs_nodes s !! p0) as [[|]|] eqn:Hn; cbn [fst]; try done.
      intros q j. cbn. rewrite lookup_delete_Some. by intros [_ ?].
    - (* rmdir *)
      exists Bn, T. split; [done|]. split; [done|]. split; [|by exists own].
      apply (mix_shrink Bn T s); [done|done|..]; cbn [exec]; destruct (e_os_ok e p0); cbn [fst]; try done;
        destruct (fs_nodes s !! p0) as [[|]|] eqn:Hn; cbn [fst]; try done; case_bool_decide; cbn [fst]; try done.
      intros q j. cbn. rewrite lookup_delete_Some. by intros [_ ?].
  Qed.

  Lemma mix_fault Bn T {R} (c : syscall R) (k : R -> prog A) : task_inv Bn T (Do c k) -> task_inv Bn T (k (fail_of c)).
  Proof.
    intros (own & H1 & H2 & Htr). destruct c; cbn [tracked fail_of] in *; try (by exists own; split_and!; [done|done|apply Htr]).
    exists own. split_and!; [done|done|]. destruct Htr as [_ Htr]. eapply tracked_weaken; [done|done| |apply (Htr None)].
    by intros i q [?|[? _]].
  Qed.

  Context (G : (N -> Prop) -> A -> Prop).
  Definition reader_inv (Bn : N -> path -> Prop) (m : prog A) : Prop :=
    exists own : N -> Prop, (forall i, own i -> Bn i p) /\ opened p G own m.

  Lemma reader_step (Bn Bn' : N -> path -> Prop) T s {R} (c : syscall R) (k : R -> prog A) : mix_inv Bn T s ->
    (forall i q, Bn i q -> Bn' i q) -> reader_inv Bn (Do c k) ->
    reader_inv Bn' (k (exec e c s).2) /\ reader_inv Bn' (k (fail_of c)).
  Proof.
    intros Hinv HB (own & H1 & H2). destruct c; cbn [opened] in H2; try (by split; exists own; eauto; fail).
    split.
    - eexists. split; [|apply H2]. cbn beta. intros i [Hi|[-> Hi]]; [auto|]. apply HB, (mi_node _ _ _ Hinv).
      revert Hi. cbn. destruct (e_os_ok e p); [|done]. cbn. destruct (fs_nodes s !! p) as [[|j]|]; congruence.
    - eexists. split; [|apply (H2 None)]. cbn beta. intros i [Hi|[_ [=]]]. auto.
  Qed.

  Lemma mix_psteps j s ms s' ms' Bn T : mix_inv Bn T s -> Forall (task_inv Bn T) ms ->
    (forall m, ms !! j = Some m -> reader_inv Bn m) -> psteps e s ms s' ms' ->
    exists Bn' T', mix_inv Bn' T' s' /\ forall m, ms' !! j = Some m -> reader_inv Bn' m.
  Proof.
    intros Hinv Hms Hj Hst. revert Bn T Hinv Hms Hj.
    induction Hst as [s ms|s ms i m s1 m1 s2 ms2 Hi Hstep Hst IH]; intros Bn T Hinv Hms Hj; [by exists Bn, T|].
    destruct m as [a|R c k]; [done|]. pose proof (proj1 (Forall_lookup _ _) Hms _ _ Hi) as Hm.
    assert (Hweak : forall (Bn' : N -> path -> Prop) m', (forall i q, Bn i q -> Bn' i q) -> reader_inv Bn m' -> reader_inv Bn' m').
    { intros Bn' m' HB (own & Ho1 & Ho2). exists own. split; [auto|done]. }
    assert (Hnext : forall (Bn' : N -> path -> Prop) m', (forall i q, Bn i q -> Bn' i q) -> (i = j -> reader_inv Bn' m') ->
      forall m, <[i := m']> ms !! j = Some m -> reader_inv Bn' m).
    { intros Bn' m' HB Hr m Hl. destruct (decide (i = j)) as [->|Hne].
      - rewrite list_lookup_insert in Hl by by eapply lookup_lt_Some. injection Hl as <-. auto.
      - rewrite list_lookup_insert_ne in Hl by done. eauto. }
    destruct Hstep as [E|E].
    - destruct (mix_exec Bn T s c k Hinv Hm) as (Bn' & T' & HB & HT & Hinv' & Hm').
      pose proof (fun Hr => proj1 (reader_step Bn Bn' T s c k Hinv HB Hr)) as Hr.
      destruct (exec e c s) as [s3 r]. injection E as -> ->. apply (IH Bn' T'); [done| |].
      + apply Forall_insert; [|done].
        eapply Forall_impl; [exact Hms|]. intros m (own & Ho1 & Ho2 & Ho3). exists own. split_and!; auto.
      + apply Hnext; [done|]. intros ->. auto.
    - injection E as -> ->. apply (IH Bn T); [done|apply Forall_insert; [done|]; by apply mix_fault|].
      apply Hnext; [done|]. intros ->. by apply (reader_step Bn Bn T s c k Hinv); auto.
  Qed.

  Lemma mix_result j s (ms : list (prog A)) s' ms' : wf s -> content s p = old \/ content s p = None ->
    Forall (tracked C W (fun _ _ => False)) ms -> (forall m, ms !! j = Some m -> opened p G (fun _ => False) m) ->
    psteps e s ms s' ms' ->
    (content s' p = None \/ content s' p = old \/ exists d, content s' p = Some d /\ Mix d) /\
    forall a, ms' !! j = Some (Ret a) -> exists own : N -> Prop, G own a /\
      forall i, own i -> Some (data_of s' i) = old \/ Mix (data_of s' i).
  Proof.
    intros Hwf Hold Hms Hj Hst.
    destruct (mix_psteps j s ms s' ms' (fun i q => fs_nodes s !! q = Some (NFile i)) (fun _ => False)) as (Bn & T & Hinv & Hr); [| | |done|].
    - split; [done|by intros; eapply (wf_inj _ Hwf)|by intros; eapply (wf_next _ Hwf)|done|done|].
      intros i Hi. right. unfold content in Hold. rewrite Hi in Hold. unfold data_of. by destruct Hold.
    - eapply Forall_impl; [exact Hms|]. intros m Hm. by exists (fun _ _ => False).
    - intros m Hm. exists (fun _ => False). split; [done|by apply Hj].
    - assert (Hd : forall i, Bn i p -> Some (data_of s' i) = old \/ Mix (data_of s' i)).
      { intros i Hi. destruct (mi_old _ _ _ Hinv i Hi) as [HT|Ho]; [|by left]. right. by apply (mi_mix _ _ _ Hinv). }
      split.
      + unfold content. destruct (fs_nodes s' !! p) as [[|i]|] eqn:Hn; [by left| |by left]. right.
        destruct (Hd i (mi_node _ _ _ Hinv i p Hn)) as [HT|Ho]; [left; by rewrite <- HT|right].
        by exists (data_of s' i).
      + intros a Ha. destruct (Hr _ Ha) as (own & Ho1 & Ho2). exists own. split; [done|]. auto.
  Qed.
End mix.
