(** Reasoning about programs that are interrupted, fail, or run among other tasks. *)
From Verif Require Import M_Base M_Path M_Headers M_Chunked M_BytesStream M_Crypto M_Fs M_Json M_Utf8 M_Storage
  S_Path S_Chunked S_Storage S_Store L_Base L_Fs L_Storage L_Scope L_Names L_Ops L_Results.

Local Opaque md5 etag_of json_decode json_encode metadata_name part_name.

(* [rg e faults R I Q m s]: started in [s], with steps allowed by [R] between its own, and
   with failing calls if [faults], the program keeps [I] and ends with [Q]. *)
Fixpoint rg (e : env) {A} (faults : Prop) (R : fs -> fs -> Prop) (I : fs -> Prop) (Q : A -> fs -> Prop)
  (m : prog A) (s : fs) {struct m} : Prop :=
  match m with
  | Ret a => forall s', R s s' -> I s' /\ Q a s'
  | Do c k => forall s', R s s' -> I s' /\
      rg e faults R I Q (k (exec e c s').2) (exec e c s').1 /\
      (faults -> rg e faults R I Q (k (fail_of c)) s')
  end.

Section rg.
  Context (e : env) (faults : Prop) (R : fs -> fs -> Prop) (I : fs -> Prop).
  Context (R_refl : forall s, R s s) (R_trans : forall s1 s2 s3, R s1 s2 -> R s2 s3 -> R s1 s3).
  Notation rg := (rg e faults R I).

  Lemma rg_stable {A} (Q : A -> fs -> Prop) m s s' : rg Q m s -> R s s' -> rg Q m s'.
  Proof. destruct m; intros Hm Hr s'' Hr'; apply Hm; by eapply R_trans. Qed.

  Lemma rg_weaken {A} (Q Q' : A -> fs -> Prop) m s : rg Q m s ->
    (forall a s', Q a s' -> Q' a s') -> rg Q' m s.
  Proof.
    intros Hm HQ. revert s Hm. induction m as [a|X c k IH]; intros s Hm s' Hr; destruct (Hm s' Hr) as [H1 H2].
    - auto.
    - split; [done|]. destruct H2 as [H2 H3]. split; [by apply IH|]. intros Hf. by apply IH, H3.
  Qed.

  Lemma rg_bind {A B} (Q : A -> fs -> Prop) (Q' : B -> fs -> Prop) m f s : rg Q m s ->
    (forall a s', Q a s' -> rg Q' (f a) s') -> rg Q' (bind m f) s.
  Proof.
    intros Hm Hf. revert s Hm. induction m as [a|X c k IH]; intros s Hm.
    - apply Hf. by apply Hm.
    - intros s' Hr. destruct (Hm s' Hr) as (H1 & H2 & H3). split; [done|]. split; [by apply IH|].
      intros Hfl. by apply IH, H3.
  Qed.

  Lemma rg_call {X} (Q : X -> fs -> Prop) (c : syscall X) s :
    (forall s', R s s' -> I s' /\ (forall s'', R (exec e c s').1 s'' -> I s'' /\ Q (exec e c s').2 s'') /\
      (faults -> forall s'', R s' s'' -> Q (fail_of c) s'' /\ I s'')) -> rg Q (call c) s.
  Proof.
    intros H s' Hr. destruct (H s' Hr) as (H1 & H2 & H3). split; [done|]. split; [exact H2|].
    intros Hf s'' Hr'. destruct (H3 Hf s'' Hr'). done.
  Qed.

  Lemma rg_ret {A} (Q : A -> fs -> Prop) a s : (forall s', R s s' -> I s' /\ Q a s') -> rg Q (Ret a) s.
  Proof. done. Qed.

  (* Appending to the file at [p]. *)
  Section append.
    Context (p : path) (i : N).
    Context (R_file : forall s s' d, R s s' -> fs_nodes s !! p = Some (NFile i) -> content s p = Some d ->
      fs_nodes s' !! p = Some (NFile i) /\ content s' p = Some d).

    Lemma content_data s d : fs_nodes s !! p = Some (NFile i) -> content s p = Some d -> data_of s i = d.
    Proof. unfold content. intros ->. by intros [= <-]. Qed.

    Lemma rg_write_pieces ps : forall s d, fs_nodes s !! p = Some (NFile i) -> content s p = Some d ->
      (forall s' x, content s' p = Some x -> d `prefix_of` x -> x `prefix_of` d ++ concat ps -> I s') ->
      rg (fun o s' => fs_nodes s' !! p = Some (NFile i) /\
            exists x, content s' p = Some x /\ d `prefix_of` x /\ x `prefix_of` d ++ concat ps /\
            match o with
            | Some off => x = d ++ concat ps /\ off = length x
            | None => faults
            end) (write_pieces i (length d) ps) s.
    Proof.
      induction ps as [|b ps IH]; intros s d Hn Hc HI.
      - cbn [write_pieces concat] in *. intros s' Hr. destruct (R_file _ _ _ Hr Hn Hc) as [Hn' Hc'].
        rewrite app_nil_r in *. split; [by eapply HI|]. split; [done|]. by exists d.
      - cbn [write_pieces]. intros s' Hr. destruct (R_file _ _ _ Hr Hn Hc) as [Hn' Hc'].
        assert (Hpre : d `prefix_of` d ++ concat (b :: ps)) by by eexists.
        split; [by eapply HI|]. split.
        + cbn [exec snd fst]. rewrite (content_data s' d) by done. rewrite pwrite_append, <- app_length.
          eapply rg_weaken; [apply IH|].
          * done.
          * unfold content. cbn. rewrite Hn'. unfold data_of. cbn. by rewrite lookup_insert.
          * intros s'' x Hx Hp1 Hp2. eapply HI; [done| |].
            -- etrans; [|done]. by eexists.
            -- cbn [concat]. by rewrite app_assoc.
          * intros o s'' (H1 & x & H2 & H3 & H4 & H5). split; [done|]. exists x. split; [done|].
            cbn [concat]. rewrite app_assoc. split; [etrans; [|done]; by eexists|]. done.
        + intros Hf s'' Hr'. destruct (R_file _ _ _ Hr' Hn' Hc') as [Hn'' Hc'']. split; [by eapply HI|].
          split; [done|]. by exists d.
    Qed.

    Lemma rg_copy_bytes body : forall s d, fs_nodes s !! p = Some (NFile i) -> content s p = Some d ->
      (forall s' x, content s' p = Some x -> d `prefix_of` x -> x `prefix_of` d ++ carried body -> I s') ->
      rg (fun o s' => fs_nodes s' !! p = Some (NFile i) /\
            exists x, content s' p = Some x /\ d `prefix_of` x /\ x `prefix_of` d ++ carried body /\
            match o with
            | Some off => x = d ++ carried body /\ broken body = false
            | None => faults \/ broken body = true
            end) (copy_bytes e i (length d) body) s.
    Proof.
      induction body as [|[b|] body IH]; intros s d Hn Hc HI; cbn [copy_bytes].
      - intros s' Hr. destruct (R_file _ _ _ Hr Hn Hc) as [Hn' Hc'].
        assert (d `prefix_of` d ++ carried []) by by eexists. split; [by eapply HI|].
        split; [done|]. exists d. do 3 (split; [done|]). by cbn; rewrite app_nil_r.
      - eapply rg_bind.
        + apply rg_write_pieces; [done|done|]. intros s' x Hx H1 H2. eapply HI; [done|done|]. rewrite e_chop_concat in H2.
          etrans; [done|]. exists (carried body). cbn [carried]. by rewrite app_assoc.
        + cbn beta. rewrite e_chop_concat. intros [off|] s' (H1 & x & H2 & H3 & H4 & H5).
          * destruct H5 as [-> ->]. eapply rg_weaken; [apply IH|].
            -- done.
            -- done.
            -- intros s'' y Hy Hp1 Hp2. eapply HI; [done| |].
               ++ etrans; [|done]. by eexists.
               ++ cbn [carried]. by rewrite app_assoc.
            -- intros o s'' (G1 & y & G2 & G3 & G4 & G5). split; [done|]. exists y. cbn [carried broken].
               rewrite app_assoc. split; [done|]. split; [etrans; [|done]; by eexists|]. done.
          * intros s'' Hr. destruct (R_file _ _ _ Hr H1 H2) as [Hn' Hc'].
            assert (Hx : x `prefix_of` d ++ carried (FData b :: body)).
            { etrans; [done|]. exists (carried body). cbn [carried]. by rewrite app_assoc. }
            split; [by eapply HI|]. split; [done|]. exists x. do 3 (split; [done|]). by left.
      - intros s' Hr. destruct (R_file _ _ _ Hr Hn Hc) as [Hn' Hc'].
        assert (d `prefix_of` d ++ carried (FErr :: body)) by by eexists. split; [by eapply HI|].
        split; [done|]. exists d. do 3 (split; [done|]). by right.
    Qed.
  End append.
End rg.

(** ** One task alone, interrupted anywhere *)

Lemma rg_steps e {A} I (Q : A -> fs -> Prop) m s s' m' : rg e True eq I Q m s -> steps e s m s' m' ->
  I s' /\ forall a, m' = Ret a -> Q a s'.
Proof.
  intros Hm Hst. revert Hm. induction Hst as [s m|s m s1 m1 s2 m2 Hstep Hst IH]; intros Hm.
  - destruct m as [a|X c k]; destruct (Hm s eq_refl) as [H1 H2]; split; [done| |done|done].
    by intros a' [= <-].
  - apply IH. destruct m as [a|X c k]; [done|]. destruct (Hm s eq_refl) as (_ & H2 & H3).
    destruct Hstep as [Hstep|Hstep].
    + destruct (exec e c s) as [s3 r]. injection Hstep as -> ->. done.
    + injection Hstep as -> ->. by apply H3.
Qed.

Lemma steps_trans e {A} s1 s2 s3 (m1 m2 m3 : prog A) : steps e s1 m1 s2 m2 -> steps e s2 m2 s3 m3 -> steps e s1 m1 s3 m3.
Proof. induction 1; [done|]. intros. econstructor; [done|]. auto. Qed.

(* A scoped part of the program. *)
Lemma rg_from_steps e {A} (I : fs -> Prop) (Q : A -> fs -> Prop) m s :
  (forall s' m', steps e s m s' m' -> I s' /\ forall a, m' = Ret a -> Q a s') -> rg e True eq I Q m s.
Proof.
  revert s. induction m as [a|X c k IH]; intros s H s' <-.
  - destruct (H s (Ret a)) as [H1 H2]; [constructor|]. auto.
  - split; [by destruct (H s (Do c k)); [constructor|]|]. split.
    + apply IH. intros s2 m2 Hst. apply H. econstructor; [|exact Hst]. left. by destruct (exec e c s).
    + intros _. apply IH. intros s2 m2 Hst. apply H. econstructor; [|exact Hst]. by right.
Qed.

Lemma rg_scoped e {A} (I : fs -> Prop) (m : prog A) F D X s : wf s -> scoped F D X no_own m ->
  (forall s', wf s' -> untouched F D X s s' -> I s') ->
  rg e True eq I (fun _ s' => wf s' /\ untouched F D X s s') m s.
Proof.
  intros Hwf Hs HI. apply rg_from_steps. intros s' m' Hst. pose proof (wf_steps _ _ _ _ _ Hst Hwf).
  pose proof (scoped_steps e m F D X s s' m' Hwf Hs Hst). auto.
Qed.

(** ** Rules that combine facts *)

Lemma rg_impl e {A} faults R (I I' : fs -> Prop) (Q Q' : A -> fs -> Prop) m s : rg e faults R I Q m s ->
  (forall s, I s -> I' s) -> (forall a s, I s -> Q a s -> Q' a s) -> rg e faults R I' Q' m s.
Proof.
  intros Hm HI HQ. revert s Hm. induction m as [a|X c k IH]; intros s Hm s' Hr; destruct (Hm s' Hr) as [H1 H2].
  - auto.
  - split; [auto|]. destruct H2 as [H2 H3]. split; [by apply IH|]. intros Hf. by apply IH, H3.
Qed.

Lemma rg_and e {A} faults R (I I' : fs -> Prop) (Q Q' : A -> fs -> Prop) m s :
  rg e faults R I Q m s -> rg e faults R I' Q' m s ->
  rg e faults R (fun s => I s /\ I' s) (fun a s => Q a s /\ Q' a s) m s.
Proof.
  revert s. induction m as [a|X c k IH]; intros s Hm Hm' s' Hr; destruct (Hm s' Hr) as [H1 H2], (Hm' s' Hr) as [H1' H2'].
  - auto.
  - split; [auto|]. destruct H2 as [H2 H3], H2' as [H2' H3']. split; [by apply IH|].
    intros Hf. apply IH; [by apply H3|by apply H3'].
Qed.

(* A predicate kept by the others and by every call of the program. *)
Lemma rg_wf e {A} faults (R : fs -> fs -> Prop) (m : prog A) : (forall s s', R s s' -> wf s -> wf s') ->
  forall s, wf s -> rg e faults R wf (fun _ s => wf s) m s.
Proof.
  intros Hr. induction m as [a|X c k IH]; intros s Hs s' HR; assert (Hs' : wf s') by by eapply Hr.
  - done.
  - split; [done|]. split; [by apply IH, wf_exec|]. intros _. by apply IH.
Qed.

(** ** PutObject *)

(* The file at [p] exists with inode [i] and content [d]. *)
Definition file_at (p : path) (i : N) (d : bytes) (s : fs) : Prop :=
  wf s /\ fs_nodes s !! p = Some (NFile i) /\ content s p = Some d.

(* The others leave the file at [p] alone. *)
Definition keeps (R : fs -> fs -> Prop) (p : path) : Prop := forall i s s' d, R s s' ->
  fs_nodes s !! p = Some (NFile i) -> content s p = Some d ->
  fs_nodes s' !! p = Some (NFile i) /\ content s' p = Some d.

Section put.
  Context (e : env) (faults : Prop) (R : fs -> fs -> Prop).
  Context (R_refl : forall s, R s s) (R_trans : forall s1 s2 s3, R s1 s2 -> R s2 s3 -> R s1 s3).
  Context (R_wf : forall s s', R s s' -> wf s -> wf s').
  Notation rg := (rg e faults R).

  Lemma R_file_at p i d s s' : keeps R p -> R s s' -> file_at p i d s -> file_at p i d s'.
  Proof.
    intros R_file Hr (Hwf & Hn & Hc). destruct (R_file i s s' d Hr Hn Hc).
    split; [by eapply R_wf|done].
  Qed.

  Lemma rg_write_other p i d j ps : keeps R p -> j <> i ->
    forall s off, file_at p i d s -> rg (file_at p i d) (fun _ => file_at p i d) (write_pieces j off ps) s.
  Proof.
    intros Hk Hji. induction ps as [|b ps IH]; intros s off Hs; cbn [write_pieces].
    - intros s' Hr. by assert (file_at p i d s') by by eapply R_file_at.
    - intros s' Hr. assert (Hs' : file_at p i d s') by by eapply R_file_at. split; [done|]. split.
      + apply IH. destruct Hs' as (Hwf & Hn & Hc). cbn [exec fst]. split; [by destruct Hwf; split|]. split; [done|].
        rewrite <- Hc. apply (content_insert_data s' j _ p). rewrite Hn. congruence.
      + intros _ s'' Hr'. by assert (file_at p i d s'') by by eapply R_file_at.
  Qed.

  (* Writing another file. *)
  Lemma rg_write_file p q i d b s : keeps R p -> keeps R q -> p <> q -> file_at p i d s ->
    rg (file_at p i d) (fun o s' => file_at p i d s' /\ (is_Some o -> content s' q = Some b)) (write_file e q b) s.
  Proof.
    intros Hkp Hkq Hpq Hs. unfold write_file.
    apply (rg_bind e faults R _ R_refl (fun o s' => file_at p i d s' /\ forall j, o = Some j -> j <> i /\ file_at q j [] s')).
    - apply rg_call. intros s' Hr. assert (Hs' : file_at p i d s') by by eapply R_file_at. split; [done|].
      assert (H : file_at p i d (exec e (CCreate q) s').1 /\
        forall j, (exec e (CCreate q) s').2 = Some j -> j <> i /\ file_at q j [] (exec e (CCreate q) s').1).
      { destruct Hs' as (Hwf & Hn & Hc). pose proof (wf_exec e (CCreate q) s' Hwf) as Hwf'.
        destruct (exec e (CCreate q) s') as [s1 o] eqn:E. cbn [fst snd] in *.
        assert (Hoth : content s1 p = content s' p /\ fs_nodes s1 !! p = fs_nodes s' !! p).
        { assert (Hsc : scoped (fun x => x = q) (fun _ => False) (fun _ => False) no_own (call (CCreate q))).
          { cbn. auto. }
          pose proof (scoped_run e _ _ _ _ s' Hwf Hsc) as Hu. rewrite run_call, E in Hu. cbn [fst] in Hu.
          split; apply Hu; auto. }
        destruct Hoth as [H1 H2]. split; [split; [done|by rewrite H1, H2]|].
        intros j ->. apply create_file in E as (Hm & Hd & _). split.
        - intros ->. apply Hpq. eapply (wf_inj s1); [done| |exact Hm]. by rewrite H2.
        - split; [done|]. split; [done|]. unfold content. rewrite Hm. unfold data_of. by rewrite Hd. }
      destruct H as [Hf Ho]. split.
      + intros s'' Hr'. assert (file_at p i d s'') by by eapply R_file_at. split; [done|]. split; [done|].
        intros j Hj. destruct (Ho j Hj). split; [done|]. by eapply R_file_at.
      + intros _ s'' Hr'. assert (file_at p i d s'') by by eapply R_file_at. done.
    - intros [j|] s' [Hs' Hj].
      + destruct (Hj j eq_refl) as [Hji Hq].
        apply (rg_bind e faults R _ R_refl (fun o t => file_at p i d t /\ exists x, file_at q j x t /\ (is_Some o -> x = b))).
        * pose proof (rg_write_other p i d j (e_chop e b) Hkp Hji s' 0 Hs') as H1.
          destruct Hq as (Hw & Hn & Hc).
          pose proof (rg_write_pieces e faults R (fun _ => True) q j (Hkq j) (e_chop e b) s' [] Hn Hc) as H2.
          specialize (H2 ltac:(done)). pose proof (rg_and _ _ _ _ _ _ _ _ _ H1 H2) as H. cbn [length] in H.
          eapply rg_impl; [exact H|by intros ? [? ?]|]. cbn beta. intros o t _ (Hp & Hn' & x & Hx & _ & _ & Ho).
          split; [done|]. exists x. split; [by split; [apply Hp|]|]. intros [off ->]. destruct Ho as [-> _].
          by rewrite e_chop_concat.
        * intros [off|] t (Hp & x & Hx & Ho); intros t' Hr; (assert (file_at p i d t') by by eapply R_file_at); (split; [done|]); (split; [done|]).
          -- intros _. rewrite <- (Ho ltac:(done)). by destruct (R_file_at q j x t t' Hkq Hr Hx) as (_ & _ & ?).
          -- by intros [].
      + intros s'' Hr. assert (file_at p i d s'') by by eapply R_file_at. split; [done|]. split; [done|]. by intros [].
  Qed.

  (* From the creation of the file on. *)
  Lemma rg_put_tail (I : fs -> Prop) p b k md body s : keeps R p -> keeps R [metadata_name b k] -> p <> [metadata_name b k] ->
    (forall s s', I s -> R s s' -> I s') ->
    (forall s d, content s p = Some d -> d `prefix_of` carried body -> I s) ->
    wf s -> I s ->
    rg I (fun r s' => wf s' /\ forall a, r = Ok a -> content s' p = Some (carried body) /\ broken body = false /\
          a = APut (Some (etag_of (carried body))) /\
          forall m, md = Some m -> content s' [metadata_name b k] = Some (json_encode m))
      (try_io (call (CCreate p)) (fun i =>
          try_io (copy_bytes e i 0 body) (fun _ =>
          try_io (match md with
                  | Some m => save_metadata e b k m
                  | None => Ret (Some tt)
                  end) (fun _ =>
          Ret (Ok (APut (Some (etag_of (body_data body)))))))))
      s.
  Proof.
    intros Hkp Hkm Hp HIR HI Hwf Hs. unfold try_io at 1.
    apply (rg_bind e faults R I R_refl (fun o s' => wf s' /\ I s' /\ forall i, o = Some i -> file_at p i [] s')).
    - apply rg_call. intros s' Hr. split; [by eapply HIR|]. assert (Hwf' : wf s') by by eapply R_wf. split.
      + intros s'' Hr'. pose proof (wf_exec e (CCreate p) s' Hwf') as Hw1.
        assert (Hf : forall i, (exec e (CCreate p) s').2 = Some i -> file_at p i [] s'').
        { intros i Hi. destruct (exec e (CCreate p) s') as [s1 o] eqn:E. cbn [fst snd] in *. subst o.
          apply create_file in E as (Hn & Hd & _). eapply R_file_at; [done|done|]. split_and!; [done|done|].
          unfold content. rewrite Hn. unfold data_of. by rewrite Hd. }
        assert (HI'' : I s'').
        { eapply HIR; [|exact Hr']. destruct (exec e (CCreate p) s') as [s1 [i|]] eqn:E; cbn [fst].
          - apply create_file in E as (Hn & Hd & _). eapply (HI s1 []); [|by eexists].
            unfold content. rewrite Hn. unfold data_of. by rewrite Hd.
          - apply create_fail in E as ->. by eapply HIR. }
        split; [done|]. split; [by eapply R_wf|]. done.
      + intros _ s'' Hr'. assert (I s'') by (eapply HIR; [|done]; by eapply HIR). split; [|done].
        split; [by eapply R_wf|]. done.
    - intros [i|] s1 (Hwf1 & HI1 & Hf).
      2:{ intros s2 Hr. split; [by eapply HIR|]. split; [by eapply R_wf|]. by intros a [=]. }
      destruct (Hf i eq_refl) as (_ & Hn1 & Hc1). unfold try_io at 1.
      apply (rg_bind e faults R I R_refl (fun o s' => exists x, file_at p i x s' /\ x `prefix_of` carried body /\
            (is_Some o -> x = carried body /\ broken body = false))).
      { pose proof (rg_copy_bytes e faults R I R_refl p i (Hkp i) body s1 [] Hn1 Hc1) as H1.
        specialize (H1 ltac:(intros s' x Hx _ Hpre; by eapply HI)). cbn [length] in H1.
        pose proof (rg_and _ _ _ _ _ _ _ _ _ H1 (rg_wf e faults R (copy_bytes e i 0 body) R_wf s1 Hwf1)) as H.
        eapply rg_impl; [exact H|by intros ? [? ?]|]. cbn beta.
        intros o t _ [(Hn & x & Hx & _ & Hpre & Ho) Hw]. exists x. split; [done|]. split; [done|].
        intros [off ->]. done. }
      intros o s2 (x & Hx & Hpre & Ho). destruct o as [off|].
      + destruct (Ho ltac:(done)) as [-> Hbr].
        assert (HIf : forall t, file_at p i (carried body) t -> I t) by (intros t (_ & _ & ?); by eapply HI).
        unfold try_io at 1. apply (rg_bind e faults R I R_refl (fun o t => file_at p i (carried body) t /\
          (is_Some o -> forall m, md = Some m -> content t [metadata_name b k] = Some (json_encode m)))).
        * destruct md as [m|].
          -- unfold save_metadata. rewrite metadata_path. eapply rg_impl; [by apply (rg_write_file p [metadata_name b k] i (carried body))|done|].
             cbn beta. intros o t _ [H1 H2]. split; [done|]. intros Ho' m' [= <-]. auto.
          -- intros s3 Hr. assert (file_at p i (carried body) s3) by by eapply R_file_at. split; [auto|]. split; [done|]. by intros _ m [=].
        * intros o s3 [Hs3 Hm]. destruct o; intros s4 Hr; (assert (Hs4 : file_at p i (carried body) s4) by by eapply R_file_at).
          -- split; [auto|]. destruct Hs4 as (? & ? & ?). split; [done|]. intros a [= <-].
             do 3 (split; [done|]). intros m Hmd. specialize (Hm ltac:(done) m Hmd).
             pose proof (content_Some _ _ _ Hm) as (j & Hj & _). by destruct (Hkm j s3 s4 _ Hr Hj Hm).
          -- split; [auto|]. destruct Hs4 as (? & ? & ?). split; [done|]. by intros a [=].
      + intros s3 Hr. destruct (R_file_at _ _ _ _ _ Hkp Hr Hx) as (? & ? & ?). split; [by eapply HI|].
        split; [done|]. by intros a [=].
  Qed.

  (* A part of the program that only makes directories. *)
  Lemma rg_dirs {A} (I : fs -> Prop) D (m : prog A) s :
    (forall s s', I s -> R s s' -> I s') ->
    (forall s s', I s -> untouched (fun _ => False) D (fun _ => False) s s' -> I s') ->
    scoped (fun _ => False) D (fun _ => False) no_own m -> wf s -> I s ->
    rg I (fun _ s' => wf s' /\ I s') m s.
  Proof.
    intros HIR HIu. revert s. induction m as [a|X c k IH]; intros s Hsc Hwf Hs s' Hr;
      assert (Hwf' : wf s') by (by eapply R_wf); assert (Hs' : I s') by by eapply HIR.
    - done.
    - split; [done|].
      assert (Hk : forall r, scoped (fun _ => False) D (fun _ => False) no_own (k r)).
      { intros r. destruct c; cbn [scoped] in Hsc; try (by destruct Hsc as [[] _]); try apply Hsc; by destruct h. }
      split.
      + apply IH; [apply Hk|by apply wf_exec|].
        pose proof (scoped_exec e c k _ _ _ no_own s' Hwf' ltac:(by split) Hsc) as H.
        destruct (exec e c s') as [s1 r]. destruct H as [Hu _]. by eapply HIu.
      + intros _. by apply IH.
  Qed.

  Lemma rg_put (I : fs -> Prop) p b k sc cl md body s : legal_bucket b -> located b k p ->
    keeps R p -> keeps R [metadata_name b k] ->
    (forall s s', I s -> R s s' -> I s') ->
    (forall s s', I s -> content s' p = content s p -> I s') ->
    (forall s d, content s p = Some d -> d `prefix_of` carried body -> I s) ->
    wf s -> I s ->
    rg I (fun r s' => forall a, r = Ok a -> content s' p = Some (carried body) /\ broken body = false /\
          a = APut (Some (etag_of (carried body))) /\
          forall m, md = Some m -> content s' [metadata_name b k] = Some (json_encode m))
      (storage e (RPutObject b k sc cl md (Some body))) s.
  Proof.
    intros Hb Hl Hkp Hkm HIR HIc HI Hwf Hs. cbn [storage]. unfold put_object.
    destruct (storage_class_ok sc); cbn [negb].
    2:{ intros s' Hr. split; [by eapply HIR|]. by intros a [=]. }
    rewrite ordinary_no_slash_end by by eapply located_ordinary.
    rewrite (located_path e b k p) by (try done; by apply legal_bucket_segment). cbn [try_path].
    destruct (path_parent b k p (legal_bucket_segment _ Hb) Hl) as (dir & c & Hpar & Hp & Hdir). rewrite Hpar.
    unfold try_io at 1. apply (rg_bind e faults R I R_refl (fun _ s' => wf s' /\ I s')).
    - apply (rg_dirs I (fun _ => True)); try done.
      + intros t t' Ht Hu. eapply HIc; [done|]. apply (un_content _ _ _ _ _ Hu). auto.
      + by apply scoped_create_dir_all.
    - intros [u|] s1 [Hwf1 Hs1].
      + eapply rg_impl; [apply (rg_put_tail I p b k md body s1); try done; by eapply located_not_meta|done|].
        cbn beta. by intros r t _ [_ ?].
      + intros s2 Hr. split; [by eapply HIR|]. by intros a [=].
  Qed.
End put.
