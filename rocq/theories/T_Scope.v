(** C43, C47, C51: what an operation can touch at all, at any moment. *)
From Verif Require Import M_Base M_Path M_Headers M_Chunked M_BytesStream M_Crypto M_Fs M_Json M_Utf8 M_Storage
  S_Path S_Headers S_Chunked S_Storage S_Store L_Base L_Headers L_Fs L_Storage L_Scope L_Names L_Json L_Ops L_Results
  T_Store T_Copy.

Local Opaque md5 etag_of json_decode json_encode metadata_name part_name.

(** C51: requests that only read. *)
Definition reading (r : s_req) : Prop :=
  match r with
  | RGetObject _ _ _ | RHeadObject _ _ | RHeadBucket _ | RGetBucketLocation _ | RListBuckets
  | RListObjects _ _ | RListObjectsV2 _ _ | RCreateMultipartUpload _ _ _ => True
  | _ => False
  end.

Definition nothing (p : path) : Prop := False.

Lemma scoped_nothing e {A} (m : prog A) : forall s s' m', scoped nothing nothing nothing no_own m ->
  steps e s m s' m' -> s' = s.
Proof.
  intros s s' m' Hm Hs.
  assert (H : s' = s /\ scoped nothing nothing nothing no_own m'); [|apply H].
  revert Hm. induction Hs as [s m|s m s1 m1 s2 m2 Hstep Hs IH]; [done|]. intros Hm.
  assert (H1 : s1 = s /\ scoped nothing nothing nothing no_own m1).
  { destruct m as [a|R c k]; [done|]. destruct Hstep as [Hstep|Hstep].
    - destruct c; cbn [scoped] in Hm; cbn [exec] in Hstep; try (by destruct Hm as [[] _]);
        try (destruct h); simplify_eq; auto.
    - injection Hstep as -> ->. split; [done|]. by apply scoped_fail. }
  destruct H1 as [-> H1]. destruct (IH H1) as [-> H2]. done.
Qed.

(* The store is the same at every moment of a reading request, even if calls fail. *)
Theorem C51_reads_change_nothing e r s s' m' : reading r -> steps e s (storage e r) s' m' -> s' = s.
Proof.
  intros Hr. apply scoped_nothing. eapply scoped_weaken; [..|apply scoped_storage]; [| | |done].
  all: intros p; by destruct r.
Qed.
Print Assumptions C51_reads_change_nothing.

Theorem C51_reads_leave_store e r s : reading r -> after e r s = s.
Proof. intros Hr. eapply C51_reads_change_nothing; [done|]. apply run_steps. Qed.
Print Assumptions C51_reads_leave_store.

Example ex_reads : after ex_env (RGetObject (B "photos") (B "x") (Some (B "bytes=0-1"))) ex_two = ex_two /\
  (exists a, answer ex_env (RGetObject (B "photos") (B "x") (Some (B "bytes=0-1"))) ex_two = Ok a) /\
  ex_two <> empty_store.
Proof.
  split_and!; [by apply C51_reads_leave_store| |].
  - eexists. vm_compute. reflexivity.
  - intros H. apply (f_equal fs_next) in H. by vm_compute in H.
Qed.

(** C47: a request that stops at any point leaves the objects it does not address alone. *)
Theorem C47_interruption e r s s' m' b k p : wf s -> plain_req r -> steps e s (storage e r) s' m' ->
  legal_bucket b -> located b k p -> ~ affects r b k ->
  content s' p = content s p /\
  (is_Some (content s p) -> forall range,
     answer e (RGetObject b k range) s' = answer e (RGetObject b k range) s /\
     answer e (RHeadObject b k) s' = answer e (RHeadObject b k) s).
Proof.
  intros Hwf Hr Hs Hb Hl Ha.
  pose proof (scoped_steps e (storage e r) _ _ _ s s' m' Hwf (scoped_storage e r) Hs) as Hu.
  assert (H1 : ~ r_files e r p) by (intros HF; apply Ha; by eapply plain_files).
  assert (H2 : ~ r_files e r [metadata_name b k]).
  { intros HF. apply (plain_meta e r b k Hr) in HF. apply Ha.
    destruct r; try done; cbn [affects]; naive_solver. }
  destruct (plain_meta_dirs e r b k Hr) as [H3 H4].
  split; [by apply Hu|]. intros [c Hc] range. apply content_Some in Hc as (i & Hn & _).
  eapply (get_same e b k range p); try by apply Hu; auto.
  - by apply located_path; [apply legal_bucket_segment|].
  - rewrite Hn. by apply Hu.
Qed.
Print Assumptions C47_interruption.

(* Stop an overwrite of "y" after its third call: "y" is damaged, "x" is not. *)
Example ex_interrupted :
  let r := RPutObject (B "photos") (B "y") None None None (Some [FData (B "newer")]) in
  let s' := (run_n ex_env 3 (storage ex_env r) ex_two).1 in
  content s' [B "photos"; B "y"] = Some [] /\ content s' [B "photos"; B "x"] = Some (B "one").
Proof. split; vm_compute; reflexivity. Qed.

(** C43: different objects have different files, and different metadata files; no object's
    file is a metadata file or a part. *)
Theorem C43_distinct_content e b k b' k' p : legal_bucket b -> legal_bucket b' -> ordinary k -> ordinary k' ->
  get_object_path e b k = Some p -> get_object_path e b' k' = Some p -> b = b' /\ k = k'.
Proof.
  intros Hb Hb' [p1 H1]%(ordinary_located _ b) [p2 H2]%(ordinary_located _ b').
  rewrite (located_path e b k p1), (located_path e b' k' p2) by (try done; by apply legal_bucket_segment).
  intros [= <-] [= ->]. by eapply located_inj.
Qed.
Print Assumptions C43_distinct_content.

Theorem C43_distinct_metadata e b k b' k' p :
  get_metadata_path e b k = Some p -> get_metadata_path e b' k' = Some p -> b = b' /\ k = k'.
Proof.
  rewrite !metadata_path. intros H1 H2. rewrite <- H2 in H1. apply sing_inj in H1. by apply metadata_name_inj.
Qed.
Print Assumptions C43_distinct_metadata.

Theorem C43_content_not_metadata e b k b' k' p q : legal_bucket b -> resolved b k p ->
  get_object_path e b k = Some p /\ (get_metadata_path e b' k' = Some q -> p <> q).
Proof.
  intros Hb Hr. split; [by apply resolved_path; [apply legal_bucket_segment|]|].
  rewrite metadata_path. intros H ->. destruct (resolved_not_meta b k q b' k' Hb Hr). congruence.
Qed.
Print Assumptions C43_content_not_metadata.

(* Observable form: writing one object never changes what another one answers. *)
Corollary C43_independent e s b k b' k' sc cl md body range : wf s ->
  legal_bucket b -> legal_bucket b' -> ordinary k -> ordinary k' -> (b, k) <> (b', k') ->
  (forall m, md = Some m -> metadata_ok m) ->
  (exists a, answer e (RHeadObject b' k') s = Ok a) ->
  (forall q, located b' k' q -> fs_nodes s !! q <> Some NDir) ->
  answer e (RGetObject b' k' range) (after e (RPutObject b k sc cl md body) s) = answer e (RGetObject b' k' range) s.
Proof.
  intros Hwf Hb Hb' Hk Hk' Hne Hm [a Ha] Hnd.
  destruct (ordinary_located k' b' Hk') as [p' Hp'].
  eapply (C47_interruption e (RPutObject b k sc cl md body) s); try done.
  - apply run_steps.
  - cbn [affects]. intros [-> ->]. done.
  - specialize (Hnd p' Hp'). unfold content. destruct (fs_nodes s !! p') as [[|i]|] eqn:Hn; [done|by eexists|].
    unfold answer in Ha. cbn [storage] in Ha. rewrite (run_head_absent e b' k' p') in Ha; [done| |by right].
    by apply located_path; [apply legal_bucket_segment|].
Qed.
Print Assumptions C43_independent.

Example ex_distinct : metadata_name (B "abc") (B "d/e") <> metadata_name (B "abc") (B "d_e") /\
  get_object_path ex_env (B "abc") (B "d/e") <> get_object_path ex_env (B "abc") (B "d_e").
Proof. split; [|by vm_compute]. intros H. apply metadata_name_inj in H as [_ H]. by vm_compute in H. Qed.
