(** C46: what an interrupted PutObject leaves. *)
From Verif Require Import M_Base M_Path M_Headers M_Chunked M_BytesStream M_Crypto M_Fs M_Json M_Utf8 M_Storage
  S_Path S_Headers S_Chunked S_Storage S_Store L_Base L_Path L_Headers L_Fs L_Storage L_Scope L_Names L_Json L_Ops L_Results L_Rely
  T_Store T_Copy.

Local Opaque md5 etag_of json_decode json_encode metadata_name part_name.

Lemma wf_two : wf ex_two.
Proof. apply wf_after, wf_after, wf_empty. Qed.

(* Refuted: the old content is lost as soon as the file is opened, and the new one appears
   piece by piece.  A stopped server and a broken body both leave a beginning of the new
   content. *)
Theorem C46_atomic_refuted :
  exists e s b k p body s' m',
    wf s /\ legal_bucket b /\ located b k p /\
    steps e s (storage e (RPutObject b k None None None (Some body))) s' m' /\
    broken body = false /\
    content s' p <> content s p /\ content s' p <> Some (carried body).
Proof.
  set (r := RPutObject (B "photos") (B "y") None None None (Some [FData (B "newer")])).
  exists ex_env, ex_two, (B "photos"), (B "y"), [B "photos"; B "y"], [FData (B "newer")],
    (run_n ex_env 4 (storage ex_env r) ex_two).1, (run_n ex_env 4 (storage ex_env r) ex_two).2.
  split; [by apply wf_two|]. split; [apply check_bucket_name_spec; by vm_compute|]. split.
  { exists [B "y"]. split_and!; [done| |done|done]. by compute_done. }
  split; [apply run_n_steps|]. split_and!; [done|by vm_compute|by vm_compute].
Qed.
Print Assumptions C46_atomic_refuted.

Theorem C46_broken_body_refuted :
  exists e s b k p body,
    wf s /\ legal_bucket b /\ located b k p /\ broken body = true /\
    answer e (RPutObject b k None None None (Some body)) s = Err InternalError /\
    is_Some (content s p) /\
    content (after e (RPutObject b k None None None (Some body)) s) p <> content s p.
Proof.
  exists ex_env, ex_two, (B "photos"), (B "y"), [B "photos"; B "y"], [FData (B "ne"); FErr].
  split; [by apply wf_two|]. split; [apply check_bucket_name_spec; by vm_compute|]. split.
  { exists [B "y"]. split_and!; [done| |done|done]. by compute_done. }
  split_and!; [done|by vm_compute|by eexists; vm_compute|by vm_compute].
Qed.
Print Assumptions C46_broken_body_refuted.

(* What holds: at every moment, also when system calls fail, the object has its old content
   or a beginning of the new one; bytes of the two are never mixed, and other bytes never
   appear.  If the request answered with success, the object has the complete new content and
   the metadata sent. *)
Theorem C46_old_or_prefix_partial e s b k p sc cl md body s' m' :
  wf s -> legal_bucket b -> located b k p ->
  steps e s (storage e (RPutObject b k sc cl md (Some body))) s' m' ->
  (content s' p = content s p \/ exists d, content s' p = Some d /\ d `prefix_of` carried body) /\
  (forall a, m' = Ret (Ok a) -> content s' p = Some (carried body) /\ broken body = false /\
     forall m, md = Some m -> content s' [metadata_name b k] = Some (json_encode m)).
Proof.
  intros Hwf Hb Hl Hst.
  set (I := fun t => content t p = content s p \/ exists d, content t p = Some d /\ d `prefix_of` carried body).
  assert (Hrg : rg e True eq I (fun r s' => forall a, r = Ok a -> content s' p = Some (carried body) /\ broken body = false /\
          a = APut (Some (etag_of (carried body))) /\
          forall m, md = Some m -> content s' [metadata_name b k] = Some (json_encode m))
      (storage e (RPutObject b k sc cl md (Some body))) s).
  { apply (rg_put e True eq) with (p := p); try done.
    - by intros t t' <-.
    - by intros i t t' d <-.
    - by intros i t t' d <-.
    - by intros t t' ? <-.
    - intros t t' Ht He. unfold I. by rewrite He.
    - intros t d Hd Hpre. right. by exists d.
    - by left. }
  destruct (rg_steps e I _ _ s s' m' Hrg Hst) as [HI HQ]. split; [exact HI|].
  intros a Ha. destruct (HQ (Ok a) Ha a eq_refl) as (H1 & H2 & _ & H3). done.
Qed.
Print Assumptions C46_old_or_prefix_partial.

(* If the key is new, an interruption can leave a partial object where none was. *)
Example ex_crash :
  let r := RPutObject (B "photos") (B "z") None None None (Some [FData (B "newer")]) in
  let at_ n := content (run_n ex_env n (storage ex_env r) ex_two).1 [B "photos"; B "z"] in
  at_ 2 = None /\ at_ 3 = Some [] /\ at_ 4 = Some (B "new") /\ at_ 5 = Some (B "newer").
Proof. split_and!; vm_compute; reflexivity. Qed.
