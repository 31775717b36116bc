(** C68: requests repeated after an interruption. *)
From Verif Require Import M_Base M_Path M_Headers M_Chunked M_BytesStream M_Crypto M_Fs M_Json M_Utf8 M_Storage M_Errors
  S_Path S_Headers S_Chunked S_Storage S_Store L_Base L_Path L_Headers L_Fs L_Storage L_Scope L_Names L_Json L_Ops L_Results L_Rely L_Par
  T_Store T_Copy T_Crash T_Concurrent T_Parallel.

Local Opaque md5 etag_of json_decode json_encode metadata_name part_name.

(* Any number of attempts at the request [r], each of which ended somewhere: with an answer,
   or because the server stopped; system calls may have failed. *)
Inductive attempts (e : env) (r : s_req) : fs -> fs -> Prop :=
| attempts_none s : attempts e r s s
| attempts_more s s1 m s2 : steps e s (storage e r) s1 m -> attempts e r s1 s2 -> attempts e r s s2.

Lemma attempts_then e r s s' : attempts e r s s' -> attempts e r s (after e r s').
Proof.
  induction 1 as [t|t t1 m t2 Hst Hat IH].
  - econstructor; [|constructor]. apply run_steps.
  - econstructor; [exact Hst|exact IH].
Qed.

(** ** Uploads *)

(* An upload to a key makes directories above the object only. *)
Lemma scoped_put e b k dir c sc cl md body : legal_bucket b -> located b k (dir ++ [c]) ->
  scoped (fun q => q = dir ++ [c] \/ is_Some md /\ q = [metadata_name b k]) (fun q => q `prefix_of` dir) (fun _ => False) no_own
    (storage e (RPutObject b k sc cl md (Some body))).
Proof.
  intros Hb Hl. cbn [storage]. unfold put_object. destruct (negb _); [done|].
  rewrite ordinary_no_slash_end by by eapply located_ordinary.
  rewrite (located_path e b k (dir ++ [c])) by (try done; by apply legal_bucket_segment). cbn [try_path].
  rewrite parent_snoc. apply scoped_try_io; [by apply scoped_create_dir_all|].
  intros u own1 _. unfold try_io at 1. apply scoped_create; [by left| |done].
  intros i. apply scoped_try_io; [apply scoped_copy_bytes; auto|]. intros n own2 _.
  apply scoped_try_io; [|done]. destruct md as [m|]; [|done].
  apply scoped_save_metadata. intros q Hq. rewrite metadata_path in Hq. right. split; [by eexists|congruence].
Qed.

Lemma attempts_put e b k dir c sc cl md body s s' : legal_bucket b -> located b k (dir ++ [c]) ->
  attempts e (RPutObject b k sc cl md (Some body)) s s' ->
  ready dir c (metadata_name b k) s -> ready dir c (metadata_name b k) s' /\
    (md = None -> fs_nodes s' !! [metadata_name b k] = fs_nodes s !! [metadata_name b k]).
Proof.
  intros Hb Hl Hat. induction Hat as [s|s s1 m s2 Hst Hat IH]; [done|]. intros Hr.
  assert (Hmn : forall q, q `prefix_of` dir -> q <> [metadata_name b k]).
  { intros q Hq ->. destruct Hl as (segs & _ & _ & _ & Heq). destruct dir as [|d dir]; [by destruct Hq|]. injection Heq as -> _.
    apply prefix_cons_inv_1 in Hq. symmetry in Hq. by eapply bucket_not_meta. }
  pose proof Hr as (Hwf & Hroot & Hno & Hp & Hm).
  destruct (rg_steps e _ _ _ _ _ _ (rg_scoped e (fun t => wf t /\ untouched _ _ _ s t) _ _ _ _ s Hwf
    (scoped_put e b k dir c sc cl md body Hb Hl) ltac:(done)) Hst) as [[Hwf1 Hu] _].
  assert (Hr1 : ready dir c (metadata_name b k) s1).
  { split; [done|]. split; [apply (un_dir _ _ _ _ _ Hu); [by intros []|done]|]. split; [|split].
    - intros q i Hq Hi. assert (Hc : content s1 q = content s q).
      { apply (un_content _ _ _ _ _ Hu). intros [->|[_ ->]]; [by eapply above_ne|by eapply Hmn]. }
      unfold content in Hc. rewrite Hi in Hc. destruct (fs_nodes s !! q) as [[|j]|] eqn:E; [done| |done]. by eapply Hno.
    - intros Hd. apply Hp. apply (un_new_dir _ _ _ _ _ Hu); [|done]. intros Hq. by apply (above_ne dir c _ Hq).
    - intros Hd. apply Hm. apply (un_new_dir _ _ _ _ _ Hu); [|done]. intros Hq. by apply (Hmn _ Hq). }
  destruct (IH Hr1) as [Hr2 Hm2]. split; [done|]. intros Hmd. rewrite (Hm2 Hmd).
  apply (un_node _ _ _ _ _ Hu); [|by intros Hq; apply (Hmn _ Hq)|by intros []].
  intros [Hq|[[? ?] _]]; [|by subst]. symmetry in Hq; by eapply located_not_meta in Hq.
Qed.

(** An upload that was interrupted any number of times, at any points, succeeds when it is
    repeated, and then the object is exactly what was sent. *)
Theorem C68_upload_repeated e s x p s' :
  wf s -> fs_nodes s !! [] = Some NDir -> possible e s x p ->
  (is_Some (pu_meta x) \/ fs_nodes s !! [metadata_name (pu_bucket x) (pu_key x)] = None) ->
  (N.of_nat (length (carried (pu_body x))) <= i64_max)%N ->
  attempts e (put_req x) s s' ->
  answer e (put_req x) s' = Ok (APut (Some (quoted_md5 (carried (pu_body x))))) /\
  gets e (after e (put_req x) s') (pu_bucket x) (pu_key x) None (carried (pu_body x))
    (N.of_nat (length (carried (pu_body x)))) (pu_meta x) (quoted_md5 (carried (pu_body x))).
Proof.
  intros Hwf Hroot Hpos Hmeta Hlen Hat. destruct x as [b k sc cl md body]. unfold put_req in *. 
  cbn [pu_bucket pu_key pu_class pu_len pu_meta pu_body] in *.
  pose proof Hpos as (Hb & Hl & Hsc & Hmok & Hbr & Hosp & Hosm & Hnd & Hnm & Hab).
  cbn [pu_bucket pu_key pu_class pu_len pu_meta pu_body] in *.
  destruct (path_parent _ _ p (legal_bucket_segment _ Hb) Hl) as (dir & c & Hpar & Hp & Hdir). subst p.
  destruct (attempts_put e b k dir c sc cl md body s s' Hb Hl Hat) as [(Hwf' & Hroot' & Hno' & Hp' & Hm') Hsame].
  { split_and!; try done. intros q i Hq. apply Hab; [by apply prefix_app_r|by eapply above_ne]. }
  assert (Hpos' : possible e s' (Put b k sc cl md body) (dir ++ [c])).
  { split_and!; try done. intros q i Hq Hne. apply Hno'. 
    destruct Hq as [r Hr]. destruct r as [|a r] using rev_ind; [by rewrite app_nil_r in Hr|].
    rewrite app_assoc in Hr. apply app_inj_tail in Hr as [-> _]. by apply prefix_app_r. }
  set (r := RPutObject b k sc cl md (Some body)).
  destruct (run_sched_one e (storage e r) s' [] []) as [sched Hsched]. cbn [app] in Hsched.
  destruct (C48_concurrent_puts e s' [Put b k sc cl md body] sched (run e (storage e r) s').1 [Ret (run e (storage e r) s').2] Hwf' Hroot') with (i := 0) (x := Put b k sc cl md body)
    (p := dir ++ [c]) (r := (run e (storage e r) s').2) as (Hans & Hc & Hmd); [| |exact Hsched|done|done|done|].
  { intros [|i] x [= <-]. by exists (dir ++ [c]). }
  { intros [|i] [|j] x y p q Hij; try done. }
  cbn [pu_bucket pu_key pu_meta pu_body] in *. split; [exact Hans|]. 
  set (s2 := after e r s'). fold (after e r s') in Hc, Hmd. fold s2 in Hc, Hmd.
  assert (Hm2 : meta_of e s2 b k = Some md).
  { unfold meta_of. destruct md as [m|].
    - rewrite Hosm by by eexists. rewrite (Hmd m eq_refl), json_round_trip by by apply Hmok.
      by destruct (content_Some _ _ _ (Hmd m eq_refl)) as (x & -> & _).
    - destruct Hmeta as [[? [=]]|Hnone].
      destruct (attempts_put e b k dir c sc cl None body s s2 Hb Hl) as [_ Hs2].
      { by apply attempts_then. }
      { split_and!; try done. intros q i Hq. apply Hab; [by apply prefix_app_r|by eapply above_ne]. }
      rewrite Hs2, Hnone, andb_false_r by done. done. }
  pose proof Hc as (n & Hn & Hd)%content_Some.
  assert (Hfl : file_len s2 n = N.of_nat (length (carried body))) by (unfold file_len; by rewrite Hd).
  assert (Hg : get_object_path e b k = Some (dir ++ [c])) by (apply located_path; [by apply legal_bucket_segment|done]).
  pose proof (gets_file e s2 b k (dir ++ [c]) n None None 0 (file_len s2 n) md Hg Hosp Hn eq_refl eq_refl ltac:(by rewrite Hfl) Hm2) as Hget.
  assert (Hq : etag_of (carried body) = quoted_md5 (carried body)) by
    (with_strategy transparent [etag_of] unfold etag_of; done).
  rewrite Hfl, Hd, Hq, Nat2N.id, drop_0, take_ge in Hget by done. exact Hget.
Qed.
Print Assumptions C68_upload_repeated.

(** ** Parts *)

Lemma attempts_part e u n body s s' : "/"%char ∉ u ->
  attempts e (RUploadPart u n (Some body)) s s' ->
  wf s -> fs_nodes s !! [] = Some NDir -> fs_nodes s !! [part_name u n] <> Some NDir ->
  wf s' /\ fs_nodes s' !! [] = Some NDir /\ fs_nodes s' !! [part_name u n] <> Some NDir.
Proof.
  intros Hu Hat. induction Hat as [s|s s1 m s2 Hst Hat IH]; [done|]. intros Hwf Hroot Hnd.
  destruct (rg_steps e _ _ _ _ _ _ (rg_scoped e (fun t => wf t /\ untouched _ _ _ s t) _ _ _ _ s Hwf
    (scoped_storage e (RUploadPart u n (Some body))) ltac:(done)) Hst) as [[Hwf1 Hun] _].
  apply IH; [done|apply (un_dir _ _ _ _ _ Hun); [by intros []|done]|].
  intros Hd. apply Hnd. apply (un_new_dir _ _ _ _ _ Hun); [by intros []|done].
Qed.

(** A part whose upload was interrupted any number of times can be uploaded again. *)
Theorem C68_part_repeated e s u n body s' :
  wf s -> fs_nodes s !! [] = Some NDir -> "/"%char ∉ u -> broken body = false ->
  e_os_ok e [part_name u n] = true -> fs_nodes s !! [part_name u n] <> Some NDir ->
  attempts e (RUploadPart u n (Some body)) s s' ->
  answer e (RUploadPart u n (Some body)) s' = Ok (APart (quoted_md5 (carried body))) /\
  content (after e (RUploadPart u n (Some body)) s') [part_name u n] = Some (carried body).
Proof.
  intros Hwf Hroot Hu Hbr Hos Hnd Hat.
  destruct (attempts_part e u n body s s' Hu Hat Hwf Hroot Hnd) as (Hwf' & Hroot' & Hnd').
  set (r := RUploadPart u n (Some body)).
  destruct (run_sched_one e (storage e r) s' [] []) as [sched Hsched]. cbn [app] in Hsched.
  apply (C65_part_succeeds e s' [r] 0 u n body sched (run e (storage e r) s').1 [Ret (run e (storage e r) s').2]
    (run e (storage e r) s').2 Hwf'); try done.
  - apply Forall_cons; split; [done|constructor].
  - intros [|j] r' Hj; [done|]. by intros [=].
Qed.
Print Assumptions C68_part_repeated.

(** ** What repeating does not mend *)

(* One part file is removed as soon as it has been copied; a completion repeated after that
   cannot find it, and truncates what the first attempt had assembled. *)
Theorem C68_completion_repeated_refuted :
  exists e s b k u parts p data s1 m1,
    wf s /\ legal_bucket b /\ located b k p /\
    let r := RCompleteMultipartUpload b k u (Some parts) in
    (answer e r s = Ok (ACompleted b k (quoted_md5 data)) /\ content (after e r s) p = Some data) /\
    steps e s (storage e r) s1 m1 /\
    answer e r s1 = Err InternalError /\ content (after e r s1) p = Some [] /\
    (forall n, In (Some n) (take 1 parts) -> fs_nodes (after e r s1) !! [part_name u n] = None).
Proof.
  set (s := after_all ex_env [RUploadPart (B "u") 1 (Some [FData (B "first ")]); RUploadPart (B "u") 2 (Some [FData (B "second")])] ex_two).
  set (r := RCompleteMultipartUpload (B "photos") (B "z") (B "u") (Some [Some 1%Z; Some 2%Z])).
  exists ex_env, s, (B "photos"), (B "z"), (B "u"), [Some 1%Z; Some 2%Z], [B "photos"; B "z"], (B "first second"),
    (run_n ex_env 11 (storage ex_env r) s).1, (run_n ex_env 11 (storage ex_env r) s).2.
  split; [by apply wf_after, wf_after, wf_two|]. split; [apply check_bucket_name_spec; by vm_compute|]. split.
  { exists [B "z"]. split_and!; [done| |done|done]. by compute_done. }
  split; [split; by vm_compute|]. split; [apply run_n_steps|]. split_and!; [by vm_compute|by vm_compute|].
  intros n [[= <-]|[]]. by vm_compute.
Qed.
Print Assumptions C68_completion_repeated_refuted.

(* An upload with metadata that stopped within the metadata file: a later upload without
   metadata reports success, and the object cannot be read. *)
Theorem C68_overwrite_repairs_refuted :
  exists e s b k p m body1 body2 s1 m1 a,
    wf s /\ legal_bucket b /\ located b k p /\ broken body2 = false /\
    steps e s (storage e (RPutObject b k None None (Some m) (Some body1))) s1 m1 /\
    let r := RPutObject b k None None None (Some body2) in
    answer e r s1 = Ok a /\ content (after e r s1) p = Some (carried body2) /\
    answer e (RGetObject b k None) (after e r s1) = Err InternalError.
Proof.
  set (r1 := RPutObject (B "photos") (B "z") None None (Some [(B "a", B "1")]) (Some [FData (B "first")])).
  exists ex_env, ex_two, (B "photos"), (B "z"), [B "photos"; B "z"], [(B "a", B "1")], [FData (B "first")], [FData (B "second")],
    (run_n ex_env 6 (storage ex_env r1) ex_two).1, (run_n ex_env 6 (storage ex_env r1) ex_two).2.
  eexists. split; [by apply wf_two|]. split; [apply check_bucket_name_spec; by vm_compute|]. split.
  { exists [B "z"]. split_and!; [done| |done|done]. by compute_done. }
  split; [done|]. split; [apply run_n_steps|]. split_and!; [by vm_compute|by vm_compute|by vm_compute].
Qed.
Print Assumptions C68_overwrite_repairs_refuted.

(** Non-vacuity: two interrupted attempts leave two different torn objects; the third succeeds. *)
Example ex_retry :
  let x := Put (B "photos") (B "z") None None (Some [(B "a", B "1")]) [FData (B "fir"); FData (B "st")] in
  let s1 := (run_n ex_env 5 (storage ex_env (put_req x)) ex_two).1 in
  let s2 := (run_n ex_env 3 (storage ex_env (put_req x)) s1).1 in
  attempts ex_env (put_req x) ex_two s2 /\
  content s1 [B "photos"; B "z"] <> content s2 [B "photos"; B "z"] /\
  content s2 [B "photos"; B "z"] <> Some (B "first") /\
  answer ex_env (put_req x) s2 = Ok (APut (Some (quoted_md5 (B "first")))) /\
  content (after ex_env (put_req x) s2) [B "photos"; B "z"] = Some (B "first").
Proof.
  cbv zeta. split.
  { econstructor; [apply run_n_steps|]. econstructor; [apply run_n_steps|]. constructor. }
  split_and!; by vm_compute.
Qed.
