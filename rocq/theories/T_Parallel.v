(** C65: parts of an upload sent at the same time, and their completion among other requests. *)
From Verif Require Import M_Base M_Path M_Headers M_Chunked M_BytesStream M_Crypto M_Fs M_Json M_Utf8 M_Storage
  S_Path S_Headers S_Chunked S_Storage S_Store L_Base L_Path L_Headers L_Fs L_Storage L_Scope L_Names L_Json L_Ops L_Results
  L_Rely L_Par L_Parts T_Store T_Copy T_Uploads T_Concurrent.

Local Opaque md5 etag_of json_decode json_encode metadata_name part_name.

(* No other request of the list uploads the part or completes the upload with it. *)
Definition part_alone (rs : list s_req) (i : nat) (u : bytes) (n : Z) : Prop :=
  forall j r, j <> i -> rs !! j = Some r -> ~ touches_part r u n.

Lemma relies_part e rs i u n : Forall plain_req rs -> part_alone rs i u n ->
  forall s s', relies e rs i s s' ->
  content s' [part_name u n] = content s [part_name u n] /\
  fs_nodes s' !! [part_name u n] = fs_nodes s !! [part_name u n].
Proof.
  intros Hrs Ha s s' [_ Hu]. rewrite Forall_lookup in Hrs.
  assert (H1 : ~ exists j, j <> i /\ of_task r_files e rs j [part_name u n]).
  { intros (j & Hj & r & Hr & HF). eapply Ha; [exact Hj|exact Hr|]. by apply (plain_part e r u n ltac:(by eapply Hrs)). }
  assert (H2 : ~ exists j, j <> i /\ of_task r_dirs e rs j [part_name u n]).
  { intros (j & Hj & r & Hr & HF). by apply (plain_part e r u n ltac:(by eapply Hrs)) in HF. }
  assert (H3 : ~ exists j, j <> i /\ of_task r_rmdirs e rs j [part_name u n]).
  { intros (j & Hj & r & Hr & HF). by apply (plain_part e r u n ltac:(by eapply Hrs)) in HF. }
  split; by apply Hu.
Qed.
Lemma relies_keeps_part e rs i u n : Forall plain_req rs -> part_alone rs i u n -> keeps (relies e rs i) [part_name u n].
Proof. intros Hrs Ha j s s' d Hr Hn Hc. destruct (relies_part e rs i u n Hrs Ha s s' Hr) as [-> ->]. done. Qed.

Lemma plain_root e r : plain_req r -> ~ r_rmdirs e r [].
Proof.
  intros Hr H. destruct r; cbn [plain_req r_rmdirs] in *; try done.
  - destruct H as (q & Hq & Hpre). rewrite bucket_path in Hq by by apply legal_bucket_segment. injection Hq as <-.
    by apply prefix_nil_not in Hpre.
  - destruct Hr as (Hb' & Hk'). rewrite object_path in H by done. by destruct H as (segs & _ & _ & _ & H).
Qed.

Section any.
  Context (e : env) (s : fs) (rs : list s_req) (i : nat) (Hwf : wf s) (Hrs : Forall plain_req rs).

  (* One task is looked at, the others are arbitrary. *)
  Lemma among (faults : Prop) (P : sres s_ans -> fs -> Prop) r ms' s' a : rs !! i = Some r ->
    rg e faults (relies e rs i) (fun _ => True) P (storage e r) s ->
    (faults /\ psteps e s (storage e <$> rs) s' ms' \/ exists sched, run_sched e sched s (storage e <$> rs) = (s', ms')) ->
    ms' !! i = Some (Ret a) -> P a s'.
  Proof.
    intros Hi Hrg Hst Hres. set (Q := fun j (r : sres s_ans) (t : fs) => j = i -> P r t).
    assert (H0 : par_inv e faults (of_task r_files e rs) (of_task r_dirs e rs) (of_task r_rmdirs e rs) (fun _ _ => True) Q s (storage e <$> rs)).
    { apply par_init; [done|]. intros j m Hm. rewrite list_lookup_fmap in Hm. destruct (rs !! j) as [r'|] eqn:Hr; [|done]. injection Hm as <-.
      split; [by apply scoped_task|]. destruct (decide (j = i)) as [->|Hne].
      - rewrite Hi in Hr. injection Hr as <-. eapply rg_impl; [exact Hrg|done|]. by intros a' t _ HP _.
      - eapply rg_impl; [apply (rg_wf e faults (relies e rs j)); [by intros t t' [? _]|done]|done|]. by intros ? ? _ _ ->. }
    assert (Hinv : par_inv e faults (of_task r_files e rs) (of_task r_dirs e rs) (of_task r_rmdirs e rs) (fun _ _ => True) Q s' ms').
    { destruct Hst as [[Hf Hst]|[sched Hrun]]; [by eapply par_psteps|].
      pose proof (par_run_sched e faults _ _ _ _ Q sched s (storage e <$> rs) H0) as H. by rewrite Hrun in H. }
    exact (par_result _ _ _ _ _ _ _ s' ms' i a Hinv Hres eq_refl).
  Qed.
End any.

(** A part uploaded among any other requests that do not touch this part, in any interleaving
    and with failing system calls: if success is reported, the part is stored as sent. *)
Theorem C65_part_among_others e s rs i u n body s' ms' a :
  wf s -> Forall plain_req rs -> rs !! i = Some (RUploadPart u n (Some body)) -> part_alone rs i u n ->
  psteps e s (storage e <$> rs) s' ms' -> ms' !! i = Some (Ret (Ok a)) ->
  content s' [part_name u n] = Some (carried body) /\ broken body = false /\ a = APart (quoted_md5 (carried body)).
Proof.
  intros Hwf Hrs Hi Ha Hst Hres.
  assert (Hu : "/"%char ∉ u) by (rewrite Forall_lookup in Hrs; apply (Hrs i _ Hi)).
  pose proof (rg_upload e True (relies e rs i) (others_refl _ _ _ i) ltac:(by intros t t' [? _]) False u n body s Hu
    (relies_keeps_part e rs i u n Hrs Ha) Hwf ltac:(done)) as Hrg.
  pose proof (among e s rs i Hwf True _ _ ms' s' (Ok a) Hi Hrg ltac:(by left) Hres) as ([H1 _] & H2 & H3). done.
Qed.
Print Assumptions C65_part_among_others.

(** Without failing system calls, every such upload succeeds: requests that run at the same time
    do not disturb it. *)
Theorem C65_part_succeeds e s rs i u n body sched s' ms' r :
  wf s -> Forall plain_req rs -> rs !! i = Some (RUploadPart u n (Some body)) -> part_alone rs i u n ->
  broken body = false -> e_os_ok e [part_name u n] = true -> fs_nodes s !! [] = Some NDir ->
  fs_nodes s !! [part_name u n] <> Some NDir ->
  run_sched e sched s (storage e <$> rs) = (s', ms') -> ms' !! i = Some (Ret r) ->
  r = Ok (APart (quoted_md5 (carried body))) /\ content s' [part_name u n] = Some (carried body).
Proof.
  intros Hwf Hrs Hi Ha Hb Hos Hroot Hnd Hst Hres.
  assert (Hu : "/"%char ∉ u) by (rewrite Forall_lookup in Hrs; apply (Hrs i _ Hi)).
  pose proof (rg_upload e False (relies e rs i) (others_refl _ _ _ i) ltac:(by intros t t' [? _]) True u n body s Hu
    (relies_keeps_part e rs i u n Hrs Ha) Hwf) as Hrg.
  assert (Hlive : True -> e_os_ok e [part_name u n] = true /\ receptive [part_name u n] s /\
       forall t t', relies e rs i t t' -> receptive [part_name u n] t -> receptive [part_name u n] t').
  { intros _. split; [done|]. split; [done|]. intros t t' Hr [H1 H2].
    destruct (relies_part e rs i u n Hrs Ha t t' Hr) as [_ Hn]. split; [|by rewrite Hn].
    destruct Hr as [_ Hun]. apply (un_dir _ _ _ _ _ Hun); [|done]. intros (j & _ & r' & Hr' & HX).
    rewrite Forall_lookup in Hrs. by apply (plain_root e r' ltac:(by eapply Hrs)) in HX. }
  pose proof (among e s rs i Hwf False _ _ ms' s' r Hi (Hrg Hlive) ltac:(by right; exists sched) Hres) as H. cbn beta in H.
  destruct r as [a|code]; [by destruct H as ([H1 _] & _ & ->)|]. destruct H as [[]|[H|H]]; [congruence|by destruct H].
Qed.
Print Assumptions C65_part_succeeds.

(** A completion among any other requests that touch neither its object nor the parts of its
    upload: if it reports success, the list was 1..n and the object is the concatenation of the
    parts that were there; they are gone. *)
Theorem C65_completion_among_others e s rs i b k p u ps s' ms' a :
  wf s -> Forall plain_req rs -> legal_bucket b -> located b k p ->
  rs !! i = Some (RCompleteMultipartUpload b k u (Some ps)) -> alone rs i b k -> (forall n, part_alone rs i u n) ->
  psteps e s (storage e <$> rs) s' ms' -> ms' !! i = Some (Ret (Ok a)) ->
  exists cs, ps = in_order (length cs) /\
    (forall j c, cs !! j = Some c -> content s [part_name u (Z.of_nat j + 1)] = Some c) /\
    a = ACompleted b k (quoted_md5 (concat cs)) /\ content s' p = Some (concat cs) /\
    (forall n, (1 <= n <= Z.of_nat (length cs))%Z -> content s' [part_name u n] = None).
Proof.
  intros Hwf Hrs Hb Hl Hi Ha Hpa Hst Hres.
  assert (Hu : "/"%char ∉ u) by (rewrite Forall_lookup in Hrs; apply (Hrs i _ Hi)).
  destruct (relies_keeps e rs i b k p Hrs Hb Hl Ha) as [Hk1 _].
  pose proof (rg_complete e True (relies e rs i) (others_refl _ _ _ i) ltac:(by intros t t' [? _]) u p Hu
    ltac:(intros n; by eapply located_not_part) Hk1 ltac:(intros n; by apply relies_keeps_part)
    ltac:(intros n t t' Hr; by apply (relies_part e rs i u n)) b k ps s
    (located_path e b k p (legal_bucket_segment _ Hb) Hl) Hwf) as Hrg.
  pose proof (among e s rs i Hwf True _ _ ms' s' (Ok a) Hi Hrg ltac:(by left) Hres) as H.
  destruct (H a eq_refl) as (cs & H1 & H2 & H3 & H4 & H5). exists cs. do 4 (split; [done|]).
  intros n Hn. by rewrite H5, decide_True by lia.
Qed.
Print Assumptions C65_completion_among_others.

Lemma located_resolved b k p : located b k p -> resolved b k p.
Proof.
  intros (segs & Hne & Hs & -> & ->). exists segs. split_and!; [done| | |done| |].
  - eapply Forall_impl; [done|]. by intros c (_ & _ & _ & ?).
  - intros Hdd. rewrite Forall_forall in Hs. by destruct (Hs _ Hdd) as (_ & _ & ? & _).
  - intros x Hx. pose proof (slashed_starts segs Hne Hs) as H. rewrite Hx in H. by vm_compute in H.
  - f_equal. symmetry. clear -Hs. induction Hs as [|c segs Hc Hs IH]; [done|].
    rewrite filter_cons, decide_True by by destruct Hc as (? & ? & _). by rewrite IH.
Qed.

(** All parts of an object uploaded at the same time, among other requests, in any interleaving
    and with failing system calls: once every part has been acknowledged, the completion gives
    exactly the concatenation, in the order of the numbers. *)
Theorem C65_parallel_upload e s rs b k p u bodies pos s1 ms1 :
  wf s -> Forall plain_req rs -> legal_bucket b -> located b k p ->
  (forall j body, bodies !! j = Some body ->
     rs !! pos j = Some (RUploadPart u (Z.of_nat j + 1) (Some body)) /\
     part_alone rs (pos j) u (Z.of_nat j + 1) /\ exists a, ms1 !! pos j = Some (Ret (Ok a))) ->
  bodies <> [] -> psteps e s (storage e <$> rs) s1 ms1 -> writable e s1 p ->
  let r := RCompleteMultipartUpload b k u (Some (in_order (length bodies))) in
  let data := concat (map carried bodies) in
  answer e r s1 = Ok (ACompleted b k (quoted_md5 data)) /\ content (after e r s1) p = Some data.
Proof.
  intros Hwf Hrs Hb Hl Hup Hne Hst Hw r data.
  assert (Hu : "/"%char ∉ u).
  { destruct bodies as [|body bodies]; [done|]. destruct (Hup 0 body eq_refl) as (Hi & _). rewrite Forall_lookup in Hrs. apply (Hrs _ _ Hi). }
  assert (Hwf1 : wf s1).
  { clear -Hwf Hst. induction Hst as [|s ms i m s1 m1 s2 ms2 _ Hstep _ IH]; [done|]. apply IH.
    eapply wf_steps; [|exact Hwf]. econstructor; [exact Hstep|constructor]. }
  destruct (C38_completion e s1 b k u p (in_order (length bodies)) Hwf1 Hb (located_resolved b k p Hl) Hu) as [_ H].
  destruct (H (map carried bodies)) as (H1 & H2 & _); [done|by rewrite map_length| |done].
  intros j c Hj. apply list_lookup_fmap_Some in Hj as (body & Hj & ->).
  destruct (Hup j body Hj) as (Hi & Ha & a & Hres).
  pose proof (rg_upload e True (relies e rs (pos j)) (others_refl _ _ _ (pos j)) ltac:(by intros t t' [? _]) False u (Z.of_nat j + 1) body s Hu
    (relies_keeps_part e rs (pos j) u _ Hrs Ha) Hwf ltac:(done)) as Hrg.
  by destruct (among e s rs (pos j) Hwf True _ _ ms1 s1 (Ok a) Hi Hrg ltac:(by left) Hres) as (Hh & _).
Qed.
Print Assumptions C65_parallel_upload.

(* Three parts sent at the same time, their system calls interleaved, then the completion. *)
Definition ex_parts : list s_req :=
  [RUploadPart ex_uuid 2 (Some [FData (B "two-")]); RUploadPart ex_uuid 1 (Some [FData (B "one"); FData (B "-")]);
   RPutObject (B "photos") (B "dog") None None None (Some [FData (B "woof")]); RUploadPart ex_uuid 3 (Some [FData (B "three")])].
Example ex_parallel :
  let s := after ex_env (RCreateBucket (B "photos")) empty_store in
  let '(s1, ms1) := run_sched ex_env (concat (replicate 12 [0; 1; 2; 3])) s (storage ex_env <$> ex_parts) in
  (exists a b c d, ms1 = [Ret (Ok a); Ret (Ok b); Ret (Ok c); Ret (Ok d)]) /\
  content (after ex_env (RCompleteMultipartUpload (B "photos") (B "cat") ex_uuid (Some (in_order 3))) s1) [B "photos"; B "cat"] =
    Some (B "one-two-three") /\ content s1 [B "photos"; B "dog"] = Some (B "woof").
Proof. vm_compute. split; [by do 4 eexists|done]. Qed.
Example ex_parts_alone : Forall plain_req ex_parts /\ part_alone ex_parts 0 ex_uuid 2 /\ part_alone ex_parts 1 ex_uuid 1 /\
  part_alone ex_parts 3 ex_uuid 3.
Proof.
  split; [|split; [|split]].
  - repeat (apply Forall_cons; split); [..|apply Forall_nil_2]; [compute_done..| |compute_done].
    split; [apply check_bucket_name_spec; by vm_compute|]. split; [|done]. exists [B "dog"]. split_and!; try done; compute_done.
  - intros [|[|[|[|j]]]] r Hj [= <-]; [done|by intros [_ [=]]|by intros []|by intros [_ [=]]].
  - intros [|[|[|[|j]]]] r Hj [= <-]; [by intros [_ [=]]|done|by intros []|by intros [_ [=]]].
  - intros [|[|[|[|j]]]] r Hj [= <-]; [by intros [_ [=]]|by intros [_ [=]]|by intros []|done].
Qed.
