(** C48, C49: requests running at the same time. *)
From Verif Require Import M_Base M_Path M_Headers M_Chunked M_BytesStream M_Crypto M_Fs M_Json M_Utf8 M_Storage
  S_Path S_Headers S_Chunked S_Storage S_Store L_Base L_Path L_Headers L_Fs L_Storage L_Scope L_Names L_Json L_Ops L_Results
  L_Rely L_Par T_Store T_Copy T_Crash.

Local Opaque md5 etag_of json_decode json_encode metadata_name part_name.

(* What task [i] of a list of requests may touch. *)
Definition of_task (f : env -> s_req -> path -> Prop) (e : env) (rs : list s_req) (i : nat) (p : path) : Prop :=
  exists r, rs !! i = Some r /\ f e r p.
Notation relies e rs := (others (of_task r_files e rs) (of_task r_dirs e rs) (of_task r_rmdirs e rs)).

Lemma scoped_task e rs i r : rs !! i = Some r ->
  scoped (of_task r_files e rs i) (of_task r_dirs e rs i) (of_task r_rmdirs e rs i) no_own (storage e r).
Proof.
  intros Hi. eapply scoped_weaken; [..|apply scoped_storage]; [| | |done]; intros p Hp; by exists r.
Qed.

(* Nobody else writes or deletes the object [k] of [b]. *)
Definition alone (rs : list s_req) (i : nat) (b k : bytes) : Prop :=
  forall j r, j <> i -> rs !! j = Some r -> ~ affects r b k.

Lemma relies_sees e rs i b k p : Forall plain_req rs -> legal_bucket b -> located b k p -> alone rs i b k ->
  forall s s', relies e rs i s s' ->
  content s' p = content s p /\ (forall j, fs_nodes s !! p = Some (NFile j) -> fs_nodes s' !! p = Some (NFile j)) /\
  fs_nodes s' !! [metadata_name b k] = fs_nodes s !! [metadata_name b k] /\
  content s' [metadata_name b k] = content s [metadata_name b k].
Proof.
  intros Hrs Hb Hl Ha s s' [_ Hu]. rewrite Forall_lookup in Hrs.
  assert (H1 : ~ exists j, j <> i /\ of_task r_files e rs j p).
  { intros (j & Hj & r & Hr & HF). eapply Ha; [exact Hj|exact Hr|]. by eapply plain_files; [eapply Hrs| | |]. }
  assert (H2 : ~ exists j, j <> i /\ of_task r_files e rs j [metadata_name b k]).
  { intros (j & Hj & r & Hr & HF). eapply Ha; [exact Hj|exact Hr|]. apply (plain_meta e r b k) in HF; [|by eapply Hrs].
    destruct r; try done; cbn [affects]; naive_solver. }
  assert (H3 : ~ exists j, j <> i /\ of_task r_dirs e rs j [metadata_name b k]).
  { intros (j & Hj & r & Hr & HF). by destruct (plain_meta_dirs e r b k ltac:(by eapply Hrs)) as [? _]. }
  assert (H4 : ~ exists j, j <> i /\ of_task r_rmdirs e rs j [metadata_name b k]).
  { intros (j & Hj & r & Hr & HF). by destruct (plain_meta_dirs e r b k ltac:(by eapply Hrs)) as [_ ?]. }
  split_and!.
  - by apply Hu.
  - intros j. by apply Hu.
  - by apply Hu.
  - by apply Hu.
Qed.

Lemma relies_keeps e rs i b k p : Forall plain_req rs -> legal_bucket b -> located b k p -> alone rs i b k ->
  keeps (relies e rs i) p /\ keeps (relies e rs i) [metadata_name b k].
Proof.
  intros Hrs Hb Hl Ha. pose proof (relies_sees e rs i b k p Hrs Hb Hl Ha) as H.
  split; intros j s s' d Hr Hn Hc; destruct (H s s' Hr) as (H1 & H2 & H3 & H4).
  - rewrite H1. auto.
  - by rewrite H3, H4.
Qed.

(** A put that runs among any other requests that do not write or delete its object, in any
    interleaving and with failing system calls: if it reports success, then from that moment
    on the object has exactly the content and metadata it sent. *)
Theorem C48_put_among_others e s rs i b k p sc cl md body s' ms' a :
  wf s -> Forall plain_req rs -> legal_bucket b -> located b k p ->
  rs !! i = Some (RPutObject b k sc cl md (Some body)) -> alone rs i b k ->
  psteps e s (storage e <$> rs) s' ms' ->
  ms' !! i = Some (Ret (Ok a)) ->
  content s' p = Some (carried body) /\ broken body = false /\
  a = APut (Some ([quote] ++ to_hex (md5 (carried body)) ++ [quote])) /\
  forall m, md = Some m -> content s' [metadata_name b k] = Some (json_encode m).
Proof.
  intros Hwf Hrs Hb Hl Hi Ha Hst Hres.
  set (Q := fun j (r : sres s_ans) (t : fs) => j = i -> forall a, r = Ok a -> content t p = Some (carried body) /\ broken body = false /\
          a = APut (Some (etag_of (carried body))) /\
          forall m, md = Some m -> content t [metadata_name b k] = Some (json_encode m)).
  assert (Hinv : par_inv e True (of_task r_files e rs) (of_task r_dirs e rs) (of_task r_rmdirs e rs)
    (fun _ _ => True) Q s' ms').
  { eapply par_psteps; [done| |exact Hst]. apply par_init; [done|].
    intros j m Hm. rewrite list_lookup_fmap in Hm. destruct (rs !! j) as [r|] eqn:Hr; [|done]. injection Hm as <-.
    split; [by apply scoped_task|]. destruct (decide (j = i)) as [->|Hne].
    - rewrite Hi in Hr. injection Hr as <-. destruct (relies_keeps e rs i b k p Hrs Hb Hl Ha) as [Hk1 Hk2].
      eapply rg_impl; [eapply (rg_put e True (relies e rs i)) with (I := fun _ => True); try done|done|].
      + by intros t t' [? _].
      + intros r t _ HQ _. exact HQ.
    - eapply rg_impl; [apply (rg_wf e True (relies e rs j)); [by intros t t' [? _]|done]|done|]. by intros ? ? _ _ ->. }
  exact (par_result _ _ _ _ _ _ _ s' ms' i (Ok a) Hinv Hres eq_refl a eq_refl).
Qed.
Print Assumptions C48_put_among_others.

(** Objects that none of the requests addresses keep their content, in every interleaving. *)
Theorem C48_bystanders e s rs b k p s' ms' :
  wf s -> Forall plain_req rs -> legal_bucket b -> located b k p ->
  Forall (fun r => ~ affects r b k) rs ->
  psteps e s (storage e <$> rs) s' ms' -> content s' p = content s p.
Proof.
  intros Hwf Hrs Hb Hl Ha Hst.
  pose proof (par_untouched e True (of_task r_files e rs) (of_task r_dirs e rs) (of_task r_rmdirs e rs)
    (fun _ _ => True) (fun _ (_ : sres s_ans) _ => True) s (storage e <$> rs) s' ms' I) as Hu.
  rewrite Forall_lookup in Ha, Hrs. apply Hu; [|done|].
  - apply par_init; [done|]. intros j m Hm. rewrite list_lookup_fmap in Hm.
    destruct (rs !! j) as [r|] eqn:Hr; [|done]. injection Hm as <-. split; [by apply scoped_task|].
    eapply rg_impl; [apply (rg_wf e True (relies e rs j)); [by intros t t' [? _]|done]|done|]. done.
  - intros (j & r & Hr & HF). eapply Ha; [exact Hr|]. by eapply plain_files; [eapply Hrs| | |].
Qed.
Print Assumptions C48_bystanders.

(** A GetObject or HeadObject among other requests that do not write or delete its object
    answers as if it ran alone, in every interleaving. *)
Theorem C48_read_among_others e s rs i b k p r range sched s' ms' a :
  wf s -> Forall plain_req rs -> legal_bucket b -> located b k p -> is_Some (content s p) ->
  r = RGetObject b k range \/ r = RHeadObject b k ->
  rs !! i = Some r -> alone rs i b k ->
  run_sched e sched s (storage e <$> rs) = (s', ms') -> ms' !! i = Some (Ret a) ->
  a = answer e r s.
Proof.
  intros Hwf Hrs Hb Hl Hc Hr Hi Ha Hrun Hres.
  set (Q := fun j (a : sres s_ans) (t : fs) => j = i -> a = answer e r s).
  assert (Hinv : par_inv e False (of_task r_files e rs) (of_task r_dirs e rs) (of_task r_rmdirs e rs)
    (fun _ _ => True) Q s' ms').
  { pose proof (par_run_sched e False (of_task r_files e rs) (of_task r_dirs e rs) (of_task r_rmdirs e rs)
      (fun _ _ => True) Q sched s (storage e <$> rs)) as H. rewrite Hrun in H. apply H.
    apply par_init; [done|]. intros j m Hm. rewrite list_lookup_fmap in Hm.
    destruct (rs !! j) as [r'|] eqn:Hr'; [|done]. injection Hm as <-. split; [by apply scoped_task|].
    destruct (decide (j = i)) as [->|Hne].
    - rewrite Hi in Hr'. injection Hr' as <-.
      eapply rg_impl; [eapply (rg_looks e (relies e rs i) (fun q => q = p \/ q = [metadata_name b k]) s) with (hs := fun _ => False); try done|done|].
      + intros t1 t2 t3. apply others_trans.
      + intros t Ht q Hq. destruct (relies_sees e rs i b k p Hrs Hb Hl Ha s t Ht) as (H1 & H2 & H3 & H4).
        destruct Hq as [->| ->]; [|done]. split; [|done]. destruct Hc as [d Hd].
        apply content_Some in Hd as (j & Hj & _). rewrite Hj. by apply H2.
      + assert (Hg : get_object_path e b k = Some p) by (apply located_path; [by apply legal_bucket_segment|done]).
        destruct Hr as [->| ->]; [eapply looks_get; [done|by left|by right]|eapply looks_head; [done|by left|by right]].
      + cbn beta. intros a' t _ -> _. done.
    - eapply rg_impl; [apply (rg_wf e False (relies e rs j)); [by intros t t' [? _]|done]|done|]. by intros ? ? _ _ ->. }
  exact (par_result _ _ _ _ _ _ _ s' ms' i a Hinv Hres eq_refl).
Qed.
Print Assumptions C48_read_among_others.

(** Several puts at the same time. *)
Record put := Put {
  pu_bucket : bytes; pu_key : bytes; pu_class : option bytes; pu_len : option Z;
  pu_meta : option metadata; pu_body : list frame }.
Definition put_req (x : put) : s_req :=
  RPutObject (pu_bucket x) (pu_key x) (pu_class x) (pu_len x) (pu_meta x) (Some (pu_body x)).

(* A put that would succeed alone: a legal request with a complete body, names that the
   operating system accepts, and nothing in the way. *)
Definition possible (e : env) (s : fs) (x : put) (p : path) : Prop :=
  legal_bucket (pu_bucket x) /\ located (pu_bucket x) (pu_key x) p /\
  (pu_class x = None \/ pu_class x = Some (B "STANDARD")) /\
  (forall m, pu_meta x = Some m -> metadata_ok m) /\ broken (pu_body x) = false /\
  e_os_ok e p = true /\ (is_Some (pu_meta x) -> e_os_ok e [metadata_name (pu_bucket x) (pu_key x)] = true) /\
  fs_nodes s !! p <> Some NDir /\ fs_nodes s !! [metadata_name (pu_bucket x) (pu_key x)] <> Some NDir /\
  forall q i, q `prefix_of` p -> q <> p -> fs_nodes s !! q <> Some (NFile i).

(* No object of the list is the same as, or a directory of, another one. *)
Definition apart (xs : list put) : Prop :=
  forall i j x y p q, i <> j -> xs !! i = Some x -> xs !! j = Some y ->
    located (pu_bucket x) (pu_key x) p -> located (pu_bucket y) (pu_key y) q -> ~ p `prefix_of` q.

Lemma apart_alone xs i x p : apart xs -> xs !! i = Some x -> located (pu_bucket x) (pu_key x) p ->
  alone (put_req <$> xs) i (pu_bucket x) (pu_key x).
Proof.
  intros Hap Hi Hl j r Hji Hj Ha. rewrite list_lookup_fmap in Hj. destruct (xs !! j) as [y|] eqn:Hy; [|done].
  injection Hj as <-. destruct Ha as [H1 H2].
  apply (Hap i j x y p p ltac:(done) Hi Hy Hl); [by rewrite H1, H2|done].
Qed.

Theorem C48_concurrent_puts e s xs sched s' ms' :
  wf s -> fs_nodes s !! [] = Some NDir ->
  (forall i x, xs !! i = Some x -> exists p, possible e s x p) -> apart xs ->
  run_sched e sched s (storage e <$> (put_req <$> xs)) = (s', ms') ->
  forall i x p r, xs !! i = Some x -> located (pu_bucket x) (pu_key x) p -> ms' !! i = Some (Ret r) ->
    r = Ok (APut (Some ([quote] ++ to_hex (md5 (carried (pu_body x))) ++ [quote]))) /\
    content s' p = Some (carried (pu_body x)) /\
    (forall m, pu_meta x = Some m -> content s' [metadata_name (pu_bucket x) (pu_key x)] = Some (json_encode m)).
Proof.
  intros Hwf Hroot Hpos Hap Hrun i x p r Hi Hl Hres.
  set (rs := put_req <$> xs) in *.
  assert (Hlk : forall j t, rs !! j = Some t -> exists y, xs !! j = Some y /\ t = put_req y).
  { intros j t Hj. unfold rs in Hj. rewrite list_lookup_fmap in Hj. destruct (xs !! j) as [y|]; [|done].
    injection Hj as <-. by exists y. }
  assert (Hrs : Forall plain_req rs).
  { apply Forall_lookup. intros j t Hj. destruct (Hlk j t Hj) as (y & Hy & ->).
    destruct (Hpos j y Hy) as (q & Hb & Hq & _ & Hm & _). cbn. split; [done|]. split; [by eapply located_ordinary|done]. }
  destruct (Hpos i x Hi) as (p' & Hb & Hl' & Hsc & Hm & Hbr & Hosp & Hosm & Hnd & Hnm & Hab).
  assert (p' = p) as -> by by eapply located_fun.
  pose proof (apart_alone xs i x p Hap Hi Hl) as Hal. fold rs in Hal.
  destruct (relies_keeps e rs i _ _ p Hrs Hb Hl Hal) as [Hk1 Hk2].
  destruct (path_parent _ _ p (legal_bucket_segment _ Hb) Hl) as (dir & c & Hpar & Hp & Hdir). subst p.
  set (mn := metadata_name (pu_bucket x) (pu_key x)) in *.
  assert (Hmn : forall q, q `prefix_of` dir -> q <> [mn]).
  { intros q Hq ->. destruct Hl as (segs & _ & _ & _ & Heq). destruct dir as [|d dir]; [done|]. injection Heq as -> _.
    apply prefix_cons_inv_1 in Hq. symmetry in Hq. by eapply bucket_not_meta. }
  assert (Hready : forall t t', relies e rs i t t' -> ready dir c mn t -> ready dir c mn t').
  { intros t t' [Hw Hu] (Hwt & Hr & Hn & Hp1 & Hp2). split; [auto|].
    assert (Hoth : forall q, ~ (exists j, j <> i /\ of_task r_rmdirs e rs j q)).
    { intros q (j & _ & t1 & Ht1 & HX). destruct (Hlk j t1 Ht1) as (y & _ & ->). done. }
    split; [by apply (un_dir _ _ _ _ _ Hu)|].
    assert (Hdirs : forall q, q = dir ++ [c] \/ q = [mn] -> ~ (exists j, j <> i /\ of_task r_dirs e rs j q)).
    { intros q Hq (j & Hj & t1 & Ht1 & HD). destruct (Hlk j t1 Ht1) as (y & Hy & ->). destruct Hq as [->| ->].
      - destruct HD as (q & Hq & Hpre). destruct (Hpos j y Hy) as (q' & Hb' & Hq' & _).
        rewrite (located_path e _ _ q') in Hq by (try done; by apply legal_bucket_segment). injection Hq as ->.
        exact (Hap i j x y (dir ++ [c]) q ltac:(done) Hi Hy Hl Hq' Hpre).
      - rewrite Forall_lookup in Hrs. by destruct (plain_meta_dirs e (put_req y) (pu_bucket x) (pu_key x) ltac:(by eapply Hrs)) as [? _]. }
    split_and!.
    - intros q k Hq Hk. apply (Hn q k Hq).
      assert (Hc : content t' q = content t q).
      { apply (un_content _ _ _ _ _ Hu). intros (j & Hj & t1 & Ht1 & HF). destruct (Hlk j t1 Ht1) as (y & Hy & ->).
        destruct (Hpos j y Hy) as (q' & Hb' & Hq' & _). cbn [put_req r_files] in HF.
        rewrite (located_path e _ _ q'), metadata_path in HF by (try done; by apply legal_bucket_segment).
        destruct HF as [HF|[_ HF]].
        - injection HF as ->. apply (Hap j i y x q (dir ++ [c]) Hj Hy Hi Hq' Hl). by apply prefix_app_r.
        - assert (q = [metadata_name (pu_bucket y) (pu_key y)]) as -> by congruence.
          destruct Hl as (segs & _ & _ & _ & Heq). destruct dir as [|d dir]; [done|]. injection Heq as -> _.
          apply prefix_cons_inv_1 in Hq. symmetry in Hq. by apply (bucket_not_meta _ (pu_bucket y) (pu_key y) Hb) in Hq. }
      unfold content in Hc. rewrite Hk in Hc. destruct (fs_nodes t !! q) as [[|j]|] eqn:E; [done| |done].
      exfalso. by apply (Hn q j).
    - intros Hd. apply Hp1. apply (un_new_dir _ _ _ _ _ Hu); [|done]. apply Hdirs. by left.
    - intros Hd. apply Hp2. apply (un_new_dir _ _ _ _ _ Hu); [|done]. apply Hdirs. by right. }
  set (Q := fun j (r : sres s_ans) (t : fs) => j = i -> exists a, r = Ok a /\
          content t (dir ++ [c]) = Some (carried (pu_body x)) /\ broken (pu_body x) = false /\
          a = APut (Some (etag_of (carried (pu_body x)))) /\
          forall m, pu_meta x = Some m -> content t [mn] = Some (json_encode m)).
  assert (Hinv : par_inv e False (of_task r_files e rs) (of_task r_dirs e rs) (of_task r_rmdirs e rs)
    (fun _ _ => True) Q s' ms').
  { pose proof (par_run_sched e False (of_task r_files e rs) (of_task r_dirs e rs) (of_task r_rmdirs e rs)
      (fun _ _ => True) Q sched s (storage e <$> rs)) as H. rewrite Hrun in H. apply H.
    apply par_init; [done|]. intros j m Hmj. rewrite list_lookup_fmap in Hmj.
    destruct (rs !! j) as [r'|] eqn:Hr'; [|done]. injection Hmj as <-. split; [by apply scoped_task|].
    destruct (decide (j = i)) as [->|Hne].
    - destruct (Hlk i r' Hr') as (y & Hy & ->). rewrite Hi in Hy. injection Hy as <-.
      eapply rg_impl; [eapply rg_and; [eapply (rg_put e False (relies e rs i)) with (I := fun _ => True) (p := dir ++ [c]); try done|
        eapply (live_put e (relies e rs i) dir c mn); try done]|done|].
      + by intros t t' [? _].
      + intros t t' q [_ Hu]. apply (un_dir _ _ _ _ _ Hu). intros (j & _ & t1 & Ht1 & HX).
        destruct (Hlk j t1 Ht1) as (y & _ & ->). done.
      + destruct Hsc as [->| ->]; [done|]. by vm_compute.
      + split; [done|]. split; [done|]. split_and!; [|done|done]. intros q j Hq. apply Hab; [by apply prefix_app_r|].
        by eapply above_ne.
      + cbn beta. intros r1 t _ [HQ [a ->]] _. exists a. split; [done|]. by apply HQ.
    - eapply rg_impl; [apply (rg_wf e False (relies e rs j)); [by intros t t' [? _]|done]|done|]. by intros ? ? _ _ ->. }
  destruct (par_result _ _ _ _ _ _ _ s' ms' i r Hinv Hres eq_refl) as (a & -> & H1 & H2 & -> & H3). done.
Qed.
Print Assumptions C48_concurrent_puts.

(** The same, compared with running the puts one after another. *)
Lemma run_sched_app e {A} sched1 : forall sched2 s (ms : list (prog A)),
  run_sched e (sched1 ++ sched2) s ms =
  let '(s1, ms1) := run_sched e sched1 s ms in run_sched e sched2 s1 ms1.
Proof.
  induction sched1 as [|i sched1 IH]; intros sched2 s ms; [done|]. cbn [app run_sched].
  destruct (ms !! i) as [[a|R c k]|]; [apply IH| |apply IH]. destruct (exec e c s) as [s1 r]. apply IH.
Qed.

Lemma run_sched_psteps e {A} sched : forall s (ms : list (prog A)),
  psteps e s ms (run_sched e sched s ms).1 (run_sched e sched s ms).2.
Proof.
  induction sched as [|i sched IH]; intros s ms; [constructor|]. cbn [run_sched].
  destruct (ms !! i) as [[a|R c k]|] eqn:Hi; [apply IH| |apply IH].
  destruct (exec e c s) as [s1 r] eqn:E. econstructor; [exact Hi| |apply IH]. left. by rewrite E.
Qed.

Lemma run_sched_one e {A} (m : prog A) : forall s pre post, exists sched,
  run_sched e sched s (pre ++ m :: post) = ((run e m s).1, pre ++ Ret (run e m s).2 :: post).
Proof.
  induction m as [a|R c k IH]; intros s pre post; [by exists []|].
  cbn [run]. destruct (exec e c s) as [s1 r] eqn:E. destruct (IH r s1 pre post) as [sched Hs].
  exists (length pre :: sched). cbn [run_sched]. rewrite list_lookup_middle by done. rewrite E.
  rewrite insert_app_r_alt, Nat.sub_diag by lia. cbn [list_insert insert]. exact Hs.
Qed.

Lemma run_sched_all e rs : forall s pre, exists sched answers,
  run_sched e sched s (pre ++ (storage e <$> rs)) = (after_all e rs s, pre ++ (Ret <$> answers)) /\
  length answers = length rs.
Proof.
  induction rs as [|r rs IH]; intros s pre; [by exists [], []|]. cbn [fmap list_fmap after_all].
  destruct (run_sched_one e (storage e r) s pre (storage e <$> rs)) as [sched1 H1].
  destruct (IH (after e r s) (pre ++ [Ret (answer e r s)])) as (sched2 & answers & H2 & H3).
  exists (sched1 ++ sched2), (answer e r s :: answers). rewrite run_sched_app, H1.
  rewrite <- app_assoc in H2. cbn [app] in H2. unfold answer, after in *. rewrite H2, <- app_assoc.
  split; [done|]. cbn [length]. by rewrite H3.
Qed.

Corollary C48_as_if_sequential e s xs sched s' answers :
  wf s -> fs_nodes s !! [] = Some NDir ->
  (forall i x, xs !! i = Some x -> exists p, possible e s x p) -> apart xs ->
  run_sched e sched s (storage e <$> (put_req <$> xs)) = (s', Ret <$> answers) ->
  forall b k p, legal_bucket b -> located b k p ->
    content s' p = content (after_all e (put_req <$> xs) s) p.
Proof.
  intros Hwf Hroot Hpos Hap Hrun b k p Hb Hl.
  destruct (run_sched_all e (put_req <$> xs) s []) as (sched2 & answers2 & Hrun2 & Hlen). cbn [app] in Hrun2.
  destruct (decide (Exists (fun x => pu_bucket x = b /\ pu_key x = k) xs)) as [Hex|Hex].
  - apply Exists_exists in Hex as (x & Hx & <- & <-). apply elem_of_list_lookup in Hx as [i Hi].
    assert (Hfin : forall sc t (ans : list (sres s_ans)), run_sched e sc s (storage e <$> (put_req <$> xs)) = (t, Ret <$> ans) ->
      length ans = length xs -> content t p = Some (carried (pu_body x))).
    { intros sc t ans Hr Hla. destruct (lookup_lt_is_Some_2 ans i) as [r Hr'].
      { rewrite Hla. by eapply lookup_lt_Some. }
      eapply (C48_concurrent_puts e s xs sc t _ Hwf Hroot Hpos Hap Hr i x p r Hi Hl). by rewrite list_lookup_fmap, Hr'. }
    assert (Hlm : forall sc t (ms ms' : list (prog (sres s_ans))), run_sched e sc t ms = (s', ms') -> length ms' = length ms).
    { intros sc. induction sc as [|j sc IH]; intros t ms ms' Hr; cbn [run_sched] in Hr; [by injection Hr as _ <-|].
      destruct (ms !! j) as [[a|R c kk]|]; [by eapply IH| |by eapply IH].
      destruct (exec e c t) as [t1 r]. apply IH in Hr. by rewrite insert_length in Hr. }
    rewrite (Hfin _ _ _ Hrun), (Hfin _ _ _ Hrun2); [done| |].
    + by rewrite Hlen, fmap_length.
    + apply Hlm in Hrun. by rewrite !fmap_length in Hrun.
  - assert (Hrs : Forall plain_req (put_req <$> xs)).
    { apply Forall_fmap, Forall_lookup. intros j y Hy. destruct (Hpos j y Hy) as (q & Hb' & Hq & _ & Hm & _). cbn.
      split; [done|]. split; [by eapply located_ordinary|done]. }
    assert (Hna : Forall (fun r => ~ affects r b k) (put_req <$> xs)).
    { apply Forall_fmap. apply not_Exists_Forall in Hex; [|intros ?; apply _]. eapply Forall_impl; [exact Hex|].
      intros y Hy [H1 H2]. by apply Hy. }
    pose proof (run_sched_psteps e sched s (storage e <$> (put_req <$> xs))) as P1. rewrite Hrun in P1. cbn [fst snd] in P1.
    pose proof (run_sched_psteps e sched2 s (storage e <$> (put_req <$> xs))) as P2. rewrite Hrun2 in P2. cbn [fst snd] in P2.
    rewrite (C48_bystanders _ _ _ _ _ _ _ _ Hwf Hrs Hb Hl Hna P1).
    by rewrite (C48_bystanders _ _ _ _ _ _ _ _ Hwf Hrs Hb Hl Hna P2).
Qed.
Print Assumptions C48_as_if_sequential.

(* Two puts into a new directory of a new bucket, interleaved call by call. *)
Definition ex_puts : list put :=
  [Put (B "films") (B "d/x") None None None [FData (B "first")];
   Put (B "films") (B "d/y") None None (Some [(B "a", B "1")]) [FData (B "other")]].
Definition ex_sched : list nat := concat (replicate 14 [0; 1]).

Example ex_interleaved :
  let '(s', ms') := run_sched ex_env ex_sched ex_two (storage ex_env <$> (put_req <$> ex_puts)) in
  (exists a b, ms' = [Ret (Ok a); Ret (Ok b)]) /\
  content s' [B "films"; B "d"; B "x"] = Some (B "first") /\
  content s' [B "films"; B "d"; B "y"] = Some (B "other") /\
  content s' [B "photos"; B "x"] = Some (B "one").
Proof. vm_compute. split_and!; [by do 2 eexists|done..]. Qed.

Lemma films_legal : legal_bucket (B "films").
Proof. apply check_bucket_name_spec. by vm_compute. Qed.
Lemma d_located x : segment_ok x -> located (B "films") (B "d" ++ B "/" ++ x) [B "films"; B "d"; x].
Proof. intros Hx. exists [B "d"; x]. split_and!; [done| |done|done]. repeat constructor; try done; try apply Hx. by compute_done. Qed.

(* The hypotheses of the theorem hold for this example. *)
Example ex_interleaved_hyps :
  wf ex_two /\ fs_nodes ex_two !! [] = Some NDir /\
  (forall i x, ex_puts !! i = Some x -> exists p, possible ex_env ex_two x p) /\ apart ex_puts.
Proof.
  assert (Hx : segment_ok (B "x")) by by compute_done. assert (Hy : segment_ok (B "y")) by by compute_done.
  split; [apply wf_two|]. split; [by vm_compute|]. split.
  - assert (Hpos : forall x md body, segment_ok x -> x = B "x" \/ x = B "y" -> (forall m, md = Some m -> metadata_ok m) -> broken body = false ->
      possible ex_env ex_two (Put (B "films") (B "d" ++ B "/" ++ x) None None md body) [B "films"; B "d"; x]).
    { intros x md body Hs Hx' Hm Hb. split; [apply films_legal|]. split; [by apply d_located|]. split; [by left|].
      split; [done|]. split; [done|]. split; [done|]. split; [done|]. cbn [pu_bucket pu_key].
      split; [destruct Hx' as [->| ->]; by vm_compute|]. split; [destruct Hx' as [->| ->]; by vm_compute|].
      intros q i [r Hr] Hne. destruct q as [|q1 [|q2 [|q3 [|]]]]; [by vm_compute|..].
      + injection Hr as <- _. by vm_compute.
      + injection Hr as <- <- _. by vm_compute.
      + injection Hr as <- <- <- _. by destruct Hne.
      + done. }
    intros [|[|i]] x; cbn; [intros [= <-]|intros [= <-]|done].
    + eexists. apply (Hpos (B "x")); [done|by left|done|done].
    + eexists. apply (Hpos (B "y")); [done|by right| |done]. intros m [= <-]. split; [by apply NoDup_singleton|].
      apply Forall_singleton. by split; vm_compute.
  - intros i j x y p q Hij Hi Hj Hp Hq Hpre.
    assert (Hz : forall n z r, ex_puts !! n = Some z -> located (pu_bucket z) (pu_key z) r ->
      (n = 0 /\ r = [B "films"; B "d"; B "x"]) \/ (n = 1 /\ r = [B "films"; B "d"; B "y"])).
    { intros [|[|n]] z r; cbn; [intros [= <-] Hr|intros [= <-] Hr|done]; [left|right]; (split; [done|]).
      - eapply located_fun; [exact Hr|]. by apply (d_located (B "x")).
      - eapply located_fun; [exact Hr|]. by apply (d_located (B "y")). }
    destruct (Hz i x p Hi Hp) as [[-> ->]|[-> ->]], (Hz j y q Hj Hq) as [[-> ->]|[-> ->]]; try done.
    + destruct Hpre as [r Hr]. by injection Hr.
    + destruct Hpre as [r Hr]. by injection Hr.
Qed.

(** C49, refuted: two overlapping puts on one object can both succeed and leave a content
    that neither of them sent, ... *)
Theorem C49_overwrites_atomic_refuted :
  exists e s b k p body1 body2 sched s' a1 a2,
    wf s /\ legal_bucket b /\ located b k p /\
    run_sched e sched s (storage e <$> [RPutObject b k None None None (Some body1);
                                        RPutObject b k None None None (Some body2)])
      = (s', [Ret (Ok a1); Ret (Ok a2)]) /\
    content s' p <> Some (carried body1) /\ content s' p <> Some (carried body2).
Proof.
  set (rs := [RPutObject (B "photos") (B "y") None None None (Some [FData (B "AAAAAA")]);
              RPutObject (B "photos") (B "y") None None None (Some [FData (B "bb")])]).
  exists ex_env, ex_two, (B "photos"), (B "y"), [B "photos"; B "y"], [FData (B "AAAAAA")], [FData (B "bb")],
    [0; 0; 0; 0; 1; 1; 1; 1; 1; 0; 0; 1],
    (run_sched ex_env [0; 0; 0; 0; 1; 1; 1; 1; 1; 0; 0; 1] ex_two (storage ex_env <$> rs)).1.
  eexists _, _. split; [apply wf_two|]. split; [apply check_bucket_name_spec; by vm_compute|]. split.
  { exists [B "y"]. split_and!; [done| |done|done]. by compute_done. }
  split; [vm_compute; reflexivity|]. split; by vm_compute.
Qed.
Print Assumptions C49_overwrites_atomic_refuted.

(** ... and a GetObject overlapping a put can announce the old length with the tag of the new
    content, and deliver neither content. *)
Theorem C49_read_atomic_refuted :
  exists e s b k p body old sched s' h off lim len md tag a2,
    wf s /\ legal_bucket b /\ located b k p /\ content s p = Some old /\
    run_sched e sched s (storage e <$> [RGetObject b k None;
                                        RPutObject b k None None None (Some body)])
      = (s', [Ret (Ok (AGet h off lim len md tag)); Ret (Ok a2)]) /\
    len = N.of_nat (length old) /\ tag = [quote] ++ to_hex (md5 (carried body)) ++ [quote] /\
    forall rs, Forall (fun st => st <> RdErr) rs ->
      carried (get_body s' h off lim rs) <> old /\ carried (get_body s' h off lim rs) <> carried body.
Proof.
  set (rs := [RGetObject (B "photos") (B "y") None;
              RPutObject (B "photos") (B "y") None None None (Some [FData (B "newer")])]).
  set (sched := [0; 0; 1; 1; 1; 1; 1; 0; 0; 0; 0; 0; 0; 0; 0; 0]).
  exists ex_env, ex_two, (B "photos"), (B "y"), [B "photos"; B "y"], [FData (B "newer")], (B "two"), sched,
    (run_sched ex_env sched ex_two (storage ex_env <$> rs)).1.
  eexists _, _, _, _, _, _, _. split; [apply wf_two|]. split; [apply check_bucket_name_spec; by vm_compute|]. split.
  { exists [B "y"]. split_and!; [done| |done|done]. by compute_done. }
  split; [by vm_compute|]. split; [vm_compute; reflexivity|]. split; [by vm_compute|]. split; [by vm_compute|].
  intros rd Hrd.
  match goal with |- carried (get_body ?st (HFile ?i) ?off ?lim rd) <> _ /\ _ =>
    destruct (body_delivered st i off lim rd Hrd) as [-> _] end.
  split; by vm_compute.
Qed.
Print Assumptions C49_read_atomic_refuted.
