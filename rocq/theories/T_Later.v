(** C66: a request that starts after another has been answered sees its effect, whatever else is
    going on. *)
From Verif Require Import M_Base M_Path M_Headers M_Chunked M_BytesStream M_Crypto M_Fs M_Json M_Utf8 M_Storage
  S_Path S_Headers S_Chunked S_Storage S_Store L_Base L_Path L_Headers L_Fs L_Storage L_Scope L_Names L_Json L_Ops L_Results
  L_Rely L_Par L_Parts T_Store T_Copy T_Crash T_Uploads T_Concurrent T_Parallel.

Local Opaque md5 etag_of json_decode json_encode metadata_name part_name.

(* The requests that are not yet answered; ListBuckets stands for those that are. *)
Definition still {A} (rs : list s_req) (ms : list (prog A)) : list s_req :=
  zip_with (fun r m => match m with Ret _ => RListBuckets | Do _ _ => r end) rs ms.

Lemma still_lookup {A} rs (ms : list (prog A)) j r : still rs ms !! j = Some r ->
  exists r' m, rs !! j = Some r' /\ ms !! j = Some m /\ (r = r' /\ (forall a, m <> Ret a) \/ r = RListBuckets /\ exists a, m = Ret a).
Proof.
  unfold still. intros H. apply lookup_zip_with_Some in H as (r' & m & -> & Hr & Hm). exists r', m. split; [done|].
  split; [done|]. destruct m as [a|]; [right|by left]. split; [done|by exists a].
Qed.
Lemma still_plain {A} rs (ms : list (prog A)) : Forall plain_req rs -> Forall plain_req (still rs ms).
Proof.
  intros H. rewrite Forall_lookup in *. intros j r Hr.
  destruct (still_lookup _ _ _ _ Hr) as (r' & m & Hr' & _ & [[-> _]|[-> _]]); [by eapply H|done].
Qed.
Lemma still_alone {A} rs (ms : list (prog A)) i j b k : alone rs i b k -> (exists a, ms !! i = Some (Ret a)) ->
  alone (still rs ms) j b k.
Proof.
  intros H [a Hi] l r _ Hr. destruct (still_lookup _ _ _ _ Hr) as (r' & m & Hr' & Hm & [[-> Hb]|[-> _]]); [|by intros []].
  destruct (decide (l = i)) as [->|Hne]; [|by eapply H]. rewrite Hi in Hm. injection Hm as <-. by destruct (Hb a).
Qed.

Lemma psteps_length e {A} s (ms : list (prog A)) s' ms' : psteps e s ms s' ms' -> length ms' = length ms.
Proof. intros H. induction H as [|? ? ? ? ? ? ? ? _ _ _ IH]; [done|]. by rewrite IH, insert_length. Qed.

Section later.
  Context (e : env) (s : fs) (rs : list s_req) (Hwf : wf s) (s1 : fs) (ms1 : list (prog (sres s_ans))).
  Context (Hst : psteps e s (storage e <$> rs) s1 ms1).

  Lemma started : par_inv e True (of_task r_files e rs) (of_task r_dirs e rs) (of_task r_rmdirs e rs)
    (fun _ _ => True) (fun _ (_ : sres s_ans) _ => True) s1 ms1.
  Proof.
    eapply par_psteps; [done| |exact Hst]. apply par_init; [done|]. intros j m Hm. rewrite list_lookup_fmap in Hm.
    destruct (rs !! j) as [r|] eqn:Hr; [|done]. injection Hm as <-. split; [by apply scoped_task|].
    eapply rg_impl; [apply (rg_wf e True (relies e rs j)); [by intros t t' [? _]|done]|done|done].
  Qed.

  Lemma same_number : length ms1 = length rs.
  Proof. by rewrite (psteps_length _ _ _ _ _ Hst), fmap_length. Qed.

  Lemma started_still (faults : Prop) (I : nat -> fs -> Prop) (Q : nat -> sres s_ans -> fs -> Prop) :
    (forall j m, ms1 !! j = Some m -> rg e faults (relies e (still rs ms1) j) (I j) (Q j) m s1) ->
    par_inv e faults (of_task r_files e (still rs ms1)) (of_task r_dirs e (still rs ms1)) (of_task r_rmdirs e (still rs ms1)) I Q s1 ms1.
  Proof.
    intros Hrg. destruct started as [Hwf1 Hms]. split; [done|]. intros j m Hm. specialize (Hrg j m Hm).
    destruct (Hms j m Hm) as (own & Ho & Hsc & _).
    assert (Hj : exists r, rs !! j = Some r).
    { apply lookup_lt_is_Some. rewrite <- same_number. by eapply lookup_lt_Some. }
    destruct Hj as [r Hr]. destruct m as [a|X c k].
    - exists no_own. split; [by split|]. by split.
    - assert (Hs : still rs ms1 !! j = Some r).
      { apply lookup_zip_with_Some. by exists r, (Do c k). }
      assert (Hof : forall f p, of_task f e rs j p -> of_task f e (still rs ms1) j p).
      { intros f p (r' & Hr' & Hf). exists r'. split; [|done]. congruence. }
      exists own. split; [|split; [|done]].
      + destruct Ho as [H1 H2]. split; [done|]. intros p i Hi Hp. apply Hof. by eapply H2.
      + eapply scoped_weaken; [..|exact Hsc]; auto.
  Qed.

  (* One request that has not started yet is looked at. *)
  Lemma among_later (faults : Prop) (P : sres s_ans -> fs -> Prop) j m s2 ms2 a : ms1 !! j = Some m ->
    rg e faults (relies e (still rs ms1) j) (fun _ => True) P m s1 ->
    (faults /\ psteps e s1 ms1 s2 ms2 \/ exists sched, run_sched e sched s1 ms1 = (s2, ms2)) ->
    ms2 !! j = Some (Ret a) -> P a s2.
  Proof.
    intros Hj Hrg Hst2 Hres. set (Q := fun l (r : sres s_ans) (t : fs) => l = j -> P r t).
    assert (H0 : par_inv e faults (of_task r_files e (still rs ms1)) (of_task r_dirs e (still rs ms1)) (of_task r_rmdirs e (still rs ms1))
      (fun _ _ => True) Q s1 ms1).
    { apply started_still. intros l m' Hm. destruct (decide (l = j)) as [->|Hne].
      - rewrite Hj in Hm. injection Hm as <-. eapply rg_impl; [exact Hrg|done|]. by intros a' t _ HP _.
      - eapply rg_impl; [apply (rg_wf e faults (relies e (still rs ms1) l)); [by intros t t' [? _]|apply started]|done|]. by intros ? ? _ _ ->. }
    assert (Hinv : par_inv e faults (of_task r_files e (still rs ms1)) (of_task r_dirs e (still rs ms1)) (of_task r_rmdirs e (still rs ms1))
      (fun _ _ => True) Q s2 ms2).
    { destruct Hst2 as [[Hf Hst2]|[sched Hrun]]; [by eapply par_psteps|].
      pose proof (par_run_sched e faults _ _ _ _ Q sched s1 ms1 H0) as H. by rewrite Hrun in H. }
    exact (par_result _ _ _ _ _ _ _ s2 ms2 j a Hinv Hres eq_refl).
  Qed.
End later.

(** An upload that has been answered with success is what a later download gets: any number of
    requests, any interleaving, failing calls before the download starts; nobody else writes or
    deletes the object.  [ms1] are the requests at the moment when the upload (number [i]) has been
    answered and the download (number [j]) arrives. *)
Theorem C66_read_after_write e s rs i j b k p sc cl md body s1 ms1 a sched s2 ms2 ans :
  wf s -> Forall plain_req rs -> legal_bucket b -> located b k p -> e_os_ok e p = true ->
  (is_Some md -> e_os_ok e [metadata_name b k] = true) -> (is_Some md \/ fs_nodes s !! [metadata_name b k] = None) ->
  (N.of_nat (length (carried body)) <= i64_max)%N ->
  rs !! i = Some (RPutObject b k sc cl md (Some body)) -> alone rs i b k ->
  psteps e s (storage e <$> rs) s1 ms1 -> ms1 !! i = Some (Ret (Ok a)) ->
  rs !! j = Some (RGetObject b k None) -> ms1 !! j = Some (storage e (RGetObject b k None)) ->
  run_sched e sched s1 ms1 = (s2, ms2) -> ms2 !! j = Some (Ret ans) ->
  exists h off lim, ans = Ok (AGet h off lim (N.of_nat (length (carried body))) md (quoted_md5 (carried body))) /\
    forall rd, Forall (fun st => st <> RdErr) rd ->
      carried (get_body s2 h off lim rd) = carried body /\ broken (get_body s2 h off lim rd) = false.
Proof.
  intros Hwf Hrs Hb Hl Hos Hom Hmeta Hlen Hi Ha Hst Hres1 Hj Hj1 Hrun Hres2.
  destruct (C48_put_among_others e s rs i b k p sc cl md body s1 ms1 a Hwf Hrs Hb Hl Hi Ha Hst Hres1) as (Hc & Hbr & _ & Hmd).
  pose proof (still_plain rs ms1 Hrs) as Hrs'. pose proof (still_alone rs ms1 i j b k Ha ltac:(by exists (Ok a))) as Ha'.
  assert (Hg : get_object_path e b k = Some p) by (apply located_path; [by apply legal_bucket_segment|done]).
  destruct (started e s rs Hwf s1 ms1 Hst) as [Hwf1 _].
  (* the metadata in [s1] *)
  assert (Hm1 : meta_of e s1 b k = Some md).
  { unfold meta_of. destruct md as [m|].
    - rewrite Forall_lookup in Hrs. destruct (Hrs i _ Hi) as (_ & _ & Hok). specialize (Hok m eq_refl).
      rewrite Hom by by eexists. rewrite (Hmd m eq_refl), json_round_trip by apply Hok.
      destruct (content_Some _ _ _ (Hmd m eq_refl)) as (x & -> & _). done.
    - destruct Hmeta as [[? [=]]|Hnone].
      assert (Hn1 : fs_nodes s1 !! [metadata_name b k] = None); [|by rewrite Hn1, andb_false_r].
      pose proof (par_untouched e True (of_task r_files e rs) (of_task r_dirs e rs) (of_task r_rmdirs e rs)
        (fun _ _ => True) (fun _ (_ : sres s_ans) _ => True) s (storage e <$> rs) s1 ms1 I
        (started e s rs Hwf s _ (psteps_refl _ _ _)) Hst) as Hu.
      rewrite <- Hnone. rewrite Forall_lookup in Hrs. apply Hu.
      + intros (l & r & Hr & HF). destruct (decide (l = i)) as [->|Hne].
        * rewrite Hi in Hr. injection Hr as <-. destruct HF as [HF|[[? [=]] _]]. rewrite Hg in HF. injection HF as ->.
          by eapply located_not_meta in Hl.
        * apply (plain_meta e r b k) in HF; [|by eapply Hrs]. eapply Ha; [exact Hne|exact Hr|].
          destruct r; try done; cbn [affects]; naive_solver.
      + intros (l & r & Hr & HF). by destruct (plain_meta_dirs e r b k ltac:(by eapply Hrs)) as [? _].
      + intros (l & r & Hr & HF). by destruct (plain_meta_dirs e r b k ltac:(by eapply Hrs)) as [_ ?]. }
  pose proof Hc as (n & Hn & Hd)%content_Some.
  set (R := relies e (still rs ms1) j) in *.
  assert (HRr : R s1 s1) by apply others_refl.
  assert (Hrg : rg e False R (fun t => R s1 t) (fun a _ => a = answer e (RGetObject b k None) s1) (storage e (RGetObject b k None)) s1).
  { apply (rg_looks e R (fun q => q = p \/ q = [metadata_name b k]) s1) with (hs := fun _ => False); try done.
    - intros t1 t2 t3. apply others_trans.
    - intros t Ht q Hq. destruct (relies_sees e _ j b k p Hrs' Hb Hl Ha' s1 t Ht) as (H1 & H2 & H3 & H4).
      destruct Hq as [->| ->]; [|done]. split; [|done]. rewrite Hn. by apply H2.
    - eapply looks_get; [done|by left|by right]. }
  destruct (among_later e s rs Hwf s1 ms1 Hst False (fun a t => R s1 t /\ a = answer e (RGetObject b k None) s1) j _ s2 ms2 ans Hj1)
    as [HR ->]; [|by right; exists sched|done|].
  { eapply rg_impl; [exact Hrg|done|]. done. }
  assert (Hfl : file_len s1 n = N.of_nat (length (carried body))) by (unfold file_len; by rewrite Hd).
  exists (HFile n), 0%N, (file_len s1 n). split.
  - unfold answer. cbn [storage]. rewrite (run_get_file e b k None p n s1 Hg Hos Hn). cbn [parse_range extent snd].
    rewrite Hm1, Hfl, Hd. by rewrite (proj2 (N.leb_le _ _)).
  - intros rd Hrd. destruct (relies_keeps e _ j b k p Hrs' Hb Hl Ha') as [Hk _].
    destruct (Hk n s1 s2 _ HR Hn Hc) as [Hn2 Hc2]. destruct (body_delivered s2 n 0 (file_len s1 n) rd Hrd) as [H1 H2].
    split; [|done]. rewrite H1. unfold content in Hc2. rewrite Hn2 in Hc2. injection Hc2 as ->.
    by rewrite Hfl, drop_0, Nat2N.id, take_ge.
Qed.
Print Assumptions C66_read_after_write.

(** ** After a deletion *)

(* No other request makes a directory out of the place of the object: uploads none of the keys
   below it. *)
Definition no_key_below (rs : list s_req) (i : nat) (p : path) : Prop :=
  forall j b k sc cl md body q, j <> i -> rs !! j = Some (RPutObject b k sc cl md body) -> located b k q -> ~ p `prefix_of` q.

Lemma relies_absent e rs i b k p : Forall plain_req rs -> legal_bucket b -> located b k p -> alone rs i b k -> no_key_below rs i p ->
  forall s s', relies e rs i s s' -> fs_nodes s !! p = None -> fs_nodes s' !! p = None.
Proof.
  intros Hrs Hb Hl Ha Hnb s s' Hr Hn.
  destruct (relies_sees e rs i b k p Hrs Hb Hl Ha s s' Hr) as (Hc & _). destruct Hr as [_ Hu].
  unfold content in Hc. rewrite Hn in Hc. destruct (fs_nodes s' !! p) as [[|x]|] eqn:E; [|done|done].
  assert (fs_nodes s !! p = Some NDir); [|congruence]. apply Hu; [|done].
  intros (j & Hji & r & Hj & HD). rewrite Forall_lookup in Hrs. specialize (Hrs j r Hj).
  destruct r; cbn [r_dirs plain_req] in *; try done.
  - rewrite bucket_path in HD by by apply legal_bucket_segment. injection HD as <-.
    destruct Hl as (segs & Hne & _ & _ & Hp). by destruct segs.
  - destruct HD as (q & Hq & Hpre). rewrite object_path in Hq by apply Hrs. by eapply Hnb.
Qed.

Lemma still_below {A} rs (ms : list (prog A)) i j p : no_key_below rs i p -> (exists a, ms !! i = Some (Ret a)) ->
  no_key_below (still rs ms) j p.
Proof.
  intros H [a Hi] l b k sc cl md body q _ Hr.
  destruct (still_lookup _ _ _ _ Hr) as (r' & m & Hr' & Hm & [[<- Hb]|[? _]]); [|done].
  destruct (decide (l = i)) as [->|Hne]; [|by eapply H]. rewrite Hi in Hm. injection Hm as <-. by destruct (Hb a).
Qed.

Lemma rg_delete e (R : fs -> fs -> Prop) b k p s : get_object_path e b k = Some p -> ends_with_char "/" k = false ->
  (forall t t', R t t' -> fs_nodes t !! p = None -> fs_nodes t' !! p = None) -> (forall s, R s s) ->
  rg e True R (fun _ => True) (fun r t => forall a, r = Ok a -> fs_nodes t !! p = None) (storage e (RDeleteObject b k)) s.
Proof.
  intros Hg He HR Hrefl. cbn [storage]. unfold delete_object. rewrite Hg, He. cbn [try_path]. unfold try_io. cbn [bind call].
  intros s1 Hr1. split; [done|]. split.
  - cbn [exec]. destruct (e_os_ok e p); [|by intros s2 _].
    destruct (fs_nodes s1 !! p) as [[|i]|]; [by intros s2 _| |by intros s2 _]. cbn. intros s2 Hr2. split; [done|].
    intros a _. eapply HR; [exact Hr2|]. cbn. by rewrite lookup_delete.
  - intros _. by intros s2 _.
Qed.

(** A deletion that has been answered with success is seen by every later GetObject or
    HeadObject, if nobody uploads the object again or keys below it. *)
Theorem C66_gone_after_delete e s rs i j b k p r s1 ms1 a sched s2 ms2 ans :
  wf s -> Forall plain_req rs -> legal_bucket b -> located b k p ->
  rs !! i = Some (RDeleteObject b k) -> alone rs i b k -> no_key_below rs i p ->
  psteps e s (storage e <$> rs) s1 ms1 -> ms1 !! i = Some (Ret (Ok a)) ->
  r = RGetObject b k None \/ r = RHeadObject b k ->
  rs !! j = Some r -> ms1 !! j = Some (storage e r) ->
  run_sched e sched s1 ms1 = (s2, ms2) -> ms2 !! j = Some (Ret ans) ->
  ans = Err NoSuchKey /\ fs_nodes s2 !! p = None.
Proof.
  intros Hwf Hrs Hb Hl Hi Ha Hnb Hst Hres1 Hr Hj Hj1 Hrun Hres2.
  assert (Hg : get_object_path e b k = Some p) by (apply located_path; [by apply legal_bucket_segment|done]).
  assert (He : ends_with_char "/" k = false) by (apply ordinary_no_slash_end; by eapply located_ordinary).
  assert (Hn1 : fs_nodes s1 !! p = None).
  { pose proof (rg_delete e (relies e rs i) b k p s Hg He (relies_absent e rs i b k p Hrs Hb Hl Ha Hnb) (others_refl _ _ _ i)) as Hrg.
    exact (among e s rs i Hwf True _ _ ms1 s1 (Ok a) Hi Hrg ltac:(by left) Hres1 a eq_refl). }
  pose proof (still_plain rs ms1 Hrs) as Hrs'. pose proof (still_alone rs ms1 i j b k Ha ltac:(by exists (Ok a))) as Ha'.
  pose proof (still_below rs ms1 i j p Hnb ltac:(by exists (Ok a))) as Hnb'.
  set (R := relies e (still rs ms1) j) in *.
  assert (HRr : R s1 s1) by apply others_refl.
  assert (Habs : forall t, R s1 t -> fs_nodes t !! p = None).
  { intros t Ht. by eapply (relies_absent e (still rs ms1) j b k p Hrs' Hb Hl Ha' Hnb'). }
  assert (Hrg : rg e False R (fun t => R s1 t) (fun a _ => a = answer e r s1) (storage e r) s1).
  { apply (rg_looks e R (fun q => q = p \/ q = [metadata_name b k]) s1) with (hs := fun _ => False); try done.
    - intros t1 t2 t3. apply others_trans.
    - intros t Ht q Hq. destruct (relies_sees e _ j b k p Hrs' Hb Hl Ha' s1 t Ht) as (H1 & H2 & H3 & H4).
      destruct Hq as [->| ->]; [|done]. split; [|done]. by rewrite Hn1, Habs.
    - destruct Hr as [->| ->]; [eapply looks_get; [done|by left|by right]|eapply looks_head; [done|by left|by right]]. }
  destruct (among_later e s rs Hwf s1 ms1 Hst False (fun a t => R s1 t /\ a = answer e r s1) j _ s2 ms2 ans Hj1)
    as [HR ->]; [|by right; exists sched|done|].
  { eapply rg_impl; [exact Hrg|done|]. done. }
  split; [|by apply Habs]. unfold answer. destruct Hr as [->| ->]; cbn [storage].
  - by rewrite (run_get_absent e b k None p s1) by auto.
  - by rewrite (run_head_absent e b k p s1) by auto.
Qed.
Print Assumptions C66_gone_after_delete.

(** Example: an upload, a download that arrives while another upload is going on, a deletion. *)
Definition ex_traffic : list s_req :=
  [RPutObject (B "photos") (B "dog") None None None (Some [FData (B "woof")]);
   RPutObject (B "photos") (B "y") None None (Some [(B "a", B "1")]) (Some [FData (B "new"); FData (B "er")]);
   RGetObject (B "photos") (B "y") None; RDeleteObject (B "photos") (B "x"); RHeadObject (B "photos") (B "x")].
Definition ex_before : list nat := [0; 1; 1; 1; 0; 1; 1; 1; 1; 1; 3; 1; 1; 1; 1].
Definition ex_after : list nat := [0; 2; 2; 0; 4; 2; 0; 2; 2; 4; 2; 2; 2; 4; 2; 2; 2; 2; 2; 2; 2; 2; 2; 2; 2; 2; 2; 2; 2].
Lemma run_sched_unmoved e {A} sched j : j ∉ sched -> forall s (ms : list (prog A)), (run_sched e sched s ms).2 !! j = ms !! j.
Proof.
  induction sched as [|i sched IH]; intros Hj s ms; [done|]. apply not_elem_of_cons in Hj as [Hne Hj]. cbn [run_sched].
  destruct (ms !! i) as [[a|R c k]|]; [by apply IH| |by apply IH]. destruct (exec e c s) as [s' r].
  rewrite IH by done. by rewrite list_lookup_insert_ne.
Qed.
Definition ex_moment := run_sched ex_env ex_before ex_two (storage ex_env <$> ex_traffic).
Definition ex_end := run_sched ex_env ex_after ex_moment.1 ex_moment.2.
Example ex_read_after_write :
  ex_moment.2 !! 1 = Some (Ret (Ok (APut (Some (quoted_md5 (B "newer")))))) /\ ex_moment.2 !! 3 = Some (Ret (Ok ADone)) /\
  ex_moment.2 !! 2 = Some (storage ex_env (RGetObject (B "photos") (B "y") None)) /\
  ex_moment.2 !! 4 = Some (storage ex_env (RHeadObject (B "photos") (B "x"))) /\
  ex_end.2 !! 2 = Some (Ret (Ok (AGet (HFile 2) 0 5 5 (Some [(B "a", B "1")]) (quoted_md5 (B "newer"))))) /\
  carried (get_body ex_end.1 (HFile 2) 0 5 (repeat (RdSome 3) 9)) = B "newer" /\
  ex_end.2 !! 4 = Some (Ret (Err NoSuchKey)).
Proof.
  split; [by vm_compute|]. split; [by vm_compute|].
  split; [unfold ex_moment; by rewrite run_sched_unmoved by compute_done|].
  split; [unfold ex_moment; by rewrite run_sched_unmoved by compute_done|].
  split; [by vm_compute|]. split; by vm_compute.
Qed.
Example ex_traffic_ok : Forall plain_req ex_traffic /\ alone ex_traffic 1 (B "photos") (B "y") /\
  alone ex_traffic 3 (B "photos") (B "x") /\ no_key_below ex_traffic 3 [B "photos"; B "x"].
Proof.
  assert (Hp : legal_bucket (B "photos")) by (apply check_bucket_name_spec; by vm_compute).
  assert (Ho : ordinary (B "dog") /\ ordinary (B "x") /\ ordinary (B "y")).
  { split_and!; [exists [B "dog"]|exists [B "x"]|exists [B "y"]]; split_and!; try done; compute_done. }
  destruct Ho as (Hd & Hx & Hy). split; [|split; [|split]].
  - repeat (apply Forall_cons; split); [..|apply Forall_nil_2]; try (by split).
    split; [done|]. split; [done|]. intros m [= <-]. split; compute_done.
  - intros [|[|[|[|[|j]]]]] r Hj [= <-]; [by intros [_ [=]]|done|by intros []|by intros [_ [=]]|by intros []].
  - intros [|[|[|[|[|j]]]]] r Hj [= <-]; [by intros [_ [=]]|by intros [_ [=]]|by intros []|done|by intros []].
  - intros j b k sc cl md body q Hj Hr Hl [x ->]. assert (Hk : b = B "photos" /\ (k = B "dog" \/ k = B "y")).
    { destruct j as [|[|[|[|[|j]]]]]; try discriminate Hr; injection Hr as <- <- _ _ _ _; auto. }
    destruct Hk as [-> Hk].
    assert (Hq : forall c, segment_ok c -> c <> B "x" -> ~ located (B "photos") c ([B "photos"; B "x"] ++ x)).
    { intros c Hc Hne Hl'. assert (E : [B "photos"; B "x"] ++ x = [B "photos"; c]).
      { eapply located_fun; [exact Hl'|]. exists [c]. split_and!; [done|by apply Forall_singleton|done|done]. }
      apply Hne. clear -E. cbn [app] in E. injection E as E _. done. }
    destruct Hk as [-> | ->]; eapply Hq; [| |exact Hl| | |exact Hl]; try done; compute_done.
Qed.
