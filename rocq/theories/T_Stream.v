(** C48, C66: downloads whose bytes are sent while other requests go on. *)
From Verif Require Import M_Base M_Path M_Headers M_Chunked M_BytesStream M_Crypto M_Fs M_Json M_Utf8 M_Storage M_Download
  S_Path S_Headers S_Chunked S_Storage S_Store
  L_Base L_Path L_Headers L_Fs L_Storage L_Scope L_Names L_Json L_Ops L_Results L_Tidy L_Rely L_Par L_Parts
  T_Store T_Copy T_Crash T_Uploads T_Concurrent T_Parallel T_Later T_Space T_Origin.

Local Opaque md5 etag_of json_decode json_encode metadata_name part_name.

(** ** Sending only reads *)

(* What [deliver] does with the answer of the storage. *)
Definition sending (a : sres s_ans) : prog (sres s_ans * list frame) :=
  match a with
  | Ok (AGet h off lim _ _ _) => bind (stream_file (S (N.to_nat lim)) h (N.to_nat off) (N.to_nat lim)) (fun fs => Ret (a, fs))
  | _ => Ret (a, [])
  end.
Lemma deliver_sending e r : deliver e r = bind (storage e r) sending.
Proof. done. Qed.

(* A program that only reads open files and answers [a]. *)
Fixpoint reading {A} (S : A -> Prop) (m : prog A) : Prop :=
  match m with
  | Ret x => S x
  | Do c k => match c in syscall R return (R -> prog A) -> Prop with CRead _ _ => fun k => forall r, reading S (k r) | _ => fun _ => False end k
  end.
Lemma reading_bind {A C} (S : A -> Prop) (T : C -> Prop) (m : prog A) (f : A -> prog C) : reading S m -> (forall a, S a -> reading T (f a)) -> reading T (bind m f).
Proof. intros Hm Hf. induction m as [a|R c k IH]; [by apply Hf|]. destruct c; cbn in *; try done. intros r. by apply IH. Qed.
Lemma reading_stream fuel : forall h off lim, reading (fun _ => True) (stream_file fuel h off lim).
Proof.
  induction fuel as [|fuel IH]; intros h off lim; cbn [stream_file]; [done|]. cbn [call bind reading]. intros [b|]; [|done].
  cbv zeta. destruct (length b `min` (lim `min` 4096)); [done|]. eapply reading_bind; [apply IH|]. done.
Qed.
Lemma reading_sending a : reading (fun x => x.1 = a) (sending a).
Proof.
  destruct a as [[| | |h off lim len md tag| | | | | | |]|]; try done. cbn [sending].
  eapply reading_bind; [apply reading_stream|]. done.
Qed.

Section sends.
Context {A : Type} (send : A -> prog (A * list frame)) (Hsend : forall a, reading (fun x => x.1 = a) (send a)).

(* [m] is [m0] with the sending of the answer. *)
Definition sends (m : prog (A * list frame)) (m0 : prog A) : Prop :=
  m = bind m0 send \/ exists a, m0 = Ret a /\ reading (fun x => x.1 = a) m.
Lemma sends_ret a fs m0 : sends (Ret (a, fs)) m0 -> m0 = Ret a.
Proof.
  intros [H|(a' & -> & H)]; [|cbn in H; by subst]. destruct m0 as [a'|R c k]; [|done]. cbn in H.
  pose proof (Hsend a') as Hr. rewrite <- H in Hr. cbn in Hr. by subst.
Qed.
Lemma sends_step e s m s1 m1 m0 : sends m m0 -> step e s m s1 m1 -> exists m01, sends m1 m01 /\ (step e s m0 s1 m01 \/ s1 = s /\ m01 = m0).
Proof.
  assert (Hread : forall a, reading (fun x => x.1 = a) m -> step e s m s1 m1 -> s1 = s /\ reading (fun x => x.1 = a) m1).
  { intros a Hr Hst. destruct m as [x|R c k]; [done|]. destruct c; try done. cbn in Hr. destruct Hst as [Hst|Hst].
    - destruct h; cbn [exec] in Hst; injection Hst as -> ->; by split.
    - injection Hst as -> ->. by split. }
  intros [->|(a & -> & Hr)] Hst.
  - destruct m0 as [a|R c k].
    + cbn [bind] in *. destruct (Hread a (Hsend a) Hst) as [-> Hr]. exists (Ret a). split; [right; by exists a|by right].
    + cbn [bind] in Hst. destruct Hst as [Hst|Hst].
      * destruct (exec e c s) as [s2 r] eqn:E. injection Hst as -> ->. exists (k r). split; [by left|]. left. left. by rewrite E.
      * injection Hst as -> ->. exists (k (fail_of c)). split; [by left|]. left. by right.
  - destruct (Hread a Hr Hst) as [-> Hr1]. exists (Ret a). split; [right; by exists a|by right].
Qed.
(* Without the sending, the same happens to the store. *)
Lemma sends_psteps e s ms s' ms' : psteps e s ms s' ms' -> forall ms0, Forall2 sends ms ms0 -> exists ms0', psteps e s ms0 s' ms0' /\ Forall2 sends ms' ms0'.
Proof.
  induction 1 as [s ms|s ms i m s1 m1 s2 ms2 Hi Hst Hps IH]; intros ms0 Hf; [exists ms0; split; [constructor|done]|].
  destruct (Forall2_lookup_l _ _ _ _ _ Hf Hi) as (m0 & Hm0 & Hm). destruct (sends_step e s m s1 m1 m0 Hm Hst) as (m01 & Hs1 & Hcase).
  destruct (IH (<[i := m01]> ms0)) as (ms0' & Hps0 & Hf'); [by apply Forall2_insert|]. exists ms0'. split; [|done].
  destruct Hcase as [Hst0|[-> ->]]; [by econstructor|]. by rewrite list_insert_id in Hps0.
Qed.
End sends.
Lemma sends_start e rs : Forall2 (sends sending) (deliver e <$> rs) (storage e <$> rs).
Proof. apply Forall2_fmap, Forall_Forall2_diag, Forall_forall. intros r _. by left. Qed.

(** ** What a download sees *)

(* All answers are in [S]. *)
Fixpoint returns {A} (S : A -> Prop) (m : prog A) : Prop :=
  match m with
  | Ret a => S a
  | Do c k => forall r, returns S (k r)
  end.
Lemma returns_bind {A C} (S : C -> Prop) (m : prog A) (f : A -> prog C) : (forall a, returns S (f a)) -> returns S (bind m f).
Proof. intros Hf. induction m as [a|R c k IH]; [apply Hf|]. cbn. intros r. apply IH. Qed.
Lemma looks_bind_returns {A C} P (S : A -> Prop) (f : A -> prog C) (m : prog A) : forall hs : handle -> Prop, looks P hs m -> returns S m ->
  (forall a (hs' : handle -> Prop), S a -> (forall h, hs h -> hs' h) -> looks P hs' (f a)) -> looks P hs (bind m f).
Proof.
  induction m as [a|R c k IH]; intros hs Hm Hr Hf; cbn [bind].
  - by apply Hf.
  - destruct c; cbn in *; try done; (split; [apply Hm|]; intros r; apply IH; [apply Hm|apply Hr|]; intros a hs' Ha Hsub; apply Hf; [done|]; auto).
Qed.
Lemma looks_stream P fuel h : forall (hs : handle -> Prop) off lim, hs h -> looks P hs (stream_file fuel h off lim).
Proof.
  induction fuel as [|fuel IH]; intros hs off lim Hh; cbn [stream_file]; [done|]. cbn [call bind looks]. split; [done|]. intros [b|]; [|done].
  cbv zeta. destruct (length b `min` (lim `min` 4096)); [done|]. apply looks_bind; [by apply IH|done].
Qed.
Lemma looks_deliver e b k range p (P : path -> Prop) hs : get_object_path e b k = Some p -> P p -> P [metadata_name b k] ->
  looks P hs (deliver e (RGetObject b k range)).
Proof.
  intros Hp HP HPm. pose proof (looks_get e b k range p P hs Hp HP HPm) as Hl. rewrite deliver_sending. cbn [storage] in *.
  unfold get_object in *. rewrite Hp in *. cbn [try_path] in *.
  destruct (match range with Some str => match range_from_header_str str with Some r => Some (Some r) | None => None end | None => Some None end) as [r|] eqn:Er.
  2:{ destruct range as [str|]; [|done]. by destruct (range_from_header_str str). }
  assert (Hgo : forall m, looks P hs m -> (exists k0, m = Do (COpen p) k0 /\ k0 None = Ret (Err NoSuchKey) /\
    forall h, returns (fun a => forall h' off lim len md tag, a = Ok (AGet h' off lim len md tag) -> h' = h) (k0 (Some h))) -> looks P hs (bind m sending)).
  { intros m Hm (k0 & -> & HN & HS). cbn [bind looks] in *. destruct Hm as [_ Hm]. split; [done|]. intros [h|].
    - eapply looks_bind_returns; [apply Hm|apply HS|]. intros a hs' Ha Hsub. destruct a as [[| | |h' off lim len md tag| | | | | | |]|]; try done. cbn [sending].
      rewrite (Ha h' off lim len md tag eq_refl). apply looks_bind; [|done]. apply looks_stream. apply Hsub. by right.
    - by rewrite HN. }
  assert (Hret : forall h, returns (fun a => forall h' off lim len md tag, a = Ok (AGet h' off lim len md tag) -> h' = h)
      (try_io (call (CLen h)) (fun file_len =>
            try_res (get_extent h r file_len) (fun ol =>
            try_io (load_metadata e b k) (fun md =>
            try_io (get_md5_sum e b k) (fun tag =>
              if (ol.2 <=? i64_max)%N then Ret (Ok (AGet h ol.1 ol.2 ol.2 md tag))
              else Ret (Err InternalError))))))).
  { intros h. unfold try_io, try_res. repeat (apply returns_bind; intros [?|]; [|done]). destruct (_ <=? _)%N; [|done]. intros h' off lim len md tag E. by injection E. }
  destruct range as [str|].
  - destruct (range_from_header_str str) as [r'|]; [|done]. injection Er as <-. apply Hgo; [exact Hl|]. eexists. split; [reflexivity|]. by split.
  - injection Er as <-. apply Hgo; [exact Hl|]. eexists. split; [reflexivity|]. by split.
Qed.
Lemma scoped_stream F D X fuel : forall own h off lim, scoped F D X own (stream_file fuel h off lim).
Proof.
  induction fuel as [|fuel IH]; intros own h off lim; cbn [stream_file]; [done|]. cbn [call bind scoped]. intros [b|]; [|done].
  cbv zeta. destruct (length b `min` (lim `min` 4096)); [done|]. apply scoped_bind; [apply IH|]. done.
Qed.
Lemma scoped_deliver e r : scoped (r_files e r) (r_dirs e r) (r_rmdirs e r) no_own (deliver e r).
Proof.
  rewrite deliver_sending. apply scoped_bind; [apply scoped_storage|]. intros a own _. destruct a as [[| | |h off lim len md tag| | | | | | |]|]; try done.
  cbn [sending]. apply scoped_bind; [apply scoped_stream|]. done.
Qed.
Lemma scoped_delivery e rs i r : rs !! i = Some r ->
  scoped (of_task r_files e rs i) (of_task r_dirs e rs i) (of_task r_rmdirs e rs i) no_own (deliver e r).
Proof. intros Hi. eapply scoped_weaken; [..|apply scoped_deliver]; [| | |done]; intros p Hp; by exists r. Qed.

(** ** A download among other requests *)

(** As C48_read_among_others, with the sending of the bytes: whatever requests for other keys do before, between and after the
    reads, the frames are those of a download without them. *)
Theorem C48_download_among_others e s rs i b k p range sched s' ms' a :
  wf s -> Forall plain_req rs -> legal_bucket b -> located b k p -> is_Some (content s p) ->
  rs !! i = Some (RGetObject b k range) -> alone rs i b k ->
  run_sched e sched s (deliver e <$> rs) = (s', ms') -> ms' !! i = Some (Ret a) ->
  a = (run e (deliver e (RGetObject b k range)) s).2.
Proof.
  intros Hwf Hrs Hb Hl Hc Hi Ha Hrun Hres. remember (RGetObject b k range) as r eqn:Er.
  set (Q := fun j (a : sres s_ans * list frame) (t : fs) => j = i -> a = (run e (deliver e r) s).2).
  assert (Hinv : par_inv e False (of_task r_files e rs) (of_task r_dirs e rs) (of_task r_rmdirs e rs)
    (fun _ _ => True) Q s' ms').
  { pose proof (par_run_sched e False (of_task r_files e rs) (of_task r_dirs e rs) (of_task r_rmdirs e rs)
      (fun _ _ => True) Q sched s (deliver e <$> rs)) as H. rewrite Hrun in H. apply H.
    apply par_init; [done|]. intros j m Hm. rewrite list_lookup_fmap in Hm.
    destruct (rs !! j) as [r'|] eqn:Hr'; [|done]. injection Hm as <-. split; [by apply scoped_delivery|].
    destruct (decide (j = i)) as [->|Hne].
    - rewrite Hi in Hr'. injection Hr' as <-.
      eapply rg_impl; [eapply (rg_looks e (relies e rs i) (fun q => q = p \/ q = [metadata_name b k]) s) with (hs := fun _ => False); try done|done|].
      + intros t1 t2 t3. apply others_trans.
      + intros t Ht q Hq. destruct (relies_sees e rs i b k p Hrs Hb Hl Ha s t Ht) as (H1 & H2 & H3 & H4).
        destruct Hq as [->| ->]; [|done]. split; [|done]. destruct Hc as [d Hd].
        apply content_Some in Hd as (j & Hj & _). rewrite Hj. by apply H2.
      + assert (Hg : get_object_path e b k = Some p) by (apply located_path; [by apply legal_bucket_segment|done]).
        rewrite Er. eapply looks_deliver; [done|by left|by right].
      + cbn beta. intros a' t _ -> _. done.
    - eapply rg_impl; [apply (rg_wf e False (relies e rs j)); [by intros t t' [? _]|done]|done|]. by intros ? ? _ _ ->. }
  exact (par_result _ _ _ _ _ _ _ s' ms' i a Hinv Hres eq_refl).
Qed.
Print Assumptions C48_download_among_others.

(** ** A download after an upload *)

Lemma same_get h off lim len md tag h' off' lim' len' md' tag' :
  (Ok (AGet h off lim len md tag) : sres s_ans) = Ok (AGet h' off' lim' len' md' tag') ->
  h = h' /\ off = off' /\ lim = lim' /\ len = len' /\ md = md' /\ tag = tag'.
Proof. intros H. by injection H. Qed.
Lemma psteps_more e {A} (more : list (prog A)) s ms s' ms' : psteps e s ms s' ms' -> psteps e s (ms ++ more) s' (ms' ++ more).
Proof.
  induction 1 as [s ms|s ms i m s1 m1 s2 ms2 Hi Hst Hps IH]; [constructor|]. econstructor; [by apply lookup_app_l_Some|exact Hst|].
  rewrite insert_app_l by by eapply lookup_lt_Some. exact IH.
Qed.

(* As [Section later], for tasks that send. *)
Section later_deliver.
  Context (e : env) (s : fs) (rs : list s_req) (Hwf : wf s) (s1 : fs) (ms1 : list (prog (sres s_ans * list frame))).
  Context (Hst : psteps e s (deliver e <$> rs) s1 ms1).

  Lemma sending_started : par_inv e True (of_task r_files e rs) (of_task r_dirs e rs) (of_task r_rmdirs e rs)
    (fun _ _ => True) (fun _ (_ : sres s_ans * list frame) _ => True) s1 ms1.
  Proof.
    eapply par_psteps; [done| |exact Hst]. apply par_init; [done|]. intros j m Hm. rewrite list_lookup_fmap in Hm.
    destruct (rs !! j) as [r|] eqn:Hr; [|done]. injection Hm as <-. split; [by apply scoped_delivery|].
    eapply rg_impl; [apply (rg_wf e True (relies e rs j)); [by intros t t' [? _]|done]|done|done].
  Qed.

  Lemma sending_still (faults : Prop) (I : nat -> fs -> Prop) (Q : nat -> sres s_ans * list frame -> fs -> Prop) :
    (forall j m, ms1 !! j = Some m -> rg e faults (relies e (still rs ms1) j) (I j) (Q j) m s1) ->
    par_inv e faults (of_task r_files e (still rs ms1)) (of_task r_dirs e (still rs ms1)) (of_task r_rmdirs e (still rs ms1)) I Q s1 ms1.
  Proof.
    intros Hrg. destruct sending_started as [Hwf1 Hms]. split; [done|]. intros j m Hm. specialize (Hrg j m Hm).
    destruct (Hms j m Hm) as (own & Ho & Hsc & _).
    assert (Hj : exists r, rs !! j = Some r).
    { apply lookup_lt_is_Some. rewrite <- (fmap_length (deliver e) rs), <- (psteps_length _ _ _ _ _ Hst). by eapply lookup_lt_Some. }
    destruct Hj as [r Hr]. destruct m as [a|X c k].
    - exists no_own. split; [by split|]. by split.
    - assert (Hs : still rs ms1 !! j = Some r).
      { apply lookup_zip_with_Some. by exists r, (Do c k). }
      assert (Hof : forall f p, of_task f e rs j p -> of_task f e (still rs ms1) j p).
      { intros f p (r' & Hr' & Hf). exists r'. split; [|done]. congruence. }
      exists own. split; [|split; [|done]].
      + destruct Ho as [H1 H2]. split; [done|]. intros p i Hi Hp. apply Hof. by eapply H2.
      + eapply scoped_weaken; [..|exact Hsc]; auto.
  Qed.

  Lemma sending_later (P : sres s_ans * list frame -> fs -> Prop) j m sched s2 ms2 a : ms1 !! j = Some m ->
    rg e False (relies e (still rs ms1) j) (fun _ => True) P m s1 ->
    run_sched e sched s1 ms1 = (s2, ms2) -> ms2 !! j = Some (Ret a) -> P a s2.
  Proof.
    intros Hj Hrg Hrun Hres. set (Q := fun l (r : sres s_ans * list frame) (t : fs) => l = j -> P r t).
    assert (H0 : par_inv e False (of_task r_files e (still rs ms1)) (of_task r_dirs e (still rs ms1)) (of_task r_rmdirs e (still rs ms1))
      (fun _ _ => True) Q s1 ms1).
    { apply sending_still. intros l m' Hm. destruct (decide (l = j)) as [->|Hne].
      - rewrite Hj in Hm. injection Hm as <-. eapply rg_impl; [exact Hrg|done|]. by intros a' t _ HP _.
      - eapply rg_impl; [apply (rg_wf e False (relies e (still rs ms1) l)); [by intros t t' [? _]|apply sending_started]|done|]. by intros ? ? _ _ ->. }
    pose proof (par_run_sched e False _ _ _ _ Q sched s1 ms1 H0) as Hinv. rewrite Hrun in Hinv.
    exact (par_result _ _ _ _ _ _ _ s2 ms2 j a Hinv Hres eq_refl).
  Qed.
End later_deliver.

(** As C66_read_after_write, with the sending of the bytes.  At the moment of [s1] the upload has been answered and the download has
    not begun; other requests (also other downloads) are at any point.  Then, whatever the requests that are still going on do
    between the reads of the download, what is sent is what was uploaded. *)
Theorem C66_download_after_write e s rs i j b k p sc cl md body s1 ms1 a fs0 sched s2 ms2 ans fs :
  wf s -> Forall plain_req rs -> legal_bucket b -> located b k p -> e_os_ok e p = true ->
  (is_Some md -> e_os_ok e [metadata_name b k] = true) -> (is_Some md \/ fs_nodes s !! [metadata_name b k] = None) ->
  (N.of_nat (length (carried body)) <= i64_max)%N ->
  rs !! i = Some (RPutObject b k sc cl md (Some body)) -> alone rs i b k ->
  psteps e s (deliver e <$> rs) s1 ms1 -> ms1 !! i = Some (Ret (Ok a, fs0)) ->
  rs !! j = Some (RGetObject b k None) -> ms1 !! j = Some (deliver e (RGetObject b k None)) ->
  run_sched e sched s1 ms1 = (s2, ms2) -> ms2 !! j = Some (Ret (ans, fs)) ->
  carried fs = carried body /\ broken fs = false /\
  exists h off lim, ans = Ok (AGet h off lim (N.of_nat (length (carried body))) md (quoted_md5 (carried body))).
Proof.
  intros Hwf Hrs Hb Hl Hos Hom Hmeta Hlen Hi Ha Hst Hres1 Hj Hj1 Hrun Hres2.
  assert (Hg : get_object_path e b k = Some p) by (apply located_path; [by apply legal_bucket_segment|done]).
  (* the store at [s1] *)
  destruct (sends_psteps sending reading_sending e s _ s1 ms1 Hst _ (sends_start e rs)) as (ms0 & Hst0 & Hf).
  destruct (Forall2_lookup_l _ _ _ _ _ Hf Hres1) as (m0 & Hm0 & Hs0). apply (sends_ret sending reading_sending) in Hs0 as ->.
  destruct (C48_put_among_others e s rs i b k p sc cl md body s1 ms0 a Hwf Hrs Hb Hl Hi Ha Hst0) as (Hc & Hbr & _ & _); [done|].
  pose proof Hc as (n & Hn & Hd)%content_Some.
  assert (Hans : exists h off lim, answer e (RGetObject b k None) s1 = Ok (AGet h off lim (N.of_nat (length (carried body))) md (quoted_md5 (carried body)))).
  { set (g := RGetObject b k None) in *. destruct (run_sched_one e (storage e g) s1 ms0 []) as [sched0 Hs0].
    assert (Hlen0 : length ms0 = length rs) by by rewrite (psteps_length _ _ _ _ _ Hst0), fmap_length.
    destruct (C66_read_after_write e s (rs ++ [g]) i (length rs) b k p sc cl md body s1 (ms0 ++ [storage e g]) a sched0
      (run e (storage e g) s1).1 (ms0 ++ [Ret (run e (storage e g) s1).2]) (run e (storage e g) s1).2) as (h & off & lim & Hans & _); try assumption.
    - apply Forall_app_2; [done|]. constructor; [|done]. rewrite Forall_lookup in Hrs. by apply (Hrs j).
    - by apply lookup_app_l_Some.
    - intros l r Hne Hr. apply lookup_app_Some in Hr as [Hr|[_ Hr]]; [by eapply Ha|]. apply list_lookup_singleton_Some in Hr as [_ <-]. by intros [].
    - rewrite fmap_app. by apply psteps_more.
    - by apply lookup_app_l_Some.
    - rewrite lookup_app_r, Nat.sub_diag by lia. reflexivity.
    - rewrite lookup_app_r, Hlen0, Nat.sub_diag by lia. reflexivity.
    - rewrite lookup_app_r, Hlen0, Nat.sub_diag by lia. reflexivity.
    - exists h, off, lim. exact Hans. }
  (* the download *)
  pose proof (still_plain rs ms1 Hrs) as Hrs'. pose proof (still_alone rs ms1 i j b k Ha ltac:(by eexists)) as Ha'.
  set (R := relies e (still rs ms1) j) in *.
  assert (HRr : R s1 s1) by apply others_refl.
  assert (Hrg : rg e False R (fun t => R s1 t) (fun a _ => a = (run e (deliver e (RGetObject b k None)) s1).2) (deliver e (RGetObject b k None)) s1).
  { apply (rg_looks e R (fun q => q = p \/ q = [metadata_name b k]) s1) with (hs := fun _ => False); try done.
    - intros t1 t2 t3. apply others_trans.
    - intros t Ht q Hq. destruct (relies_sees e _ j b k p Hrs' Hb Hl Ha' s1 t Ht) as (H1 & H2 & H3 & H4).
      destruct Hq as [->| ->]; [|done]. split; [|done]. rewrite Hn. by apply H2.
    - eapply looks_deliver; [done|by left|by right]. }
  pose proof (sending_later e s rs Hwf s1 ms1 Hst (fun a _ => a = (run e (deliver e (RGetObject b k None)) s1).2) j _ sched s2 ms2 (ans, fs) Hj1) as Hsame.
  feed specialize Hsame; [by eapply rg_impl; [exact Hrg|done|]|done|done|].
  (* alone in [s1] *)
  destruct Hans as (h & off & lim & Hans). unfold answer in Hans. cbn [storage] in Hans.
  pose proof (run_get_file e b k None p n s1 Hg Hos Hn) as Hget. rewrite Hget in Hans. cbn [parse_range extent snd] in Hget, Hans.
  destruct (meta_of e s1 b k) as [md'|] eqn:Hmd; [|done]. destruct (file_len s1 n <=? i64_max)%N; [|done].
  apply same_get in Hans as (<- & <- & <- & Hl1 & -> & Ht1).
  destruct (C97_alone e s1 (RGetObject b k None) s1 n 0 (file_len s1 n) _ md _ Hget) as (fs1 & Hrun1 & Hc1 & Hb1).
  rewrite Hrun1 in Hsame. cbn [snd] in Hsame. injection Hsame as -> ->.
  split_and!; [|done|].
  - rewrite Hc1, drop_0, take_ge; [by rewrite Hd|]. unfold file_len. rewrite Hd, Nat2N.id. done.
  - exists (HFile n), 0%N, (file_len s1 n). by rewrite Hl1, Ht1.
Qed.
Print Assumptions C66_download_after_write.

(** Example: the traffic of [ex_read_after_write] with the bytes sent; another upload writes between the reads. *)
Definition ex_sent_moment := run_sched ex_env ex_before ex_two (deliver ex_env <$> ex_traffic).
Definition ex_sent_end := run_sched ex_env (ex_after ++ [0; 2; 0; 2; 0; 2; 0; 2; 2; 2; 2; 2; 2; 2]) ex_sent_moment.1 ex_sent_moment.2.
Example ex_download_after_write :
  ex_sent_moment.2 !! 1 = Some (Ret (Ok (APut (Some (quoted_md5 (B "newer")))), [])) /\
  ex_sent_moment.2 !! 2 = Some (deliver ex_env (RGetObject (B "photos") (B "y") None)) /\
  exists a fs, ex_sent_end.2 !! 2 = Some (Ret (a, fs)) /\ carried fs = B "newer" /\ (1 < length fs)%nat.
Proof.
  split; [by vm_compute|]. split; [unfold ex_sent_moment; by rewrite run_sched_unmoved by compute_done|].
  eexists _, _. split; [vm_compute; reflexivity|]. split; [by vm_compute|]. vm_compute. lia.
Qed.
