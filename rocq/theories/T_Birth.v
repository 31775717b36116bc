(** C103: the creation dates of buckets. *)
From Verif Require Import M_Base M_Path M_Headers M_Fs M_Utf8 M_Time M_Storage M_Clock M_Errors M_Auth M_Ops M_Service M_Dates M_Birth
  S_Path S_Storage S_Store S_Time S_Service S_Dispatch S_Calls S_Http S_Dates S_Names S_Birth L_Base L_Fs L_Scope L_Storage L_Names L_Results L_Tidy L_MapOps
  T_Store T_Buckets T_Auth T_Calls T_Http T_Time T_Clock T_Dates T_Names.

Local Opaque md5 etag_of json_decode json_encode metadata_name part_name.

(** ** Directories keep their times *)

Lemma mkdir_old e p s s' r : exec e (CMkdir p) s = (s', r) -> is_Some (fs_nodes s !! p) -> r <> MkOk.
Proof.
  intros E [x Hx]. cbn [exec] in E. rewrite Hx in E. destruct (negb (e_os_ok e p)); by injection E as <- <-.
Qed.

Lemma born_old e ck {R} (c : syscall R) n s s' r p bs :
  exec e c s = (s', r) -> is_Some (fs_nodes s !! p) -> born ck c r n bs !! p = bs !! p.
Proof.
  intros E Hp. destruct c; cbn [born]; try done.
  destruct r; try done. destruct (decide (p0 = p)) as [-> |]; [|by rewrite lookup_insert_ne].
  by destruct (mkdir_old _ _ _ _ _ E Hp).
Qed.

Lemma brun_kept e ck {A} (m : prog A) F D X p : ~ X p -> forall own w bs,
  wf (w_fs w) -> owns F own (w_fs w) -> scoped F D X own m -> fs_nodes (w_fs w) !! p = Some NDir ->
  brun e ck m w bs !! p = bs !! p.
Proof.
  intros HX. induction m as [a|R c k IH]; intros own w bs Hwf Ho Hs Hp; [done|].
  cbn [brun]. unfold texec. pose proof (scoped_exec e c k F D X own (w_fs w) Hwf Ho Hs) as He.
  destruct (exec e c (w_fs w)) as [s' r] eqn:E. destruct He as (Hu & own' & _ & Ho' & Hs').
  rewrite (IH r own'); cbn [w_fs]; try done.
  - eapply born_old; [exact E|by eexists].
  - by eapply wf_exec'.
  - by apply (un_dir _ _ _ _ _ Hu).
Qed.

Lemma plain_rmdirs e r b : plain_req r -> r <> RDeleteBucket b -> ~ r_rmdirs e r [b].
Proof.
  intros Hr Hn HX. destruct r; cbn [plain_req r_rmdirs] in *; try done.
  - destruct HX as (q & Hq & Hpre). rewrite bucket_path in Hq by by apply legal_bucket_segment. injection Hq as <-.
    apply prefix_cons_inv_1 in Hpre. by subst.
  - destruct Hr as [Hb Hk]. rewrite object_path in HX by done. destruct HX as (segs & Hne & _ & _ & [= _ <-]). done.
Qed.

(** C103, part 1: a request with ordinary names that does not delete the bucket leaves the bucket and
    its time of creation alone. *)
Theorem C103_kept e ck r w bs b : wf (w_fs w) -> fs_nodes (w_fs w) !! [b] = Some NDir -> plain_req r -> r <> RDeleteBucket b ->
  fs_nodes (w_fs (timed e ck r w).1) !! [b] = Some NDir /\
  brun e ck (storage e r) (World (w_fs w) (w_mtime w) (w_calls w) []) bs !! [b] = bs !! [b].
Proof.
  intros Hwf Hb Hr Hn. pose proof (plain_rmdirs e r b Hr Hn) as HX. split.
  - rewrite (proj1 (timed_run e ck r w)). by apply (un_dir _ _ _ _ _ (storage_untouched e r (w_fs w) Hwf)).
  - eapply brun_kept; [exact HX|done| |apply scoped_storage|done]. by split.
Qed.
Print Assumptions C103_kept.

(** C103, part 2: a bucket that was created dates from a moment of the request that created it. *)
Theorem C103_created e ck w bs b a : legal_bucket b -> (timed e ck (RCreateBucket b) w).2 = Ok a ->
  fs_nodes (w_fs (timed e ck (RCreateBucket b) w).1) !! [b] = Some NDir /\
  exists t, brun e ck (storage e (RCreateBucket b)) (World (w_fs w) (w_mtime w) (w_calls w) []) bs !! [b] = Some t /\
    between ck w (timed e ck (RCreateBucket b) w).1 t.
Proof.
  intros Hb. unfold timed. cbn [storage]. unfold create_bucket. rewrite bucket_path by by apply legal_bucket_segment.
  cbn [try_path bind call trun brun texec exec w_fs w_mtime w_calls w_seen].
  destruct (e_os_ok e [b] && _); cbn [bind call trun brun texec exec w_fs w_mtime w_calls w_seen fst snd]; [done|].
  unfold texec. cbn [w_fs w_mtime w_calls w_seen].
  destruct (exec e (CMkdir [b]) (w_fs w)) as [s' r] eqn:E. destruct r; cbn [bind trun brun fst snd w_fs]; try done.
  intros _. cbn [exec] in E. destruct (negb (e_os_ok e [b])); [done|]. destruct (fs_nodes (w_fs w) !! [b]); [done|].
  destruct (has_parent (w_fs w) [b]); [|by destruct (parent [b]) as [[q ?]|]; [destruct (fs_nodes (w_fs w) !! q)|]]. injection E as <-.
  split; [by cbn; rewrite lookup_insert|]. cbn [born]. rewrite lookup_insert. eexists. split; [done|].
  eexists. split; [|done]. cbn [w_calls]. lia.
Qed.
Print Assumptions C103_created.

(** ** Replies *)

(** C103, part 3: creation dates change nothing but the listing of the buckets. *)
Theorem C103_rest e ck off keeps sv rq w bs :
  (born_service e ck off keeps sv rq (w, bs)).1.1 = (dated_service e ck off sv rq w).1 /\
  ((forall c r, front sv rq <> FrCall OpListBuckets c r) ->
   (born_service e ck off keeps sv rq (w, bs)).2 = (dated_service e ck off sv rq w).2).
Proof.
  unfold born_service, dated_service. destruct (front sv rq) as [code| |op c r]; [done|done|].
  destruct (timed e ck r w) as [w' a]. cbn [fst snd]. split; [done|]. intros Hn. destruct op; try done. by destruct (Hn c r).
Qed.
Print Assumptions C103_rest.

Lemma bucket_xml_names off bs n m zs b : bucket_xml off bs n = XStack m zs -> XText (B "Name") b ∈ zs -> n = b.
Proof.
  unfold bucket_xml. remember (stamp_text off (default 0%Z (bs !! [n]))) as x eqn:Ex. clear Ex. intros H Hb.
  assert (zs = [XText (B "CreationDate") x; XText (B "Name") n]) as -> by congruence.
  apply elem_of_cons in Hb as [H'|Hb%elem_of_list_singleton]; [|congruence].
  assert (B "Name" = B "CreationDate") by congruence. done.
Qed.

(** C103, part 4: where the file system keeps the times, the reply lists the buckets, each once with its
    time of creation, and nothing else. *)
Theorem C103_listed e ck off sv rq w bs c :
  wf (w_fs w) -> tidy e (w_fs w) -> fs_nodes (w_fs w) !! [] = Some NDir -> front sv rq = FrCall OpListBuckets c RListBuckets ->
  exists resp names xs, (born_service e ck off true sv rq (w, bs)).2 = Replied resp /\ rs_status resp = 200%N /\
    rs_body resp = RbXml (XStack (B "ListAllMyBucketsResult") [XStack (B "Buckets") xs]) /\
    NoDup names /\ (forall b, b ∈ names <-> legal_bucket b /\ fs_nodes (w_fs w) !! [b] = Some NDir) /\
    Forall2 (fun b x => exists d, x = XStack (B "Bucket") [XText (B "CreationDate") d; XText (B "Name") b] /\
      forall t, bs !! [b] = Some t -> showable off t -> rfc3339 d (seconds t)) names xs.
Proof.
  intros Hwf Ht Hr Hf. destruct (C37_list_buckets e (w_fs w) Hwf Ht Hr) as (l & Ha & Hnd & Hl).
  unfold born_service. rewrite Hf. pose proof (proj2 (timed_run e ck RListBuckets w)) as Hw. rewrite Ha in Hw.
  destruct (timed e ck RListBuckets w) as [w' a]. cbn [snd] in Hw. subst a. cbn [fst snd buckets_response orb reply_of].
  eexists _, l, (map (bucket_xml off bs) l). split_and!; try done.
  clear. induction l as [|b l IH]; [constructor|]. constructor; [|done].
  exists (stamp_text off (default 0%Z (bs !! [b]))). split; [done|]. intros t -> Hs. by apply stamp_denotes.
Qed.
Print Assumptions C103_listed.

Lemma listed_says off bs l b t : NoDup l -> b ∈ l -> bs !! [b] = Some t ->
  says_created (xml_response 200 (XStack (B "ListAllMyBucketsResult") [XStack (B "Buckets") (map (bucket_xml off bs) l)])) b (stamp_text off t).
Proof.
  intros Hnd Hb Ht. apply elem_of_list_split in Hb as (l1 & l2 & ->).
  exists (map (bucket_xml off bs) l1), (map (bucket_xml off bs) l2). split.
  - rewrite map_app. cbn [map]. unfold bucket_xml at 2. by rewrite Ht.
  - intros n zs Hn Hin. rewrite <- map_app in Hn. apply elem_of_list_fmap in Hn as (b' & Hb' & Hl).
    symmetry in Hb'. apply (bucket_xml_names _ _ _ _ _ _ Hb') in Hin as ->.
    apply NoDup_app in Hnd as (_ & Hd & [Hn _]%NoDup_cons). apply elem_of_app in Hl as [Hl|Hl]; [|done].
    apply (Hd b Hl). by left.
Qed.

Lemma born_kept e ck off keeps b xs : Forall (spares b) xs -> forall w bs,
  wf (w_fs w) -> fs_nodes (w_fs w) !! [b] = Some NDir ->
  let x := born_requests e ck off keeps xs (w, bs) in
  wf (w_fs x.1) /\ fs_nodes (w_fs x.1) !! [b] = Some NDir /\ x.2 !! [b] = bs !! [b].
Proof.
  induction 1 as [|[sv rq] xs Hx Hxs IH]; intros w bs Hwf Hb; [done|]. cbn [born_requests fst snd].
  unfold born_service at 1 2 3. unfold spares in Hx. cbn [fst snd] in Hx.
  destruct (front sv rq) as [code| |op c r] eqn:Hf; [by apply IH|by apply IH|].
  destruct (Hx op c r eq_refl) as [Hr Hn]. destruct (C103_kept e ck r w bs b Hwf Hb Hr Hn) as [Hd Hk].
  pose proof (proj1 (timed_run e ck r w)) as Hw. destruct (timed e ck r w) as [w' a]. cbn [fst snd] in *.
  destruct (IH w' (brun e ck (storage e r) (World (w_fs w) (w_mtime w) (w_calls w) []) bs)) as (H1 & H2 & H3); [rewrite Hw; by apply wf_after|done|].
  split_and!; [done|done|by rewrite H3].
Qed.

Lemma born_tidy e ck off keeps xs : Forall (fun y => reads_text y.1) xs -> forall w bs,
  tidy e (w_fs w) -> tidy e (w_fs (born_requests e ck off keeps xs (w, bs)).1).
Proof.
  induction 1 as [|[sv rq] xs Hx Hxs IH]; intros w bs Ht; [done|]. cbn [born_requests fst snd].
  unfold born_service at 1. cbn [fst] in Hx. destruct (front sv rq) as [code| |op c r] eqn:Hf; [by apply IH|by apply IH|].
  pose proof (proj1 (timed_run e ck r w)) as Hw. destruct (timed e ck r w) as [w' a]. cbn [fst snd] in *.
  apply IH. rewrite Hw. apply tidy_after; [done|]. by eapply C104_requests.
Qed.

(** C103, part 5: after a bucket was created and any requests with ordinary names that do not delete it,
    the listing of the buckets shows it once, with a second in which its creation was being handled. *)
Theorem C103_shown e ck off sv rq w bs b op c resp xs sv' rq' c' :
  wf (w_fs w) -> tidy e (w_fs w) -> Forall (fun y => reads_text y.1) xs ->
  (forall n, showable off (ck_now ck n)) -> legal_bucket b ->
  front sv rq = FrCall op c (RCreateBucket b) ->
  (born_service e ck off true sv rq (w, bs)).2 = Replied resp -> success resp ->
  Forall (spares b) xs -> front sv' rq' = FrCall OpListBuckets c' RListBuckets ->
  let x1 := (born_service e ck off true sv rq (w, bs)).1 in
  let x2 := born_requests e ck off true xs x1 in
  exists resp' d t, (born_service e ck off true sv' rq' x2).2 = Replied resp' /\ rs_status resp' = 200%N /\
    says_created resp' b d /\ rfc3339 d (seconds t) /\ between ck w x1.1 t.
Proof.
  intros Hwf Ht0 Hxt Hck Hb Hf Hx Hs Hxs Hf' x1 x2.
  assert (Herr : forall x, ~ success (error_response x)).
  { intros x [_ H]. by destruct (H [XText (B "Code") (code_str x)]). }
  assert (exists a, (timed e ck (RCreateBucket b) w).2 = Ok a) as [a Ha].
  { unfold born_service in Hx. rewrite Hf in Hx. destruct (timed e ck (RCreateBucket b) w) as [w' [a|x]]; [by eexists|].
    exfalso. cbn [snd dated_respond reply_of] in Hx. destruct op; injection Hx as <-; by destruct (Herr x). }
  destruct (C103_created e ck w bs b a Hb Ha) as (Hd & t & Hbt & Hbetween).
  assert (Hx1 : x1 = ((timed e ck (RCreateBucket b) w).1, brun e ck (storage e (RCreateBucket b)) (World (w_fs w) (w_mtime w) (w_calls w) []) bs)).
  { unfold x1, born_service. rewrite Hf. by destruct (timed e ck (RCreateBucket b) w). }
  assert (Hwf1 : wf (w_fs (timed e ck (RCreateBucket b) w).1)) by (rewrite (proj1 (timed_run e ck _ w)); by apply wf_after).
  pose proof (born_kept e ck off true b xs Hxs _ (brun e ck (storage e (RCreateBucket b)) (World (w_fs w) (w_mtime w) (w_calls w) []) bs) Hwf1 Hd) as Hk.
  cbv zeta in Hk. rewrite <- Hx1 in Hk. fold x2 in Hk. destruct Hk as (Hwf2 & Hd2 & Hk). rewrite Hbt in Hk.
  assert (Ht : tidy e (w_fs x2.1)).
  { unfold x2. rewrite Hx1. apply born_tidy; [done|]. rewrite (proj1 (timed_run e ck _ w)). apply tidy_after; [done|]. by apply text_bucket. }
  assert (Hr : fs_nodes (w_fs x2.1) !! [] = Some NDir) by (apply (wf_parent _ Hwf2 [] b); by eexists).
  destruct (C37_list_buckets e (w_fs x2.1) Hwf2 Ht Hr) as (l & Hal & Hnd & Hl).
  clearbody x2. destruct x2 as [w2 bs2]. cbn [fst snd] in *.
  unfold born_service. rewrite Hf'. pose proof (proj2 (timed_run e ck RListBuckets w2)) as Hw. rewrite Hal in Hw.
  destruct (timed e ck RListBuckets w2) as [w3 a3]. cbn [snd] in Hw. subst a3. cbn [fst snd buckets_response orb reply_of].
  eexists _, (stamp_text off t), t. split_and!; [done|done| | |by rewrite Hx1].
  - apply listed_says; [done| |done]. by apply Hl.
  - apply stamp_denotes. destruct Hbetween as (n & _ & ->). apply Hck.
Qed.
Print Assumptions C103_shown.

(** ** File systems that keep no times of creation *)

Definition ex_list : http_request := HttpRequest (B "GET") (B "/") None [] [].
Definition ex_births (keeps : bool) (xs : list http_request) : world * gmap path Z :=
  born_requests ex_env ex_clock 3600 keeps (map (fun rq => (ex_open_server, rq)) xs) (ex_world, ∅).

(** C103, part 6: without them, one bucket is enough for the listing of all buckets to fail. *)
Theorem C103_unsupported_refuted : exists e ck off sv rq x b l,
  wf (w_fs x.1) /\ answer e RListBuckets (w_fs x.1) = Ok (ABuckets l) /\ b ∈ l /\
  (exists c, front sv rq = FrCall OpListBuckets c RListBuckets) /\
  (born_service e ck off false sv rq x).2 = Replied (error_response InternalError).
Proof.
  exists ex_env, ex_clock, 3600%Z, ex_open_server, ex_list, (ex_births false [ex_make]), (B "bkt"), [B "bkt"]. split_and!.
  - assert (H : wf (w_fs ex_world)) by apply wf_empty.
    change (w_fs (ex_births false [ex_make]).1) with (after ex_env (RCreateBucket (B "bkt")) (w_fs ex_world)). by apply wf_after.
  - vm_compute. reflexivity.
  - by left.
  - eexists. vm_compute. reflexivity.
  - vm_compute. reflexivity.
Qed.
Print Assumptions C103_unsupported_refuted.

(* Two buckets, an upload into the first, and the listing, one hour east of Greenwich. *)
Example C103_ex :
  (born_service ex_env ex_clock 3600 true ex_open_server ex_list
     (ex_births true [ex_make; ex_put_object (B "/bkt/a") [] (B "hello"); HttpRequest (B "PUT") (B "/second") None [] []])).2 =
  Replied (xml_response 200 (XStack (B "ListAllMyBucketsResult") [XStack (B "Buckets")
    [XStack (B "Bucket") [XText (B "CreationDate") (B "2021-01-01T01:00:00.000001+01:00"); XText (B "Name") (B "bkt")];
     XStack (B "Bucket") [XText (B "CreationDate") (B "2021-01-01T01:00:00.000008+01:00"); XText (B "Name") (B "second")]]])).
Proof. vm_compute. reflexivity. Qed.
(* Deleted and created again, a bucket shows the later time. *)
Example C103_ex_again :
  (born_service ex_env ex_clock 3600 true ex_open_server ex_list
     (ex_births true [ex_make; HttpRequest (B "DELETE") (B "/bkt") None [] []; ex_make])).2 <>
  (born_service ex_env ex_clock 3600 true ex_open_server ex_list (ex_births true [ex_make])).2.
Proof. vm_compute. discriminate. Qed.
