(** C67: HTTP requests handled at the same time. *)
From Verif Require Import M_Base M_Path M_Headers M_Chunked M_BytesStream M_Crypto M_Fs M_Json M_Utf8 M_Storage M_Errors M_Auth M_Ops M_Service
  S_Path S_Headers S_Chunked S_Storage S_Store S_Service S_Dispatch S_Calls S_Http L_Base L_Fs L_Storage L_Names L_Results
  T_Store T_Copy T_Crash T_Auth T_Calls T_Http T_Concurrent T_Later.

Local Opaque md5 etag_of json_decode json_encode metadata_name part_name.

(** ** Interleavings of requests are interleavings of storage operations *)

(* [m] is [m0] followed by a computation of the answer, or it is finished. *)
Definition wraps {A B} (f : B + (A -> B)) (m : prog B) (m0 : prog A) : Prop :=
  match f with
  | inr f => m = bind m0 (fun a => Ret (f a))
  | inl b => m = Ret b
  end.
Definition wraps_all {A B} (fs : list (B + (A -> B))) (ms : list (prog B)) (ms0 : list (prog A)) : Prop :=
  length ms = length fs /\ length ms0 = length fs /\
  forall i f m m0, fs !! i = Some f -> ms !! i = Some m -> ms0 !! i = Some m0 -> wraps f m m0.

Lemma wraps_insert {A B} (fs : list (B + (A -> B))) ms ms0 i f m m0 : wraps_all fs ms ms0 ->
  fs !! i = Some f -> wraps f m m0 -> wraps_all fs (<[i := m]> ms) (<[i := m0]> ms0).
Proof.
  intros (H1 & H2 & H3) Hf Hw. split_and!; [by rewrite insert_length|by rewrite insert_length|].
  intros j f' m' m0' Hf' Hm Hm0. destruct (decide (i = j)) as [->|Hne].
  - apply lookup_lt_Some in Hf as Hlt. rewrite list_lookup_insert in Hm by lia. rewrite list_lookup_insert in Hm0 by lia.
    congruence.
  - rewrite list_lookup_insert_ne in Hm by done. rewrite list_lookup_insert_ne in Hm0 by done. by eapply H3.
Qed.

Lemma wraps_task {A B} (fs : list (B + (A -> B))) ms ms0 i m : wraps_all fs ms ms0 -> ms !! i = Some m ->
  exists f m0, fs !! i = Some f /\ ms0 !! i = Some m0 /\ wraps f m m0.
Proof.
  intros (H1 & H2 & H3) Hi. apply lookup_lt_Some in Hi as Hlt.
  destruct (fs !! i) as [f|] eqn:Hf; [|apply lookup_ge_None in Hf; lia].
  destruct (ms0 !! i) as [m0|] eqn:Hm0; [|apply lookup_ge_None in Hm0; lia].
  exists f, m0. split; [done|]. split; [done|]. by eapply H3.
Qed.

Lemma wraps_psteps e {A B} (fs : list (B + (A -> B))) s ms s' ms' : psteps e s ms s' ms' ->
  forall ms0, wraps_all fs ms ms0 -> exists ms0', psteps e s ms0 s' ms0' /\ wraps_all fs ms' ms0'.
Proof.
  induction 1 as [s ms|s ms i m s1 m1 s2 ms2 Hi Hstep Hst IH]; intros ms0 Hw; [exists ms0; by split; [constructor|]|].
  destruct (wraps_task fs ms ms0 i m Hw Hi) as (f & m0 & Hf & Hm0 & Hwm).
  destruct f as [b|f]; cbn in Hwm; subst m; [done|]. destruct m0 as [a|R c k]; [done|].
  cbn [bind step] in Hstep.
  assert (Hstep' : exists m1', m1 = bind m1' (fun a => Ret (f a)) /\ step e s (Do c k) s1 m1').
  { destruct Hstep as [E|E].
    - destruct (exec e c s) as [s3 r] eqn:Ex. injection E as -> ->. exists (k r). split; [done|]. left. by rewrite Ex.
    - injection E as -> ->. exists (k (fail_of c)). split; [done|]. by right. }
  destruct Hstep' as (m1' & -> & Hs1).
  destruct (IH (<[i := m1']> ms0)) as (ms0' & Hst0 & Hw').
  { eapply wraps_insert; [done|exact Hf|done]. }
  exists ms0'. split; [|done]. econstructor; [exact Hm0|exact Hs1|done].
Qed.

Lemma wraps_sched e {A B} (fs : list (B + (A -> B))) sched : forall s ms ms0, wraps_all fs ms ms0 ->
  exists sched0, (run_sched e sched0 s ms0).1 = (run_sched e sched s ms).1 /\
    wraps_all fs (run_sched e sched s ms).2 (run_sched e sched0 s ms0).2.
Proof.
  induction sched as [|i sched IH]; intros s ms ms0 Hw; [by exists []|]. cbn [run_sched].
  destruct (ms !! i) as [m|] eqn:Hi; [|by apply IH].
  destruct (wraps_task fs ms ms0 i m Hw Hi) as (f & m0 & Hf & Hm0 & Hwm).
  destruct f as [b|f]; cbn in Hwm; subst m; [by apply IH|]. destruct m0 as [a|R c k]; [by apply IH|].
  cbn [bind]. destruct (exec e c s) as [s1 r] eqn:Ex.
  destruct (IH s1 (<[i := bind (k r) (fun a => Ret (f a))]> ms) (<[i := k r]> ms0)) as (sched0 & H1 & H2).
  { eapply wraps_insert; [done|exact Hf|done]. }
  exists (i :: sched0). cbn [run_sched]. rewrite Hm0, Ex. done.
Qed.

(* The storage request that an HTTP request stands for (none, if it is refused before), and the
   reply made from its answer. *)
Definition call_of (x : server * http_request) : s_req :=
  match front x.1 x.2 with FrCall _ _ r => r | _ => RListBuckets end.
Definition finish_of (x : server * http_request) : reply + (sres s_ans -> reply) :=
  match front x.1 x.2 with
  | FrErr c => inl (Replied (error_response c))
  | FrPanic => inl Panicked
  | FrCall op c _ => inr (fun a => reply_of (respond op c a))
  end.
(* The requests [xs], all being handled. *)
Definition serve (e : env) (xs : list (server * http_request)) : list (prog reply) :=
  (fun x => service e x.1 x.2) <$> xs.

Lemma serve_wraps e xs : wraps_all (finish_of <$> xs) (serve e xs) (storage e <$> (call_of <$> xs)).
Proof.
  unfold serve. split; [by rewrite !fmap_length|]. split; [by rewrite !fmap_length|]. intros i f m m0.
  rewrite !list_lookup_fmap. destruct (xs !! i) as [[sv rq]|]; [|done]. intros [= <-] [= <-] [= <-].
  unfold wraps, finish_of, call_of, service. cbn [fst snd]. by destruct (front sv rq).
Qed.
Lemma wraps_app {A B} (fs fs' : list (B + (A -> B))) ms ms' ms0 ms0' :
  wraps_all fs ms ms0 -> wraps_all fs' ms' ms0' -> wraps_all (fs ++ fs') (ms ++ ms') (ms0 ++ ms0').
Proof.
  intros (H1 & H2 & H3) (H1' & H2' & H3'). split; [rewrite !app_length; lia|]. split; [rewrite !app_length; lia|].
  intros i f m m0 Hf Hm Hm0. destruct (decide (i < length fs)) as [Hlt|Hge].
  - rewrite lookup_app_l in Hf by lia. rewrite lookup_app_l in Hm by lia. rewrite lookup_app_l in Hm0 by lia. by eapply H3.
  - rewrite lookup_app_r in Hf by lia. rewrite lookup_app_r in Hm by lia. rewrite lookup_app_r in Hm0 by lia. rewrite H1 in Hm. rewrite H2 in Hm0. by eapply H3'.
Qed.
Lemma psteps_more e {A} (ns : list (prog A)) s ms s' ms' : psteps e s ms s' ms' -> psteps e s (ms ++ ns) s' (ms' ++ ns).
Proof.
  induction 1 as [s ms|s ms i m s1 m1 s2 ms2 Hi Hstep Hst IH]; [constructor|].
  econstructor; [by apply lookup_app_l_Some|exact Hstep|].
  rewrite insert_app_l; [done|]. by eapply lookup_lt_Some.
Qed.

(* A reply is made from the answer of its storage request. *)
Lemma serve_result xs ms' ms0' i sv rq op c r rep :
  wraps_all (finish_of <$> xs) ms' ms0' -> xs !! i = Some (sv, rq) -> front sv rq = FrCall op c r ->
  ms' !! i = Some (Ret rep) -> exists a, ms0' !! i = Some (Ret a) /\ rep = reply_of (respond op c a).
Proof.
  intros Hw Hi Hf Hres. destruct (wraps_task _ _ _ _ _ Hw Hres) as (f & m0 & Hf' & Hm0 & Hwm).
  rewrite list_lookup_fmap, Hi in Hf'. injection Hf' as <-. unfold finish_of in Hwm. cbn [fst snd] in Hwm. rewrite Hf in Hwm.
  cbn in Hwm. destruct m0 as [a|]; [|done]. cbn in Hwm. injection Hwm as ->. by exists a.
Qed.
(* A successful reply comes from a successful storage request. *)
Lemma serve_success xs ms' ms0' i sv rq resp :
  wraps_all (finish_of <$> xs) ms' ms0' -> xs !! i = Some (sv, rq) ->
  ms' !! i = Some (Ret (Replied resp)) -> success resp ->
  exists op c r a, front sv rq = FrCall op c r /\ ms0' !! i = Some (Ret (Ok a)) /\ respond op c (Ok a) = Ok resp.
Proof.
  intros Hw Hi Hres [_ Hs]. destruct (wraps_task _ _ _ _ _ Hw Hres) as (f & m0 & Hf' & Hm0 & Hwm).
  rewrite list_lookup_fmap, Hi in Hf'. injection Hf' as <-. unfold finish_of in Hwm. cbn [fst snd] in Hwm.
  destruct (front sv rq) as [code| |op c r]; cbn in Hwm.
  - injection Hwm as ->. by destruct (Hs [XText (B "Code") (code_str code)]).
  - done.
  - destruct m0 as [a|]; [|done]. cbn in Hwm. injection Hwm as Hr. destruct a as [a|code].
    + exists op, c, r, a. split; [done|]. split; [done|]. destruct (respond op c (Ok a)) as [x|code] eqn:E; cbn in Hr; [congruence|].
      injection Hr as ->. by destruct (Hs [XText (B "Code") (code_str code)]).
    + assert (Hr' : respond op c (Err code) = Err code) by done. rewrite Hr' in Hr. injection Hr as ->.
      by destruct (Hs [XText (B "Code") (code_str code)]).
Qed.

(* The other requests leave the object [k] of [b] alone. *)
Definition others_harmless (xs : list (server * http_request)) (i : nat) (b k : bytes) : Prop :=
  forall j x, j <> i -> xs !! j = Some x -> harmless b k x.

Lemma call_of_harmless b k x : harmless b k x -> plain_req (call_of x) /\ ~ affects (call_of x) b k.
Proof.
  destruct x as [sv rq]. unfold harmless, call_of. cbn [fst snd]. intros H.
  destruct (front sv rq) as [| |op c r]; [by split; [|intros []]..|by eapply H].
Qed.
Lemma others_calls xs i sv rq b k : xs !! i = Some (sv, rq) -> others_harmless xs i b k -> plain_req (call_of (sv, rq)) ->
  Forall plain_req (call_of <$> xs) /\ alone (call_of <$> xs) i b k.
Proof.
  intros Hi Ho Hp. split.
  - apply Forall_fmap, Forall_lookup. intros j x Hj. cbn. destruct (decide (j = i)) as [->|Hne].
    + rewrite Hi in Hj. by injection Hj as <-.
    + by apply (call_of_harmless b k), (Ho j).
  - intros j r Hne Hj. rewrite list_lookup_fmap in Hj. destruct (xs !! j) as [x|] eqn:Hx; [|done]. injection Hj as <-.
    by apply call_of_harmless, (Ho j).
Qed.

(* An upload among harmless requests, as a storage operation among others. *)
Lemma upload_call e s xs i sv rq b k p s' ms' resp :
  wf s -> located b k p -> puts_object rq b k -> wire rq ->
  xs !! i = Some (sv, rq) -> others_harmless xs i b k ->
  psteps e s (serve e xs) s' ms' -> ms' !! i = Some (Ret (Replied resp)) -> success resp ->
  exists ms0' c class len md,
    psteps e s (storage e <$> (call_of <$> xs)) s' ms0' /\ wraps_all (finish_of <$> xs) ms' ms0' /\
    call_of (sv, rq) = RPutObject b k class len md (Some (cx_body c)) /\ plain_req (call_of (sv, rq)) /\
    ms0' !! i = Some (Ret (Ok (APut (Some (quoted_md5 (carried (cx_body c))))))) /\
    delivers sv rq (carried (cx_body c)) /\ sent_metadata rq (default [] md) /\ md <> Some [] /\ presentable (default [] md) /\
    resp = Response 200 [(B "etag", quoted_md5 (carried (cx_body c)))] RbEmpty /\
    content s' p = Some (carried (cx_body c)) /\
    (forall m, md = Some m -> content s' [metadata_name b k] = Some (json_encode m)).
Proof.
  intros Hwf Hl Hput Hw Hi Ho Hst Hres Hs.
  destruct (wraps_psteps e _ _ _ _ _ Hst _ (serve_wraps e xs)) as (ms0' & Hst0 & Hwr).
  destruct (serve_success _ _ _ _ _ _ _ Hwr Hi Hres Hs) as (op & c & r & a & Hf & Hres0 & Hresp).
  destruct (put_called _ _ _ _ _ _ _ Hf Hput) as (class & len & md & -> & -> & Hmp & Hsent & Hne & Hv).
  pose proof (object_request _ _ _ (proj1 (proj2 Hput))) as Hb.
  destruct (sent_ok _ _ Hw Hv Hsent) as [Hpres Hok].
  assert (Hcall : call_of (sv, rq) = RPutObject b k class len md (Some (cx_body c))) by (unfold call_of; cbn [fst snd]; by rewrite Hf).
  assert (Hpl : plain_req (call_of (sv, rq))).
  { rewrite Hcall. split; [done|]. split; [by eapply located_ordinary|]. by intros m ->. }
  destruct (others_calls xs i sv rq b k Hi Ho Hpl) as [Hrs Ha].
  destruct (C48_put_among_others e s (call_of <$> xs) i b k p class len md (cx_body c) s' ms0' a Hwf Hrs Hb Hl) as (Hc & Hbr & -> & Hm); try done.
  { rewrite list_lookup_fmap, Hi. cbn. by rewrite Hcall. }
  fold (quoted_md5 (carried (cx_body c))) in Hresp, Hres0.
  exists ms0', c, class, len, md. split; [done|]. split; [done|]. split; [done|]. split; [done|]. split; [done|].
  split; [by eapply called_delivers|]. split; [done|]. split; [done|]. split; [done|]. split; [|by split].
  cbn [respond respond_ok set_header] in Hresp.
  assert (Hq : etag_of (carried (cx_body c)) = quoted_md5 (carried (cx_body c))) by
    (with_strategy transparent [etag_of] unfold etag_of; done).
  rewrite <- Hq, etag_value_ok, Hq in Hresp. by injection Hresp as <-.
Qed.

(** An upload that is answered with success while other requests are being handled, in any
    interleaving and with failing system calls: the reply carries the tag of the data that the
    request delivers, the object is these data, and its metadata are those sent. *)
Theorem C67_upload_among_others e s xs i sv rq b k p s' ms' resp :
  wf s -> located b k p -> puts_object rq b k -> wire rq ->
  xs !! i = Some (sv, rq) -> others_harmless xs i b k ->
  psteps e s (serve e xs) s' ms' -> ms' !! i = Some (Ret (Replied resp)) -> success resp ->
  exists data md, delivers sv rq data /\ sent_metadata rq md /\
    resp = Response 200 [(B "etag", quoted_md5 data)] RbEmpty /\ content s' p = Some data /\
    (md <> [] -> content s' [metadata_name b k] = Some (json_encode md)).
Proof.
  intros Hwf Hl Hput Hw Hi Ho Hst Hres Hs.
  destruct (upload_call e s xs i sv rq b k p s' ms' resp) as (ms0' & c & class & len & md & _ & _ & _ & _ & _ & Hd & Hsent & _ & _ & Hr & Hc & Hm); try done.
  exists (carried (cx_body c)), (default [] md). split_and!; try done. destruct md as [m|]; [|done]. intros _. by apply Hm.
Qed.
Print Assumptions C67_upload_among_others.

(** An object that no request is about to write or delete keeps its content while they are handled. *)
Theorem C67_bystanders e s xs b k p s' ms' :
  wf s -> legal_bucket b -> located b k p -> Forall (harmless b k) xs ->
  psteps e s (serve e xs) s' ms' -> content s' p = content s p.
Proof.
  intros Hwf Hb Hl Ho Hst.
  destruct (wraps_psteps e _ _ _ _ _ Hst _ (serve_wraps e xs)) as (ms0' & Hst0 & Hwr).
  eapply (C48_bystanders e s (call_of <$> xs)); [done| |done|done| |exact Hst0].
  - apply Forall_fmap. eapply Forall_impl; [exact Ho|]. intros x Hx. by apply (call_of_harmless b k).
  - apply Forall_fmap. eapply Forall_impl; [exact Ho|]. intros x Hx. by apply (call_of_harmless b k).
Qed.
Print Assumptions C67_bystanders.

(** A download of an existing object among such requests is answered as if it were alone. *)
Theorem C67_download_among_others e s xs i sv rq b k p sched s' ms' rep :
  wf s -> located b k p -> is_Some (content s p) ->
  gets_object rq b k /\ ~ has_header rq (B "range") \/ heads_object rq b k ->
  xs !! i = Some (sv, rq) -> others_harmless xs i b k ->
  run_sched e sched s (serve e xs) = (s', ms') -> ms' !! i = Some (Ret rep) ->
  rep = (exchange e sv rq s).2.
Proof.
  intros Hwf Hl Hex Hget Hi Ho Hrun Hres.
  assert (Hpath : request_path rq (PObject b k)) by (destruct Hget as [[[_ H] _]|[_ H]]; done).
  pose proof (object_request _ _ _ Hpath) as Hb.
  destruct (wraps_sched e _ sched s _ _ (serve_wraps e xs)) as (sched0 & H1 & Hwr). rewrite Hrun in H1, Hwr. cbn [fst snd] in H1, Hwr.
  destruct (front sv rq) as [code| |op c r] eqn:Hf.
  - destruct (wraps_task _ _ _ _ _ Hwr Hres) as (f & m0 & Hf' & Hm0 & Hwm).
    rewrite list_lookup_fmap, Hi in Hf'. injection Hf' as <-. unfold finish_of in Hwm. cbn [fst snd] in Hwm. rewrite Hf in Hwm.
    injection Hwm as ->. unfold exchange, service. by rewrite Hf.
  - destruct (wraps_task _ _ _ _ _ Hwr Hres) as (f & m0 & Hf' & Hm0 & Hwm).
    rewrite list_lookup_fmap, Hi in Hf'. injection Hf' as <-. unfold finish_of in Hwm. cbn [fst snd] in Hwm. rewrite Hf in Hwm.
    injection Hwm as ->. unfold exchange, service. by rewrite Hf.
  - destruct (serve_result _ _ _ _ _ _ _ _ _ _ Hwr Hi Hf Hres) as (a & Hres0 & ->).
    rewrite (exchange_call _ _ _ _ _ _ _ Hf). cbn [snd]. do 2 f_equal.
    assert (Hr : r = RGetObject b k None \/ r = RHeadObject b k).
    { destruct Hget as [[Hget Hrange]|Hhead].
      - destruct (get_called sv rq b k) as (c' & Hf'); [by eexists _, _, _|done|done|]. left. congruence.
      - destruct (head_called sv rq b k) as (c' & Hf'); [by eexists _, _, _|done|]. right. congruence. }
    assert (Hcall : call_of (sv, rq) = r) by (unfold call_of; cbn [fst snd]; by rewrite Hf).
    destruct (others_calls xs i sv rq b k Hi Ho) as [Hrs Ha].
    { rewrite Hcall. assert (ordinary k) by by eapply located_ordinary. by destruct Hr as [-> | ->]. }
    eapply (C48_read_among_others e s (call_of <$> xs) i b k p r None sched0); [done|done|done|done|done|done| |done| |exact Hres0].
    + rewrite list_lookup_fmap, Hi. cbn. by rewrite Hcall.
    + apply surjective_pairing.
Qed.
Print Assumptions C67_download_among_others.

(** A download that arrives when an upload has been answered with success delivers exactly what was
    uploaded, while earlier and later requests that do not write or delete the object go on. *)
Theorem C67_read_after_write e s xs i sv rq b k p s1 ms1 resp ys j sv' rq' sched s2 ms2 rep :
  wf s -> located b k p -> e_os_ok e p = true -> e_os_ok e [metadata_name b k] = true ->
  puts_object rq b k -> wire rq ->
  (exists n v, n <> [] /\ (B "x-amz-meta-" ++ n, v) ∈ rq_headers rq) \/ fs_nodes s !! [metadata_name b k] = None ->
  xs !! i = Some (sv, rq) -> others_harmless xs i b k ->
  psteps e s (serve e xs) s1 ms1 -> ms1 !! i = Some (Ret (Replied resp)) -> success resp ->
  Forall (harmless b k) ys -> ys !! j = Some (sv', rq') ->
  accepted sv' rq' -> gets_object rq' b k -> ~ has_header rq' (B "range") ->
  run_sched e sched s1 (ms1 ++ serve e ys) = (s2, ms2) -> ms2 !! (length xs + j) = Some (Ret rep) ->
  exists data md, delivers sv rq data /\ sent_metadata rq md /\
    ((N.of_nat (length data) <= i64_max)%N ->
     exists t hs body, rep = Replied (Response 200 hs body) /\ streams s2 body data /\ denotes t (N.of_nat (length data)) /\
       hs ≡ₚ [(B "content-length", t); (B "etag", quoted_md5 data)] ++ metadata_headers md).
Proof.
  intros Hwf Hl Hos Hom Hput Hw Hn Hi Ho Hst Hres Hs Hys Hj Hacc Hget Hrange Hrun Hrep.
  destruct (upload_call e s xs i sv rq b k p s1 ms1 resp) as
    (ms0 & c & class & len & md & Hst0 & Hwr & Hcall & Hpl & Hres0 & Hd & Hsent & Hne & Hpres & Hr & Hc & Hm); try done.
  exists (carried (cx_body c)), (default [] md). split; [done|]. split; [done|]. intros Hlen.
  assert (Hn' : is_Some md \/ fs_nodes s !! [metadata_name b k] = None).
  { destruct Hn as [(n & v & Hnn & Hin)|Hn]; [|by auto]. left. destruct md as [m|]; [by eexists|].
    exfalso. apply Hnn. by eapply Hsent. }
  destruct (get_called sv' rq' b k Hacc Hget Hrange) as (c' & Hf').
  assert (Hcall' : call_of (sv', rq') = RGetObject b k None) by (unfold call_of; cbn [fst snd]; by rewrite Hf').
  pose proof (object_request _ _ _ (proj1 (proj2 Hput))) as Hb.
  assert (Hlxs : i < length xs) by by eapply lookup_lt_Some.
  destruct (others_calls (xs ++ ys) i sv rq b k) as [Hrs Ha]; [by apply lookup_app_l_Some| |done|].
  { intros j' x Hj' Hx. apply lookup_app_Some in Hx as [Hx|[_ Hx]]; [by eapply Ho|].
    rewrite Forall_lookup in Hys. by eapply Hys. }
  rewrite fmap_app in Hrs, Ha.
  pose proof (psteps_more e (storage e <$> (call_of <$> ys)) _ _ _ _ Hst0) as Hst1. rewrite <- fmap_app in Hst1.
  assert (Hwr1 : wraps_all (finish_of <$> (xs ++ ys)) (ms1 ++ serve e ys) (ms0 ++ (storage e <$> (call_of <$> ys)))).
  { rewrite fmap_app. apply wraps_app; [done|apply serve_wraps]. }
  destruct (wraps_sched e _ sched s1 _ _ Hwr1) as (sched0 & H1 & Hwr2). rewrite Hrun in H1, Hwr2. cbn [fst snd] in H1, Hwr2.
  assert (Hjx : (xs ++ ys) !! (length xs + j) = Some (sv', rq')).
  { rewrite lookup_app_r by lia. by replace (length xs + j - length xs) with j by lia. }
  destruct (serve_result _ _ _ _ _ _ _ _ _ _ Hwr2 Hjx Hf' Hrep) as (ans & Hans & ->).
  assert (Hlen0 : length ms0 = length xs) by (apply psteps_length in Hst0; by rewrite !fmap_length in Hst0).
  destruct (C66_read_after_write e s ((call_of <$> xs) ++ (call_of <$> ys)) i (length xs + j) b k p class len md (cx_body c) s1
    (ms0 ++ (storage e <$> (call_of <$> ys))) (APut (Some (quoted_md5 (carried (cx_body c))))) sched0
    (run_sched e sched0 s1 (ms0 ++ (storage e <$> (call_of <$> ys)))).1 (run_sched e sched0 s1 (ms0 ++ (storage e <$> (call_of <$> ys)))).2 ans)
    as (h & off & lim & -> & Hbody); try done.
  - rewrite <- fmap_app, list_lookup_fmap, lookup_app_l by done. rewrite Hi. cbn. by rewrite Hcall.
  - apply lookup_app_l_Some, Hres0.
  - rewrite <- fmap_app, list_lookup_fmap, Hjx. cbn. by rewrite Hcall'.
  - rewrite lookup_app_r by lia. replace (length xs + j - length ms0) with j by lia.
    rewrite !list_lookup_fmap, Hj. cbn [fmap option_fmap option_map]. by rewrite Hcall'.
  - apply surjective_pairing.
  - rewrite H1 in Hbody. exists (num (N.of_nat (length (carried (cx_body c))))).
    assert (Hq : etag_of (carried (cx_body c)) = quoted_md5 (carried (cx_body c))) by
      (with_strategy transparent [etag_of] unfold etag_of; done).
    rewrite get_response; [|done|rewrite <- Hq; apply etag_value_ok]. do 2 eexists. split; [done|]. split; [by exists h, off, lim|].
    split; [apply num_denotes|done].
Qed.
Print Assumptions C67_read_after_write.

(** Example: an upload that another one interrupts, then a download that arrives while the other
    upload is still going on.  The hypotheses hold of these requests: [ex_hypotheses] of T_Http. *)
Definition ex_web_first : list (server * http_request) :=
  [(ex_open_server, ex_put_object (B "/bkt/a%20b") [(B "x-amz-meta-owner", B "me")] (B "hello"));
   (ex_open_server, ex_put_object (B "/bkt/other") [] (B "x"))].
Definition ex_web_moment := run_sched ex_env ([0; 1; 1] ++ repeat 0 12) empty_store (serve ex_env ex_web_first).
Definition ex_web_end := run_sched ex_env (concat (repeat [2; 1] 20)) ex_web_moment.1
  (ex_web_moment.2 ++ serve ex_env [(ex_open_server, ex_get_object (B "/bkt/a%20b"))]).
Example ex_web :
  ex_web_moment.2 !! 0 = Some (Ret (Replied (Response 200 [(B "etag", quoted_md5 (B "hello"))] RbEmpty))) /\
  match ex_web_moment.2 !! 1 with Some (Do _ _) => True | _ => False end /\
  ex_web_end.2 = [Ret (Replied (Response 200 [(B "etag", quoted_md5 (B "hello"))] RbEmpty));
    Ret (Replied (Response 200 [(B "etag", quoted_md5 (B "x"))] RbEmpty));
    Ret (Replied (Response 200 [(B "content-length", B "5"); (B "etag", quoted_md5 (B "hello")); (B "x-amz-meta-owner", B "me")]
      (RbFile (HFile 0) 0 5)))] /\
  carried (get_body ex_web_end.1 (HFile 0) 0 5 []) = B "hello".
Proof. split; [by vm_compute|]. split; [by vm_compute|]. split; by vm_compute. Qed.
Example ex_web_harmless : others_harmless ex_web_first 0 (B "bkt") (B "a b").
Proof.
  intros [|[|j]] x Hj [= <-]; [done|]. by apply ex_hypotheses.
Qed.
