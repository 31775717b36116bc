(** C42, C45: bucket isolation and ownership of metadata. *)
From Verif Require Import M_Base M_Path M_Headers M_Chunked M_BytesStream M_Crypto M_Fs M_Json M_Utf8 M_Storage
  S_Path S_Headers S_Chunked S_Storage S_Store L_Base L_Path L_Headers L_Fs L_Storage L_Scope L_Names L_Json L_Ops L_Results L_Tidy
  T_Store T_Copy.

Local Opaque md5 etag_of json_decode json_encode metadata_name part_name.

(** C42 *)

(* A key with '..' reads, overwrites and deletes objects of another bucket; so does an
   absolute key below the storage root. *)
Theorem C42_isolation_refuted : exists e s b1 b2 k,
  legal_bucket b1 /\ legal_bucket b2 /\ b1 <> b2 /\
  content s [b2; B "x"] = Some (B "private") /\
  (exists h len tag, answer e (RGetObject b1 k None) s = Ok (AGet h 0 len len None tag) /\
     carried (get_body s h 0 len [RdSome 100]) = B "private") /\
  content (after e (RPutObject b1 k None None None (Some [FData (B "forged")])) s) [b2; B "x"] = Some (B "forged") /\
  content (after e (RDeleteObject b1 k) s) [b2; B "x"] = None.
Proof.
  exists ex_env, (after_all ex_env [RCreateBucket (B "mine"); RPutObject (B "yours") (B "x") None None None (Some [FData (B "private")])] empty_store),
    (B "mine"), (B "yours"), (B "../yours/x").
  split; [apply check_bucket_name_spec; by vm_compute|]. split; [apply check_bucket_name_spec; by vm_compute|].
  split; [done|]. split; [by vm_compute|]. split; [do 3 eexists; split; by vm_compute|]. split; by vm_compute.
Qed.
Print Assumptions C42_isolation_refuted.

Theorem C42_absolute_key_refuted : exists e s b1 b2 k,
  legal_bucket b1 /\ legal_bucket b2 /\ b1 <> b2 /\
  content s [b2; B "x"] = Some (B "private") /\
  content (after e (RPutObject b1 k None None None (Some [FData (B "forged")])) s) [b2; B "x"] = Some (B "forged").
Proof.
  exists ex_env, (after_all ex_env [RCreateBucket (B "mine"); RPutObject (B "yours") (B "x") None None None (Some [FData (B "private")])] empty_store),
    (B "mine"), (B "yours"), (B "/srv/data/yours/x").
  split; [apply check_bucket_name_spec; by vm_compute|]. split; [apply check_bucket_name_spec; by vm_compute|].
  split; [done|]. split; by vm_compute.
Qed.
Print Assumptions C42_absolute_key_refuted.

(* Keys without '..' segments that do not start with a slash. *)
Definition tame (k : bytes) : Prop := exists segs, segs <> [] /\ Forall (fun c => "/"%char ∉ c) segs /\
  B ".." ∉ segs /\ k = slashed segs /\ forall r, k <> B "/" ++ r.

(* Requests that write to the bucket [b] only (a copy may read elsewhere). *)
Definition writes_bucket (r : s_req) (b : bytes) : Prop :=
  match r with
  | RCreateBucket b' | RDeleteBucket b' => b' = b
  | RCopyObject _ b' k | RDeleteObject b' k | RPutObject b' k _ _ _ _ => b' = b /\ tame k
  | RDeleteObjects b' ks => b' = b /\ Forall tame ks
  | RCompleteMultipartUpload b' k u _ => b' = b /\ tame k /\ "/"%char ∉ u
  | _ => False
  end.

Lemma tame_resolved b k : tame k -> exists rest, resolved b k (b :: rest).
Proof. intros (segs & H1 & H2 & H3 & H4 & H5). eexists. exists segs. split_and!; try done. Qed.
Lemma tame_path e b k p : legal_bucket b -> tame k -> get_object_path e b k = Some p -> exists rest, p = b :: rest.
Proof.
  intros Hb Hk Hp. destruct (tame_resolved b k Hk) as [rest Hr].
  rewrite (resolved_path e b k _ (legal_bucket_segment _ Hb) Hr) in Hp. injection Hp as <-. eauto.
Qed.

(* With tame keys nothing inside another bucket is changed, at any moment of the request. *)
Theorem C42_writes_partial e s r b b' rest s' m' : wf s -> writes_bucket r b -> legal_bucket b ->
  legal_bucket b' -> b' <> b -> steps e s (storage e r) s' m' ->
  content s' (b' :: rest) = content s (b' :: rest) /\ fs_nodes s' !! (b' :: rest) = fs_nodes s !! (b' :: rest).
Proof.
  intros Hwf Hw Hb Hb' Hne Hst. pose proof (scoped_steps e _ _ _ _ _ _ _ Hwf (scoped_storage e r) Hst) as Hu.
  assert (Hpre : forall x y, [b] `prefix_of` x :: y -> x = b) by (intros x y Hx; by apply prefix_cons_inv_1 in Hx).
  assert (HF : ~ r_files e r (b' :: rest)).
  { intros HF. destruct r; cbn [writes_bucket r_files] in *; try done.
    - destruct Hw as [-> Hk]. destruct HF as [HF|HF].
      + apply tame_path in HF as [? [= ? ?]]; done.
      + rewrite metadata_path in HF. injection HF as HF _. symmetry in HF. by eapply (bucket_not_meta b').
    - subst. destruct HF as (q & Hq & Hp). rewrite bucket_path in Hq by by apply legal_bucket_segment.
      injection Hq as <-. by apply Hpre in Hp.
    - destruct Hw as [-> Hk]. apply tame_path in HF as [? [= ? ?]]; done.
    - destruct Hw as [-> Hk]. destruct HF as (k' & Hin & HF). rewrite Forall_forall in Hk.
      apply tame_path in HF as [? [= ? ?]]; auto.
    - destruct Hw as [-> Hk]. destruct HF as [HF|[_ HF]].
      + apply tame_path in HF as [? [= ? ?]]; done.
      + rewrite metadata_path in HF. injection HF as HF _. symmetry in HF. by eapply (bucket_not_meta b').
    - destruct Hw as (-> & Hk & Hsl). destruct HF as [HF|(l & n & _ & _ & HF)].
      + apply tame_path in HF as [? [= ? ?]]; done.
      + rewrite part_path_eq in HF by done. injection HF as HF _. symmetry in HF. by eapply (bucket_not_part b'). }
  assert (HD : ~ r_dirs e r (b' :: rest)).
  { intros HD. destruct r; cbn [writes_bucket r_dirs] in *; try done.
    - subst. rewrite bucket_path in HD by by apply legal_bucket_segment. by injection HD.
    - destruct Hw as [-> Hk]. destruct HD as (q & Hq & Hp). apply tame_path in Hq as [? ->]; [|done|done].
      by apply prefix_cons_inv_1 in Hp. }
  assert (HX : ~ r_rmdirs e r (b' :: rest)).
  { intros HX. destruct r; cbn [writes_bucket r_rmdirs] in *; try done. }
  split; by apply Hu.
Qed.
Print Assumptions C42_writes_partial.

(* And the answers to reads of a tame key depend only on its own bucket and its own metadata
   file. *)
Theorem C42_reads_partial e s s' b k range data len md tag size : legal_bucket b -> tame k ->
  (forall rest, fs_nodes s' !! (b :: rest) = fs_nodes s !! (b :: rest)) ->
  (forall rest, content s' (b :: rest) = content s (b :: rest)) ->
  fs_nodes s' !! [metadata_name b k] = fs_nodes s !! [metadata_name b k] ->
  content s' [metadata_name b k] = content s [metadata_name b k] ->
  answer e (RGetObject b k range) s' = answer e (RGetObject b k range) s /\
  (gets e s b k range data len md tag -> gets e s' b k range data len md tag) /\
  (answer e (RHeadObject b k) s = Ok (AHead size md) -> answer e (RHeadObject b k) s' = Ok (AHead size md)).
Proof.
  intros Hb Hk Hn Hc Hmn Hmc. destruct (tame_resolved b k Hk) as [rest Hr].
  pose proof (resolved_path e b k _ (legal_bucket_segment _ Hb) Hr) as Hp.
  destruct (get_same e b k range _ s s' Hp (Hn rest) (Hc rest) Hmn Hmc) as [H1 H2].
  split; [done|]. split; [|by rewrite H2].
  intros (h & off & lim & Ha & Hbody). exists h, off, lim. rewrite H1. split; [done|].
  intros sched Hsched. destruct (Hbody sched Hsched) as [<- <-].
  assert (Heq : get_body s' h off lim sched = get_body s h off lim sched); [|by rewrite Heq].
  unfold answer in Ha. cbn [storage] in Ha. destruct h as [q|i]; [done|]. unfold get_body. do 2 f_equal.
  assert (Hi : fs_nodes s !! (b :: rest) = Some (NFile i)).
  { revert Ha. unfold get_object. rewrite Hp. cbn [try_path].
    assert (Hgo : forall r,
    (run e (bind (call (COpen (b :: rest))) (fun o =>
        match o with
        | None => Ret (Err NoSuchKey)
        | Some h =>
            try_io (call (CLen h)) (fun file_len =>
            try_res (get_extent h r file_len) (fun ol =>
            try_io (load_metadata e b k) (fun md =>
            try_io (get_md5_sum e b k) (fun tag =>
              if (ol.2 <=? i64_max)%N then Ret (Ok (AGet h ol.1 ol.2 ol.2 md tag))
              else Ret (Err InternalError)))))
        end)) s).2 = Ok (AGet (HFile i) off lim len md tag) -> fs_nodes s !! (b :: rest) = Some (NFile i)).
    { intros r. rewrite run_bind, run_open. destruct (negb _); [done|].
      destruct (fs_nodes s !! (b :: rest)) as [[|j]|]; [| |done].
      all: rewrite run_try_io; destruct (run e (call (CLen _)) s) as [s1 [n|]]; [|done].
      all: rewrite run_try_res; destruct (run e (get_extent _ r n) s1) as [s2 [ol|]]; [|done].
      all: rewrite run_try_io; destruct (run e (load_metadata e b k) s2) as [s3 [md'|]]; [|done].
      all: rewrite run_try_io; destruct (run e (get_md5_sum e b k) s3) as [s4 [tg|]]; [|done].
      all: destruct (_ <=? _)%N; [|done]; cbn [run snd]; congruence. }
    destruct range as [str|]; [|apply Hgo]. destruct (range_from_header_str str); [apply Hgo|done]. }
  pose proof (Hc rest) as Hcr. unfold content in Hcr. rewrite Hn, Hi in Hcr. congruence.
Qed.
Print Assumptions C42_reads_partial.

(** C45 *)

(* Metadata outlives the object: put with metadata, delete, put without. *)
Theorem C45_stale_metadata_refuted : exists e s b k,
  let put md := RPutObject b k None None md (Some [FData (B "data")]) in
  let s1 := after e (put (Some [(B "owner", B "alice")])) s in
  let s2 := after e (RDeleteObject b k) s1 in
  let s3 := after e (put None) s2 in
  answer e (RDeleteObject b k) s1 = Ok ADone /\ answer e (RHeadObject b k) s2 = Err NoSuchKey /\
  (exists tag, answer e (put None) s2 = Ok (APut tag)) /\
  answer e (RHeadObject b k) s3 = Ok (AHead 4 (Some [(B "owner", B "alice")])).
Proof.
  exists ex_env, empty_store, (B "photos"), (B "cat").
  split; [by vm_compute|]. split; [by vm_compute|]. split; [eexists; by vm_compute|]. by vm_compute.
Qed.
Print Assumptions C45_stale_metadata_refuted.

(* Copying an object without metadata leaves the old metadata of the destination. *)
Theorem C45_copy_keeps_metadata_refuted : exists e s b k k',
  let s' := after e (RCopyObject (b ++ B "/" ++ k) b k') s in
  answer e (RHeadObject b k) s = Ok (AHead 3 None) /\
  (exists tag, answer e (RCopyObject (b ++ B "/" ++ k) b k') s = Ok (ACopy tag)) /\
  answer e (RHeadObject b k') s' = Ok (AHead 3 (Some [(B "a", B "1")])).
Proof.
  exists ex_env, ex_two, (B "photos"), (B "y"), (B "x").
  split; [by vm_compute|]. split; [eexists; by vm_compute|]. by vm_compute.
Qed.
Print Assumptions C45_copy_keeps_metadata_refuted.

(* What does hold.  [written e s b k md]: the metadata file of the object says [md]. *)
Definition written (e : env) (s : fs) (b k : bytes) (md : option metadata) : Prop :=
  match md with
  | Some m => e_os_ok e [metadata_name b k] = true /\
              exists c, content s [metadata_name b k] = Some c /\ json_decode c = Some m
  | None => e_os_ok e [metadata_name b k] = false \/ fs_nodes s !! [metadata_name b k] = None
  end.

Lemma written_meta e s b k md : meta_of e s b k = Some md <-> written e s b k md.
Proof.
  unfold meta_of, written. destruct (e_os_ok e [metadata_name b k]); cbn [andb].
  - case_bool_decide as Hn.
    + destruct (content s [metadata_name b k]) as [c|] eqn:Hc.
      * destruct (json_decode c) as [m|] eqn:Hj.
        -- split; [intros [= <-]; eauto|]. destruct md as [m'|].
           ++ intros (_ & c' & [= <-] & Hj'). congruence.
           ++ intros [?|Hx]; [done|]. rewrite Hx in Hn. by destruct Hn.
        -- split; [done|]. destruct md as [m'|].
           ++ intros (_ & c' & [= <-] & Hj'). congruence.
           ++ intros [?|Hx]; [done|]. rewrite Hx in Hn. by destruct Hn.
      * split; [done|]. destruct md as [m'|]; [naive_solver|]. intros [?|Hx]; [done|]. rewrite Hx in Hn. by destruct Hn.
    + assert (Hnone : fs_nodes s !! [metadata_name b k] = None) by (by destruct (fs_nodes s !! _); [destruct Hn|]).
      split; [intros [= <-]; auto|]. destruct md as [m'|]; [|done]. intros (_ & c & Hc & _). unfold content in Hc.
      by rewrite Hnone in Hc.
  - split; [intros [= <-]; auto|]. destruct md as [m'|]; [by intros [? _]|done].
Qed.

(* HeadObject and GetObject report the metadata file. *)
Theorem C45_reported_partial e s b k p md : legal_bucket b -> located b k p ->
  (forall n, answer e (RHeadObject b k) s = Ok (AHead n md) -> is_Some (content s p) -> written e s b k md) /\
  (forall range h off lim len tag, answer e (RGetObject b k range) s = Ok (AGet h off lim len md tag) ->
     is_Some (content s p) -> written e s b k md).
Proof.
  intros Hb Hl. pose proof (located_path e b k p (legal_bucket_segment _ Hb) Hl) as Hp.
  split.
  - intros n Ha [c Hc]. apply content_Some in Hc as (i & Hi & _). unfold answer in Ha. cbn [storage] in Ha.
    destruct (e_os_ok e p) eqn:Hos.
    + rewrite (run_head_file e b k p i) in Ha by done. apply written_meta. cbn [snd] in Ha.
      destruct (meta_of e s b k); [|done]. destruct (_ <=? _)%N; [|done]. by injection Ha as _ ->.
    + rewrite (run_head_absent e b k p) in Ha by auto. done.
  - intros range h off lim len tag Ha [c Hc]. apply content_Some in Hc as (i & Hi & _).
    unfold answer in Ha. cbn [storage] in Ha. destruct (e_os_ok e p) eqn:Hos.
    + rewrite (run_get_file e b k range p i) in Ha by done. apply written_meta. cbn [snd] in Ha.
      destruct (parse_range range) as [r|]; [|done]. destruct (extent r (file_len s i)) as [[o l]|]; [|done].
      destruct (meta_of e s b k); [|done]. destruct (_ <=? _)%N; [|done]. by injection Ha as _ _ _ _ -> _.
    + rewrite (run_get_absent e b k range p) in Ha by auto. cbn [snd] in Ha. by destruct (parse_range range).
Qed.
Print Assumptions C45_reported_partial.

(* The metadata file of an object is changed by nothing but puts with metadata to this object
   and copies onto this object from one with metadata. *)
Theorem C45_metadata_changes_partial e s r a b k md : wf s -> intact s -> plain_req r ->
  answer e r s = Ok a -> written e s b k md ->
  written e (after e r s) b k
    match r with
    | RPutObject b' k' _ _ (Some m) _ => if decide (b' = b /\ k' = k) then Some m else md
    | RCopyObject src b' k' =>
        if decide (b' = b /\ k' = k) then
          match copy_source_from_header_str src with
          | Ok (sb, sk) => match meta_of e s sb sk with Some (Some m) => Some m | _ => md end
          | Err _ => md
          end
        else md
    | _ => md
    end.
Proof.
  intros Hwf Hi Hr Ha Hw.
  assert (Hsame : ~ r_files e r [metadata_name b k] -> written e (after e r s) b k md).
  { intros HF. pose proof (storage_untouched e r s Hwf) as Hu. destruct (plain_meta_dirs e r b k Hr) as [HD HX].
    unfold written in *. destruct md as [m|].
    - rewrite (un_content _ _ _ _ _ Hu) by done. done.
    - rewrite (un_node _ _ _ _ _ Hu) by done. done. }
  destruct r; try (apply Hsame; intros HF; by apply (plain_meta e _ b k Hr) in HF).
  - (* copy *)
    case_decide as Heq; [|apply Hsame; intros HF; by apply (plain_meta e _ b k Hr) in HF].
    destruct Heq as [-> ->]. apply run_answer in Ha. cbn [storage] in Ha. revert Ha. unfold copy_object.
    destruct Hr as (Hb & Hk & Hsrc).
    destruct (copy_source_from_header_str copy_source) as [[sb sk]|] eqn:Ecs; [|done].
    apply copy_source_spec in Ecs as (Hform & _).
    destruct (get_object_path e sb sk) as [src|] eqn:Hsp; [|done]. cbn [try_path].
    destruct (get_object_path e b k) as [dst|] eqn:Hdst; [|done]. cbn [try_path].
    rewrite run_try_io. destruct (run e (call (CStat src)) s) as [s0 o0] eqn:E0.
    rewrite run_call in E0. injection E0 as <- Ho0. destruct o0; [|done].
    rewrite run_try_io. destruct (run e (copy_file e src dst) s) as [s1 [[]|]] eqn:E1; [|done].
    apply object_path in Hdst; [|done..].
    destruct (copy_file_ok _ _ _ _ _ Hwf E1) as (c & _ & _ & _ & Hwf1 & _ & Hoth).
    assert (Hmeta : forall b' k', meta_of e s1 b' k' = meta_of e s b' k').
    { intros b' k'. unfold meta_of. destruct (Hoth [metadata_name b' k']) as [-> ->]; [|done].
      intros Heq. symmetry in Heq. by eapply located_not_meta in Hdst. }
    rewrite metadata_path. cbn [try_path]. rewrite run_bind, run_exists, run_try_io, metadata_path.
    destruct (run e (if _ : bool then _ else _) s1) as [s2 o2] eqn:E2.
    destruct o2 as [[]|]; [|done]. rewrite run_try_io, (run_get_md5 _ _ _ src) by done.
    destruct (e_os_ok e src); [|done]. destruct (content s2 src); [|done]. cbn [fmap option_fmap option_map].
    cbn [run]. intros [= <- _]. rewrite <- Hmeta. apply written_meta. apply written_meta in Hw. rewrite <- Hmeta in Hw.
    destruct (meta_of e s1 sb sk) as [[m|]|] eqn:Hms.
    + apply written_meta in Hms. cbn [written] in Hms. destruct Hms as (Hos & c' & Hc' & Hj).
      assert (Hn : is_Some (fs_nodes s1 !! [metadata_name sb sk])) by (apply content_Some in Hc' as (j & -> & _); eauto).
      rewrite Hos, bool_decide_true in E2 by done. cbn [andb] in E2.
      destruct (copy_file_ok _ _ _ _ _ Hwf1 E2) as (c2 & Hc2 & _ & Hosd & _ & Hd & _).
      rewrite decide_False in Hd.
      2:{ intros Heq. apply (f_equal Some), sing_inj, metadata_name_inj in Heq as [-> ->]. apply Hsrc. by rewrite Hform. }
      apply written_meta. split; [done|]. exists c2. split; [done|]. congruence.
    + apply written_meta in Hms. cbn [written] in Hms.
      replace (e_os_ok e [metadata_name sb sk] && bool_decide (is_Some (fs_nodes s1 !! [metadata_name sb sk]))) with false in E2.
      * injection E2 as <-. done.
      * destruct Hms as [-> | ->]; [done|]. by rewrite andb_comm, bool_decide_false by by intros [? ?].
    + exfalso. rewrite Hmeta in Hms. destruct (intact_meta e s sb sk Hi) as [md' Hmd]. congruence.
  - (* put *)
    destruct md0 as [m|].
    + case_decide as Heq.
      * destruct Heq as [-> ->]. destruct Hr as (Hb & Hk & Hm). destruct (ordinary_located k b Hk) as [p Hl].
        apply run_answer in Ha. cbn [storage] in Ha.
        destruct (put_ok e b k _ _ _ _ p _ _ _ Hwf (legal_bucket_segment _ Hb) Hl Ha) as (fs & _ & _ & _ & _ & _ & Hmd).
        destruct (Hmd m eq_refl) as [Hos Hc]. split; [done|]. eexists. split; [exact Hc|]. destruct (Hm m eq_refl). by apply json_round_trip.
      * apply Hsame. intros HF. apply (plain_meta e _ b k Hr) in HF as (? & ? & _). by apply Heq.
    + apply Hsame. intros HF. by apply (plain_meta e _ b k Hr) in HF as (_ & _ & [? ?]).
Qed.
Print Assumptions C45_metadata_changes_partial.
