(** C29, C30, C31, C32, C44: what is put is what is got. *)
From Verif Require Import M_Base M_Path M_Headers M_Chunked M_BytesStream M_Crypto M_Fs M_Json M_Utf8 M_Storage
  S_Path S_Headers S_Chunked S_Storage S_Store L_Base L_Headers L_Fs L_Storage L_Scope L_Names L_Json L_Ops L_Results.

Local Opaque md5 etag_of json_decode json_encode metadata_name.

(* A concrete environment and the empty store, for examples. *)
Definition ex_env : env := {|
  e_root := [B "srv"; B "data"]; e_os_ok := fun _ => true; e_order := fun _ l => l;
  e_dir_len := fun _ => 4096%N; e_chop := fun d => [take 3 d; drop 3 d]; e_rounds := 0;
  e_os_prefix := fun _ _ _ => eq_refl; e_order_perm := fun _ l => Permutation_refl l;
  e_chop_concat := fun d => ltac:(by cbn; rewrite app_nil_r, take_drop) |}.
Definition empty_store : fs := Fs {[ [] := NDir ]} ∅ 0.

Lemma wf_empty : wf empty_store.
Proof.
  split; cbn.
  - intros p c [n Hn]. apply lookup_singleton_Some in Hn as [H _]. by destruct p.
  - intros p q i Hp. by apply lookup_singleton_Some in Hp as [_ H].
  - intros p i Hp. by apply lookup_singleton_Some in Hp as [_ H].
Qed.
Lemma intact_empty : intact empty_store.
Proof. intros b k. cbn. by rewrite lookup_singleton_ne. Qed.

(** Objects not affected keep their content and metadata. *)
Lemma unaffected_after e r s b k p : wf s -> plain_req r -> legal_bucket b -> located b k p ->
  ~ affects r b k ->
  content (after e r s) p = content s p /\
  fs_nodes (after e r s) !! [metadata_name b k] = fs_nodes s !! [metadata_name b k] /\
  content (after e r s) [metadata_name b k] = content s [metadata_name b k].
Proof.
  intros Hwf Hr Hb Hl Ha. pose proof (storage_untouched e r s Hwf) as Hu.
  assert (H1 : ~ r_files e r p) by (intros HF; apply Ha; by eapply plain_files).
  assert (H2 : ~ r_files e r [metadata_name b k]).
  { intros HF. apply (plain_meta e r b k Hr) in HF. apply Ha.
    destruct r; try done; cbn [affects]; naive_solver. }
  destruct (plain_meta_dirs e r b k Hr) as [H3 H4].
  split_and!; apply Hu; auto.
Qed.

Lemma unaffected_all e rs s b k p : wf s -> Forall plain_req rs -> legal_bucket b -> located b k p ->
  Forall (fun r => ~ affects r b k) rs ->
  wf (after_all e rs s) /\ content (after_all e rs s) p = content s p /\
  fs_nodes (after_all e rs s) !! [metadata_name b k] = fs_nodes s !! [metadata_name b k] /\
  content (after_all e rs s) [metadata_name b k] = content s [metadata_name b k].
Proof.
  intros Hwf Hrs Hb Hl Ha. revert s Hwf. induction rs as [|r rs IH]; intros s Hwf; [done|].
  inversion Hrs; inversion Ha; subst. cbn [after_all].
  destruct (IH ltac:(done) ltac:(done) (after e r s) ltac:(by apply wf_after)) as (W & E1 & E2 & E3).
  destruct (unaffected_after e r s b k p) as (F1 & F2 & F3); try done.
  split; [done|]. rewrite E1, E2, E3. done.
Qed.

Lemma intact_all e rs s : wf s -> intact s -> Forall plain_req rs -> intact (after_all e rs s) /\ wf (after_all e rs s).
Proof.
  intros Hwf Hi Hrs. apply (after_all_inv (fun s => intact s /\ wf s)); [|done].
  intros r s' Hr [H1 H2]. rewrite Forall_forall in Hrs. split; [apply intact_after; auto|by apply wf_after].
Qed.

(** C29: after a successful put, GetObject delivers exactly the data that was sent, with its
    length and tag, until a request that writes or deletes the object. *)
Theorem C29_put_get e s b k sc cl md body a rs :
  wf s -> intact s -> legal_bucket b -> ordinary k -> (forall m, md = Some m -> metadata_ok m) ->
  answer e (RPutObject b k sc cl md (Some body)) s = Ok a ->
  Forall plain_req rs -> Forall (fun r => ~ affects r b k) rs ->
  (N.of_nat (length (carried body)) <= i64_max)%N ->
  broken body = false /\
  exists md', gets e (after_all e rs (after e (RPutObject b k sc cl md (Some body)) s)) b k None
    (carried body) (N.of_nat (length (carried body))) md' ([quote] ++ to_hex (md5 (carried body)) ++ [quote]).
Proof.
  intros Hwf Hi Hb Hk Hm Hans Hrs Ha Hlen.
  destruct (ordinary_located k b Hk) as [p Hl].
  set (s1 := after e (RPutObject b k sc cl md (Some body)) s).
  assert (Hrun : run e (put_object e b k sc cl md (Some body)) s = (s1, Ok a)).
  { unfold s1, after. unfold answer in Hans. cbn [storage] in *. rewrite <- Hans. by destruct (run e _ s). }
  assert (Hi1 : intact s1) by (apply intact_after; done).
  assert (Hwf1 : wf s1) by by apply wf_after.
  destruct (put_ok e b k sc cl md (Some body) p s s1 a Hwf (legal_bucket_segment _ Hb) Hl Hrun)
    as (fs & [= <-] & Hbr & _ & Hc & Hos & _).
  split; [done|].
  destruct (unaffected_all e rs s1 b k p Hwf1 Hrs Hb Hl Ha) as (Hwf2 & Hc2 & _).
  destruct (intact_all e rs s1 Hwf1 Hi1 Hrs) as [Hi2 _].
  set (s2 := after_all e rs s1) in *. rewrite Hc in Hc2.
  apply content_Some in Hc2 as (i & Hni & Hd).
  destruct (intact_meta e s2 b k Hi2) as [md' Hmd]. exists md'.
  assert (Hget : gets e s2 b k None (take (N.to_nat (file_len s2 i)) (drop (N.to_nat 0) (data_of s2 i))) (file_len s2 i) md' (etag_of (data_of s2 i))).
  { eapply gets_file; try done; [by apply located_path; [apply legal_bucket_segment|]|]. unfold file_len. by rewrite Hd. }
  unfold file_len in Hget. rewrite Hd in Hget. rewrite Nat2N.id in Hget. cbn [N.to_nat drop] in Hget.
  by rewrite firstn_all in Hget.
Qed.
Print Assumptions C29_put_get.

(** C44: the metadata sent with an object is returned with it. *)
Theorem C44_metadata_round_trip e s b k sc cl m body a rs :
  wf s -> intact s -> legal_bucket b -> ordinary k -> metadata_ok m ->
  answer e (RPutObject b k sc cl (Some m) (Some body)) s = Ok a ->
  Forall plain_req rs -> Forall (fun r => ~ affects r b k) rs ->
  (N.of_nat (length (carried body)) <= i64_max)%N ->
  let s' := after_all e rs (after e (RPutObject b k sc cl (Some m) (Some body)) s) in
  (exists data len tag, gets e s' b k None data len (Some m) tag) /\
  (exists size, answer e (RHeadObject b k) s' = Ok (AHead size (Some m))).
Proof.
  intros Hwf Hi Hb Hk Hm Hans Hrs Ha Hlen.
  destruct (ordinary_located k b Hk) as [p Hl].
  set (s1 := after e (RPutObject b k sc cl (Some m) (Some body)) s).
  assert (Hrun : run e (put_object e b k sc cl (Some m) (Some body)) s = (s1, Ok a)).
  { unfold s1, after. unfold answer in Hans. cbn [storage] in *. rewrite <- Hans. by destruct (run e _ s). }
  assert (Hi1 : intact s1). { apply intact_after; [done|done|]. split_and!; try done. by intros m' [= <-]. }
  assert (Hwf1 : wf s1) by by apply wf_after.
  destruct (put_ok e b k sc cl (Some m) (Some body) p s s1 a Hwf (legal_bucket_segment _ Hb) Hl Hrun)
    as (fs & [= <-] & Hbr & _ & Hc & Hos & Hmeta).
  destruct (Hmeta m eq_refl) as [Hosm Hcm].
  destruct (unaffected_all e rs s1 b k p Hwf1 Hrs Hb Hl Ha) as (Hwf2 & Hc2 & Hn2 & Hm2).
  set (s2 := after_all e rs s1) in *. rewrite Hc in Hc2. rewrite Hcm in Hm2. intros s'.
  change s' with s2. clear s'.
  apply content_Some in Hc2 as (i & Hni & Hd).
  assert (Hmd : meta_of e s2 b k = Some (Some m)).
  { unfold meta_of. rewrite Hosm. cbn [andb].
    pose proof (content_Some _ _ _ Hm2) as (j & Hj & _). rewrite bool_decide_true by by rewrite Hj.
    rewrite Hm2. by rewrite json_round_trip by apply Hm. }
  assert (Hp : get_object_path e b k = Some p) by (apply located_path; [by apply legal_bucket_segment|done]).
  split.
  - do 3 eexists. eapply gets_file; try done. unfold file_len. by rewrite Hd.
  - eexists. unfold answer. cbn [storage]. rewrite (run_head_file e b k p i) by done. rewrite Hmd. cbn [snd].
    rewrite (proj2 (N.leb_le _ _)); [done|]. unfold file_len. by rewrite Hd.
Qed.
Print Assumptions C44_metadata_round_trip.

(** C30: requests that write or delete one object leave all other objects and buckets alone.
    The key may be any key without '..' segments that does not start with a slash. *)
Definition object_write (r : s_req) (b k : bytes) : Prop :=
  match r with
  | RCopyObject _ b' k' | RDeleteObject b' k' | RPutObject b' k' _ _ _ _ => b' = b /\ k' = k
  | RCompleteMultipartUpload b' k' u _ => b' = b /\ k' = k /\ "/"%char ∉ u
  | _ => False
  end.

Lemma cons_head (x y : bytes) l l' : x :: l = y :: l' -> y = x.
Proof. congruence. Qed.

Lemma filter_push segs acc : Forall (fun c => "/"%char ∉ c) segs -> B ".." ∉ segs ->
  fold_left push_component segs acc = acc ++ filter (fun c => c <> [] /\ c <> B ".") segs.
Proof.
  revert acc. induction segs as [|c segs IH]; intros acc Hs Hd; cbn [fold_left].
  - cbn. by rewrite app_nil_r.
  - inversion Hs; subst. apply not_elem_of_cons in Hd as [Hc Hd]. rewrite IH by done.
    rewrite filter_cons. unfold push_component.
    destruct (beq c []) eqn:E1; cbn [orb].
    { apply beq_true in E1 as ->. rewrite decide_False by naive_solver. done. }
    destruct (beq c (B ".")) eqn:E2.
    { apply beq_true in E2 as ->. rewrite decide_False by naive_solver. done. }
    apply beq_false in E1, E2. rewrite (proj2 (beq_false c (B ".."))) by congruence.
    rewrite decide_True by done. by rewrite <- app_assoc.
Qed.

Lemma split_all_slashed_free segs : segs <> [] -> Forall (fun c => "/"%char ∉ c) segs ->
  M_Base.split_all "/" (slashed segs) = segs.
Proof.
  induction segs as [|c segs IH]; [done|]. intros _ Hok. inversion Hok as [|? ? Hc Hs]; subst.
  destruct segs as [|d segs]; [cbn; by apply L_Storage.split_all_none|].
  rewrite slashed_cons by done. cbn [app]. change (B "/" ++ slashed (d :: segs)) with ("/"%char :: slashed (d :: segs)).
  rewrite L_Storage.split_all_app by done. by rewrite IH.
Qed.

Lemma resolved_path e b k p : segment_ok b -> resolved b k p -> get_object_path e b k = Some p.
Proof.
  intros Hb (segs & Hne & Hs & Hd & Hk & Hlead & ->). unfold get_object_path, join_path.
  rewrite (proj2 (starts_with_false (B "/") k)) by done.
  unfold absolutize. rewrite segment_no_lead by done. unfold normalize. f_equal.
  destruct Hb as (Hb1 & Hb2 & Hb3 & Hb4).
  change (b ++ B "/" ++ k) with (b ++ "/"%char :: k).
  rewrite L_Storage.split_all_app by done. rewrite Hk, split_all_slashed_free by done.
  cbn [fold_left]. unfold push_component at 2.
  rewrite (proj2 (beq_false b [])), (proj2 (beq_false b (B "."))), (proj2 (beq_false b (B ".."))) by done.
  cbn [orb app]. by rewrite filter_push.
Qed.

Theorem C30_only_target e s r b k p : wf s -> object_write r b k -> legal_bucket b -> resolved b k p ->
  let s' := after e r s in
  (forall b' k' p', legal_bucket b' -> located b' k' p' -> p' <> p ->
     content s' p' = content s p' /\
     (forall range, ~ p' `prefix_of` p ->
        answer e (RGetObject b' k' range) s' = answer e (RGetObject b' k' range) s /\
        answer e (RHeadObject b' k') s' = answer e (RHeadObject b' k') s)) /\
  (forall b', legal_bucket b' -> b' <> b ->
     answer e (RHeadBucket b') s' = answer e (RHeadBucket b') s).
Proof.
  intros Hwf Hw Hb Hres s'. pose proof (storage_untouched e r s Hwf) as Hu. fold s' in Hu.
  pose proof (legal_bucket_segment _ Hb) as Hbs. pose proof (resolved_path e b k p Hbs Hres) as Hp.
  assert (Hcons : exists rest, p = b :: rest) by (destruct Hres as (? & _ & _ & _ & _ & _ & ->); by eexists).
  destruct Hcons as [rest Hcons].
  assert (HF : forall q, r_files e r q -> q = p \/ q = [metadata_name b k] \/ exists u n, q = [part_name u n]).
  { intros q HF. destruct r; try done; cbn [r_files object_write] in *.
    - destruct Hw as [-> ->]. rewrite Hp, metadata_path in HF. destruct HF as [[= ->]|[= <-]]; auto.
    - destruct Hw as [-> ->]. rewrite Hp in HF. injection HF as ->. auto.
    - destruct Hw as [-> ->]. rewrite Hp, metadata_path in HF. destruct HF as [[= ->]|[_ [= <-]]]; auto.
    - destruct Hw as (-> & -> & Hu'). rewrite Hp in HF. destruct HF as [[= ->]|(l & n & _ & _ & HF)]; [auto|].
      rewrite part_path_eq in HF by done. injection HF as <-. right. right. eauto. }
  assert (HD : forall q, r_dirs e r q -> q `prefix_of` p).
  { intros q HD. destruct r; try done; cbn [r_dirs object_write] in *.
    destruct Hw as [-> ->]. destruct HD as (q' & Hq' & Hpre). rewrite Hp in Hq'. by injection Hq' as <-. }
  assert (HX : forall q, r_rmdirs e r q -> q = p).
  { intros q HX. destruct r; try done; cbn [r_rmdirs object_write] in *.
    destruct Hw as [-> ->]. rewrite Hp in HX. by injection HX. }
  split.
  - intros b' k' p' Hb' Hl' Hne.
    assert (HnF : ~ r_files e r p').
    { intros [?|[?|(u & n & ?)]]%HF; [done|by eapply located_not_meta in Hl'|].
      destruct Hl' as (segs & Hs & _ & _ & ->). naive_solver. }
    assert (Hc : content s' p' = content s p') by by apply Hu.
    split; [done|]. intros range Hpre.
    assert (Hp' : get_object_path e b' k' = Some p') by (apply located_path; [by apply legal_bucket_segment|done]).
    assert (Hmeta : ~ r_files e r [metadata_name b' k'] /\ ~ r_dirs e r [metadata_name b' k'] /\ ~ r_rmdirs e r [metadata_name b' k']).
    { split_and!.
      - intros [Heq|[Heq|(u & n & Heq)]]%HF.
        + rewrite Hcons in Heq. apply cons_head in Heq. by eapply (bucket_not_meta b).
        + apply (f_equal Some), sing_inj, metadata_name_inj in Heq as [-> ->].
          rewrite Hp in Hp'. by injection Hp' as ->.
        + apply (f_equal Some), sing_inj in Heq. symmetry in Heq. by apply part_metadata_neq in Heq.
      - intros Hq%HD. rewrite Hcons in Hq. apply prefix_cons_inv_1 in Hq. symmetry in Hq. by eapply (bucket_not_meta b).
      - intros Hq%HX. rewrite Hcons in Hq. apply cons_head in Hq. by eapply (bucket_not_meta b). }
    destruct Hmeta as (M1 & M2 & M3).
    apply (get_same e b' k' range p' s s'); [done| |done|by apply Hu|by apply Hu].
    apply Hu; [done|by intros ?%HD|by intros ?%HX].
  - intros b' Hb' Hne. unfold answer. cbn [storage]. unfold head_bucket.
    pose proof (legal_bucket_segment _ Hb') as Hbs'. rewrite bucket_path by done. cbn [try_path].
    rewrite !run_bind, !run_exists.
    assert (Hn : fs_nodes s' !! [b'] = fs_nodes s !! [b']).
    { apply Hu.
      - intros [Heq|[Heq|(u & n & Heq)]]%HF.
        + rewrite Hcons in Heq. by injection Heq.
        + apply (f_equal Some), sing_inj in Heq. by eapply bucket_not_meta in Heq.
        + apply (f_equal Some), sing_inj in Heq. by eapply bucket_not_part in Heq.
      - intros Hq%HD. rewrite Hcons in Hq. by apply prefix_cons_inv_1 in Hq.
      - intros Hq%HX. rewrite Hcons in Hq. by injection Hq. }
    by rewrite Hn.
Qed.
Print Assumptions C30_only_target.

(* A concrete history: put with metadata, then other requests, then get. *)
Example ex_put_get :
  let put := RPutObject (B "photos") (B "a/cat.jpg") None None (Some [(B "owner", B "me")]) (Some [FData (B "hel"); FData (B "lo")]) in
  let others := [RPutObject (B "photos") (B "a/dog.jpg") None None None (Some [FData (B "x")]);
                 RCopyObject (B "photos/a/dog.jpg") (B "photos") (B "b");
                 RDeleteObject (B "photos") (B "a/dog.jpg"); RCreateBucket (B "other")] in
  let s := after_all ex_env others (after ex_env put empty_store) in
  Forall (fun r => ~ affects r (B "photos") (B "a/cat.jpg")) others /\
  exists h, answer ex_env (RGetObject (B "photos") (B "a/cat.jpg") None) s =
    Ok (AGet h 0 5 5 (Some [(B "owner", B "me")]) ([quote] ++ to_hex (md5 (B "hello")) ++ [quote])) /\
    carried (get_body s h 0 5 [RdSome 2; RdSome 1]) = B "hello".
Proof.
  split; [repeat constructor; cbn; naive_solver|].
  eexists. split; vm_compute; reflexivity.
Qed.

(* Overwriting one object leaves its neighbour and the other bucket alone. *)
Example ex_only_target :
  let s := after_all ex_env [RPutObject (B "photos") (B "x") None None None (Some [FData (B "one")]);
                             RPutObject (B "photos") (B "y") None None None (Some [FData (B "two")])] empty_store in
  let s' := after ex_env (RPutObject (B "photos") (B "x") None None None (Some [FData (B "new")])) s in
  resolved (B "photos") (B "x") [B "photos"; B "x"] /\
  content s [B "photos"; B "x"] = Some (B "one") /\ content s' [B "photos"; B "x"] = Some (B "new") /\
  content s' [B "photos"; B "y"] = Some (B "two").
Proof.
  split_and!; [|vm_compute; reflexivity..]. exists [B "x"]. by split_and!; try compute_done.
Qed.
