(** Results of the operations when they run alone. *)
From Verif Require Import M_Base M_Path M_Headers M_Chunked M_BytesStream M_Fs M_Json M_Utf8 M_Storage
  S_Path S_Headers S_Chunked S_Storage S_Store L_Base L_Headers L_Fs L_Storage L_Scope L_Names L_Json L_Ops.
From Verif Require T_BytesStream.

Local Opaque md5 etag_of json_decode json_encode.

Lemma body_data_carried body : body_data body = carried body.
Proof. induction body as [|[b|] body IH]; [done| |done]. cbn. by rewrite IH. Qed.
Lemma body_ok_broken body : body_ok body = negb (broken body).
Proof. induction body as [|[b|] body IH]; [done| |done]. exact IH. Qed.

(** ** GetObject *)

(* Offset and length as a function of the range and the size. *)
Definition extent (r : option range) (n : N) : sres (N * N) :=
  match r with
  | None => Ok (0, n)%N
  | Some (RNormal first last) =>
      if (n <=? first)%N then Err InvalidRange
      else Ok (first, wrapping_sub (range_end last n) first)
  | Some (RSuffix last) =>
      if (last <=? n)%N && (last <=? i64_max)%N then Ok (n - last, last)%N else Err InvalidRange
  end.

Definition parse_range (str : option bytes) : option (option range) :=
  match str with
  | None => Some None
  | Some str => match range_from_header_str str with Some r => Some (Some r) | None => None end
  end.

Definition file_len (s : fs) (i : N) : N := N.of_nat (length (data_of s i)).

Lemma run_get_file e b k range p i s :
  get_object_path e b k = Some p -> e_os_ok e p = true -> fs_nodes s !! p = Some (NFile i) ->
  run e (get_object e b k range) s =
  (s, match parse_range range with
      | None => Err InvalidRequest
      | Some r =>
          match extent r (file_len s i) with
          | Err c => Err c
          | Ok (off, lim) =>
              match meta_of e s b k with
              | None => Err InternalError
              | Some md =>
                  if (lim <=? i64_max)%N then Ok (AGet (HFile i) off lim lim md (etag_of (data_of s i)))
                  else Err InternalError
              end
          end
      end).
Proof.
  intros Hp Hos Hi. unfold get_object. rewrite Hp. cbn [try_path].
  assert (Hgo : forall r,
    run e (bind (call (COpen p)) (fun o =>
        match o with
        | None => Ret (Err NoSuchKey)
        | Some h =>
            try_io (call (CLen h)) (fun file_len =>
            try_res (get_extent h r file_len) (fun ol =>
            try_io (load_metadata e b k) (fun md =>
            try_io (get_md5_sum e b k) (fun tag =>
              if (ol.2 <=? i64_max)%N then Ret (Ok (AGet h ol.1 ol.2 ol.2 md tag))
              else Ret (Err InternalError)))))
        end)) s =
    (s, match extent r (file_len s i) with
          | Err c => Err c
          | Ok (off, lim) =>
              match meta_of e s b k with
              | None => Err InternalError
              | Some md =>
                  if (lim <=? i64_max)%N then Ok (AGet (HFile i) off lim lim md (etag_of (data_of s i)))
                  else Err InternalError
              end
          end)).
  { intros r. rewrite run_bind, run_open, Hos, Hi. cbn [negb].
    rewrite run_try_io, run_call. cbn [exec]. fold (file_len s i).
    rewrite run_try_res.
    assert (He : run e (get_extent (HFile i) r (file_len s i)) s = (s, extent r (file_len s i))).
    { unfold get_extent, extent. destruct r as [[f l|l]|]; [by destruct (_ <=? _)%N| |done].
      destruct ((l <=? file_len s i)%N && (l <=? i64_max)%N) eqn:E; [|done].
      rewrite run_try_io, run_call. cbn [exec]. fold (file_len s i).
      apply andb_true_iff in E as [-> _]. done. }
    rewrite He. destruct (extent r (file_len s i)) as [[off lim]|c]; [|done].
    rewrite run_try_io, run_load_metadata. destruct (meta_of e s b k) as [md|]; [|done].
    rewrite run_try_io, (run_get_md5 _ _ _ p), Hos by done. unfold content. rewrite Hi. cbn [fmap option_fmap option_map fst snd].
    by destruct (lim <=? i64_max)%N. }
  unfold parse_range. destruct range as [str|]; [|apply Hgo].
  destruct (range_from_header_str str); [apply Hgo|done].
Qed.

Lemma run_get_absent e b k range p s :
  get_object_path e b k = Some p -> e_os_ok e p = false \/ fs_nodes s !! p = None ->
  run e (get_object e b k range) s =
  (s, match parse_range range with None => Err InvalidRequest | Some _ => Err NoSuchKey end).
Proof.
  intros Hp Ha. unfold get_object. rewrite Hp. cbn [try_path].
  assert (Ho : run e (call (COpen p)) s = (s, None)).
  { rewrite run_open. destruct (e_os_ok e p); cbn [negb]; [|done]. destruct Ha as [?| ->]; done. }
  unfold parse_range. destruct range as [str|].
  - destruct (range_from_header_str str); [|done]. by rewrite run_bind, Ho.
  - by rewrite run_bind, Ho.
Qed.

Lemma run_head_file e b k p i s :
  get_object_path e b k = Some p -> e_os_ok e p = true -> fs_nodes s !! p = Some (NFile i) ->
  run e (head_object e b k) s =
  (s, match meta_of e s b k with
      | None => Err InternalError
      | Some md => if (file_len s i <=? i64_max)%N then Ok (AHead (file_len s i) md) else Err InternalError
      end).
Proof.
  intros Hp Hos Hi. unfold head_object. rewrite Hp. cbn [try_path].
  rewrite run_bind, run_exists, Hos, Hi. rewrite bool_decide_true by by eexists. cbn [andb].
  rewrite run_try_io, run_call. cbn [exec]. rewrite Hos, Hi. cbn [negb].
  rewrite run_try_io, run_load_metadata. destruct (meta_of e s b k) as [md|]; [|done].
  cbn [snd]. fold (file_len s i). by destruct (file_len s i <=? i64_max)%N.
Qed.

Lemma run_head_absent e b k p s :
  get_object_path e b k = Some p -> e_os_ok e p = false \/ fs_nodes s !! p = None ->
  run e (head_object e b k) s = (s, Err NoSuchKey).
Proof.
  intros Hp Ha. unfold head_object. rewrite Hp. cbn [try_path]. rewrite run_bind, run_exists.
  destruct (e_os_ok e p); cbn [andb]; [|done]. destruct Ha as [?| ->]; [done|].
  by rewrite bool_decide_false by (by intros [? ?]).
Qed.

(** ** PutObject *)

Lemma path_parent b k p : segment_ok b -> located b k p -> exists dir c, parent p = Some (dir, c) /\ p = dir ++ [c] /\ dir <> [].
Proof.
  intros Hb (segs & Hne & _ & _ & ->). destruct segs as [|c segs _] using rev_ind; [done|].
  exists (b :: segs), c. rewrite app_comm_cons, parent_snoc. done.
Qed.

Lemma slashed_app segs c : segs <> [] -> slashed (segs ++ [c]) = slashed segs ++ B "/" ++ c.
Proof.
  induction segs as [|d segs IH]; [done|]. intros _. destruct segs as [|d' segs]; [done|].
  cbn [app]. rewrite slashed_cons by (by destruct segs). change (d' :: segs ++ [c]) with ((d' :: segs) ++ [c]).
  rewrite IH by done. rewrite (slashed_cons d (d' :: segs)) by done. by rewrite <- !app_assoc.
Qed.

Lemma ordinary_no_slash_end k : ordinary k -> ends_with_char "/" k = false.
Proof.
  intros (segs & Hne & Hok & ->). destruct segs as [|c segs _] using rev_ind; [done|].
  apply Forall_app in Hok as [_ Hc]. rewrite Forall_singleton in Hc. destruct Hc as (Hc0 & _ & _ & Hc).
  assert (Hl : exists x d, slashed (segs ++ [c]) = x ++ [d] /\ d <> "/"%char).
  { destruct c as [|d c _] using rev_ind; [done|].
    rewrite elem_of_app, elem_of_list_singleton in Hc.
    destruct segs as [|s0 segs].
    - exists c, d. split; [done|]. naive_solver.
    - exists (slashed (s0 :: segs) ++ B "/" ++ c), d. rewrite slashed_app by done.
      rewrite <- !app_assoc. split; [done|]. naive_solver. }
  destruct Hl as (x & d & -> & Hd). unfold ends_with_char. rewrite last_snoc.
  by apply aeq_false.
Qed.

Lemma ordinary_located k b : ordinary k -> exists p, located b k p.
Proof. intros (segs & ? & ? & ?). exists (b :: segs), segs. done. Qed.
Lemma located_ordinary b k p : located b k p -> ordinary k.
Proof. intros (segs & ? & ? & ? & _). by exists segs. Qed.

(* The state after the object file has been written; [None] if some step failed. *)
Lemma run_put e b k sc cl md body p s : wf s -> segment_ok b -> located b k p ->
  storage_class_ok sc = true ->
  exists dir c, p = dir ++ [c] /\ dir <> [] /\
  ((~ (e_os_ok e dir = true /\ no_file_above s dir) /\
     run e (put_object e b k sc cl md (Some body)) s = (s, Err InternalError)) \/
   (e_os_ok e dir = true /\ no_file_above s dir /\
    let s1 := set_nodes s (mkdirs dir (fs_nodes s)) in
    let '(s2, o) := exec e (CCreate p) s1 in
    run e (put_object e b k sc cl md (Some body)) s =
    match o with
    | None => (s2, Err InternalError)
    | Some i =>
        let s3 := set_data s2 i (body_data body) in
        if body_ok body then
          let '(s4, o4) := match md with
            | None => (s3, Some tt)
            | Some m => run e (save_metadata e b k m) s3 end in
          (s4, match o4 with Some _ => Ok (APut (Some (etag_of (body_data body)))) | None => Err InternalError end)
        else (s3, Err InternalError)
    end)).
Proof.
  intros Hwf Hb Hl Hsc. destruct (path_parent b k p Hb Hl) as (dir & c & Hpar & Hp & Hdir).
  exists dir, c. split; [done|]. split; [done|].
  unfold put_object. rewrite Hsc. cbn [negb]. rewrite ordinary_no_slash_end by by eapply located_ordinary.
  rewrite (located_path e b k p) by done. cbn [try_path]. rewrite Hpar.
  destruct (run_create_dir_all e dir s Hwf) as [(H1 & H2 & Hr)|(H1 & Hr)].
  - right. split; [done|]. split; [done|]. cbv zeta.
    destruct (exec e (CCreate p) (set_nodes s (mkdirs dir (fs_nodes s)))) as [s2 o] eqn:E.
    rewrite run_try_io, Hr, run_try_io, run_call, E. destruct o as [i|]; [|done].
    apply create_file in E as (Hn & Hd & Hos). rewrite run_try_io, run_copy_bytes_0 by done.
    destruct (body_ok body); [|done]. rewrite run_try_io.
    destruct md as [m|]; [|done]. destruct (run e (save_metadata e b k m) _) as [s4 [u|]]; done.
  - left. split; [done|]. by rewrite run_try_io, Hr.
Qed.

Lemma wf_set_data s i d : wf s -> wf (set_data s i d).
Proof. intros [W1 W2 W3]. by split. Qed.

Lemma wf_exec' e {R} (c : syscall R) s s' r : exec e c s = (s', r) -> wf s -> wf s'.
Proof. intros E Hwf. change s' with ((s', r).1). rewrite <- E. by apply wf_exec. Qed.

Lemma wf_run' e {A} (m : prog A) s s' a : run e m s = (s', a) -> wf s -> wf s'.
Proof. intros E Hwf. change s' with ((s', a).1). rewrite <- E. by apply wf_run. Qed.

Lemma located_not_meta b k p b' k' : located b k p -> p <> [metadata_name b' k'].
Proof. intros (segs & Hne & _ & _ & ->) [= -> ->]. done. Qed.

Lemma save_metadata_frame e b k m s s' o p : wf s -> run e (save_metadata e b k m) s = (s', o) ->
  p <> [metadata_name b k] -> content s' p = content s p /\ fs_nodes s' !! p = fs_nodes s !! p.
Proof.
  intros Hwf Hr Hp.
  assert (Hs : scoped (fun q => q = [metadata_name b k]) (fun _ => False) (fun _ => False) no_own (save_metadata e b k m)).
  { apply scoped_save_metadata. intros q. rewrite metadata_path. by intros [= <-]. }
  pose proof (scoped_run e _ _ _ _ s Hwf Hs) as Hu. rewrite Hr in Hu. cbn [fst] in Hu.
  split; [by apply Hu|]. apply Hu; auto.
Qed.

Lemma run_save_metadata e b k m s :
  run e (save_metadata e b k m) s =
  let '(s1, o) := exec e (CCreate [metadata_name b k]) s in
  match o with Some i => (set_data s1 i (json_encode m), Some tt) | None => (s1, None) end.
Proof. unfold save_metadata. rewrite metadata_path. apply run_write_file. Qed.

Lemma put_ok e b k sc cl md body p s s' a : wf s -> segment_ok b -> located b k p ->
  run e (put_object e b k sc cl md body) s = (s', Ok a) ->
  exists fs, body = Some fs /\ broken fs = false /\ a = APut (Some (etag_of (carried fs))) /\
    content s' p = Some (carried fs) /\ e_os_ok e p = true /\
    (forall m, md = Some m -> e_os_ok e [metadata_name b k] = true /\
                content s' [metadata_name b k] = Some (json_encode m)).
Proof.
  intros Hwf Hb Hl Hrun.
  destruct (storage_class_ok sc) eqn:Hsc; [|unfold put_object in Hrun; by rewrite Hsc in Hrun].
  destruct body as [body|]; [|unfold put_object in Hrun; by rewrite Hsc in Hrun].
  destruct (run_put e b k sc cl md body p s Hwf Hb Hl Hsc) as (dir & c & Hp & Hdir & [[_ H]|(Hos & Hnf & H)]).
  { rewrite H in Hrun. done. }
  exists body. split; [done|]. cbv zeta in H.
  set (s1 := set_nodes s (mkdirs dir (fs_nodes s))) in H.
  assert (Hwf1 : wf s1).
  { destruct (run_create_dir_all e dir s Hwf) as [(_ & _ & Hr)|(Hn & _)]; [|by destruct Hn].
    by eapply wf_run'. }
  destruct (exec e (CCreate p) s1) as [s2 [i|]] eqn:E; rewrite Hrun in H; [|done].
  pose proof (wf_exec' _ _ _ _ _ E Hwf1) as Hwf2. apply create_file in E as (Hn & Hd & Hosp).
  rewrite body_ok_broken, body_data_carried in H. destruct (broken body); [done|]. cbn [negb] in H.
  split; [done|].
  assert (Hc3 : content (set_data s2 i (carried body)) p = Some (carried body)) by by apply content_set_data.
  pose proof (wf_set_data s2 i (carried body) Hwf2) as Hwf3.
  set (s3 := set_data s2 i (carried body)) in *. clearbody s3.
  destruct md as [m|].
  - rewrite run_save_metadata in H. destruct (exec e (CCreate [metadata_name b k]) s3) as [s4 [j|]] eqn:E4; [|done].
    assert (Hrs : run e (save_metadata e b k m) s3 = (set_data s4 j (json_encode m), Some tt)).
    { by rewrite run_save_metadata, E4. }
    apply create_file in E4 as (Hn4 & Hd4 & Hos4). injection H as Ha <-. rewrite Ha.
    split; [done|]. split.
    + eapply save_metadata_frame in Hrs as [-> _]; [done|done|]. by eapply located_not_meta.
    + split; [done|]. intros m' [= <-]. split; [done|]. by apply content_set_data.
  - injection H as Ha ->. rewrite Ha. done.
Qed.

(** ** Scopes of plain requests *)


Lemma bucket_not_meta b b' k' : legal_bucket b -> b <> metadata_name b' k'.
Proof. intros Hb ->. exact (dot_not_bucket (tail (metadata_name b' k')) Hb). Qed.
Lemma bucket_not_part b u n : legal_bucket b -> b <> part_name u n.
Proof. intros Hb ->. exact (dot_not_bucket (tail (part_name u n)) Hb). Qed.

Lemma sing_inj (x y : bytes) : Some [x] = Some [y] -> x = y.
Proof. congruence. Qed.

Lemma object_path e b k p : legal_bucket b -> ordinary k -> get_object_path e b k = Some p <-> located b k p.
Proof.
  intros Hb Hk. pose proof (legal_bucket_segment _ Hb) as Hs. destruct (ordinary_located k b Hk) as [q Hq].
  split.
  - rewrite (located_path e b k q) by done. by intros [= <-].
  - intros Hl. by apply located_path.
Qed.

Lemma plain_files e r b k p : plain_req r -> legal_bucket b -> located b k p -> r_files e r p -> affects r b k.
Proof.
  intros Hr Hb Hl HF. destruct r; cbn [plain_req r_files affects] in *; try done.
  - destruct Hr as (Hb' & Hk' & _). rewrite object_path, metadata_path in HF by done.
    destruct HF as [HF|[= <-]]; [by destruct (located_inj _ _ _ _ _ Hl HF)|].
    by eapply located_not_meta in Hl.
  - destruct HF as (q & Hq & Hpre). rewrite bucket_path in Hq by by apply legal_bucket_segment.
    injection Hq as <-. destruct Hl as (segs & _ & _ & _ & ->).
    by apply prefix_cons_inv_1 in Hpre.
  - destruct Hr as (Hb' & Hk'). rewrite object_path in HF by done. by destruct (located_inj _ _ _ _ _ Hl HF).
  - destruct Hr as (Hb' & Hks). destruct HF as (key & Hin & HF). rewrite Forall_forall in Hks.
    rewrite object_path in HF by auto. destruct (located_inj _ _ _ _ _ Hl HF) as [-> ->]. done.
  - destruct Hr as (Hb' & Hk' & _). rewrite object_path, metadata_path in HF by done.
    destruct HF as [HF|[_ [= <-]]]; [by destruct (located_inj _ _ _ _ _ Hl HF)|].
    by eapply located_not_meta in Hl.
  - rewrite part_path_eq in HF by done. injection HF as <-.
    destruct Hl as (segs & ? & _ & _ & [= _ <-]). done.
  - destruct Hr as (Hb' & Hk' & Hu). rewrite object_path in HF by done.
    destruct HF as [HF|(l & n & _ & _ & HF)]; [by destruct (located_inj _ _ _ _ _ Hl HF)|].
    rewrite part_path_eq in HF by done. injection HF as <-.
    destruct Hl as (segs & ? & _ & _ & [= _ <-]). done.
Qed.

Lemma prefix_singleton {A} (x y : A) : [x] `prefix_of` [y] -> x = y.
Proof. intros H. by apply prefix_cons_inv_1 in H. Qed.

Lemma plain_meta e r b k : plain_req r -> r_files e r [metadata_name b k] ->
  match r with
  | RCopyObject _ b' k' => b' = b /\ k' = k
  | RPutObject b' k' _ _ md _ => b' = b /\ k' = k /\ is_Some md
  | _ => False
  end.
Proof.
  intros Hr HF. destruct r; cbn [plain_req r_files] in *; try done.
  - destruct Hr as (Hb' & Hk' & _). rewrite object_path, metadata_path in HF by done.
    destruct HF as [HF|HF%sing_inj]; [by eapply located_not_meta in HF|].
    apply metadata_name_inj in HF as [-> ->]. done.
  - destruct HF as (q & Hq & Hpre). rewrite bucket_path in Hq by by apply legal_bucket_segment.
    injection Hq as <-. apply prefix_singleton in Hpre. by eapply bucket_not_meta.
  - destruct Hr as (Hb' & Hk'). rewrite object_path in HF by done. by eapply located_not_meta in HF.
  - destruct Hr as (Hb' & Hks). destruct HF as (key & Hin & HF). rewrite Forall_forall in Hks.
    rewrite object_path in HF by auto. by eapply located_not_meta in HF.
  - destruct Hr as (Hb' & Hk' & _). rewrite object_path, metadata_path in HF by done.
    destruct HF as [HF|[Hm HF%sing_inj]]; [by eapply located_not_meta in HF|].
    apply metadata_name_inj in HF as [-> ->]. done.
  - rewrite part_path_eq in HF by done. apply sing_inj in HF. by apply part_metadata_neq in HF.
  - destruct Hr as (Hb' & Hk' & Hu). rewrite object_path in HF by done.
    destruct HF as [HF|(l & n & _ & _ & HF)]; [by eapply located_not_meta in HF|].
    rewrite part_path_eq in HF by done. apply sing_inj in HF. by apply part_metadata_neq in HF.
Qed.

Lemma plain_meta_dirs e r b k : plain_req r -> ~ r_dirs e r [metadata_name b k] /\ ~ r_rmdirs e r [metadata_name b k].
Proof.
  intros Hr. split; intros H; destruct r; cbn [plain_req r_dirs r_rmdirs] in *; try done.
  - rewrite bucket_path in H by by apply legal_bucket_segment. apply sing_inj in H. by eapply bucket_not_meta.
  - destruct Hr as (Hb' & Hk' & _). destruct H as (q & Hq & Hpre). rewrite object_path in Hq by done.
    destruct Hq as (segs & _ & _ & _ & ->). apply prefix_cons_inv_1 in Hpre. symmetry in Hpre. by eapply bucket_not_meta.
  - destruct H as (q & Hq & Hpre). rewrite bucket_path in Hq by by apply legal_bucket_segment.
    injection Hq as <-. apply prefix_singleton in Hpre. by eapply bucket_not_meta.
  - destruct Hr as (Hb' & Hk'). rewrite object_path in H by done. by eapply located_not_meta in H.
Qed.

Lemma storage_untouched e r s : wf s -> untouched (r_files e r) (r_dirs e r) (r_rmdirs e r) s (after e r s).
Proof. intros Hwf. apply scoped_run; [done|]. apply scoped_storage. Qed.

Lemma wf_after e r s : wf s -> wf (after e r s).
Proof. apply wf_run. Qed.

(** ** Metadata files stay readable *)

Definition intact_at (s : fs) (q : path) : Prop :=
  match fs_nodes s !! q with
  | None => True
  | Some NDir => False
  | Some (NFile _) => exists c m, content s q = Some c /\ json_decode c = Some m
  end.

Lemma intact_at_same s s' q : fs_nodes s' !! q = fs_nodes s !! q -> content s' q = content s q ->
  intact_at s q -> intact_at s' q.
Proof. unfold intact_at. by intros -> ->. Qed.

Lemma scoped_intact e {A} (m : prog A) F D s s' a : wf s -> run e m s = (s', a) ->
  scoped F D (fun _ => False) no_own m ->
  (forall b k, ~ F [metadata_name b k] /\ ~ D [metadata_name b k]) -> intact s -> intact s'.
Proof.
  intros Hwf Hr Hs Hno Hi b k. destruct (Hno b k) as [H1 H2].
  pose proof (scoped_run e _ _ _ _ s Hwf Hs) as Hu. rewrite Hr in Hu. cbn [fst] in Hu.
  eapply intact_at_same; [by apply Hu; auto|by apply Hu|]. apply Hi.
Qed.

Lemma put_split e b k sc cl m body s : ends_with_char "/" k = false ->
  run e (put_object e b k sc cl (Some m) body) s =
  let '(s3, r) := run e (put_object e b k sc cl None body) s in
  match r with
  | Ok a => let '(s4, o) := run e (save_metadata e b k m) s3 in
            (s4, match o with Some _ => Ok a | None => Err InternalError end)
  | Err c => (s3, Err c)
  end.
Proof.
  intros Hk. unfold put_object. destruct (negb _); [done|]. destruct body as [body|]; [|done]. rewrite Hk.
  destruct (get_object_path e b k) as [p|]; [|done]. cbn [try_path]. rewrite !run_try_io.
  destruct (run e _ s) as [s1 [u|]]; [|done]. rewrite !run_try_io.
  destruct (run e (call (CCreate p)) s1) as [s2 [i|]]; [|done]. rewrite !run_try_io.
  destruct (run e (copy_bytes e i 0 body) s2) as [s3 [n|]]; [|done]. rewrite !run_try_io.
  cbn [run]. by destruct (run e (save_metadata e b k m) s3) as [s4 [[]|]].
Qed.

Lemma intact_write_meta e b k s s1 i c m : wf s -> intact s ->
  exec e (CCreate [metadata_name b k]) s = (s1, Some i) -> json_decode c = Some m ->
  intact (set_data s1 i c).
Proof.
  intros Hwf Hi E Hc b' k'. change (intact_at (set_data s1 i c) [metadata_name b' k']).
  pose proof (wf_exec' _ _ _ _ _ E Hwf) as Hwf1.
  destruct (create_file _ _ _ _ _ E) as (Hn & Hd & Hos).
  destruct (decide ([metadata_name b' k'] = [metadata_name b k])) as [->|Hne].
  - unfold intact_at. change (fs_nodes (set_data s1 i c)) with (fs_nodes s1). rewrite Hn.
    exists c, m. split; [|done]. by apply content_set_data.
  - apply (intact_at_same s); [..|apply Hi].
    + cbn [set_data fs_nodes]. cbn [exec] in E. rewrite Hos in E. cbn [negb] in E.
      destruct (fs_nodes s !! [metadata_name b k]) as [[|j]|]; [done|by injection E as <- <-|].
      destruct (parent _) as [[q x]|]; [|done]. destruct (is_dir s q); [|done]. injection E as <- <-. cbn.
      by rewrite lookup_insert_ne.
    + rewrite content_set_data_ne.
      * assert (Hs : scoped (fun q => q = [metadata_name b k]) (fun _ => False) (fun _ => False) no_own (call (CCreate [metadata_name b k]))).
        { cbn. by split. }
        pose proof (scoped_run e _ _ _ _ s Hwf Hs) as Hu. rewrite run_call, E in Hu. by apply Hu.
      * intros Hn'. apply Hne. by eapply (wf_inj s1).
Qed.

Lemma intact_save_metadata e b k m s s' o : wf s -> intact s -> metadata_ok m ->
  run e (save_metadata e b k m) s = (s', o) -> intact s'.
Proof.
  intros Hwf Hi [Hd Hv]. rewrite run_save_metadata.
  destruct (exec e (CCreate [metadata_name b k]) s) as [s1 [i|]] eqn:E.
  - intros [= <- <-]. eapply intact_write_meta; [done|done|done|]. by apply json_round_trip.
  - apply create_fail in E as ->. by intros [= <- <-].
Qed.

Lemma intact_copy_meta e b k b' k' s s' o : wf s -> intact s -> (b, k) <> (b', k') ->
  run e (copy_file e [metadata_name b k] [metadata_name b' k']) s = (s', o) -> intact s'.
Proof.
  intros Hwf Hi Hne. rewrite run_copy_file.
  assert (Hne' : [metadata_name b k] <> [metadata_name b' k']).
  { intros H. apply (f_equal Some), sing_inj, metadata_name_inj in H as [-> ->]. done. }
  destruct (content s [metadata_name b k]) as [c|] eqn:Hc; [|by intros [= <- <-]].
  destruct (e_os_ok e _); [|by intros [= <- <-]].
  destruct (exec e (CCreate [metadata_name b' k']) s) as [s1 [i|]] eqn:E.
  - intros [= <- <-].
    assert (Hc1 : content s1 [metadata_name b k] = Some c).
    { assert (Hs : scoped (fun q => q = [metadata_name b' k']) (fun _ => False) (fun _ => False) no_own (call (CCreate [metadata_name b' k']))).
      { cbn. by split. }
      pose proof (scoped_run e _ _ _ _ s Hwf Hs) as Hu. rewrite run_call, E in Hu. rewrite <- Hc. by apply Hu. }
    rewrite Hc1. cbn [default].
    specialize (Hi b k) as Hib. unfold content in Hc. destruct (fs_nodes s !! [metadata_name b k]) as [[|j]|] eqn:Hj; [done| |done].
    destruct Hib as (c' & m & Hc' & Hm). unfold content in Hc'. rewrite Hj in Hc'. rewrite Hc' in Hc. injection Hc as <-.
    by eapply intact_write_meta.
  - apply create_fail in E as ->. by intros [= <- <-].
Qed.

Lemma intact_after e r s : wf s -> intact s -> plain_req r -> intact (after e r s).
Proof.
  intros Hwf Hi Hr. unfold after.
  assert (Hgen : (forall b k, ~ r_files e r [metadata_name b k]) -> intact (run e (storage e r) s).1).
  { intros Hno b k. pose proof (storage_untouched e r s Hwf) as Hu. unfold after in Hu.
    destruct (plain_meta_dirs e r b k Hr) as [H2 H3].
    eapply intact_at_same; [apply Hu|apply Hu|apply Hi]; auto. }
  assert (Hcase : (exists b k, r_files e r [metadata_name b k] /\
     match r with RCopyObject _ b' k' => b' = b /\ k' = k
       | RPutObject b' k' _ _ md _ => b' = b /\ k' = k /\ is_Some md | _ => False end) \/
     intact (run e (storage e r) s).1).
  { destruct r; try (right; apply Hgen; intros b k HF; by apply (plain_meta e _ b k Hr) in HF).
    - left. exists bucket, key. split; [|done]. right. by rewrite metadata_path.
    - destruct md as [m|].
      + left. exists bucket, key. split; [|done]. right. split; [done|]. by rewrite metadata_path.
      + right. apply Hgen. intros b k HF. apply (plain_meta e _ b k Hr) in HF as (_ & _ & [? ?]). done. }
  destruct Hcase as [(b & k & _ & HF)|]; [|done].
  destruct r; try done; cbn [storage] in *.
  - (* copy *)
    destruct Hr as (Hb & Hk & Hsrc). unfold copy_object.
    destruct (copy_source_from_header_str copy_source) as [[sb sk]|] eqn:Ecs; [|done].
    apply copy_source_spec in Ecs as (Hform & _). clear HF.
    destruct (get_object_path e sb sk) as [src|]; [|done]. cbn [try_path].
    destruct (get_object_path e bucket key) as [dst|] eqn:Hdst; [|done]. cbn [try_path].
    rewrite run_try_io. destruct (run e (call (CStat src)) s) as [s0 o0] eqn:E0.
    rewrite run_call in E0. injection E0 as <- Ho0. destruct o0; [|done].
    rewrite run_try_io. destruct (run e (copy_file e src dst) s) as [s1 o1] eqn:E1.
    assert (Hi1 : intact s1).
    { eapply scoped_intact; [exact Hwf|exact E1|apply (scoped_copy_file e (fun q => q = dst) (fun _ => False)); done| |done].
      intros b' k'. split; [|tauto]. intros <-. apply object_path in Hdst; [|done..]. by eapply located_not_meta in Hdst. }
    pose proof (wf_run' _ _ _ _ _ E1 Hwf) as Hwf1.
    destruct o1; [|done]. rewrite metadata_path. cbn [try_path]. rewrite run_bind, run_exists.
    rewrite run_try_io, metadata_path.
    destruct (run e (if _ : bool then _ else _) s1) as [s2 o2] eqn:E2.
    assert (Hi2 : intact s2).
    { destruct (_ && _).
      - eapply intact_copy_meta in E2; try done. intros [= -> ->]. apply Hsrc. by rewrite Hform.
      - by injection E2 as <- <-. }
    destruct o2; [|done]. rewrite run_try_io.
    unfold get_md5_sum. destruct (get_object_path e sb sk) as [q|]; [|done].
    rewrite run_bind, run_read_file. destruct (e_os_ok e q); [|done]. by destruct (content s2 q).
  - (* put *)
    destruct Hr as (Hb & Hk & Hm). destruct HF as (_ & _ & [m ->]). specialize (Hm m eq_refl).
    rewrite put_split by by apply ordinary_no_slash_end.
    destruct (run e (put_object e bucket key storage_class content_length None body) s) as [s3 r] eqn:E3.
    assert (Hi3 : intact s3).
    { intros b' k'. pose proof (storage_untouched e (RPutObject bucket key storage_class content_length None body) s Hwf) as Hu.
      unfold after in Hu. cbn [storage] in Hu. rewrite E3 in Hu. cbn [fst] in Hu.
      assert (Hr' : plain_req (RPutObject bucket key storage_class content_length None body)) by (split_and!; done).
      destruct (plain_meta_dirs e _ b' k' Hr') as [H2 H3].
      assert (H1 : ~ r_files e (RPutObject bucket key storage_class content_length None body) [metadata_name b' k']).
      { intros H1. apply (plain_meta e _ b' k' Hr') in H1 as (_ & _ & [? ?]). done. }
      eapply intact_at_same; [apply Hu|apply Hu|apply Hi]; auto. }
    pose proof (wf_run' _ _ _ _ _ E3 Hwf) as Hwf3.
    destruct r as [a|]; [|done]. destruct (run e (save_metadata e bucket key m) s3) as [s4 o] eqn:E4.
    cbn [fst]. by eapply intact_save_metadata.
Qed.

Lemma after_all_inv (P : fs -> Prop) e rs s :
  (forall r s, r ∈ rs -> P s -> P (after e r s)) -> P s -> P (after_all e rs s).
Proof.
  revert s. induction rs as [|r rs IH]; intros s Hstep HP; [done|]. cbn [after_all]. apply IH.
  - intros r' s' Hr'. apply Hstep. by right.
  - apply Hstep; [by left|done].
Qed.

(** ** GetObject of a known file *)

Lemma intact_meta e s b k : intact s -> exists md, meta_of e s b k = Some md.
Proof.
  intros Hi. specialize (Hi b k). unfold meta_of.
  destruct (e_os_ok e [metadata_name b k]); cbn [andb]; [|by eexists].
  destruct (fs_nodes s !! [metadata_name b k]) as [[|i]|]; [done| |].
  - destruct Hi as (c & m & -> & ->). rewrite bool_decide_true by by eexists. by eexists.
  - rewrite bool_decide_false by by intros [? ?]. by eexists.
Qed.

Lemma content_Some s p d : content s p = Some d -> exists i, fs_nodes s !! p = Some (NFile i) /\ data_of s i = d.
Proof. unfold content. destruct (fs_nodes s !! p) as [[|i]|]; [done| |done]. intros [= <-]. by exists i. Qed.

(* What is delivered for a given offset and limit. *)
Lemma body_delivered s i off lim sched :
  Forall (fun st => st <> RdErr) sched ->
  carried (get_body s (HFile i) off lim sched) =
    take (N.to_nat lim) (drop (N.to_nat off) (data_of s i)) /\
  broken (get_body s (HFile i) off lim sched) = false.
Proof.
  intros Hs. cbn [get_body].
  destruct (T_BytesStream.C28_body_exact 4096 (Some lim) (drop (N.to_nat off) (data_of s i)) sched) as (H1 & H2 & _); [done|done|].
  split; [|done]. rewrite H1. unfold T_BytesStream.wanted.
  set (d := drop (N.to_nat off) (data_of s i)).
  destruct (decide (lim <= N.of_nat (length d))%N).
  - by rewrite N.min_l by done.
  - rewrite N.min_r by lia. rewrite Nat2N.id, !take_ge by lia. done.
Qed.

Lemma gets_file e s b k p i range r off lim md : get_object_path e b k = Some p -> e_os_ok e p = true ->
  fs_nodes s !! p = Some (NFile i) -> parse_range range = Some r -> extent r (file_len s i) = Ok (off, lim) ->
  (lim <= i64_max)%N -> meta_of e s b k = Some md ->
  gets e s b k range (take (N.to_nat lim) (drop (N.to_nat off) (data_of s i))) lim md (etag_of (data_of s i)).
Proof.
  intros Hp Hos Hi Hr He Hl Hm. exists (HFile i), off, lim. split.
  - unfold answer. cbn [storage]. rewrite (run_get_file e b k range p i s Hp Hos Hi), Hr, He, Hm.
    cbn [snd]. by rewrite (proj2 (N.leb_le _ _)).
  - intros sched Hs. by apply body_delivered.
Qed.

(** The same object looks the same in two stores that agree on its file and metadata. *)
Lemma get_same e b k range p s s' : get_object_path e b k = Some p ->
  fs_nodes s' !! p = fs_nodes s !! p -> content s' p = content s p ->
  fs_nodes s' !! [metadata_name b k] = fs_nodes s !! [metadata_name b k] ->
  content s' [metadata_name b k] = content s [metadata_name b k] ->
  answer e (RGetObject b k range) s' = answer e (RGetObject b k range) s /\
  answer e (RHeadObject b k) s' = answer e (RHeadObject b k) s.
Proof.
  intros Hp Hn Hc Hmn Hmc.
  assert (Hm : meta_of e s' b k = meta_of e s b k) by (unfold meta_of; by rewrite Hmn, Hmc).
  unfold answer. cbn [storage].
  destruct (e_os_ok e p) eqn:Hos; [|by rewrite !(run_get_absent _ _ _ _ p), !(run_head_absent _ _ _ p) by auto].
  destruct (fs_nodes s !! p) as [[|i]|] eqn:E.
  - (* a directory *)
    split.
    + unfold get_object. rewrite Hp. cbn [try_path].
      assert (Hgo : forall r, (run e (bind (call (COpen p)) (fun o =>
        match o with
        | None => Ret (Err NoSuchKey)
        | Some h =>
            try_io (call (CLen h)) (fun file_len =>
            try_res (get_extent h r file_len) (fun ol =>
            try_io (load_metadata e b k) (fun md =>
            try_io (get_md5_sum e b k) (fun tag =>
              if (ol.2 <=? i64_max)%N then Ret (Ok (AGet h ol.1 ol.2 ol.2 md tag))
              else Ret (Err InternalError)))))
        end)) s').2 = (run e (bind (call (COpen p)) (fun o =>
        match o with
        | None => Ret (Err NoSuchKey)
        | Some h =>
            try_io (call (CLen h)) (fun file_len =>
            try_res (get_extent h r file_len) (fun ol =>
            try_io (load_metadata e b k) (fun md =>
            try_io (get_md5_sum e b k) (fun tag =>
              if (ol.2 <=? i64_max)%N then Ret (Ok (AGet h ol.1 ol.2 ol.2 md tag))
              else Ret (Err InternalError)))))
        end)) s).2).
      { intros r. rewrite !run_bind, !run_open, Hos, Hn, E. cbn [negb].
        rewrite !run_try_io, !run_call. cbn [exec]. rewrite !run_try_res.
        assert (He : forall s, run e (get_extent (HDir p) r (e_dir_len e p)) s = (s, extent r (e_dir_len e p))).
        { intros s0. unfold get_extent, extent. destruct r as [[f l|l]|]; [by destruct (_ <=? _)%N| |done].
          destruct ((l <=? e_dir_len e p)%N && (l <=? i64_max)%N) eqn:E1; [|done].
          rewrite run_try_io, run_call. cbn [exec]. apply andb_true_iff in E1 as [-> _]. done. }
        rewrite !He. destruct (extent r (e_dir_len e p)) as [[off lim]|]; [|done].
        rewrite !run_try_io, !run_load_metadata, Hm. destruct (meta_of e s b k); [|done].
        rewrite !run_try_io, !(run_get_md5 _ _ _ p) by done. rewrite Hos, Hc.
        destruct (content s p); [|done]. cbn. by destruct (lim <=? i64_max)%N. }
      destruct range as [str|]; [|apply Hgo]. destruct (range_from_header_str str); [apply Hgo|done].
    + unfold head_object. rewrite Hp. cbn [try_path]. rewrite !run_bind, !run_exists, Hos, Hn, E.
      rewrite bool_decide_true by by eexists. cbn [andb]. rewrite !run_try_io, !run_call. cbn [exec].
      rewrite Hos, Hn, E. cbn [negb]. rewrite !run_try_io, !run_load_metadata, Hm.
      destruct (meta_of e s b k); [|done]. by destruct (_ <=? _)%N.
  - assert (Hd : data_of s' i = data_of s i).
    { unfold content in Hc. rewrite Hn, E in Hc. by injection Hc. }
    rewrite !(run_get_file _ _ _ _ p i) by (by rewrite ?Hn). rewrite !(run_head_file _ _ _ p i) by (by rewrite ?Hn).
    unfold file_len. rewrite Hd, Hm. done.
  - rewrite !(run_get_absent _ _ _ _ p) by (by rewrite ?Hn; auto). by rewrite !(run_head_absent _ _ _ p) by (by rewrite ?Hn; auto).
Qed.
