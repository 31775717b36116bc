(** C36: listing objects. *)
From Verif Require Import M_Base M_Path M_Headers M_Chunked M_BytesStream M_Crypto M_Fs M_Json M_Utf8 M_Storage
  S_Path S_Headers S_Chunked S_Storage S_Store L_Base L_Headers L_Utf8 L_Fs L_Storage L_Scope L_Names L_Ops L_Results
  L_Tidy T_Store T_Copy.

Local Opaque md5 etag_of json_decode json_encode metadata_name part_name.

Lemma join_slashed p : join_components p = slashed p.
Proof. induction p as [|c [|d p] IH]; [done|done|].
  change (c ++ B "/" ++ join_components (d :: p) = c ++ B "/" ++ slashed (d :: p)). by rewrite IH.
Qed.

Lemma slashed_text p : Forall (fun c => utf8_valid c = true) p -> utf8_valid (slashed p) = true.
Proof.
  induction 1 as [|c p Hc Hp IH]; [done|]. destruct p as [|d p]; [done|].
  rewrite (slashed_cons c (d :: p)) by done. change (c ++ B "/" ++ slashed (d :: p)) with (c ++ "/"%char :: slashed (d :: p)).
  rewrite utf8_valid_cut by (by vm_compute). by rewrite Hc, IH.
Qed.

Lemma prefix_snoc {A} (q p : list A) c : q `prefix_of` p ++ [c] -> q `prefix_of` p \/ q = p ++ [c].
Proof.
  intros [k Hk]. destruct k as [|x k _] using rev_ind; [right; by rewrite app_nil_r in Hk|left].
  rewrite app_assoc in Hk. apply snoc_inj in Hk as [-> _]. by eexists.
Qed.

Section listing.
  Context (e : env) (s : fs) (b : bytes) (prefix : option bytes).
  Context (Hwf : wf s) (Htidy : tidy e s).
  Context (Hsmall : forall q c, content s (b :: q) = Some c -> (N.of_nat (length c) <= i64_max)%N).

  Let key (p : path) : bytes := slashed (tail p).
  Let size_of (p : path) : N := N.of_nat (length (default [] (content s p))).
  Let obj (p : path) : bytes * N := (key p, size_of p).
  Let matches (p : path) : bool := match prefix with Some x => starts_with x (key p) | None => true end.

  Lemma key_text_eq p : [b] `prefix_of` p -> is_Some (fs_nodes s !! p) -> key_text [b] p = Some (key p).
  Proof.
    intros [q ->] Hp. destruct (Htidy _ Hp) as (_ & Ht & _). unfold key_text.
    assert (Hb : below [b] ([b] ++ q) = Some q) by by apply below_Some. rewrite Hb. f_equal. unfold key. cbn [tail app].
    rewrite join_slashed. apply utf8_lossy_valid, slashed_text. by apply Forall_app in Ht as [_ ?].
  Qed.

  Lemma run_list_entries dir names : [b] `prefix_of` dir -> Forall (fun c => is_Some (fs_nodes s !! (dir ++ [c]))) names ->
    run e (list_entries [b] prefix dir (map (fun c => (c, is_dir s (dir ++ [c]))) names)) s =
    (s, Ok (map (fun c => dir ++ [c]) (filter (fun c => is_dir s (dir ++ [c]) = true) names),
            map (fun c => obj (dir ++ [c])) (filter (fun c => is_dir s (dir ++ [c]) = false /\ matches (dir ++ [c]) = true) names))).
  Proof.
    intros Hpre Hall. induction Hall as [|c names Hc Hall IH]; [done|]. cbn [map list_entries].
    rewrite !filter_cons. destruct (is_dir s (dir ++ [c])) eqn:Hd.
    - rewrite run_try_res, IH. rewrite decide_True by done. rewrite decide_False by (by intros [? _]). done.
    - rewrite key_text_eq; [|by apply prefix_app_r|done].
      rewrite (decide_False (P := false = true)) by done.
      fold (matches (dir ++ [c])). destruct (matches (dir ++ [c])) eqn:Hm.
      + rewrite decide_True by done. rewrite run_try_io, run_call. cbn [exec].
        destruct (Htidy _ Hc) as (_ & _ & ->). cbn [negb].
        destruct Hc as [[|i] Hn]; [unfold is_dir in Hd; by rewrite Hn in Hd|]. rewrite Hn.
        assert (Hcont : content s (dir ++ [c]) = Some (data_of s i)) by (unfold content; by rewrite Hn).
        cbn [snd]. rewrite (proj2 (N.leb_le _ _)) by (destruct Hpre as [q ->]; by apply (Hsmall (q ++ [c]))).
        rewrite run_try_res, IH. cbn [map]. unfold obj, size_of. by rewrite Hcont.
      + rewrite decide_False by (by intros [_ ?]). apply IH.
  Qed.

  Definition pending (queue : list path) : gset path :=
    filter (fun d => is_dir s d = true /\ Exists (fun q => q `prefix_of` d) queue) (dom (fs_nodes s)).

  Lemma elem_pending queue d : d ∈ pending queue <-> fs_nodes s !! d = Some NDir /\ exists q, q ∈ queue /\ q `prefix_of` d.
  Proof.
    unfold pending. rewrite elem_of_filter, elem_of_dom, is_dir_true, Exists_exists.
    split; [naive_solver|]. intros [H ?]. rewrite H. eauto.
  Qed.

  (* No two entries of the queue lie one below the other. *)
  Definition antichain (queue : list path) : Prop :=
    NoDup queue /\ forall q q', q ∈ queue -> q' ∈ queue -> q `prefix_of` q' -> q = q'.

  Lemma run_list_queue fuel : forall queue,
    (forall q, q ∈ queue -> fs_nodes s !! q = Some NDir /\ [b] `prefix_of` q) -> antichain queue ->
    size (pending queue) <= fuel ->
    exists ps, run e (list_queue fuel [b] prefix queue) s = (s, Ok (map obj ps)) /\ NoDup ps /\
      forall p, p ∈ ps <-> (exists q, q ∈ queue /\ q `prefix_of` p) /\ (exists i, fs_nodes s !! p = Some (NFile i)) /\ matches p = true.
  Proof.
    induction fuel as [|fuel IH]; intros queue Hq Hac Hsz.
    - destruct queue as [|dir queue].
      + exists []. split; [done|]. split; [constructor|]. intros p. rewrite elem_of_nil. split; [done|].
        intros [(q & Hin & _) _]. by apply elem_of_nil in Hin.
      + exfalso. destruct (Hq dir ltac:(by left)) as [Hd _].
        assert (H : dir ∈ pending (dir :: queue)) by (apply elem_pending; split; [done|]; exists dir; split; [by left|done]).
        apply elem_of_weaken with (Y := pending (dir :: queue)) in H; [|done].
        assert (H0 : size (pending (dir :: queue)) = 0) by lia. apply size_empty_inv in H0. set_solver.
    - destruct queue as [|dir queue].
      + exists []. split; [done|]. split; [constructor|]. intros p. rewrite elem_of_nil. split; [done|].
        intros [(q & Hin & _) _]. by apply elem_of_nil in Hin.
      + destruct (Hq dir ltac:(by left)) as [Hd Hbd]. cbn [list_queue]. rewrite run_try_io, run_call. cbn [exec].
        destruct (Htidy dir ltac:(by eexists)) as (_ & _ & ->). rewrite (proj2 (is_dir_true s dir)) by done. cbn [andb].
        set (names := e_order e dir (child_names s dir)).
        assert (Hnames : forall c, c ∈ names <-> is_Some (fs_nodes s !! (dir ++ [c]))).
        { intros c. unfold names. rewrite e_order_perm. apply elem_child_names. }
        assert (Hnd : NoDup names) by (unfold names; rewrite e_order_perm; apply NoDup_child_names).
        clearbody names.
        rewrite run_try_res, run_list_entries; [|done|by apply Forall_forall; intros c Hc; apply Hnames].
        rewrite run_try_res. cbn [fst snd].
        set (ds := map (fun c => dir ++ [c]) (filter (fun c => is_dir s (dir ++ [c]) = true) names)).
        set (fls := map (fun c => dir ++ [c]) (filter (fun c => is_dir s (dir ++ [c]) = false /\ matches (dir ++ [c]) = true) names)).
        assert (Hds : forall q, q ∈ ds <-> exists c, q = dir ++ [c] /\ fs_nodes s !! q = Some NDir).
        { intros q. unfold ds. rewrite elem_of_list_fmap. split.
          - intros (c & -> & Hc). apply elem_of_list_filter in Hc as [Hc _]. apply is_dir_true in Hc. eauto.
          - intros (c & -> & Hc). exists c. split; [done|]. apply elem_of_list_filter. split; [by apply is_dir_true|].
            apply Hnames. by eexists. }
        assert (Hfls : forall q, q ∈ fls <-> exists c, q = dir ++ [c] /\ (exists i, fs_nodes s !! q = Some (NFile i)) /\ matches q = true).
        { intros q. unfold fls. rewrite elem_of_list_fmap. split.
          - intros (c & -> & Hc). apply elem_of_list_filter in Hc as [[Hc1 Hc2] Hin]. apply Hnames in Hin as [n Hn].
            exists c. split; [done|]. split; [|done]. unfold is_dir in Hc1. rewrite Hn in Hc1. destruct n; [done|]. eauto.
          - intros (c & -> & (i & Hc) & Hm). exists c. split; [done|]. apply elem_of_list_filter. split; [split; [|done]|].
            + unfold is_dir. by rewrite Hc.
            + apply Hnames. by eexists. }
        assert (Hnf : NoDup fls) by (apply NoDup_fmap_2; [by intros c c' [_ ?]%snoc_inj|by apply NoDup_filter]).
        assert (Hnds : NoDup ds) by (apply NoDup_fmap_2; [by intros c c' [_ ?]%snoc_inj|by apply NoDup_filter]).
        destruct Hac as [Hnq Hac]. apply NoDup_cons in Hnq as [Hdq Hnq].
        assert (Hno : forall q, q ∈ queue -> ~ q `prefix_of` dir).
        { intros q Hin Hp. apply Hdq. rewrite <- (Hac q dir); [done|by right|by left|done]. }
        assert (Hno' : forall q, q ∈ queue -> ~ dir `prefix_of` q).
        { intros q Hin Hp. apply Hdq. rewrite (Hac dir q); [done|by left|by right|done]. }
        destruct (IH (queue ++ ds)) as (ps & Hrun & Hnps & Hps).
        { intros q [Hin|Hin]%elem_of_app; [apply Hq; by right|]. apply Hds in Hin as (c & -> & Hc).
          split; [done|]. by apply prefix_app_r. }
        { split.
          - apply NoDup_app. split; [done|]. split; [|done]. intros q Hin (c & -> & _)%Hds.
            apply (Hno' _ Hin). by eexists.
          - intros q q' [Hin|Hin]%elem_of_app [Hin'|Hin']%elem_of_app Hpre.
            + apply Hac; [by right|by right|done].
            + apply Hds in Hin' as (c & -> & _). exfalso. apply (Hno q Hin).
              apply prefix_snoc in Hpre as [?| ->]; [done|]. destruct (Hno' _ Hin). by eexists.
            + apply Hds in Hin as (c & -> & _). exfalso. apply (Hno' q' Hin').
              etrans; [|done]. by eexists.
            + apply Hds in Hin as (c & -> & _), Hin' as (c' & -> & _). apply prefix_app_inv in Hpre.
              by apply prefix_cons_inv_1 in Hpre as ->. }
        { assert (Hlt : pending (queue ++ ds) ⊂ pending (dir :: queue)); [|apply subset_size in Hlt; lia].
          split.
          - intros d. rewrite !elem_pending. intros [Hdd (q & [Hin|Hin]%elem_of_app & Hpre)]; (split; [done|]).
            + exists q. split; [by right|done].
            + apply Hds in Hin as (c & -> & _). exists dir. split; [by left|]. etrans; [|done]. by eexists.
          - intros Hsub. assert (H : dir ∈ pending (queue ++ ds)).
            { apply Hsub, elem_pending. split; [done|]. exists dir. split; [by left|done]. }
            apply elem_pending in H as [_ (q & [Hin|Hin]%elem_of_app & Hpre)]; [by eapply Hno|].
            apply Hds in Hin as (c & -> & _). apply prefix_length in Hpre. rewrite app_length in Hpre. cbn in Hpre. lia. }
        rewrite Hrun. exists (fls ++ ps). split; [|split].
        * cbn [run]. do 2 f_equal. rewrite map_app. unfold fls. by rewrite map_map.
        * apply NoDup_app. split; [done|]. split; [|done]. intros p (c & -> & (i & Hi) & _)%Hfls Hin.
          apply Hps in Hin as [(q & [Hin|Hin]%elem_of_app & Hpre) _].
          -- apply prefix_snoc in Hpre as [Hpre| ->]; [by eapply Hno|]. destruct (Hno' _ Hin). by eexists.
          -- apply Hds in Hin as (c' & -> & Hc'). apply prefix_app_inv in Hpre. apply prefix_cons_inv_1 in Hpre as ->.
             by rewrite Hi in Hc'.
        * intros p. rewrite elem_of_app, Hfls, Hps. split.
          -- intros [(c & -> & Hf & Hm)|[(q & Hin & Hpre) Hf]].
             ++ split; [|done]. exists dir. split; [by left|by eexists].
             ++ split; [|done]. apply elem_of_app in Hin as [Hin|Hin]; [exists q; split; [by right|done]|].
                apply Hds in Hin as (c & -> & _). exists dir. split; [by left|]. etrans; [|done]. by eexists.
          -- intros [(q & [-> |Hin]%elem_of_cons & Hpre) Hf].
             2:{ right. split; [|done]. exists q. split; [|done]. apply elem_of_app. by left. }
             destruct Hpre as [rest ->]. destruct rest as [|c [|c' rest]].
             ++ rewrite app_nil_r in Hf. destruct Hf as [(i & Hi) _]. by rewrite Hd in Hi.
             ++ left. exists c. done.
             ++ right. split; [|done]. exists (dir ++ [c]). split.
                ** apply elem_of_app. right. apply Hds. exists c. split; [done|].
                   destruct Hf as [(i & Hi) _]. change (c :: c' :: rest) with ([c] ++ c' :: rest) in Hi.
                   rewrite app_assoc in Hi. eapply (wf_prefix s _ (dir ++ [c])); [done|by eexists|by eexists|].
                   intros Heq. apply (f_equal length) in Heq. rewrite !app_length in Heq. cbn in Heq. lia.
                ** exists (c' :: rest). by rewrite <- app_assoc.
  Qed.
End listing.

Lemma bytes_cmp_lt x y : bytes_cmp x y = Lt -> bytes_lt x y.
Proof.
  revert y. induction x as [|a x IH]; intros [|c y]; cbn [bytes_cmp]; try done.
  - intros _. exists []. left. eauto.
  - destruct (N.compare (code a) (code c)) eqn:E; [|intros _|done].
    + apply N.compare_eq, code_inj in E as ->. intros (p & [[-> (d & r & ->)]|(d & d' & r & r' & -> & -> & Hlt)])%IH.
      * exists (c :: p). left. eauto.
      * exists (c :: p). right. exists d, d', r, r'. done.
    + apply N.compare_lt_iff in E. exists []. right. exists a, c, x, y. done.
Qed.

Lemma sort_objects_sorted l : NoDup l.*1 -> StronglySorted (fun x y => bytes_lt x.1 y.1) (sort_objects l).
Proof.
  intros Hnd. set (cmp := fun x y : bytes * N => bytes_cmp x.1 y.1).
  assert (Htr : Transitive (cmp_le cmp)) by (intros x y z; apply bytes_cmp_le_trans).
  assert (Hto : Total (cmp_le cmp)).
  { intros x y. unfold cmp_le, cmp. rewrite (bytes_cmp_opp x.1 y.1). destruct (bytes_cmp x.1 y.1); cbn; naive_solver. }
  pose proof (StronglySorted_merge_sort (cmp_le cmp) l) as Hs. fold (sort_by cmp l) in Hs.
  assert (Hp : NoDup (sort_by cmp l).*1).
  { assert (Hperm : sort_by cmp l ≡ₚ l) by apply merge_sort_Permutation. by rewrite Hperm. }
  change (sort_objects l) with (sort_by cmp l).
  induction Hs as [|x l' Hs IH Hx]; [constructor|]. cbn [fmap list_fmap] in Hp. apply NoDup_cons in Hp as [Hn Hp].
  constructor; [by apply IH|]. rewrite Forall_forall in Hx |- *. intros y Hy. apply bytes_cmp_lt.
  specialize (Hx y Hy). unfold cmp_le, cmp in Hx. destruct (bytes_cmp x.1 y.1) eqn:E; [|done|done].
  apply bytes_cmp_eq in E. destruct Hn. rewrite E. by apply elem_of_list_fmap_1.
Qed.

(** C36: the listing of a bucket.  [tidy] holds in every reachable store, see below. *)
Theorem C36_listing e s b prefix (v2 : bool) : wf s -> tidy e s -> legal_bucket b ->
  fs_nodes s !! [b] = Some NDir ->
  (forall q c, content s (b :: q) = Some c -> (N.of_nat (length c) <= i64_max)%N) ->
  exists l,
    answer e (if v2 then RListObjectsV2 b prefix else RListObjects b prefix) s =
      Ok (AList b l (if v2 then Some (N.of_nat (length l)) else None)) /\
    (forall k n, (k, n) ∈ l <->
       (forall x, prefix = Some x -> x `prefix_of` k) /\
       exists p c, located b k p /\ content s p = Some c /\ n = N.of_nat (length c)) /\
    StronglySorted (fun x y => bytes_lt x.1 y.1) l.
Proof.
  intros Hwf Ht Hb Hbd Hsmall.
  assert (Hlist : answer e (if v2 then RListObjectsV2 b prefix else RListObjects b prefix) s =
    (run e (list_objects e v2 b prefix) s).2) by by destruct v2.
  rewrite Hlist. unfold list_objects. rewrite bucket_path by by apply legal_bucket_segment. cbn [try_path].
  rewrite run_bind, run_call. cbn [exec]. rewrite run_try_res.
  destruct (run_list_queue e s b prefix Hwf Ht Hsmall (S (size (fs_nodes s) + e_rounds e)) [[b]]) as (ps & Hrun & Hnd & Hps).
  { intros q ->%elem_of_list_singleton. done. }
  { split; [apply NoDup_singleton|]. by intros q q' ->%elem_of_list_singleton ->%elem_of_list_singleton. }
  { assert (H : pending s [[b]] ⊆ dom (fs_nodes s)) by (intros d (H & _)%elem_pending; apply elem_of_dom; by eexists).
    apply subseteq_size in H. rewrite size_dom in H. lia. }
  rewrite Hrun. cbn [run snd]. set (obj := fun p => _) in *. set (l := map obj ps).
  assert (Hsp : sort_objects l ≡ₚ l) by apply merge_sort_Permutation.
  exists (sort_objects l). split; [by rewrite (Permutation_length Hsp)|].
  assert (Hp : forall p, p ∈ ps -> exists segs i, p = b :: segs /\ segs <> [] /\ Forall segment_ok segs /\ fs_nodes s !! p = Some (NFile i)).
  { intros p ((q & ->%elem_of_list_singleton & [segs ->]) & (i & Hi) & _)%Hps. exists segs, i.
    destruct (Ht ([b] ++ segs)) as (Hseg & _); [by eexists|]. split_and!; [done| | |done].
    - intros ->. rewrite app_nil_r in Hi. by rewrite Hbd in Hi.
    - by apply Forall_app in Hseg as [_ ?]. }
  assert (Hm : forall k, match prefix with Some x => starts_with x k | None => true end = true <->
    (forall x, prefix = Some x -> x `prefix_of` k)).
  { intros k. destruct prefix as [x|]; [|split; [by intros|done]]. rewrite starts_with_spec. split.
    - intros [r ->] y [= <-]. by eexists.
    - intros H. destruct (H x eq_refl) as [r ->]. by exists r. }
  split.
  - intros k n. rewrite Hsp. unfold l. rewrite elem_of_list_fmap. split.
    + intros (p & [= -> ->] & Hin). destruct (Hp p Hin) as (segs & i & -> & Hne & Hseg & Hi).
      apply Hps in Hin as (_ & _ & Hmt). cbn [tail] in *. split; [by apply Hm|].
      exists (b :: segs), (data_of s i).
      assert (Hc : content s (b :: segs) = Some (data_of s i)) by (unfold content; by rewrite Hi).
      split_and!; [by exists segs|done|by rewrite Hc].
    + intros [Hpre (p & c & (segs & Hne & Hseg & -> & ->) & Hc & ->)]. exists (b :: segs).
      split; [unfold obj; by rewrite Hc|]. apply Hps. apply content_Some in Hc as (i & Hi & _).
      split_and!; [exists [b]; split; [by left|by exists segs]|eauto|]. by apply Hm.
  - apply sort_objects_sorted. unfold l. rewrite <- list_fmap_compose. apply NoDup_fmap_2_strong; [|done].
    intros p q Hpp Hq Heq. destruct (Hp p Hpp) as (segs & i & -> & Hne & Hseg & _), (Hp q Hq) as (segs' & j & -> & Hne' & Hseg' & _).
    cbn in Heq. by apply slashed_inj in Heq as ->.
Qed.
Print Assumptions C36_listing.

(* Stores reached from the empty one by requests with text names are well formed and tidy. *)
Lemma reachable_tidy e rs : e_os_ok e [] = true -> Forall text_req rs ->
  wf (after_all e rs empty_store) /\ tidy e (after_all e rs empty_store).
Proof.
  intros Hos Hrs. apply (after_all_inv (fun s => wf s /\ tidy e s)).
  - intros r s' Hr [H1 H2]. rewrite Forall_forall in Hrs. split; [by apply wf_after|apply tidy_after; auto].
  - split; [apply wf_empty|]. intros p [n Hn]. cbn in Hn. apply lookup_singleton_Some in Hn as [<- _]. done.
Qed.

Theorem C36_listing_reachable e rs b prefix (v2 : bool) : e_os_ok e [] = true -> Forall text_req rs -> legal_bucket b ->
  let s := after_all e rs empty_store in
  fs_nodes s !! [b] = Some NDir ->
  (forall q c, content s (b :: q) = Some c -> (N.of_nat (length c) <= i64_max)%N) ->
  exists l,
    answer e (if v2 then RListObjectsV2 b prefix else RListObjects b prefix) s =
      Ok (AList b l (if v2 then Some (N.of_nat (length l)) else None)) /\
    (forall k n, (k, n) ∈ l <->
       (forall x, prefix = Some x -> x `prefix_of` k) /\
       exists p c, located b k p /\ content s p = Some c /\ n = N.of_nat (length c)) /\
    StronglySorted (fun x y => bytes_lt x.1 y.1) l.
Proof.
  intros Hos Hrs Hb s Hd Hsm. destruct (reachable_tidy e rs Hos Hrs) as [H1 H2]. by apply C36_listing.
Qed.
Print Assumptions C36_listing_reachable.

(* An environment that enumerates directories backwards. *)
Definition ex_env_rev : env := {|
  e_root := [B "srv"; B "data"]; e_os_ok := fun _ => true; e_order := fun _ l => rev l;
  e_dir_len := fun _ => 4096%N; e_chop := fun d => [d]; e_rounds := 3;
  e_os_prefix := fun _ _ _ => eq_refl; e_order_perm := fun _ l => Permutation_sym (Permutation_rev l);
  e_chop_concat := fun d => app_nil_r d |}.

Example ex_listing : forall e, e = ex_env \/ e = ex_env_rev ->
  let put k d := RPutObject (B "photos") (B k) None None None (Some [FData (B d)]) in
  let s := after_all e [put "a/cat"%string "xy"%string; put "b"%string "1"%string; put "a.txt"%string ""%string; put "z/y/x"%string "abc"%string] empty_store in
  answer e (RListObjectsV2 (B "photos") None) s =
    Ok (AList (B "photos") [(B "a.txt", 0); (B "a/cat", 2); (B "b", 1); (B "z/y/x", 3)]%N (Some 4%N)) /\
  answer e (RListObjects (B "photos") (Some (B "a/"))) s =
    Ok (AList (B "photos") [(B "a/cat", 2)]%N None).
Proof. intros e [->| ->]; split; vm_compute; reflexivity. Qed.
