(** Towards C50: every well-behaved request is answered as the map answers it, and the disk
    keeps representing the map. *)
From Verif Require Import M_Base M_Path M_Headers M_Chunked M_BytesStream M_Crypto M_Fs M_Json M_Utf8 M_Storage
  S_Path S_Headers S_Chunked S_Storage S_Store S_Map
  L_Base L_Path L_Headers L_Fs L_Storage L_Scope L_Names L_Json L_Ops L_Results L_Tidy L_Map
  T_Store T_Copy T_Etag T_Scope T_Listing T_Buckets T_Uploads T_Isolation.

Local Opaque md5 json_decode json_encode metadata_name part_name.

Section ops.
  Context (e : env) (U : bytes -> bytes -> Prop) (HU : names_ok e U).

  Lemma text_bucket b : legal_bucket b -> utf8_valid b = true.
  Proof. intros Hb. rewrite <- (app_nil_r b). rewrite text_app; [done|]. by apply legal_bucket_ascii. Qed.
  Lemma bucket_no_slash b : legal_bucket b -> "/"%char ∉ b.
  Proof. intros Hb. by destruct (legal_bucket_segment _ Hb) as (_ & _ & _ & ?). Qed.
  Lemma bucket_no_LF b : legal_bucket b -> LF ∉ b.
  Proof.
    intros (_ & H & _) Hin. apply H, bucket_char_spec in Hin. by vm_compute in Hin.
  Qed.
  Lemma U_facts b k : U b k -> legal_bucket b /\ ordinary k /\ utf8_valid b = true /\ utf8_valid k = true.
  Proof.
    intros Hu. pose proof (nm_bucket _ _ HU _ _ Hu) as Hb. destruct (nm_key _ _ HU _ _ Hu) as (Hk & _ & Ht & _).
    pose proof (text_bucket _ Hb). done.
  Qed.
  Lemma wb_plain st r : well_behaved e U st r -> plain_req r.
  Proof.
    destruct r; cbn [well_behaved plain_req]; try done; try (by intros [? _]); try (by intros (? & _)%U_facts).
    - intros ((Hb & Hk & _)%U_facts & sb & sk & (Hb' & _)%U_facts & -> & Hne & _). split; [done|]. split; [done|].
      intros Heq. apply Hne. apply bucket_no_slash in Hb, Hb'.
      change (B "/") with ["/"%char] in Heq. cbn [app] in Heq.
      by destruct (app_sep_inj _ _ _ _ _ Hb' Hb Heq) as [-> ->].
    - by intros (? & ? & _)%U_facts.
    - intros (Hb & Hf & _). split; [done|]. eapply Forall_impl; [exact Hf|]. by intros k (_ & ? & _)%U_facts.
    - by intros [(? & ? & _)%U_facts _].
    - by intros (? & ? & _)%U_facts.
    - by intros [(? & ? & _)%U_facts [? _]].
    - by intros (? & ? & _)%U_facts.
    - by intros [(? & ? & _)%U_facts [? _]].
  Qed.
  Lemma wb_text st r : well_behaved e U st r -> text_req r.
  Proof.
    pose proof text_bucket as HT.
    destruct r; cbn [well_behaved text_req]; try done; try (by intros [?%HT _]); try (by intros ?%HT);
      try (by intros (_ & _ & ? & ?)%U_facts); try (by intros [(_ & _ & ? & ?)%U_facts _]);
      try (by intros [?%HT ?]).
    - intros ((Hb & Hk & ? & ?)%U_facts & sb & sk & (Hb' & _ & _ & ?)%U_facts & -> & Hne & _). split; [|done].
      rewrite text_app by (by apply legal_bucket_ascii).
      change (B "/" ++ sk) with (["/"%char] ++ sk). by rewrite text_app by (by repeat constructor).
    - intros (Hb & Hf & _). split; [by apply HT|]. eapply Forall_impl; [exact Hf|]. by intros k (_ & _ & _ & ?)%U_facts.
    - by intros (? & ? & _).
    - by intros [(_ & _ & ? & ?)%U_facts (_ & ? & _)].
  Qed.

  Definition ok_step (st : store) (s : fs) (r : s_req) : Prop :=
    exists v st', serves st r v st' /\ sees e s r v /\ tracks e U st' (after e r s).
  Lemma same_step st s r v : tracks e U st s -> serves st r v st -> sees e s r v -> after e r s = s ->
    ok_step st s r.
  Proof. intros Ht Hs Hv Ha. exists v, st. by rewrite Ha. Qed.

  (* Facts about a disk that represents a map. *)
  Lemma bucket_node st s b : tracks e U st s -> legal_bucket b ->
    (b ∈ buckets st /\ fs_nodes s !! [b] = Some NDir /\ e_os_ok e [b] = true) \/
    (b ∉ buckets st /\ fs_nodes s !! [b] = None).
  Proof.
    intros Ht Hb. pose proof (tk_bucket _ _ _ _ Ht b Hb) as Hd.
    destruct (fs_nodes s !! [b]) as [[|i]|] eqn:E.
    - left. split; [by apply Hd|]. split; [done|]. apply (tk_tidy _ _ _ _ Ht [b]). by rewrite E.
    - exfalso. destruct (tk_only _ _ _ _ Ht b [] (data_of s i) Hb) as (k & _ & segs & Hne & _ & _ & Heq).
      { unfold content. by rewrite E. }
      by injection Heq as <-.
    - right. split; [|done]. by intros ?%Hd.
  Qed.
  Lemma object_node st s b k : tracks e U st s -> U b k -> exists p,
    located b k p /\ get_object_path e b k = Some p /\ e_os_ok e p = true /\ content s p = objects st !! (b, k) /\
    match objects st !! (b, k) with
    | Some d => exists i, fs_nodes s !! p = Some (NFile i) /\ data_of s i = d /\ small d
    | None => fs_nodes s !! p = None
    end.
  Proof.
    intros Ht Hu. destruct (U_path e U HU b k Hu) as (p & Hl & Ho & Hp). exists p.
    destruct (tk_object _ _ _ _ Ht b k p Hu Hl) as [Hc Hnd].
    do 4 (split; [done|]). destruct (objects st !! (b, k)) as [d|] eqn:Hd.
    - apply content_Some in Hc as (i & Hi & Hdi). exists i. split; [done|]. split; [done|].
      by apply (tk_names _ _ _ _ Ht (b, k)).
    - unfold content in Hc. destruct (fs_nodes s !! p) as [[|i]|]; done.
  Qed.
  Lemma bucket_of_object st s b k : tracks e U st s -> is_Some (objects st !! (b, k)) -> b ∈ buckets st.
  Proof.
    intros Ht [d Hd]. destruct (tk_names _ _ _ _ Ht _ _ Hd) as [Hu _]. cbn in Hu.
    destruct (object_node st s b k Ht Hu) as (p & Hl & _ & _ & _ & Hn). rewrite Hd in Hn. destruct Hn as (i & Hi & _).
    apply (tk_bucket _ _ _ _ Ht); [by eapply nm_bucket|].
    destruct Hl as (segs & Hne & _ & _ & ->). apply (wf_prefix s (b :: segs)).
    - apply (tk_wf _ _ _ _ Ht). - by rewrite Hi. - by eexists. - by intros [= <-].
  Qed.
  Lemma meta_after st s r a b k : tracks e U st s -> plain_req r -> answer e r s = Ok a -> U b k ->
    meta_of e (after e r s) b k = Some
      match r with
      | RPutObject b' k' _ _ (Some m) _ => if decide (b' = b /\ k' = k) then Some m else metadatas st !! (b, k)
      | RCopyObject src b' k' =>
          if decide (b' = b /\ k' = k) then
            match copy_source_from_header_str src with
            | Ok (sb, sk) => match meta_of e s sb sk with Some (Some m) => Some m | _ => metadatas st !! (b, k) end
            | Err _ => metadatas st !! (b, k)
            end
          else metadatas st !! (b, k)
      | _ => metadatas st !! (b, k)
      end.
  Proof.
    intros Ht Hr Ha Hu. apply written_meta.
    apply (C45_metadata_changes_partial e s r a b k (metadatas st !! (b, k)) (tk_wf _ _ _ _ Ht) (tk_intact _ _ _ _ Ht) Hr Ha).
    apply written_meta. by apply (tk_meta _ _ _ _ Ht).
  Qed.
  Lemma no_parts_touched r u n : (forall x y, ~ touches_part r x y) -> touches_part r u n \/ ~ touches_part r u n.
  Proof. right. auto. Qed.

  (* Buckets. *)
  Lemma step_create_bucket st s b : tracks e U st s -> well_behaved e U st (RCreateBucket b) ->
    ok_step st s (RCreateBucket b).
  Proof.
    intros Ht Hw. pose proof Hw as [Hb Hos]. pose proof (run_create_bucket e b s Hb) as Hr. rewrite Hos in Hr.
    destruct (bucket_node st s b Ht Hb) as [(Hin & Hd & _)|[Hin Hd]].
    - rewrite bool_decide_true in Hr by (by rewrite Hd). cbn in Hr.
      eapply same_step; [done|by apply sv_create_again|..]; cbn; unfold answer, after; cbn [storage]; by rewrite Hr.
    - rewrite bool_decide_false in Hr by (rewrite Hd; by intros [? ?]).
      unfold is_dir in Hr. rewrite (tk_root _ _ _ _ Ht) in Hr. cbn in Hr.
      assert (Ha : answer e (RCreateBucket b) s = Ok ADone) by (unfold answer; cbn [storage]; by rewrite Hr).
      eexists _, _. split; [by apply sv_create_bucket|]. split; [done|].
      assert (Haf : after e (RCreateBucket b) s = set_nodes s (<[[b] := NDir]> (fs_nodes s)))
        by (unfold after; cbn [storage]; by rewrite Hr).
      assert (Hn : forall q, q <> [b] -> fs_nodes (after e (RCreateBucket b) s) !! q = fs_nodes s !! q).
      { intros q Hq. rewrite Haf. cbn. by rewrite lookup_insert_ne by done. }
      apply (tracks_after e U HU st); [done|by eapply wb_plain|by eapply wb_text|..]; cbn [r_files r_dirs affects touches_part].
      + done.
      + rewrite Hn by done. apply (tk_root _ _ _ _ Ht).
      + intros b' Hb'. cbn. destruct (decide (b' = b)) as [->|Hne].
        * split; [intros _|set_solver]. rewrite Haf. cbn. by rewrite lookup_insert.
        * rewrite Hn by (by intros [= ->]). rewrite <- (tk_bucket _ _ _ _ Ht b' Hb'). set_solver.
      + cbn. intros b' [->%elem_of_singleton|?]%elem_of_union; [done|]. by eapply tk_legal.
      + intros b' k p Hu Hl Hp. rewrite bucket_path in Hp by (by apply legal_bucket_segment).
        injection Hp as <-. destruct Hl as (segs & Hne & _ & _ & Heq). by injection Heq as _ <-.
      + done.
      + done.
      + apply (tk_names _ _ _ _ Ht).
      + intros b' k Hu. rewrite (meta_after st s _ ADone) by (try done; by eapply wb_plain). done.
      + done.
      + done.
      + auto.
  Qed.
  Lemma step_delete_bucket st s b : tracks e U st s -> well_behaved e U st (RDeleteBucket b) ->
    ok_step st s (RDeleteBucket b).
  Proof.
    intros Ht Hb. cbn in Hb. pose proof (tk_wf _ _ _ _ Ht) as Hwf.
    pose proof (legal_bucket_segment _ Hb) as Hbs.
    destruct (bucket_node st s b Ht Hb) as [(Hin & Hd & Hos)|[Hin Hd]].
    - pose proof (C37_delete_succeeds e b s Hwf (tk_tidy _ _ _ _ Ht) Hb Hd) as Ha.
      destruct (C37_delete_effect e b s _ Hwf Hb Ha) as (Hh & Hgone & _ & _).
      assert (Hnb : fs_nodes (after e (RDeleteBucket b) s) !! [b] = None).
      { apply eq_None_not_Some. intros Hs.
        destruct (C37_head_and_location e b (after e (RDeleteBucket b) s) Hb) as [Hy _].
        destruct Hy as [Hy _]; [done|]. by rewrite Hy in Hh. }
      assert (wf (after e (RDeleteBucket b) s)) as Hwf' by by apply wf_after.
      assert (Hin' : forall q, r_rmdirs e (RDeleteBucket b) q -> exists rest, q = b :: rest).
      { cbn. intros q (q' & Hq' & [rest ->]). rewrite bucket_path in Hq' by done. injection Hq' as <-. by exists rest. }
      pose proof (storage_untouched e (RDeleteBucket b) s Hwf) as Hun.
      assert (Hn : forall q, (forall rest, q <> b :: rest) ->
        fs_nodes (after e (RDeleteBucket b) s) !! q = fs_nodes s !! q).
      { intros q Hq. apply Hun; try (by intros []); intros [rest ->]%Hin'; by eapply Hq. }
      eexists _, _. split; [by apply sv_delete_bucket|]. split; [done|].
      apply (tracks_after e U HU st); [done|by apply (wb_plain st)|by apply (wb_text st)|..].
      + intros b' q Hb' Hf [c Hc]. exfalso. apply Hin' in Hf as [rest [= -> ->]].
        unfold content in Hc. destruct (fs_nodes _ !! (b :: rest)) as [[|i]|] eqn:E; try done.
        destruct rest as [|c1 rest]; [by rewrite Hnb in E|].
        assert (fs_nodes (after e (RDeleteBucket b) s) !! [b] = Some NDir); [|congruence].
        apply (wf_prefix _ (b :: c1 :: rest)); [done|by rewrite E|by eexists|done].
      + rewrite Hn by done. apply (tk_root _ _ _ _ Ht).
      + intros b' Hb'. cbn. destruct (decide (b' = b)) as [->|Hne].
        * rewrite Hnb. split; [set_solver|done].
        * rewrite Hn by (by intros rest [= ->]). rewrite <- (tk_bucket _ _ _ _ Ht b' Hb'). set_solver.
      + cbn. intros b' Hin2. apply (tk_legal _ _ _ _ Ht). set_solver.
      + done.
      + intros b' k p Hu Hl Hbb. cbn in Hbb. subst b'. cbn. destruct (Hgone k p Hl) as [-> _].
        symmetry. apply map_filter_lookup_None. right. intros d _ Hx. by apply Hx.
      + intros b' k Hna. cbn in Hna. cbn. apply option_eq. intros d. rewrite map_filter_lookup_Some. cbn.
        naive_solver.
      + cbn. intros x d Hx. apply map_filter_lookup_Some in Hx as [Hx _]. by apply (tk_names _ _ _ _ Ht).
      + intros b' k Hu. rewrite (meta_after st s _ ADone) by (try done; by apply (wb_plain st)). done.
      + done.
      + done.
      + auto.
    - assert (Hr : run e (delete_bucket e b) s = (s, Err InternalError)).
      { unfold delete_bucket. rewrite bucket_path by done. cbn [try_path]. rewrite run_bind, run_call. cbn [exec].
        rewrite run_try_io. cbn [remove_dir_all]. rewrite run_bind, run_call. cbn [exec].
        unfold is_dir. rewrite Hd, andb_false_r. done. }
      eapply same_step; [done|by apply sv_delete_no_bucket|..]; cbn; unfold answer, after; cbn [storage]; by rewrite Hr.
  Qed.

  (* Names. *)
  Lemma slashed_two l1 l2 : l1 <> [] -> l2 <> [] -> slashed (l1 ++ l2) = slashed l1 ++ B "/" ++ slashed l2.
  Proof.
    intros H1 H2. induction l1 as [|c l1 IH]; [done|]. destruct l1 as [|c' l1].
    - cbn [app]. by rewrite slashed_cons.
    - change ((c :: c' :: l1) ++ l2) with (c :: ((c' :: l1) ++ l2)). rewrite slashed_cons by done.
      rewrite IH by done. rewrite (slashed_cons c (c' :: l1)) by done. by rewrite <- !app_assoc.
  Qed.
  (* No object lies below another. *)
  Lemma not_nested b k p k' q : U b k -> U b k' -> located b k p -> located b k' q -> q `prefix_of` p -> q = p.
  Proof.
    intros Hu Hu' (segs & Hne & _ & Hk & ->) (segs' & Hne' & _ & Hk' & ->) [rest Heq].
    injection Heq as Heq. destruct rest as [|c rest]; [by rewrite app_nil_r in Heq; subst|exfalso].
    apply (nm_nesting _ _ HU b k' k (slashed (c :: rest)) Hu' Hu).
    by rewrite Hk, Hk', Heq, slashed_two.
  Qed.
  Lemma no_file_above_object st s b k dir c : tracks e U st s -> U b k -> located b k (dir ++ [c]) -> no_file_above s dir.
  Proof.
    intros Ht Hu Hl q i Hq Hi. pose proof (nm_bucket _ _ HU _ _ Hu) as Hb.
    assert (Hc : content s q = Some (data_of s i)) by (unfold content; by rewrite Hi).
    assert (Hqp : q `prefix_of` dir ++ [c]) by (destruct Hq as [r ->]; exists (r ++ [c]); by rewrite app_assoc).
    destruct q as [|b' q].
    { by rewrite (tk_root _ _ _ _ Ht) in Hi. }
    assert (b' = b) as ->.
    { destruct Hl as (segs & _ & _ & _ & Heq). rewrite Heq in Hqp. by apply prefix_cons_inv_1 in Hqp. }
    destruct (tk_only _ _ _ _ Ht b q _ Hb Hc) as (k' & Hu' & Hl').
    pose proof (not_nested b k _ k' _ Hu Hu' Hl Hl' Hqp) as Heq.
    destruct Hq as [r ->]. rewrite Heq in *. apply (f_equal length) in Heq. 
    rewrite !app_length in Heq. cbn in Heq. lia.
  Qed.
  Lemma class_ok sc : storage_class_ok sc = true <-> sc ∈ storage_classes.
  Proof.
    unfold storage_class_ok, storage_classes. destruct sc as [x|]; [|split; [intros _; left|done]].
    rewrite orb_true_iff, !beq_true. rewrite !elem_of_cons, elem_of_nil. split; [intros [->| ->]; auto|].
    intros [?|[[= ->]|[[= ->]|[]]]]; [done|auto|auto].
  Qed.
  Lemma save_metadata_works st s s3 b k m : tracks e U st s -> U b k -> wf s3 ->
    fs_nodes s3 !! [metadata_name b k] = fs_nodes s !! [metadata_name b k] -> fs_nodes s3 !! [] = Some NDir ->
    exists s4, run e (save_metadata e b k m) s3 = (s4, Some tt).
  Proof.
    intros Ht Hu Hwf Hn Hr. rewrite run_save_metadata.
    destruct (proj1 (create_writable e s3 [metadata_name b k] Hwf ltac:(done))) as (s4 & i & ->); [|eauto].
    split; [by eapply nm_meta|]. split.
    - rewrite Hn. pose proof (tk_intact _ _ _ _ Ht b k) as Hi. intros Heq. by rewrite Heq in Hi.
    - by exists [], (metadata_name b k).
  Qed.

  Lemma put_works st s b k sc cl md fs : tracks e U st s -> U b k -> sc ∈ storage_classes -> broken fs = false ->
    answer e (RPutObject b k sc cl md (Some fs)) s = Ok (APut (Some (quoted_md5 (carried fs)))).
  Proof.
    intros Ht Hu Hsc Hbr. pose proof (tk_wf _ _ _ _ Ht) as Hwf. pose proof (nm_bucket _ _ HU _ _ Hu) as Hb.
    destruct (object_node st s b k Ht Hu) as (p & Hl & Hp & Hos & Hc & Hn).
    destruct (run_put e b k sc cl md fs p s Hwf (legal_bucket_segment _ Hb) Hl (proj2 (class_ok _) Hsc))
      as (dir & c & -> & Hdir & Hcase).
    pose proof (no_file_above_object st s b k dir c Ht Hu Hl) as Hnf.
    assert (Hosd : e_os_ok e dir = true) by exact (e_os_prefix e dir [c] Hos).
    destruct Hcase as [[[] _]|(_ & _ & Hcase)]; [done|]. cbn zeta in Hcase.
    set (s1 := set_nodes s (mkdirs dir (fs_nodes s))) in *.
    assert (Hwf1 : wf s1).
    { destruct (run_create_dir_all e dir s Hwf) as [(_ & _ & Hr)|[[] _]]; [|done].
      by eapply (wf_run' e _ _ _ _ Hr). }
    assert (Hn1 : forall q, ~ q `prefix_of` dir -> fs_nodes s1 !! q = fs_nodes s !! q).
    { intros q Hq. cbn. rewrite mkdirs_lookup. by rewrite decide_False by tauto. }
    assert (Hw : writable e s1 (dir ++ [c])).
    { split; [done|]. split.
      - rewrite Hn1; [|intros [r Hr]; apply (f_equal length) in Hr; rewrite !app_length in Hr; cbn in Hr; lia].
        by apply (tk_object _ _ _ _ Ht b k).
      - exists dir, c. split; [done|]. cbn. rewrite mkdirs_lookup.
        destruct (fs_nodes s !! dir) as [[|i]|] eqn:Ed.
        + by rewrite decide_False by (by intros [_ ?]).
        + exfalso. by eapply (Hnf dir i).
        + by rewrite decide_True by done. }
    destruct (proj1 (create_writable e s1 (dir ++ [c]) Hwf1 ltac:(by destruct dir)) Hw) as (s2 & i & E2).
    rewrite E2 in Hcase. pose proof (wf_exec' _ _ _ _ _ E2 Hwf1) as Hwf2.
    rewrite body_ok_broken, Hbr in Hcase. cbn [negb] in Hcase.
    assert (Hq2 : forall q, q <> dir ++ [c] -> fs_nodes (set_data s2 i (body_data fs)) !! q = fs_nodes s1 !! q).
    { intros q Hq. by apply (create_other _ _ _ _ _ _ Hwf1 E2 Hq). }
    assert (Hmd : exists s4, match md with
            | None => (set_data s2 i (body_data fs), Some tt)
            | Some m => run e (save_metadata e b k m) (set_data s2 i (body_data fs)) end = (s4, Some tt)).
    { destruct md as [m|]; [|eauto]. apply (save_metadata_works st s); [done|done|by apply wf_set_data|..].
      - rewrite Hq2 by (intros Heq; symmetry in Heq; by apply (located_not_meta _ _ _ _ _ Hl) in Heq).
        apply Hn1. intros [r Hr]. destruct Hl as (segs & _ & _ & _ & Heq). rewrite Hr in Heq. cbn [app] in Heq.
        apply cons_head in Heq. by eapply bucket_not_meta.
      - rewrite Hq2 by (by destruct dir). cbn. rewrite mkdirs_lookup.
        rewrite decide_False by (rewrite (tk_root _ _ _ _ Ht); by intros [_ ?]). apply (tk_root _ _ _ _ Ht). }
    destruct Hmd as [s4 Hs4]. rewrite Hs4 in Hcase. unfold answer. cbn [storage]. rewrite Hcase. cbn [snd].
    rewrite body_data_carried. done.
  Qed.

  (* The obligations that are the same for the remaining requests. *)
  Lemma dirs_kept r s q : wf s -> ~ r_dirs e r q -> ~ r_rmdirs e r q ->
    fs_nodes (after e r s) !! q = Some NDir <-> fs_nodes s !! q = Some NDir.
  Proof.
    intros Hwf HD HX. pose proof (storage_untouched e r s Hwf) as Hu.
    split; [by apply (un_new_dir _ _ _ _ _ Hu)|by apply (un_dir _ _ _ _ _ Hu)].
  Qed.
  Lemma object_file b k b' q : U b k -> legal_bucket b' -> get_object_path e b k = Some (b' :: q) ->
    exists k', U b' k' /\ located b' k' (b' :: q).
  Proof.
    intros Hu Hb' Hp. destruct (U_facts _ _ Hu) as (Hb & Hk & _). apply object_path in Hp; [|done|done].
    assert (b' = b) as -> by (destruct Hp as (segs & _ & _ & _ & Heq); by injection Heq).
    by exists k.
  Qed.
  Lemma meta_file b k b' (q : path) : legal_bucket b' -> get_metadata_path e b k <> Some (b' :: q).
  Proof. intros Hb' Hp. rewrite metadata_path in Hp. injection Hp as Hp _. by eapply (bucket_not_meta b'). Qed.

  Lemma step_put st s b k sc cl md body : tracks e U st s -> well_behaved e U st (RPutObject b k sc cl md body) ->
    ok_step st s (RPutObject b k sc cl md body).
  Proof.
    intros Ht Hw. pose proof Hw as (Hu & Hmd & Hbody). pose proof (tk_wf _ _ _ _ Ht) as Hwf.
    destruct (decide (sc ∈ storage_classes)) as [Hsc|Hsc].
    2: { eapply same_step; [done|by apply sv_put_class|..]; cbn; unfold answer, after; cbn [storage]; unfold put_object;
         (destruct (storage_class_ok sc) eqn:E; [by apply class_ok in E|done]). }
    destruct body as [fs|].
    2: { eapply same_step; [done|by apply sv_put_nothing|..]; cbn; unfold answer, after; cbn [storage]; unfold put_object;
         (rewrite (proj2 (class_ok sc)) by done; done). }
    destruct (Hbody fs eq_refl) as [Hbr Hsmall].
    pose proof (put_works st s b k sc cl md fs Ht Hu Hsc Hbr) as Ha.
    eexists _, _. split; [by apply sv_put|]. split; [exact Ha|].
    set (r := RPutObject b k sc cl md (Some fs)) in *. set (s' := after e r s).
    assert (Hwf' : wf s') by by apply wf_after.
    destruct (U_facts _ _ Hu) as (Hb & Hk & _).
    destruct (U_path e U HU b k Hu) as (p & Hl & Hos & Hp).
    destruct (put_ok e b k sc cl md (Some fs) p s s' _ Hwf (legal_bucket_segment _ Hb) Hl (run_answer _ _ _ _ Ha))
      as (fs' & [= <-] & _ & _ & Hc & _ & _).
    assert (Hbd : fs_nodes s' !! [b] = Some NDir).
    { destruct (content_Some _ _ _ Hc) as (i & Hi & _). destruct Hl as (segs & Hne & _ & _ & ->).
      apply (wf_prefix s' (b :: segs)); [done|by rewrite Hi|by eexists|by intros [= <-]]. }
    apply (tracks_after e U HU st); [done|by eapply wb_plain|by eapply wb_text|..]; fold s'.
    - intros b' q Hb' [Hf|[_ Hf]] _; [by eapply object_file|by apply meta_file in Hf].
    - apply (un_dir _ _ _ _ _ (storage_untouched e r s Hwf)); [by intros []|]. apply (tk_root _ _ _ _ Ht).
    - intros b' Hb'. assert (Hbs : buckets (set_metadata b k md (set_object b k (carried fs) (set_buckets ({[b]} ∪ buckets st) st)))
        = {[b]} ∪ buckets st) by by destruct md. rewrite Hbs. clear Hbs.
      destruct (decide (b' = b)) as [->|Hne]; [split; [done|set_solver]|].
      unfold s'. rewrite dirs_kept; [|done| |by intros []].
      + rewrite <- (tk_bucket _ _ _ _ Ht b' Hb'). set_solver.
      + intros (q & Hq & Hpre). rewrite Hp in Hq. injection Hq as <-. destruct Hl as (segs & _ & _ & _ & ->).
        by apply prefix_cons_inv_1 in Hpre.
    - intros b' Hin. assert (Hin' : b' ∈ {[b]} ∪ buckets st) by by destruct md.
      apply elem_of_union in Hin' as [->%elem_of_singleton|?]; [done|]. by eapply tk_legal.
    - intros b' k' q Hu' Hl' (q' & Hq & Hpre). rewrite Hp in Hq. injection Hq as <-.
      assert (b' = b) as ->.
      { destruct Hl as (segs & _ & _ & _ & ->), Hl' as (segs' & _ & _ & _ & ->). by apply prefix_cons_inv_1 in Hpre. }
      rewrite (not_nested b k p k' q Hu Hu' Hl Hl' Hpre). destruct (content_Some _ _ _ Hc) as (i & Hi & _). by rewrite Hi.
    - intros b' k' q Hu' Hl' [-> ->]. rewrite (located_fun _ _ _ _ Hl' Hl), Hc.
      destruct md; cbn; by rewrite lookup_insert.
    - intros b' k' Hna. assert ((b, k) <> (b', k')) by (intros [= -> ->]; by apply Hna).
      destruct md; cbn; by rewrite lookup_insert_ne.
    - intros x d Hx. assert (Hx' : <[(b, k):=carried fs]> (objects st) !! x = Some d) by by destruct md.
      apply lookup_insert_Some in Hx' as [[<- <-]|[_ Hx']]; [done|]. by apply (tk_names _ _ _ _ Ht).
    - intros b' k' Hu'. unfold s'. rewrite (meta_after st s r _ b' k' Ht (wb_plain _ _ Hw) Ha Hu'). unfold r.
      destruct md as [m|]; [|done]. cbn. case_decide as Hd; [destruct Hd as [-> ->]; by rewrite lookup_insert|].
      rewrite lookup_insert_ne; [done|]. intros [= -> ->]. by apply Hd.
    - done.
    - intros u n _ _. by destruct md.
    - auto.
  Qed.

  Lemma step_delete st s b k : tracks e U st s -> well_behaved e U st (RDeleteObject b k) -> ok_step st s (RDeleteObject b k).
  Proof.
    intros Ht Hu. pose proof Hu as Hw. cbn in Hu. pose proof (tk_wf _ _ _ _ Ht) as Hwf.
    destruct (U_facts _ _ Hu) as (Hb & Hk & _).
    destruct (object_node st s b k Ht Hu) as (p & Hl & Hp & Hos & Hc & Hn).
    destruct (objects st !! (b, k)) as [d|] eqn:Ho.
    2: { destruct (C34_delete_missing e s b k p Hb Hl Hc) as [Haf Ha].
         eapply same_step; [done|by apply sv_delete_none|done|done]. }
    destruct Hn as (i & Hi & _).
    assert (Ha : answer e (RDeleteObject b k) s = Ok ADone).
    { unfold answer. cbn [storage]. rewrite (run_delete e b k p) by (first [done|by apply ordinary_no_slash_end]).
      cbn [exec]. by rewrite Hos, Hi. }
    destruct (C34_delete_removes e s b k p _ Hwf Hb Hl Ha) as (_ & _ & _ & Hgone & Hoth).
    eexists _, _. split; [apply sv_delete; by rewrite Ho|]. split; [done|].
    assert (Hnl : forall q, (length q < 2)%nat -> q <> p).
    { intros q Hq ->. destruct Hl as (segs & Hne & _ & _ & ->). destruct segs; [done|]. cbn in Hq. lia. }
    apply (tracks_after e U HU st); [done|by apply (wb_plain st)|by apply (wb_text st)|..].
    - intros b' q Hb' Hf _. cbn in Hf. by eapply object_file.
    - destruct (Hoth []) as [_ ->]; [apply Hnl; cbn; lia|]. apply (tk_root _ _ _ _ Ht).
    - intros b' Hb'. destruct (Hoth [b']) as [_ ->]; [apply Hnl; cbn; lia|]. apply (tk_bucket _ _ _ _ Ht b' Hb').
    - apply (tk_legal _ _ _ _ Ht).
    - by intros ? ? ? _ _ [].
    - intros b' k' q _ Hl' [<- <-]. rewrite (located_fun _ _ _ _ Hl' Hl), Hgone. symmetry. cbn.
      apply map_filter_lookup_None. right. intros x _ Hx. by apply Hx.
    - intros b' k' Hna. cbn. apply option_eq. intros x. rewrite map_filter_lookup_Some. cbn.
      split; [by intros [? _]|]. intros Hx. split; [done|]. intros [= -> ->]. by apply Hna.
    - cbn. intros x y Hx. apply map_filter_lookup_Some in Hx as [Hx _]. by apply (tk_names _ _ _ _ Ht).
    - intros b' k' Hu'. by rewrite (meta_after st s _ ADone) by (try done; by apply (wb_plain st)).
    - done.
    - done.
    - auto.
  Qed.

  Lemma run_remove_works l : forall s, NoDup l.*1 ->
    (forall x, x ∈ l -> e_os_ok e x.1 = true /\ exists i, fs_nodes s !! x.1 = Some (NFile i)) ->
    exists s', run e (remove_objects l) s = (s', Ok l.*2).
  Proof.
    induction l as [|[p k] l IH]; intros s Hnd Hin; [by eexists|].
    apply NoDup_cons in Hnd as [Hp Hnd]. cbn [fst] in Hp. cbn [remove_objects].
    destruct (Hin (p, k)) as [Hos [i Hi]]; [left|]. cbn [fst] in *.
    rewrite run_try_io, run_call. cbn [exec]. rewrite Hos, Hi. rewrite run_try_res.
    destruct (IH (set_nodes s (delete p (fs_nodes s))) Hnd) as [s' ->]; [|by eexists].
    intros x Hx. destruct (Hin x) as [Hox [j Hj]]; [by right|]. split; [done|]. exists j. cbn.
    rewrite lookup_delete_ne; [done|]. intros ->. apply Hp. by apply elem_of_list_fmap_1.
  Qed.
  Lemma step_delete_many st s b ks : tracks e U st s -> well_behaved e U st (RDeleteObjects b ks) ->
    ok_step st s (RDeleteObjects b ks).
  Proof.
    intros Ht Hw. pose proof Hw as (Hb & Hf & Hnd). pose proof (tk_wf _ _ _ _ Ht) as Hwf.
    assert (Hord : Forall ordinary ks) by (eapply Forall_impl; [exact Hf|]; by intros k (_ & ? & _)%U_facts).
    assert (Ha : answer e (RDeleteObjects b ks) s = Ok (ADeleted (filter (fun k => is_Some (objects st !! (b, k))) ks))).
    { assert (Hps : exists ps, Forall2 (located b) ks ps).
      { clear -Hord. induction Hord as [|k ks Hk Hord [ps IH]]; [by exists []|].
        destruct (ordinary_located k b Hk) as [p Hp]. exists (p :: ps). by constructor. }
      destruct Hps as [ps Hps]. unfold answer. cbn [storage]. unfold delete_objects.
      rewrite run_try_res, (run_existing e b s ks ps) by (first [done|by apply legal_bucket_segment]).
      assert (Hl : filter (fun x => there e s x = true) (zip ps ks) =
                   filter (fun x => is_Some (objects st !! (b, x.2))) (zip ps ks)).
      { clear Hnd Hord Hw. revert Hf. induction Hps as [|k p ks ps Hk Hps IH]; intros Hf; [done|].
        apply Forall_cons in Hf as [Hu Hf]. cbn [zip_with]. rewrite !filter_cons, IH by done.
        destruct (object_node st s b k Ht Hu) as (p' & Hl' & _ & Hos & _ & Hn).
        rewrite (located_fun _ _ _ _ Hl' Hk) in *. unfold there. cbn [fst snd]. rewrite Hos. cbn [andb].
        destruct (objects st !! (b, k)) as [d|].
        - destruct Hn as (i & -> & _). rewrite bool_decide_true by done. by rewrite !decide_True by done.
        - rewrite Hn, bool_decide_false by (by intros [? ?]). by rewrite !decide_False by (first [done|by intros [? ?]]). }
      rewrite Hl. clear Hl. rewrite run_try_res.
      assert (Hz : forall p k, (p, k) ∈ zip ps ks -> U b k /\ located b k p).
      { clear -Hf Hps. induction Hps as [|k p ks ps Hk Hps IH]; intros p' k' Hin; [by apply elem_of_nil in Hin|].
        apply Forall_cons in Hf as [Hu Hf]. cbn [zip_with] in Hin.
        apply elem_of_cons in Hin as [[= -> ->]|Hin]; [done|by apply IH]. }
      assert (Hndz : NoDup (filter (fun x => is_Some (objects st !! (b, x.2))) (zip ps ks)).*1).
      { assert (Hndps : NoDup ps).
        { clear -Hnd Hps. induction Hps as [|k p ks ps Hk Hps IH]; [constructor|].
          apply NoDup_cons in Hnd as [Hk' Hnd]. constructor; [|by apply IH]. intros Hin.
          apply elem_of_list_lookup in Hin as [n Hn].
          destruct (Forall2_lookup_r _ _ _ _ _ Hps Hn) as (k' & Hk'' & Hl').
          destruct (located_inj _ _ _ _ _ Hk Hl') as [_ <-]. apply Hk'. by eapply elem_of_list_lookup_2. }
        clear -Hndps. revert ks. induction Hndps as [|p ps Hp Hndps IH]; intros [|k ks]; try constructor.
        cbn [zip_with]. rewrite filter_cons. case_decide; [|apply IH]. cbn [fmap list_fmap fst].
        constructor; [|apply IH]. intros ([p' k'] & -> & Hin)%elem_of_list_fmap.
        apply elem_of_list_filter in Hin as [_ Hin]. apply Hp. by eapply elem_of_zip_l. }
      destruct (run_remove_works _ s Hndz) as [s' ->].
      { intros [p k] [Hs Hin]%elem_of_list_filter. cbn [fst snd] in *. destruct (Hz _ _ Hin) as [Hu Hl].
        destruct (object_node st s b k Ht Hu) as (p' & Hl' & _ & Hos & _ & Hn).
        rewrite (located_fun _ _ _ _ Hl' Hl) in *. split; [done|]. destruct Hs as [d Hd]. rewrite Hd in Hn.
        destruct Hn as (i & Hi & _). eauto. }
      cbn [run snd]. do 2 f_equal. clear -Hps. induction Hps as [|k p ks ps Hk Hps IH]; [done|].
      cbn [zip_with]. rewrite !filter_cons. cbn [snd]. case_decide; cbn [fmap list_fmap snd]; by rewrite <- IH. }
    destruct (C35_batch_delete e s b ks _ Hwf Hb Hord Hnd Ha) as (gone & _ & _ & Hgone & _ & Hoth).
    eexists _, _. split; [by apply sv_delete_many|]. split; [exact Ha|].
    set (s' := after e (RDeleteObjects b ks) s) in *.
    assert (Hnl : forall q, (length q < 2)%nat -> fs_nodes s' !! q = fs_nodes s !! q).
    { intros q Hq. apply Hoth. intros k _ (segs & Hne & _ & _ & ->). destruct segs; [done|]. cbn in Hq. lia. }
    apply (tracks_after e U HU st); [done|by apply (wb_plain st)|by apply (wb_text st)|..]; fold s'.
    - intros b' q Hb' (k & Hk & Hp) _. eapply object_file; [|done|done]. by eapply Forall_forall in Hf.
    - rewrite Hnl by (cbn; lia). apply (tk_root _ _ _ _ Ht).
    - intros b' Hb'. rewrite Hnl by (cbn; lia). apply (tk_bucket _ _ _ _ Ht b' Hb').
    - apply (tk_legal _ _ _ _ Ht).
    - by intros ? ? ? _ _ [].
    - intros b' k q Hu Hl [<- Hk]. cbn. transitivity (@None bytes).
      + destruct (Hgone k Hk) as (_ & Hh & _). destruct (content s' q) as [c|] eqn:Ec; [|done]. exfalso.
        destruct (content_Some _ _ _ Ec) as (i & Hi & _). unfold answer in Hh. cbn [storage] in Hh.
        rewrite (run_head_file e b k q i) in Hh;
          [|apply located_path; [by apply legal_bucket_segment|done]|by eapply nm_path|done].
        cbn [snd] in Hh. destruct (meta_of e s' b k); [|done]. by destruct (_ <=? _)%N.
      + symmetry. apply map_filter_lookup_None. right. intros x _ Hx. by apply Hx.
    - intros b' k' Hna. cbn. apply option_eq. intros x. rewrite map_filter_lookup_Some. cbn.
      split; [by intros [? _]|]. intros Hx. split; [done|]. intros [-> ?]. by apply Hna.
    - cbn. intros x y Hx. apply map_filter_lookup_Some in Hx as [Hx _]. by apply (tk_names _ _ _ _ Ht).
    - intros b' k' Hu'. unfold s'. by rewrite (meta_after st s _ _ b' k' Ht (wb_plain _ _ Hw) Ha).
    - done.
    - done.
    - auto.
  Qed.

  (* Copies and completions. *)
  Lemma located_resolved b k p : located b k p -> resolved b k p.
  Proof.
    intros (segs & Hne & Hok & -> & ->). exists segs. split; [done|].
    split; [eapply Forall_impl; [exact Hok|]; by intros c (_ & _ & _ & ?)|].
    split. { intros Hin. rewrite Forall_forall in Hok. by destruct (Hok _ Hin) as (_ & _ & ? & _). }
    split; [done|]. split.
    - intros r Heq. destruct segs as [|c segs]; [done|]. apply Forall_cons in Hok as [(Hc & _ & _ & Hs) _].
      destruct c as [|a c]; [done|]. assert (a = "/"%char) as ->; [|by apply Hs; left].
      destruct segs; cbn in Heq; by injection Heq.
    - f_equal. clear Hne. induction Hok as [|c segs (H1 & H2 & _) Hok IH]; [done|].
      rewrite filter_cons_True by done. by f_equal.
  Qed.
  Lemma can_hold_writable st s b k p : tracks e U st s -> U b k -> located b k p -> can_hold st b k -> writable e s p.
  Proof.
    intros Ht Hu Hl [Hin Hk]. split; [by eapply nm_path|]. split; [by apply (tk_object _ _ _ _ Ht b k)|].
    destruct (U_facts _ _ Hu) as (Hb & _).
    destruct (path_parent b k p (legal_bucket_segment _ Hb) Hl) as (dir & c & _ & -> & _). exists dir, c. split; [done|].
    destruct Hk as [[d Hd]|Hns].
    - destruct (tk_object _ _ _ _ Ht b k _ Hu Hl) as [Hc _]. rewrite Hd in Hc.
      destruct (content_Some _ _ _ Hc) as (i & Hi & _).
      apply (wf_parent _ (tk_wf _ _ _ _ Ht) dir c). by rewrite Hi.
    - destruct Hl as (segs & Hne & _ & -> & Heq). destruct segs as [|x segs]; [done|].
      destruct segs as [|y segs].
      + change [b; x] with ([b] ++ [x]) in Heq. apply snoc_inj in Heq as [-> _].
        by apply (tk_bucket _ _ _ _ Ht).
      + exfalso. apply Hns. rewrite slashed_cons by done. apply elem_of_app. right. left.
  Qed.
  Lemma copy_file_works s src dst c : wf s -> content s src = Some c -> e_os_ok e src = true -> writable e s dst ->
    exists s', run e (copy_file e src dst) s = (s', Some tt).
  Proof.
    intros Hwf Hc Hos Hw. rewrite run_copy_file, Hc, Hos.
    destruct (proj1 (create_writable e s dst Hwf ltac:(destruct Hw as (_ & _ & ? & ? & -> & _); by destruct x)) Hw)
      as (s1 & i & ->). eauto.
  Qed.
  Lemma copy_works st s sb sk b k d : tracks e U st s -> U sb sk -> U b k -> (sb, sk) <> (b, k) ->
    objects st !! (sb, sk) = Some d -> can_hold st b k ->
    answer e (RCopyObject (sb ++ B "/" ++ sk) b k) s = Ok (ACopy (quoted_md5 d)).
  Proof.
    intros Ht Hus Hu Hne Hd Hh. pose proof (tk_wf _ _ _ _ Ht) as Hwf.
    destruct (nm_key _ _ HU _ _ Hus) as (_ & Hlk & _ & Hlf).
    destruct (object_node st s sb sk Ht Hus) as (ps & Hls & Hps & Hoss & Hcs & Hns). rewrite Hd in Hns, Hcs.
    destruct Hns as (i & Hi & Hdi & _).
    destruct (U_path e U HU b k Hu) as (pd & Hl & Hos & Hp).
    assert (Hpp : ps <> pd) by (intros ->; destruct (located_inj _ _ _ _ _ Hls Hl) as [-> ->]; done).
    unfold answer. cbn [storage]. unfold copy_object. rewrite copy_source_text; [|by apply (U_facts _ _ Hus)|done|].
    2: { destruct (U_facts _ _ Hus) as (Hb & _). intros Hin.
         apply elem_of_app in Hin as [Hin|Hin]; [|apply elem_of_cons in Hin as [?|?]; done].
         by apply (bucket_no_LF _ Hb). }
    rewrite Hps, Hp. cbn [try_path]. rewrite run_try_io, run_call. cbn [exec]. rewrite Hoss, Hi. cbn [negb].
    rewrite run_try_io.
    destruct (copy_file_works s ps pd d Hwf Hcs Hoss (can_hold_writable st s b k pd Ht Hu Hl Hh)) as [s1 E1].
    rewrite E1. destruct (copy_file_ok _ _ _ _ _ Hwf E1) as (c & Hc & _ & _ & Hwf1 & Hdst & Hoth).
    rewrite metadata_path. cbn [try_path]. rewrite run_bind, run_exists, run_try_io, metadata_path.
    assert (Hm : forall b' k', fs_nodes s1 !! [metadata_name b' k'] = fs_nodes s !! [metadata_name b' k'] /\
                   content s1 [metadata_name b' k'] = content s [metadata_name b' k']).
    { intros b' k'. destruct (Hoth [metadata_name b' k']) as [? ?]; [|done].
      intros Heq. symmetry in Heq. by apply (located_not_meta _ _ _ _ _ Hl) in Heq. }
    destruct (Hm sb sk) as [Hms1 Hms2]. rewrite Hms1.
    assert (Hr : exists s2, run e (if e_os_ok e [metadata_name sb sk] &&
                 bool_decide (is_Some (fs_nodes s !! [metadata_name sb sk]))
               then copy_file e [metadata_name sb sk] [metadata_name b k] else Ret (Some ())) s1 = (s2, Some tt) /\
               content s2 ps = Some d).
    { destruct (Hoth ps Hpp) as [Hps1 _].
      destruct (e_os_ok e [metadata_name sb sk] && bool_decide (is_Some (fs_nodes s !! [metadata_name sb sk]))) eqn:Ee.
      - apply andb_true_iff in Ee as [Eo Eb]. apply bool_decide_eq_true in Eb as [n Hn].
        pose proof (tk_intact _ _ _ _ Ht sb sk) as Hin. rewrite Hn in Hin. destruct n as [|j]; [done|].
        destruct Hin as (cm & _ & Hcm & _). destruct (Hm b k) as [Hmd1 Hmd2].
        assert (Hw : writable e s1 [metadata_name b k]).
        { split; [by eapply nm_meta|]. split.
          - rewrite Hmd1. intros Heq. pose proof (tk_intact _ _ _ _ Ht b k) as Hin. by rewrite Heq in Hin.
          - exists [], (metadata_name b k). split; [done|]. destruct (Hoth []) as [_ ->]; [|by apply (tk_root _ _ _ _ Ht)].
            destruct Hl as (? & _ & _ & _ & ->). done. }
        rewrite <- Hms2 in Hcm.
        destruct (copy_file_works s1 _ [metadata_name b k] cm Hwf1 Hcm Eo Hw) as [s2 E2]. exists s2. split; [done|].
        destruct (copy_file_ok _ _ _ _ _ Hwf1 E2) as (_ & _ & _ & _ & _ & _ & Ho2).
        destruct (Ho2 ps) as [-> _]; [by eapply located_not_meta|]. congruence.
      - exists s1. split; [done|]. congruence. }
    destruct Hr as (s2 & -> & Hps2). rewrite run_try_io, (run_get_md5 _ _ _ ps), Hoss, Hps2 by done. done.
  Qed.
  Lemma step_copy st s src b k : tracks e U st s -> well_behaved e U st (RCopyObject src b k) ->
    ok_step st s (RCopyObject src b k).
  Proof.
    intros Ht Hw. pose proof Hw as (Hu & sb & sk & Hus & -> & Hne & Hh). pose proof (tk_wf _ _ _ _ Ht) as Hwf.
    destruct (U_facts _ _ Hus) as (Hsb & _). destruct (U_facts _ _ Hu) as (Hb & Hk & _).
    pose proof (bucket_no_slash _ Hsb) as Hns.
    destruct (nm_key _ _ HU _ _ Hus) as (_ & Hlk & _ & Hlf).
    assert (HLF : LF ∉ sb ++ B "/" ++ sk).
    { intros Hin. apply elem_of_app in Hin as [Hin|Hin]; [|apply elem_of_cons in Hin as [?|?]; done].
      by apply (bucket_no_LF _ Hsb). }
    destruct (object_node st s sb sk Ht Hus) as (ps & Hls & _ & _ & Hcs & Hn).
    destruct (objects st !! (sb, sk)) as [d|] eqn:Ed.
    2: { destruct (C33_copy_missing_source e s sb sk b k ps Hsb (located_resolved _ _ _ Hls) Hlk HLF Hn) as [Haf Ha].
         eapply same_step; [done|by apply sv_copy_none|done|done]. }
    pose proof (copy_works st s sb sk b k d Ht Hus Hu Hne Ed (Hh ltac:(done))) as Ha.
    eexists _, _. split; [by apply sv_copy|]. split; [exact Ha|].
    set (r := RCopyObject (sb ++ B "/" ++ sk) b k) in *. set (s' := after e r s).
    destruct (U_path e U HU b k Hu) as (p & Hl & Hos & Hp).
    assert (Hpp : ps <> p) by (intros ->; destruct (located_inj _ _ _ _ _ Hls Hl) as [-> ->]; done).
    destruct (C33_copy_duplicates e s sb sk b k ps p _ Hwf Hsb (located_resolved _ _ _ Hls) Hb (located_resolved _ _ _ Hl)
      Hpp Hlk HLF Ha) as (c & Hc & Hc' & _). rewrite Hcs in Hc. injection Hc as <-. fold r s' in Hc'.
    assert (Hbs : forall md x, buckets (set_metadata b k md (set_object b k d x)) = buckets x) by by intros [].
    assert (Hobs : forall md x, objects (set_metadata b k md (set_object b k d x)) = <[(b, k) := d]> (objects x)) by by intros [].
    apply (tracks_after e U HU st); [done|by eapply wb_plain|by eapply wb_text|..]; fold s'; rewrite ?Hbs, ?Hobs.
    - intros b' q Hb' [Hf|Hf] _; [by eapply (object_file b k)|by apply meta_file in Hf].
    - apply dirs_kept; [done|by intros []|by intros []|apply (tk_root _ _ _ _ Ht)].
    - intros b' Hb'. unfold s'. rewrite dirs_kept by (done || by intros []). apply (tk_bucket _ _ _ _ Ht b' Hb').
    - apply (tk_legal _ _ _ _ Ht).
    - by intros ? ? ? _ _ [].
    - intros b' k' q _ Hl' [<- <-]. rewrite (located_fun _ _ _ _ Hl' Hl), Hc'. by rewrite lookup_insert.
    - intros b' k' Hna. rewrite lookup_insert_ne; [done|]. intros [= -> ->]. by apply Hna.
    - intros x y Hx. apply lookup_insert_Some in Hx as [[<- <-]|[_ Hx]]; [|by apply (tk_names _ _ _ _ Ht)].
      split; [done|]. by apply (tk_names _ _ _ _ Ht _ _ Ed).
    - intros b' k' Hu'. unfold s'. rewrite (meta_after st s r _ b' k' Ht (wb_plain _ _ Hw) Ha Hu'). unfold r.
      rewrite copy_source_text by done. rewrite (tk_meta _ _ _ _ Ht sb sk Hus).
      destruct (metadatas st !! (sb, sk)) as [m|]; [|by case_decide]. cbn.
      case_decide as Hdd; [destruct Hdd as [-> ->]; by rewrite lookup_insert|].
      rewrite lookup_insert_ne; [done|]. intros [= -> ->]. by apply Hdd.
    - done.
    - intros u n _ _. by destruct (metadatas st !! (sb, sk)).
    - auto.
  Qed.

  (* Uploads. *)
  Lemma step_part st s u n body : tracks e U st s -> well_behaved e U st (RUploadPart u n body) ->
    ok_step st s (RUploadPart u n body).
  Proof.
    intros Ht Hw. pose proof Hw as (Hus & Hut & Hos & Hbody). pose proof (tk_wf _ _ _ _ Ht) as Hwf.
    destruct body as [fs|].
    2: { eapply same_step; [done|by apply sv_part_nothing|done|done]. }
    pose proof (Hbody fs eq_refl) as Hbr.
    assert (Ha : answer e (RUploadPart u n (Some fs)) s = Ok (APart (quoted_md5 (carried fs)))).
    { unfold answer. cbn [storage]. unfold upload_part. rewrite part_path_eq by done. cbn [try_path].
      rewrite run_try_io, run_call.
      destruct (proj1 (create_writable e s [part_name u n] Hwf ltac:(done))) as (s1 & i & E).
      { split; [done|]. split; [by apply (tk_part _ _ _ _ Ht)|]. exists [], (part_name u n). split; [done|].
        apply (tk_root _ _ _ _ Ht). }
      rewrite E. apply create_file in E as (Hn & Hd & _). rewrite run_try_io, run_copy_bytes_0 by done.
      rewrite body_ok_broken, Hbr. cbn [negb run snd]. by rewrite body_data_carried. }
    destruct (upload_ok e u n (Some fs) s _ Hwf Hus Ha) as (fs' & [= <-] & _ & Hc & _).
    eexists _, _. split; [by apply sv_part|]. split; [exact Ha|].
    apply (tracks_after e U HU st); [done|by eapply wb_plain|by eapply wb_text|..].
    - intros b' q Hb' Hf _. cbn in Hf. rewrite part_path_eq in Hf by done. injection Hf as Hf _. exfalso.
      by eapply (bucket_not_part b').
    - apply dirs_kept; [done|by intros []|by intros []|apply (tk_root _ _ _ _ Ht)].
    - intros b' Hb'. rewrite dirs_kept by (done || by intros []). apply (tk_bucket _ _ _ _ Ht b' Hb').
    - apply (tk_legal _ _ _ _ Ht).
    - by intros ? ? ? _ _ [].
    - by intros ? ? ? _ _ [].
    - done.
    - apply (tk_names _ _ _ _ Ht).
    - intros b' k' Hu'. by rewrite (meta_after st s _ _ b' k' Ht (wb_plain _ _ Hw) Ha).
    - intros u' n' _ [<- <-]. rewrite Hc. cbn. by rewrite lookup_insert.
    - intros u' n' _ Hnt. cbn. rewrite lookup_insert_ne; [done|]. intros [= -> ->]. by apply Hnt.
    - intros u' n'. cbn. destruct (decide (u = u')) as [->|]; [|right; tauto].
      destruct (decide (n = n')) as [->|]; [by left|right; tauto].
  Qed.
  Lemma elem_one_to x m : Some x ∈ one_to m <-> (1 <= x <= Z.of_nat m)%Z.
  Proof.
    unfold one_to. change (map Some ?l) with (Some <$> l). rewrite (elem_of_list_fmap_inj Some). rewrite elem_of_seqZ. lia.
  Qed.
  Lemma step_complete st s b k u ps : tracks e U st s -> well_behaved e U st (RCompleteMultipartUpload b k u ps) ->
    ok_step st s (RCompleteMultipartUpload b k u ps).
  Proof.
    intros Ht Hw. pose proof Hw as (Hu & Hus & Hut & Hps). pose proof (tk_wf _ _ _ _ Ht) as Hwf.
    destruct ps as [l|].
    2: { destruct (C40_no_list_partial e s b k u) as [Haf Ha]. eapply same_step; [done|by apply sv_complete_nothing|done|done]. }
    destruct (Hps l eq_refl) as (Hh & m & data & -> & Has & Hsmall). pose proof Has as (cs & Hlen & -> & Hparts).
    destruct (U_facts _ _ Hu) as (Hb & Hk & _).
    destruct (U_path e U HU b k Hu) as (p & Hl & Hos & Hp).
    pose proof (can_hold_writable st s b k p Ht Hu Hl Hh) as Hwr.
    destruct (C38_completion e s b k u p (one_to m) Hwf Hb (located_resolved _ _ _ Hl) Hus) as [_ Hcomp].
    destruct (Hcomp cs Hwr) as (Ha & Hc & Hgone & Hoth).
    { by rewrite Hlen. }
    { intros j c Hj. pose proof (Hparts j c Hj) as Hc. destruct (tk_part _ _ _ _ Ht u (Z.of_nat j + 1) Hus) as [Hcp _].
      rewrite Hc in Hcp. split; [done|]. destruct (content_Some _ _ _ Hcp) as (i & Hi & _).
      apply (tk_tidy _ _ _ _ Ht). by rewrite Hi. }
    clear Hcomp. rewrite Hlen in Hgone, Hoth.
    eexists _, _. split; [by apply sv_complete|]. split; [exact Ha|].
    set (r := RCompleteMultipartUpload b k u (Some (one_to m))) in *. set (s' := after e r s) in *.
    assert (Htd : forall u' n, touches_part r u' n <-> u = u' /\ (1 <= n <= Z.of_nat m)%Z).
    { intros u' n. cbn. rewrite <- elem_one_to. split; [intros (? & x & [= <-] & ?); done|intros [? ?]; split; [done|eauto]]. }
    assert (Hnl : forall q, (length q < 2)%nat -> q <> p).
    { intros q Hq ->. destruct Hl as (segs & Hne & _ & _ & ->). destruct segs; [done|]. cbn in Hq. lia. }
    apply (tracks_after e U HU st); [done|by eapply wb_plain|by eapply wb_text|..]; fold s'.
    - intros b' q Hb' [Hf|(l & n & _ & _ & Hf)] _; [by eapply object_file|].
      rewrite part_path_eq in Hf by done. injection Hf as Hf _. exfalso. by eapply (bucket_not_part b').
    - apply dirs_kept; [done|by intros []|by intros []|apply (tk_root _ _ _ _ Ht)].
    - intros b' Hb'. unfold s'. rewrite dirs_kept by (done || by intros []). apply (tk_bucket _ _ _ _ Ht b' Hb').
    - apply (tk_legal _ _ _ _ Ht).
    - by intros ? ? ? _ _ [].
    - intros b' k' q _ Hl' [<- <-]. rewrite (located_fun _ _ _ _ Hl' Hl), Hc. cbn. by rewrite lookup_insert.
    - intros b' k' Hna. cbn. rewrite lookup_insert_ne; [done|]. intros [= -> ->]. by apply Hna.
    - cbn. intros x y Hx. apply lookup_insert_Some in Hx as [[<- <-]|[_ Hx]]; [done|by apply (tk_names _ _ _ _ Ht)].
    - intros b' k' Hu'. unfold s'. by rewrite (meta_after st s _ _ b' k' Ht (wb_plain _ _ Hw) Ha).
    - intros u' n Hu' [<- Hn]%Htd. unfold content. rewrite Hgone by done. symmetry. cbn.
      apply map_filter_lookup_None. right. intros x _ Hx. by apply Hx.
    - intros u' n Hu' Hnt. rewrite Htd in Hnt. cbn. apply option_eq. intros x. rewrite map_filter_lookup_Some. cbn.
      split; [by intros [? _]|]. intros Hx. split; [done|]. intros [-> ?]. by apply Hnt.
    - intros u' n. rewrite Htd. destruct (decide (u = u')) as [->|]; [|right; tauto].
      destruct (decide (1 <= n <= Z.of_nat m)%Z); [by left|right; tauto].
  Qed.

  (* Requests that change nothing. *)
  Lemma step_head_bucket st s b : tracks e U st s -> legal_bucket b ->
    ok_step st s (RHeadBucket b) /\ ok_step st s (RGetBucketLocation b).
  Proof.
    intros Ht Hb. destruct (C37_head_and_location e b s Hb) as [Hy Hn].
    destruct (bucket_node st s b Ht Hb) as [(Hin & Hd & Hos)|[Hin Hd]].
    - destruct Hy as [Hy1 Hy2]; [by rewrite Hd|].
      split; (eapply same_step; [done|by constructor| |by apply C51_reads_leave_store]); [exact Hy1|exact Hy2].
    - destruct Hn as [Hn1 Hn2]; [rewrite Hd; by intros [_ [? ?]]|].
      split; (eapply same_step; [done| | |by apply C51_reads_leave_store]);
        [by apply sv_head_no_bucket|exact Hn1|by apply sv_locate_no_bucket|exact Hn2].
  Qed.
  Lemma step_list_buckets st s : tracks e U st s -> ok_step st s RListBuckets.
  Proof.
    intros Ht. destruct (C37_list_buckets e s (tk_wf _ _ _ _ Ht) (tk_tidy _ _ _ _ Ht) (tk_root _ _ _ _ Ht)) as (l & Ha & Hnd & Hl).
    eapply same_step; [done|apply (sv_list_buckets st l Hnd)|exact Ha|by apply C51_reads_leave_store].
    intros b. rewrite Hl. split.
    - intros [Hb Hn]. by apply (tk_bucket _ _ _ _ Ht).
    - intros Hin. pose proof (tk_legal _ _ _ _ Ht _ Hin) as Hb. split; [done|]. by apply (tk_bucket _ _ _ _ Ht).
  Qed.
  Lemma step_list st s b x (v2 : bool) : tracks e U st s -> legal_bucket b ->
    ok_step st s (if v2 then RListObjectsV2 b x else RListObjects b x).
  Proof.
    intros Ht Hb.
    assert (Haf : after e (if v2 then RListObjectsV2 b x else RListObjects b x) s = s)
      by (apply C51_reads_leave_store; by destruct v2).
    assert (Hob : forall k p c, located b k p -> content s p = Some c -> objects st !! (b, k) = Some c).
    { intros k p c Hl Hc. pose proof Hl as (segs & _ & _ & _ & ->).
      destruct (tk_only _ _ _ _ Ht b segs c Hb Hc) as (k' & Hu' & Hl').
      destruct (located_inj _ _ _ _ _ Hl Hl') as [_ <-].
      destruct (tk_object _ _ _ _ Ht _ _ _ Hu' Hl) as [Heq _]. congruence. }
    destruct (bucket_node st s b Ht Hb) as [(Hin & Hd & Hos)|[Hin Hd]].
    - destruct (C36_listing e s b x v2 (tk_wf _ _ _ _ Ht) (tk_tidy _ _ _ _ Ht) Hb Hd) as (l & Ha & Hl & Hs).
      { intros q c Hc. destruct (tk_only _ _ _ _ Ht b q c Hb Hc) as (k & Hu & Hl).
        pose proof (Hob k _ c Hl Hc) as Ho. by apply (tk_names _ _ _ _ Ht _ _ Ho). }
      assert (Hlist : listing st b x l).
      { split; [|done]. intros k n. rewrite Hl. split.
        - intros (Hpre & p & c & Hlo & Hc & ->). split; [done|]. exists c. split; [by eapply Hob|done].
        - intros (Hpre & d & Ho & ->). split; [done|]. destruct (tk_names _ _ _ _ Ht _ _ Ho) as [Hu _]. cbn in Hu.
          destruct (object_node st s b k Ht Hu) as (p & Hlo & _ & _ & Hc & _). rewrite Ho in Hc. by exists p, d. }
      destruct v2; (eapply same_step; [done| | |exact Haf]);
        [by apply (sv_list2 _ _ _ l)|exact Ha|by apply (sv_list _ _ _ l)|exact Ha].
    - assert (Hr : run e (list_objects e v2 b x) s = (s, Err InternalError)).
      { unfold list_objects. rewrite bucket_path by by apply legal_bucket_segment. cbn [try_path].
        rewrite run_bind, run_call. cbn [exec]. rewrite run_try_res. cbn [list_queue].
        rewrite run_try_io, run_call. cbn [exec]. unfold is_dir. rewrite Hd, andb_false_r. done. }
      destruct v2; (eapply same_step; [done| | |exact Haf]);
        [by apply sv_list2_no_bucket|cbn; unfold answer; cbn [storage]; by rewrite Hr
        |by apply sv_list_no_bucket|cbn; unfold answer; cbn [storage]; by rewrite Hr].
  Qed.
  Lemma step_get st s b k range : tracks e U st s -> well_behaved e U st (RGetObject b k range) ->
    ok_step st s (RGetObject b k range).
  Proof.
    intros Ht [Hu Hrg]. destruct (U_facts _ _ Hu) as (Hb & Hk & _).
    destruct (object_node st s b k Ht Hu) as (p & Hl & Hp & Hos & Hc & Hn).
    pose proof (tk_meta _ _ _ _ Ht _ _ Hu) as Hm. pose proof (tk_intact _ _ _ _ Ht) as Hint.
    assert (Haf : after e (RGetObject b k range) s = s) by by apply C51_reads_leave_store.
    destruct (objects st !! (b, k)) as [d|] eqn:Ho.
    - destruct Hn as (i & Hi & Hdi & Hsm).
      assert (Hlen : file_len s i = N.of_nat (length d)) by (unfold file_len; by rewrite Hdi).
      destruct range as [str|].
      + destruct (Hrg str eq_refl) as (rg & Hrt & Hins). specialize (Hins d eq_refl).
        destruct (slice rg d) as [x|] eqn:Es.
        * destruct (C32_range_slice_partial e s b k p d str rg x Hint Hb Hl Hos Hc Hsm Hrt Hins Es) as [md Hg].
          assert (md = metadatas st !! (b, k)) as ->.
          { destruct Hg as (h & off & lim & Ha & _).
            destruct (C45_reported_partial e s b k p md Hb Hl) as [_ Hrep].
            pose proof (Hrep _ _ _ _ _ _ Ha ltac:(by rewrite Hc)) as Hw. apply written_meta in Hw. congruence. }
          eapply same_step; [done|by eapply sv_get_range|exact Hg|done].
        * pose proof (range_behaviour e s b k p d str rg Hint Hb Hl Hos Hc Hsm Hrt) as Hg. rewrite Es in Hg.
          eapply same_step; [done|by eapply sv_get_no_range|exact Hg|done].
      + eapply same_step; [done|by apply sv_get| |done]. cbn.
        assert (Hex : extent None (file_len s i) = Ok (0, N.of_nat (length d))%N) by (cbn; by rewrite Hlen).
        pose proof (gets_file e s b k p i None None _ _ _ Hp Hos Hi eq_refl Hex Hsm Hm) as Hg.
        rewrite Hdi in Hg. rewrite Nat2N.id in Hg. cbn [N.to_nat] in Hg.
        change (drop (N.to_nat 0) d) with d in Hg. by rewrite take_ge in Hg.
    - assert (Hpr : exists r, parse_range range = Some r).
      { destruct range as [str|]; [|by eexists]. destruct (Hrg str eq_refl) as (rg & Hrt & _).
        apply range_spec in Hrt. cbn. rewrite Hrt. eauto. }
      destruct Hpr as [r Hpr].
      eapply same_step; [done|by apply sv_get_none| |done]. cbn. unfold answer. cbn [storage].
      rewrite (run_get_absent e b k range p s) by auto. by rewrite Hpr.
  Qed.
  Lemma step_head st s b k : tracks e U st s -> U b k -> ok_step st s (RHeadObject b k).
  Proof.
    intros Ht Hu. destruct (object_node st s b k Ht Hu) as (p & Hl & Hp & Hos & Hc & Hn).
    assert (Haf : after e (RHeadObject b k) s = s) by by apply C51_reads_leave_store.
    pose proof (tk_meta _ _ _ _ Ht _ _ Hu) as Hm.
    destruct (objects st !! (b, k)) as [d|] eqn:Ho.
    - destruct Hn as (i & Hi & Hdi & Hsm). eapply same_step; [done|by apply sv_head| |done].
      cbn. unfold answer. cbn [storage]. rewrite (run_head_file e b k p i) by done. rewrite Hm.
      unfold file_len. rewrite Hdi. cbn [snd]. by rewrite (proj2 (N.leb_le _ _) Hsm).
    - eapply same_step; [done|by apply sv_head_none| |done].
      cbn. unfold answer. cbn [storage]. by rewrite (run_head_absent e b k p s) by auto.
  Qed.

  Lemma step_works st s r : tracks e U st s -> well_behaved e U st r -> ok_step st s r.
  Proof.
    intros Ht Hw. destruct r.
    - by apply step_create_bucket.
    - by apply step_copy.
    - by apply step_delete_bucket.
    - by apply step_delete.
    - by apply step_delete_many.
    - by apply step_head_bucket.
    - by apply step_get.
    - by apply step_head_bucket.
    - by apply step_head.
    - by apply step_list_buckets.
    - destruct Hw as [Hb _]. by apply (step_list st s bucket prefix false).
    - destruct Hw as [Hb _]. by apply (step_list st s bucket prefix true).
    - by apply step_put.
    - destruct (C38_create_upload e s bucket key uuid) as [Ha Haf].
      eapply same_step; [done|by apply sv_create_upload|exact Ha|exact Haf].
    - by apply step_part.
    - by apply step_complete.
  Qed.

  Lemma tracks_empty : e_os_ok e [] = true -> tracks e U nothing_stored empty_store.
  Proof.
    intros Hos. assert (Hn : forall p, p <> [] -> fs_nodes empty_store !! p = None).
    { intros p Hp. cbn. by rewrite lookup_singleton_ne. }
    assert (Hc : forall p, content empty_store p = None).
    { intros p. unfold content. destruct (decide (p = [])) as [->|Hp]; [done|by rewrite Hn]. }
    split.
    - apply wf_empty.
    - by apply (reachable_tidy e []).
    - apply intact_empty.
    - done.
    - intros b Hb. rewrite Hn by done. cbn. split; [set_solver|done].
    - cbn. set_solver.
    - intros b q c _. by rewrite Hc.
    - intros b k p _ (segs & _ & _ & _ & ->). by rewrite Hc, Hn.
    - done.
    - intros b k _. unfold meta_of. rewrite Hn by done. rewrite bool_decide_false by (by intros [? ?]).
      by rewrite andb_false_r.
    - intros u n _. by rewrite Hc, Hn.
  Qed.
End ops.
