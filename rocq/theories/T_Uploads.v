(** C38, C39, C40: multipart uploads. *)
From Verif Require Import M_Base M_Path M_Headers M_Chunked M_BytesStream M_Crypto M_Fs M_Json M_Utf8 M_Storage
  S_Path S_Headers S_Chunked S_Storage S_Store L_Base L_Headers L_Fs L_Storage L_Scope L_Names L_Json L_Ops L_Results
  L_Path T_Store T_Copy T_Etag.

Local Opaque md5 etag_of json_decode json_encode metadata_name part_name.

(* The part list 1, 2, ..., n. *)
Definition in_order (n : nat) : list (option Z) := map Some (seqZ 1 (Z.of_nat n)).

(* The file of a part holds [c]. *)
Definition holds (e : env) (s : fs) (u : bytes) (n : Z) (c : bytes) : Prop :=
  content s [part_name u n] = Some c /\ e_os_ok e [part_name u n] = true.

(* [p] can be created or overwritten as a file. *)
Definition writable (e : env) (s : fs) (p : path) : Prop :=
  e_os_ok e p = true /\ fs_nodes s !! p <> Some NDir /\
  exists dir c, p = dir ++ [c] /\ fs_nodes s !! dir = Some NDir.

Lemma create_writable e s p : wf s -> p <> [] -> writable e s p <-> exists s' i, exec e (CCreate p) s = (s', Some i).
Proof.
  intros Hwf Hne. unfold writable. cbn [exec]. split.
  - intros (-> & Hnd & dir & c & -> & Hd). cbn [negb]. rewrite parent_snoc.
    destruct (fs_nodes s !! (dir ++ [c])) as [[|i]|]; [done|eauto|]. rewrite (proj2 (is_dir_true s dir)) by done. eauto.
  - intros (s' & i & H). destruct (e_os_ok e p) eqn:Eo; [|done]. cbn [negb] in H. split; [done|].
    destruct (fs_nodes s !! p) as [[|j]|] eqn:En; [done| |].
    + split; [done|]. destruct (parent p) as [[dir c]|] eqn:Ep.
      * apply parent_Some in Ep as ->. exists dir, c. split; [done|].
        eapply (wf_prefix s (dir ++ [c])); [done|by eexists|by eexists|]. intros Heq. symmetry in Heq. by apply snoc_neq in Heq.
      * by apply parent_None in Ep.
    + split; [done|]. destruct (parent p) as [[dir c]|] eqn:Ep; [|done]. apply parent_Some in Ep as ->.
      exists dir, c. split; [done|]. destruct (is_dir s dir) eqn:Ed; [|done]. by apply is_dir_true.
Qed.

Lemma part_sing_inj u n u' n' : [part_name u n] = [part_name u' n'] -> u = u' /\ n = n'.
Proof. intros H. apply part_name_inj, sing_inj. by rewrite H. Qed.

(** The loop over the parts. *)
Lemma unlink_other e p q s s1 o : exec e (CUnlink p) s = (s1, o) -> q <> p ->
  content s1 q = content s q /\ fs_nodes s1 !! q = fs_nodes s !! q.
Proof.
  intros E Hq. assert (Hn : fs_nodes s1 !! q = fs_nodes s !! q /\ fs_data s1 = fs_data s).
  { revert E. cbn [exec]. destruct (e_os_ok e p); [|by intros [= <- <-]].
    destruct (fs_nodes s !! p) as [[|i]|]; intros [= <- <-]; try done. cbn. by rewrite lookup_delete_ne. }
  destruct Hn as [Hn Hd]. split; [|done]. unfold content. rewrite Hn. unfold data_of. by rewrite Hd.
Qed.

Lemma run_append_parts_ok e u i p cs : "/"%char ∉ u -> (forall n, p <> [part_name u n]) ->
  forall s cnt d, wf s -> fs_nodes s !! p = Some (NFile i) -> fs_data s !! i = Some d ->
  (forall j c, cs !! j = Some c -> holds e s u (cnt + 1 + Z.of_nat j) c) ->
  exists s', run e (append_parts e u i (length d) cnt (map Some (seqZ (cnt + 1) (Z.of_nat (length cs))))) s =
      (s', Ok (length (d ++ concat cs))) /\
    content s' p = Some (d ++ concat cs) /\ fs_nodes s' !! p = Some (NFile i) /\
    (forall n, (cnt < n <= cnt + Z.of_nat (length cs))%Z -> fs_nodes s' !! [part_name u n] = None) /\
    (forall q, q <> p -> (forall n, (cnt < n <= cnt + Z.of_nat (length cs))%Z -> q <> [part_name u n]) ->
       content s' q = content s q /\ fs_nodes s' !! q = fs_nodes s !! q).
Proof.
  intros Hu Hp. induction cs as [|c cs IH]; intros s cnt d Hwf Hn Hd Hcs.
  - exists s. cbn [length concat seqZ map]. rewrite app_nil_r. cbn. split_and!; [done| |done| |done].
    + unfold content. rewrite Hn. unfold data_of. by rewrite Hd.
    + intros n Hn'. lia.
  - destruct (Hcs 0%nat c eq_refl) as [Hc Hos]. rewrite Z.add_0_r in Hc, Hos.
    rewrite seqZ_cons by (cbn [length]; lia). cbn [map append_parts].
    rewrite bool_decide_true by done. cbn [negb]. rewrite part_path_eq by done. cbn [try_path].
    assert (Hdiff : fs_nodes s !! [part_name u (cnt + 1)] <> Some (NFile i)).
    { intros Hx. apply (Hp (cnt + 1)%Z). by eapply wf_inj. }
    rewrite run_try_io, (run_append_file _ _ _ _ d), Hos, Hc by done. rewrite run_try_io, run_call.
    destruct (exec e (CUnlink [part_name u (cnt + 1)]) (set_data s i (d ++ c))) as [s1 o] eqn:E.
    assert (Hs1 : o = Some tt /\ fs_nodes s1 !! [part_name u (cnt + 1)] = None /\ fs_data s1 = fs_data (set_data s i (d ++ c)) /\ wf s1).
    { assert (W : wf s1) by (eapply wf_exec'; [done|by apply wf_set_data]).
      revert E. cbn [exec]. rewrite Hos. apply content_Some in Hc as (j & Hj & _).
      cbn [set_data fs_nodes]. rewrite Hj. intros [= <- <-]. split; [done|]. split; [apply lookup_delete|done]. }
    destruct Hs1 as (-> & Hgone & Hd1 & Hwf1).
    pose proof (fun q => unlink_other e _ q _ _ _ E) as Hother.
    assert (Hother' : forall q, q <> p -> q <> [part_name u (cnt + 1)] -> content s1 q = content s q /\ fs_nodes s1 !! q = fs_nodes s !! q).
    { intros q Hq1 Hq2. destruct (Hother q Hq2) as [-> ->]. split; [|done]. apply content_set_data_ne.
      intros Hq. apply Hq1. eapply wf_inj; [exact Hwf|exact Hq|exact Hn]. }
    destruct (IH s1 (cnt + 1)%Z (d ++ c)) as (s' & Hrun & H1 & H2 & H3 & H4).
    + done.
    + destruct (Hother p (Hp _)) as [_ ->]. done.
    + rewrite Hd1. apply set_data_lookup.
    + intros j x Hx. destruct (Hcs (S j) x Hx) as [Hx1 Hx2].
      replace (cnt + 1 + Z.of_nat (S j))%Z with (cnt + 1 + 1 + Z.of_nat j)%Z in Hx1, Hx2 by lia.
      split; [|done]. rewrite <- Hx1. apply Hother'; [by intros ?; eapply Hp|].
      intros Heq. apply part_sing_inj in Heq as [_ Heq]. lia.
    + replace (Z.pred (Z.of_nat (length (c :: cs)))) with (Z.of_nat (length cs)) by (cbn [length]; lia).
      replace (Z.succ (cnt + 1)) with (cnt + 1 + 1)%Z by lia.
      exists s'. rewrite Hrun. cbn [concat]. rewrite app_assoc. split_and!; [done|done|done| |].
      * intros n Hlt. cbn [length] in Hlt. destruct (decide (n = cnt + 1)%Z) as [->|Hne]; [|apply H3; lia].
        destruct (H4 [part_name u (cnt + 1)]) as [_ ->]; [by intros ?; eapply Hp| |done].
        intros n Hlt' Heq. apply part_sing_inj in Heq as [_ Heq]. lia.
      * intros q Hq1 Hq2. destruct (H4 q Hq1) as [-> ->].
        { intros n Hlt. apply Hq2. cbn [length]. lia. }
        apply Hother'; [done|]. apply Hq2. cbn [length]. lia.
Qed.

Lemma run_append_parts_inv e u i p parts : "/"%char ∉ u -> (forall n, p <> [part_name u n]) ->
  forall s cnt d s' n, wf s -> fs_nodes s !! p = Some (NFile i) -> fs_data s !! i = Some d ->
  run e (append_parts e u i (length d) cnt parts) s = (s', Ok n) ->
  exists cs, parts = map Some (seqZ (cnt + 1) (Z.of_nat (length cs))) /\
    (forall j c, cs !! j = Some c -> holds e s u (cnt + 1 + Z.of_nat j) c).
Proof.
  intros Hu Hp. induction parts as [|[m|] parts IH]; intros s cnt d s' n Hwf Hn Hd; cbn [append_parts]; [| |done].
  - intros _. exists []. done.
  - destruct (bool_decide _) eqn:Em; [|done]. apply bool_decide_eq_true_1 in Em as ->. cbn [negb].
    rewrite part_path_eq by done. cbn [try_path].
    assert (Hdiff : fs_nodes s !! [part_name u (cnt + 1)] <> Some (NFile i)).
    { intros Hx. apply (Hp (cnt + 1)%Z). by eapply wf_inj. }
    rewrite run_try_io, (run_append_file _ _ _ _ d) by done.
    destruct (e_os_ok e _) eqn:Hos; [|done]. destruct (content s _) as [c|] eqn:Hc; [|done].
    rewrite run_try_io, run_call.
    destruct (exec e (CUnlink [part_name u (cnt + 1)]) (set_data s i (d ++ c))) as [s1 o] eqn:E.
    destruct o; [|done].
    assert (W : wf s1) by (eapply wf_exec'; [done|by apply wf_set_data]).
    pose proof (fun q => unlink_other e _ q _ _ _ E) as Hother.
    assert (Hd1 : fs_data s1 = fs_data (set_data s i (d ++ c))).
    { revert E. cbn [exec]. rewrite Hos. destruct (fs_nodes (set_data _ _ _) !! _) as [[|]|]; intros H; inversion H; subst; done. }
    intros Hrun. apply (IH _ _ (d ++ c)) in Hrun as (cs & -> & Hcs); [|done| |].
    + exists (c :: cs). split.
      * rewrite (seqZ_cons _ (Z.of_nat (length (c :: cs)))) by (cbn [length]; lia). cbn [map]. replace (Z.succ (cnt + 1)) with (cnt + 1 + 1)%Z by lia. by replace (Z.pred (Z.of_nat (length (c :: cs)))) with (Z.of_nat (length cs)) by (cbn [length]; lia).
      * intros [|j] x; [intros [= <-]; rewrite Z.add_0_r; done|]. intros Hx. destruct (Hcs j x Hx) as [Hx1 Hx2].
        replace (cnt + 1 + Z.of_nat (S j))%Z with (cnt + 1 + 1 + Z.of_nat j)%Z by lia. split; [|done].
        rewrite <- Hx1. destruct (Hother [part_name u (cnt + 1 + 1 + Z.of_nat j)]) as [-> _].
        { intros Heq. apply part_sing_inj in Heq as [_ Heq]. lia. }
        symmetry. apply content_set_data_ne. intros Hq. eapply Hp. eapply wf_inj; [exact Hwf|exact Hn|exact Hq].
    + destruct (Hother p (Hp _)) as [_ ->]. done.
    + rewrite Hd1. apply set_data_lookup.
Qed.

(* Requests that may change the file of a part. *)
Definition touches_part (r : s_req) (u : bytes) (n : Z) : Prop :=
  match r with
  | RUploadPart u' n' _ => u' = u /\ n' = n
  | RCompleteMultipartUpload _ _ u' ps => u' = u /\ exists l, ps = Some l /\ Some n ∈ l
  | _ => False
  end.

Lemma located_not_part b k p u n : located b k p -> p <> [part_name u n].
Proof. intros (segs & Hne & _ & _ & ->) Heq. apply (f_equal length) in Heq. by destruct segs. Qed.

Lemma plain_part e r u n : plain_req r ->
  (r_files e r [part_name u n] -> touches_part r u n) /\
  ~ r_dirs e r [part_name u n] /\ ~ r_rmdirs e r [part_name u n].
Proof.
  intros Hr. split_and!.
  - intros HF. destruct r; cbn [plain_req r_files touches_part] in *; try done.
    + destruct Hr as (Hb' & Hk' & _). rewrite object_path, metadata_path in HF by done.
      destruct HF as [HF|HF%sing_inj]; [by eapply located_not_part in HF|]. symmetry in HF. by eapply part_metadata_neq.
    + destruct HF as (q & Hq & Hpre). rewrite bucket_path in Hq by by apply legal_bucket_segment.
      injection Hq as <-. apply prefix_singleton in Hpre. by eapply bucket_not_part.
    + destruct Hr as (Hb' & Hk'). rewrite object_path in HF by done. by eapply located_not_part in HF.
    + destruct Hr as (Hb' & Hks). destruct HF as (key & Hin & HF). rewrite Forall_forall in Hks.
      rewrite object_path in HF by auto. by eapply located_not_part in HF.
    + destruct Hr as (Hb' & Hk' & _). rewrite object_path, metadata_path in HF by done.
      destruct HF as [HF|[Hm HF%sing_inj]]; [by eapply located_not_part in HF|]. symmetry in HF. by eapply part_metadata_neq.
    + rewrite part_path_eq in HF by done. apply sing_inj, part_name_inj in HF as [-> ->]. done.
    + destruct Hr as (Hb' & Hk' & Hu). rewrite object_path in HF by done.
      destruct HF as [HF|(l & m & -> & Hin & HF)]; [by eapply located_not_part in HF|].
      rewrite part_path_eq in HF by done. apply sing_inj, part_name_inj in HF as [-> ->]. eauto.
  - intros H. destruct r; cbn [plain_req r_dirs] in *; try done.
    + rewrite bucket_path in H by by apply legal_bucket_segment. apply sing_inj in H. by eapply bucket_not_part.
    + destruct Hr as (Hb' & Hk' & _). destruct H as (q & Hq & Hpre). rewrite object_path in Hq by done.
      destruct Hq as (segs & _ & _ & _ & ->). apply prefix_cons_inv_1 in Hpre. symmetry in Hpre. by eapply bucket_not_part.
  - intros H. destruct r; cbn [plain_req r_rmdirs] in *; try done.
    + destruct H as (q & Hq & Hpre). rewrite bucket_path in Hq by by apply legal_bucket_segment.
      injection Hq as <-. apply prefix_singleton in Hpre. by eapply bucket_not_part.
    + destruct Hr as (Hb' & Hk'). rewrite object_path in H by done. by eapply located_not_part in H.
Qed.

Lemma part_kept e r s u n : wf s -> plain_req r -> ~ touches_part r u n ->
  content (after e r s) [part_name u n] = content s [part_name u n] /\
  fs_nodes (after e r s) !! [part_name u n] = fs_nodes s !! [part_name u n].
Proof.
  intros Hwf Hr Ht. pose proof (storage_untouched e r s Hwf) as Hu. destruct (plain_part e r u n Hr) as (H1 & H2 & H3).
  split; apply Hu; auto.
Qed.

Lemma parts_kept e rs s u n : wf s -> Forall plain_req rs -> Forall (fun r => ~ touches_part r u n) rs ->
  content (after_all e rs s) [part_name u n] = content s [part_name u n].
Proof.
  intros Hwf Hrs Ha. revert s Hwf. induction rs as [|r rs IH]; intros s Hwf; [done|].
  inversion Hrs; inversion Ha; subst. cbn [after_all]. rewrite IH; [|done|done|by apply wf_after]. by apply part_kept.
Qed.

Lemma upload_ok e u n body s a : wf s -> "/"%char ∉ u ->
  answer e (RUploadPart u n body) s = Ok a ->
  exists fs, body = Some fs /\ broken fs = false /\ holds e (after e (RUploadPart u n body) s) u n (carried fs).
Proof.
  intros Hwf Hu Ha. apply run_answer in Ha. revert Ha. cbn [storage]. unfold upload_part.
  destruct body as [body|]; [|done]. rewrite part_path_eq by done. cbn [try_path].
  rewrite run_try_io, run_call. destruct (exec e (CCreate _) s) as [s1 [i|]] eqn:E; [|done].
  apply create_file in E as (Hn & Hd & Hos). rewrite run_try_io, run_copy_bytes_0 by done.
  rewrite body_ok_broken. destruct (broken body) eqn:Hb; cbn [negb]; [done|]. cbn [run].
  intros [= <- <-]. exists body. rewrite body_data_carried. split_and!; [done|done|]. split; [|done].
  by apply content_set_data.
Qed.

(** C38, the effect of one completion. *)
Theorem C38_completion e s b k u p ps : wf s -> legal_bucket b -> resolved b k p -> "/"%char ∉ u ->
  let r := RCompleteMultipartUpload b k u (Some ps) in
  let s' := after e r s in
  (* it succeeds exactly for the list 1..n when all n parts are there and the object can be written *)
  ((exists a, answer e r s = Ok a) <->
     writable e s p /\ exists cs, ps = in_order (length cs) /\
       forall j c, cs !! j = Some c -> holds e s u (Z.of_nat j + 1) c) /\
  (* and then the object is the concatenation, the parts are gone and nothing else changes *)
  (forall cs, writable e s p -> ps = in_order (length cs) ->
     (forall j c, cs !! j = Some c -> holds e s u (Z.of_nat j + 1) c) ->
     answer e r s = Ok (ACompleted b k (quoted_md5 (concat cs))) /\
     content s' p = Some (concat cs) /\
     (forall n, (1 <= n <= Z.of_nat (length cs))%Z -> fs_nodes s' !! [part_name u n] = None) /\
     (forall q, q <> p -> (forall n, (1 <= n <= Z.of_nat (length cs))%Z -> q <> [part_name u n]) ->
        content s' q = content s q /\ fs_nodes s' !! q = fs_nodes s !! q)).
Proof.
  intros Hwf Hb Hres Hu r s'.
  assert (Hp : get_object_path e b k = Some p) by (apply resolved_path; [by apply legal_bucket_segment|done]).
  assert (Hcons : exists rest, p = b :: rest) by (destruct Hres as (? & _ & _ & _ & _ & _ & ->); by eexists).
  destruct Hcons as [rest Hcons].
  assert (Hnp : forall n, p <> [part_name u n]).
  { intros n Heq. rewrite Hcons in Heq. apply cons_head in Heq. symmetry in Heq. by eapply (bucket_not_part b). }
  assert (Hne : p <> []) by by rewrite Hcons.
  assert (Hsucc : forall cs, writable e s p -> ps = in_order (length cs) ->
     (forall j c, cs !! j = Some c -> holds e s u (Z.of_nat j + 1) c) ->
     exists s1, run e (storage e r) s = (s1, Ok (ACompleted b k (quoted_md5 (concat cs)))) /\
     content s1 p = Some (concat cs) /\
     (forall n, (1 <= n <= Z.of_nat (length cs))%Z -> fs_nodes s1 !! [part_name u n] = None) /\
     (forall q, q <> p -> (forall n, (1 <= n <= Z.of_nat (length cs))%Z -> q <> [part_name u n]) ->
        content s1 q = content s q /\ fs_nodes s1 !! q = fs_nodes s !! q)).
  { intros cs Hw -> Hcs. apply create_writable in Hw as (s1 & i & E); [|done|done].
    pose proof (fun q => create_other e p q s s1 _ Hwf E) as Hoth.
    assert (Hwf1 : wf s1) by by eapply wf_exec'.
    apply create_file in E as E'. destruct E' as (Hn & Hd & Hos).
    destruct (run_append_parts_ok e u i p cs Hu Hnp s1 0 [] Hwf1 Hn Hd) as (s2 & Hrun & H1 & H2 & H3 & H4).
    { intros j c Hc. destruct (Hcs j c Hc) as [Hc1 Hc2]. replace (0 + 1 + Z.of_nat j)%Z with (Z.of_nat j + 1)%Z by lia.
      split; [|done]. rewrite <- Hc1. by apply Hoth. }
    exists s2. unfold r. cbn [storage]. unfold complete_multipart_upload. rewrite Hp. cbn [try_path].
    rewrite run_try_io, run_call, E, run_try_res. change 0%nat with (length (@nil ascii)).
    unfold in_order. cbn [Z.add] in Hrun. change (0 + 1)%Z with 1%Z in Hrun. rewrite Hrun.
    rewrite run_try_io, run_call. cbn [exec]. rewrite Hos, H2. cbn [negb].
    rewrite run_try_io, (run_get_md5 _ _ _ p), Hos, H1 by done. cbn [fmap option_fmap option_map run].
    split_and!; [done|done| |].
    - intros n Hn'. apply H3. lia.
    - intros q Hq1 Hq2. destruct (H4 q Hq1) as [-> ->]; [intros n Hn'; apply Hq2; lia|]. by apply Hoth. }
  split; [|intros cs Hw Hps Hcs; destruct (Hsucc cs Hw Hps Hcs) as (s1 & Hrun & H1 & H2 & H3);
           unfold s', after, answer; rewrite Hrun; done].
  split.
  - intros [a Ha]. apply run_answer in Ha. revert Ha. unfold r at 1. cbn [storage]. unfold complete_multipart_upload.
    rewrite Hp. cbn [try_path]. rewrite run_try_io, run_call.
    destruct (exec e (CCreate p) s) as [s1 [i|]] eqn:E; [|done]. rewrite run_try_res.
    destruct (run e (append_parts e u i 0 0 ps) s1) as [s2 [n|]] eqn:Hrun; [|done]. intros _.
    split; [apply create_writable; [done|done|by eauto]|].
    pose proof (fun q => create_other e p q s s1 _ Hwf E) as Hoth.
    assert (Hwf1 : wf s1) by by eapply wf_exec'.
    apply create_file in E as (Hn & Hd & Hos).
    change 0%nat with (length (@nil ascii)) in Hrun.
    apply (run_append_parts_inv e u i p) in Hrun as (cs & -> & Hcs); [|done..].
    exists cs. split; [done|]. intros j c Hc. destruct (Hcs j c Hc) as [Hc1 Hc2].
    replace (0 + 1 + Z.of_nat j)%Z with (Z.of_nat j + 1)%Z in Hc1, Hc2 by lia. split; [|done].
    rewrite <- Hc1. symmetry. by apply Hoth.
  - intros (Hw & cs & Hps & Hcs). destruct (Hsucc cs Hw Hps Hcs) as (s1 & Hrun & _). unfold answer. rewrite Hrun. eauto.
Qed.
Print Assumptions C38_completion.

(* A list that is not 1..n is refused. *)
Theorem C38_wrong_list_refused e s b k u p ps : wf s -> legal_bucket b -> resolved b k p -> "/"%char ∉ u ->
  (forall n, ps <> in_order n) ->
  exists c, answer e (RCompleteMultipartUpload b k u (Some ps)) s = Err c.
Proof.
  intros Hwf Hb Hres Hu Hps. destruct (C38_completion e s b k u p ps Hwf Hb Hres Hu) as [[Ha _] _].
  destruct (answer e _ s) as [a|c]; [|by exists c]. destruct Ha as (_ & cs & -> & _); [by eexists|]. by destruct (Hps (length cs)).
Qed.
Print Assumptions C38_wrong_list_refused.

(** C38: after any requests, among them uploads of parts 1..n under [u] in any order and with
    repetitions, completion assembles the last uploads. *)
Theorem C38_assembles e s0 rs b k u p bodies : wf s0 -> intact s0 -> Forall plain_req rs ->
  legal_bucket b -> located b k p -> "/"%char ∉ u ->
  (forall j body, bodies !! j = Some body -> exists pre post a,
     let r := RUploadPart u (Z.of_nat j + 1) (Some body) in
     rs = pre ++ r :: post /\ answer e r (after_all e pre s0) = Ok a /\
     Forall (fun r' => ~ touches_part r' u (Z.of_nat j + 1)) post) ->
  let s := after_all e rs s0 in
  writable e s p ->
  let r := RCompleteMultipartUpload b k u (Some (in_order (length bodies))) in
  let data := concat (map carried bodies) in
  (N.of_nat (length data) <= i64_max)%N ->
  answer e r s = Ok (ACompleted b k (quoted_md5 data)) /\ content (after e r s) p = Some data /\
  (exists md, gets e (after e r s) b k None data (N.of_nat (length data)) md (quoted_md5 data)) /\
  (forall n, (1 <= n <= Z.of_nat (length bodies))%Z -> fs_nodes (after e r s) !! [part_name u n] = None).
Proof.
  intros Hwf Hin Hrs Hb Hl Hu Hup s Hw r data Hlen.
  assert (Hres : resolved b k p).
  { destruct Hl as (segs & Hne & Hs & -> & ->). exists segs. split_and!; [done| | |done| |].
    - eapply Forall_impl; [done|]. by intros c (_ & _ & _ & ?).
    - intros Hdd. rewrite Forall_forall in Hs. by destruct (Hs _ Hdd) as (_ & _ & ? & _).
    - intros x Hx. pose proof (slashed_starts segs Hne Hs) as H. rewrite Hx in H. by vm_compute in H.
    - f_equal. symmetry. clear -Hs. induction Hs as [|c segs Hc Hs IH]; [done|].
      rewrite filter_cons, decide_True by by destruct Hc as (? & ? & _). by rewrite IH. }
  destruct (intact_all e rs s0 Hwf Hin Hrs) as [Hi Hwf'].
  destruct (C38_completion e s b k u p (in_order (length bodies)) Hwf' Hb Hres Hu) as [_ H].
  destruct (H (map carried bodies)) as (Ha & Hc & Hgone & _); [done|by rewrite map_length| |].
  { intros j c Hj. apply list_lookup_fmap_Some in Hj as (body & Hj & ->).
    destruct (Hup j body Hj) as (pre & post & a & Hrs' & Ha & Hpost).
    assert (Hwp : wf (after_all e pre s0)).
    { rewrite Hrs' in Hrs. apply Forall_app in Hrs as [Hpre _]. by apply (intact_all e pre s0). }
    destruct (upload_ok e u (Z.of_nat j + 1) (Some body) (after_all e pre s0) a Hwp Hu Ha) as (fr & [= <-] & _ & [Hh1 Hh2]).
    split; [|done]. unfold s. rewrite <- Hh1, Hrs'. rewrite Hrs' in Hrs. apply Forall_app in Hrs as [_ Hrs].
    inversion Hrs; subst. 
    assert (Happ : forall x y t, after_all e (x ++ y) t = after_all e y (after_all e x t)).
    { intros x. induction x as [|z x IH]; intros y t; [done|]. apply IH. }
    rewrite Happ. cbn [after_all]. apply parts_kept; [by apply wf_after|done|done]. }
  split; [exact Ha|]. split; [exact Hc|]. split; [|by rewrite map_length in Hgone].
  fold r in Hc. fold data in Hc. destruct Hw as (Hos & _).
  pose proof (located_path e b k p (legal_bucket_segment _ Hb) Hl) as Hp.
  apply content_Some in Hc as (i & Hi' & Hd).
  assert (Hin' : intact (after e r s)).
  { apply intact_after; [done|done|]. cbn [plain_req r]. split_and!; [done|by eapply located_ordinary|done]. }
  destruct (intact_meta e (after e r s) b k Hin') as [md Hmd]. exists md.
  pose proof (gets_file e (after e r s) b k p i None None 0%N (N.of_nat (length data)) md Hp Hos Hi' eq_refl) as Hg.
  unfold extent, file_len in Hg. rewrite Hd in Hg. specialize (Hg eq_refl Hlen Hmd).
  rewrite Nat2N.id, drop_0, firstn_all in Hg. exact Hg.
Qed.
Print Assumptions C38_assembles.

(** Starting an upload changes nothing and hands out the new id. *)
Theorem C38_create_upload e s b k u :
  answer e (RCreateMultipartUpload b k u) s = Ok (ACreated b k u) /\ after e (RCreateMultipartUpload b k u) s = s.
Proof. done. Qed.
Print Assumptions C38_create_upload.

Definition ex_uuid : bytes := B "67e55044-10b1-426f-9247-bb680e5fe0c8".

(* Two parts uploaded in the wrong order, the second one twice. *)
Example ex_assemble :
  let u := ex_uuid in
  let rs := [RCreateBucket (B "photos"); RUploadPart u 2 (Some [FData (B "old")]); RUploadPart u 1 (Some [FData (B "one-"); FData (B "and-")]);
             RUploadPart u 2 (Some [FData (B "two")])] in
  let s := after_all ex_env rs empty_store in
  let r := RCompleteMultipartUpload (B "photos") (B "cat") u (Some (in_order 2)) in
  (writable ex_env s [B "photos"; B "cat"]) /\
  content (after ex_env r s) [B "photos"; B "cat"] = Some (B "one-and-two") /\
  content s [part_name u 2] = Some (B "two") /\
  (exists c, answer ex_env (RCompleteMultipartUpload (B "photos") (B "cat") u (Some [Some 2%Z; Some 1%Z])) s = Err c).
Proof.
  split; [|split; [|split]].
  - split; [done|]. split; [by vm_compute|]. exists [B "photos"], (B "cat"). split; [done|]. by vm_compute.
  - by vm_compute.
  - by vm_compute.
  - eexists. by vm_compute.
Qed.

(** C39 *)

(* Upload ids as CreateMultipartUpload issues them: the hyphenated form of a UUID. *)
Definition issued (u : bytes) : Prop :=
  exists a b c d f, u = a ++ B "-" ++ b ++ B "-" ++ c ++ B "-" ++ d ++ B "-" ++ f /\
    Forall (fun x => x ∈ B "0123456789abcdef") (a ++ b ++ c ++ d ++ f) /\
    length a = 8%nat /\ length b = 4%nat /\ length c = 4%nat /\ length d = 4%nat /\ length f = 12%nat.

Lemma issued_no_slash u : issued u -> "/"%char ∉ u.
Proof.
  intros (a & b & c & d & f & -> & H & _) Hin. rewrite !Forall_app, !Forall_forall in H.
  assert (Hh : "/"%char ∉ B "0123456789abcdef") by compute_done.
  assert (Hd : "/"%char ∉ B "-") by compute_done.
  rewrite !elem_of_app in Hin. destruct H as (H1 & H2 & H3 & H4 & H5).
  destruct Hin as [Hin|[Hin|[Hin|[Hin|[Hin|[Hin|[Hin|[Hin|Hin]]]]]]]]; auto.
Qed.

(* Uploading a part changes no other part, no object, and no completion under another id. *)
Theorem C39_upload_separate e s u n body : wf s -> issued u ->
  let s' := after e (RUploadPart u n body) s in
  (forall u' n' c, issued u' -> (u', n') <> (u, n) -> holds e s' u' n' c <-> holds e s u' n' c) /\
  (forall b k p range, legal_bucket b -> resolved b k p ->
     content s' p = content s p /\
     answer e (RGetObject b k range) s' = answer e (RGetObject b k range) s /\
     answer e (RHeadObject b k) s' = answer e (RHeadObject b k) s) /\
  (forall u' b k p ps, issued u' -> u' <> u -> legal_bucket b -> resolved b k p ->
     let r := RCompleteMultipartUpload b k u' (Some ps) in
     ((exists a, answer e r s' = Ok a) <-> (exists a, answer e r s = Ok a)) /\
     ((exists a, answer e r s = Ok a) ->
        answer e r s' = answer e r s /\ content (after e r s') p = content (after e r s) p)).
Proof.
  intros Hwf Hu s'. apply issued_no_slash in Hu as Hsl.
  pose proof (storage_untouched e (RUploadPart u n body) s Hwf) as Hun. fold s' in Hun.
  assert (Hother : forall q, q <> [part_name u n] -> content s' q = content s q /\ fs_nodes s' !! q = fs_nodes s !! q).
  { intros q Hq. assert (~ r_files e (RUploadPart u n body) q).
    { cbn [r_files]. rewrite part_path_eq by done. by intros [= ?]. }
    split; apply Hun; cbn [r_dirs r_rmdirs]; auto. }
  assert (Hparts : forall u' n' c, issued u' -> (u', n') <> (u, n) -> holds e s' u' n' c <-> holds e s u' n' c).
  { intros u' n' c Hu' Hne. unfold holds. destruct (Hother [part_name u' n']) as [-> _]; [|done].
    intros [-> ->]%part_sing_inj. done. }
  assert (Hnp : forall b k p, legal_bucket b -> resolved b k p -> p <> [part_name u n]).
  { intros b k p Hb (segs & _ & _ & _ & _ & _ & ->) Heq. apply cons_head in Heq. symmetry in Heq. by eapply (bucket_not_part b). }
  split_and!; [done| |].
  - intros b k p range Hb Hres. destruct (Hother p) as [H1 H2]; [by eapply Hnp|].
    destruct (Hother [metadata_name b k]) as [H3 H4].
    { intros H. eapply part_metadata_neq, sing_inj. by rewrite H. }
    split; [done|]. apply (get_same e b k range p s s'); [|done..].
    apply resolved_path; [by apply legal_bucket_segment|done].
  - intros u' b k p ps Hu' Hne Hb Hres r. apply issued_no_slash in Hu' as Hsl'.
    assert (Hwf' : wf s') by by apply wf_after.
    destruct (C38_completion e s b k u' p ps Hwf Hb Hres Hsl') as [H1 H2].
    destruct (C38_completion e s' b k u' p ps Hwf' Hb Hres Hsl') as [H1' H2']. fold r in H1, H2, H1', H2'.
    assert (Hw : writable e s' p <-> writable e s p).
    { unfold writable. destruct (Hother p) as [_ ->]; [by eapply Hnp|].
      split; intros (Ho & Hd & dir & c & Hp & Hdir); (split; [done|]; split; [done|]; exists dir, c; split; [done|]).
      - destruct (decide (dir = [part_name u n])) as [->|Hnd]; [|by rewrite <- (proj2 (Hother dir Hnd))].
        destruct Hres as (? & _ & _ & _ & _ & _ & ->). apply cons_head in Hp. symmetry in Hp. by apply bucket_not_part in Hp.
      - destruct (decide (dir = [part_name u n])) as [->|Hnd]; [|by rewrite (proj2 (Hother dir Hnd))].
        destruct Hres as (? & _ & _ & _ & _ & _ & ->). apply cons_head in Hp. symmetry in Hp. by apply bucket_not_part in Hp. }
    assert (Hh : forall cs : list bytes, (forall j c, cs !! j = Some c -> holds e s' u' (Z.of_nat j + 1) c) <->
                             (forall j c, cs !! j = Some c -> holds e s u' (Z.of_nat j + 1) c)).
    { intros cs. split; intros H j c Hj; specialize (H j c Hj); apply Hparts in H; try done; by intros [= -> _]. }
    split.
    + rewrite H1, H1', Hw. by setoid_rewrite Hh.
    + rewrite H1. intros (Hwr & cs & Hps & Hcs). destruct (H2 cs Hwr Hps Hcs) as (-> & -> & _).
      destruct (H2' cs) as (-> & -> & _); [by apply Hw|done|by apply Hh|done].
Qed.
Print Assumptions C39_upload_separate.

(* Only requests that name this part change it. *)
Theorem C39_parts_kept e s r u n c : wf s -> plain_req r -> ~ touches_part r u n ->
  holds e (after e r s) u n c <-> holds e s u n c.
Proof. intros Hwf Hr Ht. unfold holds. by destruct (part_kept e r s u n Hwf Hr Ht) as [-> _]. Qed.
Print Assumptions C39_parts_kept.

(* Keys with dot segments do reach the part files. *)
Theorem C39_part_not_an_object_refuted : exists e s u b k h off lim len md tag,
  issued u /\ legal_bucket b /\
  answer e (RUploadPart u 1 (Some [FData (B "secret")])) s = Ok (APart tag) /\
  answer e (RGetObject b k None) (after e (RUploadPart u 1 (Some [FData (B "secret")])) s) = Ok (AGet h off lim len md tag) /\
  carried (get_body (after e (RUploadPart u 1 (Some [FData (B "secret")])) s) h off lim [RdSome 100]) = B "secret".
Proof.
  exists ex_env, (after ex_env (RCreateBucket (B "photos")) empty_store), ex_uuid, (B "photos"),
    (B "../.upload_id-67e55044-10b1-426f-9247-bb680e5fe0c8.part-1").
  do 6 eexists. split; [|split; [|split; [|split]]].
  - exists (B "67e55044"), (B "10b1"), (B "426f"), (B "9247"), (B "bb680e5fe0c8"). split; [done|].
    split; [|done]. compute_done.
  - apply check_bucket_name_spec. by vm_compute.
  - by vm_compute.
  - by vm_compute.
  - by vm_compute.
Qed.
Print Assumptions C39_part_not_an_object_refuted.

(** C40 *)

(* A refused completion has already destroyed the old object and the first part. *)
Theorem C40_failed_completion_refuted : exists e s b k u ps c,
  let r := RCompleteMultipartUpload b k u (Some ps) in
  answer e r s = Err c /\
  content s [b; k] = Some (B "precious") /\ content (after e r s) [b; k] = Some (B "one") /\
  content s [part_name u 1] = Some (B "one") /\ content (after e r s) [part_name u 1] = None.
Proof.
  exists ex_env, (after_all ex_env [RPutObject (B "photos") (B "cat") None None None (Some [FData (B "precious")]);
    RUploadPart ex_uuid 1 (Some [FData (B "one")])] empty_store), (B "photos"), (B "cat"), ex_uuid, [Some 1%Z; Some 3%Z], InternalError.
  vm_compute. done.
Qed.
Print Assumptions C40_failed_completion_refuted.

(* What does hold: nothing happens without a part list, and otherwise only the object and the
   parts named in the list can be affected. *)
Theorem C40_no_list_partial e s b k u :
  after e (RCompleteMultipartUpload b k u None) s = s /\
  answer e (RCompleteMultipartUpload b k u None) s = Err InvalidPart.
Proof. done. Qed.
Print Assumptions C40_no_list_partial.

Theorem C40_damage_bounded_partial e s b k u ps p q : wf s -> legal_bucket b -> resolved b k p -> "/"%char ∉ u ->
  q <> p -> (forall n, Some n ∈ ps -> q <> [part_name u n]) ->
  let s' := after e (RCompleteMultipartUpload b k u (Some ps)) s in
  content s' q = content s q /\ fs_nodes s' !! q = fs_nodes s !! q.
Proof.
  intros Hwf Hb Hres Hu Hq Hps s'.
  pose proof (storage_untouched e (RCompleteMultipartUpload b k u (Some ps)) s Hwf) as Hun. fold s' in Hun.
  assert (~ r_files e (RCompleteMultipartUpload b k u (Some ps)) q).
  { cbn [r_files]. rewrite (resolved_path e b k p); [|by apply legal_bucket_segment|done].
    intros [[= ?]|(l & n & [= <-] & Hin & Hn)]; [done|]. rewrite part_path_eq in Hn by done. injection Hn as ?. by eapply Hps. }
  split; apply Hun; cbn [r_dirs r_rmdirs]; auto.
Qed.
Print Assumptions C40_damage_bounded_partial.
