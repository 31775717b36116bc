(** Uploads of parts and their completion among other tasks. *)
From Verif Require Import M_Base M_Path M_Headers M_Chunked M_BytesStream M_Crypto M_Fs M_Json M_Utf8 M_Storage
  S_Path S_Chunked S_Storage S_Store L_Base L_Fs L_Storage L_Scope L_Names L_Ops L_Results L_Rely L_Par L_Chunked T_Store T_Uploads.

Local Opaque md5 etag_of json_decode json_encode metadata_name part_name.

Section parts.
  Context (e : env) (faults : Prop) (R : fs -> fs -> Prop).
  Context (R_refl : forall s, R s s) (R_trans : forall s1 s2 s3, R s1 s2 -> R s2 s3 -> R s1 s3).
  Context (R_wf : forall s s', R s s' -> wf s -> wf s').
  Notation rg := (rg e faults R).

  (* A part can be stored in [s]. *)
  Definition receptive (q : path) (s : fs) : Prop := fs_nodes s !! [] = Some NDir /\ fs_nodes s !! q <> Some NDir.

  Lemma rg_upload (live : Prop) u n body s : "/"%char ∉ u -> keeps R [part_name u n] -> wf s ->
    (live -> e_os_ok e [part_name u n] = true /\ receptive [part_name u n] s /\
       forall t t', R t t' -> receptive [part_name u n] t -> receptive [part_name u n] t') ->
    rg (fun _ => True) (fun r t => match r with
        | Ok a => holds e t u n (carried body) /\ broken body = false /\ a = APart (etag_of (carried body))
        | Err _ => faults \/ broken body = true \/ ~ live
        end) (storage e (RUploadPart u n (Some body))) s.
  Proof.
    intros Hu Hk Hwf Hlive. cbn [storage]. unfold upload_part. rewrite part_path_eq by done. cbn [try_path].
    set (q := [part_name u n]) in *. unfold try_io at 1.
    apply (rg_bind e faults R _ R_refl (fun o t => match o with Some i => e_os_ok e q = true /\ file_at q i [] t | None => faults \/ ~ live end)).
    - apply rg_call. intros s1 Hr. split; [done|]. split.
      + intros s2 Hr2. split; [done|]. assert (Hw1 : wf s1) by by eapply R_wf.
        pose proof (wf_exec e (CCreate q) s1 Hw1) as Hw.
        destruct (exec e (CCreate q) s1) as [s3 [i|]] eqn:E; cbn [fst snd] in *.
        * split; [revert E; cbn [exec]; by destruct (e_os_ok e q)|].
          apply create_file in E as (Hn & Hd & _). eapply R_file_at; [done|done|exact Hr2|].
          split; [done|]. split; [done|]. unfold content. rewrite Hn. unfold data_of. by rewrite Hd.
        * right. intros Hl. destruct (Hlive Hl) as (Ho & Hrec & Hst). destruct (Hst s s1 Hr Hrec) as [H1 H2].
          assert (Hwr : writable e s1 q) by (split; [done|]; split; [done|]; by exists [], (part_name u n)).
          apply create_writable in Hwr as (s' & i & E'); [|done|done]. congruence.
      + intros Hf s2 Hr2. by split; [left|].
    - intros [i|] s1 H1.
      2:{ intros s2 Hr. split; [done|]. tauto. }
      unfold try_io. destruct H1 as (Hos & Hw & Hn & Hc).
      eapply rg_bind; [done|by apply (rg_copy_bytes e faults R (fun _ => True) R_refl q i (Hk i) body s1 [] Hn Hc)|].
      cbn beta. intros [off|] s2 (Hn2 & x & Hx & _ & _ & Ho); intros s3 Hr; (split; [done|]).
      + destruct Ho as [-> Hb]. destruct (Hk i s2 s3 _ Hr Hn2 Hx) as [_ Hx3]. split; [done|]. split; [done|].
        done.
      + tauto.
  Qed.

  (* Reading an open file to its end. *)
  Lemma rg_read_rest (q : path) (j : N) (c : bytes) (I : fs -> Prop) : keeps R q -> (forall s s', R s s' -> I s -> I s') -> forall n s off,
    I s -> fs_nodes s !! q = Some (NFile j) -> content s q = Some c ->
    rg (fun _ => True) (fun o t => I t /\ forall x, o = Some x -> x = drop off c) (read_rest n (HFile j) off) s.
  Proof.
    intros Hk HI. induction n as [|n IH]; intros s off Hs Hn Hc; cbn [read_rest].
    { intros s' Hr. split; [done|]. split; [by eapply HI|]. by intros x [=]. }
    apply (rg_bind e faults R _ R_refl (fun o t => I t /\ fs_nodes t !! q = Some (NFile j) /\ content t q = Some c /\
      forall b, o = Some b -> b = piece e (drop off c))).
    - apply rg_call. intros s1 Hr1. split; [done|]. destruct (Hk j s s1 c Hr1 Hn Hc) as [Hn1 Hc1]. assert (HI1 : I s1) by by eapply HI.
      split.
      + intros s2 Hr2. destruct (Hk j s1 s2 c Hr2 Hn1 Hc1) as [Hn2 Hc2]. split; [done|]. split; [by eapply HI|]. split; [done|]. split; [done|].
        cbn [exec snd]. intros b [= <-]. unfold content in Hc1. rewrite Hn1 in Hc1. by injection Hc1 as ->.
      + intros _ s2 Hr2. destruct (Hk j s1 s2 c Hr2 Hn1 Hc1) as [Hn2 Hc2]. split; [|done]. split; [by eapply HI|]. split; [done|]. split; [done|].
        by intros b [=].
    - intros [b|] s1 (HI1 & Hn1 & Hc1 & Hb).
      2:{ intros s' Hr. split; [done|]. split; [by eapply HI|]. by intros x [=]. }
      specialize (Hb b eq_refl). pose proof (piece_split e c off) as Hsp. rewrite <- Hb in Hsp. destruct b as [|a x].
      + intros s' Hr. split; [done|]. split; [by eapply HI|]. intros x [= <-]. symmetry. by apply (piece_nil e).
      + eapply rg_bind; [done|by apply (IH s1 (off + length (a :: x)))|]. cbn beta.
        intros [y|] s2 [HI2 Hy]; intros s' Hr; (split; [done|]); (split; [by eapply HI|]); [|by intros z [=]].
        intros z [= <-]. rewrite (Hy y eq_refl). exact (eq_sym Hsp).
  Qed.

  (** *** Completion *)
  Context (u : bytes) (p : path) (i : N).
  Context (Hu : "/"%char ∉ u) (Hp : forall n, p <> [part_name u n]).
  Context (R_p : keeps R p) (R_part : forall n, keeps R [part_name u n]).
  Context (R_parts : forall n s s', R s s' -> content s' [part_name u n] = content s [part_name u n]).

  (* The object has content [d] and the parts are [h]. *)
  Definition assembling (h : Z -> option bytes) (d : bytes) (s : fs) : Prop :=
    file_at p i d s /\ forall n, content s [part_name u n] = h n.
  Lemma R_assembling h d s s' : R s s' -> assembling h d s -> assembling h d s'.
  Proof. intros Hr [H1 H2]. split; [by eapply R_file_at|]. intros n. by rewrite (R_parts n s s' Hr). Qed.

  (* Writing to the object leaves the parts where they are. *)
  Definition kept (n : Z) (j : N) (s : fs) : Prop := fs_nodes s !! [part_name u n] = Some (NFile j).
  Lemma R_kept h d n j s s' : R s s' -> assembling h d s -> kept n j s -> kept n j s'.
  Proof. intros Hr _ Hk. destruct (R_part n j s s' (data_of s j) Hr Hk) as [? _]; [unfold content; by rewrite Hk|done]. Qed.

  Lemma rg_pieces h n j ps : forall s d, assembling h d s -> kept n j s ->
    rg (fun _ => True) (fun o t => exists x, assembling h x t /\ kept n j t /\
       match o with Some off => x = d ++ concat ps /\ off = length x | None => True end) (write_pieces i (length d) ps) s.
  Proof.
    induction ps as [|b ps IH]; intros s d Hs Hk.
    - intros s' Hr. split; [done|]. exists d. split; [by eapply R_assembling|]. split; [by eapply R_kept|]. by rewrite app_nil_r.
    - cbn [write_pieces]. intros s' Hr. split; [done|]. pose proof (R_assembling h d s s' Hr Hs) as Hs'.
      pose proof (R_kept h d n j s s' Hr Hs Hk) as Hk'. split.
      + destruct Hs' as [(Hw & Hn & Hc) Hq]. cbn [exec fst snd].
        assert (Hd : data_of s' i = d) by (unfold content in Hc; rewrite Hn in Hc; congruence).
        rewrite Hd, pwrite_append, <- app_length. eapply rg_weaken; [apply IH; [|done]|].
        * split; [split; [by destruct Hw; split|]; split; [done|]|].
          -- unfold content. cbn. rewrite Hn. unfold data_of. cbn. by rewrite lookup_insert.
          -- intros n'. rewrite <- (Hq n'). apply (content_insert_data s' i _ [part_name u n']).
             intros Heq. apply (Hp n'). by eapply (wf_inj s').
        * cbn beta. intros o t (x & Hx & Hkx & Ho). exists x. split; [done|]. split; [done|]. destruct o as [off|]; [|done].
          destruct Ho as [-> ->]. by rewrite <- app_assoc.
      + intros _ s'' Hr'. split; [done|]. exists d. split; [by eapply R_assembling|]. split; [by eapply R_kept|done].
  Qed.

  Lemma rg_transfer h n j c : h n = Some c -> forall fuel s d roff, assembling h (d ++ take roff c) s -> kept n j s -> roff <= length c ->
    rg (fun _ => True) (fun o t => exists x, assembling h x t /\ forall off, o = Some off -> x = d ++ c /\ off = length x)
      (transfer e fuel (HFile j) roff i (length (d ++ take roff c))) s.
  Proof.
    intros Hc. induction fuel as [|fuel IH]; intros s d roff Hs Hk Hoff; cbn [transfer].
    { intros s' Hr. split; [done|]. eexists. split; [by eapply R_assembling|]. by intros off [=]. }
    eapply (rg_bind e faults R _ R_refl (fun o t => assembling h (d ++ take roff c) t /\ kept n j t /\
      forall b, o = Some b -> b = piece e (drop roff c))).
    - apply rg_call. intros s1 Hr1. split; [done|]. pose proof (R_assembling h _ s s1 Hr1 Hs) as Hs1.
      pose proof (R_kept h _ n j s s1 Hr1 Hs Hk) as Hk1. split.
      + intros s2 Hr2. cbn [exec fst snd] in *. split; [done|]. split; [by eapply R_assembling|]. split; [by eapply R_kept|]. intros b [= <-].
        destruct Hs1 as [_ Hq]. specialize (Hq n). unfold content in Hq. rewrite Hk1, Hc in Hq. by injection Hq as ->.
      + intros _ s2 Hr2. split; [|done]. split; [by eapply R_assembling|]. split; [by eapply R_kept|]. by intros b [=].
    - intros [b|] s1 (Hs1 & Hk1 & Hb).
      2:{ intros s' Hr. split; [done|]. eexists. split; [by eapply R_assembling|]. by intros off [=]. }
      specialize (Hb b eq_refl). pose proof (piece_split e c roff) as Hsp. rewrite <- Hb in Hsp. destruct b as [|a x].
      + intros s' Hr. split; [done|]. eexists. split; [by eapply R_assembling|]. intros off [= <-]. split; [|done].
        f_equal. rewrite take_ge; [done|]. symmetry in Hb. apply piece_nil in Hb. apply (f_equal length) in Hb. rewrite drop_length in Hb. cbn in Hb. lia.
      + eapply rg_bind; [done|by apply (rg_pieces h n j (e_chop e (a :: x)))|]. cbn beta. rewrite e_chop_concat.
        assert (Hle : roff + length (a :: x) <= length c).
        { apply (f_equal length) in Hsp. rewrite app_length, !drop_length in Hsp. cbn in *. lia. }
        assert (Htk : take roff c ++ a :: x = take (roff + length (a :: x)) c).
        { rewrite <- (take_drop roff c) at 2. rewrite Hsp, app_assoc, take_app_alt; [done|].
          rewrite app_length, take_length. lia. }
        intros [woff|] s2 (y & Hy & Hk2 & Ho).
        2:{ intros s' Hr. split; [done|]. exists y. split; [by eapply R_assembling|]. by intros off [=]. }
        destruct Ho as [-> ->]. rewrite <- app_assoc, Htk in *. by apply IH.
  Qed.
  Lemma rg_append_file h d n s : assembling h d s ->
    rg (fun _ => True) (fun o t => exists x, assembling h x t /\ forall off, o = Some off -> exists c, h n = Some c /\ x = d ++ c /\ off = length x)
      (append_file e [part_name u n] i (length d)) s.
  Proof.
    intros Hs. unfold append_file.
    apply (rg_bind e faults R _ R_refl (fun o t => assembling h d t /\
      forall hd, o = Some hd -> match hd with HFile j => kept n j t | HDir _ => True end)).
    - apply rg_call. intros s1 Hr1. split; [done|]. assert (Hs1 : assembling h d s1) by by eapply R_assembling. split.
      + intros s2 Hr2. split; [done|]. cbn [exec fst snd] in *. split; [by eapply R_assembling|]. intros hd Ho.
        destruct (e_os_ok e [part_name u n]); [|done]. cbn [negb] in Ho.
        destruct (fs_nodes s1 !! [part_name u n]) as [[|j]|] eqn:E; [by injection Ho as <-| |done]. injection Ho as <-.
        by eapply R_kept.
      + intros _ s2 Hr2. split; [|done]. split; [by eapply R_assembling|]. by intros hd [=].
    - intros [hd|] s1 [Hs1 Hh].
      2:{ intros s2 Hr2. split; [done|]. exists d. split; [by eapply R_assembling|]. by intros off [=]. }
      specialize (Hh _ eq_refl).
      apply (rg_bind e faults R _ R_refl (fun _ t => assembling h d t /\ match hd with HFile j => kept n j t | HDir _ => True end)).
      { apply rg_call. intros s2 Hr2. split; [done|].
        assert (H2 : assembling h d s2 /\ match hd with HFile j => kept n j s2 | HDir _ => True end).
        { split; [by eapply R_assembling|]. destruct hd; [done|by eapply R_kept]. }
        assert (H3 : forall s3, R s2 s3 -> assembling h d s3 /\ match hd with HFile j => kept n j s3 | HDir _ => True end).
        { intros s3 Hr3. destruct H2. split; [by eapply R_assembling|]. destruct hd; [done|by eapply R_kept]. }
        split; [|intros _ s3 Hr3; split; [by apply H3|done]]. intros s3 Hr3. split; [done|]. destruct hd; by apply H3. }
      intros fuel s2 [Hs2 Hk2]. destruct hd as [q|j].
      + destruct fuel as [|fuel]; [by intros s3 Hr; split; [done|]; exists d; split; [eapply R_assembling|intros off [=]]|].
        cbn [transfer]. apply (rg_bind e faults R _ R_refl (fun o t => assembling h d t /\ o = None)).
        * apply rg_call. intros s3 Hr3. split; [done|]. assert (Hs3 : assembling h d s3) by by eapply R_assembling.
          split; [intros s4 Hr4; split; [done|]|intros _ s4 Hr4; split; [|done]]; cbn [exec fst snd] in *; (split; [by eapply R_assembling|done]).
        * intros o s3 [Hs3 ->] s4 Hr. split; [done|]. exists d. split; [by eapply R_assembling|]. by intros off [=].
      + assert (Hc : h n = Some (data_of s2 j)). { destruct Hs2 as [_ Hq]. rewrite <- (Hq n). unfold content. by rewrite Hk2. }
        assert (Hd : d = d ++ take 0 (data_of s2 j)) by by rewrite take_0, app_nil_r. rewrite Hd in Hs2.
        replace (length d) with (length (d ++ take 0 (data_of s2 j))) by by rewrite <- Hd.
        eapply rg_weaken; [apply (rg_transfer h n j _ Hc fuel s2 d 0); [done|done|lia]|].
        cbn beta. intros o t (x & Hx & Ho). exists x. split; [done|]. intros off Hoff. exists (data_of s2 j). split; [done|]. by apply Ho.
  Qed.

  Lemma rg_append_parts parts : forall h s cnt d, assembling h d s ->
    rg (fun _ => True) (fun r t => forall off, r = Ok off -> exists cs,
        parts = map Some (seqZ (cnt + 1) (Z.of_nat (length cs))) /\
        (forall j c, cs !! j = Some c -> h (cnt + 1 + Z.of_nat j)%Z = Some c) /\
        exists h', assembling h' (d ++ concat cs) t /\
          (forall m, h' m = if decide (cnt < m <= cnt + Z.of_nat (length cs))%Z then None else h m))
      (append_parts e u i (length d) cnt parts) s.
  Proof.
    induction parts as [|[n|] parts IH]; intros h s cnt d Hs; cbn [append_parts].
    - intros s' Hr. split; [done|]. intros off _. exists []. split; [done|]. split; [done|].
      exists h. cbn [concat]. rewrite app_nil_r. split; [by eapply R_assembling|].
      intros m. rewrite decide_False; [done|]. cbn. lia.
    - case_bool_decide as Hn; cbn [negb]; [|by intros s' Hr; split; [done|]; intros off [=]].
      subst n. rewrite part_path_eq by done. cbn [try_path]. unfold try_io at 1.
      eapply rg_bind; [done|by apply (rg_append_file h d)|]. cbn beta. intros [off|] s2 (x & Hx & Ho).
      2:{ intros s3 Hr. split; [done|]. by intros off [=]. }
      destruct (Ho off eq_refl) as (c & Hc & -> & ->). clear Ho.
      set (h1 := fun m => if decide (m = cnt + 1)%Z then None else h m).
      unfold try_io at 1.
      apply (rg_bind e faults R _ R_refl (fun o t => is_Some o -> assembling h1 (d ++ c) t)).
      + apply rg_call. intros s3 Hr3. split; [done|]. pose proof (R_assembling h _ s2 s3 Hr3 Hx) as Hs3. split.
        * intros s4 Hr4. split; [done|]. intros Ho. eapply R_assembling; [exact Hr4|].
          destruct (exec e (CUnlink [part_name u (cnt + 1)]) s3) as [s5 o] eqn:E. cbn [fst snd] in *.
          destruct Hs3 as [(Hw & Hnp & Hcp) Hq].
          assert (Hw5 : wf s5). { pose proof (wf_exec e (CUnlink [part_name u (cnt + 1)]) s3 Hw) as H5. by rewrite E in H5. }
          destruct (unlink_other _ _ p _ _ _ E ltac:(apply Hp)) as [E1 E2].
          split; [by split; [|rewrite E2, E1]|]. intros m. unfold h1.
          destruct (decide (m = cnt + 1)%Z) as [->|Hm].
          -- revert E Ho. cbn [exec]. destruct (e_os_ok e _); [|intros [= <- <-]; by intros []].
             destruct (fs_nodes s3 !! [part_name u (cnt + 1)]) as [[|j]|] eqn:En; intros [= <- <-]; try (by intros []).
             intros _. unfold content. cbn. by rewrite lookup_delete.
          -- destruct (unlink_other _ _ [part_name u m] _ _ _ E) as [-> _]; [|apply Hq].
             intros [_ ?]%part_sing_inj. done.
        * intros _ s4 Hr4. split; [|done]. by intros [].
      + intros [[]|] s3 Hs3; [|by intros s4 Hr; split; [done|]; intros off [=]]. specialize (Hs3 ltac:(done)).
        eapply rg_weaken; [by apply (IH h1 s3 (cnt + 1)%Z (d ++ c))|].
        cbn beta. intros r t Hr off Ho. destruct (Hr off Ho) as (cs & -> & Hcs & h' & Ha & Hh').
        exists (c :: cs). split_and!.
        * cbn [length]. rewrite Nat2Z.inj_succ, (seqZ_cons (cnt + 1)) by lia. cbn [map]. rewrite Z.pred_succ. by replace (Z.succ (cnt + 1)) with (cnt + 1 + 1)%Z by lia.
        * intros [|j] c' Hj; [injection Hj as <-; by rewrite Z.add_0_r|]. apply Hcs in Hj. unfold h1 in Hj.
          destruct (decide _) as [|]; [done|]. rewrite <- Hj. f_equal. lia.
        * exists h'. split; [cbn [concat]; by rewrite app_assoc|]. intros m. rewrite Hh'. unfold h1. cbn [length].
          repeat case_decide; try done; lia.
    - intros s' Hr. split; [done|]. by intros off [=].
  Qed.
End parts.

Section complete.
  Context (e : env) (faults : Prop) (R : fs -> fs -> Prop).
  Context (R_refl : forall s, R s s) (R_trans : forall s1 s2 s3, R s1 s2 -> R s2 s3 -> R s1 s3).
  Context (R_wf : forall s s', R s s' -> wf s -> wf s').
  Context (u : bytes) (p : path).
  Context (Hu : "/"%char ∉ u) (Hp : forall n, p <> [part_name u n]).
  Context (R_p : keeps R p) (R_part : forall n, keeps R [part_name u n]).
  Context (R_parts : forall n s s', R s s' -> content s' [part_name u n] = content s [part_name u n]).
  Notation rg := (rg e faults R).

  Lemma rg_complete b k ps s : get_object_path e b k = Some p -> wf s ->
    rg (fun _ => True) (fun r t => forall a, r = Ok a -> exists cs, ps = in_order (length cs) /\
        (forall j c, cs !! j = Some c -> content s [part_name u (Z.of_nat j + 1)] = Some c) /\
        a = ACompleted b k (etag_of (concat cs)) /\ content t p = Some (concat cs) /\
        forall m, content t [part_name u m] =
          if decide (0 < m <= Z.of_nat (length cs))%Z then None else content s [part_name u m])
      (storage e (RCompleteMultipartUpload b k u (Some ps))) s.
  Proof.
    intros Hg Hwf. cbn [storage]. unfold complete_multipart_upload. rewrite Hg. cbn [try_path]. unfold try_io at 1.
    set (h := fun n => content s [part_name u n]).
    apply (rg_bind e faults R _ R_refl (fun o t => forall i, o = Some i -> assembling u p i h [] t)).
    - apply rg_call. intros s1 Hr1. split; [done|]. split.
      + intros s2 Hr2. split; [done|]. intros i Hi.
        assert (Hw1 : wf s1) by by eapply R_wf. pose proof (wf_exec e (CCreate p) s1 Hw1) as Hw.
        destruct (exec e (CCreate p) s1) as [s3 o] eqn:E. cbn [fst snd] in *. subst o.
        eapply (R_assembling R); [done|done|done|exact Hr2|].
        assert (Hsc : scoped (fun x => x = p) (fun _ => False) (fun _ => False) no_own (call (CCreate p))) by (cbn; auto).
        pose proof (scoped_run e _ _ _ _ s1 Hw1 Hsc) as Hun. rewrite run_call, E in Hun. cbn [fst] in Hun.
        apply create_file in E as (Hn & Hd & _). split.
        * split; [done|]. split; [done|]. unfold content. rewrite Hn. unfold data_of. by rewrite Hd.
        * intros n. rewrite (un_content _ _ _ _ _ Hun) by (intros Hq; by apply (Hp n)). by rewrite (R_parts n s s1 Hr1).
      + intros _ s2 Hr2. split; [|done]. by intros i [=].
    - intros [i|] s1 Hs1; [|by intros s2 Hr; split; [done|]; intros a [=]]. specialize (Hs1 i eq_refl).
      unfold try_res. eapply rg_bind; [done|by apply (rg_append_parts e faults R R_refl R_wf u p i Hu Hp R_p R_part R_parts ps h s1 0%Z [])|].
      cbn beta. intros [off|code] s2 Hs2; [|by intros s3 Hr; split; [done|]; intros a [=]].
      destruct (Hs2 off eq_refl) as (cs & -> & Hcs & h' & Ha & Hh'). cbn [app] in Ha.
      unfold try_io at 1. apply (rg_bind e faults R _ R_refl (fun _ t => assembling u p i h' (concat cs) t)).
      { apply rg_call. intros s3 Hr3. split; [done|]. assert (assembling u p i h' (concat cs) s3) by (by eapply (R_assembling R)). split.
        - cbn [exec fst]. intros s4 Hr4. split; [done|]. by eapply (R_assembling R).
        - intros _ s4 Hr4. split; [|done]. by eapply (R_assembling R). }
      intros [st|] s3 Hs3; [|by intros s4 Hr; split; [done|]; intros a [=]].
      unfold try_io. apply (rg_bind e faults R _ R_refl (fun o t => assembling u p i h' (concat cs) t /\
        forall tag, o = Some tag -> tag = etag_of (concat cs))).
      { unfold get_md5_sum. rewrite Hg. apply (rg_bind e faults R _ R_refl (fun o t => assembling u p i h' (concat cs) t /\
          forall c, o = Some c -> c = concat cs)).
        - unfold read_file. apply (rg_bind e faults R _ R_refl (fun o t => assembling u p i h' (concat cs) t /\
            forall hd, o = Some hd -> hd = HFile i)).
          + apply rg_call. intros s4 Hr4. split; [done|]. assert (Hs4 : assembling u p i h' (concat cs) s4) by (by eapply (R_assembling R)). split.
            * intros s5 Hr5. cbn [exec fst snd] in *. split; [done|]. split; [by eapply (R_assembling R)|]. intros hd Ho.
              destruct (e_os_ok e p); [|done]. cbn [negb] in Ho. destruct Hs4 as [(_ & Hn & _) _]. rewrite Hn in Ho. by injection Ho.
            * intros _ s5 Hr5. split; [|done]. split; [by eapply (R_assembling R)|]. by intros hd [=].
          + intros [hd|] s4 [Hs4 Hhd].
            * rewrite (Hhd hd eq_refl). apply (rg_bind e faults R _ R_refl (fun _ t => assembling u p i h' (concat cs) t)).
              -- apply rg_call. intros s5 Hr5. split; [done|].
                 assert (Hs5 : assembling u p i h' (concat cs) s5) by (by eapply (R_assembling R)). split.
                 ++ intros s6 Hr6. cbn [exec fst snd] in *. split; [done|]. by eapply (R_assembling R).
                 ++ intros _ s6 Hr6. split; [|done]. by eapply (R_assembling R).
              -- intros fuel s5 Hs5. pose proof Hs5 as [(_ & Hn5 & Hc5) _].
                 eapply rg_weaken; [apply (rg_read_rest e faults R R_refl p i (concat cs) (assembling u p i h' (concat cs)) R_p); [|done|done|done]|].
                 ++ intros t t' Hr. by apply (R_assembling R R_wf u p i R_p R_parts).
                 ++ done.
            * intros s5 Hr5. split; [done|]. split; [by eapply (R_assembling R)|]. by intros c [=].
        - intros [c|] s4 [Hs4 Hc]; intros s5 Hr5; (split; [done|]); (split; [by eapply (R_assembling R)|]).
          + intros tag [= <-]. by rewrite (Hc c eq_refl).
          + by intros tag [=]. }
      intros [tag|] s4 [Hs4 Htag]; intros s5 Hr; (split; [done|]); [|by intros a [=]].
      intros a [= <-]. exists cs. split; [done|]. split.
      { intros j c Hj. apply Hcs in Hj. unfold h in Hj. rewrite <- Hj. do 3 f_equal. lia. }
      split; [by rewrite (Htag tag eq_refl)|].
      destruct (R_assembling R R_wf u p i R_p R_parts h' _ s4 s5 Hr Hs4) as [(_ & _ & Hc5) Hq5].
      split; [done|]. intros m. rewrite Hq5, Hh'. by rewrite Z.add_0_l.
  Qed.
End complete.
