(** C31, C33, C34, C35, C55: tags, copies and deletions. *)
From Verif Require Import M_Base M_Path M_Headers M_Chunked M_BytesStream M_Crypto M_Fs M_Json M_Utf8 M_Storage
  S_Path S_Headers S_Chunked S_Storage S_Store L_Base L_Headers L_Fs L_Storage L_Scope L_Names L_Json L_Ops L_Results
  T_Store.

Local Opaque md5 etag_of json_decode json_encode metadata_name part_name.

Lemma run_answer e r s a : answer e r s = a -> run e (storage e r) s = (after e r s, a).
Proof. unfold answer, after. intros <-. by destruct (run e (storage e r) s). Qed.

(* A write to one file seen from another path. *)
Lemma create_other e p q s s1 o : wf s -> exec e (CCreate p) s = (s1, o) -> q <> p ->
  content s1 q = content s q /\ fs_nodes s1 !! q = fs_nodes s !! q.
Proof.
  intros Hwf E Hne.
  assert (Hs : scoped (fun x => x = p) (fun _ => False) (fun _ => False) no_own (call (CCreate p))).
  { cbn. by split. }
  pose proof (scoped_run e _ _ _ _ s Hwf Hs) as Hu. rewrite run_call, E in Hu. cbn [fst] in Hu.
  split; apply Hu; auto.
Qed.

Lemma copy_file_ok e src dst s s' : wf s -> run e (copy_file e src dst) s = (s', Some tt) ->
  exists c, content s src = Some c /\ e_os_ok e src = true /\ e_os_ok e dst = true /\ wf s' /\
    content s' dst = Some (if decide (src = dst) then [] else c) /\
    (forall q, q <> dst -> content s' q = content s q /\ fs_nodes s' !! q = fs_nodes s !! q).
Proof.
  intros Hwf. pose proof (wf_run e (copy_file e src dst) s Hwf) as Hwf'. rewrite run_copy_file in *.
  destruct (content s src) as [c|] eqn:Hc; [|done]. exists c. split; [done|].
  destruct (e_os_ok e src); [|done]. destruct (exec e (CCreate dst) s) as [s1 [j|]] eqn:E; [|done].
  injection H as <-. cbn [fst] in Hwf'. pose proof (wf_exec' _ _ _ _ _ E Hwf) as Hwf1.
  destruct (create_file _ _ _ _ _ E) as (Hn & Hd & Hos). split_and!; [done|done|done| |].
  - rewrite content_set_data by done. f_equal. destruct (decide (src = dst)) as [->|Hne].
    + unfold content. rewrite Hn. cbn. by apply data_of_Some.
    + destruct (create_other e dst src s s1 (Some j)) as [-> _]; try done. by rewrite Hc.
  - intros q Hq. destruct (create_other e dst q s s1 (Some j)) as [<- Hn']; try done.
    split; [|exact Hn']. apply content_set_data_ne. intros Hj. apply Hq. by eapply (wf_inj s1).
Qed.

(* A file system path of an object never is a hidden file. *)
Lemma resolved_not_meta b k p b' k' : legal_bucket b -> resolved b k p -> p <> [metadata_name b' k'].
Proof.
  intros Hb (segs & _ & _ & _ & _ & _ & ->) Heq. apply cons_head in Heq. symmetry in Heq.
  by eapply (bucket_not_meta b).
Qed.

Lemma copy_source_text b k : legal_bucket b -> legal_key k -> LF ∉ b ++ B "/" ++ k ->
  copy_source_from_header_str (b ++ B "/" ++ k) = Ok (b, k).
Proof. intros ???. by apply copy_source_spec. Qed.

Lemma copy_ok e s s' sb sk b k ps pd a : wf s ->
  legal_bucket sb -> resolved sb sk ps -> legal_bucket b -> resolved b k pd ->
  legal_key sk -> LF ∉ sb ++ B "/" ++ sk ->
  run e (copy_object e (sb ++ B "/" ++ sk) b k) s = (s', Ok a) ->
  exists c, content s ps = Some c /\ e_os_ok e pd = true /\
    content s' pd = Some (if decide (ps = pd) then [] else c) /\
    content s' ps = Some (if decide (ps = pd) then [] else c) /\
    a = ACopy (etag_of (if decide (ps = pd) then [] else c)).
Proof.
  intros Hwf Hsb Hps Hb Hpd Hsk Hlf. unfold copy_object. rewrite copy_source_text by done.
  assert (Hpsrc : get_object_path e sb sk = Some ps) by (apply resolved_path; [by apply legal_bucket_segment|done]).
  rewrite Hpsrc.
  rewrite (resolved_path e b k pd) by (try done; by apply legal_bucket_segment). cbn [try_path].
  rewrite run_try_io, run_call. cbn [exec]. destruct (if negb _ then _ else _); [|done].
  rewrite run_try_io. destruct (run e (copy_file e ps pd) s) as [s1 [[]|]] eqn:E1; [|done].
  destruct (copy_file_ok _ _ _ _ _ Hwf E1) as (c & Hc & Hos & Hosd & Hwf1 & Hdst & Hoth).
  exists c. split; [done|]. split; [done|].
  assert (Hsrc : content s1 ps = Some (if decide (ps = pd) then [] else c)).
  { destruct (decide (ps = pd)) as [->|Hne]; [done|]. destruct (Hoth ps Hne) as [-> _]. done. }
  revert H. rewrite metadata_path. cbn [try_path]. rewrite run_bind, run_exists, run_try_io, metadata_path.
  destruct (run e (if _ : bool then _ else _) s1) as [s2 o2] eqn:E2.
  assert (H2 : o2 = Some tt -> content s2 ps = content s1 ps /\ content s2 pd = content s1 pd).
  { intros ->. destruct (_ && _).
    - destruct (copy_file_ok _ _ _ _ _ Hwf1 E2) as (_ & _ & _ & _ & _ & _ & Ho).
      split; apply Ho; [by eapply (resolved_not_meta sb)|by eapply (resolved_not_meta b)].
    - by injection E2 as <-. }
  destruct o2 as [[]|]; [|done]. destruct (H2 eq_refl) as [H2s H2d].
  rewrite run_try_io, (run_get_md5 _ _ _ ps), Hos, H2s, Hsrc by done. cbn [fmap option_fmap option_map].
  intros [= <- <-]. rewrite H2d, H2s, Hdst, Hsrc. done.
Qed.

(** C33: a successful copy to a different place duplicates the content and keeps the source. *)
Theorem C33_copy_duplicates e s sb sk b k ps pd a : wf s ->
  legal_bucket sb -> resolved sb sk ps -> legal_bucket b -> resolved b k pd -> ps <> pd ->
  legal_key sk -> LF ∉ sb ++ B "/" ++ sk ->
  let r := RCopyObject (sb ++ B "/" ++ sk) b k in
  answer e r s = Ok a ->
  exists c, content s ps = Some c /\ content (after e r s) pd = Some c /\ content (after e r s) ps = Some c.
Proof.
  intros Hwf Hsb Hps Hb Hpd Hne Hsk Hlf r Ha. apply run_answer in Ha.
  eapply copy_ok in Ha as (c & Hc & _ & Hd & Hs & _); try done. rewrite decide_False in Hd, Hs by done.
  by exists c.
Qed.
Print Assumptions C33_copy_duplicates.

(** Nothing changes if the source does not exist or the source text is not valid. *)
Theorem C33_copy_missing_source e s sb sk b k ps : legal_bucket sb -> resolved sb sk ps ->
  legal_key sk -> LF ∉ sb ++ B "/" ++ sk -> fs_nodes s !! ps = None ->
  let r := RCopyObject (sb ++ B "/" ++ sk) b k in
  after e r s = s /\ answer e r s = Err InternalError.
Proof.
  intros Hsb Hps Hsk Hlf Hn. unfold after, answer. cbn [storage]. unfold copy_object.
  rewrite copy_source_text by done. rewrite (resolved_path e sb sk ps) by (try done; by apply legal_bucket_segment).
  cbn [try_path]. rewrite !run_try_path. destruct (get_object_path e b k) as [pd|]; [|done].
  rewrite !run_try_io, !run_call. cbn [exec]. rewrite Hn. by destruct (negb _).
Qed.
Print Assumptions C33_copy_missing_source.

Theorem C33_copy_bad_source e s src b k :
  (forall sb sk, src = sb ++ B "/" ++ sk -> legal_bucket sb -> legal_key sk -> LF ∈ src) ->
  after e (RCopyObject src b k) s = s /\ answer e (RCopyObject src b k) s = Err InvalidRequest.
Proof.
  intros Hbad. unfold after, answer. cbn [storage]. unfold copy_object.
  destruct (copy_source_from_header_str src) as [[sb sk]|] eqn:E; [|done].
  apply copy_source_spec in E as (E1 & E2 & E3 & E4). by destruct (E4 (Hbad sb sk E1 E2 E3)).
Qed.
Print Assumptions C33_copy_bad_source.

(** C55: copying an object onto itself; the content is lost whenever the answer is a success. *)
Theorem C55_self_copy_empties e s b k p a : wf s -> legal_bucket b -> resolved b k p ->
  legal_key k -> LF ∉ b ++ B "/" ++ k ->
  answer e (RCopyObject (b ++ B "/" ++ k) b k) s = Ok a ->
  content (after e (RCopyObject (b ++ B "/" ++ k) b k) s) p = Some [].
Proof.
  intros Hwf Hb Hp Hk Hlf Ha. apply run_answer in Ha.
  eapply copy_ok in Ha as (c & Hc & _ & Hd & _); try done. by rewrite decide_True in Hd.
Qed.
Print Assumptions C55_self_copy_empties.

(** C34: deletion. *)
Lemma run_delete e b k p s : get_object_path e b k = Some p -> ends_with_char "/" k = false ->
  run e (delete_object e b k) s =
  let '(s', o) := exec e (CUnlink p) s in (s', match o with Some _ => Ok ADone | None => Err InternalError end).
Proof.
  intros Hp Hk. unfold delete_object. rewrite Hp, Hk. cbn [try_path]. rewrite run_try_io, run_call.
  by destruct (exec e (CUnlink p) s) as [s' [u|]].
Qed.

Theorem C34_delete_removes e s b k p a : wf s -> legal_bucket b -> located b k p ->
  answer e (RDeleteObject b k) s = Ok a ->
  let s' := after e (RDeleteObject b k) s in
  answer e (RGetObject b k None) s' = Err NoSuchKey /\
  answer e (RHeadObject b k) s' = Err NoSuchKey /\
  is_Some (content s p) /\ content s' p = None /\
  forall q, q <> p -> content s' q = content s q /\ fs_nodes s' !! q = fs_nodes s !! q.
Proof.
  intros Hwf Hb Hl Ha s'.
  assert (Hp : get_object_path e b k = Some p) by (apply located_path; [by apply legal_bucket_segment|done]).
  assert (Hk : ends_with_char "/" k = false) by (apply ordinary_no_slash_end; by eapply located_ordinary).
  unfold answer in Ha. cbn [storage] in Ha. rewrite (run_delete e b k p) in Ha by done.
  assert (Hs' : s' = (exec e (CUnlink p) s).1).
  { unfold s', after. cbn [storage]. rewrite (run_delete e b k p) by done. by destruct (exec e (CUnlink p) s). }
  cbn [exec] in Ha, Hs'. destruct (e_os_ok e p); [|done].
  destruct (fs_nodes s !! p) as [[|i]|] eqn:Hn; [done| |done]. cbn [fst] in Hs'. rewrite Hs'.
  set (s1 := set_nodes s (delete p (fs_nodes s))).
  assert (Hn1 : fs_nodes s1 !! p = None) by (cbn; apply lookup_delete).
  unfold answer. cbn [storage]. rewrite (run_get_absent e b k None p) by auto.
  rewrite (run_head_absent e b k p) by auto. split_and!; try done.
  - unfold content. rewrite Hn. by eexists.
  - unfold content. by rewrite Hn1.
  - unfold content. intros q Hq. cbn. by rewrite lookup_delete_ne.
Qed.
Print Assumptions C34_delete_removes.

Theorem C34_delete_missing e s b k p : legal_bucket b -> located b k p -> content s p = None ->
  after e (RDeleteObject b k) s = s /\ answer e (RDeleteObject b k) s = Err InternalError.
Proof.
  intros Hb Hl Hc.
  assert (Hp : get_object_path e b k = Some p) by (apply located_path; [by apply legal_bucket_segment|done]).
  assert (Hk : ends_with_char "/" k = false) by (apply ordinary_no_slash_end; by eapply located_ordinary).
  unfold after, answer. cbn [storage]. rewrite (run_delete e b k p) by done. cbn [exec].
  unfold content in Hc. destruct (e_os_ok e p); [|done]. by destruct (fs_nodes s !! p) as [[|]|].
Qed.
Print Assumptions C34_delete_missing.

(** C35: batch deletion. *)
Definition there e (s : fs) (x : path * bytes) : bool :=
  e_os_ok e x.1 && bool_decide (is_Some (fs_nodes s !! x.1)).

Lemma run_existing e b s keys ps : segment_ok b -> Forall2 (located b) keys ps ->
  run e (existing_objects e b keys) s = (s, Ok (filter (fun x => there e s x = true) (zip ps keys))).
Proof.
  intros Hb Hall. induction Hall as [|k p keys ps Hk Hall IH]; [done|].
  cbn [existing_objects]. rewrite (located_path e b k p) by done. cbn [try_path].
  rewrite run_bind, run_exists, run_try_res, IH. cbn [zip_with]. rewrite filter_cons.
  change (e_os_ok e p && bool_decide (is_Some (fs_nodes s !! p))) with (there e s (p, k)).
  by destruct (there e s (p, k)).
Qed.

Lemma run_remove e l : forall s s' ks, NoDup l.*1 -> run e (remove_objects l) s = (s', Ok ks) ->
  ks = l.*2 /\
  (forall x, x ∈ l -> e_os_ok e x.1 = true /\ is_Some (content s x.1) /\ fs_nodes s' !! x.1 = None) /\
  (forall q, q ∉ l.*1 -> content s' q = content s q /\ fs_nodes s' !! q = fs_nodes s !! q).
Proof.
  induction l as [|[p k] l IH]; intros s s' ks Hnd.
  { intros [= <- <-]. split_and!; [done| |done]. by intros x ?%elem_of_nil. }
  cbn [remove_objects]. rewrite run_try_io, run_call. cbn [exec fmap list_fmap fst snd].
  destruct (e_os_ok e p) eqn:Hos; [|done]. destruct (fs_nodes s !! p) as [[|i]|] eqn:Hn; [done| |done].
  rewrite run_try_res. set (s1 := set_nodes s (delete p (fs_nodes s))).
  destruct (run e (remove_objects l) s1) as [s2 [ks'|c]] eqn:E; [|done]. intros [= <- <-].
  cbn [fmap list_fmap fst] in Hnd. apply NoDup_cons in Hnd as [Hp Hnd].
  destruct (IH s1 s2 ks' Hnd E) as (-> & Hin & Hout).
  assert (Hs1 : forall q, q <> p -> content s1 q = content s q /\ fs_nodes s1 !! q = fs_nodes s !! q).
  { unfold content. intros q Hq. cbn. by rewrite lookup_delete_ne. }
  split_and!; [done| |].
  - intros x [-> |Hx]%elem_of_cons; cbn [fst].
    + split_and!; [done| |].
      * unfold content. rewrite Hn. by eexists.
      * destruct (Hout p Hp) as [_ ->]. apply lookup_delete.
    + destruct (Hin x Hx) as (? & Hc & ?). split_and!; [done| |done].
      destruct (Hs1 x.1) as [<- _]; [|done]. intros <-. apply Hp. by apply elem_of_list_fmap_1.
  - intros q Hq. apply not_elem_of_cons in Hq as [Hq1 Hq2]. destruct (Hout q Hq2) as [-> ->]. by apply Hs1.
Qed.

Lemma filter_zip_sublist (f : path * bytes -> Prop) `{!forall x, Decision (f x)} ps (keys : list bytes) :
  (filter f (zip ps keys)).*2 `sublist_of` keys.
Proof.
  revert keys. induction ps as [|p ps IH]; intros [|k keys]; cbn [zip_with]; try apply sublist_nil_l.
  rewrite filter_cons. case_decide; [by apply sublist_skip|by apply sublist_cons].
Qed.

Theorem C35_batch_delete e s b ks a : wf s -> legal_bucket b -> Forall ordinary ks -> NoDup ks ->
  answer e (RDeleteObjects b ks) s = Ok a ->
  let s' := after e (RDeleteObjects b ks) s in
  exists gone, a = ADeleted gone /\ gone `sublist_of` ks /\
    (forall k, k ∈ ks ->
       (k ∈ gone <-> answer e (RHeadObject b k) s <> Err NoSuchKey) /\
       answer e (RHeadObject b k) s' = Err NoSuchKey /\
       answer e (RGetObject b k None) s' = Err NoSuchKey) /\
    (forall k p, k ∈ gone -> located b k p -> is_Some (content s p) /\ content s' p = None) /\
    (forall q, (forall k, k ∈ ks -> ~ located b k q) ->
       content s' q = content s q /\ fs_nodes s' !! q = fs_nodes s !! q).
Proof.
  intros Hwf Hb Hord Hnd Ha s'. pose proof (legal_bucket_segment _ Hb) as Hbs.
  assert (Hps : exists ps, Forall2 (located b) ks ps).
  { clear Hnd Ha. induction Hord as [|k ks Hk Hord [ps IH]]; [by exists []|].
    destruct (ordinary_located k b Hk) as [p Hp]. exists (p :: ps). by constructor. }
  destruct Hps as [ps Hps]. apply run_answer in Ha. fold s' in Ha. cbn [storage] in Ha.
  unfold delete_objects in Ha. rewrite run_try_res, (run_existing e b s ks ps) in Ha by done.
  set (l := filter _ _) in Ha. rewrite run_try_res in Ha.
  destruct (run e (remove_objects l) s) as [s1 [ks'|c]] eqn:E; [|done]. injection Ha as -> <-.
  assert (Hl : forall p k, (p, k) ∈ l <-> k ∈ ks /\ located b k p /\ there e s (p, k) = true).
  { intros p k. unfold l. rewrite elem_of_list_filter. split.
    - intros [Ht Hz]. split_and!; [by eapply elem_of_zip_r| |done].
      clear -Hz Hps. induction Hps as [|k' p' ks ps ? ? IH]; cbn [zip_with] in Hz; [by apply elem_of_nil in Hz|].
      apply elem_of_cons in Hz as [[= -> ->]|Hz]; auto.
    - intros (Hk & Hloc & Ht). split; [done|]. clear -Hk Hloc Hps.
      induction Hps as [|k' p' ks ps ? ? IH]; [by apply elem_of_nil in Hk|]. cbn [zip_with].
      apply elem_of_cons in Hk as [->|Hk]; [|by apply elem_of_cons; right; apply IH].
      rewrite (located_fun b k' p p') by done. by left. }
  assert (Hndp : NoDup l.*1).
  { assert (Hndps : NoDup ps).
    { clear -Hnd Hps. induction Hps as [|k p ks ps Hk Hps IH]; [constructor|].
      apply NoDup_cons in Hnd as [Hk' Hnd]. constructor; [|by apply IH]. intros Hin.
      apply elem_of_list_lookup in Hin as [n Hn].
      destruct (Forall2_lookup_r _ _ _ _ _ Hps Hn) as (k' & Hk'' & Hl').
      destruct (located_inj _ _ _ _ _ Hk Hl') as [_ <-]. apply Hk'. by eapply elem_of_list_lookup_2. }
    clear -Hndps. unfold l. generalize (there e s). intros f. clear l. revert ks. induction Hndps as [|p ps Hp Hndps IH]; intros [|k ks];
      try constructor. cbn [zip_with]. rewrite filter_cons. case_decide; [|apply IH]. cbn [fmap list_fmap fst].
    constructor; [|apply IH]. intros ([p' k'] & -> & Hin)%elem_of_list_fmap.
    apply elem_of_list_filter in Hin as [_ Hin]. apply Hp. by eapply elem_of_zip_l. }
  destruct (run_remove e l s s' ks' Hndp E) as (-> & Hin & Hout). eexists. split; [done|].
  split; [apply filter_zip_sublist|].
  assert (Hgone : forall k p, located b k p -> k ∈ l.*2 <-> k ∈ ks /\ there e s (p, k) = true).
  { intros k p Hloc. rewrite elem_of_list_fmap. split.
    - intros ([p' k'] & -> & Hin'). cbn [snd] in *. apply Hl in Hin' as (? & Hl' & ?). 
      by rewrite (located_fun b k' p p').
    - intros [? ?]. exists (p, k). split; [done|]. by apply Hl. }
  assert (Habs : forall k p, k ∈ ks -> located b k p -> e_os_ok e p = false \/ fs_nodes s' !! p = None).
  { intros k p Hk Hloc. destruct (there e s (p, k)) eqn:Ht.
    - right. by apply (Hin (p, k)), Hl.
    - unfold there in Ht. cbn [fst] in Ht. apply andb_false_iff in Ht as [?|Ht]; [by left|right].
      apply bool_decide_eq_false in Ht. destruct (Hout p) as [_ ->].
      + intros ([p' k'] & -> & Hin')%elem_of_list_fmap. apply Hl in Hin' as (_ & _ & Ht').
        unfold there in Ht'. cbn [fst] in *. apply andb_true_iff in Ht' as [_ Ht'].
        by apply bool_decide_eq_true_1 in Ht'.
      + by apply eq_None_not_Some. }
  split_and!.
  - intros k Hk. destruct (ordinary_located k b) as [p Hp]; [by eapply Forall_forall|].
    pose proof (located_path e b k p Hbs Hp) as Hpath.
    unfold answer. cbn [storage]. rewrite (run_head_absent e b k p s'), (run_get_absent e b k None p s') by eauto.
    split_and!; [|done|done]. rewrite Hgone by done. destruct (there e s (p, k)) eqn:Ht.
    + split; [|done]. intros _. destruct (Hin (p, k)) as (Hos & [c Hc] & _); [by apply Hl|]. cbn [fst] in *.
      destruct (content_Some _ _ _ Hc) as (i & Hi & _). rewrite (run_head_file e b k p i) by done. cbn [snd].
      destruct (meta_of e s b k); [|done]. by case_match.
    + split; [naive_solver|]. intros Hne. exfalso. apply Hne. rewrite (run_head_absent e b k p); [done|done|].
      unfold there in Ht. cbn [fst] in Ht. apply andb_false_iff in Ht as [?|Ht]; [by left|right].
      apply bool_decide_eq_false in Ht. by apply eq_None_not_Some.
  - intros k p Hk Hloc. apply (Hgone k p Hloc) in Hk as [Hk Ht].
    destruct (Hin (p, k)) as (_ & Hc & Hn); [by apply Hl|]. split; [done|]. unfold content. cbn [fst] in Hn. by rewrite Hn.
  - intros q Hq. apply Hout. intros ([p' k'] & -> & Hin')%elem_of_list_fmap.
    apply Hl in Hin' as (? & ? & _). by eapply Hq.
Qed.
Print Assumptions C35_batch_delete.

(* Concrete instances. *)
Definition ex_two : fs :=
  after_all ex_env [RPutObject (B "photos") (B "x") None None (Some [(B "a", B "1")]) (Some [FData (B "one")]);
                    RPutObject (B "photos") (B "y") None None None (Some [FData (B "two")])] empty_store.

Example ex_copy :
  let r := RCopyObject (B "photos/x") (B "photos") (B "y") in
  answer ex_env r ex_two = Ok (ACopy ([quote] ++ to_hex (md5 (B "one")) ++ [quote])) /\
  content (after ex_env r ex_two) [B "photos"; B "y"] = Some (B "one") /\
  content (after ex_env r ex_two) [B "photos"; B "x"] = Some (B "one").
Proof. split_and!; vm_compute; reflexivity. Qed.

Example ex_delete :
  let s' := after ex_env (RDeleteObject (B "photos") (B "x")) ex_two in
  answer ex_env (RDeleteObject (B "photos") (B "x")) ex_two = Ok ADone /\
  answer ex_env (RGetObject (B "photos") (B "x") None) s' = Err NoSuchKey /\
  content s' [B "photos"; B "y"] = Some (B "two").
Proof. split_and!; vm_compute; reflexivity. Qed.

Example ex_batch :
  let r := RDeleteObjects (B "photos") [B "y"; B "absent"; B "x"] in
  answer ex_env r ex_two = Ok (ADeleted [B "y"; B "x"]) /\
  answer ex_env (RHeadObject (B "photos") (B "x")) (after ex_env r ex_two) = Err NoSuchKey.
Proof. split_and!; vm_compute; reflexivity. Qed.

(** C55: an object is not kept when it is copied onto itself: it is emptied, and if it had
    metadata it can no longer be read at all. *)
Theorem C55_self_copy_refuted : exists e s b k a,
  let r := RCopyObject (b ++ B "/" ++ k) b k in
  answer e r s = Ok a /\
  content s [b; k] = Some (B "one") /\ content (after e r s) [b; k] = Some [] /\
  (exists h off lim len md tag, answer e (RGetObject b k None) s = Ok (AGet h off lim len md tag)) /\
  answer e (RGetObject b k None) (after e r s) = Err InternalError.
Proof.
  exists ex_env, ex_two, (B "photos"), (B "x"). eexists. cbv zeta. split_and!; [vm_compute; reflexivity..| |vm_compute; reflexivity].
  do 6 eexists. vm_compute. reflexivity.
Qed.
Print Assumptions C55_self_copy_refuted.
