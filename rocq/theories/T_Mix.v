(** C49, what remains true: bytes of an object that is written by several requests at once. *)
From Verif Require Import M_Base M_Path M_Headers M_Chunked M_BytesStream M_Crypto M_Fs M_Json M_Utf8 M_Storage
  S_Path S_Chunked S_Storage S_Store L_Base L_Fs L_Storage L_Scope L_Names L_Ops L_Results L_Mix L_Map T_Store T_Copy T_Crash T_Concurrent.

Local Opaque md5 etag_of json_decode json_encode metadata_name part_name.

(* [body] is uploaded to the object [k] of [b] by one of the requests. *)
Definition uploads (rs : list s_req) (b k : bytes) (body : list frame) : Prop :=
  exists sc cl md, RPutObject b k sc cl md (Some body) ∈ rs.

(* Not longer than the longest upload, and every byte has been sent for its place, or fills a hole. *)
Definition patchwork (rs : list s_req) (b k : bytes) (d : bytes) : Prop :=
  (exists body, uploads rs b k body /\ length d <= length (carried body)) /\
  forall x c, d !! x = Some c -> c = "000"%char \/ exists body, uploads rs b k body /\ carried body !! x = Some c.

Lemma patchwork_write rs b k body d off x : uploads rs b k body -> slice_at (carried body) off x ->
  patchwork rs b k d -> patchwork rs b k (pwrite d off x).
Proof.
  intros Hu [Hl Hs] [(body' & Hu' & Hl') Hd]. split.
  - assert (Hlen : length (pwrite d off x) <= length (carried body) \/ length (pwrite d off x) <= length d).
    { unfold pwrite. rewrite !app_length, take_length, replicate_length, drop_length. lia. }
    destruct Hlen; [by exists body|]. exists body'. split; [done|]. lia.
  - intros y c. unfold pwrite. rewrite !lookup_app_Some, !lookup_take_Some. intros [[Hy _]|[Hy1 [Hy|[Hy2 [Hy|[Hy3 Hy]]]]]].
    + by apply Hd.
    + apply lookup_replicate in Hy as [-> _]. by left.
    + right. exists body. split; [done|]. revert Hy1 Hy2 Hy. rewrite take_length, replicate_length. intros Hy1 Hy2 Hy.
      apply Hs in Hy. rewrite <- Hy. f_equal. lia.
    + rewrite lookup_drop in Hy. revert Hy1 Hy2 Hy3 Hy. rewrite take_length, replicate_length. intros Hy1 Hy2 Hy3 Hy.
      apply Hd. rewrite <- Hy. f_equal. lia.
Qed.

(* Requests that change the object [k] of [b] only upload it as a whole or delete it. *)
Definition puts_and_deletes (rs : list s_req) (b k : bytes) : Prop :=
  forall r, r ∈ rs -> affects r b k ->
    match r with RPutObject _ _ _ _ _ _ | RDeleteObject _ _ | RDeleteObjects _ _ | RDeleteBucket _ => True | _ => False end.

Lemma patchwork_all e s rs b k p j s' ms' G :
  wf s -> Forall plain_req rs -> legal_bucket b -> located b k p -> puts_and_deletes rs b k ->
  (forall m, (storage e <$> rs) !! j = Some m -> opened p G (fun _ => False) m) ->
  psteps e s (storage e <$> rs) s' ms' ->
  (content s' p = None \/ content s' p = content s p \/ exists d, content s' p = Some d /\ patchwork rs b k d) /\
  forall a, ms' !! j = Some (Ret a) -> exists own : N -> Prop, G own a /\
    forall i, own i -> Some (data_of s' i) = content s p \/ patchwork rs b k (data_of s' i).
Proof.
  intros Hwf Hrs Hb Hl Ha HG Hst.
  pose proof (located_path e b k p (legal_bucket_segment _ Hb) Hl) as Hp.
  set (C := fun q : path => q = p -> exists body, uploads rs b k body).
  set (W := fun (q : path) off x => q = p -> exists body, uploads rs b k body /\ slice_at (carried body) off x).
  pose proof (fun HC HW Hms => mix_result e p (patchwork rs b k) C W HC HW (content s p) G j s _ s' ms' Hwf (or_introl eq_refl) Hms HG Hst) as H.
  apply H; clear H.
  - intros HC. destruct (HC eq_refl) as [body Hu]. split; [exists body; split; [done|cbn; lia]|by intros x c].
  - intros d off x HWp Hd. destruct (HWp eq_refl) as (body & Hu & Hsl). by eapply patchwork_write.
  - apply Forall_fmap, Forall_forall. intros r Hr. pose proof (proj1 (Forall_forall _ _) Hrs r Hr) as Hpl. cbn.
    assert (Haff : affects r b k \/ ~ r_files e r p).
    { destruct (affects_dec r b k) as [?|Hn]; [by left|]. right. intros HF. apply Hn. by eapply plain_files. }
    destruct Haff as [Haff|Hn].
    2:{ eapply (tracked_weaken _ _ C _ W); [| | |apply (scoped_tracked _ _ _ _ no_own (fun _ _ => False) ltac:(done) (scoped_storage e r))]; [| |done].
        - by intros q Hq ->.
        - by intros q off x Hq ->. }
    specialize (Ha r Hr Haff). destruct r; try done; try (by apply no_writes_tracked, deletions_no_writes).
    destruct Haff as [-> ->]. destruct body as [body|].
    2:{ cbn [storage]. unfold put_object. by destruct (storage_class_ok _). }
    assert (Hu : uploads rs b k body) by by repeat eexists.
    eapply (tracked_weaken _ _ C _ W); [| | |apply (tracked_put e b k _ _ _ body p Hp)]; [| |done|].
    + intros q _ _. by exists body.
    + intros q off x Hq ->. exists body. by auto.
    + destruct Hpl as (_ & Hk & _). rewrite metadata_path. intros [= E]. rewrite <- E in Hl.
      by eapply located_not_meta in Hl.
Qed.

(** Any number of requests, among them any number that upload or delete one and the same object
    at the same time, in any interleaving and with failing calls: whenever one looks, the object
    is as it was before, or absent, or a patchwork of the uploads.  The bytes of other objects,
    of other requests or of the old content never show up in it.
    Missing: that it is the content of one of the uploads, which is false (above). *)
Theorem C49_patchwork_partial e s rs b k p s' ms' :
  wf s -> Forall plain_req rs -> legal_bucket b -> located b k p -> puts_and_deletes rs b k ->
  psteps e s (storage e <$> rs) s' ms' ->
  content s' p = None \/ content s' p = content s p \/ exists d, content s' p = Some d /\ patchwork rs b k d.
Proof.
  intros Hwf Hrs Hb Hl Ha Hst.
  apply (patchwork_all e s rs b k p (length rs) s' ms' (fun _ _ => True) Hwf Hrs Hb Hl Ha); [|done].
  intros m Hm. apply lookup_lt_Some in Hm. rewrite fmap_length in Hm. lia.
Qed.
Print Assumptions C49_patchwork_partial.

(** Whoever reads the object meanwhile is handed a file that is, at any later moment, the old
    content or a patchwork of the uploads, and receives a section of it. *)
Theorem C49_read_patchwork_partial e s rs b k p j rng s' ms' h off lim len md tag :
  wf s -> Forall plain_req rs -> legal_bucket b -> located b k p -> puts_and_deletes rs b k ->
  rs !! j = Some (RGetObject b k rng) ->
  psteps e s (storage e <$> rs) s' ms' -> ms' !! j = Some (Ret (Ok (AGet h off lim len md tag))) ->
  forall sched, Forall (fun st => st <> RdErr) sched ->
  carried (get_body s' h off lim sched) = [] \/
  exists d, (content s p = Some d \/ patchwork rs b k d) /\
    carried (get_body s' h off lim sched) = take (N.to_nat lim) (drop (N.to_nat off) d).
Proof.
  intros Hwf Hrs Hb Hl Ha Hj Hst Hres sched Hsched.
  destruct (patchwork_all e s rs b k p j s' ms' answers_file Hwf Hrs Hb Hl Ha) as [_ H]; [|done|].
  { intros m Hm. rewrite list_lookup_fmap, Hj in Hm. injection Hm as <-. apply opened_get.
    by apply located_path; [apply legal_bucket_segment|]. }
  destruct h as [q|i]; [by left|]. right. destruct (H _ Hres) as (own & Hown & Hd).
  specialize (Hd i (Hown _ _ _ _ _ _ eq_refl)). exists (data_of s' i).
  split; [by destruct Hd as [->|?]; [left|right]|]. by apply body_delivered.
Qed.
Print Assumptions C49_read_patchwork_partial.

(* The schedule of [C49_overwrites_atomic_refuted] has such an outcome. *)
Example ex_patchwork :
  let rs := [RPutObject (B "photos") (B "y") None None None (Some [FData (B "AAAAAA")]);
             RPutObject (B "photos") (B "y") None None None (Some [FData (B "bb")])] in
  content (run_sched ex_env [0; 0; 0; 0; 1; 1; 1; 1; 1; 0; 0; 1] ex_two (storage ex_env <$> rs)).1 [B "photos"; B "y"] = Some (B "bb" ++ "000"%char :: B "AAA") /\
  patchwork rs (B "photos") (B "y") (B "bb" ++ "000"%char :: B "AAA") /\ puts_and_deletes rs (B "photos") (B "y") /\
  ~ patchwork rs (B "photos") (B "y") (B "AbbAAA").
Proof.
  intros rs. split; [by vm_compute|].
  assert (H1 : uploads rs (B "photos") (B "y") [FData (B "AAAAAA")]) by (do 3 eexists; by left).
  assert (H2 : uploads rs (B "photos") (B "y") [FData (B "bb")]) by (do 3 eexists; by right; left).
  split_and!.
  - split; [exists [FData (B "AAAAAA")]; split; [done|cbn; lia]|].
    intros [|[|[|[|[|[|x]]]]]] c; intros [= <-];
      solve [by left|right; by exists [FData (B "bb")]|right; by exists [FData (B "AAAAAA")]].
  - intros r Hr _. repeat (apply elem_of_cons in Hr as [->|Hr]; [done|]). by apply elem_of_nil in Hr.
  - intros [_ H]. destruct (H 2 "b"%char eq_refl) as [|(body & (sc & cl & md & Hu) & Hx)]; [done|].
    repeat (apply elem_of_cons in Hu as [[= -> -> -> ->]|Hu]; [done|]). by apply elem_of_nil in Hu.
Qed.
