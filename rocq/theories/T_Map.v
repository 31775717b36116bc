(** C50: seen through well-behaved requests the store is a map. *)
From Verif Require Import M_Base M_Path M_Headers M_Chunked M_BytesStream M_Crypto M_Fs M_Json M_Utf8 M_Storage
  S_Path S_Headers S_Chunked S_Storage S_Store S_Map
  L_Base L_Path L_Headers L_Fs L_Storage L_Scope L_Names L_Json L_Ops L_Results L_Tidy L_Map L_MapOps
  T_Headers T_Store T_Copy T_Etag T_Scope T_Listing T_Buckets T_Uploads T_Isolation.

Local Opaque md5 json_decode json_encode metadata_name part_name.

Lemma all_well_behaved_cons e U st r rs : all_well_behaved e U st (r :: rs) ->
  well_behaved e U st r /\ forall v st', serves st r v st' -> all_well_behaved e U st' rs.
Proof.
  intros H. split.
  - apply (H [] r rs [] st); [done|constructor].
  - intros v st' Hs rs1 r' rs2 vs st1 -> Hs1. apply (H (r :: rs1) r' rs2 (v :: vs) st1); [done|].
    by econstructor.
Qed.
Lemma well_behaved_all_cons e U st r rs : well_behaved e U st r ->
  (forall v st', serves st r v st' -> all_well_behaved e U st' rs) -> all_well_behaved e U st (r :: rs).
Proof.
  intros Hr Hrs rs1 r' rs2 vs st1 Heq Hs. destruct rs1 as [|r1 rs1].
  - injection Heq as <- <-. by inversion Hs; subst.
  - injection Heq as <- ->. inversion Hs as [|? ? v st' ? vs' ? H1 H2]; subst. by eapply Hrs.
Qed.
Lemma well_behaved_all_nil e U st : all_well_behaved e U st [].
Proof. intros rs1 r' rs2 vs st1 Heq. by destruct rs1. Qed.

Lemma refines_from e U st s rs : names_ok e U -> tracks e U st s -> all_well_behaved e U st rs ->
  exists vs st', serves_all st rs vs st' /\ sees_all e s rs vs /\ tracks e U st' (after_all e rs s).
Proof.
  intros HU. revert st s. induction rs as [|r rs IH]; intros st s Ht Hw.
  - exists [], st. by split; [constructor|].
  - apply all_well_behaved_cons in Hw as [Hr Hrs].
    destruct (step_works e U HU st s r Ht Hr) as (v & st1 & Hs & Hv & Ht1).
    destruct (IH st1 (after e r s) Ht1 (Hrs _ _ Hs)) as (vs & st' & Hss & Hvs & Ht').
    exists (v :: vs), st'. split; [by econstructor|]. by split.
Qed.

(** C50: every sequence of well-behaved requests to a fresh store is answered exactly as the
    map answers it. *)
Theorem C50_store_is_a_map e U rs : names_ok e U -> e_os_ok e [] = true ->
  all_well_behaved e U nothing_stored rs ->
  exists vs st, serves_all nothing_stored rs vs st /\ sees_all e empty_store rs vs.
Proof.
  intros HU Hos Hw.
  destruct (refines_from e U nothing_stored empty_store rs HU (tracks_empty e U HU Hos) Hw) as (vs & st & H1 & H2 & _).
  by exists vs, st.
Qed.

(* Two answers are the same up to the order of the buckets. *)
Inductive same_seen : seen -> seen -> Prop :=
| same_refl v : same_seen v v
| same_buckets l l' : l ≡ₚ l' -> same_seen (Answered (ABuckets l)) (Answered (ABuckets l')).

Lemma bytes_lt_nil x : ~ bytes_lt x [].
Proof. intros (p & [(_ & a & r & H)|(a & b & r & r' & _ & H & _)]); by destruct p. Qed.
Lemma bytes_lt_cons a x b y : bytes_lt (a :: x) (b :: y) -> (code a < code b)%N \/ a = b /\ bytes_lt x y.
Proof.
  intros (p & [(<- & c & r & H)|(c & d & r & r' & H1 & H2 & Hlt)]).
  - injection H as -> ->. right. split; [done|]. exists x. left. eauto.
  - destruct p as [|q p]; cbn in *.
    + left. by injection H1 as -> ->; injection H2 as -> ->.
    + injection H1 as -> ->. injection H2 as -> ->. right. split; [done|]. exists p. right. by exists c, d, r, r'.
Qed.
Lemma bytes_lt_asym x y : bytes_lt x y -> bytes_lt y x -> False.
Proof.
  revert y. induction x as [|a x IH]; intros y H1 H2; [by apply bytes_lt_nil in H2|].
  destruct y as [|b y]; [by apply bytes_lt_nil in H1|].
  apply bytes_lt_cons in H1, H2. destruct H1 as [H1|[-> H1]], H2 as [H2|[? H2]]; subst; try lia. by eapply IH.
Qed.

(* A sorted list is determined by its elements. *)
Lemma sorted_unique (l l' : list (bytes * N)) : StronglySorted (fun x y => bytes_lt x.1 y.1) l ->
  StronglySorted (fun x y => bytes_lt x.1 y.1) l' -> (forall z, z ∈ l <-> z ∈ l') -> l = l'.
Proof.
  intros S1 S2 Heq. revert l' Heq S2. induction S1 as [|z l S1 IH Hz]; intros l' Heq S2.
  - destruct l' as [|y l']; [done|]. exfalso. assert (y ∈ @nil (bytes * N)) by (apply Heq; left). by apply elem_of_nil in H.
  - destruct S2 as [|y l' S2 Hy].
    { exfalso. assert (z ∈ @nil (bytes * N)) by (apply Heq; left). by apply elem_of_nil in H. }
    rewrite Forall_forall in Hz, Hy.
    assert (z = y) as <-.
    { assert (Hzy : z ∈ y :: l') by (apply Heq; left). assert (Hyz : y ∈ z :: l) by (apply Heq; left).
      apply elem_of_cons in Hzy as [?|Hzy]; [done|]. apply elem_of_cons in Hyz as [?|Hyz]; [done|].
      exfalso. eapply bytes_lt_asym; [apply Hy, Hzy|apply Hz, Hyz]. }
    f_equal. apply IH; [|done]. intros w.
    assert (Hnz : forall m : list (bytes * N), (forall w, w ∈ m -> bytes_lt z.1 w.1) -> z ∉ m).
    { intros m Hm Hin. eapply bytes_lt_asym; by apply Hm. }
    split; intros Hw.
    + assert (Hw' : w ∈ z :: l') by (apply Heq; by right). apply elem_of_cons in Hw' as [->|?]; [|done].
      by apply Hnz in Hw.
    + assert (Hw' : w ∈ z :: l) by (apply Heq; by right). apply elem_of_cons in Hw' as [->|?]; [|done].
      by apply Hnz in Hw.
Qed.
Lemma listing_unique st b x l l' : listing st b x l -> listing st b x l' -> l = l'.
Proof. intros [H1 S1] [H2 S2]. apply sorted_unique; [done|done|]. intros [k n]. by rewrite H1, H2. Qed.
Lemma assembled_unique st u n d d' : assembled st u n d -> assembled st u n d' -> d = d'.
Proof.
  intros (cs & H1 & -> & H) (cs' & H1' & -> & H'). f_equal. apply list_eq_same_length with n; [done|done|].
  intros j c c' _ Hc Hc'. apply H in Hc. apply H' in Hc'. congruence.
Qed.
Lemma one_to_inj n m : one_to n = one_to m -> n = m.
Proof. intros H. apply (f_equal length) in H. unfold one_to in H. rewrite !map_length, !seqZ_length in H. lia. Qed.

Lemma source_unique (sb sk sb' sk' : bytes) : "/"%char ∉ sb -> "/"%char ∉ sb' ->
  sb ++ B "/" ++ sk = sb' ++ B "/" ++ sk' -> sb = sb' /\ sk = sk'.
Proof.
  intros H H' Heq. change (B "/") with ["/"%char] in Heq. cbn [app] in Heq. by apply app_sep_inj in Heq.
Qed.

(** The map leaves no choice: it determines what is seen (up to the order of the buckets). *)
Theorem C50_map_deterministic st r v1 st1 v2 st2 :
  serves st r v1 st1 -> serves st r v2 st2 -> same_seen v1 v2 /\ st1 = st2.
Proof.
  assert (Hrange : forall str r1 r2, range_text str r1 -> range_text str r2 -> r1 = r2).
  { intros str r1 r2 Ha%range_spec Hb%range_spec. congruence. }
  intros H1 H2. destruct H1; inversion H2; clear H2; subst; try (split; [constructor|done]); try done; try congruence.
  - apply NoDup_Permutation; [done|done|]. intros b. by rewrite H0, H3.
  - match goal with Ha : listing _ _ _ l, Hb : listing _ _ _ l0 |- _ => rewrite (listing_unique _ _ _ _ _ Ha Hb) end.
    by split; [constructor|].
  - match goal with Ha : listing _ _ _ l, Hb : listing _ _ _ l0 |- _ => rewrite (listing_unique _ _ _ _ _ Ha Hb) end.
    by split; [constructor|].
  - assert (d = d0) as -> by congruence. by split; [constructor|].
  - match goal with Ha : range_text str rg, Hb : range_text str rg0 |- _ => pose proof (Hrange _ _ _ Ha Hb); subst end.
    assert (d = d0) as -> by congruence. assert (x = x0) as -> by congruence. by split; [constructor|].
  - match goal with Ha : range_text str rg, Hb : range_text str rg0 |- _ => pose proof (Hrange _ _ _ Ha Hb); subst end.
    assert (d = d0) as -> by congruence. congruence.
  - match goal with Ha : range_text str rg, Hb : range_text str rg0 |- _ => pose proof (Hrange _ _ _ Ha Hb); subst end.
    assert (d = d0) as -> by congruence. congruence.
  - assert (d = d0) as -> by congruence. by split; [constructor|].
  - match goal with Ha : is_Some ?o, Hb : ?o = None |- _ => rewrite Hb in Ha; by destruct Ha end.
  - match goal with Ha : is_Some ?o, Hb : ?o = None |- _ => rewrite Hb in Ha; by destruct Ha end.
  - match goal with Heq : _ ++ _ = _ ++ _ |- _ => apply (source_unique _ _ _ _) in Heq as [-> ->]; [|done..] end.
    assert (d = d0) as -> by congruence. by split; [constructor|].
  - match goal with Heq : _ ++ _ = _ ++ _ |- _ => apply (source_unique _ _ _ _) in Heq as [-> ->]; [|done..] end. congruence.
  - match goal with Heq : _ ++ _ = _ ++ _ |- _ => apply (source_unique _ _ _ _) in Heq as [-> ->]; [|done..] end. congruence.
  - match goal with Heq : one_to _ = one_to _ |- _ => apply one_to_inj in Heq as -> end.
    match goal with Ha : assembled st u _ data, Hb : assembled st u _ data0 |- _ => rewrite (assembled_unique _ _ _ _ _ Ha Hb) end.
    by split; [constructor|].
Qed.

Lemma serves_all_unique st rs vs1 st1 vs2 st2 :
  serves_all st rs vs1 st1 -> serves_all st rs vs2 st2 -> Forall2 same_seen vs1 vs2 /\ st1 = st2.
Proof.
  intros H. revert vs2 st2. induction H as [|st r v stm rs vs st' Hs Hss IH]; intros vs2 st2 H2.
  - by inversion H2; subst.
  - inversion H2 as [|? ? v' stm' ? vs' ? Hs' Hss']; subst.
    destruct (C50_map_deterministic _ _ _ _ _ _ Hs Hs') as [Hv <-].
    destruct (IH _ _ Hss') as [Hvs ->]. split; [by constructor|done].
Qed.

(** Hence whatever the map serves is what the server answers. *)
Theorem C50_answers_of_the_map e U rs vs st : names_ok e U -> e_os_ok e [] = true ->
  all_well_behaved e U nothing_stored rs -> serves_all nothing_stored rs vs st ->
  exists vs', Forall2 same_seen vs vs' /\ sees_all e empty_store rs vs'.
Proof.
  intros HU Hos Hw Hs. destruct (C50_store_is_a_map e U rs HU Hos Hw) as (vs' & st' & Hs' & Hv').
  exists vs'. split; [|done]. by apply (serves_all_unique _ _ _ _ _ _ Hs Hs').
Qed.

(* Names and requests that satisfy the hypotheses. *)
Definition ex_names (b k : bytes) : Prop := b = B "photos" /\ k ∈ [B "a/cat.jpg"; B "big"; B "copy"].
Lemma legal_photos : legal_bucket (B "photos").
Proof. apply check_bucket_name_spec. by vm_compute. Qed.
Lemma ex_names_ok : names_ok ex_env ex_names.
Proof.
  split.
  - intros b k [-> _]. apply legal_photos.
  - intros b k [_ Hk]. revert k Hk. apply Forall_forall.
    repeat (apply Forall_cons; split); [| | |constructor]; (split; [|split; [split; [done|by vm_compute]|split; [done|compute_done]]]).
    + exists [B "a"; B "cat.jpg"]. split; [done|]. split; [compute_done|done].
    + exists [B "big"]. split; [done|]. split; [compute_done|done].
    + exists [B "copy"]. split; [done|]. split; [compute_done|done].
  - intros b k k' r [_ Hk] [_ Hk']. revert k Hk. apply Forall_forall. revert k' Hk'. apply Forall_forall.
    repeat (apply Forall_cons; split); try constructor; by intros [=].
  - done.
  - done.
Qed.
Definition ex_upload : bytes := B "67e55044-10b1-426f-9247-bb680e5fe0c8".
Definition ex_history : list s_req :=
  [RCreateBucket (B "photos");
   RPutObject (B "photos") (B "a/cat.jpg") None (Some 5%Z) (Some [(B "owner", B "me")]) (Some [FData (B "hel"); FData (B "lo")]);
   RUploadPart ex_upload 1 (Some [FData (B "one")]);
   RUploadPart ex_upload 2 (Some [FData (B "two")]);
   RCompleteMultipartUpload (B "photos") (B "big") ex_upload (Some (one_to 2));
   RCopyObject (B "photos/a/cat.jpg") (B "photos") (B "copy");
   RListObjects (B "photos") None;
   RGetObject (B "photos") (B "copy") (Some (B "bytes=1-2"));
   RDeleteObjects (B "photos") [B "big"; B "copy"];
   RGetObject (B "photos") (B "big") None].
Lemma well_behaved_all_next e U st r v st' rs : well_behaved e U st r -> serves st r v st' ->
  all_well_behaved e U st' rs -> all_well_behaved e U st (r :: rs).
Proof.
  intros Hr Hs Hrs. apply well_behaved_all_cons; [done|]. intros v' st2 Hs'.
  by destruct (C50_map_deterministic _ _ _ _ _ _ Hs Hs') as [_ <-].
Qed.
Lemma ex_assembled st : parts st !! (ex_upload, 1%Z) = Some (B "one") -> parts st !! (ex_upload, 2%Z) = Some (B "two") ->
  assembled st ex_upload 2 (B "onetwo").
Proof.
  intros H1 H2. exists [B "one"; B "two"]. split; [done|]. split; [done|].
  intros [|[|j]] c Hj; [by injection Hj as <-|by injection Hj as <-|done].
Qed.
Example ex_history_well_behaved : all_well_behaved ex_env ex_names nothing_stored ex_history.
Proof.
  unfold ex_history.
  eapply well_behaved_all_next; [by split; [apply legal_photos|]|by apply sv_create_bucket|].
  eapply well_behaved_all_next; [|apply sv_put; left|].
  { split; [split; [done|left]|]. split; [intros m [= <-]; split; compute_done|]. intros fs [= <-]. done. }
  eapply well_behaved_all_next; [|apply sv_part|].
  { split; [compute_done|]. split; [done|]. split; [done|]. by intros fs [= <-]. }
  eapply well_behaved_all_next; [|apply sv_part|].
  { split; [compute_done|]. split; [done|]. split; [done|]. by intros fs [= <-]. }
  eapply well_behaved_all_next; [|apply (sv_complete _ _ _ _ 2), ex_assembled; vm_compute; reflexivity|].
  { split; [split; [done|right; left]|]. split; [compute_done|]. split; [done|]. intros l [= <-].
    split; [split; [compute_done|right; compute_done]|]. exists 2, (B "onetwo"). split; [done|].
    split; [apply ex_assembled; vm_compute; reflexivity|done]. }
  eapply well_behaved_all_next; [|apply (sv_copy _ (B "photos") (B "a/cat.jpg")); [compute_done|vm_compute; reflexivity]|].
  { split; [split; [done|right; right; left]|]. exists (B "photos"), (B "a/cat.jpg").
    split; [split; [done|left]|]. split; [done|]. split; [done|]. intros _. split; [compute_done|right; compute_done]. }
  apply well_behaved_all_cons; [by split; [apply legal_photos|]|]. intros v st Hs. inversion Hs; subst; clear Hs.
  2: { exfalso. match goal with H : _ ∉ _ |- _ => apply H end. compute_done. }
  apply well_behaved_all_cons.
  { split; [split; [done|right; right; left]|]. intros str [= <-]. exists (RNormal 1 (Some 2%N)).
    split; [by apply range_spec|]. intros d Hd. vm_compute in Hd. injection Hd as <-. done. }
  intros v st Hs. inversion Hs; subst; clear Hs.
  all: eapply well_behaved_all_next; [split; [apply legal_photos|]; split; [|compute_done]|apply sv_delete_many|].
  1,3,5: apply Forall_cons; split; [split; [done|right; left]|];
    apply Forall_cons; split; [split; [done|right; right; left]|by apply Forall_nil].
  all: apply well_behaved_all_cons; [|intros; apply well_behaved_all_nil].
  all: split; [split; [done|right; left]|done].
Qed.
Print Assumptions C50_store_is_a_map.
Print Assumptions C50_map_deterministic.
Print Assumptions C50_answers_of_the_map.
