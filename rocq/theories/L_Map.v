(** Towards C50: the relation between the map and the disk, and its preservation. *)
From Verif Require Import M_Base M_Path M_Headers M_Chunked M_BytesStream M_Crypto M_Fs M_Json M_Utf8 M_Storage
  S_Path S_Headers S_Chunked S_Storage S_Store S_Map
  L_Base L_Path L_Headers L_Fs L_Storage L_Scope L_Names L_Json L_Ops L_Results L_Tidy
  T_Store T_Copy T_Etag T_Scope T_Listing T_Buckets T_Uploads T_Isolation.

Local Opaque md5 json_decode json_encode metadata_name part_name.

(* The disk [s] represents the map [st]. *)
Record tracks (e : env) (U : bytes -> bytes -> Prop) (st : store) (s : fs) : Prop := {
  tk_wf : wf s;
  tk_tidy : tidy e s;
  tk_intact : intact s;
  tk_root : fs_nodes s !! [] = Some NDir;
  tk_bucket b : legal_bucket b -> b ∈ buckets st <-> fs_nodes s !! [b] = Some NDir;
  tk_legal b : b ∈ buckets st -> legal_bucket b;
  tk_only b q c : legal_bucket b -> content s (b :: q) = Some c -> exists k, U b k /\ located b k (b :: q);
  tk_object b k p : U b k -> located b k p ->
    content s p = objects st !! (b, k) /\ fs_nodes s !! p <> Some NDir;
  tk_names x d : objects st !! x = Some d -> U x.1 x.2 /\ small d;
  tk_meta b k : U b k -> meta_of e s b k = Some (metadatas st !! (b, k));
  tk_part u n : "/"%char ∉ u ->
    content s [part_name u n] = parts st !! (u, n) /\ fs_nodes s !! [part_name u n] <> Some NDir;
}.

Lemma affects_dec r b k : affects r b k \/ ~ affects r b k.
Proof.
  destruct r; cbn; try (by right); try destruct (decide (bucket = b)) as [->|];
    try (by left); try (right; tauto); try (destruct (decide (key = k)) as [->|]; [by left|right; tauto]).
  destruct (decide (k ∈ keys)); [by left|right; tauto].
Qed.

Lemma exists_dec {A} (P : A -> Prop) (l : list A) `{!forall x, Decision (P x)} :
  (exists x, x ∈ l /\ P x) \/ ~ (exists x, x ∈ l /\ P x).
Proof.
  destruct (decide (Exists P l)) as [He|He]; rewrite Exists_exists in He; [by left|by right].
Qed.
Lemma r_files_dec e r p : r_files e r p \/ ~ r_files e r p.
Proof.
  destruct r; cbn [r_files]; try (right; tauto).
  - destruct (decide (get_object_path e bucket key = Some p)); [by left; left|].
    destruct (decide (get_metadata_path e bucket key = Some p)); [by left; right|right; tauto].
  - destruct (get_bucket_path e bucket) as [q|]; [|right; by intros (q & ? & _)].
    destruct (decide (q `prefix_of` p)); [left; by exists q|right]. by intros (q' & [= <-] & ?).
  - destruct (decide (get_object_path e bucket key = Some p)); [by left|by right].
  - apply exists_dec. intros k. apply _.
  - destruct (decide (get_object_path e bucket key = Some p)); [by left; left|].
    destruct (decide (is_Some md)); [|right; tauto].
    destruct (decide (get_metadata_path e bucket key = Some p)); [by left; right|right; tauto].
  - destruct (decide (part_path e upload_id part_number = Some p)); [by left|by right].
  - destruct (decide (get_object_path e bucket key = Some p)); [by left; left|].
    destruct parts as [l|]; [|right; by intros [?|(l0 & n0 & ? & _)]].
    destruct (exists_dec (fun x : option Z => x ≫= part_path e upload_id = Some p) l) as [(x & Hx & Hp)|Hno].
    + left. right. destruct x as [m|]; [|done]. by exists l, m.
    + right. intros [?|(l' & m & [= <-] & Hx & Hp)]; [done|]. apply Hno. by exists (Some m).
Qed.

Section preserve.
  Context (e : env) (U : bytes -> bytes -> Prop) (HU : names_ok e U).

  Lemma U_path b k : U b k -> exists p, located b k p /\ e_os_ok e p = true /\ get_object_path e b k = Some p.
  Proof.
    intros H. destruct (nm_key _ _ HU _ _ H) as (Ho & _). destruct (ordinary_located k b Ho) as [p Hp].
    exists p. split; [done|]. split; [by eapply nm_path|].
    apply object_path; [by eapply nm_bucket|done|done].
  Qed.

  (* What remains to be shown for a request that changes something. *)
  Lemma tracks_after st st' r s : tracks e U st s -> plain_req r -> text_req r ->
    let s' := after e r s in
    (forall b q, legal_bucket b -> r_files e r (b :: q) -> is_Some (content s' (b :: q)) ->
       exists k, U b k /\ located b k (b :: q)) ->
    fs_nodes s' !! [] = Some NDir ->
    (forall b, legal_bucket b -> b ∈ buckets st' <-> fs_nodes s' !! [b] = Some NDir) ->
    (forall b, b ∈ buckets st' -> legal_bucket b) ->
    (forall b k p, U b k -> located b k p -> r_dirs e r p -> fs_nodes s' !! p <> Some NDir) ->
    (forall b k p, U b k -> located b k p -> affects r b k -> content s' p = objects st' !! (b, k)) ->
    (forall b k, ~ affects r b k -> objects st' !! (b, k) = objects st !! (b, k)) ->
    (forall x d, objects st' !! x = Some d -> U x.1 x.2 /\ small d) ->
    (forall b k, U b k -> meta_of e s' b k = Some (metadatas st' !! (b, k))) ->
    (forall u n, "/"%char ∉ u -> touches_part r u n -> content s' [part_name u n] = parts st' !! (u, n)) ->
    (forall u n, "/"%char ∉ u -> ~ touches_part r u n -> parts st' !! (u, n) = parts st !! (u, n)) ->
    (forall u n, touches_part r u n \/ ~ touches_part r u n) ->
    tracks e U st' s'.
  Proof.
    intros Hs Hr Ht s' HF Hroot Hb Hbl HD Ho Ho' Hn Hm Hp Hp' Htd.
    pose proof (tk_wf _ _ _ _ Hs) as Hwf. pose proof (storage_untouched e r s Hwf) as Hu. fold s' in Hu.
    assert (wf s') as Hwf' by by apply wf_after.
    split; try done.
    - by apply tidy_after; [apply (tk_tidy _ _ _ _ Hs)|].
    - by apply intact_after; [|apply (tk_intact _ _ _ _ Hs)|].
    - intros b q c Hlb Hc.
      destruct (decide (content s (b :: q) = Some c)) as [Hold|Hnew].
      + by apply (tk_only _ _ _ _ Hs _ _ c).
      + destruct (r_files_dec e r (b :: q)) as [Hf|Hf]; [apply HF; [done|done|by eexists]|].
        by rewrite (un_content _ _ _ _ _ Hu) in Hc.
    - intros b k p HUb Hl.
      assert (content s' p = objects st' !! (b, k)) as Hc.
      { destruct (affects_dec r b k) as [Ha|Ha]; [by apply Ho|]. rewrite Ho' by done.
        unfold s'. destruct (unaffected_after e r s b k p Hwf Hr (nm_bucket _ _ HU _ _ HUb) Hl Ha) as [-> _].
        by apply (tk_object _ _ _ _ Hs). }
      split; [done|]. intros Hd. 
      destruct (tk_object _ _ _ _ Hs _ _ _ HUb Hl) as [_ Hnd]. apply Hnd.
      apply (un_new_dir _ _ _ _ _ Hu); [|done]. intros HDp. by eapply HD.
    - intros u n Hun. destruct (tk_part _ _ _ _ Hs u n Hun) as [Hc Hnd]. split.
      + destruct (Htd u n) as [Ht'|Ht']; [by apply Hp|]. rewrite Hp' by done. rewrite <- Hc. by apply part_kept.
      + intros Hd. apply Hnd. apply (un_new_dir _ _ _ _ _ Hu); [|done]. by apply plain_part.
  Qed.
End preserve.
