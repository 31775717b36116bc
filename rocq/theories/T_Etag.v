(** C31, C32: entity tags and ranges. *)
From Verif Require Import M_Base M_Path M_Headers M_Chunked M_BytesStream M_Crypto M_Fs M_Json M_Utf8 M_Storage
  S_Path S_Headers S_Chunked S_Storage S_Store L_Base L_Headers L_Fs L_Storage L_Scope L_Names L_Json L_Ops L_Results
  T_Store T_Copy.

Local Opaque md5 json_decode json_encode metadata_name part_name.

(** C31: every tag returned is the tag of what is stored at that moment. *)
Theorem C31_put_etag e s b k sc cl md body a p : wf s -> legal_bucket b -> located b k p ->
  let r := RPutObject b k sc cl md body in
  answer e r s = Ok a ->
  exists c, content (after e r s) p = Some c /\ a = APut (Some (quoted_md5 c)).
Proof.
  intros Hwf Hb Hl r Ha. apply run_answer in Ha. cbn [storage] in Ha.
  eapply put_ok in Ha as (fs & _ & _ & -> & Hc & _); [|done|by apply legal_bucket_segment|done].
  by exists (carried fs).
Qed.
Print Assumptions C31_put_etag.

Theorem C31_copy_etag e s sb sk b k ps pd a : wf s ->
  legal_bucket sb -> resolved sb sk ps -> legal_bucket b -> resolved b k pd ->
  legal_key sk -> LF ∉ sb ++ B "/" ++ sk ->
  let r := RCopyObject (sb ++ B "/" ++ sk) b k in
  answer e r s = Ok a ->
  exists c, content (after e r s) pd = Some c /\ a = ACopy (quoted_md5 c).
Proof.
  intros Hwf Hsb Hps Hb Hpd Hsk Hlf r Ha. apply run_answer in Ha.
  eapply copy_ok in Ha as (c & Hc & _ & Hd & Hs & ->); try done. by eexists.
Qed.
Print Assumptions C31_copy_etag.

Theorem C31_part_etag e s u n body a p : wf s -> part_path e u n = Some p ->
  answer e (RUploadPart u n body) s = Ok a ->
  exists c, content (after e (RUploadPart u n body) s) p = Some c /\ a = APart (quoted_md5 c).
Proof.
  intros Hwf Hp Ha. apply run_answer in Ha. cbn [storage] in Ha. unfold upload_part in Ha.
  destruct body as [body|]; [|done]. rewrite Hp in Ha. cbn [try_path] in Ha. revert Ha.
  rewrite run_try_io, run_call.
  destruct (exec e (CCreate p) s) as [s2 [i|]] eqn:E; [|done].
  apply create_file in E as (Hn & Hd & Hosp).
  rewrite run_try_io, run_copy_bytes_0 by done. destruct (body_ok body) eqn:Hb; [|done].
  intros [= <- <-]. eexists. split; [by apply content_set_data|]. by rewrite body_data_carried.
Qed.
Print Assumptions C31_part_etag.

Theorem C31_complete_etag e s b k u ps a p : get_object_path e b k = Some p ->
  let r := RCompleteMultipartUpload b k u ps in
  answer e r s = Ok a ->
  exists c, content (after e r s) p = Some c /\ a = ACompleted b k (quoted_md5 c).
Proof.
  intros Hp r Ha. apply run_answer in Ha. revert Ha. unfold r. cbn [storage]. unfold complete_multipart_upload.
  destruct ps as [ps|]; [|done]. rewrite Hp. cbn [try_path]. rewrite run_try_io, run_call.
  destruct (exec e (CCreate p) s) as [s1 [i|]]; [|done]. rewrite run_try_res.
  destruct (run e (append_parts e u i 0 0 ps) s1) as [s2 [n|]]; [|done]. rewrite run_try_io, run_call.
  cbn [exec]. destruct (if negb _ then _ else _); [|done].
  rewrite run_try_io, (run_get_md5 _ _ _ p) by done. destruct (e_os_ok e p); [|done].
  destruct (content s2 p) as [c|] eqn:Hc; [|done]. cbn [fmap option_fmap option_map]. intros [= <- <-].
  by exists c.
Qed.
Print Assumptions C31_complete_etag.

Theorem C31_get_etag e s b k range h off lim len md tag p : get_object_path e b k = Some p ->
  answer e (RGetObject b k range) s = Ok (AGet h off lim len md tag) ->
  exists c, content s p = Some c /\ tag = quoted_md5 c.
Proof.
  intros Hp. unfold answer. cbn [storage]. unfold get_object. rewrite Hp. cbn [try_path].
  assert (Hgo : forall r,
    (run e (bind (call (COpen p)) (fun o =>
        match o with
        | None => Ret (Err NoSuchKey)
        | Some h =>
            try_io (call (CLen h)) (fun file_len =>
            try_res (get_extent h r file_len) (fun ol =>
            try_io (load_metadata e b k) (fun md =>
            try_io (get_md5_sum e b k) (fun tag =>
              if (ol.2 <=? i64_max)%N then Ret (Ok (AGet h ol.1 ol.2 ol.2 md tag))
              else Ret (Err InternalError)))))
        end)) s).2 = Ok (AGet h off lim len md tag) -> exists c, content s p = Some c /\ tag = quoted_md5 c).
  { intros r. rewrite run_bind, run_open. destruct (if negb _ then _ else _) as [h'|]; [|done].
    rewrite run_try_io, run_call.
    destruct (exec e (CLen h') s) as [s1 [n|]] eqn:E1; [|done].
    assert (s1 = s) as ->. { cbn [exec] in E1. by destruct h'; injection E1 as <-. }
    rewrite run_try_res.
    assert (He : (run e (get_extent h' r n) s).1 = s).
    { unfold get_extent. destruct r as [[f l|l]|]; [by destruct (_ <=? _)%N| |done].
      destruct (_ && _); [|done]. rewrite run_try_io, run_call. cbn [exec]. destruct h'.
      all: destruct (l <=? _)%N; done. }
    destruct (run e (get_extent h' r n) s) as [s2 [[o l]|]]; [|done]. cbn [fst] in He. subst s2.
    rewrite run_try_io, run_load_metadata. destruct (meta_of e s b k); [|done].
    rewrite run_try_io, (run_get_md5 _ _ _ p) by done. destruct (e_os_ok e p); [|done].
    destruct (content s p) as [c|]; [|done]. cbn [fmap option_fmap option_map]. 
    cbn [snd fst]. destruct (l <=? i64_max)%N; [|done]. intros [= _ _ _ _ _ <-]. by exists c. }
  destruct range as [str|]; [|apply Hgo]. destruct (range_from_header_str str); [apply Hgo|done].
Qed.
Print Assumptions C31_get_etag.

(* The length the server announces: not cut at the end of the object, except for the largest
   64-bit number. *)
Definition announced (r : range) (c : bytes) : N :=
  let len := N.of_nat (length c) in
  match r with
  | RNormal f None => (len - f)%N
  | RNormal f (Some l) => if decide (l = u64_max) then (len - f)%N else (l - f + 1)%N
  | RSuffix n => n
  end.

Lemma range_values str r : range_text str r ->
  match r with
  | RNormal f None => (f <= u64_max)%N
  | RNormal f (Some l) => (f <= l)%N /\ (l <= u64_max)%N
  | RSuffix n => (n <= u64_max)%N
  end.
Proof. intros H. inversion H; subst; unfold fits64 in *; change (2 ^ 64)%N with (u64_max + 1)%N in *; lia. Qed.

Lemma wrapping_sub_le x y : (y <= x)%N -> (x <= u64_max)%N -> wrapping_sub x y = (x - y)%N.
Proof.
  intros H1 H2. unfold wrapping_sub. replace (x + (u64_max + 1) - y)%N with (x - y + 1 * (u64_max + 1))%N by lia.
  rewrite N.mod_add by done. apply N.mod_small. lia.
Qed.

Lemma extent_slice str r c : range_text str r -> (N.of_nat (length c) <= i64_max)%N ->
  match slice r c with
  | None => extent (Some r) (N.of_nat (length c)) = Err InvalidRange
  | Some d => exists off, extent (Some r) (N.of_nat (length c)) = Ok (off, announced r c) /\
      take (N.to_nat (announced r c)) (drop (N.to_nat off) c) = d
  end.
Proof.
  intros Hv%range_values Hlen. unfold slice, extent, announced. destruct r as [f [l|]|n].
  - destruct Hv as [Hfl Hl]. case_decide as Hf.
    + rewrite (proj2 (N.leb_gt _ _)) by done. exists f. unfold range_end.
      assert (Hi : (i64_max < u64_max)%N) by done.
      case_decide as Hm.
      * subst l. rewrite (proj2 (N.leb_gt _ _)) by lia. rewrite wrapping_sub_le by lia. split; [done|].
        rewrite !take_ge by (rewrite drop_length; lia). done.
      * rewrite (proj2 (N.leb_le _ _)) by lia. rewrite wrapping_sub_le by lia.
        split; [by replace (l + 1 - f)%N with (l - f + 1)%N by lia|].
        by replace (l + 1 - f)%N with (l - f + 1)%N by lia.
    + by rewrite (proj2 (N.leb_le _ _)) by lia.
  - case_decide as Hf.
    + rewrite (proj2 (N.leb_gt _ _)) by done. exists f. unfold range_end.
      assert (Hi : (i64_max < u64_max)%N) by done.
      rewrite wrapping_sub_le by lia. split; [done|]. rewrite take_ge; [done|]. rewrite drop_length. lia.
    + by rewrite (proj2 (N.leb_le _ _)) by lia.
  - case_decide as Hn.
    + rewrite !(proj2 (N.leb_le _ _)) by lia. cbn [andb]. eexists. split; [done|].
      rewrite N2Nat.inj_sub, Nat2N.id. apply take_ge. rewrite drop_length. lia.
    + by rewrite (proj2 (N.leb_gt _ _)) by lia.
Qed.

Lemma slice_length str r c d : (N.of_nat (length c) <= i64_max)%N -> range_text str r -> slice r c = Some d -> inside r c ->
  announced r c = N.of_nat (length d) /\ (announced r c <= N.of_nat (length c))%N.
Proof.
  intros Hlen Hv%range_values. assert (Hlt : (i64_max < u64_max)%N) by done. unfold slice, announced, inside. destruct r as [f [l|]|n]; case_decide; try done.
  - intros [= <-] Hl. destruct Hv. rewrite take_length, drop_length. case_decide; lia.
  - intros [= <-] _. rewrite drop_length. lia.
  - intros [= <-] _. rewrite drop_length. lia.
Qed.

(* The exact behaviour for every accepted range. *)
Lemma range_behaviour e s b k p c str r : intact s -> legal_bucket b -> located b k p ->
  e_os_ok e p = true -> content s p = Some c -> (N.of_nat (length c) <= i64_max)%N -> range_text str r ->
  match slice r c with
  | None => answer e (RGetObject b k (Some str)) s = Err InvalidRange
  | Some d =>
      if decide (announced r c <= i64_max)%N then
        exists md, gets e s b k (Some str) d (announced r c) md (quoted_md5 c)
      else answer e (RGetObject b k (Some str)) s = Err InternalError
  end.
Proof.
  intros Hi Hb Hl Hos Hc Hlen Hr. pose proof (extent_slice str r c Hr Hlen) as He.
  apply content_Some in Hc as (i & Hn & Hd).
  assert (Hp : get_object_path e b k = Some p) by (apply located_path; [by apply legal_bucket_segment|done]).
  assert (Hpr : parse_range (Some str) = Some (Some r)).
  { unfold parse_range. apply range_spec in Hr. by rewrite Hr. }
  destruct (intact_meta e s b k Hi) as [md Hmd]. rewrite <- Hd in *.
  destruct (slice r (data_of s i)) as [d|].
  - destruct He as (off & He & Hd'). case_decide as Hm.
    + exists md. rewrite <- Hd'. by eapply gets_file.
    + unfold answer. cbn [storage]. rewrite (run_get_file e b k (Some str) p i s) by done.
      unfold file_len. rewrite Hpr, He, Hmd. by rewrite (proj2 (N.leb_gt _ _)) by lia.
  - unfold answer. cbn [storage]. rewrite (run_get_file e b k (Some str) p i s) by done.
    unfold file_len. by rewrite Hpr, He.
Qed.

(** For ranges that end inside the object (or have no end) everything is as it should be:
    the slice is delivered and its length is announced.  Missing for the full claim: ranges
    whose end lies at or beyond the end of the object, see the next theorems. *)
Theorem C32_range_slice_partial e s b k p c str r d : intact s -> legal_bucket b -> located b k p ->
  e_os_ok e p = true -> content s p = Some c -> (N.of_nat (length c) <= i64_max)%N ->
  range_text str r -> inside r c -> slice r c = Some d ->
  exists md, gets e s b k (Some str) d (N.of_nat (length d)) md (quoted_md5 c).
Proof.
  intros Hi Hb Hl Hos Hc Hlen Hr Hin Hs. pose proof (range_behaviour e s b k p c str r Hi Hb Hl Hos Hc Hlen Hr) as H.
  destruct (slice_length str r c d Hlen Hr Hs Hin) as [Ha Hle]. rewrite Hs, decide_True, Ha in H by lia. done.
Qed.
Print Assumptions C32_range_slice_partial.

(** InvalidRange is answered exactly for the ranges that denote nothing. *)
Theorem C32_invalid_range e s b k p c str r : intact s -> legal_bucket b -> located b k p ->
  e_os_ok e p = true -> content s p = Some c -> (N.of_nat (length c) <= i64_max)%N -> range_text str r ->
  answer e (RGetObject b k (Some str)) s = Err InvalidRange <->
  match r with
  | RNormal f _ => (N.of_nat (length c) <= f)%N
  | RSuffix n => (N.of_nat (length c) < n)%N
  end.
Proof.
  intros Hi Hb Hl Hos Hc Hlen Hr. pose proof (range_behaviour e s b k p c str r Hi Hb Hl Hos Hc Hlen Hr) as H.
  assert (Hs : slice r c = None <-> match r with
    | RNormal f _ => (N.of_nat (length c) <= f)%N | RSuffix n => (N.of_nat (length c) < n)%N end).
  { clear. unfold slice. destruct r as [f [l|]|n]; case_decide; split; intros ?; done || lia || (exfalso; lia). }
  rewrite <- Hs. destruct (slice r c); [|done]. split; [|done]. intros Ha. exfalso. case_decide.
  - destruct H as (md & h & off & lim & H & _). by rewrite H in Ha.
  - by rewrite H in Ha.
Qed.
Print Assumptions C32_invalid_range.

(** A range that ends beyond the object delivers the right bytes, but announces too many. *)
Theorem C32_beyond_end e s b k p c str f l : intact s -> legal_bucket b -> located b k p ->
  e_os_ok e p = true -> content s p = Some c -> range_text str (RNormal f (Some l)) ->
  (f < N.of_nat (length c))%N -> (N.of_nat (length c) <= l)%N -> (l < i64_max)%N ->
  exists md, gets e s b k (Some str) (drop (N.to_nat f) c) (l - f + 1) md (quoted_md5 c) /\
    (N.of_nat (length (drop (N.to_nat f) c)) < l - f + 1)%N.
Proof.
  intros Hi Hb Hl Hos Hc Hr H1 H2 H3. assert (Hlt : (i64_max < u64_max)%N) by done.
  pose proof (range_behaviour e s b k p c str _ Hi Hb Hl Hos Hc ltac:(lia) Hr) as H.
  unfold slice, announced in H. cbv zeta in H. rewrite (decide_False (P := l = u64_max)) in H by lia.
  do 2 (case_decide; [|lia]).
  rewrite take_ge in H by (rewrite drop_length; lia). destruct H as [md H]. exists md. split; [done|].
  rewrite drop_length. lia.
Qed.
Print Assumptions C32_beyond_end.

(* A concrete object to read from. *)
Definition ex_put : s_req := RPutObject (B "photos") (B "a/cat.jpg") None (Some 5%Z) None (Some [FData (B "hel"); FData (B "lo")]).
Definition ex_store : fs := after ex_env ex_put empty_store.

Example ex_range_ok : exists h,
  answer ex_env (RGetObject (B "photos") (B "a/cat.jpg") (Some (B "bytes=1-3"))) ex_store =
    Ok (AGet h 1 3 3 None (quoted_md5 (B "hello"))) /\
  carried (get_body ex_store h 1 3 []) = B "ell".
Proof. eexists. split; vm_compute; reflexivity. Qed.

(** The announced length is wrong for "bytes=1-9" of a five-byte object: nine bytes are
    announced, four are sent. *)
Theorem C32_announced_length_refuted :
  exists e s b k str h off lim len md tag,
    answer e (RGetObject b k (Some str)) s = Ok (AGet h off lim len md tag) /\
    N.of_nat (length (carried (get_body s h off lim []))) <> len.
Proof.
  exists ex_env, ex_store, (B "photos"), (B "a/cat.jpg"), (B "bytes=1-9").
  do 6 eexists. split; [vm_compute; reflexivity|]. by vm_compute.
Qed.
Print Assumptions C32_announced_length_refuted.

(** A satisfiable range whose length does not fit a signed 64-bit number fails altogether. *)
Theorem C32_huge_range_refuted :
  exists e s b k str r c d,
    content s [b; k] = Some c /\ range_text str r /\ slice r c = Some d /\
    answer e (RGetObject b k (Some str)) s = Err InternalError.
Proof.
  exists ex_env, (after ex_env (RPutObject (B "photos") (B "x") None None None (Some [FData (B "hello")])) empty_store),
    (B "photos"), (B "x"), (B "bytes=0-9223372036854775807"), (RNormal 0 (Some 9223372036854775807%N)), (B "hello"), (B "hello").
  split_and!; [vm_compute; reflexivity|by apply range_spec; vm_compute| |vm_compute; reflexivity].
  unfold slice. rewrite decide_True by done. reflexivity.
Qed.
Print Assumptions C32_huge_range_refuted.
