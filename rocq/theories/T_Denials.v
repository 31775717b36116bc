(** C100: requests without valid credentials are refused with the code that says why. *)
From Verif Require Import M_Base M_Crypto M_Utf8 M_Headers M_Errors M_Multipart M_Http M_Auth M_Storage M_Ops M_Service
  S_Path S_Headers S_SigV4 S_Chunked S_Multipart S_Service S_Dispatch S_Errors S_Denials
  L_Multipart
  L_Base L_Path L_Headers L_Auth L_Ordered L_SigV4 L_Crypto L_Chunked L_Utf8 L_Service L_Request
  T_Headers T_Ordered T_Canonical T_Chunked T_Multipart T_Auth T_Presigned T_Policy.

Section opaque.
Local Opaque sha256 hmac_sha256.

Definition auth_headers : list bytes := [B "authorization"; B "x-amz-date"; B "x-amz-content-sha256"].

Lemma get_none rq n : ~ has_header rq n -> ordered_get (qs_from_pairs (rq_headers rq)) n = None.
Proof.
  intros H. destruct (ordered_get _ _) as [v|] eqn:E; [|done]. apply C08_lookup_sound in E.
  destruct H. by exists v.
Qed.

Lemma checksum_spec s : is_sha256_checksum s = true <-> length s = 64%nat /\ forall a, a ∈ s -> a ∈ hex.
Proof.
  unfold is_sha256_checksum. rewrite andb_true_iff, Nat.eqb_eq, forallb_forall. split; intros [Hl H]; (split; [done|]).
  - intros a Ha. specialize (H a (proj1 (elem_of_list_In _ _) Ha)). revert H. clear.
    pose proof (ascii_forall (fun a => implb (is_digit a || in_range "a" "f" a) (bool_decide (a ∈ hex)))) as H.
    specialize (H ltac:(vm_compute; reflexivity) a). cbv beta in H. intros Hd. rewrite Hd in H.
    cbn [implb] in H. by apply bool_decide_eq_true_1 in H.
  - intros a Ha. by apply hex_is, H, elem_of_list_In.
Qed.

Lemma sha_value_spec v : sha_value v <-> is_Some (content_sha256_from_header_str v).
Proof.
  unfold sha_value, content_sha256_from_header_str. rewrite <- checksum_spec.
  destruct (beq v (B "UNSIGNED-PAYLOAD")) eqn:E1; [apply beq_true in E1; naive_solver|].
  destruct (beq v (B "STREAMING-AWS4-HMAC-SHA256-PAYLOAD")) eqn:E2; [apply beq_true in E2; naive_solver|].
  split.
  - intros [-> |[-> | ->]]; [done|done|by eexists].
  - destruct (is_sha256_checksum v); [by auto|by intros [? ?]].
Qed.

Lemma streaming_sha v : content_sha256_from_header_str v = Some MultipleChunks <->
  v = B "STREAMING-AWS4-HMAC-SHA256-PAYLOAD".
Proof.
  unfold content_sha256_from_header_str.
  destruct (beq v (B "UNSIGNED-PAYLOAD")) eqn:E1; [apply beq_true in E1 as ->; done|].
  destruct (beq v (B "STREAMING-AWS4-HMAC-SHA256-PAYLOAD")) eqn:E2; [apply beq_true in E2; naive_solver|].
  destruct (is_sha256_checksum v); split; try done; intros ->; done.
Qed.

Lemma signs_as_spec rq p m a : unrepeated rq auth_headers -> signs_as rq a ->
  extract_authorization (ctx_of rq p m) = Ok (Some a).
Proof.
  intros Hu [(w1 & w2 & w3 & w4 & Hin & Hok) Hcal].
  unfold extract_authorization, cx_header. cbn [ctx_of cx_headers].
  rewrite (get_only rq auth_headers (B "authorization") _ Hu ltac:(compute_done) Hin).
  by rewrite (C06_authorization_round_trip _ _ _ _ _ Hok Hcal).
Qed.

Lemma wrong_date_verify s : wrong_date s -> verify_date s = false.
Proof.
  intros H. destruct (verify_date s) eqn:E; [|done]. apply verify_calendar in E as [Hl Hc].
  destruct H as [H|[Hd H]]; [done|]. destruct H. apply Hc.
  apply forallb_Forall, Forall_forall. intros c Hin. by apply is_digit_spec, Hd.
Qed.

Lemma header_denied_check sv prov rq p m code :
  sv_auth sv = Some prov -> unrepeated rq auth_headers ->
  header_denied prov rq code -> check_header_auth sv (ctx_of rq p m) = Err code.
Proof.
  intros Ha Hu Hd.
  assert (forall v, (B "x-amz-content-sha256", v) ∈ rq_headers rq ->
    cx_header (ctx_of rq p m) (B "x-amz-content-sha256") = Some v) as Gs.
  { intros v Hv. apply (get_only rq auth_headers (B "x-amz-content-sha256") _ Hu ltac:(compute_done) Hv). }
  assert (forall v, (B "x-amz-date", v) ∈ rq_headers rq ->
    cx_header (ctx_of rq p m) (B "x-amz-date") = Some v) as Gd.
  { intros v Hv. apply (get_only rq auth_headers (B "x-amz-date") _ Hu ltac:(compute_done) Hv). }
  destruct Hd as [Hno|v Hv Hbad|a Hs Hno|a v Hs Hv Hbad|a v code Hs Hv Hsha Hk|a v secret Hs Hv Hsha Hk Hno
    |a v secret ts Hs Hv Hsha Hk Hts Hbad|a v secret ts d Hs Hv Hsha Hns Hk Hts Hdt Hbr
    |a v secret ts d Hs Hv Hsha Hk Hts Hdt Hbr Hna].
  - unfold check_header_auth, extract_authorization, cx_header. cbn [ctx_of cx_headers].
    by rewrite (get_none _ _ Hno), Ha.
  - unfold check_header_auth, extract_authorization, cx_header. cbn [ctx_of cx_headers].
    rewrite (get_only rq auth_headers (B "authorization") _ Hu ltac:(compute_done) Hv).
    destruct (authorization_from_header_str v) as [a|] eqn:E; [|done]. exfalso.
    apply authorization_spec in E as (w1 & w2 & w3 & w4 & Ht & Hok & Hvd).
    specialize (Hbad _ _ _ _ _ Hok Ht). apply wrong_date_verify in Hbad. congruence.
  - unfold check_header_auth. rewrite (signs_as_spec _ _ _ _ Hu Hs), Ha.
    unfold extract_content_sha256, cx_header. cbn [ctx_of cx_headers]. by rewrite (get_none _ _ Hno).
  - unfold check_header_auth. rewrite (signs_as_spec _ _ _ _ Hu Hs), Ha.
    unfold extract_content_sha256. rewrite (Gs _ Hv).
    destruct (content_sha256_from_header_str v) eqn:E; [|done]. destruct Hbad. apply sha_value_spec. by eexists.
  - unfold check_header_auth. rewrite (signs_as_spec _ _ _ _ Hu Hs), Ha.
    unfold extract_content_sha256. rewrite (Gs _ Hv). apply sha_value_spec in Hsha as [x ->]. by rewrite Hk.
  - unfold check_header_auth. rewrite (signs_as_spec _ _ _ _ Hu Hs), Ha.
    unfold extract_content_sha256. rewrite (Gs _ Hv). apply sha_value_spec in Hsha as [x ->]. rewrite Hk.
    unfold extract_amz_date, cx_header. cbn [ctx_of cx_headers]. by rewrite (get_none _ _ Hno).
  - unfold check_header_auth. rewrite (signs_as_spec _ _ _ _ Hu Hs), Ha.
    unfold extract_content_sha256. rewrite (Gs _ Hv). apply sha_value_spec in Hsha as [x ->]. rewrite Hk.
    unfold extract_amz_date. rewrite (Gd _ Hts).
    destruct (amz_date_from_header_str ts) as [d|] eqn:E; [|done]. apply amz_date_spec in E. by destruct (Hbad d).
  - unfold check_header_auth. rewrite (signs_as_spec _ _ _ _ Hu Hs), Ha.
    unfold extract_content_sha256. rewrite (Gs _ Hv).
    pose proof (streaming_sha v) as Hst. apply sha_value_spec in Hsha as [x Ex]. rewrite Ex in *. rewrite Hk.
    unfold extract_amz_date. rewrite (Gd _ Hts). apply amz_date_spec in Hdt as ->.
    assert (to_bytes (cx_body (ctx_of rq p m)) = None) as ->.
    { cbn [ctx_of cx_body]. destruct (to_bytes (rq_body rq)) as [b|] eqn:E; [|done].
      apply to_bytes_spec in E as [E _]. congruence. }
    destruct x; try done. by destruct Hns, Hst; auto.
  - destruct (check_header_auth sv (ctx_of rq p m)) as [c|code] eqn:E.
    { apply (header_auth_sound sv prov) in E as (a' & secret' & ts' & sha' & ps & payload & creq & d' & Hh & _ & (av & Hav & Hpa) & _); [|done].
      pose proof Hh as [_ Hk' [Hts' _] Hsha' _ _ _ _].
      assert (sha' = v) as -> by (eapply Hu; [|exact Hsha'|exact Hv]; compute_done).
      assert (ts' = ts) as -> by (eapply Hu; [|exact Hts'|exact Hts]; compute_done).
      assert (a' = a) as ->.
      { destruct Hs as [(w1 & w2 & w3 & w4 & Hin & Hok) Hcal].
        pose proof (C06_authorization_round_trip _ _ _ _ _ Hok Hcal) as Hrt.
        rewrite (Hu (B "authorization") av (authorization_text a w1 w2 w3 w4) ltac:(compute_done) Hav Hin) in Hpa.
        congruence. }
      rewrite Hk in Hk'. injection Hk' as <-. by destruct (Hna ps payload creq). }
    unfold check_header_auth in E. rewrite (signs_as_spec _ _ _ _ Hu Hs), Ha in E.
    unfold extract_content_sha256 in E. rewrite (Gs _ Hv) in E.
    pose proof (streaming_sha v) as Hst. apply sha_value_spec in Hsha as [x Ex]. rewrite Ex in *. rewrite Hk in E.
    unfold extract_amz_date in E. rewrite (Gd _ Hts) in E. apply amz_date_spec in Hdt. rewrite Hdt in E.
    destruct x.
    + destruct (beq _ _) in E; [done|]. congruence.
    + destruct Hbr as [-> |Hb]; [by destruct Hst as [_ Hst]; specialize (Hst eq_refl)|].
      assert (to_bytes (cx_body (ctx_of rq p m)) = Some (carried (rq_body rq))) as Et by (by apply to_bytes_spec).
      rewrite Et in E. destruct (beq _ _) in E; [done|]. congruence.
    + destruct Hbr as [-> |Hb]; [by destruct Hst as [_ Hst]; specialize (Hst eq_refl)|].
      assert (to_bytes (cx_body (ctx_of rq p m)) = Some (carried (rq_body rq))) as Et by (by apply to_bytes_spec).
      rewrite Et in E. destruct (beq _ _) in E; [done|]. congruence.
Qed.

(** Refused in the header: what the reply says. *)
Theorem C100_header_denied sv prov rq p code :
  readable sv rq p -> sv_auth sv = Some prov -> no_form_post sv rq ->
  ~ has_param rq (B "X-Amz-Signature") -> unrepeated rq auth_headers ->
  header_denied prov rq code -> front sv rq = FrErr code.
Proof.
  intros Hr Ha Hnf Hnp Hu Hd. destruct (make_ctx_readable _ _ _ Hr) as (m & Hm & Hc).
  unfold front. rewrite Hc. unfold check_signature. fold (ctx_of rq p m). rewrite (not_form sv rq p m Hnf Hm).
  unfold cx_query. cbn [ctx_of cx_qs]. rewrite cx_query_none.
  - fold (ctx_of rq p m). by rewrite (header_denied_check sv prov rq p m code Ha Hu Hd).
  - intros v Hv. destruct Hnp. exists (params_of rq), v. split; [by apply params_of_spec|done].
Qed.
Print Assumptions C100_header_denied.

(** There is nothing between: what is not denied for one of these reasons is authentic. *)
Theorem C100_header_cases prov rq :
  (forall a w1 w2 w3 w4, (B "authorization", authorization_text a w1 w2 w3 w4) ∈ rq_headers rq ->
     authorization_fields_ok a w1 w2 w3 w4 ->
     forall c, c ∈ cred_date (auth_credential a) -> c ∈ digits) ->
  unrepeated rq auth_headers ->
  header_authentic prov rq \/ exists code, header_denied prov rq code.
Proof.
  intros Hdig Hu.
  set (sv := Server (Some prov) (fun _ => None) (fun _ => true) (fun _ => None) (fun _ => None) []).
  destruct (check_header_auth sv (ctx_of rq PRoot None)) as [c|code] eqn:E.
  { left. apply (header_auth_sound sv prov) in E as (a & secret & ts & sha & ps & payload & creq & d & Hh & _); [|done].
    by exists a, secret, ts, sha, ps, payload, creq. }
  destruct (ordered_get (qs_from_pairs (rq_headers rq)) (B "authorization")) as [av|] eqn:Eav.
  2: { right. exists AccessDenied. apply hd_anonymous. intros [v Hv].
       by rewrite (get_only rq auth_headers (B "authorization") _ Hu ltac:(compute_done) Hv) in Eav. }
  pose proof Eav as Eav'. apply C08_lookup_sound in Eav'.
  destruct (authorization_from_header_str av) as [a|] eqn:Ea.
  2: { right. exists InvalidRequest. apply (hd_garbled _ _ av Eav'). intros a w1 w2 w3 w4 Hok ->.
       right. split; [by eapply Hdig|]. intros Hcal.
       by rewrite (C06_authorization_round_trip _ _ _ _ _ Hok Hcal) in Ea. }
  assert (signs_as rq a) as Hs.
  { destruct (C06_authorization_sound _ _ Ea) as (w1 & w2 & w3 & w4 & -> & Hok & _ & Hcal).
    split; [by exists w1, w2, w3, w4|]. apply Hcal. by eapply Hdig. }
  destruct (ordered_get (qs_from_pairs (rq_headers rq)) (B "x-amz-content-sha256")) as [v|] eqn:Ev.
  2: { right. exists InvalidRequest. apply (hd_no_sha _ _ a Hs). intros [v Hv].
       by rewrite (get_only rq auth_headers (B "x-amz-content-sha256") _ Hu ltac:(compute_done) Hv) in Ev. }
  pose proof Ev as Ev'. apply C08_lookup_sound in Ev'.
  destruct (content_sha256_from_header_str v) as [x|] eqn:Ex.
  2: { right. eexists. eapply (hd_bad_sha _ _ a v Hs Ev'). intros [? ?]%sha_value_spec. congruence. }
  assert (sha_value v) as Hsha by (apply sha_value_spec; by eexists).
  destruct (prov (access_key_id (auth_credential a))) as [secret|e] eqn:Ek.
  2: { right. eexists. by eapply (hd_unknown _ _ a v). }
  destruct (ordered_get (qs_from_pairs (rq_headers rq)) (B "x-amz-date")) as [ts|] eqn:Ets.
  2: { right. exists InvalidRequest. apply (hd_no_date _ _ a v secret Hs Ev' Hsha Ek). intros [d Hv].
       by rewrite (get_only rq auth_headers (B "x-amz-date") _ Hu ltac:(compute_done) Hv) in Ets. }
  pose proof Ets as Ets'. apply C08_lookup_sound in Ets'.
  destruct (amz_date_from_header_str ts) as [d|] eqn:Ed.
  2: { right. exists InvalidRequest. apply (hd_bad_date _ _ a v secret ts Hs Ev' Hsha Ek Ets').
       intros d Hd%amz_date_spec. congruence. }
  pose proof Ed as Ed'. apply amz_date_spec in Ed'.
  assert (v = B "STREAMING-AWS4-HMAC-SHA256-PAYLOAD" \/ broken (rq_body rq) = false \/
    v <> B "STREAMING-AWS4-HMAC-SHA256-PAYLOAD" /\ broken (rq_body rq) = true) as Hb.
  { destruct (decide (v = B "STREAMING-AWS4-HMAC-SHA256-PAYLOAD")); [by left|right].
    destruct (broken (rq_body rq)); auto. }
  destruct Hb as [Hb|[Hb|[Hb1 Hb2]]].
  3: { right. exists InvalidRequest. by eapply (hd_broken _ _ a v secret ts d). }
  all: right; exists SignatureDoesNotMatch; eapply (hd_forged _ _ a v secret ts d); try done; auto.
  all: intros ps payload creq Hh.
  all: pose proof (header_auth_complete sv prov rq PRoot None _ _ _ _ _ _ _ _ eq_refl Hh Ed' (proj2 Hs) Hu); congruence.
Qed.
Print Assumptions C100_header_cases.

(** *** Presigned URLs *)

Lemma param_none rq n : (forall v, (n, v) ∉ params_of rq) -> ordered_get (default [] (ctx_qs rq)) n = None.
Proof.
  intros H. pose proof (cx_query_none rq n H) as E. by destruct (ctx_qs rq).
Qed.

Lemma url_in_order_spec rq c : unrepeated_params (params_of rq) presigned_names -> url_in_order (params_of rq) c ->
  exists pu, presigned_from_query (default [] (ctx_qs rq)) = Some pu /\ pu_credential pu = c.
Proof.
  intros Hu (alg & ts & d & ex & n & sh & sig & Halg & Hcr & Hcok & Hcal & Hts & Hd & Hex & Hden & Hn & Hsh & Hasc
    & Hsig & Hlen & Hhex).
  eexists. split.
  - unfold presigned_from_query.
    rewrite (param_only rq (B "X-Amz-Algorithm") _ Hu ltac:(compute_done) Halg).
    rewrite (param_only rq (B "X-Amz-Credential") _ Hu ltac:(compute_done) Hcr).
    rewrite (param_only rq (B "X-Amz-Date") _ Hu ltac:(compute_done) Hts).
    rewrite (param_only rq (B "X-Amz-Expires") _ Hu ltac:(compute_done) Hex).
    rewrite (param_only rq (B "X-Amz-SignedHeaders") _ Hu ltac:(compute_done) Hsh).
    rewrite (param_only rq (B "X-Amz-Signature") _ Hu ltac:(compute_done) Hsig).
    assert (parse_credential (credential_text c) = Some (c, [])) as ->.
    { apply parse_credential_spec. rewrite app_nil_r. split; [done|]. split; [done|]. by apply calendar_verify. }
    assert (amz_date_from_header_str ts = Some d) as -> by (by apply amz_date_spec).
    apply denotes_spec in Hden as (Hx1 & Hx2 & <-).
    rewrite parse_uint_str_digits; [|done|done|unfold u32_max; lia].
    assert (is_ascii_str sh = true) as ->.
    { unfold is_ascii_str. apply forallb_Forall, Forall_forall. intros a Ha. by apply N.ltb_lt, Hasc. }
    assert (is_sha256_checksum sig = true) as -> by (by apply checksum_spec). reflexivity.
  - reflexivity.
Qed.

Lemma url_denied_check sv prov rq p m code :
  sv_auth sv = Some prov -> unrepeated rq auth_headers ->
  unrepeated_params (params_of rq) presigned_names ->
  url_denied prov rq (params_of rq) code -> check_presigned_url sv (ctx_of rq p m) = Err code.
Proof.
  intros Ha Hu Hup Hd. unfold check_presigned_url. cbn [ctx_of cx_qs].
  destruct Hd as [n Hn Hno|ts Hts Hbad|sig Hsig Hbad|c v Hok Hv Hbad|c code Hok Hsha Hk|c secret Hok Hsha Hk Hna].
  - assert (presigned_from_query (default [] (ctx_qs rq)) = None) as ->; [|done].
    apply param_none in Hno. unfold presigned_from_query.
    unfold presigned_names in Hn. rewrite !elem_of_cons in Hn.
    destruct Hn as [-> |[-> |[-> |[-> |[-> |[-> |?%elem_of_nil]]]]]]; [..|done]; rewrite Hno;
      repeat match goal with |- context [match ordered_get ?q ?k with _ => _ end] => destruct (ordered_get q k) end; done.
  - assert (presigned_from_query (default [] (ctx_qs rq)) = None) as ->; [|done].
    unfold presigned_from_query. rewrite (param_only rq (B "X-Amz-Date") _ Hup ltac:(compute_done) Hts).
    assert (amz_date_from_header_str ts = None) as ->.
    { destruct (amz_date_from_header_str ts) as [d|] eqn:E; [|done]. apply amz_date_spec in E. by destruct (Hbad d). }
    repeat match goal with |- context [match ordered_get ?q ?k with _ => _ end] => destruct (ordered_get q k) end; try done.
    all: destruct (parse_credential _) as [[? []]|]; done.
  - assert (presigned_from_query (default [] (ctx_qs rq)) = None) as ->; [|done].
    unfold presigned_from_query. rewrite (param_only rq (B "X-Amz-Signature") _ Hup ltac:(compute_done) Hsig).
    assert (is_sha256_checksum sig = false) as ->.
    { destruct (is_sha256_checksum sig) eqn:E; [|done]. by apply checksum_spec in E. }
    repeat match goal with |- context [match ordered_get ?q ?k with _ => _ end] => destruct (ordered_get q k) end; try done.
    all: destruct (parse_credential _) as [[? []]|]; try done.
    all: destruct (amz_date_from_header_str _); [|done].
    all: destruct (parse_uint_str _ _); [|done]. all: by destruct (negb _).
  - destruct (url_in_order_spec _ _ Hup Hok) as (pu & -> & Hc).
    unfold extract_content_sha256, cx_header. cbn [ctx_of cx_headers].
    rewrite (get_only rq auth_headers (B "x-amz-content-sha256") _ Hu ltac:(compute_done) Hv).
    destruct (content_sha256_from_header_str v) eqn:E; [|done]. destruct Hbad. apply sha_value_spec. by eexists.
  - destruct (url_in_order_spec _ _ Hup Hok) as (pu & -> & Hc).
    destruct (content_sha_ok_extract rq p m Hsha) as [x Ex]. unfold ctx_of in Ex. unfold ctx_of. rewrite Ex, Ha, Hc. by rewrite Hk.
  - destruct (check_presigned_url sv (ctx_of rq p m)) as [c'|code] eqn:E.
    { apply (presigned_sound sv prov) in E as [_ E]; [|done]. by destruct Hna. }
    unfold check_presigned_url in E. cbn [ctx_of cx_qs] in E.
    destruct (url_in_order_spec _ _ Hup Hok) as (pu & Ep & Hc). rewrite Ep in E |- *.
    destruct (content_sha_ok_extract rq p m Hsha) as [x Ex]. unfold ctx_of in Ex, E. unfold ctx_of.
    rewrite Ex, Ha, Hc, Hk in E |- *. destruct (beq _ _); [done|]. done.
Qed.

Theorem C100_url_denied sv prov rq p ps v code :
  readable sv rq p -> sv_auth sv = Some prov -> no_form_post sv rq ->
  query_params (rq_query rq) ps -> (B "X-Amz-Signature", v) ∈ ps ->
  unrepeated rq auth_headers -> unrepeated_params ps presigned_names ->
  url_denied prov rq ps code -> front sv rq = FrErr code.
Proof.
  intros Hr Ha Hnf ->%params_of_spec Hv Hu Hup Hd. destruct (make_ctx_readable _ _ _ Hr) as (m & Hm & Hc).
  unfold front. rewrite Hc. unfold check_signature. fold (ctx_of rq p m). rewrite (not_form sv rq p m Hnf Hm).
  unfold cx_query. cbn [ctx_of cx_qs].
  rewrite (cx_query_only rq (B "X-Amz-Signature") v); [|done|intros v' Hv'; eapply Hup; [|exact Hv'|exact Hv]; compute_done].
  fold (ctx_of rq p m). by rewrite (url_denied_check sv prov rq p m code).
Qed.
Print Assumptions C100_url_denied.

(** *** Forms *)

Lemma field_none m n : (forall v, ~ field_value (mp_fields m) n v) -> find_field_value m n = None.
Proof.
  intros H. destruct (find_field_value m n) as [v|] eqn:E; [|done]. apply field_value_spec in E. by destruct (H v).
Qed.

Lemma form_denied_check sv prov rq p mi boundary m code :
  sv_auth sv = Some prov -> rq_method rq = B "POST" -> mi_form_data mi = true -> content_type sv rq mi ->
  mi_boundary mi = Some boundary -> transform_multipart boundary (rq_body rq) = Some m ->
  form_denied prov (mp_fields m) code -> check_post_signature sv (ctx_of rq p (Some mi)) = Err code.
Proof.
  intros Ha Hpost Hfd Hct Hb Hm Hd.
  destruct Hd as [n Hn Hno|policy Hp Hbad|c code Hok Hk|c secret Hok Hk Hna].
  - unfold check_post_signature. rewrite Ha. cbn [ctx_of cx_mime cx_body]. rewrite Hb, Hm.
    apply field_none in Hno. unfold signing_fields in Hn. rewrite !elem_of_cons in Hn.
    destruct Hn as [-> |[-> |[-> |[-> |[-> |?%elem_of_nil]]]]]; [..|done]; rewrite Hno;
      repeat match goal with |- context [match find_field_value ?q ?k with _ => _ end] => destruct (find_field_value q k) end; done.
  - unfold check_post_signature. rewrite Ha. cbn [ctx_of cx_mime cx_body]. rewrite Hb, Hm.
    apply field_value_spec in Hp. rewrite Hp.
    assert (is_base64_encoded policy = false) as ->.
    { destruct (is_base64_encoded policy) eqn:E; [|done]. apply base64_spec in E as [data E]. by destruct (Hbad data). }
    repeat match goal with |- context [match find_field_value ?q ?k with _ => _ end] => destruct (find_field_value q k) end; done.
  - destruct Hok as (policy & rest & ts & d & sig & H1 & H2 & H3 & H4 & H5 & Hcal & H6 & Hd & H7).
    unfold check_post_signature. rewrite Ha. cbn [ctx_of cx_mime cx_body]. rewrite Hb, Hm.
    apply field_value_spec in H1, H3, H4, H6, H7. rewrite H1, H3, H4, H6, H7.
    apply base64_spec in H2. rewrite H2. cbn [negb].
    replace (beq (B "AWS4-HMAC-SHA256") (B "AWS4-HMAC-SHA256")) with true by done. cbn [negb].
    assert (parse_credential (credential_text c ++ rest) = Some (c, rest)) as ->.
    { apply parse_credential_spec. split; [done|]. split; [done|]. by apply calendar_verify. }
    assert (amz_date_from_header_str ts = Some d) as -> by (by apply amz_date_spec). by rewrite Hk.
  - destruct (check_post_signature sv (ctx_of rq p (Some mi))) as [c'|code] eqn:E.
    { apply (form_sound sv prov rq p mi) in E as (b' & m' & E1 & E2 & (rest & (_ & mi' & cr & _ & _ & _ & _ & E5) & _) & _); [|done..].
      assert (b' = boundary) as -> by congruence. assert (m' = m) as -> by congruence. by destruct (Hna cr). }
    destruct Hok as (policy & rest & ts & d & sig & H1 & H2 & H3 & H4 & H5 & Hcal & H6 & Hd & H7).
    unfold check_post_signature in E. rewrite Ha in E. cbn [ctx_of cx_mime cx_body] in E. rewrite Hb, Hm in E.
    apply field_value_spec in H1, H3, H4, H6, H7. rewrite H1, H3, H4, H6, H7 in E.
    apply base64_spec in H2. rewrite H2 in E. cbn [negb] in E.
    replace (beq (B "AWS4-HMAC-SHA256") (B "AWS4-HMAC-SHA256")) with true in E by done. cbn [negb] in E.
    assert (parse_credential (credential_text c ++ rest) = Some (c, rest)) as Ec.
    { apply parse_credential_spec. split; [done|]. split; [done|]. by apply calendar_verify. }
    assert (amz_date_from_header_str ts = Some d) as Ed by (by apply amz_date_spec). rewrite Ec, Ed, Hk in E.
    destruct (beq _ _); [done|]. congruence.
Qed.

Theorem C100_form_denied sv prov rq p boundary f code :
  readable sv rq p -> sv_auth sv = Some prov -> sends_form sv rq boundary f ->
  form_denied prov (f_fields f) code -> front sv rq = FrErr code.
Proof.
  intros Hr Ha Hf Hd. destruct (sends_form_mime _ _ _ _ Hf) as (mi & Hmi & Hfd & Hb).
  destruct Hf as (Hpost & _ & Hall & Hok & (trailer & Hc) & Hns).
  destruct (C27_other_framings_accepted boundary f trailer (rq_body rq) Hok Hc Hns) as (m & Hm & Hfl & _).
  destruct (make_ctx_readable _ _ _ Hr) as (mo & Hmo & Hcx). rewrite Hmi in Hmo. injection Hmo as <-.
  unfold front. rewrite Hcx. unfold check_signature. cbn [cx_method cx_mime]. rewrite Hpost, Hfd.
  replace (beq (B "POST") (B "POST") && true) with true by done.
  rewrite <- Hpost. fold (ctx_of rq p (Some mi)).
  rewrite (form_denied_check sv prov rq p mi boundary m code); try done; [by apply mime_content_type|].
  by rewrite Hfl.
Qed.
Print Assumptions C100_form_denied.

(** *** Servers without keys, and the reply *)

Theorem C100_open_server sv rq p a :
  readable sv rq p -> sv_auth sv = None -> no_form_post sv rq ->
  ~ has_param rq (B "X-Amz-Signature") -> unrepeated rq auth_headers ->
  signs_as rq a -> front sv rq = FrErr NotSupported.
Proof.
  intros Hr Ha Hnf Hnp Hu Hs. destruct (make_ctx_readable _ _ _ Hr) as (m & Hm & Hc).
  unfold front. rewrite Hc. unfold check_signature. fold (ctx_of rq p m). rewrite (not_form sv rq p m Hnf Hm).
  unfold cx_query. cbn [ctx_of cx_qs]. rewrite cx_query_none.
  - fold (ctx_of rq p m). unfold check_header_auth. by rewrite (signs_as_spec rq p m a Hu Hs), Ha.
  - intros v Hv. destruct Hnp. exists (params_of rq), v. split; [by apply params_of_spec|done].
Qed.
Print Assumptions C100_open_server.

(* What goes out: an error reply with the status of the code; the store is not looked at. *)
Theorem C100_reply e sv rq code st :
  front sv rq = FrErr code ->
  (code, st) ∈ [(AccessDenied, 403); (SignatureDoesNotMatch, 403); (NotSignedUp, 403); (InvalidRequest, 400);
                (XAmzContentSHA256Mismatch, 400); (NotSupported, 500)]%N ->
  exists resp, service e sv rq = Ret (Replied resp) /\ rs_status resp = st /\ documented (code_str code) st.
Proof.
  intros Hf Hc. unfold service. rewrite Hf. exists (error_response code). split; [done|].
  rewrite !elem_of_cons in Hc.
  destruct Hc as [[= -> ->]|[[= -> ->]|[[= -> ->]|[[= -> ->]|[[= -> ->]|[[= -> ->]|?%elem_of_nil]]]]]]; [..|done];
    (split; [reflexivity|]); unfold documented, documented_status.
  all: eexists; split; [repeat (first [left; reflexivity|right])|vm_compute; tauto].
Qed.
Print Assumptions C100_reply.

Lemma ex_signs_as rq :
  (B "authorization", authorization_text ex_get_auth (B " ") [] [] []) ∈ rq_headers rq -> signs_as rq ex_get_auth.
Proof.
  intros Hin. split; [|apply verify_calendar; vm_compute; reflexivity].
  exists (B " "), [], [], []. split; [done|].
  unfold authorization_fields_ok, no_blank, blanks, credential_fields_ok. cbn [ex_get_auth algorithm
    auth_credential signed_headers auth_signature access_key_id cred_date aws_region aws_service].
  repeat match goal with |- _ /\ _ => split end; try done;
    try (setoid_rewrite <- Forall_forall; compute_done); try compute_done.
Qed.

(** An unknown key is reported as NotSignedUp.  In the AWS documentation that code means "Your account
    is not signed up for the Amazon S3 service", and a key "does not exist in our records" has the
    code InvalidAccessKeyId. *)
Theorem C100_unknown_key_refuted : exists sv keys rq p a v,
  readable sv rq p /\ sv_auth sv = Some (simple_auth keys) /\ no_form_post sv rq /\
  ~ has_param rq (B "X-Amz-Signature") /\ unrepeated rq auth_headers /\
  signs_as rq a /\ (B "x-amz-content-sha256", v) ∈ rq_headers rq /\ sha_value v /\
  (forall s, (access_key_id (auth_credential a), s) ∉ keys) /\
  front sv rq = FrErr NotSignedUp.
Proof.
  exists (Server (Some (simple_auth [])) (fun _ => None) (fun _ => true) (fun _ => None) (fun _ => None) []), [],
    (ex_get (B "/test.txt") (B "bytes=0-9")), (PBucket (B "test.txt")), ex_get_auth,
    (B "e3b0c44298fc1c149afbf4c8996fb92427ae41e4649b934ca495991b7852b855").
  assert (forall n v, (n, v) ∈ rq_headers (ex_get (B "/test.txt") (B "bytes=0-9")) ->
    ordered_get (qs_from_pairs (rq_headers (ex_get (B "/test.txt") (B "bytes=0-9")))) n = Some v) as Hget.
  { intros n v H. unfold ex_get in *. cbn [rq_headers] in *. rewrite !elem_of_cons in H.
    destruct H as [[= -> ->]|[[= -> ->]|[[= -> ->]|[[= -> ->]|[[= -> ->]|?%elem_of_nil]]]]]; [..|done]; vm_compute; reflexivity. }
  split.
  { split; [|split].
    - apply request_path_spec. eexists. split; vm_compute; reflexivity.
    - apply visible_headers. vm_compute. reflexivity.
    - intros t Ht. apply Hget in Ht. by vm_compute in Ht. }
  split; [done|]. split; [by intros Hp|].
  split. { intros (ps & v & Hps & Hv). apply params_of_spec in Hps as ->. by apply elem_of_nil in Hv. }
  split. { intros n v v' _ H1%Hget H2%Hget. congruence. }
  split; [apply ex_signs_as, elem_of_list_In; right; left; vm_compute; reflexivity|].
  split; [compute_done|]. split; [apply sha_value_spec; by eexists|].
  split; [by intros s ?%elem_of_nil|]. vm_compute. reflexivity.
Qed.
Print Assumptions C100_unknown_key_refuted.
End opaque.

(* The cases occur: the example of the AWS documentation without its Authorization header, with an
   unreadable one, without the date, with a date that is none, and with a wrong signature. *)
Definition ex_denied (hs : list (bytes * bytes)) : http_request := HttpRequest (B "GET") (B "/test.txt") None hs [].
Definition ex_headers : list (bytes * bytes) := rq_headers (ex_get (B "/test.txt") (B "bytes=0-9")).
Example C100_ex :
  front ex_server (ex_denied (filter (fun h => h.1 <> B "authorization") ex_headers)) = FrErr AccessDenied /\
  front ex_server (ex_denied [(B "authorization", B "Basic dTpw")]) = FrErr InvalidRequest /\
  front ex_server (ex_denied (filter (fun h => h.1 <> B "x-amz-content-sha256") ex_headers)) = FrErr InvalidRequest /\
  front ex_server (ex_denied (map (fun h => if beq h.1 (B "x-amz-content-sha256") then (h.1, B "x") else h) ex_headers)) =
    FrErr XAmzContentSHA256Mismatch /\
  front ex_server (ex_denied (filter (fun h => h.1 <> B "x-amz-date") ex_headers)) = FrErr InvalidRequest /\
  front ex_server (ex_denied (filter (fun h => h.1 <> B "range") ex_headers)) = FrErr SignatureDoesNotMatch /\
  front ex_open_server (ex_denied ex_headers) = FrErr NotSupported.
Proof. split_and!; vm_compute; reflexivity. Qed.
Example C100_ex_anonymous : header_denied ex_prov
  (ex_denied (filter (fun h => h.1 <> B "authorization") ex_headers)) AccessDenied.
Proof.
  apply hd_anonymous. intros [v Hv]. cbn [ex_denied rq_headers] in Hv. apply elem_of_list_filter in Hv as [H _]. by cbn in H.
Qed.
Definition ex_forged : http_request :=
  Eval vm_compute in ex_denied (filter (fun h => h.1 <> B "range") ex_headers).
Example C100_ex_forged : header_denied ex_prov ex_forged SignatureDoesNotMatch.
Proof.
  assert (unrepeated ex_forged auth_headers) as Hu.
  { intros n v v' _ H1 H2.
    assert (forall n v, (n, v) ∈ rq_headers ex_forged ->
      ordered_get (qs_from_pairs (rq_headers ex_forged)) n = Some v) as Hget.
    { clear. intros n v H. unfold ex_forged in *. cbn [rq_headers] in *. rewrite !elem_of_cons in H.
      destruct H as [[= -> ->]|[[= -> ->]|[[= -> ->]|[[= -> ->]|?%elem_of_nil]]]]; [..|done]; vm_compute; reflexivity. }
    apply Hget in H1, H2. congruence. }
  assert (signs_as ex_forged ex_get_auth) as Hs.
  { apply ex_signs_as, elem_of_list_In. right. left. vm_compute. reflexivity. }
  eapply (hd_forged _ _ ex_get_auth (B "e3b0c44298fc1c149afbf4c8996fb92427ae41e4649b934ca495991b7852b855")
    (B "wJalrXUtnFEMI/K7MDENG/bPxRfiCYEXAMPLEKEY") (B "20130524T000000Z") (AmzDate 2013 5 24 0 0 0)).
  - exact Hs.
  - compute_done.
  - apply sha_value_spec. by eexists.
  - by vm_compute.
  - compute_done.
  - apply ex_date.
  - by right.
  - intros ps payload creq Hh.
    pose proof (header_auth_complete ex_server ex_prov ex_forged PRoot None _ _ _ _ _ _ _ _ eq_refl Hh ex_date (proj2 Hs) Hu) as E.
    assert (check_header_auth ex_server (ctx_of ex_forged PRoot None) = Err SignatureDoesNotMatch) as E'
      by (vm_compute; reflexivity). rewrite E' in E. discriminate E.
Qed.
Example C100_ex_authentic : header_authentic ex_prov (ex_get (B "/test.txt") (B "bytes=0-9")).
Proof. destruct C13_ex_signed as (payload & creq & H). do 5 eexists. exists payload, creq. exact H. Qed.
(* A URL with a signature and nothing else, and a form without policy. *)
Example C100_ex_url : url_denied ex_prov (HttpRequest (B "GET") (B "/bkt") (Some (B "X-Amz-Signature=00")) [] [])
  [(B "X-Amz-Signature", B "00")] InvalidRequest /\
  front ex_server (HttpRequest (B "GET") (B "/bkt") (Some (B "X-Amz-Signature=00")) [] []) = FrErr InvalidRequest.
Proof.
  split; [|vm_compute; reflexivity]. apply (ud_missing _ _ _ (B "X-Amz-Date")); [compute_done|].
  intros v Hv. by apply elem_of_list_singleton in Hv.
Qed.
Example C100_ex_form : form_denied ex_prov [(B "key", B "k")] InvalidRequest.
Proof.
  apply (fd_missing _ _ (B "policy")); [compute_done|]. intros v (xs & n & ys & H & Hn & _).
  destruct xs as [|x xs]; [|by destruct xs]. injection H as <- <- _. by vm_compute in Hn.
Qed.
