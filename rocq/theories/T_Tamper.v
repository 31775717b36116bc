(** C15: a changed request needs a new signature, or a collision. *)
From Verif Require Import M_Base M_Crypto M_Utf8 M_Headers M_Http M_Auth M_Service
  S_Path S_Headers S_SigV4 S_Chunked S_Service
  L_Base L_Path L_Headers L_Auth L_Ordered L_SigV4 L_Crypto L_Chunked L_Utf8 L_Service L_Request
  T_Headers T_Ordered T_Canonical T_Chunked T_Multipart T_Auth T_Presigned.

Section opaque.
Local Opaque sha256 hmac_sha256.

Lemma filter_all {A} (f : A -> bool) l : (forall x, x ∈ l -> f x = true) -> List.filter f l = l.
Proof.
  induction l as [|x l IH]; intros H; [done|]. cbn. rewrite (H x) by left.
  f_equal. apply IH. intros y Hy. apply H. by right.
Qed.

Lemma signed_part_chosen names hs :
  signed_part (sort_by pair_cmp (chosen names hs)) = sort_by pair_cmp (chosen names hs).
Proof.
  unfold signed_part. apply filter_all.
  intros h Hh. rewrite (sort_by_perm pair_cmp) in Hh. apply elem_of_list_filter in Hh as ((_ & H1 & H2) & _).
  rewrite bool_decide_eq_false_2; [done|]. tauto.
Qed.

Lemma creq_of_inj m1 p1 q1 h1 t1 m2 p2 q2 h2 t2 names1 names2 :
  request_ok m1 h1 -> request_ok m2 h2 ->
  creq_of m1 p1 q1 (sort_by pair_cmp (chosen names1 h1)) t1 =
  creq_of m2 p2 q2 (sort_by pair_cmp (chosen names2 h2)) t2 ->
  m1 = m2 /\ p1 = p2 /\ q1 ≡ₚ q2 /\
  same_signed (sort_by pair_cmp (chosen names1 h1)) (sort_by pair_cmp (chosen names2 h2)) /\ t1 = t2.
Proof.
  intros O1 O2.
  assert (forall names m hs, request_ok m hs -> request_ok m (sort_by pair_cmp (chosen names hs))) as Hok.
  { intros names m hs [Hm Hh]. split; [done|]. intros h Hin. apply Hh.
    rewrite (sort_by_perm pair_cmp) in Hin. by apply elem_of_list_filter in Hin as [_ ?]. }
  intros H. unfold creq_of in H.
  pose proof (canonical_common_inj m1 p1 q1 (sort_by pair_cmp (chosen names1 h1)) t1
     m2 p2 q2 (sort_by pair_cmp (chosen names2 h2)) t2 (Hok _ _ _ O1) (Hok _ _ _ O2)) as Hi.
  unfold canonical_headers, signed_header_names in Hi.
  rewrite !kept_signed_part, !signed_part_chosen in Hi. exact (Hi H).
Qed.

Lemma payload_bound sha1 sha2 b1 b2 t :
  payload_text sha1 b1 t -> payload_text sha2 b2 t -> bodies_bound sha1 sha2 b1 b2.
Proof.
  assert (forall x : bytes, ~ hex_text (sha256 x) (B "UNSIGNED-PAYLOAD")) as Hu.
  { intros x H%hex_text_spec. apply (f_equal length) in H. rewrite to_hex_length, sha256_length in H. cbn in H. lia. }
  assert (forall x : bytes, ~ hex_text (sha256 x) (B "STREAMING-AWS4-HMAC-SHA256-PAYLOAD")) as Hs.
  { intros x H%hex_text_spec. apply (f_equal length) in H. rewrite to_hex_length, sha256_length in H. cbn in H. lia. }
  intros H1 H2. unfold bodies_bound.
  inversion H1 as [? ? E1 E2 E3|? E1 E2 E3|? ? ? Hl1 Hh1 Hb1 Ht1 E1 E2 E3]; subst.
  - inversion H2 as [| |? ? ? ? ? ? Ht2]; subst; [by left|]. by destruct (Hu _ Ht2).
  - inversion H2 as [| |? ? ? ? ? ? Ht2]; subst; [by right; left|]. by destruct (Hs _ Ht2).
  - inversion H2 as [| |? ? ? ? ? ? Ht2]; subst; [by destruct (Hu _ Ht1)|by destruct (Hs _ Ht1)|].
    right. right. apply hex_text_spec in Ht1, Ht2. subst. apply to_hex_inj in Ht2.
    destruct (decide (carried b1 = carried b2)); [by left|]. right. done.
Qed.

(** C15: two authentic requests with one signature (same secret, time stamp and region) are
    the same request, or there is an explicit collision. *)
Theorem C15_one_signature_one_request prov rq1 rq2 a1 a2 secret ts sha1 sha2 ps1 ps2 pl1 pl2 creq1 creq2 :
  request_ok (rq_method rq1) (rq_headers rq1) -> request_ok (rq_method rq2) (rq_headers rq2) ->
  header_signed prov rq1 (rq_path rq1) a1 secret ts sha1 ps1 pl1 creq1 ->
  header_signed prov rq2 (rq_path rq2) a2 secret ts sha2 ps2 pl2 creq2 ->
  aws_region (auth_credential a1) = aws_region (auth_credential a2) ->
  auth_signature a1 = auth_signature a2 ->
  (same_target rq1 rq2 (signed_headers a1) (signed_headers a2) /\
   bodies_bound sha1 sha2 (rq_body rq1) (rq_body rq2)) \/
  collision creq1 creq2 \/
  exists sts1 sts2,
    string_to_sign_text ts (aws_region (auth_credential a1)) creq1 sts1 /\
    string_to_sign_text ts (aws_region (auth_credential a1)) creq2 sts2 /\ sts1 <> sts2 /\
    hmac_sha256 (aws_key secret ts (aws_region (auth_credential a1))) sts1 =
    hmac_sha256 (aws_key secret ts (aws_region (auth_credential a1))) sts2.
Proof.
  intros O1 O2 [_ _ _ _ Q1 P1 C1 (s1 & T1 & G1)] [_ _ _ _ Q2 P2 C2 (s2 & T2 & G2)] Hr Hs.
  rewrite <- Hr, <- Hs in *. unfold aws_signature in G1, G2.
  apply hex_text_spec in G1. apply hex_text_spec in G2. rewrite G1 in G2. apply to_hex_inj in G2.
  destruct (decide (s1 = s2)) as [<-|Hne]; [|right; right; by exists s1, s2].
  assert (sha256 creq1 = sha256 creq2) as Hh.
  { destruct T1 as (h1 & H1 & ->), T2 as (h2 & H2 & E). cbn [glued] in E.
    do 6 apply app_inv_head in E. subst h2. apply hex_text_spec in H1. apply hex_text_spec in H2.
    rewrite H1 in H2. by apply to_hex_inj in H2. }
  destruct (decide (creq1 = creq2)) as [<-|Hne]; [|by right; left]. left.
  apply canonical_text_spec in C1 as E. apply canonical_text_spec in C2 as E'. rewrite E in E'.
  apply creq_of_inj in E' as (Em & Ep & Eq & Eh & Et); [|done..].
  split; [|subst pl2; by eapply payload_bound].
  split; [done|]. split; [done|]. split.
  - intros x1 x2 X1 X2. apply params_of_spec in X1, X2. apply params_of_spec in Q1, Q2. by subst.
  - eexists _, _. split; [|split; [|exact Eh]]; apply (sort_by_perm pair_cmp).
Qed.
Print Assumptions C15_one_signature_one_request.

(** The same for what the server accepts: if a request is accepted, and a second request that
    presents the same Authorization and x-amz-date headers is accepted too, then the second is
    the first one, or there is a collision. *)
Theorem C15_altered_request sv prov rq1 rq2 op1 c1 r1 op2 c2 r2 av ts :
  sv_auth sv = Some prov ->
  request_ok (rq_method rq1) (rq_headers rq1) -> request_ok (rq_method rq2) (rq_headers rq2) ->
  no_form_post sv rq1 -> no_form_post sv rq2 ->
  (forall ps v, query_params (rq_query rq1) ps -> (B "X-Amz-Signature", v) ∉ ps) ->
  (forall ps v, query_params (rq_query rq2) ps -> (B "X-Amz-Signature", v) ∉ ps) ->
  (forall v, (B "authorization", v) ∈ rq_headers rq1 \/ (B "authorization", v) ∈ rq_headers rq2 -> v = av) ->
  (forall v, (B "x-amz-date", v) ∈ rq_headers rq1 \/ (B "x-amz-date", v) ∈ rq_headers rq2 -> v = ts) ->
  front sv rq1 = FrCall op1 c1 r1 -> front sv rq2 = FrCall op2 c2 r2 ->
  exists a sha1 sha2,
    (exists w1 w2 w3 w4, av = authorization_text a w1 w2 w3 w4 /\ authorization_fields_ok a w1 w2 w3 w4) /\
    (B "x-amz-content-sha256", sha1) ∈ rq_headers rq1 /\
    (B "x-amz-content-sha256", sha2) ∈ rq_headers rq2 /\
    ((same_target rq1 rq2 (signed_headers a) (signed_headers a) /\
      bodies_bound sha1 sha2 (rq_body rq1) (rq_body rq2)) \/
     (exists x y, collision x y) \/
     (exists key x y, x <> y /\ hmac_sha256 key x = hmac_sha256 key y)).
Proof.
  intros Ha O1 O2 N1 N2 Q1 Q2 Hav Hts F1 F2.
  assert (forall rq op c r, no_form_post sv rq ->
    (forall ps v, query_params (rq_query rq) ps -> (B "X-Amz-Signature", v) ∉ ps) ->
    front sv rq = FrCall op c r ->
    exists a secret ts sha ps payload creq,
      header_signed prov rq (rq_path rq) a secret ts sha ps payload creq /\
      exists av, (B "authorization", av) ∈ rq_headers rq /\ authorization_from_header_str av = Some a) as Hf.
  { clear - Ha. intros rq op c r Hnf Hq. unfold front.
    destruct (make_ctx sv rq) as [c0|e0] eqn:Ec; [|done].
    destruct (check_signature sv c0) as [c1|e0] eqn:Es; [|done]. intros _.
    apply make_ctx_inv in Ec as (p & m & Hp & Hvis & Hm & ->). fold (ctx_of rq p m) in Es.
    unfold check_signature in Es. rewrite (not_form sv rq p m Hnf Hm) in Es.
    unfold cx_query in Es. cbn [ctx_of cx_qs] in Es.
    rewrite (cx_query_none rq (B "X-Amz-Signature")) in Es; [|intros v; apply Hq; by apply params_of_spec].
    apply (header_auth_sound sv prov) in Es as (a & secret & ts & sha & ps & payload & creq & d & Hs & _ & He & _); [|done].
    by exists a, secret, ts, sha, ps, payload, creq. }
  apply Hf in F1 as (a1 & k1 & t1 & sha1 & ps1 & pl1 & cr1 & S1 & v1 & V1 & A1); [|done..].
  apply Hf in F2 as (a2 & k2 & t2 & sha2 & ps2 & pl2 & cr2 & S2 & v2 & V2 & A2); [|done..].
  assert (v1 = av) as -> by auto. assert (v2 = av) as -> by auto.
  assert (a2 = a1) as -> by congruence.
  assert (t1 = ts) as -> by (destruct S1 as [_ _ [? _] _ _ _ _ _]; auto).
  assert (t2 = ts) as -> by (destruct S2 as [_ _ [? _] _ _ _ _ _]; auto).
  assert (k2 = k1) as -> by (pose proof (hs_key _ _ _ _ _ _ _ _ _ _ S1); pose proof (hs_key _ _ _ _ _ _ _ _ _ _ S2); congruence).
  exists a1, sha1, sha2.
  split; [destruct (C06_authorization_sound _ _ A1) as (w1 & w2 & w3 & w4 & ? & ? & _); by exists w1, w2, w3, w4|].
  split; [by destruct S1|]. split; [by destruct S2|].
  destruct (C15_one_signature_one_request prov rq1 rq2 a1 a1 k1 ts sha1 sha2 ps1 ps2 pl1 pl2 cr1 cr2) as [H|[H|H]]; try done.
  - by left.
  - right. left. by exists cr1, cr2.
  - right. right. destruct H as (s1 & s2 & _ & _ & Hne & Hh). by eexists _, s1, s2.
Qed.
Print Assumptions C15_altered_request.
End opaque.

(** The requests of C13_ex and C12_ex: the altered ones are refused; an unsigned header may be
    added and the request is accepted again, with the same target. *)
Definition ex_get' : http_request :=
  HttpRequest (B "GET") (B "/test.txt") None
    ((B "x-unsigned", B "1") :: rq_headers (ex_get (B "/test.txt") (B " bytes=0-9 "))) [].
Example C15_ex : exists c, front ex_server ex_get' =
    FrCall OpListObjects c (RListObjects (B "test.txt") None).
Proof. eexists. vm_compute. reflexivity. Qed.
Example C15_ex_target :
  same_target (ex_get (B "/test.txt") (B "bytes=0-9")) ex_get' (signed_headers ex_get_auth) (signed_headers ex_get_auth).
Proof.
  split; [done|]. split; [done|]. split; [by intros ps1 ps2 -> ->|].
  eexists _, _. split; [reflexivity|]. split; [reflexivity|].
  unfold same_signed. vm_compute chosen.
  repeat (apply Forall2_cons; split; [split; [done|]; eexists; split; exact (trim_trimmed _)|]). constructor.
Qed.
