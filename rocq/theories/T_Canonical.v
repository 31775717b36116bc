(** C07, C10, C11: percent-encoding and canonical requests. *)
From Verif Require Import M_Base M_Path M_Headers M_Crypto M_Ordered M_SigV4
  L_Base L_Ordered S_Path L_Path S_SigV4 L_SigV4.
From Coq Require Import Lia.

(** C07 *)
Theorem C07_encoding_exact encode_slash s t :
  uri_encode encode_slash s = t <-> pct_encoded (negb encode_slash) s t.
Proof. exact (uri_encode_spec encode_slash s t). Qed.
Print Assumptions C07_encoding_exact.

Theorem C07_encoding_injective encode_slash s s' :
  uri_encode encode_slash s = uri_encode encode_slash s' -> s = s'.
Proof. exact (uri_encode_inj encode_slash s s'). Qed.
Print Assumptions C07_encoding_injective.

Theorem C07_decoding_gives_back encode_slash s s' :
  pct_decoded (uri_encode encode_slash s) s' <-> s' = s.
Proof.
  assert (pct_decoded (uri_encode encode_slash s) s) as H.
  { eapply pct_encoded_decoded. by apply C07_encoding_exact. }
  split; [|by intros ->]. intros H'. by eapply pct_decoded_fun.
Qed.
Print Assumptions C07_decoding_gives_back.

Theorem C07_encoding_alphabet encode_slash s a :
  a ∈ uri_encode encode_slash s ->
  a ∈ rfc_unreserved \/ a = "%"%char \/ (encode_slash = false /\ a = "/"%char).
Proof.
  intros Hin. pose proof (uri_encode_chars encode_slash s) as H.
  rewrite forallb_Forall, Forall_forall in H. pose proof (H _ Hin) as Ha.
  unfold enc_char in Ha. rewrite !orb_true_iff, !aeq_true, unreserved_spec in Ha.
  destruct Ha as [[Ha|Ha]| ->]; [by left|by right; left|]. right; right.
  destruct encode_slash; [|done]. by apply uri_encode_true_noslash in Hin.
Qed.
Print Assumptions C07_encoding_alphabet.

Theorem C07_unreserved_unchanged encode_slash s :
  (forall a, a ∈ s -> a ∈ rfc_unreserved) -> uri_encode encode_slash s = s.
Proof.
  intros H. induction s as [|a s IH]; [done|].
  rewrite uri_encode_cons, IH by (intros x Hx; apply H; by right).
  unfold uri_encode_byte. assert (unreserved a = true) as -> by (apply unreserved_spec, H; left). done.
Qed.
Print Assumptions C07_unreserved_unchanged.

Example ex_encode : uri_encode true (B "a b/c~%é") = B "a%20b%2Fc~%25%C3%A9".
Proof. vm_compute. reflexivity. Qed.
Example ex_encode_path : pct_encoded true (B "/a b") (B "/a%20b").
Proof. apply (C07_encoding_exact false). vm_compute. reflexivity. Qed.

(** C10: re-ordering query parameters, headers or the SignedHeaders list changes nothing. *)
Theorem C10_canonical_request_order_independent method path q q' hs hs' names names' pl :
  q ≡ₚ q' -> hs ≡ₚ hs' -> names ≡ₚ names' ->
  create_canonical_request method path (qs_from_pairs q)
    (map_signed_headers (qs_from_pairs hs) (sort_by bytes_cmp names)) pl =
  create_canonical_request method path (qs_from_pairs q')
    (map_signed_headers (qs_from_pairs hs') (sort_by bytes_cmp names')) pl.
Proof.
  intros Hq Hh Hn. unfold qs_from_pairs.
  by rewrite (sort_by_perm_eq pair_cmp _ _ Hq), (sort_by_perm_eq pair_cmp _ _ Hh),
    (sort_by_perm_eq bytes_cmp _ _ Hn).
Qed.
Print Assumptions C10_canonical_request_order_independent.

(** The canonical query string does not depend on the order even without the container's
    sorting: it sorts by the encoded pairs. *)
Theorem C10_canonical_query_order_independent q q' :
  q ≡ₚ q' -> canonical_query q = canonical_query q'.
Proof. exact (canonical_query_perm q q'). Qed.
Print Assumptions C10_canonical_query_order_independent.

Theorem C10_presigned_order_independent method path q q' hs hs' names :
  q ≡ₚ q' -> hs ≡ₚ hs' ->
  create_presigned_canonical_request method path (qs_from_pairs q)
    (map_signed_headers (qs_from_pairs hs) names) =
  create_presigned_canonical_request method path (qs_from_pairs q')
    (map_signed_headers (qs_from_pairs hs') names).
Proof.
  intros Hq Hh. unfold qs_from_pairs.
  by rewrite (sort_by_perm_eq pair_cmp _ _ Hq), (sort_by_perm_eq pair_cmp _ _ Hh).
Qed.
Print Assumptions C10_presigned_order_independent.

Example ex_perm : canonical_query [(B "b", B "2"); (B "a", B "1"); (B "a", B "0")] = B "a=0&a=1&b=2".
Proof. vm_compute. reflexivity. Qed.

(** C11: the canonical request determines the request. *)
Definition signed_part (hs : list (bytes * bytes)) : list (bytes * bytes) :=
  List.filter (fun h => negb (bool_decide (h.1 = B "authorization" \/ h.1 = B "user-agent"))) hs.

Lemma kept_signed_part hs : kept_headers hs = signed_part hs.
Proof.
  unfold kept_headers, signed_part. apply List.filter_ext. intros h. f_equal.
  unfold is_skipped_header. apply eq_true_iff_eq.
  by rewrite orb_true_iff, !beq_true, bool_decide_eq_true.
Qed.

Lemma same_payload_of_hash p1 p2 : hashed_payload p1 = hashed_payload p2 -> same_payload p1 p2.
Proof.
  intros H. unfold same_payload.
  assert (forall d1 d2, hex_sha256 d1 = hex_sha256 d2 -> d1 = d2 \/ d1 <> d2 /\ sha256 d1 = sha256 d2) as Hd.
  { intros d1 d2 Hh. destruct (decide (d1 = d2)); [by left|right].
    split; [done|]. by apply to_hex_inj. }
  assert (forall a, head (hashed_payload p1) = Some a -> head (hashed_payload p2) = Some a) as Hhd
    by (intros a; by rewrite H).
  assert (forall a, head (hashed_payload p2) = Some a -> head (hashed_payload p1) = Some a) as Hhd'
    by (intros a; by rewrite H).
  destruct p1 as [| |d1|], p2 as [| |d2|]; auto; try discriminate H;
  try (right; right; eexists _, _; split; [reflexivity|split; [reflexivity|]]; apply Hd;
       cbn [hashed_payload] in H; rewrite ?empty_hash in H; done).
  - pose proof (hashed_payload_head (PlSingleChunk d2) "U" (Hhd _ eq_refl)). done.
  - pose proof (hashed_payload_head (PlSingleChunk d1) "U" (Hhd' _ eq_refl)). done.
  - pose proof (hashed_payload_head (PlSingleChunk d1) "S" (Hhd' _ eq_refl)). done.
  - pose proof (hashed_payload_head (PlSingleChunk d2) "S" (Hhd _ eq_refl)). done.
Qed.

Lemma canonical_common_inj m1 p1 q1 h1 t1 m2 p2 q2 h2 t2 :
  request_ok m1 h1 -> request_ok m2 h2 ->
  m1 ++ [LF] ++ uri_encode false p1 ++ [LF] ++ canonical_query q1 ++ [LF]
    ++ canonical_headers h1 ++ [LF] ++ signed_header_names h1 ++ [LF] ++ t1 =
  m2 ++ [LF] ++ uri_encode false p2 ++ [LF] ++ canonical_query q2 ++ [LF]
    ++ canonical_headers h2 ++ [LF] ++ signed_header_names h2 ++ [LF] ++ t2 ->
  m1 = m2 /\ p1 = p2 /\ q1 ≡ₚ q2 /\ same_signed (signed_part h1) (signed_part h2) /\ t1 = t2.
Proof.
  intros [M1 O1] [M2 O2] H. simpl in H.
  apply app_sep_inj in H as [-> H]; [|done..].
  apply app_sep_inj in H as [Hp H]; [|apply uri_encode_no_LF..].
  apply uri_encode_inj in Hp as ->.
  apply app_sep_inj in H as [Hq H]; [|apply canonical_query_no_LF..].
  apply canonical_query_inj in Hq.
  unfold canonical_headers, signed_header_names in H.
  rewrite !kept_signed_part in H.
  assert (forall hs, (forall h, h ∈ hs -> ":"%char ∉ h.1 /\ LF ∉ h.1 /\ LF ∉ h.2) ->
    Forall header_ok (signed_part hs)) as Hok.
  { intros hs Hhs. rewrite Forall_forall. intros h Hh. apply Hhs.
    unfold signed_part in Hh. rewrite elem_of_list_In, List.filter_In, <- elem_of_list_In in Hh.
    by destruct Hh. }
  apply (header_lines_inj (signed_part h1) (signed_part h2)) in H as [Hs H]; [|by apply Hok..].
  apply same_trim in Hs. rewrite (signed_names_eq _ _ Hs) in H. apply app_inv_head in H.
  injection H as H. repeat split; done.
Qed.

Theorem C11_canonical_request_injective m1 p1 q1 h1 pl1 m2 p2 q2 h2 pl2 :
  request_ok m1 h1 -> request_ok m2 h2 ->
  create_canonical_request m1 p1 q1 h1 pl1 = create_canonical_request m2 p2 q2 h2 pl2 ->
  m1 = m2 /\ p1 = p2 /\ q1 ≡ₚ q2 /\ same_signed (signed_part h1) (signed_part h2) /\
  same_payload pl1 pl2.
Proof.
  intros O1 O2 H. unfold create_canonical_request in H.
  apply canonical_common_inj in H as (? & ? & ? & ? & Hp); [|done..].
  repeat split; try done. by apply same_payload_of_hash.
Qed.
Print Assumptions C11_canonical_request_injective.

(** Presigned requests: everything but the signature parameter itself is bound. *)
Theorem C11_presigned_canonical_request_injective m1 p1 q1 h1 m2 p2 q2 h2 :
  request_ok m1 h1 -> request_ok m2 h2 ->
  create_presigned_canonical_request m1 p1 q1 h1 = create_presigned_canonical_request m2 p2 q2 h2 ->
  m1 = m2 /\ p1 = p2 /\
  filter (fun p => p.1 <> B "X-Amz-Signature") q1 ≡ₚ filter (fun p => p.1 <> B "X-Amz-Signature") q2 /\
  same_signed (signed_part h1) (signed_part h2).
Proof.
  intros O1 O2 H. unfold create_presigned_canonical_request in H.
  apply canonical_common_inj in H as (? & ? & Hq & ? & _); [|done..].
  repeat split; try done.
  assert (forall q : list (bytes * bytes), List.filter (fun p => negb (is_skipped_query_string p.1)) q =
    filter (fun p => p.1 <> B "X-Amz-Signature") q) as Hf.
  { intros q. induction q as [|p q IH]; [done|]. cbn [List.filter]. rewrite filter_cons, IH.
    unfold is_skipped_query_string, beq.
    case_bool_decide; case_decide; simpl; try done. }
  by rewrite <- !Hf.
Qed.
Print Assumptions C11_presigned_canonical_request_injective.

(** A concrete pair of requests meeting the hypotheses, and what the theorem excludes:
    moving a byte from the key into the query changes the canonical request. *)
Definition ex_hs : list (bytes * bytes) :=
  [(B "host", B " examplebucket.s3.amazonaws.com "); (B "range", B "bytes=0-9");
   (B "x-amz-date", B "20130524T000000Z")].
Example ex_request_ok : request_ok (B "GET") ex_hs.
Proof.
  split; [compute_done|]. intros h Hh.
  assert (forallb (fun h => bool_decide (":"%char ∉ h.1) && bool_decide (LF ∉ h.1) && bool_decide (LF ∉ h.2)) ex_hs = true) as H
    by (vm_compute; reflexivity).
  rewrite forallb_Forall, Forall_forall in H. apply H in Hh.
  rewrite !andb_true_iff, !bool_decide_eq_true in Hh. tauto.
Qed.
Example ex_trimmed : trimmed (B " a b ") (B "a b").
Proof. exact (trim_trimmed (B " a b ")). Qed.
Example ex_distinct :
  create_canonical_request (B "GET") (B "/a") [(B "x", B "1")] ex_hs PlEmpty <>
  create_canonical_request (B "GET") (B "/") [(B "ax", B "1")] ex_hs PlEmpty.
Proof. vm_compute. discriminate. Qed.
