(** Lemmas about reading a request and about the pieces of its authentication. *)
From Verif Require Import M_Base M_Crypto M_Utf8 M_Headers M_Http M_Auth M_Service
  S_Path S_Headers S_SigV4 S_Chunked S_Service
  L_Base L_Path L_Headers L_Auth L_Ordered L_SigV4 L_Crypto L_Chunked L_Utf8 L_Service
  T_Ordered T_Canonical T_Chunked.

From Coq Require Import ZifyNat ZifyN ZifyClasses.

(** ** Base64 *)

Lemma digit64_val n c : digit64 n c -> b64std_val c = Some (N.of_nat n).
Proof.
  unfold digit64. intros H.
  assert (n < 64)%nat as Hn by (apply lookup_lt_Some in H; exact H).
  pose proof (ascii_forall (fun c => forallb (fun n =>
    implb (bool_decide (alphabet64 !! n = Some c)) (bool_decide (b64std_val c = Some (N.of_nat n))))
    (seq 0 64))) as HA.
  specialize (HA ltac:(vm_compute; reflexivity) c). cbv beta in HA.
  rewrite forallb_forall in HA. specialize (HA n). rewrite in_seq in HA. specialize (HA ltac:(lia)).
  rewrite (bool_decide_eq_true_2 (alphabet64 !! n = Some c)) in HA by done. cbn [implb] in HA.
  by apply bool_decide_eq_true_1 in HA.
Qed.

Lemma val_digit64 c v : b64std_val c = Some v -> digit64 (N.to_nat v) c /\ (v < 64)%N.
Proof.
  intros H.
  pose proof (ascii_forall (fun c => match b64std_val c with
    | Some v => bool_decide (alphabet64 !! N.to_nat v = Some c) && (v <? 64)%N | None => true end)) as HA.
  specialize (HA ltac:(vm_compute; reflexivity) c). cbv beta in HA. rewrite H in HA.
  apply andb_true_iff in HA as [H1 H2]. apply bool_decide_eq_true_1 in H1. by apply N.ltb_lt in H2.
Qed.

Lemma byte_of n : (n < 256)%nat -> exists a, N.to_nat (N_of_ascii a) = n.
Proof.
  intros H. exists (ascii_of_N (N.of_nat n)). rewrite N_ascii_embedding by lia. by rewrite Nat2N.id.
Qed.

Lemma byte_lt a : (N.to_nat (N_of_ascii a) < 256)%nat.
Proof. pose proof (code_bound a). unfold code in *. lia. Qed.

Lemma eq_not_digit : b64std_val "=" = None.
Proof. by vm_compute. Qed.

Ltac dm := Z.to_euclidean_division_equations; lia.

Lemma base64_spec t : is_base64_encoded t = true <-> exists data, base64 data t.
Proof.
  split.
  - induction t as [t IH] using (induction_ltof1 _ (@length ascii)). unfold ltof in IH.
    destruct t as [|c1 [|c2 [|c3 [|c4 t]]]]; [intros _; exists []; constructor|done|done|done|].
    cbn [is_base64_encoded].
    destruct (b64std_val c1) as [v1|] eqn:E1; [|done].
    destruct (b64std_val c2) as [v2|] eqn:E2; [|done].
    apply val_digit64 in E1 as [D1 L1], E2 as [D2 L2].
    destruct (b64std_val c3) as [v3|] eqn:E3.
    + apply val_digit64 in E3 as [D3 L3].
      destruct (b64std_val c4) as [v4|] eqn:E4.
      * apply val_digit64 in E4 as [D4 L4]. intros H. destruct (IH t) as [data Hd]; [cbn; lia|done|].
        destruct (byte_of (N.to_nat (v1 * 4 + v2 / 16))) as [a Ha]; [zify; dm|].
        destruct (byte_of (N.to_nat (v2 mod 16 * 16 + v3 / 4))) as [b Hb]; [zify; dm|].
        destruct (byte_of (N.to_nat (v3 mod 4 * 64 + v4))) as [c Hc]; [zify; dm|].
        exists (a :: b :: c :: data). apply b64_three; rewrite ?Ha, ?Hb, ?Hc; [..|done].
        -- replace (N.to_nat (v1 * 4 + v2 / 16) / 4)%nat with (N.to_nat v1); [done|]. zify; dm.
        -- replace (N.to_nat (v1 * 4 + v2 / 16) mod 4 * 16 + N.to_nat (v2 mod 16 * 16 + v3 / 4) / 16)%nat
             with (N.to_nat v2); [done|]. zify; dm.
        -- replace (N.to_nat (v2 mod 16 * 16 + v3 / 4) mod 16 * 4 + N.to_nat (v3 mod 4 * 64 + v4) / 64)%nat
             with (N.to_nat v3); [done|]. zify; dm.
        -- replace (N.to_nat (v3 mod 4 * 64 + v4) mod 64)%nat with (N.to_nat v4); [done|]. zify; dm.
      * rewrite !andb_true_iff, aeq_true, N.eqb_eq, beq_true. intros [[-> Hm] ->].
        destruct (byte_of (N.to_nat (v1 * 4 + v2 / 16))) as [a Ha]; [zify; dm|].
        destruct (byte_of (N.to_nat (v2 mod 16 * 16 + v3 / 4))) as [b Hb]; [zify; dm|].
        exists [a; b]. apply b64_two; rewrite ?Ha, ?Hb.
        -- replace (N.to_nat (v1 * 4 + v2 / 16) / 4)%nat with (N.to_nat v1); [done|]. zify; dm.
        -- replace (N.to_nat (v1 * 4 + v2 / 16) mod 4 * 16 + N.to_nat (v2 mod 16 * 16 + v3 / 4) / 16)%nat
             with (N.to_nat v2); [done|]. zify; dm.
        -- replace (N.to_nat (v2 mod 16 * 16 + v3 / 4) mod 16 * 4)%nat with (N.to_nat v3); [done|].
           zify; dm.
    + rewrite !andb_true_iff, !aeq_true, N.eqb_eq, beq_true. intros [[[-> ->] Hm] ->].
      destruct (byte_of (N.to_nat (v1 * 4 + v2 / 16))) as [a Ha]; [zify; dm|].
      exists [a]. apply b64_one; rewrite ?Ha.
      * replace (N.to_nat (v1 * 4 + v2 / 16) / 4)%nat with (N.to_nat v1); [done|]. zify; dm.
      * replace (N.to_nat (v1 * 4 + v2 / 16) mod 4 * 16)%nat with (N.to_nat v2); [done|]. zify; dm.
  - intros [data H]. induction H as [|a c1 c2 x H1 H2|a b c1 c2 c3 x y H1 H2 H3|a b c c1 c2 c3 c4 s t x y z H1 H2 H3 H4 _ IH].
    + done.
    + cbn [is_base64_encoded]. rewrite (digit64_val _ _ H1), (digit64_val _ _ H2), eq_not_digit.
      rewrite !andb_true_iff, N.eqb_eq. repeat split; try done.
      pose proof (byte_lt a). unfold x. zify; dm.
    + cbn [is_base64_encoded]. rewrite (digit64_val _ _ H1), (digit64_val _ _ H2), (digit64_val _ _ H3), eq_not_digit.
      rewrite !andb_true_iff, N.eqb_eq. repeat split; try done. unfold y. zify; dm.
    + cbn [is_base64_encoded].
      by rewrite (digit64_val _ _ H1), (digit64_val _ _ H2), (digit64_val _ _ H3), (digit64_val _ _ H4).
Qed.

(** ** Bodies *)

Lemma to_bytes_spec fs b : to_bytes fs = Some b <-> broken fs = false /\ carried fs = b.
Proof.
  revert b. induction fs as [|[d|] fs IH]; intros b.
  - cbn. split; [intros [= <-]; done|intros [_ <-]; done].
  - cbn [to_bytes carried]. change (broken (FData d :: fs)) with (broken fs).
    destruct (to_bytes fs) as [r|] eqn:E.
    + destruct (proj1 (IH r) eq_refl) as [Hb Hc]. split; [intros [= <-]; by rewrite Hc|].
      intros [_ <-]. by rewrite Hc.
    + split; [done|]. intros [Hb <-].
      assert (None = Some (carried fs)) by (apply IH; done). done.
  - cbn. split; [done|]. by intros [? _].
Qed.

Lemma body_from_carried b : broken (body_from b) = false /\ carried (body_from b) = b.
Proof. destruct b; [done|]. cbn [body_from carried]. by rewrite app_nil_r. Qed.

(** ** Contexts *)

Lemma visible_headers rq :
  (forall h, h ∈ rq_headers rq -> visible h.2) <->
  headers_from_req (rq_headers rq) = Some (qs_from_pairs (rq_headers rq)).
Proof.
  split.
  - intros H. destruct (C08_headers_are_a_sorted_rearrangement _ H) as (o & Ho & ->). done.
  - intros H h Hh. destruct (forallb (fun h => forallb is_visible h.2) (rq_headers rq)) eqn:E.
    + rewrite forallb_forall in E. apply is_visible_spec. apply (E h). by apply elem_of_list_In.
    + unfold headers_from_req in H. by rewrite E in H.
Qed.

Definition params_of (rq : http_request) : list (bytes * bytes) :=
  match rq_query rq with Some q => qs_parse q | None => [] end.

Definition ctx_qs (rq : http_request) : option (list (bytes * bytes)) :=
  match rq_query rq with Some q => Some (qs_from_pairs (qs_parse q)) | None => None end.

Lemma request_path_spec rq p :
  request_path rq p <-> exists uri, decode_uri_path (rq_path rq) = Some uri /\ try_from_path uri = Ok p.
Proof.
  unfold request_path, decode_uri_path. split.
  - intros (uri & ->%unescaped_path & Hu & Ha). exists (pct_decode (rq_path rq)). rewrite Hu.
    split; [done|]. by apply try_from_path_spec.
  - destruct (utf8_valid (pct_decode (rq_path rq))) eqn:E.
    + intros (uri & [= <-] & Ha). exists (pct_decode (rq_path rq)).
      split; [by apply unescaped_path|]. split; [done|]. by apply try_from_path_spec.
    + by intros (uri & [=] & _).
Qed.

Lemma make_ctx_inv sv rq c :
  make_ctx sv rq = Ok c ->
  exists p m, request_path rq p /\ (forall h, h ∈ rq_headers rq -> visible h.2) /\
    extract_mime sv (qs_from_pairs (rq_headers rq)) = Ok m /\
    c = Ctx (rq_method rq) (rq_path rq) (qs_from_pairs (rq_headers rq)) (ctx_qs rq) (rq_body rq) p m None.
Proof.
  unfold make_ctx. destruct (decode_uri_path (rq_path rq)) as [uri|] eqn:Eu; [|done].
  destruct (try_from_path uri) as [p|e] eqn:Ep; [|done].
  destruct (headers_from_req (rq_headers rq)) as [hs|] eqn:Eh; [|done].
  assert (forall h, h ∈ rq_headers rq -> visible h.2) as Hv.
  { apply visible_headers. unfold headers_from_req in *.
    destruct (forallb _ _); [|done]. by injection Eh as <-. }
  assert (hs = qs_from_pairs (rq_headers rq)) as ->
    by (apply visible_headers in Hv; congruence).
  destruct (extract_mime sv (qs_from_pairs (rq_headers rq))) as [m|e] eqn:Em; [|done].
  intros [= <-]. exists p, m. split; [apply request_path_spec; eauto|]. done.
Qed.

Lemma extract_mime_readable sv rq p : readable sv rq p ->
  exists m, extract_mime sv (qs_from_pairs (rq_headers rq)) = Ok m.
Proof.
  intros (_ & _ & Hc). unfold extract_mime.
  destruct (ordered_get _ _) as [t|] eqn:E; [|by eauto].
  apply C08_lookup_sound in E. destruct (Hc t E) as [m ->]. eauto.
Qed.

Lemma make_ctx_readable sv rq p :
  readable sv rq p ->
  exists m, extract_mime sv (qs_from_pairs (rq_headers rq)) = Ok m /\
    make_ctx sv rq =
      Ok (Ctx (rq_method rq) (rq_path rq) (qs_from_pairs (rq_headers rq)) (ctx_qs rq) (rq_body rq) p m None).
Proof.
  intros Hr. destruct (extract_mime_readable sv rq p Hr) as [m Hm]. exists m. split; [done|].
  destruct Hr as ((uri & Hu & Hp)%request_path_spec & Hv & _).
  unfold make_ctx. rewrite Hu, Hp. apply visible_headers in Hv as ->. by rewrite Hm.
Qed.

Lemma mime_content_type sv rq m :
  extract_mime sv (qs_from_pairs (rq_headers rq)) = Ok (Some m) -> content_type sv rq m.
Proof.
  unfold extract_mime. destruct (ordered_get _ _) as [t|] eqn:E; [|done].
  apply C08_lookup_sound in E. destruct (sv_mime sv t) as [m'|] eqn:Em; [|done].
  intros [= ->]. by exists t.
Qed.

(** ** Signed headers *)

Lemma chosen_spec names hs :
  kept_headers (map_signed_headers (qs_from_pairs hs) (sort_names names)) =
  sort_by pair_cmp (chosen names hs).
Proof.
  unfold sort_names. rewrite C09_selection_is_sorted_filter.
  unfold kept_headers, qs_from_pairs. rewrite filter_sort_by. f_equal.
  unfold chosen. induction hs as [|h hs IH]; [done|]. rewrite filter_cons. cbn [List.filter].
  case_bool_decide as E.
  - cbn [List.filter]. unfold is_skipped_header at 1.
    destruct (beq h.1 (B "authorization")) eqn:E1; cbn [orb negb].
    + apply beq_true in E1. rewrite decide_False by naive_solver. done.
    + apply beq_false in E1. destruct (beq h.1 (B "user-agent")) eqn:E2; cbn [orb negb].
      * apply beq_true in E2. rewrite decide_False by naive_solver. done.
      * apply beq_false in E2. rewrite decide_True by naive_solver. by rewrite IH.
  - rewrite decide_False by naive_solver. done.
Qed.

Lemma bsearch_hit {A} (f : A -> comparison) l fuel : forall i j k,
  bsearch f l fuel i j = Some k -> exists x, l !! k = Some x /\ f x = Eq.
Proof.
  induction fuel as [|fuel IH]; [done|]. intros i j k. cbn [bsearch].
  destruct (i <? j)%nat; [|done].
  destruct (l !! (i + (j - i) / 2)%nat) as [x|] eqn:Ex; [|done].
  destruct (f x) eqn:Ef; [|apply IH..].
  intros [= <-]. eauto.
Qed.

(** The headers found when the list of names may be unsorted. *)
Definition found (names : list bytes) (hs : list (bytes * bytes)) : list (bytes * bytes) :=
  kept_headers (map_signed_headers (qs_from_pairs hs) names).

Lemma found_chosen names hs h : h ∈ found names hs -> h ∈ chosen names hs.
Proof.
  unfold found, kept_headers, map_signed_headers. rewrite !elem_of_list_In, !filter_In.
  intros ((Hh & Hs) & Hk). apply elem_of_list_In. unfold chosen. apply elem_of_list_filter.
  split.
  - destruct (binary_search_by _ names) as [i|] eqn:E; [|done].
    apply bsearch_hit in E as (x & Hx & ->%bytes_cmp_eq).
    split; [by eapply elem_of_list_lookup_2|].
    unfold is_skipped_header in Hk. apply negb_true_iff, orb_false_iff in Hk as [H1 H2].
    by apply beq_false in H1, H2.
  - apply elem_of_list_In in Hh. by rewrite (sort_by_perm pair_cmp) in Hh.
Qed.

Lemma found_sorted names hs : sort_by pair_cmp (found names hs) = found names hs.
Proof.
  apply sort_by_id; [apply _|]. unfold found, kept_headers, map_signed_headers.
  apply filter_sorted, filter_sorted, sort_by_sorted. apply _.
Qed.

Lemma found_all names hs : in_order precedes names -> found names hs ≡ₚ chosen names hs.
Proof.
  intros Ho%in_order_names. unfold found.
  assert (names = sort_names names) as Hn by (symmetry; apply sort_by_id; [apply _|done]).
  rewrite Hn at 1. rewrite chosen_spec. apply (sort_by_perm pair_cmp).
Qed.

(** ** Canonical requests over sorted queries *)

Lemma creq_of_perm method path ps ps' hs payload :
  ps ≡ₚ ps' -> creq_of method path ps hs payload = creq_of method path ps' hs payload.
Proof. intros H. unfold creq_of. by rewrite (canonical_query_perm _ _ H). Qed.

Lemma ctx_qs_perm rq : default [] (ctx_qs rq) ≡ₚ params_of rq.
Proof.
  unfold ctx_qs, params_of. destruct (rq_query rq); [|done]. apply (sort_by_perm pair_cmp).
Qed.

Lemma params_of_spec rq ps : query_params (rq_query rq) ps <-> ps = params_of rq.
Proof. apply query_params_spec. Qed.

Lemma cx_query_params rq n v :
  match ctx_qs rq with Some q => ordered_get q n | None => None end = Some v ->
  (n, v) ∈ params_of rq.
Proof.
  unfold ctx_qs, params_of. destruct (rq_query rq) as [q|]; [|done]. apply C08_lookup_sound.
Qed.

Lemma cx_query_none rq n :
  (forall v, (n, v) ∉ params_of rq) ->
  match ctx_qs rq with Some q => ordered_get q n | None => None end = None.
Proof.
  intros H. destruct (match ctx_qs rq with Some q => ordered_get q n | None => None end) as [w|] eqn:E; [|done].
  apply cx_query_params in E. by destruct (H w).
Qed.

Lemma cx_query_only rq n v :
  (n, v) ∈ params_of rq -> (forall v', (n, v') ∈ params_of rq -> v' = v) ->
  match ctx_qs rq with Some q => ordered_get q n | None => None end = Some v.
Proof.
  unfold ctx_qs, params_of. destruct (rq_query rq) as [q|]; [|by intros ?%elem_of_nil].
  apply C08_lookup_unique.
Qed.

(** ** Payload texts *)

Local Opaque sha256.

Lemma payload_text_sound sha body x b :
  content_sha256_from_header_str sha = Some x -> x <> MultipleChunks -> to_bytes body = Some b ->
  payload_text sha body (hashed_payload (payload_of x b)).
Proof.
  unfold content_sha256_from_header_str. intros H Hx (Hb & Hc)%to_bytes_spec.
  destruct (beq sha _) eqn:E1; [apply beq_true in E1 as ->; simplify_eq; by constructor|].
  destruct (beq sha (B "STREAMING-AWS4-HMAC-SHA256-PAYLOAD")) eqn:E2; [by simplify_eq|].
  destruct (is_sha256_checksum sha) eqn:E3; [|done]. injection H as <-.
  unfold is_sha256_checksum in E3. apply andb_true_iff in E3 as [Hl Hd].
  apply pt_hashed; [by apply Nat.eqb_eq| |done|].
  - intros a Ha. rewrite forallb_forall in Hd. specialize (Hd a (proj1 (elem_of_list_In _ _) Ha)).
    revert Hd. clear.
    pose proof (ascii_forall (fun a => implb (is_digit a || in_range "a" "f" a) (bool_decide (a ∈ hex)))) as H.
    specialize (H ltac:(vm_compute; reflexivity) a). cbv beta in H. intros Hd. rewrite Hd in H.
    cbn [implb] in H. by apply bool_decide_eq_true_1 in H.
  - apply hex_text_spec. rewrite Hc. unfold payload_of. destruct b; [|done].
    cbn [hashed_payload]. by rewrite empty_hash.
Qed.

Lemma hex_is a : a ∈ hex -> is_digit a || in_range "a" "f" a = true.
Proof.
  pose proof (ascii_forall (fun a => implb (bool_decide (a ∈ hex)) (is_digit a || in_range "a" "f" a))) as H.
  specialize (H ltac:(vm_compute; reflexivity) a). cbv beta in H. intros Ha.
  rewrite bool_decide_eq_true_2 in H by done. exact H.
Qed.

Lemma hashed_sha sha :
  length sha = 64%nat -> (forall a, a ∈ sha -> a ∈ hex) ->
  content_sha256_from_header_str sha = Some (SingleChunk sha).
Proof.
  intros Hl Hh. unfold content_sha256_from_header_str.
  destruct (beq sha (B "UNSIGNED-PAYLOAD")) eqn:E1; [by apply beq_true in E1 as ->|].
  destruct (beq sha (B "STREAMING-AWS4-HMAC-SHA256-PAYLOAD")) eqn:E2; [by apply beq_true in E2 as ->|].
  assert (is_sha256_checksum sha = true) as ->; [|done].
  unfold is_sha256_checksum. rewrite Hl. apply andb_true_iff. split; [done|].
  apply forallb_Forall, Forall_forall. intros a Ha. by apply hex_is, Hh.
Qed.

Lemma payload_text_complete sha body t :
  payload_text sha body t ->
  (sha = B "STREAMING-AWS4-HMAC-SHA256-PAYLOAD" /\
   content_sha256_from_header_str sha = Some MultipleChunks /\ t = hashed_payload PlMultipleChunks) \/
  (sha <> B "STREAMING-AWS4-HMAC-SHA256-PAYLOAD" /\ broken body = false /\
   exists x, x <> MultipleChunks /\ content_sha256_from_header_str sha = Some x /\
     t = hashed_payload (payload_of x (carried body))).
Proof.
  intros [body' Hb|body'|sha' body' t' Hl Hh Hb Ht].
  - right. split; [done|]. split; [done|]. by exists UnsignedPayload.
  - by left.
  - right. split; [by intros ->|]. split; [done|]. exists (SingleChunk sha').
    split; [done|]. split; [by apply hashed_sha|]. apply hex_text_spec in Ht as ->.
    unfold payload_of. destruct (carried body'); [|done]. cbn [hashed_payload]. by rewrite empty_hash.
Qed.
