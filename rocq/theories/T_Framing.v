(** C82: how the network cuts a body into pieces, and in which of the encodings it is sent, does not
    matter. *)
From Verif Require Import M_Base M_Path M_Headers M_Chunked M_Crypto M_Fs M_Json M_Utf8 M_Storage M_Http M_Auth M_Ops M_Service
  S_Path S_Headers S_Chunked S_Storage S_Store S_Http L_Base L_Headers L_Fs L_Storage L_Scope L_Names L_Json L_Ops
  L_Results L_Path L_Tidy S_Service S_Dispatch S_Calls L_Request T_Chunked T_Store T_Calls T_Http T_Dispatch T_Idempotent T_Auth T_Ordered
  M_Multipart S_Multipart T_Multipart T_Policy.

Local Opaque md5 etag_of json_decode json_encode metadata_name part_name aws_chunked calculate_signature.

(* Two bodies that carry the same bytes, cut in any way; an interruption may come in one only if it
   comes, after the same bytes, in the other. *)
Definition same_frames (b b' : list frame) : Prop := carried b = carried b' /\ broken b = broken b'.

Lemma same_to_bytes b b' : same_frames b b' -> to_bytes b = to_bytes b'.
Proof.
  intros [Hc Hb]. destruct (to_bytes b) as [x|] eqn:E.
  - apply to_bytes_spec in E as [H1 H2]. symmetry. apply to_bytes_spec. by rewrite <- Hb, <- Hc.
  - destruct (to_bytes b') as [y|] eqn:E'; [|done]. apply to_bytes_spec in E' as [H1 H2].
    rewrite <- Hc in H2. rewrite <- Hb in H1. assert (to_bytes b = Some y) by (by apply to_bytes_spec). congruence.
Qed.

(** ** The storage *)

Definition same_put (r r' : s_req) : Prop :=
  match r, r' with
  | RPutObject b k sc len md (Some body), RPutObject b' k' sc' len' md' (Some body') =>
      b' = b /\ k' = k /\ sc' = sc /\ len' = len /\ md' = md /\ same_frames body body'
  | RUploadPart u n (Some body), RUploadPart u' n' (Some body') => u' = u /\ n' = n /\ same_frames body body'
  | _, _ => r' = r
  end.

Lemma same_data body body' : same_frames body body' -> body_data body = body_data body' /\ body_ok body = body_ok body'.
Proof. intros [Hc Hb]. by rewrite !body_data_carried, !body_ok_broken, Hc, Hb. Qed.

Lemma storage_same e r r' s : same_put r r' -> run e (storage e r) s = run e (storage e r') s.
Proof.
  intros H. destruct r, r'; cbn [same_put] in H; try done; try (by rewrite H);
    try (repeat match goal with o : option (list frame) |- _ => destruct o end; try done; by rewrite H).
  - destruct body as [bd|], body0 as [bd'|]; try done; try (by rewrite H).
    destruct H as (-> & -> & -> & -> & -> & Hs). apply same_data in Hs as [Hd Ho]. cbn [storage].
    destruct (storage_class_ok storage_class) eqn:Esc; [|unfold put_object; by rewrite Esc].
    destruct (ends_with_char "/" key) eqn:Es; [unfold put_object; by rewrite Esc, Es|].
    destruct (get_object_path e bucket key) as [p|] eqn:Ep; [|unfold put_object; by rewrite Esc, Es, Ep].
    rewrite !(run_put_written e bucket key _ _ _ _ p s) by done. by rewrite Hd, Ho.
  - destruct body as [bd|], body0 as [bd'|]; try done; try (by rewrite H).
    destruct H as (-> & -> & Hs). apply same_data in Hs as [Hd Ho]. cbn [storage]. unfold upload_part.
    destruct (part_path e upload_id part_number) as [p|]; [|done]. cbn [try_path].
    rewrite !run_try_io, !run_call. destruct (exec e (CCreate p) s) as [s1 [i|]] eqn:E; [|done].
    apply create_file in E as (_ & Hi & _). rewrite !run_try_io, !run_copy_bytes_0 by done. rewrite Hd, Ho.
    by destruct (body_ok bd').
Qed.

(** ** The checks *)

Definition same_ctx (c c' : ctx) : Prop := exists b', c' = with_body c b' /\ same_frames (cx_body c) b'.

Lemma same_ctx_with c b b' : same_frames b b' -> same_ctx (with_body c b) (with_body c b').
Proof. intros H. exists b'. split; [by destruct c|]. by destruct c. Qed.

Lemma stream_same d region secret seed b b' : same_frames b b' ->
  same_frames (frames_of_stream (aws_chunked d region secret seed b)) (frames_of_stream (aws_chunked d region secret seed b')).
Proof.
  intros [Hc Hb]. destruct (C21_framing_independent d region secret seed b b' Hc Hb) as [H1 H2].
  destruct (aws_chunked d region secret seed b) as [ps e], (aws_chunked d region secret seed b') as [ps' e'].
  cbn [fst snd] in *. subst e'. unfold frames_of_stream. cbn [fst snd].
  assert (Hx : forall l f, carried (map FData l ++ match f with SEnd => [] | _ => [FErr] end) = concat l /\
    broken (map FData l ++ match f with SEnd => [] | _ => [FErr] end) = match f with SEnd => false | _ => true end).
  { intros l f. induction l as [|x l [IH1 IH2]]; cbn [map app]; [by destruct f|].
    cbn [carried concat]. by rewrite IH1. }
  destruct (Hx ps e) as [Ha Ha'], (Hx ps' e) as [Hd Hd']. split; congruence.
Qed.

Definition same_result (x x' : result s3_code ctx) : Prop :=
  match x, x' with
  | Ok c, Ok c' => same_ctx c c'
  | Err e, Err e' => e' = e
  | _, _ => False
  end.

Lemma same_header c c' n : same_ctx c c' -> cx_header c' n = cx_header c n.
Proof. intros (b' & -> & _). by destruct c. Qed.
Lemma same_query c c' n : same_ctx c c' -> cx_query c' n = cx_query c n.
Proof. intros (b' & -> & _). by destruct c. Qed.

Lemma header_auth_same sv c c' : same_ctx c c' -> same_result (check_header_auth sv c) (check_header_auth sv c').
Proof.
  intros Hs. pose proof Hs as (b' & Hc' & Hb).
  assert (extract_authorization c' = extract_authorization c /\ extract_content_sha256 c' = extract_content_sha256 c /\
    extract_amz_date c' = extract_amz_date c /\ cx_method c' = cx_method c /\ cx_raw_path c' = cx_raw_path c /\
    cx_qs c' = cx_qs c /\ cx_headers c' = cx_headers c /\ cx_body c' = b') as (H1 & H2 & H3 & H4 & H5 & H6 & H7 & H8).
  { subst c'. by destruct c. }
  unfold check_header_auth. rewrite H1, H2, H3, H4, H5, H6, H7, H8. clear H1 H2 H3 H4 H5 H6 H7.
  destruct (extract_authorization c) as [[a|]|er]; [|by destruct (sv_auth sv)|done].
  destruct (sv_auth sv) as [prov|]; [|done].
  destruct (extract_content_sha256 c) as [[sha|]|er]; [|done|done].
  destruct (prov _) as [secret|er]; [|done].
  destruct (extract_amz_date c) as [[d|]|er]; [|done|done]. cbv zeta.
  rewrite <- (same_to_bytes _ _ Hb).
  destruct sha.
  all: lazymatch goal with
    | |- context [aws_chunked] => destruct (beq _ _); [|done]
    | _ => destruct (to_bytes (cx_body c)) as [x|]; [|done]; destruct (beq _ _); [|done]
    end.
  all: cbn [same_result].
  all: rewrite Hc'; destruct c as [x1 x2 x3 x4 x5 x6 x7 x8]; cbn [with_body cx_method cx_raw_path cx_headers cx_qs cx_body cx_path cx_mime cx_multipart] in *.
  all: try (eexists; split; [done|done]).
  eexists. split; [done|]. cbn [cx_body]. by apply stream_same.
Qed.

Lemma signature_same sv c c' : same_ctx c c' ->
  beq (cx_method c) (B "POST") && match cx_mime c with Some m => mi_form_data m | None => false end = false ->
  same_result (check_signature sv c) (check_signature sv c').
Proof.
  intros Hs Hf. pose proof Hs as (b' & Hc' & Hb).
  assert (cx_method c' = cx_method c /\ cx_mime c' = cx_mime c) as [H1 H2] by (subst c'; by destruct c).
  unfold check_signature. rewrite H1, H2, Hf, (same_query c c') by done.
  destruct (cx_query c _); [|by apply header_auth_same].
  unfold check_presigned_url.
  assert (cx_qs c' = cx_qs c /\ extract_content_sha256 c' = extract_content_sha256 c /\ cx_headers c' = cx_headers c /\
    cx_raw_path c' = cx_raw_path c) as (-> & -> & -> & ->) by (subst c'; by destruct c). rewrite H1.
  destruct (presigned_from_query _); [|done]. destruct (extract_content_sha256 c); [|done].
  destruct (sv_auth sv); [|done]. destruct (_ (access_key_id _)); [|done]. cbv zeta. destruct (beq (calculate_signature _ _ _ _) _); [exact Hs|done].
Qed.

Definition same_front (x x' : front_result) : Prop :=
  match x, x' with
  | FrErr e, FrErr e' => e' = e
  | FrPanic, FrPanic => True
  | FrCall op c r, FrCall op' c' r' => op' = op /\ (forall n, cx_query c' n = cx_query c n) /\ same_put r r'
  | _, _ => False
  end.

Definition same_outcome (x x' : outcome s_req) : Prop :=
  match x, x' with
  | Done r, Done r' => same_put r r'
  | Fail e, Fail e' => e' = e
  | Panic, Panic => True
  | _, _ => False
  end.

Lemma same_put_refl r : same_put r r.
Proof. destruct r; cbn [same_put]; try done; match goal with |- context [match ?o with Some _ => _ | None => _ end] => by destruct o end. Qed.
Lemma same_outcome_refl x : same_outcome x x.
Proof. destruct x; cbn; [apply same_put_refl|done|done]. Qed.

Lemma extract_same sv op c c' : same_ctx c c' -> same_outcome (extract sv op c) (extract sv op c').
Proof.
  intros Hs. pose proof Hs as (b' & Hc' & Hb).
  assert (forall A (parse : bytes -> option A), xml_body parse c' = xml_body parse c) as Hx.
  { intros A parse. unfold xml_body. replace (cx_body c') with b' by (subst c'; by destruct c). by rewrite <- (same_to_bytes _ _ Hb). }
  assert (unwrap_object_path c' = unwrap_object_path c /\ unwrap_bucket_path c' = unwrap_bucket_path c) as [Ho Hbp].
  { subst c'. by destruct c. }
  assert (cx_body c' = b' /\ cx_method c' = cx_method c /\ cx_headers c' = cx_headers c /\ cx_multipart c' = cx_multipart c)
    as (H1 & H2 & H3 & H4) by (subst c'; by destruct c).
  destruct op; cbn [extract];
    rewrite ?Hx, ?Ho, ?Hbp, ?(same_header c c' _ Hs), ?(same_query c c' _ Hs); try apply same_outcome_refl.
  - unfold extract_put. rewrite Ho, Hbp, H1, H2, H3, H4, !(same_header c c' _ Hs).
    destruct (if beq _ _ then _ else _) as [bk|er|]; cbn [obind]; try done.
    destruct (assign _ _) as [len|er|]; cbn [obind]; try done.
    destruct (cx_multipart c); apply same_outcome_refl || (cbn [same_outcome same_put]; by split_and!).
  - rewrite H1. destruct (unwrap_object_path c) as [bk|er|]; cbn [obind]; try done.
    destruct (unwrap _) as [pn|er|]; cbn [obind]; try done.
    destruct (ok_or _ _) as [n|er|]; cbn [obind]; try done.
    destruct (unwrap _) as [u|er|]; cbn [obind]; try done.
    destruct (assign _ _) as [len|er|]; cbn [obind]; try done.
Qed.

Lemma dispatch_same c c' : same_ctx c c' -> dispatch c' = dispatch c.
Proof.
  intros Hs. pose proof Hs as (b' & Hc' & _).
  assert (cx_path c' = cx_path c /\ cx_method c' = cx_method c /\ cx_multipart c' = cx_multipart c) as (H1 & H2 & H3) by (subst c'; by destruct c).
  unfold dispatch. assert (forall op, is_match op c' = is_match op c) as H.
  { intros op. unfold is_match. cbv zeta. by destruct op; rewrite ?H1, ?H2, ?H3, ?(same_header c c' _ Hs), ?(same_query c c' _ Hs). }
  generalize handlers. intros l. induction l as [|op l IH]; [done|]. cbn [find]. by rewrite H, IH.
Qed.

(* The same request with another cut of its body. *)
Definition recut (rq : http_request) (body : list frame) : http_request :=
  HttpRequest (rq_method rq) (rq_path rq) (rq_query rq) (rq_headers rq) body.

Lemma front_same sv rq body : no_form_post sv rq -> same_frames (rq_body rq) body ->
  same_front (front sv rq) (front sv (recut rq body)).
Proof.
  intros Hn Hb. unfold front.
  assert (same_result (make_ctx sv rq) (make_ctx sv (recut rq body)) /\
    forall c, make_ctx sv rq = Ok c ->
      beq (cx_method c) (B "POST") && match cx_mime c with Some m => mi_form_data m | None => false end = false) as [Hm Hf].
  { split.
    - unfold make_ctx, recut. cbn [rq_method rq_path rq_query rq_headers rq_body].
      destruct (decode_uri_path _); [|done]. destruct (try_from_path _); [|done].
      destruct (headers_from_req _) as [hs|]; [|done]. destruct (extract_mime sv hs); [|done].
      cbn [same_result]. by exists body.
    - intros c Hc. apply make_ctx_inv in Hc as (p & m & _ & _ & Hm & ->). by apply (not_form sv rq p m). }
  destruct (make_ctx sv rq) as [c|er], (make_ctx sv (recut rq body)) as [c'|er']; cbn [same_result] in Hm; try done.
  pose proof (signature_same sv c c' Hm (Hf c eq_refl)) as Hg.
  destruct (check_signature sv c) as [d|er], (check_signature sv c') as [d'|er']; cbn [same_result] in Hg; try done.
  pose proof Hg as (b' & Hd' & _).
  assert (cx_path d' = cx_path d /\ cx_method d' = cx_method d /\ cx_multipart d' = cx_multipart d) as (-> & -> & ->) by (subst d'; by destruct d).
  destruct (_ && some _); [done|]. unfold handle_with. rewrite (dispatch_same d d') by done.
  destruct (dispatch d) as [op|]; [|done].
  pose proof (extract_same sv op d d' Hg) as He.
  destruct (extract sv op d), (extract sv op d'); cbn [same_outcome] in He; try done.
  cbn [same_front]. split; [done|]. split; [|done]. intros n. by apply same_query.
Qed.

Lemma respond_same op c c' a : (forall n, cx_query c' n = cx_query c n) -> respond op c' a = respond op c a.
Proof.
  intros Hs. unfold respond. destruct a as [a|er]; [|done]. unfold respond_ok.
  by rewrite !Hs.
Qed.

(** ** The whole exchange *)

(* However the body of a request is cut into pieces, the reply and the effect are the same. *)
Lemma exchange_same e sv rq rq' s : same_front (front sv rq) (front sv rq') -> exchange e sv rq' s = exchange e sv rq s.
Proof.
  intros H.
  destruct (front sv rq) as [er| |op c r] eqn:E, (front sv rq') as [er'| |op' c' r'] eqn:E';
    cbn [same_front] in H; try done.
  - unfold exchange, service. by rewrite E, E', H.
  - unfold exchange, service. by rewrite E, E'.
  - destruct H as (-> & Hs & Hr). rewrite (exchange_call e sv rq s op c r), (exchange_call e sv rq' s op c' r') by done.
    unfold after, answer. rewrite (storage_same e r r' s Hr). f_equal. by rewrite (respond_same op c c').
Qed.

Theorem C82_any_cut e sv rq body s : no_form_post sv rq ->
  carried body = carried (rq_body rq) -> broken body = broken (rq_body rq) ->
  exchange e sv (recut rq body) s = exchange e sv rq s.
Proof.
  intros Hn Hc Hb. apply exchange_same. by apply front_same.
Qed.
Print Assumptions C82_any_cut.

(** ** Forms *)

Definition same_form (m m' : multipart) : Prop :=
  mp_fields m' = mp_fields m /\ same_frames (frames_of_file (mp_stream m)) (frames_of_file (mp_stream m')).

Lemma file_frames m data : concat (mp_stream m).1 = data -> (mp_stream m).2 = FileOk ->
  carried (frames_of_file (mp_stream m)) = data /\ broken (frames_of_file (mp_stream m)) = false.
Proof.
  destruct (mp_stream m) as [ps en]. cbn [fst snd]. intros <- ->. unfold frames_of_file. cbn [fst snd]. rewrite app_nil_r.
  induction ps as [|x ps [IH1 IH2]]; [done|]. cbn [map carried concat]. by rewrite IH1.
Qed.

Lemma form_transforms boundary f trailer fs fs' : form_ok boundary f ->
  carried fs = encode_form boundary f trailer -> carried fs' = carried fs ->
  ~ splits_first_line boundary fs -> ~ splits_first_line boundary fs' ->
  exists m m', transform_multipart boundary fs = Some m /\ transform_multipart boundary fs' = Some m' /\ same_form m m'.
Proof.
  intros Hok Hc Hc' Hn Hn'. destruct (C27_other_framings_accepted _ _ _ _ Hok Hc Hn) as (m & H & H1 & _ & _ & H2 & H3).
  rewrite Hc in Hc'. destruct (C27_other_framings_accepted _ _ _ _ Hok Hc' Hn') as (m' & H' & H1' & _ & _ & H2' & H3').
  exists m, m'. split_and!; [done|done|]. split; [congruence|].
  destruct (file_frames m _ H2 H3), (file_frames m' _ H2' H3'). split; congruence.
Qed.

(* The contexts after the check of a form. *)
Definition same_post (c c' : ctx) : Prop :=
  exists m m', cx_multipart c = Some m /\ c' = with_multipart c m' /\ same_form m m'.

Lemma post_signature_same sv c c' boundary mi m m' :
  cx_mime c = Some mi -> mi_boundary mi = Some boundary ->
  c' = with_body c (cx_body c') -> same_form m m' ->
  transform_multipart boundary (cx_body c) = Some m -> transform_multipart boundary (cx_body c') = Some m' ->
  match check_post_signature sv c, check_post_signature sv c' with
  | Ok d, Ok d' => same_post d d'
  | Err e, Err e' => e' = e
  | _, _ => False
  end.
Proof.
  intros Hmi Hbd Hc' Hm Ht Ht'.
  assert (cx_mime c' = Some mi) as Hmi' by (rewrite Hc'; by destruct c).
  assert (forall n, find_field_value m' n = find_field_value m n) as Hf.
  { intros n. unfold find_field_value. by destruct Hm as [-> _]. }
  unfold check_post_signature. destruct (sv_auth sv) as [prov|]; [|done].
  rewrite Hmi, Hmi', Hbd, Ht, Ht', !Hf.
  do 5 (destruct (find_field_value m _); [|done]).
  destruct (negb _); [done|]. destruct (negb _); [done|].
  destruct (parse_credential _) as [[cr rest]|]; [|done]. destruct (amz_date_from_header_str _); [|done].
  destruct (prov _); [|done]. destruct (beq _ _); [|done].
  exists m, m'. split; [by destruct c|]. split; [|done]. rewrite Hc'. by destruct c.
Qed.

Lemma post_handled sv d d' : same_post d d' -> same_front (handle_with sv d) (handle_with sv d').
Proof.
  intros (m & m' & Hm & Hd' & Hf & Hs).
  assert (forall n, cx_query d' n = cx_query d n) as Hq by (intros n; subst d'; by destruct d).
  assert (forall n, cx_header d' n = cx_header d n) as Hh by (intros n; subst d'; by destruct d).
  assert (cx_multipart d' = Some m' /\ cx_path d' = cx_path d /\ cx_method d' = cx_method d /\ cx_headers d' = cx_headers d /\
    cx_body d' = cx_body d) as (H1 & H2 & H3 & H4 & H5) by (subst d'; by destruct d).
  assert (forall op, is_match op d' = is_match op d) as Hi.
  { intros op. unfold is_match. cbv zeta. by destruct op; rewrite ?H1, ?Hm, ?H2, ?H3, ?Hq, ?Hh. }
  unfold handle_with.
  assert (dispatch d' = dispatch d) as ->.
  { unfold dispatch. generalize handlers. intros l. induction l as [|op l IH]; [done|]. cbn [find]. by rewrite Hi, IH. }
  destruct (dispatch d) as [op|]; [|done].
  assert (same_outcome (extract sv op d) (extract sv op d')) as He.
  { assert (forall A (parse : bytes -> option A), xml_body parse d' = xml_body parse d) as Hx.
    { intros A parse. unfold xml_body. by rewrite H5. }
    assert (unwrap_object_path d' = unwrap_object_path d /\ unwrap_bucket_path d' = unwrap_bucket_path d) as [Ho Hbp].
    { unfold unwrap_object_path, unwrap_bucket_path. by rewrite H2. }
    destruct op; cbn [extract]; rewrite ?Hx, ?Ho, ?Hbp, ?Hq, ?Hh, ?H5; try apply same_outcome_refl.
    unfold extract_put. rewrite Ho, Hbp, H1, H3, H4, Hm, !Hh. cbn [unwrap obind].
    assert (forall n, find_field_value m' n = find_field_value m n) as Hff by (intros n; unfold find_field_value; by rewrite Hf).
    rewrite !Hff, Hf. destruct (if beq _ _ then _ else _) as [bk|er|]; cbn [obind]; try done.
    destruct (assign _ _) as [len|er|]; cbn [obind]; try done. }
  destruct (extract sv op d), (extract sv op d'); cbn [same_outcome] in He; done.
Qed.

(* A form may be cut anywhere but within its first line. *)
Theorem C82_form_cut_partial e sv rq body s boundary f trailer :
  rq_method rq = B "POST" -> (exists m, content_type sv rq m) ->
  (forall m, content_type sv rq m -> mi_form_data m = true /\ mi_boundary m = Some boundary) ->
  form_ok boundary f -> carried (rq_body rq) = encode_form boundary f trailer -> carried body = carried (rq_body rq) ->
  ~ splits_first_line boundary (rq_body rq) -> ~ splits_first_line boundary body ->
  exchange e sv (recut rq body) s = exchange e sv rq s.
Proof.
  intros Hp Hex Hct Hok Hc Hc' Hn Hn'. apply exchange_same.
  destruct (form_transforms _ _ _ _ _ Hok Hc Hc' Hn Hn') as (m & m' & Ht & Ht' & Hm).
  unfold front.
  assert (match make_ctx sv rq, make_ctx sv (recut rq body) with
          | Ok c, Ok c' => c' = with_body c body /\ cx_body c = rq_body rq /\ cx_method c = B "POST" /\
              exists mi, cx_mime c = Some mi /\ mi_form_data mi = true /\ mi_boundary mi = Some boundary
          | Err er, Err er' => er' = er
          | _, _ => False
          end) as Hmk.
  { unfold make_ctx, recut. cbn [rq_method rq_path rq_query rq_headers rq_body].
    destruct (decode_uri_path _); [|done]. destruct (try_from_path _); [|done].
    destruct (headers_from_req _) as [hs|] eqn:Eh; [|done].
    assert (hs = qs_from_pairs (rq_headers rq)) as -> by (unfold headers_from_req in Eh; destruct (forallb _ _); [by injection Eh as <-|done]).
    destruct (extract_mime sv _) as [mi|] eqn:Em; [|done].
    split_and!; try done. destruct mi as [mi|].
    - exists mi. split; [done|]. by apply Hct, mime_content_type.
    - exfalso. destruct Hex as (mi & t & Hin & _). unfold extract_mime in Em.
      destruct (proj1 (C08_lookup_complete (rq_headers rq) (B "content-type")) (ex_intro _ t Hin)) as [v Hv].
      rewrite Hv in Em. by destruct (sv_mime sv v). }
  destruct (make_ctx sv rq) as [c|er], (make_ctx sv (recut rq body)) as [c'|er']; try done.
  destruct Hmk as (Hcc & Hcb & Hcm & mi & Hmi & Hfd & Hbd). unfold check_signature.
  assert (cx_method c' = B "POST" /\ cx_mime c' = Some mi /\ cx_body c' = body) as (Hm' & Hmi' & Hb')
    by (rewrite Hcc; destruct c; by split_and!).
  rewrite Hcm, Hm', Hmi, Hmi', Hfd, beq_refl. cbn [andb].
  rewrite <- Hcb in Ht. rewrite <- Hb' in Ht'.
  assert (c' = with_body c (cx_body c')) as Hcc' by (by rewrite Hb').
  pose proof (post_signature_same sv c c' boundary mi m m' Hmi Hbd Hcc' Hm Ht Ht') as Hps.
  destruct (check_post_signature sv c) as [d|], (check_post_signature sv c') as [d'|]; try done.
  pose proof Hps as (n & n' & Hn1 & Hn2 & _).
  assert (cx_multipart d' = Some n' /\ cx_path d' = cx_path d /\ cx_method d' = cx_method d) as (-> & -> & ->) by (subst d'; by destruct d).
  rewrite Hn1. cbn [some]. destruct (_ && true); [done|]. by apply post_handled.
Qed.
Print Assumptions C82_form_cut_partial.

Definition ex_sent : http_request := ex_post ex_policy ex_policy_sig.
Definition ex_cut : list frame := [FData (take 5 (carried (rq_body ex_sent))); FData (drop 5 (carried (rq_body ex_sent)))].
Definition ex_cut_later : list frame := [FData (take 50 (carried (rq_body ex_sent))); FData (drop 50 (carried (rq_body ex_sent)))].

(* Cut within its first line, a form is refused. *)
Theorem C82_form_cut_refuted : exists e sv rq body s c,
  carried body = carried (rq_body rq) /\ broken body = false /\ broken (rq_body rq) = false /\
  content (exchange e sv rq s).1 [B "bkt"; B "user"; B "eric"; B "x"] = Some (B "content") /\
  exchange e sv (recut rq body) s = (s, Replied (error_response c)).
Proof.
  exists ex_env, ex_form_server, ex_sent, ex_cut, empty_store, InvalidRequest. split_and!; try (vm_compute; reflexivity).
Qed.
Print Assumptions C82_form_cut_refuted.

(** ** Examples *)

Example ex_cut_upload :
  let rq := ex_put_object (B "/bkt/a") [(B "x-amz-meta-owner", B "me")] (B "hello") in
  let body := [FData (B "he"); FData []; FData (B "l"); FData (B "lo")] in
  no_form_post ex_open_server rq /\ carried body = carried (rq_body rq) /\ broken body = broken (rq_body rq) /\
  content (exchange ex_env ex_open_server (recut rq body) empty_store).1 [B "bkt"; B "a"] = Some (B "hello").
Proof. cbv zeta. split_and!; try (by vm_compute). Qed.

Lemma long_first_not_split boundary body fs :
  (length (B "--" ++ boundary ++ CRLF) <? length body)%nat = true -> ~ splits_first_line boundary (FData body :: fs).
Proof.
  intros Hl%Nat.ltb_lt (fs1 & fs2 & t & Hfs & _ & Hne & _ & _ & Heq).
  destruct fs1 as [|fr fs1]; [done|]. injection Hfs as <- Hfs. cbn [carried] in Heq.
  rewrite Heq, !app_length in Hl. lia.
Qed.

Example ex_cut_form :
  form_ok ex_boundary (ex_post_form ex_policy ex_policy_sig) /\
  (forall m, content_type ex_form_server ex_sent m -> mi_form_data m = true /\ mi_boundary m = Some ex_boundary) /\
  (exists m, content_type ex_form_server ex_sent m) /\
  carried (rq_body ex_sent) = encode_form ex_boundary (ex_post_form ex_policy ex_policy_sig) (B "--" ++ CRLF) /\
  carried ex_cut_later = carried (rq_body ex_sent) /\
  ~ splits_first_line ex_boundary (rq_body ex_sent) /\ ~ splits_first_line ex_boundary ex_cut_later /\
  content (exchange ex_env ex_form_server (recut ex_sent ex_cut_later) empty_store).1
    [B "bkt"; B "user"; B "eric"; B "x"] = Some (B "content").
Proof.
  split_and!; [apply ex_post_ok| | | | | | |].
  - by intros m (t & _ & [= <-]).
  - eexists. eexists. split; [by apply elem_of_list_singleton|done].
  - vm_compute. reflexivity.
  - vm_compute. reflexivity.
  - apply long_first_not_split. vm_compute. reflexivity.
  - apply long_first_not_split. vm_compute. reflexivity.
  - vm_compute. reflexivity.
Qed.
