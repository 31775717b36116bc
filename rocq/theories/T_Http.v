(** C59, C60: exchanges with the server as the client sees them. *)
From Verif Require Import M_Base M_Crypto M_Utf8 M_Path M_Headers M_Chunked M_BytesStream M_Fs M_Json M_Storage
  M_Http M_Auth M_Ops M_Service
  S_Path S_Headers S_SigV4 S_Chunked S_Multipart S_Storage S_Store S_Service S_Dispatch S_Calls S_Http
  L_Base L_Path L_Headers L_Auth L_Ordered L_SigV4 L_Crypto L_Chunked L_Utf8 L_Service L_Request
  L_Json L_Fs L_Storage L_Scope L_Names L_Ops L_Results
  T_Headers T_Ordered T_Canonical T_Chunked T_Multipart T_Errors T_Store T_Etag T_Auth T_Presigned T_Policy T_Dispatch T_Calls.

Local Opaque sha256 hmac_sha256 md5 etag_of json_decode json_encode metadata_name part_name.

(** ** From HTTP to the storage *)

Lemma exchange_call e sv rq s op c r : front sv rq = FrCall op c r ->
  exchange e sv rq s = (after e r s, reply_of (respond op c (answer e r s))).
Proof.
  intros Hf. unfold exchange, service. rewrite Hf, run_bind. unfold after, answer.
  by destruct (run e (storage e r) s) as [s' a].
Qed.

Lemma exchange_state e sv rq s :
  (exists op c r, front sv rq = FrCall op c r /\ (exchange e sv rq s).1 = after e r s) \/
  ((forall op c r, front sv rq <> FrCall op c r) /\ (exchange e sv rq s).1 = s).
Proof.
  destruct (front sv rq) as [code| |op c r] eqn:E.
  - right. split; [done|]. unfold exchange, service. by rewrite E.
  - right. split; [done|]. unfold exchange, service. by rewrite E.
  - left. exists op, c, r. split; [done|]. by erewrite exchange_call.
Qed.

(** The success of a request is the success of its call of the storage. *)
Theorem C60_success_is_executed e sv rq s s' resp :
  exchange e sv rq s = (s', Replied resp) -> success resp ->
  exists op c r a, front sv rq = FrCall op c r /\ asks sv rq (cx_body c) (cx_multipart c) op r /\
    answer e r s = Ok a /\ s' = after e r s /\ respond op c (Ok a) = Ok resp.
Proof.
  intros Hx [_ Hs]. destruct (front sv rq) as [code| |op c r] eqn:E.
  - unfold exchange, service in Hx. rewrite E in Hx. injection Hx as <- <-. by destruct (Hs [XText (B "Code") (code_str code)]).
  - unfold exchange, service in Hx. by rewrite E in Hx.
  - rewrite (exchange_call _ _ _ _ _ _ _ E) in Hx. injection Hx as <- Hx.
    destruct (respond op c (answer e r s)) as [resp'|code] eqn:Er.
    + injection Hx as ->. destruct (answer e r s) as [a|code] eqn:Ea; [|done].
      exists op, c, r, a. split; [done|]. split; [by apply C58_called_as_asked|]. done.
    + injection Hx as <-. by destruct (Hs [XText (B "Code") (code_str code)]).
Qed.
Print Assumptions C60_success_is_executed.

(** ** Errors *)

(* The codes that the storage answers with. *)
Definition storage_codes : list s3_code :=
  [InternalError; BucketAlreadyExists; InvalidRequest; NoSuchBucket; NoSuchKey; InvalidRange;
   InvalidStorageClass; IncompleteBody; UnexpectedContent; InvalidPart].

Definition codes_ok {A} (e : env) (m : prog (sres A)) : Prop :=
  forall s s' code, run e m s = (s', Err code) -> code ∈ storage_codes.

Lemma codes_ret e {A} (a : A) : codes_ok e (Ret (Ok a)).
Proof. by intros s s' code. Qed.
Lemma codes_err e {A} code : code ∈ storage_codes -> codes_ok e (Ret (@Err s3_code A code)).
Proof. intros H s s' code'. cbn. by intros [= _ <-]. Qed.
Lemma codes_bind e {A B} (m : prog A) (f : A -> prog (sres B)) : (forall a, codes_ok e (f a)) -> codes_ok e (bind m f).
Proof. intros H s s' code. rewrite run_bind. destruct (run e m s) as [s1 a]. apply H. Qed.
Lemma codes_try_path e {A} o (k : path -> prog (sres A)) : (forall p, codes_ok e (k p)) -> codes_ok e (try_path o k).
Proof. intros H. destruct o; cbn; [apply H|]. apply codes_err. compute_done. Qed.
Lemma codes_try_io e {A B} (m : prog (option A)) (k : A -> prog (sres B)) :
  (forall a, codes_ok e (k a)) -> codes_ok e (try_io m k).
Proof. intros H. unfold try_io. apply codes_bind. intros [a|]; [apply H|]. apply codes_err. compute_done. Qed.
Lemma codes_try_res e {A B} (m : prog (sres A)) (k : A -> prog (sres B)) :
  codes_ok e m -> (forall a, codes_ok e (k a)) -> codes_ok e (try_res m k).
Proof.
  intros Hm H s s' code. rewrite run_try_res. destruct (run e m s) as [s1 [a|c]] eqn:E; [apply H|].
  intros [= -> ->]. by eapply Hm.
Qed.

Create HintDb codes.
Ltac codes_step :=
  first
  [ apply codes_ret | apply codes_err; compute_done
  | apply codes_try_path; intros ? | apply codes_try_io; intros ? | apply codes_try_res; [|intros ?]
  | solve [eauto with codes]
  | apply codes_bind; intros ?
  | match goal with |- codes_ok _ (match ?x with _ => _ end) => destruct x end
  | match goal with |- codes_ok _ (Ret (match ?x with _ => _ end)) => destruct x end ].
Ltac codes := repeat codes_step.

Lemma codes_existing e b ks : codes_ok e (existing_objects e b ks).
Proof. induction ks as [|k ks IH]; cbn [existing_objects]; codes; done. Qed.
Lemma codes_remove e l : codes_ok e (remove_objects l).
Proof. induction l as [|[p k] l IH]; cbn [remove_objects]; codes; done. Qed.
Lemma codes_extent e h r n : codes_ok e (get_extent h r n).
Proof. unfold get_extent. codes. Qed.
Lemma codes_buckets e es : codes_ok e (bucket_entries es).
Proof. induction es as [|[c d] es IH]; cbn [bucket_entries]; codes; done. Qed.
Lemma codes_entries e root prefix dir es : codes_ok e (list_entries root prefix dir es).
Proof. induction es as [|[c d] es IH]; cbn [list_entries]; codes; done. Qed.
Lemma codes_queue e fuel root prefix : forall q, codes_ok e (list_queue fuel root prefix q).
Proof.
  induction fuel as [|fuel IH]; intros [|dir q]; cbn [list_queue]; codes; auto using codes_entries.
Qed.
Lemma codes_parts e u i parts : forall off cnt, codes_ok e (append_parts e u i off cnt parts).
Proof. induction parts as [|[n|] parts IH]; intros off cnt; cbn [append_parts]; codes; auto. Qed.
Global Hint Resolve codes_existing codes_remove codes_extent codes_buckets codes_entries codes_queue codes_parts : codes.

Lemma storage_codes_ok e r : codes_ok e (storage e r).
Proof.
  destruct r; cbn [storage];
  unfold create_bucket, copy_object, delete_bucket, delete_object, delete_objects, get_bucket_location,
    get_object, head_bucket, head_object, list_buckets, list_objects, put_object, create_multipart_upload,
    upload_part, complete_multipart_upload; cbv zeta; codes.
Qed.

(** A refusal by the storage is passed on as an error response with its code. *)
Theorem C60_refusal_is_reported e sv rq s op c r code :
  front sv rq = FrCall op c r -> answer e r s = Err code ->
  exchange e sv rq s = (after e r s, Replied (error_response code)) /\
  (400 <= rs_status (error_response code))%N /\
  rs_body (error_response code) = RbXml (XStack (B "Error") [XText (B "Code") (code_str code)]).
Proof.
  intros Hf Ha. rewrite (exchange_call _ _ _ _ _ _ _ Hf), Ha. split; [done|]. split; [|done].
  assert (Hc : code ∈ storage_codes).
  { unfold answer in Ha. destruct (run e (storage e r) s) as [s' a] eqn:E. cbn in Ha. subst a. by eapply storage_codes_ok. }
  clear - Hc. revert code Hc. apply Forall_forall.
  assert (H : forallb (fun code => 400 <=? rs_status (error_response code))%N storage_codes = true) by (vm_compute; reflexivity).
  rewrite forallb_forall in H. apply List.Forall_forall. intros x Hx. apply N.leb_le. auto.
Qed.
Print Assumptions C60_refusal_is_reported.

(** ** Response headers *)

Lemma hex_value_ok l : header_value_ok (to_hex l) = true.
Proof.
  unfold header_value_ok. induction l as [|a l IH]; [done|].
  change (to_hex (a :: l)) with (hex_digit_lower (code a / 16) :: hex_digit_lower (code a mod 16) :: to_hex l).
  cbn [forallb]. rewrite IH.
  pose proof (ascii_forall (fun a => is_value_token (hex_digit_lower (code a / 16)) && is_value_token (hex_digit_lower (code a mod 16)))) as H.
  specialize (H ltac:(vm_compute; reflexivity) a). cbv beta in H. by apply andb_true_iff in H as [-> ->].
Qed.

Lemma etag_value_ok c : header_value_ok (etag_of c) = true.
Proof.
  with_strategy transparent [etag_of] unfold etag_of. unfold header_value_ok. rewrite !forallb_app.
  pose proof (hex_value_ok (md5 c)) as H. unfold header_value_ok in H. rewrite H. reflexivity.
Qed.

Lemma pretty_go n : forall s, exists ds, B (pretty_N_go n s) = ds ++ B s /\
  forallb is_digit ds = true /\ dec_val ds = n /\ (n <> 0%N -> ds <> []).
Proof.
  induction (N.lt_wf_0 n) as [n _ IH]. intros s.
  destruct (decide (n = 0)%N) as [->|Hn]; [rewrite pretty_N_go_0; by exists []|].
  rewrite pretty_N_go_step by lia.
  destruct (IH (n `div` 10)%N (N.div_lt n 10 ltac:(lia) ltac:(lia)) (String (pretty_N_char (n `mod` 10)) s)) as (ds & H1 & H2 & H3 & _).
  assert (Hd : is_digit (pretty_N_char (n `mod` 10)) = true /\ digit_val (pretty_N_char (n `mod` 10)) = (n `mod` 10)%N).
  { clear H1. pose proof (N.mod_lt n 10 ltac:(done)) as Hlt. generalize dependent (n `mod` 10)%N. clear. intros m Hm.
    assert (m = 0 \/ m = 1 \/ m = 2 \/ m = 3 \/ m = 4 \/ m = 5 \/ m = 6 \/ m = 7 \/ m = 8 \/ m = 9)%N as H by lia.
    repeat (destruct H as [->|H]; [by vm_compute|]). subst m. by vm_compute. }
  exists (ds ++ [pretty_N_char (n `mod` 10)]). split.
  { rewrite H1, <- app_assoc. done. }
  split; [rewrite forallb_app, H2; cbn; by rewrite (proj1 Hd)|]. split; [|by destruct ds].
  rewrite dec_val_snoc, H3, (proj2 Hd). symmetry. apply N.div_mod. done.
Qed.

Lemma num_denotes n : denotes (num n) n.
Proof.
  apply denotes_spec. unfold num, pretty, pretty_N. destruct (decide (n = 0)%N) as [->|Hn]; [done|].
  destruct (pretty_go n "") as (ds & -> & H1 & H2 & H3). rewrite app_nil_r. auto.
Qed.

Lemma num_value_ok n : header_value_ok (num n) = true.
Proof.
  unfold header_value_ok. pose proof (num_denotes n) as (_ & H & _)%denotes_spec.
  rewrite forallb_forall in H |- *. intros a Ha. specialize (H a Ha). revert H.
  pose proof (ascii_forall (fun a => implb (is_digit a) (is_value_token a))) as G.
  specialize (G ltac:(vm_compute; reflexivity) a). cbv beta in G. by destruct (is_digit a), (is_value_token a).
Qed.

(* Metadata that can be sent as headers. *)
Definition presentable (m : metadata) : Prop :=
  NoDup m.*1 /\ Forall (fun p => forallb is_token (B "x-amz-meta-" ++ p.1) = true /\
    map to_lower (B "x-amz-meta-" ++ p.1) = B "x-amz-meta-" ++ p.1 /\
    (N.of_nat (length (B "x-amz-meta-" ++ p.1)) <= 65535)%N /\ header_value_ok p.2 = true) m.

Lemma meta_header_new n hs : (forall h, h ∈ hs -> forall n, h.1 <> B "x-amz-meta-" ++ n) -> forall md : metadata,
  n ∉ md.*1 -> B "x-amz-meta-" ++ n ∉ (hs ++ metadata_headers md).*1.
Proof.
  intros Hhs md Hn. rewrite fmap_app, elem_of_app. intros [H|H].
  - apply elem_of_list_fmap in H as (h & Heq & Hh). by eapply Hhs.
  - unfold metadata_headers in H. rewrite elem_of_list_fmap in H. destruct H as (h & Heq & Hh).
    apply elem_of_list_In, in_map_iff in Hh as (p & <- & Hp). cbn [fst] in Heq. apply app_inv_head in Heq as ->.
    apply Hn. apply elem_of_list_fmap. exists p. split; [done|]. by apply elem_of_list_In.
Qed.

Lemma metadata_headers_set md hs : presentable (default [] md) ->
  (forall h, h ∈ hs -> forall n, h.1 <> B "x-amz-meta-" ++ n) ->
  set_metadata_headers md (Some hs) = Some (hs ++ metadata_headers (default [] md)).
Proof.
  intros [Hnd Hp] Hhs. unfold set_metadata_headers. generalize dependent (default [] md). clear md. intros m Hnd Hp.
  induction m as [|[n v] m IH] using rev_ind; [by rewrite app_nil_r|].
  rewrite fmap_app in Hnd. apply NoDup_app in Hnd as (Hnd & Hdis & _). apply Forall_app in Hp as [Hp Hl].
  rewrite fold_left_app, IH by done. cbn [fold_left]. rewrite Forall_singleton in Hl. destruct Hl as (H1 & H2 & H3 & H4).
  cbn [fst snd] in *. unfold header_name_of. rewrite H1.
  assert (beq (B "x-amz-meta-" ++ n) [] = false) as -> by done. apply N.leb_le in H3. rewrite H3, H2, H4. cbn [andb negb].
  rewrite md_insert_new.
  - unfold metadata_headers. rewrite map_app, app_assoc. done.
  - apply meta_header_new; [done|]. intros Hin. apply (Hdis n); [done|]. cbn. by apply elem_of_list_singleton.
Qed.

(** ** What requests carry *)

Lemma wire_name a : a ∈ name_chars -> is_token a = true /\ to_lower a = a /\ (code a < 128)%N.
Proof.
  revert a. apply Forall_forall.
  assert (forallb (fun a => is_token a && aeq (to_lower a) a && (code a <? 128)%N) name_chars = true) as H by (vm_compute; reflexivity).
  rewrite forallb_Forall in H. eapply Forall_impl; [exact H|]. intros a Ha. cbv beta in Ha.
  apply andb_true_iff in Ha as [[Ha Hl]%andb_true_iff Hc]. apply N.ltb_lt in Hc. by apply aeq_true in Hl.
Qed.

Lemma visible_value v : visible v -> header_value_ok v = true /\ utf8_valid v = true.
Proof.
  intros Hv. split.
  - unfold header_value_ok. apply forallb_forall. intros a Ha%elem_of_list_In. specialize (Hv a Ha).
    unfold is_value_token, code. destruct Hv as [Hv| ->]; [|done].
    rewrite (proj2 (N.leb_le _ _)) by lia. rewrite (proj2 (N.eqb_neq _ 127)) by lia. by rewrite orb_true_r.
  - apply ascii_valid, Forall_forall. intros a Ha. specialize (Hv a Ha). unfold code.
    destruct Hv as [Hv| ->]; [lia|done].
Qed.

Lemma sent_ok rq md : wire rq -> (forall h, h ∈ rq_headers rq -> visible h.2) -> sent_metadata rq md ->
  presentable md /\ metadata_ok md.
Proof.
  intros Hw Hv Hs. destruct md as [|x md]; [split; split; constructor|].
  unfold sent_metadata, user_metadata in Hs. set (m := x :: md) in *. clearbody m. clear x md.
  destruct Hs as (_ & Hnd & Hin & _).
  assert (H : forall p, p ∈ m -> (forallb is_token (B "x-amz-meta-" ++ p.1) = true /\
    map to_lower (B "x-amz-meta-" ++ p.1) = B "x-amz-meta-" ++ p.1 /\
    (N.of_nat (length (B "x-amz-meta-" ++ p.1)) <= 65535)%N /\ header_value_ok p.2 = true) /\
    utf8_valid p.1 = true /\ utf8_valid p.2 = true).
  { intros [n v] Hp. cbn [fst snd]. destruct (Hin n v Hp) as [_ Hh].
    destruct (Hw _ Hh) as (_ & Hlen & Hc). cbn [fst] in *. destruct (visible_value v (Hv _ Hh)) as [Hv1 Hv2].
    split_and!; try done.
    - apply forallb_forall. intros a Ha%elem_of_list_In. by apply wire_name, Hc.
    - rewrite <- (map_id (B "x-amz-meta-" ++ n)) at 2. apply map_ext_in. intros a Ha%elem_of_list_In. by apply wire_name, Hc.
    - apply ascii_valid, Forall_forall. intros a Ha. apply wire_name, Hc, elem_of_app. by right. }
  split; split; try done; apply Forall_forall; intros p Hp; by apply H.
Qed.

Lemma called_entered sv rq op c r : front sv rq = FrCall op c r ->
  entered sv rq c /\ dispatch c = Some op /\ extract sv op c = Done r.
Proof.
  intros Hf. destruct (front_entered sv rq) as [(e & H & _)|(c' & He & H)]; [congruence|].
  rewrite H in Hf. destruct (_ && some _); [done|]. unfold handle_with in Hf.
  destruct (dispatch c') as [op'|] eqn:Ed; [|done]. destruct (extract sv op' c') as [r'| |] eqn:Ex; try done.
  by injection Hf as -> -> ->.
Qed.

Lemma called_delivers sv rq op c r : front sv rq = FrCall op c r -> cx_multipart c = None ->
  broken (cx_body c) = false -> delivers sv rq (carried (cx_body c)).
Proof.
  intros Hf Hm Hb. destruct (sv_auth sv) as [prov|] eqn:Ea.
  - destruct (C12_executed_as_signed sv prov rq op c r Ea Hf) as [_ [H|[H|H]]].
    + destruct H as (a & secret & ts & sha & ps & payload & creq & d & H & Hd & _ & H1 & H2).
      destruct (decide (sha = B "STREAMING-AWS4-HMAC-SHA256-PAYLOAD")) as [->|Hn].
      * right. split; [by destruct H|]. destruct (H2 eq_refl) as (chunks & rest & Hc & Hs & Hcc & Hend).
        destruct (proj1 Hend Hb) as [Hlf Hbr].
        exists prov, a, secret, ts, (B "STREAMING-AWS4-HMAC-SHA256-PAYLOAD"), ps, payload, creq, d, chunks, rest.
        by repeat (split; [done|]).
      * left. destruct (H1 Hn) as [Hbr Hcc]. split; [|by rewrite <- Hbr, Hcc]. left. intros [_ Ho]. apply Hn, Ho. by destruct H.
    + left. destruct H as (Hp & [Hbr Hcc] & _). split; [|by rewrite <- Hbr, Hcc]. right. left.
      destruct Hp as (c' & names & secret & ts & sig & ps & signed & creq & Hp & _). destruct Hp. by exists ps, sig.
    + naive_solver.
  - left. split; [by auto|]. apply called_entered in Hf as ((c0 & Hc0 & Hsig) & _).
    apply make_ctx_inv in Hc0 as (p & m & Hp & Hv & Hmi & ->).
    unfold check_signature, check_post_signature, check_presigned_url, check_header_auth in Hsig.
    rewrite Ea in Hsig. cbv zeta in Hsig.
    repeat (match type of Hsig with match ?x with _ => _ end = _ => destruct x; try discriminate Hsig end).
    injection Hsig as <-. done.
Qed.

Lemma object_request rq b k : request_path rq (PObject b k) -> legal_bucket b.
Proof. intros (uri & _ & _ & H). by inversion H. Qed.

Lemma entered_object sv rq c b k : entered sv rq c -> request_path rq (PObject b k) ->
  cx_method c = rq_method rq /\ cx_path c = PObject b k /\
  (rq_method rq <> B "POST" -> cx_multipart c = None) /\ (forall h, h ∈ rq_headers rq -> visible h.2).
Proof.
  intros He Hp. apply entered_ctx in He as (Hp' & Hm & _ & _ & Hv & mo & _ & Hmp).
  split; [done|]. split; [by eapply request_path_fun|]. split; [|done]. intros Hn.
  apply beq_false in Hn. rewrite Hn in Hmp. by destruct (cx_multipart c).
Qed.

Lemma put_called sv rq b k op c r : front sv rq = FrCall op c r -> puts_object rq b k ->
  exists class len md, op = OpPutObject /\ r = RPutObject b k class len md (Some (cx_body c)) /\
    cx_multipart c = None /\ sent_metadata rq (default [] md) /\ md <> Some [] /\
    (forall h, h ∈ rq_headers rq -> visible h.2).
Proof.
  intros Hf (Hm & Hp & Hu & Hc). pose proof Hf as Hasks%C58_called_as_asked.
  apply called_entered in Hf as (He & Hd & Hx).
  pose proof (entered_has _ _ _ (B "uploadId") He) as H1.
  pose proof (entered_header _ _ _ (B "x-amz-copy-source") He) as H2.
  destruct (entered_object _ _ _ _ _ He Hp) as (Hm' & Hp' & Hmp & Hv).
  specialize (Hmp ltac:(rewrite Hm; discriminate)).
  assert (op = OpPutObject) as ->.
  { unfold dispatch, handlers in Hd. cbn [find] in Hd. unfold is_match in Hd. rewrite Hm', Hm, Hp', Hmp in Hd.
    destruct (some (cx_query c (B "uploadId"))); [done|]. destruct (some (cx_header c (B "x-amz-copy-source"))); [done|].
    destruct (some (cx_query c (B "partNumber"))); vm_compute in Hd; by injection Hd. }
  inversion Hasks as [ | | | | | | | | | | | |b' k' class len md Hform Hp2 Hcl Hlen Hmd| | | |]; subst;
    [|congruence].
  pose proof (request_path_fun _ _ _ Hp Hp2) as [= <- <-].
  exists class, len, md. split; [done|]. split; [done|]. split; [done|].
  unfold sent_metadata. destruct md as [[|x m]|]; cbn [default]; [by destruct Hmd| |]; split_and!; done.
Qed.

Lemma get_called sv rq b k : accepted sv rq -> gets_object rq b k -> ~ has_header rq (B "range") ->
  exists c, front sv rq = FrCall OpGetObject c (RGetObject b k None).
Proof.
  intros (op & c & r & Hf) (Hm & Hp) Hr. exists c. rewrite Hf. pose proof Hf as Hasks%C58_called_as_asked.
  apply called_entered in Hf as (He & Hd & Hx).
  destruct (entered_object _ _ _ _ _ He Hp) as (Hm' & Hp' & _).
  assert (op = OpGetObject) as ->.
  { unfold dispatch, handlers in Hd. cbn [find] in Hd. unfold is_match in Hd. rewrite Hm', Hm, Hp' in Hd.
    vm_compute in Hd. by injection Hd. }
  inversion Hasks as [ | | | | | | | |b' k' range Hp2 Hr2| | | | | | | |]; subst.
  pose proof (request_path_fun _ _ _ Hp Hp2) as [= <- <-]. destruct range as [v|]; [|done]. destruct Hr. by exists v.
Qed.

Lemma head_called sv rq b k : accepted sv rq -> heads_object rq b k ->
  exists c, front sv rq = FrCall OpHeadObject c (RHeadObject b k).
Proof.
  intros (op & c & r & Hf) (Hm & Hp). exists c. rewrite Hf. pose proof Hf as Hasks%C58_called_as_asked.
  apply called_entered in Hf as (He & Hd & Hx).
  destruct (entered_object _ _ _ _ _ He Hp) as (Hm' & Hp' & _).
  assert (op = OpHeadObject) as ->.
  { unfold dispatch, handlers in Hd. cbn [find] in Hd. unfold is_match in Hd. rewrite Hm', Hm, Hp' in Hd.
    vm_compute in Hd. by injection Hd. }
  inversion Hasks as [ | | | | | | | | |b' k' Hp2| | | | | | |]; subst.
  by pose proof (request_path_fun _ _ _ Hp Hp2) as [= <- <-].
Qed.

(** ** Sequences of requests *)

Lemma harmless_all e b k xs : Forall (harmless b k) xs ->
  exists rs, Forall plain_req rs /\ Forall (fun r => ~ affects r b k) rs /\
    forall s, after_requests e xs s = after_all e rs s.
Proof.
  induction 1 as [|[sv rq] xs Hx _ (rs & H1 & H2 & H3)]; [by exists []|].
  destruct (front sv rq) as [code| |op c r] eqn:E.
  - exists rs. split_and!; try done. intros s. cbn [after_requests]. rewrite <- H3. f_equal.
    unfold exchange, service. cbn [fst snd]. by rewrite E.
  - exists rs. split_and!; try done. intros s. cbn [after_requests]. rewrite <- H3. f_equal.
    unfold exchange, service. cbn [fst snd]. by rewrite E.
  - destruct (Hx op c r E) as [Hp Ha]. exists (r :: rs). split; [by constructor|]. split; [by constructor|].
    intros s. cbn [after_requests after_all]. rewrite H3. cbn [fst snd]. by erewrite exchange_call.
Qed.

(* What a successful upload leaves behind. *)
Lemma stored e s b k class len md body a rs : wf s -> intact s -> legal_bucket b -> ordinary k ->
  (forall m, md = Some m -> metadata_ok m) -> (is_Some md \/ fs_nodes s !! [metadata_name b k] = None) ->
  answer e (RPutObject b k class len md (Some body)) s = Ok a ->
  Forall plain_req rs -> Forall (fun r => ~ affects r b k) rs ->
  let s2 := after_all e rs (after e (RPutObject b k class len md (Some body)) s) in
  a = APut (Some (etag_of (carried body))) /\ broken body = false /\
  exists p i, get_object_path e b k = Some p /\ e_os_ok e p = true /\ fs_nodes s2 !! p = Some (NFile i) /\
    data_of s2 i = carried body /\ meta_of e s2 b k = Some md.
Proof.
  intros Hwf Hi Hb Hk Hm Hn Hans Hrs Ha s2.
  destruct (ordinary_located k b Hk) as [p Hl].
  set (r := RPutObject b k class len md (Some body)) in *. set (s1 := after e r s) in *.
  assert (Hrun : run e (put_object e b k class len md (Some body)) s = (s1, Ok a)).
  { unfold s1, after. unfold answer in Hans. cbn [storage] in *. rewrite <- Hans. by destruct (run e _ s). }
  assert (Hwf1 : wf s1) by by apply wf_after.
  destruct (put_ok e b k class len md (Some body) p s s1 a Hwf (legal_bucket_segment _ Hb) Hl Hrun)
    as (fs & [= <-] & Hbr & -> & Hc & Hos & Hmeta).
  split; [done|]. split; [done|].
  destruct (unaffected_all e rs s1 b k p Hwf1 Hrs Hb Hl Ha) as (Hwf2 & Hc2 & Hn2 & Hm2).
  fold s2 in Hwf2, Hc2, Hn2, Hm2. rewrite Hc in Hc2. apply content_Some in Hc2 as (i & Hni & Hd).
  exists p, i. split; [apply located_path; [by apply legal_bucket_segment|done]|].
  split; [done|]. split; [done|]. split; [done|].
  unfold meta_of. destruct md as [m|].
  - destruct (Hmeta m eq_refl) as [Hosm Hcm]. rewrite Hosm. cbn [andb]. rewrite Hcm in Hm2.
    pose proof (content_Some _ _ _ Hm2) as (j & Hj & _). rewrite bool_decide_true by by rewrite Hj.
    rewrite Hm2. by rewrite json_round_trip by by apply Hm.
  - destruct Hn as [[? ?]|Hn]; [done|].
    assert (Hpl : plain_req r) by by split_and!.
    assert (fs_nodes s1 !! [metadata_name b k] = None) as Hn1.
    { pose proof (storage_untouched e r s Hwf) as Hu. destruct (plain_meta_dirs e r b k Hpl) as [H3 H4].
      assert (H2 : ~ r_files e r [metadata_name b k]).
      { intros HF. apply (plain_meta e r b k Hpl) in HF. destruct HF as (_ & _ & [? ?]). done. }
      rewrite <- Hn. apply Hu; auto. }
    rewrite Hn2, Hn1. rewrite bool_decide_false by by intros [? ?]. by rewrite andb_false_r.
Qed.

Lemma get_response c h off lim len md tag : presentable (default [] md) -> header_value_ok tag = true ->
  respond OpGetObject c (Ok (AGet h off lim len md tag)) =
  Ok (Response 200 ([(B "content-length", num len); (B "etag", tag)] ++ metadata_headers (default [] md)) (RbFile h off lim)).
Proof.
  intros Hp Ht. cbn [respond respond_ok]. unfold set_header at 2. rewrite num_value_ok. unfold set_header. rewrite Ht.
  change (md_insert (B "etag") tag (md_insert (B "content-length") (num len) [])) with
    [(B "content-length", num len); (B "etag", tag)].
  rewrite metadata_headers_set; [done|done|].
  intros h' [->|[->|H%elem_of_nil]%elem_of_cons]%elem_of_cons n; done.
Qed.

Lemma head_response c size md : presentable (default [] md) ->
  respond OpHeadObject c (Ok (AHead size md)) =
  Ok (Response 200 ([(B "content-length", num size); (B "content-type", B "application/octet-stream")] ++
        metadata_headers (default [] md)) RbEmpty).
Proof.
  intros Hp. cbn [respond respond_ok]. unfold set_header at 2. rewrite num_value_ok. unfold set_header.
  change (md_insert (B "content-type") (B "application/octet-stream") (md_insert (B "content-length") (num size) [])) with
    [(B "content-length", num size); (B "content-type", B "application/octet-stream")].
  change (header_value_ok (B "application/octet-stream")) with true. cbv iota.
  rewrite metadata_headers_set; [done|done|].
  intros h' [->|[->|H%elem_of_nil]%elem_of_cons]%elem_of_cons n; done.
Qed.

(** C59: a client that has stored an object by an HTTP request gets it back by HTTP requests:
    the same bytes, their length and MD5 tag, the metadata headers.  The other requests in between
    may be anything that does not write this object. *)
Theorem C59_upload_download e sv rq s s1 resp b k others :
  wf s -> intact s -> ordinary k -> puts_object rq b k -> wire rq ->
  exchange e sv rq s = (s1, Replied resp) -> success resp ->
  (exists n v, n <> [] /\ (B "x-amz-meta-" ++ n, v) ∈ rq_headers rq) \/ fs_nodes s !! [metadata_name b k] = None ->
  Forall (harmless b k) others ->
  exists data md, delivers sv rq data /\ sent_metadata rq md /\
    resp = Response 200 [(B "etag", quoted_md5 data)] RbEmpty /\
    ((N.of_nat (length data) <= i64_max)%N ->
     let s2 := after_requests e others s1 in
     exists t, denotes t (N.of_nat (length data)) /\
     (forall sv' rq', accepted sv' rq' -> gets_object rq' b k -> ~ has_header rq' (B "range") ->
        exists hs body, exchange e sv' rq' s2 = (s2, Replied (Response 200 hs body)) /\ streams s2 body data /\
          hs ≡ₚ [(B "content-length", t); (B "etag", quoted_md5 data)] ++ metadata_headers md) /\
     (forall sv' rq', accepted sv' rq' -> heads_object rq' b k ->
        exists hs, exchange e sv' rq' s2 = (s2, Replied (Response 200 hs RbEmpty)) /\
          hs ≡ₚ [(B "content-length", t); (B "content-type", B "application/octet-stream")] ++ metadata_headers md)).
Proof.
  intros Hwf Hi Hk Hput Hw Hx Hs Hn Ho.
  destruct (C60_success_is_executed _ _ _ _ _ _ Hx Hs) as (op & c & r & a & Hf & _ & Ha & -> & Hresp).
  destruct (put_called _ _ _ _ _ _ _ Hf Hput) as (class & len & md & -> & -> & Hmp & Hsent & Hne & Hv).
  pose proof (object_request _ _ _ (proj1 (proj2 Hput))) as Hb.
  destruct (sent_ok _ _ Hw Hv Hsent) as [Hpres Hok].
  assert (Hmd : forall m, md = Some m -> metadata_ok m) by by intros m ->.
  assert (Hn' : is_Some md \/ fs_nodes s !! [metadata_name b k] = None).
  { destruct Hn as [(n & v & Hnn & Hin)|Hn]; [|by auto]. left. destruct md as [m|]; [by eexists|].
    exfalso. apply Hnn. by eapply Hsent. }
  destruct (harmless_all e b k others Ho) as (rs & Hr1 & Hr2 & Hr3).
  destruct (stored e s b k class len md (cx_body c) a rs) as (-> & Hbr & p & i & Hp & Hos & Hni & Hd & Hm); try done.
  exists (carried (cx_body c)), (default [] md). split; [by eapply called_delivers|]. split; [done|].
  assert (Hq : etag_of (carried (cx_body c)) = quoted_md5 (carried (cx_body c))) by
    (with_strategy transparent [etag_of] unfold etag_of; done).
  split.
  { cbn [respond respond_ok set_header] in Hresp. rewrite etag_value_ok, Hq in Hresp. by injection Hresp as <-. }
  intros Hlen. cbv zeta. rewrite Hr3. set (s2 := after_all _ _ _) in *.
  assert (Hfl : file_len s2 i = N.of_nat (length (carried (cx_body c)))) by (unfold file_len; by rewrite Hd).
  exists (num (N.of_nat (length (carried (cx_body c))))). split; [apply num_denotes|]. split.
  - intros sv' rq' Hacc Hget Hrange. destruct (get_called _ _ _ _ Hacc Hget Hrange) as (c' & Hf').
    rewrite (exchange_call _ _ _ _ _ _ _ Hf').
    destruct (gets_file e s2 b k p i None None 0 (file_len s2 i) md) as (h & off & lim & Hans & Hbody); try done.
    { by rewrite Hfl. }
    assert (Hrun : after e (RGetObject b k None) s2 = s2).
    { unfold after. cbn [storage]. by rewrite (run_get_file e b k None p i s2 Hp Hos Hni). }
    rewrite Hrun, Hans, get_response by (done || apply etag_value_ok). cbn [reply_of].
    rewrite Hd, Hq, Hfl. do 2 eexists. split; [done|]. split; [|done].
    exists h, off, lim. split; [done|]. intros sched Hsch. specialize (Hbody sched Hsch).
    rewrite Hfl, Hd, Nat2N.id in Hbody. rewrite drop_0, take_ge in Hbody by done. done.
  - intros sv' rq' Hacc Hhead. destruct (head_called _ _ _ _ Hacc Hhead) as (c' & Hf').
    rewrite (exchange_call _ _ _ _ _ _ _ Hf').
    assert (Hrun : run e (storage e (RHeadObject b k)) s2 = (s2, Ok (AHead (file_len s2 i) md))).
    { cbn [storage]. rewrite (run_head_file e b k p i s2 Hp Hos Hni), Hm. rewrite Hfl.
      by rewrite (proj2 (N.leb_le _ _)). }
    unfold after, answer. rewrite Hrun. cbn [fst snd]. rewrite head_response by done. cbn [reply_of].
    rewrite Hfl. eexists. by split.
Qed.
Print Assumptions C59_upload_download.

(** ** Successful calls give successful responses *)

Definition yields {A} (e : env) (P : A -> Prop) (m : prog (sres A)) : Prop :=
  forall s s' a, run e m s = (s', Ok a) -> P a.

Lemma yields_ret e {A} (P : A -> Prop) a : P a -> yields e P (Ret (Ok a)).
Proof. intros H s s' a'. cbn. by intros [= _ <-]. Qed.
Lemma yields_err e {A} (P : A -> Prop) code : yields e P (Ret (Err code)).
Proof. by intros s s' a'. Qed.
Lemma yields_bind e {A B} (P : B -> Prop) (m : prog A) (f : A -> prog (sres B)) :
  (forall a, yields e P (f a)) -> yields e P (bind m f).
Proof. intros H s s' a. rewrite run_bind. destruct (run e m s) as [s1 a1]. apply H. Qed.
Lemma yields_try_path e {A} (P : A -> Prop) o k : (forall p, yields e P (k p)) -> yields e P (try_path o k).
Proof. intros H. destruct o; cbn; [apply H|apply yields_err]. Qed.
Lemma yields_try_io e {A B} (P : B -> Prop) (m : prog (option A)) (k : A -> prog (sres B)) :
  (forall a, yields e P (k a)) -> yields e P (try_io m k).
Proof. intros H. unfold try_io. apply yields_bind. intros [a|]; [apply H|apply yields_err]. Qed.
Lemma yields_try_res e {A B} (P : B -> Prop) (m : prog (sres A)) (k : A -> prog (sres B)) :
  (forall a, yields e P (k a)) -> yields e P (try_res m k).
Proof. intros H. unfold try_res. apply yields_bind. intros [a|c]; [apply H|apply yields_err]. Qed.

(* The tags of answers can be sent in headers. *)
Definition tags_ok (a : s_ans) : Prop :=
  match a with
  | AGet _ _ _ _ _ t | APart t | APut (Some t) => header_value_ok t = true
  | _ => True
  end.

Ltac yields_step :=
  first
  [ apply yields_err | apply yields_ret; first [exact I | apply etag_value_ok]
  | apply yields_try_path; intros ? | apply yields_try_io; intros ? | apply yields_try_res; intros ?
  | apply yields_bind; intros ?
  | match goal with |- yields _ _ (match ?x with _ => _ end) => destruct x end
  | match goal with |- yields _ _ (Ret (match ?x with _ => _ end)) => destruct x end ].

Lemma get_tags e b k range : yields e tags_ok (get_object e b k range).
Proof.
  unfold get_object. destruct (get_object_path e b k) as [p|] eqn:Hp; [|apply yields_err]. cbn [try_path].
  destruct range as [str|]; [destruct (range_from_header_str str); [|apply yields_err]|];
  (apply yields_bind; intros [h|]; [|apply yields_err];
   apply yields_try_io; intros n; apply yields_try_res; intros ol; apply yields_try_io; intros md;
   intros s s' a; rewrite run_try_io, (run_get_md5 _ _ _ _ _ Hp);
   destruct (e_os_ok e p); [|done]; destruct (content s p); [|done];
   cbn [fmap option_fmap option_map]; destruct (_ <=? _)%N; [|done]; intros [= _ <-]; apply etag_value_ok).
Qed.

Lemma storage_tags e r : yields e tags_ok (storage e r).
Proof.
  destruct r; cbn [storage]; try apply get_tags;
  unfold create_bucket, copy_object, delete_bucket, delete_object, delete_objects, get_bucket_location,
    head_bucket, head_object, list_buckets, list_objects, put_object, create_multipart_upload,
    upload_part, complete_multipart_upload; cbv zeta; repeat yields_step.
Qed.

Lemma storage_shape e r : yields e (fun a => match a with
    | AGet _ _ _ _ _ _ => exists b k x, r = RGetObject b k x
    | AHead _ _ => exists b k, r = RHeadObject b k
    | _ => True
    end) (storage e r).
Proof.
  destruct r; cbn [storage];
  try match goal with |- context [get_object] => idtac | |- context [head_object] => idtac | _ =>
    unfold create_bucket, copy_object, delete_bucket, delete_object, delete_objects, get_bucket_location,
      head_bucket, list_buckets, list_objects, put_object, create_multipart_upload,
      upload_part, complete_multipart_upload; cbv zeta; repeat yields_step end.
  - intros s s' a H. assert (match a with AGet _ _ _ _ _ _ => True | _ => False end) as Hs; [|destruct a; try done; eauto].
    revert s s' a H. fold (yields e (fun a => match a with AGet _ _ _ _ _ _ => True | _ => False end) (get_object e bucket key range)).
    unfold get_object. repeat yields_step.
  - intros s s' a H. assert (match a with AHead _ _ => True | _ => False end) as Hs; [|destruct a; try done; eauto].
    revert s s' a H. fold (yields e (fun a => match a with AHead _ _ => True | _ => False end) (head_object e bucket key)).
    unfold head_object. repeat yields_step.
Qed.

(* Metadata that can be sent in headers. *)
Definition sendable (m : metadata) : Prop :=
  forall n v, (n, v) ∈ m -> (N.of_nat (length n) <= 65524)%N /\
    (forall a, a ∈ n -> a ∈ name_chars ++ LETTERS) /\
    (forall a, a ∈ v -> (32 <= N_of_ascii a /\ N_of_ascii a <> 127)%N \/ a = "009"%char).
(* The metadata in an answer. *)
Definition answered_metadata (a : s_ans) : metadata :=
  match a with
  | AGet _ _ _ _ (Some m) _ | AHead _ (Some m) => m
  | _ => []
  end.

Lemma token_char a : is_token a = true <-> a ∈ name_chars ++ LETTERS.
Proof.
  pose proof (ascii_forall (fun a => eqb (is_token a) (bool_decide (a ∈ name_chars ++ LETTERS)))) as H.
  specialize (H ltac:(vm_compute; reflexivity) a). cbv beta in H. apply eqb_prop in H. rewrite H. apply bool_decide_eq_true.
Qed.
Lemma value_char a : is_value_token a = true <-> (32 <= N_of_ascii a /\ N_of_ascii a <> 127)%N \/ a = "009"%char.
Proof.
  unfold is_value_token, code. rewrite orb_true_iff, andb_true_iff, negb_true_iff, N.eqb_eq, N.leb_le, N.eqb_neq.
  split; [|intros [?| ->]; auto]. intros [H|H]; [|by auto]. right.
  rewrite <- (ascii_N_embedding a), H. done.
Qed.

Lemma sendable_iff m : sendable m <->
  Forall (fun p => is_Some (header_name_of (B "x-amz-meta-" ++ p.1)) /\ header_value_ok p.2 = true) m.
Proof.
  rewrite Forall_forall. unfold sendable.
  assert (H : forall n v : bytes, is_Some (header_name_of (B "x-amz-meta-" ++ n)) /\ header_value_ok v = true <->
    (N.of_nat (length n) <= 65524)%N /\ (forall a, a ∈ n -> a ∈ name_chars ++ LETTERS) /\
    (forall a, a ∈ v -> (32 <= N_of_ascii a /\ N_of_ascii a <> 127)%N \/ a = "009"%char)).
  { intros n v. unfold header_name_of, header_value_ok. rewrite forallb_app.
    change (forallb is_token (B "x-amz-meta-")) with true. cbn [andb].
    assert (beq (B "x-amz-meta-" ++ n) [] = false) as -> by done. cbn [negb]. rewrite andb_true_r, app_length.
    change (length (B "x-amz-meta-")) with 11.
    assert (Hn : forallb is_token n = true <-> (forall a, a ∈ n -> a ∈ name_chars ++ LETTERS)).
    { rewrite forallb_forall. setoid_rewrite <- elem_of_list_In. by setoid_rewrite token_char. }
    assert (Hv : forallb is_value_token v = true <-> (forall a, a ∈ v -> (32 <= N_of_ascii a /\ N_of_ascii a <> 127)%N \/ a = "009"%char)).
    { rewrite forallb_forall. setoid_rewrite <- elem_of_list_In. by setoid_rewrite value_char. }
    rewrite <- Hn, <- Hv. destruct (forallb is_token n); cbn [andb].
    - destruct (N.leb_spec (N.of_nat (11 + length n)) 65535); split.
      + intros [_ ?]. split_and!; [lia|done|done].
      + intros (_ & _ & ?). split; [by eexists|done].
      + intros [[? ?] _]. done.
      + intros [? _]. lia.
    - split; [by intros [[? ?] _]|by intros (_ & ? & _)]. }
  split.
  - intros Hs [n v] Hp. apply H, Hs, Hp.
  - intros Hs n v Hp. by apply H, (Hs (n, v)).
Qed.

Lemma set_metadata_some m : forall hs,
  is_Some (set_metadata_headers (Some m) (Some hs)) <-> sendable m.
Proof.
  intros hs. rewrite sendable_iff. unfold set_metadata_headers. change (default [] (Some m)) with m.
  match goal with |- context [fold_left ?f _ _] => set (F := f) end.
  assert (Hnone : forall l, fold_left F l None = None) by (induction l; done).
  assert (HF : forall hs n v, F (Some hs) (n, v) = match header_name_of (B "x-amz-meta-" ++ n) with
    | Some n' => if header_value_ok v then Some (md_insert n' v hs) else None | None => None end) by done.
  clearbody F. revert hs. induction m as [|[n v] m IH]; intros hs; [split; [by constructor|by eexists]|].
  cbn [fold_left]. rewrite Forall_cons.
  rewrite HF. cbn [fst snd].
  destruct (header_name_of _) as [n'|]; [|rewrite Hnone; split; [by intros [? ?]|by intros [[[? ?] _] _]]].
  destruct (header_value_ok v); [|rewrite Hnone; split; [by intros [? ?]|by intros [[_ ?] _]]].
  rewrite IH. split; [|by intros [_ ?]]. intros ?. split; [|done]. by split; [eexists|].
Qed.

(** C60: a call that the storage completes is reported as a success, unless the object's
    metadata cannot be written in headers. *)
Theorem C60_completion_is_reported e sv rq s op c r a :
  front sv rq = FrCall op c r -> answer e r s = Ok a ->
  exists resp, exchange e sv rq s = (after e r s, Replied resp) /\
    (sendable (answered_metadata a) -> success resp) /\
    (~ sendable (answered_metadata a) -> resp = error_response InternalError).
Proof.
  intros Hf Ha. rewrite (exchange_call _ _ _ _ _ _ _ Hf), Ha. unfold reply_of, respond.
  assert (Ht : tags_ok a).
  { unfold answer in Ha. destruct (run e (storage e r) s) as [s' a'] eqn:E. cbn in Ha. subst a'. by eapply storage_tags. }
  cut (match respond_ok op c a with
       | Ok resp => success resp /\ sendable (answered_metadata a)
       | Err code => code = InternalError /\ ~ sendable (answered_metadata a)
       end).
  { destruct (respond_ok op c a) as [resp|code]; [intros [H ?]; by exists resp; auto|]. intros [-> H]. eexists. by split. }
  assert (Hop : match a with AGet _ _ _ _ _ _ => op = OpGetObject | AHead _ _ => op = OpHeadObject | _ => True end).
  { assert (Hsh : match a with AGet _ _ _ _ _ _ => exists b k x, r = RGetObject b k x
                       | AHead _ _ => exists b k, r = RHeadObject b k | _ => True end).
    { unfold answer in Ha. destruct (run e (storage e r) s) as [s' a'] eqn:E. cbn in Ha. subst a'. by eapply (storage_shape e r). }
    apply C58_called_as_asked in Hf. destruct a; try done.
    - destruct Hsh as (b & k & x & ->). by inversion Hf.
    - destruct Hsh as (b & k & ->). by inversion Hf. }
  clear Hf Ha.
  assert (HX : forall st hs n l, (200 <= st < 300)%N -> n <> B "Error" -> success (Response st hs (RbXml (XStack n l)))).
  { intros st hs n l Hst Hn. split; [done|]. intros l' [= E _]. by apply Hn. }
  assert (HT : forall st hs n l, (200 <= st < 300)%N -> success (Response st hs (RbXml (XText n l)))) by done.
  assert (HE : forall st hs, (200 <= st < 300)%N -> success (Response st hs RbEmpty)) by done.
  assert (HM : forall md hs b, (forall l, b <> RbXml l) -> match wrap (set_metadata_headers md (Some hs)) 200 b with
       | Ok resp => success resp /\ sendable (default [] md)
       | Err code => code = InternalError /\ ~ sendable (default [] md)
       end).
  { intros md hs b Hb.
    assert (Hmd : set_metadata_headers md (Some hs) = set_metadata_headers (Some (default [] md)) (Some hs)) by done.
    rewrite Hmd. pose proof (set_metadata_some (default [] md) hs) as Hs.
    destruct (set_metadata_headers _ _) as [hs'|]; cbn [wrap].
    - split; [|by apply Hs; eexists]. split; [done|]. intros l. apply Hb.
    - split; [done|]. intros H%Hs. by destruct H. }
  assert (HG : forall h off lim len md t, header_value_ok t = true ->
    match wrap (set_metadata_headers md (set_header (B "etag") (Some t)
                (set_header (B "content-length") (Some (num len)) (Some [])))) 200 (RbFile h off lim) with
    | Ok resp => success resp /\ sendable (default [] md)
    | Err code => code = InternalError /\ ~ sendable (default [] md)
    end).
  { intros h off lim len md t Htag. unfold set_header at 2. rewrite num_value_ok. unfold set_header. rewrite Htag. by apply HM. }
  assert (HH : forall size md,
    match wrap (set_metadata_headers md (set_header (B "content-type") (Some (B "application/octet-stream"))
                (set_header (B "content-length") (Some (num size)) (Some [])))) 200 RbEmpty with
    | Ok resp => success resp /\ sendable (default [] md)
    | Err code => code = InternalError /\ ~ sendable (default [] md)
    end).
  { intros size md. unfold set_header at 2. rewrite num_value_ok. by apply HM. }
  assert (HA : forall h off lim len md t, answered_metadata (AGet h off lim len md t) = default [] md) by by intros ? ? ? ? [].
  assert (HB : forall size md, answered_metadata (AHead size md) = default [] md) by by intros ? [].
  assert (HN : sendable []) by by intros n v ?%elem_of_nil.
  destruct a; try (subst op; cbn [respond_ok]; first [rewrite HA; by apply HG|rewrite HB; apply HH]).
  all: cbn [answered_metadata] in *; destruct op; cbn [respond_ok]; unfold xml_response;
    first [ split; [by apply HE|done] | split; [by apply HT|done] | split; [by apply HX|done] | idtac ].
  all: try (destruct etag as [|]; [cbn [tags_ok] in Ht; unfold set_header; rewrite Ht|]; cbn [wrap set_header]; split; [by apply HE|done|by apply HE|done]).
  all: try (cbn [tags_ok] in Ht; unfold set_header; rewrite ?Ht; cbn [wrap]; split; [by apply HE|done]).
Qed.
Print Assumptions C60_completion_is_reported.

(** ** Where it fails *)

(* The replies to a sequence of requests. *)
Fixpoint replies (e : env) (xs : list (server * http_request)) (s : fs) : list reply :=
  match xs with
  | [] => []
  | x :: xs' => (exchange e x.1 x.2 s).2 :: replies e xs' (exchange e x.1 x.2 s).1
  end.

Definition ex_form_with (n v : bytes) : http_request :=
  HttpRequest (B "POST") (B "/bkt") None [(B "content-type", B "multipart/form-data; boundary=9431149156168")]
    [FData (encode_form ex_boundary
       (Form ((n, v) :: f_fields (ex_post_form ex_policy ex_policy_sig)) (B "file") (B "x.txt") (B "text/plain") (B "content"))
       (B "--" ++ CRLF))].
Definition ex_get_object (path : bytes) : http_request := HttpRequest (B "GET") path None [] [].
Definition ex_put_object (path : bytes) (hs : list (bytes * bytes)) (body : bytes) : http_request :=
  HttpRequest (B "PUT") path None hs [FData body].

Lemma pair_of_snd {A C} (x : A * C) y : x.2 = y -> x = (x.1, y).
Proof. by destruct x; intros <-. Qed.

(** C62: a form may name metadata so that the object, stored successfully, cannot be
    downloaded. *)
Theorem C62_form_metadata_refuted : exists e sv rq s s1 resp sv' rq',
  exchange e sv rq s = (s1, Replied resp) /\ success resp /\
  content s1 [B "bkt"; B "user"; B "eric"; B "x"] = Some (B "content") /\
  gets_object rq' (B "bkt") (B "user/eric/x") /\ accepted sv' rq' /\
  exchange e sv' rq' s1 = (s1, Replied (error_response InternalError)).
Proof.
  exists ex_env, ex_form_server, (ex_form_with (B "x-amz-meta-a b") (B "v")), empty_store.
  exists (exchange ex_env ex_form_server (ex_form_with (B "x-amz-meta-a b") (B "v")) empty_store).1.
  exists (Response 200 [(B "etag", quoted_md5 (B "content"))] RbEmpty).
  exists ex_open_server, (ex_get_object (B "/bkt/user/eric/x")).
  split; [|split; [|split; [|split; [|split]]]].
  - apply pair_of_snd. vm_compute. reflexivity.
  - by split.
  - vm_compute. reflexivity.
  - split; [done|]. apply request_path_spec. eexists. split; vm_compute; reflexivity.
  - assert (called (front ex_open_server (ex_get_object (B "/bkt/user/eric/x"))) =
      Some (OpGetObject, RGetObject (B "bkt") (B "user/eric/x") None)) as H by (vm_compute; reflexivity).
    unfold called in H. destruct (front _ _) as [| |op c r] eqn:E; try done. by exists op, c, r.
  - apply injective_projections; vm_compute; reflexivity.
Qed.
Print Assumptions C62_form_metadata_refuted.

(** C62: an upload without metadata gives the object the metadata of its predecessor. *)
Theorem C62_stale_metadata_refuted : exists e sv rq s s1 resp sv' rq' hs body,
  intact s /\ exchange e sv rq s = (s1, Replied resp) /\ success resp /\ puts_object rq (B "bkt") (B "k") /\
  sent_metadata rq [] /\ gets_object rq' (B "bkt") (B "k") /\
  exchange e sv' rq' s1 = (s1, Replied (Response 200 hs body)) /\ (B "x-amz-meta-owner", B "me") ∈ hs.
Proof.
  pose (put := ex_put_object (B "/bkt/k") [(B "x-amz-meta-owner", B "me")] (B "one")).
  pose (s := (exchange ex_env ex_open_server put empty_store).1).
  exists ex_env, ex_open_server, (ex_put_object (B "/bkt/k") [] (B "two")), s.
  exists (exchange ex_env ex_open_server (ex_put_object (B "/bkt/k") [] (B "two")) s).1.
  exists (Response 200 [(B "etag", quoted_md5 (B "two"))] RbEmpty), ex_open_server, (ex_get_object (B "/bkt/k")).
  exists [(B "content-length", B "3"); (B "etag", quoted_md5 (B "two")); (B "x-amz-meta-owner", B "me")], (RbFile (HFile 0) 0 3).
  split; [|split; [|split; [|split; [|split; [|split; [|split]]]]]].
  - assert (called (front ex_open_server put) = Some (OpPutObject, RPutObject (B "bkt") (B "k") None None
      (Some [(B "owner", B "me")]) (Some [FData (B "one")]))) as H by (vm_compute; reflexivity).
    unfold called in H. destruct (front _ _) as [| |op c r] eqn:E; try done. apply (f_equal (fun o => match o with Some x => x.2 | None => r end)) in H.
    cbn [snd] in H. unfold s. rewrite (exchange_call _ _ _ _ _ _ _ E), H. apply intact_after; [apply wf_empty|apply intact_empty|].
    split; [apply check_bucket_name_spec; by vm_compute|]. split; [exists [B "k"]; by split_and!; try compute_done|]. intros m [= <-]. by split; compute_done.
  - apply pair_of_snd. vm_compute. reflexivity.
  - by split.
  - split; [done|]. split; [apply request_path_spec; eexists; split; vm_compute; reflexivity|].
    split; [|by intros [? ?%elem_of_nil]]. intros (ps & v & ->%query_params_spec & ?%elem_of_nil). done.
  - intros n v H%elem_of_nil. done.
  - split; [done|]. apply request_path_spec. eexists. split; vm_compute; reflexivity.
  - apply injective_projections; vm_compute; reflexivity.
  - compute_done.
Qed.
Print Assumptions C62_stale_metadata_refuted.

(** ** Examples *)

Example ex_upload_download :
  let put := ex_put_object (B "/bkt/a%20b") [(B "x-amz-meta-owner", B "me")] (B "hello") in
  let other := ex_put_object (B "/bkt/other") [] (B "x") in
  let s2 := after_requests ex_env [(ex_open_server, put); (ex_open_server, other)] empty_store in
  replies ex_env [(ex_open_server, put); (ex_open_server, other); (ex_open_server, ex_get_object (B "/bkt/a%20b"));
                  (ex_open_server, HttpRequest (B "HEAD") (B "/bkt/a%20b") None [] [])] empty_store =
    [Replied (Response 200 [(B "etag", quoted_md5 (B "hello"))] RbEmpty);
     Replied (Response 200 [(B "etag", quoted_md5 (B "x"))] RbEmpty);
     Replied (Response 200 [(B "content-length", B "5"); (B "etag", quoted_md5 (B "hello")); (B "x-amz-meta-owner", B "me")]
       (RbFile (HFile 0) 0 5));
     Replied (Response 200 [(B "content-length", B "5"); (B "content-type", B "application/octet-stream");
       (B "x-amz-meta-owner", B "me")] RbEmpty)] /\
  carried (get_body s2 (HFile 0) 0 5 []) = B "hello".
Proof. cbv zeta. split; vm_compute; reflexivity. Qed.

Example ex_hypotheses :
  let put := ex_put_object (B "/bkt/a%20b") [(B "x-amz-meta-owner", B "me")] (B "hello") in
  puts_object put (B "bkt") (B "a b") /\ wire put /\ ordinary (B "a b") /\
  harmless (B "bkt") (B "a b") (ex_open_server, ex_put_object (B "/bkt/other") [] (B "x")) /\
  delivers ex_open_server put (B "hello") /\ sent_metadata put [(B "owner", B "me")].
Proof.
  cbv zeta. split; [|split; [|split; [|split; [|split]]]].
  - split; [done|]. split; [apply request_path_spec; eexists; split; vm_compute; reflexivity|].
    split; [intros (ps & v & ->%query_params_spec & ?%elem_of_nil); done|].
    intros [v H%elem_of_list_singleton%pair_equal_spec]. by destruct H.
  - intros h ->%elem_of_list_singleton. cbn [fst]. split; [done|]. split; [by vm_compute|]. apply Forall_forall. compute_done.
  - exists [B "a b"]. by split_and!; try compute_done.
  - intros op c r H.
    assert (called (front ex_open_server (ex_put_object (B "/bkt/other") [] (B "x"))) =
      Some (OpPutObject, RPutObject (B "bkt") (B "other") None None None (Some [FData (B "x")]))) as H' by (vm_compute; reflexivity).
    cbn [fst snd] in H. rewrite H in H'. unfold called in H'. apply (f_equal (fun o => match o with Some x => x.2 | None => r end)) in H'.
    cbn [snd] in H'. rewrite H'. split; [|intros [_ ?]; done].
    split; [apply check_bucket_name_spec; by vm_compute|]. split; [exists [B "other"]; by split_and!; try compute_done|]. done.
  - left. split; [by right; right|done].
  - split; [done|]. split; [compute_done|]. split.
    + intros n v [-> ->]%elem_of_list_singleton%pair_equal_spec. split; [done|]. by apply elem_of_list_singleton.
    + intros n v H%elem_of_list_singleton%pair_equal_spec _. destruct H as [H _].
      apply (app_inv_head (B "x-amz-meta-") n (B "owner")) in H as ->. by left.
Qed.
