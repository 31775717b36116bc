(** C104: all names in the store are text. *)
From Verif Require Import M_Base M_Path M_Headers M_Chunked M_Multipart M_BytesStream M_Crypto M_Fs M_Json M_Utf8 M_Storage M_Errors M_Http M_Auth M_Ops M_Service
  S_Path S_Headers S_Storage S_Store S_Utf8 S_Service S_Dispatch S_Calls S_Http S_Names L_Base L_Utf8 L_Fs L_Scope L_Storage L_Names L_Results L_Tidy L_Request
  L_MapOps T_Store T_Utf8 T_Auth T_Calls T_Http T_Concurrent T_Listing T_Buckets.

Local Opaque md5 etag_of json_decode json_encode metadata_name part_name.

(** ** Where names come from *)

Lemma path_text rq p : request_path rq p ->
  match p with PRoot => True | PBucket b => utf8_valid b = true | PObject b k => utf8_valid b = true /\ utf8_valid k = true end.
Proof.
  intros (uri & _ & Hu & Ha). inversion Ha; subst; [done|by apply text_bucket|by apply text_bucket|].
  split; [by apply text_bucket|].
  rewrite !app_assoc, text_app in Hu; [done|]. apply Forall_app. split; [apply Forall_app; split|].
  - by apply plain_ascii_Forall.
  - by apply legal_bucket_ascii.
  - by apply plain_ascii_Forall.
Qed.

Lemma param_text rq n v : given_param rq n (Some v) -> utf8_valid v = true.
Proof.
  intros (ps & ->%params_of_spec & Hin). unfold params_of in Hin. destruct (rq_query rq) as [q|]; [|by apply elem_of_nil in Hin].
  unfold qs_parse in Hin. apply elem_of_list_fmap in Hin as (x & Hx & _). unfold qs_piece in Hx.
  destruct (split_once "=" x) as [[a b]|]; [|by injection Hx as -> ->].
  assert (v = qs_decode b) as -> by congruence. apply C76_valid_exactly, C76_lossy_text.
Qed.

Definition text_field (f : bytes * bytes) : Prop := utf8_valid f.1 = true /\ utf8_valid f.2 = true.

Lemma quoted_text key l v rest : quoted key l = Some (v, rest) -> utf8_valid v = true.
Proof.
  unfold quoted. destruct (strip_prefix key l) as [l1|]; [|done]. destruct (span _ l1) as [w l2]. destruct w as [|a w]; [done|].
  destruct (utf8_valid (a :: w)) eqn:E; [|done]. destruct l2; [done|]. by intros [= <- _].
Qed.
Lemma disposition_text l n f : parse_content_disposition l = Some (n, f) -> utf8_valid n = true.
Proof.
  unfold parse_content_disposition. destruct (strip_prefix _ l) as [l1|]; [|done].
  destruct (quoted _ l1) as [[name l2]|] eqn:E; [|done]. apply quoted_text in E. intros H.
  assert (n = name) as -> by (revert H; repeat (match goal with |- context [match ?x with _ => _ end] => destruct x end; try done); congruence). done.
Qed.

Lemma parts_text fuel pat : forall slice fields fs n ct rest,
  parts_loop fuel pat slice fields = TDone fs n ct rest -> Forall text_field fields ->
  Forall text_field fs.
Proof.
  induction fuel as [|fuel IH]; intros slice fields fs n ct rest H Hf; [done|]. cbn [parts_loop] in H.
  destruct (parse_headers 2 slice) as [| |hs slice1]; [done|done|].
  destruct (find_header _ hs) as [cd|]; [|done]. destruct (parse_content_disposition cd) as [[name [fn|]]|] eqn:Ecd; [| |done].
  - destruct (find_header _ hs) as [ct'|]; [|done]. destruct (utf8_valid ct'); [|done]. by injection H as <- _ _ _.
  - destruct (split_to pat slice1) as [[b slice2]|]; [|done].
    destruct (utf8_valid (take (length b - 2) b)) eqn:E; [|done]. eapply IH; [exact H|]. apply Forall_app. split; [done|]. constructor; [|done]. split; [by eapply disposition_text|done].
Qed.

Lemma form_text boundary fs : forall buf m, transform_loop boundary buf fs = Some m -> Forall text_field (mp_fields m).
Proof.
  induction fs as [|[b|] fs IH]; intros buf m H; [done| |done]. cbn [transform_loop] in H.
  destruct (try_parse boundary (buf ++ b)) as [| |fields n ct rest] eqn:E; [by eapply IH|done|]. injection H as <-. cbn [mp_fields].
  unfold try_parse in E. destruct (next_line (buf ++ b)) as [[[|a line] slice1]|]; [| |done].
  - destruct (next_line slice1) as [[line slice2]|]; [|done]. destruct (beq line _); [|done]. by eapply parts_text; [exact E|].
  - destruct (beq (a :: line) _); [|done]. by eapply parts_text; [exact E|].
Qed.

Lemma checked_form sv c c1 m : check_signature sv c = Ok c1 -> cx_multipart c = None -> cx_multipart c1 = Some m ->
  Forall text_field (mp_fields m).
Proof.
  unfold check_signature, check_post_signature, check_presigned_url, check_header_auth.
  repeat (match goal with |- context [match ?x with _ => _ end = _] => let E := fresh in destruct x eqn:E end; try done);
    intros [= <-] Hn; cbn [with_body with_multipart cx_multipart]; intros Hm; try congruence.
  injection Hm as <-. by eapply form_text.
Qed.

Lemma front_checked sv rq op c r : front sv rq = FrCall op c r ->
  (forall h, h ∈ rq_headers rq -> visible h.2) /\
  forall m, cx_multipart c = Some m -> Forall text_field (mp_fields m).
Proof.
  unfold front. destruct (make_ctx sv rq) as [c0|] eqn:E0; [|done]. apply make_ctx_inv in E0 as (p & mi & _ & Hv & _ & ->).
  destruct (check_signature sv _) as [c1|] eqn:E1; [|done]. destruct (_ && _); [done|]. unfold handle_with.
  destruct (dispatch c1) as [op'|]; [|done]. destruct (extract sv op' c1) as [r'| |]; [|done|done]. intros [= _ <- _].
  split; [done|]. intros m Hm. by eapply checked_form; [exact E1| |exact Hm].
Qed.

(** C104, part 1: the names in every request that reaches the storage are UTF-8: buckets, keys, prefixes,
    upload ids and sources of copies, from URLs, parameters, headers, forms and documents. *)
Theorem C104_requests sv rq op c r : reads_text sv -> front sv rq = FrCall op c r -> text_req r.
Proof.
  intros Hsv Hf. destruct (front_checked _ _ _ _ _ Hf) as [Hv Hm]. apply C58_called_as_asked in Hf.
  assert (Hparam : forall n o, given_param rq n o -> forall y, o = Some y -> utf8_valid y = true).
  { intros n o Ho y ->. by eapply param_text. }
  destruct Hf; cbn [text_req]; try (by (match goal with H : request_path _ _ |- _ => apply path_text in H end; eauto)).
  - done.
  - match goal with H : request_path _ _ |- _ => apply path_text in H end. split; [done|].
    eapply Forall_impl; [by eapply Hsv|]. intros k Hk. by apply C76_valid_exactly.
  - match goal with H : request_path _ _ |- _ => apply path_text in H end. split; [|done].
    match goal with H : (_, src) ∈ _ |- _ => apply Hv in H; by apply visible_value in H as [_ ?] end.
  - match goal with H : request_path _ _ |- _ => apply path_text in H end. split; [done|].
    match goal with H : field_value _ (B "key") k |- _ => destruct H as (xs & n & ys & E & _) end.
    specialize (Hm m ltac:(done)). rewrite E in Hm. by apply Forall_app in Hm as [_ [[_ ?] _]%Forall_cons].
  - match goal with H : request_path _ _ |- _ => apply path_text in H as [? ?] end. split_and!; [done|done|]. by eapply param_text.
Qed.
Print Assumptions C104_requests.

(** ** Metadata *)

Lemma lower_high a : (128 <= code a)%N -> to_lower a = a.
Proof. intros H. unfold to_lower. destruct (is_upper a) eqn:E; [|done]. exfalso. revert H E. destruct a as [[] [] [] [] [] [] [] []]; vm_compute; try done; by intros H. Qed.
Lemma lower_low a : (code a < 128)%N -> (code (to_lower a) < 128)%N.
Proof. destruct a as [[] [] [] [] [] [] [] []]; vm_compute; done. Qed.

Lemma high_byte n : (128 <= n < 256)%N -> to_lower (ascii_of_N n) = ascii_of_N n.
Proof. intros H. apply lower_high. unfold code. rewrite N_ascii_embedding by lia. lia. Qed.

Lemma lower_text l : utf8_valid l = true -> utf8_valid (map to_lower l) = true.
Proof.
  intros (cs & Hcs & ->)%C76_valid_exactly. unfold encode_text.
  induction Hcs as [|c cs Hc _ IH]; [done|]. cbn [map concat]. rewrite map_app.
  destruct (N.ltb_spec c 128) as [Hl|Hl].
  - unfold encode_scalar. rewrite (proj2 (N.ltb_lt c 128)) by done. cbn [map app utf8_valid].
    rewrite (proj2 (N.ltb_lt _ _)); [done|]. apply lower_low. unfold code. rewrite N_ascii_embedding by lia. done.
  - assert (map to_lower (encode_scalar c) = encode_scalar c) as ->; [|by rewrite valid_scalar].
    assert (Hm : forall x, (x mod 64 < 64)%N) by (intros x; by apply N.mod_lt).
    unfold encode_scalar. rewrite (proj2 (N.ltb_ge c 128)) by done. unfold scalar in Hc.
    assert (c < 2048 -> c / 64 < 32)%N by (intros; apply N.div_lt_upper_bound; lia).
    assert (c < 65536 -> c / 4096 < 16)%N by (intros; apply N.div_lt_upper_bound; lia).
    assert (c / 262144 < 5)%N by (apply N.div_lt_upper_bound; lia).
    pose proof (Hm c). pose proof (Hm (c / 64)%N). pose proof (Hm (c / 4096)%N).
    generalize dependent (c / 262144)%N. generalize dependent ((c / 4096) mod 64)%N. generalize dependent ((c / 64) mod 64)%N.
    generalize dependent (c mod 64)%N. generalize dependent (c / 4096)%N. generalize dependent (c / 64)%N. intros.
    destruct (N.ltb_spec c 2048); [|destruct (N.ltb_spec c 65536)]; cbn [map]; by rewrite !high_byte by lia.
Qed.

Lemma meta_text pairs md : (forall n v, (B "x-amz-meta-" ++ n, v) ∈ pairs -> utf8_valid n = true /\ utf8_valid v = true) ->
  user_metadata pairs (Some md) -> metadata_ok md.
Proof.
  intros Hp (_ & Hnd & Hin & _). split; [done|]. apply Forall_forall. intros [n v] H. destruct (Hin n v H) as [_ Hi]. by apply Hp.
Qed.

(** C104, part 2: the metadata that a request asks to be stored is text, under different names. *)
Theorem C104_metadata sv rq op c b k class len md frames : wire rq ->
  front sv rq = FrCall op c (RPutObject b k class len (Some md) frames) -> metadata_ok md.
Proof.
  intros Hw Hf. destruct (front_checked _ _ _ _ _ Hf) as [Hv Hm]. apply C58_called_as_asked in Hf.
  assert (Hhead : forall md', user_metadata (rq_headers rq) (Some md') -> metadata_ok md').
  { intros md'. apply meta_text. intros n v Hh. destruct (visible_value v (Hv _ Hh)) as [_ Hv2]. split; [|done].
    apply ascii_valid, Forall_forall. intros a Ha. destruct (Hw _ Hh) as (_ & _ & Hc). apply wire_name, Hc, elem_of_app. by right. }
  inversion Hf; subst; [by apply Hhead|].
  match goal with H : cx_multipart c = Some ?m |- _ => specialize (Hm m H) end.
  destruct field_md as [fm|]; unfold overridden in *.
  - assert (fm = md) as -> by congruence. eapply meta_text; [|eassumption]. intros n v Hin.
    apply elem_of_list_fmap in Hin as ([n' v'] & Heq & Hin). rewrite Forall_forall in Hm. destruct (Hm _ Hin) as [H1 H2]. cbn [fst snd] in *.
    assert (v = v') as -> by congruence. split; [|done]. apply lower_text in H1.
    assert (map to_lower n' = B "x-amz-meta-" ++ n) as Hn by congruence. rewrite Hn, text_app in H1; [done|]. by apply plain_ascii_Forall.
  - apply Hhead. congruence.
Qed.
Print Assumptions C104_metadata.

(** ** Executions *)

Lemma step_new e {A} (m : prog A) C s s' m' : creates C m -> step e s m s' m' ->
  creates C m' /\ forall p, is_Some (fs_nodes s' !! p) -> is_Some (fs_nodes s !! p) \/ (C p /\ e_os_ok e p = true).
Proof.
  intros Hm Hs. split.
  - destruct m as [a|R c k]; [done|]. pose proof (creates_cont _ _ _ Hm) as Hk. cbn [step] in Hs.
    destruct (exec e c s) as [s1 r]. by destruct Hs as [[= -> ->]|[= -> ->]].
  - eapply creates_steps; [exact Hm|]. eapply steps_step; [exact Hs|apply steps_refl].
Qed.

Lemma psteps_wf e {A} s (ms : list (prog A)) s' ms' : psteps e s ms s' ms' -> wf s -> wf s'.
Proof. induction 1 as [|s ms i m s1 m1 s2 ms2 Hi H1 Hst IH]; [done|]. intros Hwf. apply IH. by eapply wf_step. Qed.

Lemma psteps_tidy e {A} s (ms : list (prog A)) s' ms' :
  Forall (creates (fun p => Forall segment_ok p /\ Forall (fun c => utf8_valid c = true) p)) ms ->
  psteps e s ms s' ms' -> tidy e s -> tidy e s'.
Proof.
  intros Hms Hst. induction Hst as [|s ms i m s1 m1 s2 ms2 Hi H1 Hst IH]; [done|]. intros Ht.
  destruct (step_new e m _ s s1 m1 (Forall_lookup_1 _ _ _ _ Hms Hi) H1) as [Hc Hn].
  apply IH; [by apply Forall_insert|]. intros p Hp. destruct (Hn p Hp) as [H|[[? ?] ?]]; [by apply Ht|done].
Qed.

Lemma service_creates e sv rq : reads_text sv ->
  creates (fun p => Forall segment_ok p /\ Forall (fun c => utf8_valid c = true) p) (service e sv rq).
Proof.
  intros Hsv. unfold service. destruct (front sv rq) as [code| |op c r] eqn:Hf; [done|done|].
  apply creates_bind; [|done]. apply storage_creates. by eapply C104_requests.
Qed.

Lemma history_tidy e s s' : any_history e s s' -> wf s -> tidy e s -> wf s' /\ tidy e s'.
Proof.
  induction 1 as [|s xs s1 ms s' Hxs Hst _ IH]; intros Hwf Ht; [done|]. apply IH; [by eapply psteps_wf|].
  eapply psteps_tidy; [|exact Hst|done]. apply Forall_fmap. eapply Forall_impl; [exact Hxs|]. intros x Hx. by apply service_creates.
Qed.

Lemma tidy_empty e : e_os_ok e [] = true -> tidy e empty_store.
Proof. intros Hos p [n Hn]. cbn in Hn. by apply lookup_singleton_Some in Hn as [<- _]. Qed.

(** C104, part 3: after any execution of the service, every name in the store is a good one. *)
Theorem C104_store e s p n : e_os_ok e [] = true -> any_history e empty_store s -> is_Some (fs_nodes s !! p) -> n ∈ p -> good_name n.
Proof.
  intros Hos Hh Hp Hn. destruct (history_tidy _ _ _ Hh wf_empty (tidy_empty e Hos)) as [_ Ht].
  destruct (Ht p Hp) as (Hs & Hu & _). rewrite Forall_forall in Hs, Hu. split; [by apply C76_valid_exactly, Hu|by apply Hs].
Qed.
Print Assumptions C104_store.

(** C104, part 4: after any execution of the service, a listing names every object of the bucket with the
    prefix by its own key, and a listing of the buckets names the buckets. *)
Theorem C104_listing e s b prefix (v2 : bool) : e_os_ok e [] = true -> any_history e empty_store s -> legal_bucket b ->
  fs_nodes s !! [b] = Some NDir -> (forall q c, content s (b :: q) = Some c -> (N.of_nat (length c) <= i64_max)%N) ->
  exists l,
    answer e (if v2 then RListObjectsV2 b prefix else RListObjects b prefix) s =
      Ok (AList b l (if v2 then Some (N.of_nat (length l)) else None)) /\
    forall k n, (k, n) ∈ l <->
       (forall x, prefix = Some x -> x `prefix_of` k) /\
       exists p c, located b k p /\ content s p = Some c /\ n = N.of_nat (length c).
Proof.
  intros Hos Hh Hb Hd Hsm. destruct (history_tidy _ _ _ Hh wf_empty (tidy_empty e Hos)) as [Hwf Ht].
  destruct (C36_listing e s b prefix v2 Hwf Ht Hb Hd Hsm) as (l & Hl & Hin & _). eauto.
Qed.
Print Assumptions C104_listing.

(* A bucket and an upload with the key "é", handled at the same time. *)
Definition ex_accent : list (server * http_request) :=
  [(ex_open_server, HttpRequest (B "PUT") (B "/bkt") None [] []); (ex_open_server, ex_put_object (B "/bkt/%C3%A9") [] (B "x"))].
Definition ex_accent_run : fs * list (prog reply) :=
  run_sched ex_env (replicate 2 0 ++ replicate 20 1) empty_store ((fun x : server * http_request => service ex_env x.1 x.2) <$> ex_accent).
Example C104_ex : any_history ex_env empty_store ex_accent_run.1 /\
  fs_nodes ex_accent_run.1 !! [B "bkt"; [ascii_of_N 195; ascii_of_N 169]] = Some (NFile 0).
Proof.
  split; [|vm_compute; reflexivity]. eapply any_run; [|apply run_sched_psteps|apply any_none].
  repeat constructor; by intros t keys [=].
Qed.
(* A key that is not UTF-8 is refused; an upload id that is not is changed. *)
Example C104_ex_refused : exists code, front ex_open_server (ex_put_object (B "/bkt/%C3") [] (B "x")) = FrErr code.
Proof. eexists. vm_compute. reflexivity. Qed.
Example C104_ex_replaced : exists op c body,
  front ex_open_server (HttpRequest (B "PUT") (B "/bkt/a") (Some (B "partNumber=1&uploadId=%C3")) [] []) =
  FrCall op c (RUploadPart (map ascii_of_N [239; 191; 189]%N) 1 body).
Proof. do 3 eexists. vm_compute. reflexivity. Qed.
