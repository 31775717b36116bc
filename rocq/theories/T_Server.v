(** C64: seen over HTTP through well-behaved requests the server is a map. *)
From Verif Require Import M_Base M_Path M_Headers M_Chunked M_BytesStream M_Crypto M_Fs M_Json M_Utf8 M_Storage M_Http M_Errors M_Ops M_Service
  S_Path S_Headers S_Chunked S_Errors S_Storage S_Store S_Map S_Service S_Dispatch S_Calls S_Http S_Server
  L_Base L_Path L_Headers L_Fs L_Storage L_Scope L_Names L_Json L_Ops L_Results L_Tidy L_Map L_MapOps
  T_Errors T_Headers T_Auth T_Store T_Copy T_Etag T_Scope T_Listing T_Buckets T_Uploads T_Isolation T_Calls T_Http T_Map.

Local Opaque md5 json_decode json_encode metadata_name part_name.

Lemma stands_for_unique x r r' : stands_for x r -> stands_for x r' -> r = r'.
Proof. intros (op & c & H) (op' & c' & H'). congruence. Qed.
Lemma stands_for_dec x : (exists r, stands_for x r) \/ forall r, ~ stands_for x r.
Proof.
  unfold stands_for. destruct (front x.1 x.2) as [code| |op c r].
  - right. by intros r (op & c & [=]).
  - right. by intros r (op & c & [=]).
  - left. by exists r, op, c.
Qed.

Definition metas_fit (st : store) : Prop :=
  forall x m, metadatas st !! x = Some m -> metadata_fits m /\ NoDup m.*1.

Lemma fits_presentable m : metadata_fits m -> NoDup m.*1 -> presentable m.
Proof.
  intros Hf Hnd. split; [done|]. apply Forall_forall. intros [n v] Hin. destruct (Hf n v Hin) as (Hl & Hn & Hv).
  assert (Hc : forall a, a ∈ B "x-amz-meta-" ++ n -> a ∈ name_chars).
  { intros a [Ha|Ha]%elem_of_app; [|by apply Hn]. revert a Ha. apply Forall_forall. compute_done. }
  split; [|split; [|split]]; cbn [fst snd].
  - apply forallb_forall. intros a Ha. apply elem_of_list_In, Hc, wire_name in Ha. tauto.
  - clear Hn Hl Hin. induction (B "x-amz-meta-" ++ n) as [|a l IH]; [done|]. cbn. f_equal.
    + by destruct (wire_name a (Hc a ltac:(left))) as (_ & -> & _).
    + apply IH. intros a' Ha'. apply Hc. by right.
  - rewrite app_length. change (length (B "x-amz-meta-")) with 11. lia.
  - apply forallb_forall. intros a Ha. apply elem_of_list_In in Ha. by apply value_char, Hv.
Qed.

Lemma metas_presentable st x : metas_fit st -> presentable (default [] (metadatas st !! x)).
Proof.
  intros Hm. destruct (metadatas st !! x) as [m|] eqn:Hx.
  - destruct (Hm _ _ Hx). by apply fits_presentable.
  - split; [apply NoDup_nil_2|apply Forall_nil_2].
Qed.
Lemma quoted_value_ok d : header_value_ok (quoted_md5 d) = true.
Proof. apply etag_value_ok. Qed.

Lemma fits_after e U st r v st' : metas_fit st -> well_behaved e U st r ->
  (forall b k c len m body, r = RPutObject b k c len (Some m) body -> metadata_fits m) ->
  serves st r v st' -> metas_fit st'.
Proof.
  intros Hm Hw Hf Hs x m. inversion Hs; subst; cbn; try apply Hm.
  - match goal with |- context [set_metadata ?b ?k ?md _] => destruct md as [m'|] end; cbn; [|apply Hm].
    intros [[_ <-]|[_ Hold]]%lookup_insert_Some; [|by eapply Hm].
    destruct Hw as (_ & Hw & _). destruct (Hw _ eq_refl). split; [by eapply Hf|done].
  - destruct (metadatas st !! (sb, sk)) as [m'|] eqn:Hsrc; cbn; [|apply Hm].
    intros [[_ <-]|[_ Hold]]%lookup_insert_Some; by eapply Hm.
Qed.

Lemma refusal_shown s r code : code ∈ storage_codes -> shows s r (Refused code) (error_response code).
Proof.
  intros Hc. exists (response_status code). split.
  - apply C54_status_documented_partial. intros ->. revert Hc. by compute_done.
  - split; [done|]. split; [done|]. by eexists.
Qed.

Lemma elements_app n xs ys : elements n (xs ++ ys) = elements n xs ++ elements n ys.
Proof. apply filter_app. Qed.
Lemma elements_all n xs : Forall (fun x => element_name x = n) xs -> elements n xs = xs.
Proof. induction 1 as [|x xs Hx _ IH]; [done|]. unfold elements. rewrite filter_cons_True by done. by f_equal. Qed.
Lemma elements_none n xs : Forall (fun x => element_name x <> n) xs -> elements n xs = [].
Proof. induction 1 as [|x xs Hx _ IH]; [done|]. unfold elements. by rewrite filter_cons_False. Qed.

Lemma listing_shown op c b objs count : op <> OpGetBucketLocation -> op <> OpDeleteBucket -> op <> OpDeleteObject ->
  exists resp, respond op c (Ok (AList b objs count)) = Ok resp /\ xml_reply 200 (lists_objects b objs count) resp.
Proof.
  intros H1 H2 H3. eexists. split; [by destruct op|]. split; [done|]. split; [done|]. eexists. split; [done|].
  eexists. split; [done|].
  assert (Hcs : Forall (fun x => element_name x = B "Contents") (map contents_xml objs)) by (by apply Forall_map, Forall_true).
  assert (Hne : forall n, n <> B "Contents" -> elements n (map contents_xml objs) = []).
  { intros n Hn. apply elements_none. eapply Forall_impl; [exact Hcs|]. intros x Hx Heq. apply Hn. by rewrite <- Heq. }
  assert (Hd : forall n v, n <> B "Delimiter" -> elements n (opt_element (B "Delimiter") v) = []).
  { intros n [v|] Hn; [|done]. apply elements_none, Forall_singleton. intros Heq. by apply Hn. }
  assert (He : forall n v, n <> B "EncodingType" -> elements n (opt_element (B "EncodingType") v) = []).
  { intros n [v|] Hn; [|done]. apply elements_none, Forall_singleton. intros Heq. by apply Hn. }
  split; [|split; [|split]].
  - rewrite !elements_app, (elements_all _ _ Hcs), Hd, He by done.
    replace (elements (B "Contents") _) with (@nil xml) by by destruct count.
    replace (elements (B "Contents") match count with _ => _ end) with (@nil xml) by by destruct count.
    rewrite !app_nil_r. clear. induction objs as [|o objs IH]; [constructor|]. constructor; [|exact IH].
    exists (num o.2). split; [apply num_denotes|done].
  - rewrite !elements_app, Hne, Hd, He by done. by destruct count.
  - intros n ->. exists (num n). split; [apply num_denotes|]. by rewrite !elements_app, Hne, Hd, He.
  - intros y Hy. rewrite !elem_of_app in Hy. destruct Hy as [Hy|[Hy|[Hy|[Hy|Hy]]]].
    + rewrite Forall_forall in Hcs. rewrite (Hcs _ Hy). left.
    + apply elem_of_list_singleton in Hy as ->. right; left.
    + destruct (cx_query c (B "delimiter")); [|by apply elem_of_nil in Hy].
      apply elem_of_list_singleton in Hy as ->. cbn. right; right; right; left.
    + destruct (cx_query c (B "encoding-type")); [|by apply elem_of_nil in Hy].
      apply elem_of_list_singleton in Hy as ->. cbn. right; right; right; right; left.
    + destruct count; [|by apply elem_of_nil in Hy].
      apply elem_of_list_singleton in Hy as ->. cbn. right; right; left.
Qed.

Lemma answer_shown e sv rq s op c r v st st' : front sv rq = FrCall op c r -> metas_fit st ->
  serves st r v st' -> sees e s r v ->
  exists resp, (exchange e sv rq s).2 = Replied resp /\ shows s r v resp.
Proof.
  intros Hf Hm Hs Hv.
  rewrite (exchange_call e sv rq s op c r Hf). cbn [snd].
  destruct v as [code|a|d md tag].
  - cbn in Hv. exists (error_response code). split; [by rewrite Hv|]. apply refusal_shown.
    eapply (storage_codes_ok e r s). unfold answer in Hv. apply pair_of_snd. exact Hv.
  - cbn in Hv. rewrite Hv. cbn [reply_of shows].
    pose proof (C58_called_as_asked sv rq op c r Hf) as Ha.
    inversion Hs; subst; inversion Ha; subst; clear Ha Hf.
    all: try (eexists; split; [reflexivity|]; reflexivity).
    all: try (eexists; split; [reflexivity|]; split; [done|]; split; [done|]; eexists; split; [reflexivity|]; reflexivity).
    all: try (match goal with |- context [AList ?b ?l ?n] =>
      destruct (listing_shown OpListObjects c b l n) as (resp & Hr & Hx); [done|done|done|];
      exists resp; split; [|exact Hx]; cbn [respond] in Hr |- *; first [by rewrite Hr | by injection Hr as <-] end).
    + rewrite head_response; [|by apply metas_presentable]. eexists. split; [reflexivity|].
      eexists. split; [apply num_denotes|done].
    + eexists. split; [cbn -[quoted_md5 header_value_ok]; by rewrite quoted_value_ok|done].
    + eexists. split; [cbn -[quoted_md5 header_value_ok]; by rewrite quoted_value_ok|done].
    + eexists. split; [cbn -[quoted_md5 header_value_ok]; by rewrite quoted_value_ok|done].
  - destruct r; try done. destruct Hv as (h & off & lim & Hans & Hbody). rewrite Hans.
    pose proof (C58_called_as_asked sv rq op c _ Hf) as Ha. inversion Ha; subst; clear Ha Hf.
    assert (Hp : presentable (default [] md) /\ header_value_ok tag = true).
    { inversion Hs; subst; (split; [by apply metas_presentable|apply quoted_value_ok]). }
    destruct Hp. rewrite get_response by done. eexists. split; [reflexivity|]. split; [done|]. split.
    + eexists. split; [apply num_denotes|done].
    + by exists h, off, lim.
Qed.

Lemma all_received_cons e U st x xs : all_well_behaved_received e U st (x :: xs) ->
  well_behaved_received e U st x /\ forall v st', serves_received st x v st' -> all_well_behaved_received e U st' xs.
Proof.
  intros Hw. split.
  - apply (Hw [] x xs [] st); [done|constructor].
  - intros v st' Hs xs1 x' xs2 vs st1 -> Hs1. apply (Hw (x :: xs1) x' xs2 (v :: vs) st1); [done|].
    by econstructor.
Qed.
Lemma received_all_cons e U st x xs : well_behaved_received e U st x ->
  (forall v st', serves_received st x v st' -> all_well_behaved_received e U st' xs) ->
  all_well_behaved_received e U st (x :: xs).
Proof.
  intros Hx Hxs xs1 x' xs2 vs st1 Heq Hs. destruct xs1 as [|x1 xs1].
  - injection Heq as <- <-. by inversion Hs; subst.
  - injection Heq as <- ->. inversion Hs as [|? ? v st' ? vs' ? H1 H2]; subst. by eapply Hxs.
Qed.
Lemma received_all_nil e U st : all_well_behaved_received e U st [].
Proof. intros xs1 x' xs2 vs st1 Heq. by destruct xs1. Qed.

Lemma received_refines e U st s xs : names_ok e U -> tracks e U st s -> metas_fit st ->
  all_well_behaved_received e U st xs ->
  exists vs st', serves_all_received st xs vs st' /\ shows_all e s xs vs.
Proof.
  intros HU. revert st s. induction xs as [|x xs IH]; intros st s Ht Hm Hw.
  - exists [], st. by split; [constructor|].
  - apply all_received_cons in Hw as [Hx Hxs].
    destruct (stands_for_dec x) as [[r Hr]|Hno].
    + destruct (Hx r Hr) as [Hwb Hmd]. destruct (step_works e U HU st s r Ht Hwb) as (v & st1 & Hs & Hv & Ht1).
      assert (Hsx : serves_received st x (Some (r, v)) st1) by by apply sr_served.
      destruct (IH st1 (after e r s)) as (vs & st' & Hss & Hvs); [done|by eapply fits_after|by eapply Hxs|].
      exists (Some (r, v) :: vs), st'. split; [by econstructor|]. destruct Hr as (op & c & Hf). split.
      * intros r' w [= <- <-]. by eapply answer_shown.
      * by rewrite (exchange_call _ _ _ _ _ _ _ Hf).
    + assert (Hsx : serves_received st x None st) by by apply sr_rejected.
      destruct (IH st s) as (vs & st' & Hss & Hvs); [done|done|by eapply Hxs|].
      exists (None :: vs), st'. split; [by econstructor|]. split; [done|].
      destruct (exchange_state e x.1 x.2 s) as [(op & c & r & Hf & _)|[_ ->]]; [|done].
      destruct (Hno r). by exists op, c.
Qed.

(** C64: the replies to any sequence of well-behaved requests to a fresh server, mixed with any
    requests that are refused, are those of the map. *)
Theorem C64_server_is_a_map e U xs : names_ok e U -> e_os_ok e [] = true ->
  all_well_behaved_received e U nothing_stored xs ->
  exists vs st, serves_all_received nothing_stored xs vs st /\ shows_all e empty_store xs vs.
Proof.
  intros HU Hos Hw. apply (received_refines e U); [done|by apply tracks_empty|done|done].
Qed.

(* The map leaves no choice in the answers, except for the order of the buckets. *)
Inductive same_reply : option (s_req * seen) -> option (s_req * seen) -> Prop :=
| same_none : same_reply None None
| same_some r v v' : same_seen v v' -> same_reply (Some (r, v)) (Some (r, v')).
Lemma received_unique st xs vs1 st1 vs2 st2 :
  serves_all_received st xs vs1 st1 -> serves_all_received st xs vs2 st2 -> Forall2 same_reply vs1 vs2 /\ st1 = st2.
Proof.
  intros H1. revert vs2 st2. induction H1 as [st|st x v st1 xs vs st1' Hx Hxs IH]; intros vs2 st2 H2.
  - inversion H2; subst. by split; [constructor|].
  - inversion H2 as [|? ? v2 st2' ? vs2' ? Hx2 Hxs2]; subst.
    assert (same_reply v v2 /\ st1 = st2') as [Hv <-].
    { inversion Hx as [r w ? Hr Hs|Hno]; inversion Hx2 as [r2 w2 ? Hr2 Hs2|Hno2]; subst.
      - pose proof (stands_for_unique _ _ _ Hr Hr2) as <-. destruct (C50_map_deterministic _ _ _ _ _ _ Hs Hs2) as [? <-].
        by split; [constructor|].
      - by destruct (Hno2 r).
      - by destruct (Hno r2).
      - by split; [constructor|]. }
    destruct (IH _ _ Hxs2) as [? <-]. by split; [constructor|].
Qed.

(** C64: whatever the map answers is what the replies show. *)
Theorem C64_replies_of_the_map e U xs vs st : names_ok e U -> e_os_ok e [] = true ->
  all_well_behaved_received e U nothing_stored xs -> serves_all_received nothing_stored xs vs st ->
  exists vs', Forall2 same_reply vs vs' /\ shows_all e empty_store xs vs'.
Proof.
  intros HU Hos Hw Hs. destruct (C64_server_is_a_map e U xs HU Hos Hw) as (vs' & st' & Hs' & Hv).
  exists vs'. split; [|done]. by destruct (received_unique _ _ _ _ _ _ Hs Hs').
Qed.

(* The metadata sent with an upload in headers always fit into headers. *)
Theorem C64_uploads_fit sv rq b k c len m body : wire rq -> puts_object rq b k ->
  stands_for (sv, rq) (RPutObject b k c len (Some m) body) -> metadata_fits m.
Proof.
  intros Hw Hp (op & cx & Hf). cbn [fst snd] in Hf.
  destruct (put_called sv rq b k op cx _ Hf Hp) as (class & len' & md & -> & Hr & _ & Hsent & _ & Hvis).
  injection Hr as <- <- <- _. destruct (sent_ok rq m Hw Hvis Hsent) as [_ _].
  intros n v Hin. destruct m as [|q m']; [by apply elem_of_nil in Hin|].
  destruct Hsent as (_ & _ & Hs & _). destruct (Hs n v Hin) as [_ Hh].
  destruct (Hw _ Hh) as (_ & Hl & Hc). cbn [fst] in Hl, Hc. rewrite app_length in Hl.
  change (length (B "x-amz-meta-")) with 11 in Hl. split; [lia|]. split.
  - intros a Ha. apply Hc. apply elem_of_app. by right.
  - intros a Ha. apply value_char. destruct (visible_value v (Hvis _ Hh)) as [Hok _].
    unfold header_value_ok in Hok. rewrite forallb_forall in Hok. by apply Hok, elem_of_list_In.
Qed.

(** ** Examples *)

Lemma received_all_next e U st x op r v st' xs : called (front x.1 x.2) = Some (op, r) ->
  well_behaved e U st r -> (forall b k c len m body, r = RPutObject b k c len (Some m) body -> metadata_fits m) ->
  serves st r v st' -> all_well_behaved_received e U st' xs -> all_well_behaved_received e U st (x :: xs).
Proof.
  intros Hf Hw Hm Hs Hxs.
  assert (Hr : stands_for x r).
  { unfold stands_for. destruct (front x.1 x.2); try done. injection Hf as -> ->. eauto. }
  apply received_all_cons.
  - intros r' Hr'. by rewrite (stands_for_unique _ _ _ Hr' Hr).
  - intros v' st2 [r' w ? Hr' Hs'|Hno]; [|by destruct (Hno r)].
    rewrite (stands_for_unique _ _ _ Hr' Hr) in Hs'. by destruct (C50_map_deterministic _ _ _ _ _ _ Hs Hs') as [_ <-].
Qed.
Lemma received_all_refused e U st x xs : called (front x.1 x.2) = None ->
  all_well_behaved_received e U st xs -> all_well_behaved_received e U st (x :: xs).
Proof.
  intros Hf Hxs.
  assert (Hno : forall r, ~ stands_for x r). { intros r (op & c & Hc). by rewrite Hc in Hf. }
  apply received_all_cons; [by intros r ?%Hno|]. intros v' st2 [r' w ? Hr' Hs'|_]; [by destruct (Hno r')|done].
Qed.

Definition ex_requests : list received := map (pair ex_open_server)
  [HttpRequest (B "PUT") (B "/photos/a/cat.jpg") None [(B "x-amz-meta-owner", B "me")] [FData (B "hel"); FData (B "lo")];
   HttpRequest (B "GET") (B "/photos/a/cat.jpg") None [(B "authorization", B "nonsense")] [];
   HttpRequest (B "HEAD") (B "/photos/a/cat.jpg") None [] [];
   HttpRequest (B "DELETE") (B "/photos/a/cat.jpg") None [] [];
   HttpRequest (B "GET") (B "/photos/a/cat.jpg") None [] []].
Example ex_requests_well_behaved : all_well_behaved_received ex_env ex_names nothing_stored ex_requests.
Proof.
  unfold ex_requests. cbn [map].
  eapply received_all_next; [vm_compute; reflexivity| | |apply sv_put; left|].
  { split; [split; [done|left]|]. split; [intros m [= <-]; split; compute_done|]. intros fs [= <-]. done. }
  { intros b k c len m body [= <- <- <- <- <- <-] n v [-> ->]%elem_of_list_singleton%pair_equal_spec.
    split; [done|]. split; apply Forall_forall; [compute_done|]. repeat (apply Forall_cons; split); try done; by left. }
  apply received_all_refused; [by vm_compute|].
  eapply received_all_next; [vm_compute; reflexivity|by split; [done|left]|done|apply sv_head; vm_compute; reflexivity|].
  eapply received_all_next; [vm_compute; reflexivity|by split; [done|left]|done|apply sv_delete; eexists; vm_compute; reflexivity|].
  eapply received_all_next; [vm_compute; reflexivity|split; [by split; [done|left]|done]|done|apply sv_get_none; vm_compute; reflexivity|].
  apply received_all_nil.
Qed.
Print Assumptions C64_server_is_a_map.
Print Assumptions C64_replies_of_the_map.
Print Assumptions C64_uploads_fit.
