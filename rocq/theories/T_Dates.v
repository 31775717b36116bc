(** C102: the dates in HTTP replies. *)
From Verif Require Import M_Base M_Path M_Headers M_Chunked M_BytesStream M_Crypto M_Fs M_Json M_Utf8 M_Time M_Storage M_Clock M_Errors M_Auth M_Ops M_Service M_Dto M_Dates
  S_Path S_Headers S_Chunked S_Storage S_Store S_Time S_Service S_Dispatch S_Calls S_Http S_Dto S_Dates L_Base L_Fs L_Storage L_Names L_Results
  T_Store T_Copy T_Auth T_Dispatch L_Request T_Calls T_Http T_Ranges T_Time T_Clock T_Answers T_Wire.

Local Opaque md5 etag_of json_decode json_encode metadata_name part_name.

(** ** Everything but the dates *)

Definition strip (hs : list (bytes * bytes)) : list (bytes * bytes) := filter (fun h => h.1 <> B "last-modified") hs.

Lemma strip_insert n v hs : n <> B "last-modified" -> strip (md_insert n v hs) = md_insert n v (strip hs).
Proof.
  intros Hn. unfold strip. induction hs as [|[k x] hs IH]; cbn [md_insert].
  - by rewrite filter_cons_True by done.
  - destruct (beq k n) eqn:E.
    + apply beq_true in E as ->. rewrite !filter_cons_True by done. cbn [md_insert]. by rewrite beq_refl.
    + destruct (decide (k = B "last-modified")) as [->|Hk].
      * by rewrite !filter_cons_False by (cbn; tauto).
      * rewrite !filter_cons_True by done. cbn [md_insert]. by rewrite E, IH.
Qed.
Lemma strip_header n v hs : n <> B "last-modified" -> option_map strip (set_header n v hs) = set_header n v (option_map strip hs).
Proof.
  intros Hn. destruct hs as [hs|], v as [v|]; try done. cbn. destruct (header_value_ok v); [|done]. cbn. by rewrite strip_insert.
Qed.
Lemma strip_metadata md : forall hs, option_map strip (set_metadata_headers md hs) = set_metadata_headers md (option_map strip hs).
Proof.
  unfold set_metadata_headers. generalize (default [] md). intros m. induction m as [|[n v] m IH]; intros hs; [done|].
  cbn [fold_left fst snd]. rewrite IH. f_equal. destruct hs as [hs|]; [|done]. cbn [option_map].
  destruct (header_name_of _) as [n'|] eqn:En; [|done]. destruct (header_value_ok v); [|done]. cbn. f_equal. apply strip_insert.
  intros ->. unfold header_name_of in En. by destruct (_ && _) in En.
Qed.
Lemma strip_wrap hs hs' st b : option_map strip hs = option_map strip hs' -> (forall x, b <> RbXml x) ->
  forall r, wrap hs st b = Ok r -> exists r', wrap hs' st b = Ok r' /\ undated_response r = undated_response r'.
Proof.
  intros H Hb r. destruct hs as [hs|]; [|done]. destruct hs' as [hs'|]; [|done]. cbn in *. intros [= <-]. eexists. split; [done|].
  unfold undated_response. cbn [rs_status rs_headers rs_body]. injection H as H. fold (strip hs) (strip hs'). by rewrite H.
Qed.

(* Elements of a document. *)
Fixpoint undate_all (l : list xml) : list xml :=
  match l with
  | [] => []
  | XText m t :: l' => if decide (m = B "LastModified") then undate_all l' else XText m t :: undate_all l'
  | y :: l' => undated y :: undate_all l'
  end.
Lemma undate_all_app l l' : undate_all (l ++ l') = undate_all l ++ undate_all l'.
Proof. induction l as [|[n t|n xs] l IH]; [done| |]; cbn [app undate_all]; [destruct (decide _)|]; by rewrite IH. Qed.
Lemma undate_option n v : n <> B "LastModified" -> undate_all (opt_element n v) = opt_element n v.
Proof. intros Hn. destruct v; [|done]. cbn. by rewrite decide_False. Qed.

(* Replies without dates stay as they are. *)
Lemma undated_xml st x : undated x = x -> undated_response (xml_response st x) = xml_response st x.
Proof. intros H. unfold undated_response, xml_response. cbn. by rewrite H. Qed.
Lemma undated_wrap hs st b r : option_map strip hs = hs -> (forall x, b <> RbXml x) -> wrap hs st b = Ok r -> undated_response r = r.
Proof.
  intros H Hb. destruct hs as [hs|]; [|done]. cbn [wrap option_map] in *. intros [= <-]. injection H as H. unfold undated_response.
  cbn [rs_status rs_headers rs_body]. fold (strip hs). rewrite H. destruct b; try done. by destruct (Hb x).
Qed.
Lemma undated_list n xs : undate_all xs = xs -> undated (XStack n xs) = XStack n xs.
Proof. intros H. change (undated (XStack n xs)) with (XStack n (undate_all xs)). by rewrite H. Qed.
Lemma undated_plain op c a r : respond_ok op c a = Ok r -> undated_response r = r.
Proof.
  assert (Hk : forall k, undated (XStack (B "Deleted") [XText (B "Key") k]) = XStack (B "Deleted") [XText (B "Key") k]) by done.
  assert (Hb : forall k, undated (XStack (B "Bucket") [XText (B "Name") k]) = XStack (B "Bucket") [XText (B "Name") k]) by done.
  assert (Hmap : forall {A} (f : A -> xml) l, (forall x, exists n ys, f x = XStack n ys /\ undated (f x) = f x) -> undate_all (map f l) = map f l).
  { intros A f l Hf. induction l as [|x l IH]; [done|]. cbn [map]. destruct (Hf x) as (n & ys & E & Hu). rewrite E in *.
    change (undate_all (XStack n ys :: map f l)) with (undated (XStack n ys) :: undate_all (map f l)). by rewrite Hu, IH. }
  intros H.
  assert (G : match a with
    | AGet _ _ _ _ _ _ | AHead _ _ | APut _ | APart _ | ADone => True
    | _ => undated_response r = r end -> undated_response r = r).
  { destruct op, a; try (intros G; exact G); intros _; cbn [respond_ok] in H;
    lazymatch type of H with
    | wrap _ _ _ = _ => refine (undated_wrap _ _ _ _ _ _ H); [|discriminate]; rewrite ?strip_metadata, ?strip_header by discriminate; done
    | _ => injection H as <-; first [done | by apply undated_xml]
    end. }
  apply G. clear G.
  destruct a; try exact I;
    destruct op; cbn [respond_ok] in H; injection H as <-; try done; apply undated_xml; try done.
  all: try (apply undated_list; apply Hmap; intros; do 2 eexists; split; [reflexivity|done]).
  all: try (apply undated_list; match goal with |- undate_all [XStack ?n ?ys] = _ => change (undate_all [XStack n ys]) with [undated (XStack n ys)] end; f_equal; apply undated_list; apply Hmap; intros; do 2 eexists; split; [reflexivity|done]).
  all: apply undated_list; rewrite !undate_all_app, Hmap by (intros; do 2 eexists; split; [reflexivity|done]); f_equal; cbn [undate_all]; rewrite decide_False by discriminate; f_equal; rewrite !undate_all_app, !undate_option by discriminate; by destruct count.
Qed.

Lemma strip_date d hs : date_header d = Some hs -> strip hs = [].
Proof.
  unfold date_header. destruct (map_opt_rfc3339_to_last_modified d) as [[v|]|]; [| |done]; cbn; [|by intros [= <-]].
  destruct (header_value_ok v); [|done]. intros [= <-]. unfold strip. by rewrite filter_cons_False by (cbn; tauto).
Qed.

Lemma undated_chain (F : option (list (bytes * bytes)) -> option (list (bytes * bytes))) st b d :
  (forall hs, option_map strip (F hs) = F (option_map strip hs)) -> F None = None -> (forall x, b <> RbXml x) ->
  match wrap (F (date_header d)) st b with
  | Ok r => wrap (F (Some [])) st b = Ok (undated_response r)
  | Err x => wrap (F (Some [])) st b = Err x \/ x = InternalError /\ date_header d = None
  end.
Proof.
  intros HF Hn Hb. destruct (date_header d) as [hs|] eqn:Ed; [|rewrite Hn; cbn; by right].
  pose proof (HF (Some hs)) as H. cbn [option_map] in H. rewrite (strip_date _ _ Ed) in H. destruct (F (Some hs)) as [x|]; cbn [option_map wrap] in *.
  - rewrite <- H. cbn [wrap]. unfold undated_response. cbn [rs_status rs_headers rs_body]. f_equal. f_equal. destruct b; try done. by destruct (Hb x0).
  - left. by rewrite <- H.
Qed.

Lemma undated_contents d l : undate_all (map (dated_contents d) l) = map contents_xml l.
Proof.
  induction l as [|o l IH]; [done|]. cbn [map]. unfold dated_contents at 1.
  match goal with |- undate_all (XStack ?n ?xs :: ?l) = _ => change (undate_all (XStack n xs :: l)) with (XStack n (undate_all xs) :: undate_all l) end.
  rewrite IH. f_equal. unfold contents_xml. f_equal. destruct (dt_entry d o.1); done.
Qed.

Lemma dated_or op c a d :
  match dated_respond_ok op c a d with
  | Ok r => respond_ok op c a = Ok (undated_response r)
  | Err x => respond_ok op c a = Err x \/ x = InternalError /\ date_header (dt_whole d) = None
  end.
Proof.
  assert (G : match respond_ok op c a with
    | Ok r => respond_ok op c a = Ok (undated_response r)
    | Err x => respond_ok op c a = Err x \/ x = InternalError /\ date_header (dt_whole d) = None
    end) by (destruct (respond_ok op c a) as [r|x] eqn:E; [by rewrite (undated_plain _ _ _ _ E)|by left]).
  destruct a; try (destruct op; exact G).
  - (* CopyObject *) destruct op; try exact G; cbn [dated_respond_ok respond_ok]; destruct (dt_whole d); done.
  - (* GetObject *) destruct op; try exact G; cbn [dated_respond_ok respond_ok];
    refine (undated_chain (fun hs => set_metadata_headers _ (set_header _ _ (set_header _ _ hs))) _ _ _ _ _ _); try discriminate;
    try (intros hs; rewrite ?strip_metadata, ?strip_header by discriminate; done); by rewrite set_metadata_none.
  - (* HeadObject *) destruct op; try exact G; cbn [dated_respond_ok respond_ok];
    refine (undated_chain (fun hs => set_metadata_headers _ (set_header _ _ (set_header _ _ hs))) _ _ _ _ _ _); try discriminate;
    try (intros hs; rewrite ?strip_metadata, ?strip_header by discriminate; done); by rewrite set_metadata_none.
  - (* ListObjects *) destruct op; try exact G; cbn [dated_respond_ok respond_ok]; unfold undated_response, xml_response; cbn [rs_status rs_headers rs_body];
    f_equal; f_equal; f_equal;
    match goal with |- _ = undated (XStack ?n ?xs) => change (undated (XStack n xs)) with (XStack n (undate_all xs)) end; f_equal;
    rewrite !undate_all_app, undated_contents, !undate_option by discriminate; f_equal; f_equal; f_equal; f_equal; by destruct count.
Qed.

(* The header can be formed whenever the time is one of ours. *)
Lemma date_header_spec off t : showable off t ->
  exists h, date_header (Some (stamp_text off t)) = Some [(B "last-modified", h)] /\ http_date h (seconds t) /\ last_modified_header off t = Some h.
Proof.
  intros Hs. destruct (C84_header off t Hs) as (h & Hh & Hd). exists h. split; [|done].
  unfold date_header, map_opt_rfc3339_to_last_modified. unfold last_modified_header in Hh. unfold stamp_text. rewrite Hh.
  cbn [set_header]. by rewrite (proj2 (value_ok_spec h) (date_field _ _ Hd)).
Qed.

Lemma timed_run e ck r w : w_fs (timed e ck r w).1 = after e r (w_fs w) /\ (timed e ck r w).2 = answer e r (w_fs w).
Proof.
  unfold timed, after, answer. pose proof (trun_run e ck (storage e r) (World (w_fs w) (w_mtime w) (w_calls w) [])) as H.
  cbn [w_fs] in H. by rewrite <- H.
Qed.

(** C102, part 1: with the dates, the service does the same to the store, and its replies are the ones
    of the service without dates; but an object whose time cannot be shown is answered with an error. *)
Theorem C102_undated e ck off sv rq w :
  w_fs (dated_service e ck off sv rq w).1 = (exchange e sv rq (w_fs w)).1 /\
  (undated_reply (dated_service e ck off sv rq w).2 = (exchange e sv rq (w_fs w)).2 \/
   (dated_service e ck off sv rq w).2 = Replied (error_response InternalError) /\
   exists op c r t, front sv rq = FrCall op c r /\ last_modified e ck r w = Some t /\ ~ showable off t).
Proof.
  assert (Herr : forall x, undated_response (error_response x) = error_response x) by (intros x; by apply undated_xml).
  unfold dated_service, exchange, service. destruct (front sv rq) as [code| |op c r] eqn:Hf; cbn [run fst snd undated_reply].
  { split; [done|]. left. by rewrite Herr. } { split; [done|by left]. }
  destruct (timed_run e ck r w) as [H1 H2]. unfold after, answer in H1, H2. rewrite run_bind.
  destruct (timed e ck r w) as [w' a] eqn:Et. cbn [fst snd] in *.
  destruct (run e (storage e r) (w_fs w)) as [s' a'] eqn:Er. cbn [fst snd run] in *. subst a' s'. split; [done|].
  destruct a as [a|x]; cbn [dated_respond respond]; [|left; cbn; by rewrite Herr].
  pose proof (dated_or op c a (dates_of e ck off r w)) as H.
  destruct (dated_respond_ok op c a (dates_of e ck off r w)) as [resp|x]; [left; by rewrite H|].
  destruct H as [H|[-> H]]; [left; rewrite H; cbn; by rewrite Herr|]. right. split; [done|]. exists op, c, r.
  cbn [dates_of dt_whole] in H. destruct (last_modified e ck r w) as [t|]; [|done]. exists t. split_and!; try done.
  intros Hs. destruct (date_header_spec off t Hs) as (h & Hh & _). cbn [option_map] in H. by rewrite Hh in H.
Qed.
Print Assumptions C102_undated.

(** ** Downloads *)

Definition is_head (a : s_ans) : Prop := match a with AHead _ _ => True | _ => False end.
Lemma yields_head e b k : yields e is_head (head_object e b k).
Proof. unfold head_object. repeat first [done | apply yields_ret; done | yields_step]. Qed.

(* Headers set before others stay the only ones of their name. *)
Lemma said_first hs n v h : set_header n (Some v) (Some [(B "last-modified", h)]) = Some hs -> n <> B "last-modified" -> hs = [(B "last-modified", h); (n, v)].
Proof.
  intros H Hn. assert (Hi : md_insert n v [(B "last-modified", h)] = [(B "last-modified", h); (n, v)]).
  { unfold md_insert. assert (beq (B "last-modified") n = false) as -> by (apply beq_false; congruence). done. }
  cbn [set_header] in H. destruct (header_value_ok v); [|done]. congruence.
Qed.
Lemma said md n v n' v' h st b resp : n <> B "last-modified" -> n' <> B "last-modified" ->
  wrap (set_metadata_headers md (set_header n' (Some v') (set_header n (Some v) (Some [(B "last-modified", h)])))) st b = Ok resp ->
  says_modified resp h.
Proof.
  intros Hn Hn' H. destruct (set_header n (Some v) _) as [hs1|] eqn:E1; [|cbn [set_header] in H; by rewrite set_metadata_none in H].
  apply said_first in E1; [|done]. subst hs1.
  destruct (set_header n' _ _) as [hs2|] eqn:E2; [|by rewrite set_metadata_none in H].
  assert (Hin : (B "last-modified", h) ∈ hs2 /\ forall h', (B "last-modified", h') ∈ hs2 -> h' = h).
  { cbn [set_header] in E2. destruct (header_value_ok v'); [|done]. apply (inj Some) in E2. rewrite <- E2. split.
    - apply md_insert_keeps; [by left|]. intros E. by destruct (Hn' (eq_sym E)).
    - intros h' [Hx|Hx]%md_insert_elem; [injection Hx as Hx _; by destruct (Hn' (eq_sym Hx))|].
      apply elem_of_cons in Hx as [[= ->]|Hx]; [done|]. apply elem_of_list_singleton in Hx. injection Hx as Hx _. by destruct (Hn (eq_sym Hx)). }
  destruct (set_metadata_headers md (Some hs2)) as [hs|] eqn:E; [|done]. cbn [wrap] in H. injection H as <-. split; cbn [rs_headers].
  - eapply set_metadata_keeps; [exact E|by apply Hin|done].
  - intros h' Hh'. destruct (set_metadata_names _ _ _ E _ Hh') as [?|[m Hm]]; [by apply Hin|done].
Qed.

(* A successful reply comes from a call of the storage. *)
Lemma dated_executed e ck off sv rq w resp : (dated_service e ck off sv rq w).2 = Replied resp -> success resp ->
  exists op c r a, front sv rq = FrCall op c r /\ (timed e ck r w).2 = Ok a /\ (dated_service e ck off sv rq w).1 = (timed e ck r w).1 /\
    dated_respond_ok op c a (dates_of e ck off r w) = Ok resp.
Proof.
  assert (Herr : forall x, ~ success (error_response x)).
  { intros x [_ Hs]. by destruct (Hs [XText (B "Code") (code_str x)]). }
  unfold dated_service. destruct (front sv rq) as [code| |op c r] eqn:Hf; cbn [fst snd].
  { intros [= <-] Hs. by destruct (Herr code). } { done. }
  intros H Hs. exists op, c, r. destruct (timed e ck r w) as [w' [a|x]]; cbn [fst snd dated_respond] in *; [|injection H as <-; by destruct (Herr x)].
  exists a. split_and!; try done. destruct (dated_respond_ok op c a _) as [y|x]; cbn [reply_of] in H; injection H as <-; [done|by destruct (Herr x)].
Qed.

(* The requests that are answered with the header. *)
Definition reads_object (rq : http_request) (b k : bytes) : Prop := gets_object rq b k \/ heads_object rq b k.
Lemma read_asked sv rq b k op c r : front sv rq = FrCall op c r -> reads_object rq b k ->
  op = OpGetObject /\ (exists x, r = RGetObject b k x) \/ op = OpHeadObject /\ r = RHeadObject b k.
Proof.
  intros Hf [Hr|Hr].
  - destruct (get_asked _ _ _ _ _ _ _ Hf Hr) as (-> & x & -> & _). left. eauto.
  - right. destruct (head_called sv rq b k) as [c' Hc]; [by do 3 eexists|done|]. rewrite Hf in Hc. by injection Hc as -> _ ->.
Qed.

Lemma shown e ck off sv rq w b k t resp :
  dated b k t w -> showable off t -> reads_object rq b k ->
  (dated_service e ck off sv rq w).2 = Replied resp -> success resp ->
  exists h, says_modified resp h /\ http_date h (seconds t) /\ last_modified_header off t = Some h.
Proof.
  intros (p & i & Hl & Hp & <-) Hsh Hrd Hx Hs.
  assert (Hb : legal_bucket b) by (destruct Hrd as [[_ H]|[_ H]]; by eapply object_request).
  destruct (dated_executed _ _ _ _ _ _ _ Hx Hs) as (op & c & r & a & Hf & Ha & _ & Hresp).
  destruct (C84_shown e ck w b k p i Hb Hl Hp) as (Hg & Hh & _).
  destruct (date_header_spec off _ Hsh) as (h & Hd & Hdt). exists h. split; [|done].
  pose proof (proj2 (timed_run e ck r w)) as Hans. rewrite Ha in Hans. unfold answer in Hans.
  destruct (run e (storage e r) (w_fs w)) as [s' a'] eqn:Er. cbn [snd] in Hans. subst a'.
  destruct (read_asked _ _ _ _ _ _ _ Hf Hrd) as [[-> [x ->]]|[-> ->]].
  - pose proof (yields_get _ _ _ _ _ _ _ Er) as Hk. destruct a; try done. cbn [dated_respond_ok dates_of dt_whole] in Hresp.
    rewrite (Hg x _ Ha) in Hresp. cbn [option_map] in Hresp. rewrite Hd in Hresp. by eapply said in Hresp.
  - pose proof (yields_head _ _ _ _ _ _ Er) as Hk. destruct a; try done. cbn [dated_respond_ok dates_of dt_whole] in Hresp.
    rewrite (Hh _ Ha) in Hresp. cbn [option_map] in Hresp. rewrite Hd in Hresp. by eapply said in Hresp.
Qed.

(** C102, part 2: a download, and a request for the metadata, of an object shows in its one header
    Last-Modified the second in which the file was last written. *)
Theorem C102_shown e ck off sv rq w b k t resp :
  dated b k t w -> showable off t -> reads_object rq b k ->
  (dated_service e ck off sv rq w).2 = Replied resp -> success resp ->
  exists h, says_modified resp h /\ http_date h (seconds t).
Proof.
  intros Hd Hsh Hrd Hx Hs. destruct (shown _ _ _ _ _ _ _ _ _ _ Hd Hsh Hrd Hx Hs) as (h & H1 & H2 & _). by exists h.
Qed.
Print Assumptions C102_shown.

(* Requests that do not concern an object. *)
Lemma dated_kept e ck off b k t xs : legal_bucket b -> Forall (harmless b k) xs -> forall w, wf (w_fs w) ->
  dated b k t w -> dated b k t (dated_requests e ck off xs w).
Proof.
  intros Hb. induction 1 as [|[sv rq] xs Hx _ IH]; intros w Hwf Hd; [done|]. cbn [dated_requests fst snd]. unfold dated_service.
  destruct (front sv rq) as [code| |op c r] eqn:Hf; cbn [fst]; [by apply IH..|].
  destruct (Hx op c r Hf) as [Hp Ha]. pose proof (C84_kept e ck r w b k t Hwf Hp Hb Ha Hd) as Hd'.
  pose proof (proj1 (timed_run e ck r w)) as Hw. destruct (timed e ck r w) as [w' a]. cbn [fst] in *. apply IH; [|done].
  rewrite Hw. by apply wf_after.
Qed.

(** C102, part 3: an upload that succeeded, any requests that do not concern the object, and then a
    download: it shows a second in which the upload was being handled. *)
Theorem C102_uploaded e ck off sv rq w b k resp xs sv' rq' resp' :
  wf (w_fs w) -> (forall n, showable off (ck_now ck n)) -> ordinary k -> puts_object rq b k ->
  (dated_service e ck off sv rq w).2 = Replied resp -> success resp -> Forall (harmless b k) xs -> reads_object rq' b k ->
  let w1 := (dated_service e ck off sv rq w).1 in
  (dated_service e ck off sv' rq' (dated_requests e ck off xs w1)).2 = Replied resp' -> success resp' ->
  exists h t, says_modified resp' h /\ http_date h (seconds t) /\ between ck w w1 t.
Proof.
  intros Hwf Hck Hk Hput Hx Hs Hxs Hrd w1 Hx' Hs'.
  pose proof (object_request _ _ _ (proj1 (proj2 Hput))) as Hb. destruct (ordinary_located k b Hk) as [p Hl].
  destruct (dated_executed _ _ _ _ _ _ _ Hx Hs) as (op & c & r & a & Hf & Ha & Hw1 & Hresp). fold w1 in Hw1.
  destruct (put_called _ _ _ _ _ _ _ Hf Hput) as (class & len & md & -> & -> & _).
  destruct (timed_run e ck (RPutObject b k class len md (Some (cx_body c))) w) as [H1 H2].
  assert (Hrun : run e (put_object e b k class len md (Some (cx_body c))) (w_fs w) = (w_fs w1, Ok a)).
  { rewrite Hw1, H1. rewrite Ha in H2. unfold answer in H2. unfold after. cbn [storage] in *. rewrite H2. by destruct (run e _ (w_fs w)). }
  destruct (put_ok e b k class len md _ p _ _ a Hwf (legal_bucket_segment _ Hb) Hl Hrun) as (fs & _ & _ & _ & Hc & _).
  apply content_Some in Hc as (i & Hi & _).
  assert (Hd : dated b k (mtime_of w1 i) w1) by (exists p, i; done).
  assert (Hbt : between ck w w1 (mtime_of w1 i)).
  { rewrite Hw1 in *. eapply (C84_written e ck _ w a b k); [done|by split|done|done]. }
  assert (Hwf1 : wf (w_fs w1)) by (rewrite Hw1, H1; by apply wf_after).
  destruct (C102_shown e ck off sv' rq' (dated_requests e ck off xs w1) b k (mtime_of w1 i) resp') as (h & Hh & Ht); try done.
  - by apply dated_kept.
  - destruct Hbt as (n & _ & ->). apply Hck.
  - by exists h, (mtime_of w1 i).
Qed.
Print Assumptions C102_uploaded.

(** The same for every request that writes the object, also by copying or by completing an upload, provided
    that the object is there afterwards. *)
Theorem C102_written e ck off sv rq w b k d op c r resp xs sv' rq' resp' :
  wf (w_fs w) -> (forall n, showable off (ck_now ck n)) -> legal_bucket b -> front sv rq = FrCall op c r -> writes r b k ->
  (dated_service e ck off sv rq w).2 = Replied resp -> success resp -> Forall (harmless b k) xs -> reads_object rq' b k ->
  let w1 := (dated_service e ck off sv rq w).1 in has b k d w1 ->
  (dated_service e ck off sv' rq' (dated_requests e ck off xs w1)).2 = Replied resp' -> success resp' ->
  exists h t, says_modified resp' h /\ http_date h (seconds t) /\ between ck w w1 t.
Proof.
  intros Hwf Hck Hb Hf Hwr Hx Hs Hxs Hrd w1 (p & Hl & Hc) Hx' Hs'.
  destruct (dated_executed _ _ _ _ _ _ _ Hx Hs) as (op' & c' & r' & a & Hf' & Ha & Hw1 & Hresp). fold w1 in Hw1.
  rewrite Hf in Hf'. injection Hf' as <- <- <-. apply content_Some in Hc as (i & Hi & _).
  assert (Hd : dated b k (mtime_of w1 i) w1) by (exists p, i; done).
  assert (Hbt : between ck w w1 (mtime_of w1 i)).
  { rewrite Hw1 in *. by eapply (C84_written e ck _ w a b k). }
  assert (Hwf1 : wf (w_fs w1)) by (rewrite Hw1, (proj1 (timed_run e ck r w)); by apply wf_after).
  destruct (C102_shown e ck off sv' rq' (dated_requests e ck off xs w1) b k (mtime_of w1 i) resp') as (h & Hh & Ht); try done.
  - by apply dated_kept.
  - destruct Hbt as (n & _ & ->). apply Hck.
  - by exists h, (mtime_of w1 i).
Qed.
Print Assumptions C102_written.

(** C102, part 4: when two replies show the same Last-Modified, of a second that was over when the first of
    them was asked for, then the object has not changed in between, whatever was done by whomever. *)
Theorem C102_validator e ck off off' sv sv' rq rq' w w' b k c c' t t' resp resp' h s :
  (forall n m, n <= m -> (ck_now ck n <= ck_now ck m)%Z) ->
  has b k c w -> dated b k t w -> showable off t -> reads_object rq b k ->
  (dated_service e ck off sv rq w).2 = Replied resp -> success resp -> (B "last-modified", h) ∈ rs_headers resp ->
  http_date h s -> (s < seconds (ck_now ck (w_calls w)))%Z ->
  tcalls e ck w w' ->
  has b k c' w' -> dated b k t' w' -> showable off' t' -> reads_object rq' b k ->
  (dated_service e ck off' sv' rq' w').2 = Replied resp' -> success resp' -> (B "last-modified", h) ∈ rs_headers resp' ->
  c = c'.
Proof.
  intros Hmono Hc Hd Hsh Hrd Hx Hs Hh Hdt Hold Hcalls Hc' Hd' Hsh' Hrd' Hx' Hs' Hh'.
  destruct (shown _ _ _ _ _ _ _ _ _ _ Hd Hsh Hrd Hx Hs) as (h1 & [_ H1] & Ht1 & G1). apply H1 in Hh as <-.
  destruct (shown _ _ _ _ _ _ _ _ _ _ Hd' Hsh' Hrd' Hx' Hs') as (h2 & [_ H2] & Ht2 & G2). apply H2 in Hh' as <-.
  pose proof (C69_unambiguous _ _ _ Hdt Ht1) as ->.
  by eapply (C84_header_validator e ck w w' b k t t' c c' off off').
Qed.
Print Assumptions C102_validator.

(** ** Listings and copies *)

Lemma stamp_denotes off t : showable off t -> rfc3339 (stamp_text off t) (seconds t).
Proof. intros (H1 & H2 & H3 & _). by apply (C69_stamp_denotes (SysTime (seconds t) _)). Qed.

(** C102, part 5: in a listing, the element of an object shows the second of its last write, in the notation
    of RFC 3339. *)
Theorem C102_listed e ck off sv rq w b k t op c r x resp n xs ys :
  tidy e (w_fs w) -> legal_bucket b -> dated b k t w -> showable off t ->
  front sv rq = FrCall op c r -> r = RListObjects b x \/ r = RListObjectsV2 b x ->
  (dated_service e ck off sv rq w).2 = Replied resp -> success resp ->
  rs_body resp = RbXml (XStack n xs) -> XStack (B "Contents") (XText (B "Key") k :: ys) ∈ xs ->
  exists d z, ys = [XText (B "LastModified") d; XText (B "Size") z] /\ rfc3339 d (seconds t).
Proof.
  intros Ht Hb (p & i & Hl & Hp & <-) Hsh Hf Hr Hx Hs Hbody Hin.
  destruct (dated_executed _ _ _ _ _ _ _ Hx Hs) as (op' & c' & r' & a & Hf' & Ha & _ & Hresp).
  rewrite Hf in Hf'. injection Hf' as <- <- <-.
  pose proof Hf as Hasks%C58_called_as_asked.
  assert (Hop : op = OpListObjects \/ op = OpListObjectsV2) by (destruct Hr as [-> | ->]; inversion Hasks; auto).
  assert (Hlist : exists l cnt, a = AList b l cnt).
  { pose proof (proj2 (timed_run e ck r w)) as Hans. rewrite Ha in Hans. unfold answer in Hans.
    destruct (run e (storage e r) (w_fs w)) as [s' a'] eqn:Er. cbn [snd] in Hans. subst a'.
    assert (Hy : yields e (fun a => exists l cnt, a = AList b l cnt) (storage e r)).
    { destruct Hr as [-> | ->]; cbn [storage]; unfold list_objects;
      repeat first [apply yields_ret; by eauto | yields_step]. }
    by apply (Hy _ _ _ Er). }
  destruct Hlist as (l & cnt & ->).
  assert (Hresp' : exists rest, xs = map (dated_contents (dates_of e ck off r w)) l ++ rest /\ forall m zs, XStack m zs ∉ rest).
  { destruct Hop as [-> | ->]; cbn [dated_respond_ok] in Hresp; injection Hresp as <-; unfold xml_response in Hbody; cbn [rs_body] in Hbody;
    injection Hbody as _ <-; eexists; (split; [reflexivity|]); intros m zs; cbn [app];
    rewrite elem_of_cons, !elem_of_app; unfold opt_element;
    destruct (cx_query c _), (cx_query c _), cnt; rewrite ?elem_of_list_singleton, ?elem_of_nil; intuition discriminate. }
  remember (dates_of e ck off r w) as dts eqn:Edts. destruct Hresp' as (rest & -> & Hrest). apply elem_of_app in Hin as [Hin|Hin]; [|by destruct (Hrest _ _ Hin)].
  apply elem_of_list_In, in_map_iff in Hin as ([k' sz] & Heq & Ho). unfold dated_contents in Heq. cbn [fst snd app] in Heq. injection Heq as -> <-.
  apply elem_of_list_In in Ho.
  destruct (C84_shown e ck w b k p i Hb Hl Hp) as (_ & _ & Hsh3). pose proof (Hsh3 r x sz l cnt Ht Hr Ha Ho) as Hlm.
  assert (Hde : dt_entry dts k = Some (stamp_text off (mtime_of w i))).
  { subst dts. cbn [dates_of dt_entry]. pose proof (located_path e b k p (legal_bucket_segment _ Hb) Hl) as Hpath.
    destruct Hr as [-> | ->]; rewrite Hpath, Hlm; done. }
  rewrite Hde. exists (stamp_text off (mtime_of w i)), (num sz). split; [done|]. by apply stamp_denotes.
Qed.
Print Assumptions C102_listed.

(** C102, part 6: the reply to a copy shows the time of the source. *)
Theorem C102_copied e ck off sv rq w sb sk t op c b k resp n xs :
  legal_bucket sb -> legal_key sk -> LF ∉ sb ++ B "/" ++ sk -> dated sb sk t w -> showable off t ->
  front sv rq = FrCall op c (RCopyObject (sb ++ B "/" ++ sk) b k) ->
  (dated_service e ck off sv rq w).2 = Replied resp -> success resp ->
  rs_body resp = RbXml (XStack n xs) ->
  exists tag d, xs = [XText (B "ETag") tag; XText (B "LastModified") d] /\ rfc3339 d (seconds t).
Proof.
  intros Hsb Hsk Hlf (p & i & Hl & Hp & <-) Hsh Hf Hx Hs Hbody.
  pose proof (copy_source_text sb sk Hsb Hsk Hlf) as Hcs. remember (sb ++ B "/" ++ sk) as src eqn:Esrc. clear Esrc Hlf.
  destruct (dated_executed _ _ _ _ _ _ _ Hx Hs) as (op' & c' & r' & a & Hf' & Ha & _ & Hresp).
  rewrite Hf in Hf'. injection Hf' as <- <- <-.
  pose proof Hf as Hasks%C58_called_as_asked. assert (op = OpCopyObject) as -> by by inversion Hasks.
  pose proof (located_path e sb sk p (legal_bucket_segment _ Hsb) Hl) as Hg.
  assert (Hlm : last_modified e ck (RCopyObject src b k) w = Some (mtime_of w i)).
  { revert Ha. clear Hf Hx Hresp Hbody. unfold last_modified, timed. set (w0 := World _ _ _ []). cbn [storage]. unfold copy_object.
    rewrite Hcs, Hg. cbn [try_path].
    destruct (get_object_path e b k) as [q|]; cbn [try_path]; [|done]. unfold try_io at 1 5. cbn [bind call trun].
    unfold texec at 1 2. cbn [exec]. change (w_fs w0) with (w_fs w). rewrite Hp. destruct (e_os_ok e p); cbn [negb]; [|done].
    match goal with |- (trun e ck ?m ?x).2 = _ -> _ => destruct (first_seen e ck m x (LkPath p, mtime_of w i)) as [l Hseen] end.
    { cbn. by rewrite Hp. }
    match goal with |- context [trun e ck ?m ?x] => destruct (trun e ck m x) as [w' y] end. cbn [fst snd] in *. intros ->. by rewrite Hseen. }
  assert (Hd : dt_whole (dates_of e ck off (RCopyObject src b k) w) = Some (stamp_text off (mtime_of w i))).
  { cbn [dates_of dt_whole]. by rewrite Hlm. }
  assert (Hk : exists tag, a = ACopy tag).
  { pose proof (proj2 (timed_run e ck (RCopyObject src b k) w)) as Hans. rewrite Ha in Hans. unfold answer in Hans.
    destruct (run e (storage e _) (w_fs w)) as [s' a'] eqn:Er. cbn [snd] in Hans. subst a'.
    assert (Hy : yields e (fun a => exists tag, a = ACopy tag) (storage e (RCopyObject src b k))).
    { cbn [storage]. unfold copy_object. repeat first [done | apply yields_ret; by eauto | yields_step]. }
    by apply (Hy _ _ _ Er). }
  destruct Hk as [tag ->]. cbn [dated_respond_ok] in Hresp. rewrite Hd in Hresp. injection Hresp as <-.
  unfold xml_response in Hbody. cbn [rs_body] in Hbody. injection Hbody as _ <-. do 2 eexists. split; [done|]. by apply stamp_denotes.
Qed.
Print Assumptions C102_copied.

(** ** The tables *)

Lemma set_rows_three rows f g k n n' n'' u z t hs :
  List.filter (fun r => beq f (out_field r) || beq g (out_field r) || beq k (out_field r)) rows = [OutputRow f n KTime; OutputRow g n' KInt; OutputRow k n'' KStr] ->
  f <> g -> f <> k -> g <> k ->
  set_rows rows [(f, DStr u); (g, DInt z); (k, DStr t)] hs =
  set_header n'' (Some t) (set_header n' (Some (show_int z)) (match rfc3339_to_last_modified u with Some v => set_header n (Some v) hs | None => None end)).
Proof.
  intros H H1 H2 H3. rewrite set_rows_given.
  assert (List.filter (fun r => match dto_get (out_field r) [(f, DStr u); (g, DInt z); (k, DStr t)] with Some _ => true | None => false end) rows =
    List.filter (fun r => beq f (out_field r) || beq g (out_field r) || beq k (out_field r)) rows) as ->.
  { apply filter_ext. intros r. unfold dto_get. cbn [find fst snd]. by destruct (beq f _), (beq g _), (beq k _). }
  rewrite H. unfold set_rows. cbn [fold_left out_field out_header out_kind]. unfold dto_get. cbn [find fst snd].
  rewrite (proj2 (beq_true f f)), (proj2 (beq_false f g)), (proj2 (beq_true g g)), (proj2 (beq_false f k)), (proj2 (beq_false g k)), (proj2 (beq_true k k)) by done. reflexivity.
Qed.

(** C102, part 7: these replies are the ones that the tables of all headers and elements (C73) give for the
    outputs of the file system with their dates. *)
Theorem C102_file_system op c a d : fits op a = true -> dated_respond_ok op c a d = dto_response op (fs_dated_output op c a d).
Proof.
  assert (Hobj : forall o : bytes * N, object_element (ObjectDto (Some o.1) (dt_entry d o.1) None (Some (Z.of_N o.2)) None None) = dated_contents d o).
  { intros [k n]. unfold object_element, dated_contents, opt_int. cbn [ob_key ob_size ob_modified ob_etag ob_class ob_owner fst snd]. rewrite show_int_N.
    by destruct (dt_entry d k). }
  destruct op, a; try discriminate; intros Hfit; try exact (C73_file_system _ c _ Hfit).
  - (* CopyObject *) cbn. by destruct (dt_whole d).
  - (* GetObject *) unfold dto_response, fs_dated_output. cbn [od_fields od_metadata od_doc od_stream dated_respond_ok]. destruct (dt_whole d) as [u|]; cbn [app].
    + rewrite (set_rows_three _ _ _ _ (B "last-modified") (B "content-length") (B "etag")), show_int_N by (first [discriminate|by vm_compute]).
      unfold date_header, map_opt_rfc3339_to_last_modified. by destruct (rfc3339_to_last_modified u).
    + rewrite (set_rows_two _ _ _ (B "content-length") (B "etag")), show_int_N by (first [discriminate|by vm_compute]). reflexivity.
  - (* HeadObject *) unfold dto_response, fs_dated_output. cbn [od_fields od_metadata od_doc od_stream dated_respond_ok]. destruct (dt_whole d) as [u|]; cbn [app].
    + rewrite (set_rows_three _ _ _ _ (B "last-modified") (B "content-length") (B "content-type")), show_int_N by (first [discriminate|by vm_compute]).
      unfold date_header, map_opt_rfc3339_to_last_modified. by destruct (rfc3339_to_last_modified u).
    + rewrite (set_rows_two _ _ _ (B "content-length") (B "content-type")), show_int_N by (first [discriminate|by vm_compute]). reflexivity.
  - (* ListObjects *) destruct count; [done|]. cbn [fs_dated_output]. unfold dto_response. cbn [od_doc document_of]. unfold listing_common.
    cbn [li_truncated li_marker li_next_marker li_contents li_name li_prefix li_delimiter li_max_keys li_prefixes li_encoding from_option]; unfold id.
    rewrite map_map, (map_ext _ _ Hobj). cbn [opt_element opt_bool opt_int opt_stack app]. cbn [dated_respond_ok]. rewrite app_nil_r. reflexivity.
  - (* ListObjectsV2 *) destruct count as [n|]; [|done]. cbn [fs_dated_output]. unfold dto_response. cbn [od_doc document_of]. unfold listing_common.
    cbn [li_truncated li_contents li_name li_prefix li_delimiter li_max_keys li_prefixes li_encoding li_count li_token li_next_token li_start_after from_option]; unfold id.
    rewrite map_map, (map_ext _ _ Hobj). cbn [opt_element opt_bool opt_int opt_stack app]. cbn [dated_respond_ok]. rewrite show_int_N, <- !app_assoc. cbn [app]. rewrite <- !app_assoc. reflexivity.
Qed.
Print Assumptions C102_file_system.

(** ** Witnesses *)

Definition ex_visit (xs : list http_request) (ck : clock) : world :=
  dated_requests ex_env ck 3600 (map (fun rq => (ex_open_server, rq)) xs) ex_world.
Definition ex_make : http_request := HttpRequest (B "PUT") (B "/bkt") None [] [].
Definition ex_fetch (hs : list (bytes * bytes)) : http_request := HttpRequest (B "GET") (B "/bkt/a") None hs [].

Lemma ex_fetches hs : gets_object (ex_fetch hs) (B "bkt") (B "a").
Proof. split; [done|]. apply request_path_spec. exists (B "/bkt/a"). split; by vm_compute. Qed.
Lemma ex_at : located (B "bkt") (B "a") [B "bkt"; B "a"].
Proof. exists [B "a"]. split_and!; try done. repeat constructor; try done; compute_done. Qed.

(* An object with a time in the year 10000 is stored, but cannot be downloaded: the server answers with an
   internal error (/repo/src/ops/get_object.rs:90-93). *)
Definition ex_far : clock := Clock (fun n => 253402300800000000000 + 1000 * Z.of_nat n)%Z (fun _ _ => 0%Z).
Theorem C102_far_future_refuted : exists e ck off sv rq w b k c,
  (forall n, (ck_now ck n < ck_now ck (S n))%Z) /\ has b k c w /\ gets_object rq b k /\
  (exists resp, (exchange e sv rq (w_fs w)).2 = Replied resp /\ success resp) /\
  (dated_service e ck off sv rq w).2 = Replied (error_response InternalError).
Proof.
  pose (w := ex_visit [ex_make; ex_put_object (B "/bkt/a") [] (B "hello")] ex_far).
  exists ex_env, ex_far, 0%Z, ex_open_server, (ex_fetch []), w, (B "bkt"), (B "a"), (B "hello"). split_and!.
  - intros n. cbn [ck_now ex_far]. lia.
  - eexists. split; [apply ex_at|]. by vm_compute.
  - apply ex_fetches.
  - eexists. split; [vm_compute; reflexivity|]. split; [by vm_compute|]. by intros.
  - by vm_compute.
Qed.
Print Assumptions C102_far_future_refuted.

(* RFC 9110, section 13.1.3, expects status 304 when the object has not been modified since the date that
   the request names.  The object is sent again. *)
Theorem C102_conditional_refuted : exists e ck off sv rq w b k t h s resp,
  dated b k t w /\ showable off t /\ gets_object rq b k /\ (B "if-modified-since", h) ∈ rq_headers rq /\
  http_date h s /\ (seconds t <= s)%Z /\
  (dated_service e ck off sv rq w).2 = Replied resp /\ rs_status resp = 200%N /\ rs_body resp <> RbEmpty.
Proof.
  pose (w := ex_visit [ex_make; ex_put_object (B "/bkt/a") [] (B "hello")] ex_clock).
  assert (Hsh : showable 3600 1609459200000006000) by (split_and!; try done; by exists 60%Z).
  destruct (C84_header _ _ Hsh) as (h & Hh & Hd).
  assert (h = B "Fri, 01 Jan 2021 00:00:00 GMT") as -> by (vm_compute in Hh; by injection Hh).
  exists ex_env, ex_clock, 3600%Z, ex_open_server, (ex_fetch [(B "if-modified-since", B "Fri, 01 Jan 2021 00:00:00 GMT")]), w, (B "bkt"), (B "a").
  exists 1609459200000006000%Z, (B "Fri, 01 Jan 2021 00:00:00 GMT"), (seconds 1609459200000006000). eexists. split_and!.
  - eexists _, _. split_and!; [apply ex_at|vm_compute; reflexivity|vm_compute; reflexivity].
  - exact Hsh.
  - apply ex_fetches.
  - by left.
  - exact Hd.
  - done.
  - vm_compute; reflexivity.
  - done.
  - done.
Qed.
Print Assumptions C102_conditional_refuted.

(* An upload, a copy, a listing and a download, one hour east of Greenwich. *)
Definition ex_copy : http_request := HttpRequest (B "PUT") (B "/bkt/b") None [(B "x-amz-copy-source", B "bkt/a")] [].
Definition ex_history : list http_request := [ex_make; ex_put_object (B "/bkt/a") [] (B "hello")].
Example C102_ex :
  (exists etag body, (dated_service ex_env ex_clock 3600 ex_open_server (ex_fetch []) (ex_visit ex_history ex_clock)).2 =
     Replied (Response 200 [(B "last-modified", B "Fri, 01 Jan 2021 00:00:00 GMT"); (B "content-length", B "5"); (B "etag", etag)] body)) /\
  (dated_service ex_env ex_clock 3600 ex_open_server (HttpRequest (B "GET") (B "/bkt") None [] []) (ex_visit ex_history ex_clock)).2 =
     Replied (xml_response 200 (XStack (B "ListBucketResult")
       [XStack (B "Contents") [XText (B "Key") (B "a"); XText (B "LastModified") (B "2021-01-01T01:00:00.000006+01:00"); XText (B "Size") (B "5")];
        XText (B "Name") (B "bkt")])).
Proof. split; [do 2 eexists|]; vm_compute; reflexivity. Qed.
Example C102_ex_copy : exists etag,
  (dated_service ex_env ex_clock 3600 ex_open_server ex_copy (ex_visit ex_history ex_clock)).2 =
     Replied (xml_response 200 (XStack (B "CopyObjectResult") [XText (B "ETag") etag; XText (B "LastModified") (B "2021-01-01T01:00:00.000006+01:00")])).
Proof. eexists. vm_compute. reflexivity. Qed.
