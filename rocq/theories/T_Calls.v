(** C58: the storage is called with what the request says. *)
From Verif Require Import M_Base M_Crypto M_Utf8 M_Path M_Headers M_Http M_Auth M_Ops M_Service M_Fs
  S_Path S_Headers S_SigV4 S_Chunked S_Service S_Dispatch S_Calls
  L_Base L_Path L_Headers L_Auth L_Ordered L_SigV4 L_Crypto L_Chunked L_Utf8 L_Service L_Request
  L_Json T_Headers T_Ordered T_Canonical T_Chunked T_Multipart T_Auth T_Presigned T_Policy T_Dispatch.

Local Opaque sha256 hmac_sha256.

(** ** Values *)

Lemma parse_i64_spec t z : parse_i64 t = Some z <-> int_text t z.
Proof.
  unfold int_text. split.
  - unfold parse_i64. destruct t as [|a l]; [done|].
    destruct (aeq a "-") eqn:Em; cbn [orb].
    + apply aeq_true in Em as ->. destruct l as [|d l']; [done|].
      destruct (forallb is_digit (d :: l')) eqn:Ed; [|done].
      destruct (_ <=? _)%Z eqn:E; [|done]. intros [= <-]. apply Z.leb_le in E. unfold i64_max in E.
      split; [lia|]. exists (d :: l'), (dec_val (d :: l')). split; [by apply denotes_spec|].
      right. right. done.
    + set (ds := if aeq a "+" then l else a :: l). destruct ds as [|d l'] eqn:Eds; [done|].
      destruct (forallb is_digit (d :: l')) eqn:Ed; [|done].
      destruct (_ <=? _)%Z eqn:E; [|done]. intros [= <-]. apply Z.leb_le in E. unfold i64_max in E.
      split; [lia|]. exists (d :: l'), (dec_val (d :: l')). split; [by apply denotes_spec|].
      subst ds. destruct (aeq a "+") eqn:Ep.
      * apply aeq_true in Ep as ->. right. left. by subst l.
      * left. by split.
  - intros (Hz & ds & n & Hd & H). destruct H as [[-> ->]|[[-> ->]|[-> ->]]].
    + apply parse_i64_denotes; [done|lia].
    + apply denotes_spec in Hd as (Hne & Hd & <-). destruct ds as [|d l]; [done|].
      change (B "+" ++ d :: l) with ("+"%char :: d :: l). unfold parse_i64. cbv beta iota zeta.
      change (aeq "+" "-") with false. change (aeq "+" "+") with true. cbn [orb].
      rewrite Hd. destruct (_ <=? _)%Z eqn:E; [done|]. apply Z.leb_gt in E. unfold i64_max in E. lia.
    + apply denotes_spec in Hd as (Hne & Hd & <-). destruct ds as [|d l]; [done|].
      change (B "-" ++ d :: l) with ("-"%char :: d :: l). unfold parse_i64. cbv beta iota zeta.
      change (aeq "-" "-") with true. cbn [orb].
      rewrite Hd. destruct (_ <=? _)%Z eqn:E; [done|]. apply Z.leb_gt in E. unfold i64_max in E. lia.
Qed.

Lemma parse_bool_ok t : t = B "true" \/ t = B "false" -> is_Some (parse_bool t).
Proof. intros [-> | ->]; eexists; reflexivity. Qed.

(** ** Metadata *)

Lemma md_insert_names k v m n : n ∈ (md_insert k v m).*1 <-> n = k \/ n ∈ m.*1.
Proof.
  induction m as [|[k' v'] m IH]; cbn [md_insert fmap list_fmap fst].
  - rewrite !elem_of_cons, elem_of_nil. naive_solver.
  - destruct (beq k' k) eqn:E; cbn [fmap list_fmap fst]; rewrite !elem_of_cons.
    + apply beq_true in E as ->. naive_solver.
    + rewrite IH. naive_solver.
Qed.

Lemma md_insert_NoDup k v m : NoDup m.*1 -> NoDup (md_insert k v m).*1.
Proof.
  induction m as [|[k' v'] m IH]; cbn [md_insert fmap list_fmap fst]; intros H.
  - apply NoDup_singleton.
  - apply NoDup_cons in H as [Hn H]. destruct (beq k' k) eqn:E; cbn [fmap list_fmap fst].
    + by constructor.
    + constructor; [|by apply IH]. rewrite md_insert_names. apply beq_false in E. naive_solver.
Qed.

Lemma md_insert_elem k v m x : x ∈ md_insert k v m -> x = (k, v) \/ x ∈ m.
Proof.
  induction m as [|[k' v'] m IH]; cbn [md_insert].
  - rewrite elem_of_list_singleton. auto.
  - destruct (beq k' k) eqn:E; rewrite !elem_of_cons; [apply beq_true in E as ->|]; naive_solver.
Qed.

Lemma collect_metadata_spec l :
  NoDup (collect_metadata l).*1 /\
  (forall n v, (n, v) ∈ collect_metadata l -> n <> [] /\ (B "x-amz-meta-" ++ n, v) ∈ l) /\
  (forall n v, (B "x-amz-meta-" ++ n, v) ∈ l -> n <> [] -> n ∈ (collect_metadata l).*1).
Proof.
  unfold collect_metadata.
  set (f := fun (m : metadata) (h : bytes * bytes) => match strip_prefix (B "x-amz-meta-") h.1 with
                        | Some (a :: k) => md_insert (a :: k) h.2 m
                        | _ => m
                        end).
  induction l as [|h l IH] using rev_ind.
  - split; [constructor|]. split; intros n v H; by apply elem_of_nil in H.
  - rewrite fold_left_app. cbn [fold_left]. destruct IH as (H1 & H2 & H3).
    set (m := fold_left f l []) in *. unfold f. destruct h as [hn hv]. cbn [fst snd].
    destruct (strip_prefix (B "x-amz-meta-") hn) as [[|a k]|] eqn:E.
    + apply strip_prefix_Some in E. split; [done|]. split.
      * intros n v Hn. destruct (H2 n v Hn). rewrite elem_of_app. auto.
      * intros n v [Hn|[Hn ->]%elem_of_list_singleton%pair_equal_spec]%elem_of_app Hne; [eauto|].
        rewrite E in Hn. apply app_inv_head in Hn. done.
    + apply strip_prefix_Some in E. split; [by apply md_insert_NoDup|]. split.
      * intros n v [[= -> ->]|Hn]%md_insert_elem.
        { split; [done|]. rewrite elem_of_app, elem_of_list_singleton, E. auto. }
        destruct (H2 n v Hn). rewrite elem_of_app. auto.
      * intros n v [Hn|[Hn ->]%elem_of_list_singleton%pair_equal_spec]%elem_of_app Hne; rewrite md_insert_names; [eauto|].
        rewrite E in Hn. apply app_inv_head in Hn. auto.
    + rewrite strip_prefix_None in E. split; [done|]. split.
      * intros n v Hn. destruct (H2 n v Hn). rewrite elem_of_app. auto.
      * intros n v [Hn|[Hn ->]%elem_of_list_singleton%pair_equal_spec]%elem_of_app Hne; [eauto|]. by destruct (E n).
Qed.

Lemma non_empty_metadata l : user_metadata l (non_empty (collect_metadata l)).
Proof.
  destruct (collect_metadata_spec l) as (H1 & H2 & H3). unfold user_metadata.
  destruct (collect_metadata l) as [|x m] eqn:E; cbn [non_empty].
  - intros n v Hn. destruct n as [|a n]; [done|]. specialize (H3 _ _ Hn). by apply elem_of_nil in H3.
  - split; [done|]. auto.
Qed.

Lemma user_metadata_perm l k md : l ≡ₚ k -> user_metadata l md -> user_metadata k md.
Proof.
  intros Hp. unfold user_metadata. destruct md as [m|].
  - intros (H1 & H2 & H3 & H4). split; [done|]. split; [done|]. split.
    + intros n v H. destruct (H3 n v H). by rewrite <- Hp.
    + intros n v H. rewrite <- Hp in H. eauto.
  - intros H n v Hn. rewrite <- Hp in Hn. eauto.
Qed.

(** ** Arguments *)

Lemma entered_param sv rq c n : entered sv rq c -> given_param rq n (cx_query c n).
Proof.
  intros He. pose proof (entered_has _ _ _ n He) as H. unfold given_param.
  destruct (cx_query c n) as [v|] eqn:E; cbn [some] in H; [|done].
  exists (params_of rq). split; [by apply params_of_spec|]. apply cx_query_params.
  apply entered_ctx in He as (_ & _ & _ & Hq & _). unfold cx_query in E. by rewrite Hq in E.
Qed.

Lemma entered_given sv rq c n : entered sv rq c -> given_header rq n (cx_header c n).
Proof.
  intros He. pose proof (entered_header _ _ _ n He) as H. unfold given_header.
  destruct (cx_header c n) as [v|] eqn:E; cbn [some] in H; [|done].
  apply entered_ctx in He as (_ & _ & Hh & _). unfold cx_header in E. rewrite Hh in E.
  by apply C08_lookup_sound in E.
Qed.

Lemma entered_int sv rq c n o : entered sv rq c ->
  assign parse_i64 (cx_header c n) = Done o -> given_int_header rq n o.
Proof.
  intros He Ha. pose proof (entered_given _ _ _ n He) as H. unfold given_header in H.
  unfold assign in Ha. destruct (cx_header c n) as [v|]; [|by injection Ha as <-].
  destruct (parse_i64 v) as [z|] eqn:E; [|done]. injection Ha as <-. exists v. split; [done|].
  by apply parse_i64_spec.
Qed.

Lemma obind_Done {A B} (o : outcome A) (f : A -> outcome B) b :
  obind o f = Done b -> exists a, o = Done a /\ f a = Done b.
Proof. destruct o; cbn; try done. eauto. Qed.

Lemma Done_inj {A} (a b : A) : Done a = Done b -> a = b.
Proof. by intros [=]. Qed.

Lemma xml_body_Done {A} (parse : bytes -> option A) c a :
  xml_body parse c = Done a <-> broken (cx_body c) = false /\ parse (carried (cx_body c)) = Some a.
Proof.
  unfold xml_body. destruct (to_bytes (cx_body c)) as [b|] eqn:E.
  - apply to_bytes_spec in E as [-> ->]. unfold ok_or. destruct (parse b); naive_solver.
  - split; [done|]. intros [Hb _].
    assert (to_bytes (cx_body c) = Some (carried (cx_body c))) by (by apply to_bytes_spec). congruence.
Qed.

Lemma file_frames l e :
  carried (map FData l ++ (if e : bool then [] else [FErr])) = concat l /\
  broken (map FData l ++ (if e : bool then [] else [FErr])) = negb e.
Proof.
  induction l as [|x l [IH1 IH2]]; [by destruct e|]. split.
  - cbn [map app carried concat]. by rewrite IH1.
  - exact IH2.
Qed.

Lemma frames_of_file_spec r :
  carried (frames_of_file r) = concat r.1 /\ (broken (frames_of_file r) = false <-> r.2 = FileOk).
Proof.
  destruct r as [l e]. unfold frames_of_file. cbn [fst snd].
  destruct e; [pose proof (file_frames l true) as [-> ->]|pose proof (file_frames l false) as [-> ->]..]; done.
Qed.

Ltac step H := apply obind_Done in H as (? & ? & H).

Lemma extract_asks sv rq c op r :
  entered sv rq c -> dispatch c = Some op -> extract sv op c = Done r ->
  asks sv rq (cx_body c) (cx_multipart c) op r.
Proof.
  intros He Hd Hx. destruct (entered_ctx _ _ _ He) as (Hp & Hm & Hh & Hq & Hv & mo & Hmo & Hmp).
  assert (HB : forall b, unwrap_bucket_path c = Done b -> request_path rq (PBucket b)).
  { unfold unwrap_bucket_path. intros b. destruct (cx_path c); naive_solver. }
  assert (HO : forall b, unwrap_object_path c = Done b -> request_path rq (PObject b.1 b.2)).
  { unfold unwrap_object_path. intros b. destruct (cx_path c); naive_solver. }
  assert (HQ : forall n v, unwrap (cx_query c n) = Done v -> given_param rq n (Some v)).
  { intros n v Hn. pose proof (entered_param _ _ _ n He) as H. destruct (cx_query c n); naive_solver. }
  assert (HH : forall n v, unwrap (cx_header c n) = Done v -> (n, v) ∈ rq_headers rq).
  { intros n v Hn. pose proof (entered_given _ _ _ n He) as H. destruct (cx_header c n); naive_solver. }
  destruct op; cbn [extract] in Hx.
  - step Hx. step Hx. step Hx. apply Done_inj in Hx as <-. apply xml_body_Done in H as [Hx1 Hx2].
    eapply ask_complete; eauto.
  - step Hx. step Hx. destruct (copy_source_try_match _); [|done]. apply Done_inj in Hx as <-.
    eapply ask_copy; eauto.
  - step Hx. step Hx. step Hx. apply Done_inj in Hx as <-. apply xml_body_Done in H0 as [Hx1 Hx2].
    eapply ask_create_bucket; eauto. by destruct (sv_xml_bucket _ _).
  - step Hx. apply Done_inj in Hx as <-. eapply ask_create_upload; eauto.
  - step Hx. apply Done_inj in Hx as <-. eapply ask_delete_bucket; eauto.
  - step Hx. step Hx. apply Done_inj in Hx as <-. eapply ask_delete; eauto.
  - step Hx. step Hx. step Hx. apply Done_inj in Hx as <-. apply xml_body_Done in H0 as [Hx1 Hx2].
    eapply ask_delete_objects; eauto.
  - step Hx. apply Done_inj in Hx as <-. eapply ask_location; eauto.
  - step Hx. apply Done_inj in Hx as <-. eapply ask_get; eauto using entered_given.
  - step Hx. apply Done_inj in Hx as <-. eapply ask_head_bucket; eauto.
  - step Hx. apply Done_inj in Hx as <-. eapply ask_head; eauto.
  - apply Done_inj in Hx as <-. constructor.
  - step Hx. step Hx. apply Done_inj in Hx as <-. eapply ask_list; eauto using entered_param.
  - step Hx. step Hx. step Hx. apply Done_inj in Hx as <-. eapply ask_list_v2; eauto using entered_param.
  - unfold extract_put in Hx. step Hx. step Hx. rename x into bk, x0 into len.
    assert (Hlen := entered_int _ _ _ _ _ He H0).
    assert (Hmd : user_metadata (rq_headers rq) (non_empty (collect_metadata (cx_headers c)))).
    { eapply user_metadata_perm; [|apply non_empty_metadata]. rewrite Hh. apply sort_by_perm. }
    assert (Hcl := entered_given _ _ _ (B "x-amz-storage-class") He).
    destruct (cx_multipart c) as [m|] eqn:Em.
    + apply Done_inj in Hx as <-. cbn [some] in Hmp. symmetry in Hmp. apply andb_true_iff in Hmp as [Hpost _].
      rewrite Hm, Hpost in H. step H. cbn [unwrap obind] in H. step H.
      destruct (check_key x0) eqn:Ek; [|done]. injection H as <-. cbn [fst snd].
      unfold ok_or in H2. destruct (find_field_value m (B "key")) as [k|] eqn:Ekf; [|done].
      injection H2 as ->. destruct (frames_of_file_spec (mp_stream m)) as [Hf1 Hf2].
      eapply (ask_form sv rq (cx_body c) (Some m) x m x0
               (find_field_value m (B "x-amz-storage-class")) (cx_header c (B "x-amz-storage-class")) _ len
               (non_empty (collect_metadata (lower_names (mp_fields m))))
               (non_empty (collect_metadata (cx_headers c)))); try done; auto.
      * by apply field_value_spec.
      * by apply check_key_spec.
      * intros y Hy. by apply field_value_spec.
      * intros Hy y Hf. apply field_value_spec in Hf. congruence.
      * unfold overridden. by destruct (find_field_value m (B "x-amz-storage-class")).
      * apply non_empty_metadata.
      * unfold overridden. by destruct (non_empty (collect_metadata (lower_names (mp_fields m)))).
    + apply Done_inj in Hx as <-. eapply ask_put; try done.
      destruct (beq (cx_method c) (B "POST")).
      * step H. cbn [unwrap obind] in H. done.
      * destruct (beq (cx_method c) (B "PUT")); [|done]. auto.
  - step Hx. step Hx. step Hx. step Hx. step Hx. apply Done_inj in Hx as <-.
    unfold ok_or in H1. destruct (parse_i64 x0) as [z|] eqn:Ez; [|done]. injection H1 as ->.
    apply parse_i64_spec in Ez. eapply ask_part; eauto.
Qed.

Theorem C58_called_as_asked sv rq op c r :
  front sv rq = FrCall op c r -> asks sv rq (cx_body c) (cx_multipart c) op r.
Proof.
  intros Hf. destruct (front_entered sv rq) as [(e & H & _)|(c' & He & H)]; [congruence|].
  rewrite H in Hf. destruct (_ && some _); [done|]. unfold handle_with in Hf.
  destruct (dispatch c') as [op'|] eqn:Ed; [|done]. destruct (extract sv op' c') as [r'| |] eqn:Ex; try done.
  injection Hf as -> -> ->. by apply extract_asks.
Qed.
Print Assumptions C58_called_as_asked.

(* The body is passed on as it came, unless it is a form or signed in chunks. *)
Theorem C58_body_as_sent sv rq op c r :
  front sv rq = FrCall op c r -> cx_multipart c = None ->
  (B "x-amz-content-sha256", B "STREAMING-AWS4-HMAC-SHA256-PAYLOAD") ∉ rq_headers rq ->
  same_body rq c.
Proof.
  intros Hf Hm Hs. destruct (sv_auth sv) as [prov|] eqn:Ea.
  - destruct (C12_executed_as_signed sv prov rq op c r Ea Hf) as [_ [H|[H|H]]].
    + destruct H as (a & secret & ts & sha & ps & payload & creq & d & H & _ & _ & Hb & _).
      apply Hb. intros ->. apply Hs. by destruct H.
    + by destruct H as (_ & ? & _).
    + naive_solver.
  - destruct (front_entered sv rq) as [(e & H & _)|(c' & He & H)]; [congruence|].
    rewrite H in Hf. destruct (_ && some _); [done|]. unfold handle_with in Hf.
    destruct (dispatch c') as [op'|] eqn:Ed; [|done]. destruct (extract sv op' c') as [r'| |] eqn:Ex; try done.
    injection Hf as -> -> ->. destruct He as (c0 & Hc0 & Hsig).
    apply make_ctx_inv in Hc0 as (p & m & Hp & Hv & Hmi & ->).
    unfold check_signature, check_post_signature, check_presigned_url, check_header_auth in Hsig.
    rewrite Ea in Hsig. cbv zeta in Hsig.
    repeat (match type of Hsig with match ?x with _ => _ end = _ => destruct x; try discriminate Hsig end).
    injection Hsig as <-. done.
Qed.
Print Assumptions C58_body_as_sent.

(** ** Which requests get through *)

Lemma assign_int_header sv rq c n : entered sv rq c -> ints_ok rq n ->
  exists o, assign parse_i64 (cx_header c n) = Done o.
Proof.
  intros He Hi. pose proof (entered_given _ _ _ n He) as H. unfold given_header, assign in *.
  destruct (cx_header c n) as [v|]; [|eauto]. destruct (Hi v H) as (z & Hz).
  apply parse_i64_spec in Hz as ->. eauto.
Qed.

Lemma assign_int_param sv rq c n : entered sv rq c -> int_params_ok rq n ->
  exists o, assign parse_i64 (cx_query c n) = Done o.
Proof.
  intros He Hi. pose proof (entered_param _ _ _ n He) as H. unfold given_param, assign in *.
  destruct (cx_query c n) as [v|]; [|eauto]. destruct H as (ps & Hps & H).
  destruct (Hi ps v Hps H) as (z & Hz). apply parse_i64_spec in Hz as ->. eauto.
Qed.

Lemma assign_bool_header sv rq c n : entered sv rq c -> bools_ok rq n ->
  exists o, assign parse_bool (cx_header c n) = Done o.
Proof.
  intros He Hi. pose proof (entered_given _ _ _ n He) as H. unfold given_header, assign in *.
  destruct (cx_header c n) as [v|]; [|eauto]. destruct (parse_bool_ok v (Hi v H)) as [? ->]. eauto.
Qed.

Lemma assign_bool_param sv rq c n : entered sv rq c -> bool_params_ok rq n ->
  exists o, assign parse_bool (cx_query c n) = Done o.
Proof.
  intros He Hi. pose proof (entered_param _ _ _ n He) as H. unfold given_param, assign in *.
  destruct (cx_query c n) as [v|]; [|eauto]. destruct H as (ps & Hps & H).
  destruct (parse_bool_ok v (Hi ps v Hps H)) as [? ->]. eauto.
Qed.

Lemma copy_source_try_match_spec src : LF ∉ src ->
  copy_source_try_match src = true <-> exists x y, x <> [] /\ y <> [] /\ src = x ++ B "/" ++ y.
Proof.
  intros Hl. unfold copy_source_try_match. rewrite (split_all_free LF src) by done. cbn [existsb].
  rewrite orb_false_r. unfold re_line_matches. destruct src as [|a l].
  { split; [done|]. intros (x & y & Hx & _ & H). by destruct x. }
  destruct (split_once "/" l) as [[x y]|] eqn:E.
  - apply split_once_Some in E as [-> Hx]. destruct y as [|b y].
    + split; [done|]. intros (x' & y' & Hx' & Hy' & H). destruct x' as [|a' x']; [done|].
      injection H as -> H. exfalso.
      change (B "/" ++ y') with ("/"%char :: y') in H.
      destruct (decide ("/"%char ∈ x')) as [Hin|Hin].
      * apply elem_of_list_split_l in Hin as (u & v & -> & Hu). rewrite <- app_assoc in H.
        change (x ++ ["/"%char]) with (x ++ "/"%char :: []) in H.
        apply app_sep_inj in H as [_ Hv]; [|done..]. by destruct v.
      * change (x ++ ["/"%char]) with (x ++ "/"%char :: []) in H.
        apply app_sep_inj in H as [_ <-]; done.
    + split; [|done]. intros _. exists (a :: x), (b :: y). done.
  - apply split_once_None in E. split; [done|]. intros (x & y & Hx & _ & H).
    destruct x as [|a' x]; [done|]. injection H as -> ->. destruct E.
    rewrite elem_of_app, elem_of_cons. auto.
Qed.

Lemma visible_no_LF v : visible v -> LF ∉ v.
Proof. intros H Hin. destruct (H _ Hin) as [H1|H1]; [vm_compute in H1; naive_solver lia|done]. Qed.

Lemma extract_complete sv rq c op :
  entered sv rq c -> dispatch c = Some op -> ~ root_part rq ->
  arguments_ok sv rq (cx_body c) (cx_multipart c) op -> exists r, extract sv op c = Done r.
Proof.
  intros He Hd Hr Hok. destruct (extract sv op c) as [r|e|] eqn:Hx; [eauto|exfalso..].
  2: { destruct Hr. eapply root_part_ctx; [done|]. by eapply extract_no_panic. }
  destruct (entered_ctx _ _ _ He) as (Hp & Hm & Hh & Hq & Hv & mo & Hmo & Hmp).
  assert (HX : forall A (parse : bytes -> option A), document_ok parse (cx_body c) ->
    exists x, xml_body parse c = Done x).
  { intros A parse (H1 & x & H2). exists x. by apply xml_body_Done. }
  assert (HB : forall e', unwrap_bucket_path c <> Fail e').
  { unfold unwrap_bucket_path. by destruct (cx_path c). }
  assert (HO : forall e', unwrap_object_path c <> Fail e').
  { unfold unwrap_object_path. by destruct (cx_path c). }
  assert (HU : forall A (o : option A) e', unwrap o <> Fail e') by (by intros A [|]).
  destruct op; cbn [extract arguments_ok] in Hx, Hok.
  - destruct (HX _ _ Hok) as [x Ex]. rewrite Ex in Hx. cbn [obind] in Hx.
    destruct (unwrap_object_path c) eqn:E1; cbn [obind] in Hx; [|congruence|done].
    destruct (unwrap (cx_query c _)) eqn:E2; cbn [obind] in Hx; [done|by eapply HU|done].
  - destruct (unwrap_object_path c) eqn:E1; cbn [obind] in Hx; [|congruence|done].
    destruct (unwrap (cx_header c _)) as [src| |] eqn:E2; cbn [obind] in Hx; [|by eapply HU|done].
    pose proof (entered_given _ _ _ (B "x-amz-copy-source") He) as Hg.
    destruct (cx_header c _) as [src'|]; [|done]. apply Done_inj in E2 as ->.
    destruct (Hok src Hg) as (x & y & Hx1 & Hy & Hl & Hs).
    assert (copy_source_try_match src = true) as Ht by (apply copy_source_try_match_spec; eauto).
    by rewrite Ht in Hx.
  - destruct Hok as (H1 & H2 & H3). destruct (unwrap_bucket_path c) eqn:E1; cbn [obind] in Hx; [|congruence|done].
    destruct (HX _ (fun x => if sv_xml_bucket sv x then Some tt else None)) as [x Ex].
    { split; [done|]. rewrite H2. eauto. }
    rewrite Ex in Hx. cbn [obind] in Hx.
    destruct (assign_bool_header _ _ _ _ He H3) as [o Eo]. by rewrite Eo in Hx.
  - destruct (unwrap_object_path c) eqn:E1; cbn [obind] in Hx; congruence.
  - destruct (unwrap_bucket_path c) eqn:E1; cbn [obind] in Hx; congruence.
  - destruct (unwrap_object_path c) eqn:E1; cbn [obind] in Hx; [|congruence|done].
    destruct (assign_bool_header _ _ _ _ He Hok) as [o Eo]. by rewrite Eo in Hx.
  - destruct Hok as (H1 & H3). destruct (unwrap_bucket_path c) eqn:E1; cbn [obind] in Hx; [|congruence|done].
    destruct (HX _ _ H1) as [x Ex]. rewrite Ex in Hx. cbn [obind] in Hx.
    destruct (assign_bool_header _ _ _ _ He H3) as [o Eo]. by rewrite Eo in Hx.
  - destruct (unwrap_bucket_path c) eqn:E1; cbn [obind] in Hx; congruence.
  - destruct (unwrap_object_path c) eqn:E1; cbn [obind] in Hx; congruence.
  - destruct (unwrap_bucket_path c) eqn:E1; cbn [obind] in Hx; congruence.
  - destruct (unwrap_object_path c) eqn:E1; cbn [obind] in Hx; congruence.
  - done.
  - destruct (unwrap_bucket_path c) eqn:E1; cbn [obind] in Hx; [|congruence|done].
    destruct (assign_int_param _ _ _ _ He Hok) as [o Eo]. by rewrite Eo in Hx.
  - destruct (unwrap_bucket_path c) eqn:E1; cbn [obind] in Hx; [|congruence|done]. destruct Hok as [H1 H2].
    destruct (assign_bool_param _ _ _ _ He H2) as [o Eo]. rewrite Eo in Hx. cbn [obind] in Hx.
    destruct (assign_int_param _ _ _ _ He H1) as [o' Eo']. by rewrite Eo' in Hx.
  - destruct Hok as [H1 H2]. destruct (assign_int_header _ _ _ _ He H1) as [len Elen].
    unfold extract_put in Hx. rewrite Elen in Hx.
    destruct (cx_multipart c) as [m|] eqn:Em; cbn [obind] in Hx.
    + cbn [some] in Hmp. symmetry in Hmp. apply andb_true_iff in Hmp as [Hpost _].
      rewrite Hm, Hpost in Hx. destruct (unwrap_bucket_path c) eqn:E1; cbn [obind unwrap] in Hx; [|congruence|done].
      destruct H2 as (k & Hk & Hlen). apply field_value_spec in Hk. rewrite Hk in Hx. cbn [ok_or obind] in Hx.
      apply check_key_spec in Hlen. by rewrite Hlen in Hx.
    + destruct (beq (cx_method c) (B "POST")).
      * destruct (unwrap_bucket_path c) eqn:E1; cbn [obind unwrap] in Hx; congruence.
      * destruct (beq (cx_method c) (B "PUT")); [|done].
        destruct (unwrap_object_path c) eqn:E1; cbn [obind] in Hx; congruence.
  - destruct (unwrap_object_path c) eqn:E1; cbn [obind] in Hx; [|congruence|done]. destruct Hok as [H1 H2].
    destruct (unwrap (cx_query c (B "partNumber"))) as [t| |] eqn:E2; cbn [obind] in Hx; [|by eapply HU|done].
    destruct (assign_int_param _ _ _ _ He H1) as [o Eo]. unfold assign in Eo.
    destruct (cx_query c (B "partNumber")) as [t'|]; [|done]. apply Done_inj in E2 as ->.
    destruct (parse_i64 t); [|done]. cbn [ok_or obind] in Hx.
    destruct (unwrap (cx_query c (B "uploadId"))) as [u| |] eqn:E3; cbn [obind] in Hx; [|by eapply HU|done].
    destruct (assign_int_header _ _ _ _ He H2) as [len Elen]. by rewrite Elen in Hx.
Qed.

(** A request that has been authenticated, denotes an operation and has readable arguments
    reaches the storage. *)
Theorem C58_well_formed_called sv rq c op :
  entered sv rq c -> selects_once sv rq -> denotes_op sv rq op ->
  arguments_ok sv rq (cx_body c) (cx_multipart c) op ->
  exists r, front sv rq = FrCall op c r.
Proof.
  intros He Hs Hop Hok. pose proof Hop as (p & Hp & Ha & Hl).
  destruct (entered_ctx _ _ _ He) as (Hp' & Hm & _). pose proof (request_path_fun _ _ _ Hp Hp') as ->.
  pose proof (entered_form _ _ _ He Hs) as Hform.
  assert (Hnr : ~ root_part rq).
  { intros (H1 & H2 & _). pose proof (request_path_fun _ _ _ Hp H2) as Hpp. rewrite Hpp in Ha.
    rewrite H1 in Ha. clear - Ha. inversion Ha; discriminate. }
  assert (Hno : some (cx_multipart c) && is_object (cx_path c) = false).
  { destruct (some (cx_multipart c)); [|done]. destruct (is_object (cx_path c)) eqn:Eo; [|done]. exfalso.
    destruct Hform as [Hpost Hf]. assert (form_post sv rq) as Hfp by done.
    rewrite Hpost in Ha. clear - Ha Eo Hfp.
    inversion Ha; try discriminate; try done;
    match goal with H : cx_path c = _ |- _ => rewrite H in Eo; discriminate Eo end. }
  apply (C52_dispatch_partial sv rq c op He Hs Hl Hnr Hno) in Hop.
  destruct (extract_complete sv rq c op He Hop Hnr Hok) as [r Hr]. exists r.
  destruct (front_entered sv rq) as [(e & _ & H)|(c' & He' & H)]; [by destruct (H c)|].
  pose proof (entered_fun _ _ _ _ He He') as <-. rewrite H, (not_allowed _ _ _ He), Hno.
  unfold handle_with. by rewrite Hop, Hr.
Qed.
Print Assumptions C58_well_formed_called.

(** Conversely, a request is not executed when one of the values it gives for an integer, a flag
    or a document cannot be read. *)
Definition argument_headers : list bytes :=
  [B "content-length"; B "x-amz-bypass-governance-retention"; B "x-amz-bucket-object-lock-enabled";
   B "x-amz-copy-source"].
Definition argument_params : list bytes := [B "max-keys"; B "fetch-owner"; B "partNumber"].

Theorem C58_malformed_refused sv rq op c r :
  front sv rq = FrCall op c r ->
  unrepeated rq argument_headers ->
  (forall ps, query_params (rq_query rq) ps -> unrepeated_params ps argument_params) ->
  arguments_ok sv rq (cx_body c) (cx_multipart c) op.
Proof.
  intros Hf Hu Hup.
  destruct (front_entered sv rq) as [(e & H & _)|(c' & He & H)]; [congruence|].
  rewrite H in Hf. destruct (_ && some _); [done|]. unfold handle_with in Hf.
  destruct (dispatch c') as [op'|] eqn:Ed; [|done]. destruct (extract sv op' c') as [r'| |] eqn:Hx; try done.
  injection Hf as -> -> ->. clear H.
  destruct (entered_ctx _ _ _ He) as (Hp & Hm & Hh & Hq & Hv & mo & Hmo & Hmp).
  assert (HI : forall n o, n ∈ argument_headers -> assign parse_i64 (cx_header c n) = Done o -> ints_ok rq n).
  { intros n o Hn Ha t Ht. pose proof (entered_given _ _ _ n He) as Hg. unfold assign, given_header in *.
    destruct (cx_header c n) as [v|]; [|destruct Hg; by exists t].
    assert (v = t) as -> by eauto. destruct (parse_i64 t) as [z|] eqn:E; [|done]. exists z. by apply parse_i64_spec. }
  assert (HL : forall n o, n ∈ argument_headers -> assign parse_bool (cx_header c n) = Done o -> bools_ok rq n).
  { intros n o Hn Ha t Ht. pose proof (entered_given _ _ _ n He) as Hg. unfold assign, given_header in *.
    destruct (cx_header c n) as [v|]; [|destruct Hg; by exists t].
    assert (v = t) as -> by eauto. unfold parse_bool in Ha.
    destruct (beq t (B "true")) eqn:E1; [left; by apply beq_true in E1|].
    destruct (beq t (B "false")) eqn:E2; [right; by apply beq_true in E2|done]. }
  assert (HP : forall n o, n ∈ argument_params -> assign parse_i64 (cx_query c n) = Done o -> int_params_ok rq n).
  { intros n o Hn Ha ps t Hps Ht. pose proof (entered_param _ _ _ n He) as Hg. unfold assign, given_param in *.
    destruct (cx_query c n) as [v|]; [|destruct Hg; by exists ps, t]. destruct Hg as (ps' & Hps' & Hg).
    apply params_of_spec in Hps as ->. apply params_of_spec in Hps' as ->.
    assert (v = t) as -> by (eapply (Hup (params_of rq)); [by apply params_of_spec|done..]).
    destruct (parse_i64 t) as [z|] eqn:E; [|done]. exists z. by apply parse_i64_spec. }
  assert (HPB : forall n o, n ∈ argument_params -> assign parse_bool (cx_query c n) = Done o -> bool_params_ok rq n).
  { intros n o Hn Ha ps t Hps Ht. pose proof (entered_param _ _ _ n He) as Hg. unfold assign, given_param in *.
    destruct (cx_query c n) as [v|]; [|destruct Hg; by exists ps, t]. destruct Hg as (ps' & Hps' & Hg).
    apply params_of_spec in Hps as ->. apply params_of_spec in Hps' as ->.
    assert (v = t) as -> by (eapply (Hup (params_of rq)); [by apply params_of_spec|done..]). unfold parse_bool in Ha.
    destruct (beq t (B "true")) eqn:E1; [left; by apply beq_true in E1|].
    destruct (beq t (B "false")) eqn:E2; [right; by apply beq_true in E2|done]. }
  destruct op; cbn [extract arguments_ok] in *; try done.
  - step Hx. apply xml_body_Done in H as [H1 H2]. split; [done|]. eauto.
  - step Hx. step Hx. intros src Hsrc. pose proof (entered_given _ _ _ (B "x-amz-copy-source") He) as Hg.
    destruct (cx_header c _) as [src'|]; [|done]. apply Done_inj in H0 as ->.
    assert (x0 = src) as -> by (eapply (Hu (B "x-amz-copy-source")); [compute_done|done..]).
    destruct (copy_source_try_match src) eqn:E; [|done].
    assert (LF ∉ src) as Hlf by (eapply visible_no_LF, (Hv _ Hg)).
    apply copy_source_try_match_spec in E as (y & z & ? & ? & ?); [|done]. eauto 10.
  - step Hx. step Hx. step Hx. apply xml_body_Done in H0 as [Hx1 Hx2]. split; [done|]. split.
    + by destruct (sv_xml_bucket _ _).
    + eapply HL; [|done]. compute_done.
  - step Hx. step Hx. eapply HL; [|done]. compute_done.
  - step Hx. step Hx. step Hx. apply xml_body_Done in H0 as [Hx1 Hx2]. split; [split; eauto|].
    eapply HL; [|done]. compute_done.
  - step Hx. step Hx. eapply HP; [|done]. compute_done.
  - step Hx. step Hx. step Hx. split; [eapply HP|eapply HPB]; [|done| |done]; compute_done.
  - unfold extract_put in Hx. step Hx. step Hx. split; [eapply HI; [|done]; compute_done|].
    destruct (cx_multipart c) as [m|]; [|done]. cbn [some] in Hmp. symmetry in Hmp.
    apply andb_true_iff in Hmp as [Hpost _]. rewrite Hm, Hpost in H. step H. cbn [unwrap obind] in H. step H.
    unfold ok_or in H2. destruct (find_field_value m (B "key")) as [k|] eqn:Ek; [|done].
    apply Done_inj in H2 as ->. destruct (check_key x2) eqn:Ec; [|done]. exists x2.
    split; [by apply field_value_spec|by apply check_key_spec].
  - step Hx. step Hx. step Hx. step Hx. step Hx. split; [|eapply HI; [|done]; compute_done].
    eapply (HP _ (Some x1)); [compute_done|]. destruct (cx_query c (B "partNumber")) as [t|]; [|done].
    apply Done_inj in H0 as ->. unfold ok_or in H1. unfold assign. destruct (parse_i64 x0); [|done].
    by apply Done_inj in H1 as ->.
Qed.
Print Assumptions C58_malformed_refused.

(** Concrete calls. *)
Definition called (f : front_result) : option (s3_op * s_req) :=
  match f with FrCall op _ r => Some (op, r) | _ => None end.

Example ex_put_call :
  called (front ex_open_server
    (HttpRequest (B "PUT") (B "/bkt/a%20b") None
       [(B "x-amz-meta-colour", B "red"); (B "content-length", B "5"); (B "x-amz-meta-", B "no name");
        (B "x-amz-storage-class", B "STANDARD")] [FData (B "he"); FData (B "llo")])) =
  Some (OpPutObject, RPutObject (B "bkt") (B "a b") (Some (B "STANDARD")) (Some 5%Z)
         (Some [(B "colour", B "red")]) (Some [FData (B "he"); FData (B "llo")])).
Proof. vm_compute. reflexivity. Qed.

Example ex_part_call :
  called (front ex_open_server
    (HttpRequest (B "PUT") (B "/bkt/k") (Some (B "uploadId=u&partNumber=-7")) [] [FData (B "x")])) =
  Some (OpUploadPart, RUploadPart (B "u") (-7)%Z (Some [FData (B "x")])).
Proof. vm_compute. reflexivity. Qed.

Example ex_bad_length :
  front ex_open_server
    (HttpRequest (B "PUT") (B "/bkt/k") None [(B "content-length", B "5x")] [FData (B "hello")]) =
  FrErr InvalidRequest.
Proof. vm_compute. reflexivity. Qed.

Example ex_int_text : int_text (B "-7") (-7)%Z /\ ~ exists z, int_text (B "9223372036854775808") z.
Proof.
  split; [by apply parse_i64_spec|]. intros (z & Hz). apply parse_i64_spec in Hz. by vm_compute in Hz.
Qed.
