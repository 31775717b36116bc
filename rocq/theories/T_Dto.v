(** C72, C73: the members of requests and answers, for any storage. *)
From Verif Require Import M_Base M_Http M_Json M_Storage M_Ops M_Service M_Time M_Dto
  S_Path S_Headers S_Service S_Dispatch S_Calls S_Xml S_Time S_Dto
  L_Base L_Path L_Request L_Ops L_Xml T_Auth T_Dispatch T_Calls.

(** ** Inputs *)

Lemma fill_spec rows c d : fill rows c = Done d -> NoDup (map in_field rows) ->
  (forall f v, (f, v) ∈ d <-> exists r t, r ∈ rows /\ in_field r = f /\ source_text c (in_source r) = Some t /\ read_kind (in_kind r) t = Some v) /\
  NoDup d.*1.
Proof.
  revert d. induction rows as [|r rows IH]; intros d H Hn; cbn in H.
  - injection H as <-. split; [|apply NoDup_nil_2]. intros f v. split; [by intros ?%elem_of_nil|by intros (r & t & ?%elem_of_nil & _)].
  - cbn in Hn. apply NoDup_cons in Hn as [Hr Hn].
    destruct (assign _ _) as [o| |] eqn:Ea; [|done|done]. cbn in H.
    destruct (fill rows c) as [d'| |] eqn:Ef; [|done|done]. cbn in H. injection H as <-.
    destruct (IH d' eq_refl Hn) as [Hd Hnd]. clear IH.
    assert (Ho : forall v, o = Some v <-> exists t, source_text c (in_source r) = Some t /\ read_kind (in_kind r) t = Some v).
    { intros v. unfold assign in Ea. destruct (source_text c (in_source r)) as [t|].
      - destruct (read_kind (in_kind r) t) as [v'|] eqn:Er; [|done]. injection Ea as <-. split.
        + intros [= ->]. eauto.
        + intros (t' & [= <-] & E). congruence.
      - injection Ea as <-. split; [done|]. by intros (t & ? & _). }
    assert (Hnot : in_field r ∉ d'.*1).
    { intros Hin. apply elem_of_list_fmap in Hin as ([f v] & Hf & Hin). cbn in Hf. subst f. apply Hd in Hin as (r' & t & Hr' & Hf & _).
      apply Hr. apply elem_of_list_fmap. exists r'. done. }
    assert (Hsame : forall f v, (exists r' t, r' ∈ r :: rows /\ in_field r' = f /\ source_text c (in_source r') = Some t /\ read_kind (in_kind r') t = Some v) <->
      (f = in_field r /\ o = Some v) \/ (f, v) ∈ d').
    { intros f v. rewrite Hd, Ho. split.
      - intros (r' & t & [->|Hin]%elem_of_cons & Hf & Ht & Hv); [left|right]; [|eauto 10]. split; [done|]. eauto.
      - intros [(-> & t & Ht & Hv)|(r' & t & Hin & Hf & Ht & Hv)]; [exists r, t|exists r', t]; rewrite elem_of_cons; eauto 10. }
    destruct o as [v0|].
    + split; [|by apply NoDup_cons_2]. intros f v. rewrite Hsame, elem_of_cons. naive_solver.
    + split; [|done]. intros f v. rewrite Hsame. naive_solver.
Qed.

Lemma fill_done rows c :
  (forall r, r ∈ rows -> exists o, assign (read_kind (in_kind r)) (source_text c (in_source r)) = Done o) ->
  exists d, fill rows c = Done d.
Proof.
  induction rows as [|r rows IH]; intros H; [by exists []|]. cbn.
  destruct (H r) as [o ->]; [by left|]. destruct IH as [d ->]; [|cbn; eauto]. intros r' Hr'. apply H. by right.
Qed.

Global Instance source_eq : EqDecision source.
Proof. solve_decision. Defined.
Global Instance kind_eq : EqDecision kind.
Proof. solve_decision. Defined.

(* What the tables have to satisfy. *)
Definition row_right (op : s3_op) (r : input_row) : bool :=
  let f := in_field r in
  bool_decide (in_source r = if decide (in_query op f) then SQuery (param_of f) else SHeader (header_of f)) &&
  bool_decide (in_kind r = if decide (f ∈ flags) then KBool else if decide (f ∈ numbers) then KInt else KStr).

Definition rows_right (op : s3_op) : bool :=
  forallb (row_right op) (input_rows op) &&
  forallb (fun f => bool_decide (f ∈ map in_field (input_rows op)) || bool_decide (not_passed op f)) (api_members op) &&
  forallb (fun r => bool_decide (in_field r ∈ api_members op) && bool_decide (~ not_passed op (in_field r))) (input_rows op) &&
  bool_decide (NoDup (map in_field (input_rows op))).

Lemma tables_right op : rows_right op = true.
Proof. destruct op; vm_compute; reflexivity. Qed.

Lemma read_value op r t v : row_right op r = true -> read_kind (in_kind r) t = Some v <-> member_value (in_field r) t v.
Proof.
  unfold row_right. rewrite andb_true_iff, !bool_decide_eq_true. intros [_ ->]. unfold member_value.
  destruct (decide (in_field r ∈ flags)); [|destruct (decide (in_field r ∈ numbers))]; cbn [read_kind].
  - unfold parse_bool. destruct (beq t (B "true")) eqn:E1.
    + apply beq_true in E1 as ->. split; [intros [= <-]; by left|]. by intros [[_ ->]|[? _]].
    + apply beq_false in E1. destruct (beq t (B "false")) eqn:E2.
      * apply beq_true in E2 as ->. split; [intros [= <-]; by right|]. by intros [[? _]|[_ ->]].
      * apply beq_false in E2. split; [done|]. by intros [[? _]|[? _]].
  - destruct (parse_i64 t) as [z|] eqn:E.
    + apply parse_i64_spec in E. split; [intros [= <-]; eauto|]. intros (z' & Hz & ->). apply parse_i64_spec in Hz, E. congruence.
    + split; [done|]. intros (z' & Hz & _). apply parse_i64_spec in Hz. congruence.
  - split; [by intros [= <-]|by intros ->].
Qed.

Lemma source_says sv rq c op r : entered sv rq c -> row_right op r = true -> says rq op (in_field r) (source_text c (in_source r)).
Proof.
  intros He. unfold row_right. rewrite andb_true_iff, !bool_decide_eq_true. intros [-> _]. unfold says.
  destruct (decide (in_query op (in_field r))); cbn [source_text]; [by eapply entered_param|by eapply entered_given].
Qed.

(* The values that are not texts are checked by [extract]. *)
Definition checked_rows (op : s3_op) : list input_row :=
  match op with
  | OpCreateBucket => [InputRow (B "object_lock_enabled_for_bucket") (SHeader (B "x-amz-bucket-object-lock-enabled")) KBool]
  | OpDeleteObject | OpDeleteObjects => [InputRow (B "bypass_governance_retention") (SHeader (B "x-amz-bypass-governance-retention")) KBool]
  | OpListObjects => [InputRow (B "max_keys") (SQuery (B "max-keys")) KInt]
  | OpListObjectsV2 => [InputRow (B "fetch_owner") (SQuery (B "fetch-owner")) KBool; InputRow (B "max_keys") (SQuery (B "max-keys")) KInt]
  | OpPutObject | OpUploadPart => [InputRow (B "content_length") (SHeader (B "content-length")) KInt]
  | _ => []
  end.

Lemma checked_all op : List.filter (fun r => negb (bool_decide (in_kind r = KStr))) (input_rows op) = checked_rows op.
Proof. destruct op; vm_compute; reflexivity. Qed.

Lemma assign_bool o b : assign parse_bool o = Done b -> exists o', assign (read_kind KBool) o = Done o'.
Proof. unfold assign. destruct o; [|eauto]. cbn. destruct (parse_bool _); [eauto|done]. Qed.
Lemma assign_int o b : assign parse_i64 o = Done b -> exists o', assign (read_kind KInt) o = Done o'.
Proof. unfold assign. destruct o; [|eauto]. cbn. destruct (parse_i64 _); [eauto|done]. Qed.

Ltac done_at H := match type of H with obind ?x _ = Done _ => let E := fresh "E" in destruct x eqn:E; cbn [obind] in H; [|done|done] end.

Lemma extract_checked sv op c r row : extract sv op c = Done r -> row ∈ input_rows op -> in_kind row <> KStr ->
  exists o, assign (read_kind (in_kind row)) (source_text c (in_source row)) = Done o.
Proof.
  intros Hx Hrow Hk. assert (Hc : row ∈ checked_rows op).
  { rewrite <- checked_all. apply elem_of_list_In, filter_In. split; [by apply elem_of_list_In|]. by apply negb_true_iff, bool_decide_eq_false. }
  clear Hrow Hk. destruct op; cbn [checked_rows] in Hc; try (by apply elem_of_nil in Hc);
    cbn [extract] in Hx; try unfold extract_put in Hx; repeat done_at Hx;
    repeat (apply elem_of_cons in Hc as [->|Hc]; [cbn [in_kind in_source source_text]|]); try (by apply elem_of_nil in Hc);
    first [eapply assign_bool; eassumption|eapply assign_int; eassumption].
Qed.

Lemma fill_read rows c d r t : fill rows c = Done d -> r ∈ rows -> source_text c (in_source r) = Some t -> exists v, read_kind (in_kind r) t = Some v.
Proof.
  revert d. induction rows as [|r' rows IH]; intros d H Hr Ht; [by apply elem_of_nil in Hr|]. cbn in H.
  done_at H. done_at H. apply elem_of_cons in Hr as [->|Hr]; [|by eapply IH].
  rewrite Ht in E. unfold assign in E. destruct (read_kind _ t); [eauto|done].
Qed.

Lemma same_row rows (r r' : input_row) : NoDup (map in_field rows) -> r ∈ rows -> r' ∈ rows -> in_field r = in_field r' -> r = r'.
Proof.
  intros Hn H H' E. apply elem_of_list_lookup in H as [i H], H' as [j H'].
  assert (i = j) as ->; [|congruence]. eapply (NoDup_lookup (in_field <$> rows)); [done| |]; rewrite list_lookup_fmap; [by rewrite H|by rewrite H', E].
Qed.

Lemma fields_filled sv op c r : extract sv op c = Done r -> exists d, fill (input_rows op) c = Done d.
Proof.
  intros Hx. apply fill_done. intros row Hrow. destruct (decide (in_kind row = KStr)) as [->|Hk]; [|by eapply extract_checked].
  unfold assign. destruct (source_text _ _); cbn; eauto.
Qed.

Lemma given_members sv rq op c r : front sv rq = FrCall op c r ->
  exists d, fill (input_rows op) c = Done d /\ members_of rq op d.
Proof.
  intros Hf. destruct (front_entered sv rq) as [(e & H & _)|(c' & He & H)]; [congruence|].
  rewrite H in Hf. destruct (_ && some _); [done|]. unfold handle_with in Hf.
  destruct (dispatch c') as [op'|] eqn:Ed; [|done]. destruct (extract sv op' c') as [r'| |] eqn:Hx; try done.
  injection Hf as -> -> ->. clear H.
  destruct (fields_filled sv op c r Hx) as [d Hd]. exists d.
  pose proof (tables_right op) as Hr. unfold rows_right in Hr. rewrite !andb_true_iff, !forallb_forall, bool_decide_eq_true in Hr.
  destruct Hr as [[[Hr Hall] Honly] Hnd].
  split; [done|].
  destruct (fill_spec _ _ _ Hd Hnd) as [Hin Hn]. split; [done|]. split.
  - intros f Hf. apply elem_of_list_fmap in Hf as ([f' v] & -> & Hf). apply Hin in Hf as (row & t & Hrow & <- & _).
    cbn. apply elem_of_list_In, Honly in Hrow. by rewrite andb_true_iff, !bool_decide_eq_true in Hrow.
  - intros f Hf Hnp. apply elem_of_list_In, Hall in Hf. rewrite orb_true_iff, !bool_decide_eq_true in Hf. destruct Hf as [Hf|Hf]; [|done].
    apply elem_of_list_fmap in Hf as (row & -> & Hrow).
    assert (Hright : row_right op row = true) by (by apply Hr, elem_of_list_In).
    exists (source_text c (in_source row)). split; [by eapply source_says|].
    destruct (source_text c (in_source row)) as [t|] eqn:Et.
    + assert (exists v, read_kind (in_kind row) t = Some v) as [v Hv].
      { by eapply fill_read. }
      exists v. split; [by eapply read_value|]. apply Hin. eauto 10.
    + intros Hf. apply elem_of_list_fmap in Hf as ([f' v] & Hff & Hf). apply Hin in Hf as (row' & t & Hrow' & Hf' & Ht & _).
      cbn in Hff. assert (row' = row) as ->; [|congruence]. eapply same_row; [done|done|done|congruence].
Qed.

(** Whenever the storage is called (other than for a form), it is given all the optional members
    of the request that the server passes on, with the values the request has for them. *)
Theorem C72_members_passed sv rq op c r :
  front sv rq = FrCall op c r -> cx_multipart c = None ->
  exists d, fields_of op c = Done d /\ members_of rq op d.
Proof.
  intros Hf Hm. destruct (given_members sv rq op c r Hf) as (d & Hd & H). exists d. split; [|done].
  unfold fields_of. rewrite Hd. cbn. rewrite Hm. by destruct op.
Qed.
Print Assumptions C72_members_passed.

(** Members of the API that never arrive: the storage is asked the same for two versions, and
    whoever states the owner they expect is not heard. *)
Theorem C72_dropped_refuted : exists c1 c2 c3 r d,
  B "version_id" ∈ api_members OpGetObject /\ B "expected_bucket_owner" ∈ api_members OpGetObject /\
  front ex_open_server (HttpRequest (B "GET") (B "/bkt/key") (Some (B "versionId=1")) [] []) = FrCall OpGetObject c1 r /\
  front ex_open_server (HttpRequest (B "GET") (B "/bkt/key") (Some (B "versionId=2")) [] []) = FrCall OpGetObject c2 r /\
  front ex_open_server (HttpRequest (B "GET") (B "/bkt/key") None [(B "x-amz-expected-bucket-owner", B "111122223333")] []) = FrCall OpGetObject c3 r /\
  fields_of OpGetObject c1 = Done d /\ fields_of OpGetObject c2 = Done d /\ fields_of OpGetObject c3 = Done d.
Proof.
  eexists _, _, _, _, _. split; [compute_done|]. split; [compute_done|].
  split; [vm_compute; reflexivity|]. split; [vm_compute; reflexivity|]. split; [vm_compute; reflexivity|].
  split; [vm_compute; reflexivity|]. split; vm_compute; reflexivity.
Qed.
Print Assumptions C72_dropped_refuted.

(** Forms: five members can be given by form fields, which have precedence over headers. *)
Lemma dto_get_set f g v d : dto_get f (dto_set g v d) = if decide (f = g) then Some v else dto_get f d.
Proof.
  unfold dto_get, dto_set. cbn. destruct (decide (f = g)) as [->|Hne].
  - rewrite (proj2 (beq_true g g)); done.
  - rewrite (proj2 (beq_false g f)) by done. induction d as [|[h w] d IH]; [done|]. cbn.
    destruct (beq h g) eqn:E; cbn.
    + apply beq_true in E as ->. rewrite (proj2 (beq_false g f)) by done. exact IH.
    + destruct (beq h f); [done|]. exact IH.
Qed.

Theorem C72_form_members sv rq c r m :
  front sv rq = FrCall OpPutObject c r -> cx_multipart c = Some m ->
  exists d d0, fields_of OpPutObject c = Done d /\ members_of rq OpPutObject d0 /\
    (forall f n, (f, n) ∈ [(B "acl", B "acl"); (B "content_type", B "content-type"); (B "expires", B "expires"); (B "tagging", B "tagging"); (B "storage_class", B "x-amz-storage-class")] ->
       (forall t, field_value (mp_fields m) n t -> dto_get f d = Some (DStr t)) /\
       ((forall t, ~ field_value (mp_fields m) n t) -> dto_get f d = dto_get f d0)) /\
    (forall f, f ∉ [B "acl"; B "content_type"; B "expires"; B "tagging"; B "storage_class"] -> dto_get f d = dto_get f d0).
Proof.
  intros Hf Hm. destruct (given_members sv rq OpPutObject c r Hf) as (d0 & Hd & Hmem). exists (fill_form m d0), d0.
  split; [unfold fields_of; rewrite Hd; cbn; by rewrite Hm|]. split; [done|].
  assert (H : forall f, dto_get f (fill_form m d0) =
    fold_left (fun o r => if decide (f = r.1) then match find_field_value m r.2 with Some t => Some (DStr t) | None => o end else o) form_inputs (dto_get f d0)).
  { intros f. unfold fill_form. generalize form_inputs. intros l. clear. revert d0.
    induction l as [|r l IH]; intros d0; [done|]. cbn [fold_left]. rewrite IH. f_equal.
    destruct (find_field_value m r.2); [|by destruct (decide _)]. by rewrite dto_get_set. }
  split.
  - assert (G : forall f n, (f, n) ∈ form_inputs -> dto_get f (fill_form m d0) = match find_field_value m n with Some t => Some (DStr t) | None => dto_get f d0 end);
    [|intros f n Hfn; rewrite (G f n Hfn); split; [by intros t ->%field_value_spec|]; intros Hno; destruct (find_field_value m n) as [t|] eqn:E; [|done]; by apply field_value_spec, Hno in E].
    intros f n Hfn. rewrite H. unfold form_inputs in *.
    repeat (apply elem_of_cons in Hfn as [[= -> ->]|Hfn]; [cbn [fold_left fst snd]; repeat (destruct (decide _) as [E|E]; [try (by vm_compute in E)|try (by destruct E)]; clear E); done|]).
    by apply elem_of_nil in Hfn.
  - intros f Hg. rewrite H. unfold form_inputs. cbn [fold_left fst snd]. rewrite !not_elem_of_cons in Hg.
    destruct Hg as (H1 & H2 & H3 & H4 & H5 & _). by rewrite !decide_False.
Qed.
Print Assumptions C72_form_members.
