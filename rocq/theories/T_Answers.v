(** C73: the answers of any storage, their headers and documents. *)
From Verif Require Import M_Base M_Http M_Json M_Multipart M_Storage M_Ops M_Xml M_Service M_Time M_Dto
  S_Path S_Headers S_Service S_Dispatch S_Calls S_Http S_Xml S_Time S_Dto
  S_Server L_Base L_Path L_Json L_Request L_Ops L_Xml T_Auth T_Dispatch T_Calls T_Http T_Xml T_Time T_Dto.

(** ** Headers *)

Lemma value_ok_spec t : header_value_ok t = true <-> header_text t.
Proof.
  unfold header_value_ok, header_text. rewrite forallb_forall. setoid_rewrite elem_of_list_In.
  assert (H : forall a, is_value_token a = true <-> a = byte 9 \/ (32 <= code a)%N /\ code a <> 127%N).
  { intros a. unfold is_value_token. rewrite orb_true_iff, andb_true_iff, negb_true_iff, N.eqb_eq, N.leb_le, N.eqb_neq.
    assert (code a = 9%N <-> a = byte 9) as ->; [|done]. unfold code, byte. split; [|by intros ->].
    intros <-. by rewrite ascii_N_embedding. }
  split; intros G a Ha; apply H; by apply G.
Qed.

Lemma field_value_app t u : header_text (t ++ u) <-> header_text t /\ header_text u.
Proof. unfold header_text. setoid_rewrite elem_of_app. naive_solver. Qed.
Lemma field_literal t : header_value_ok t = true -> header_text t.
Proof. apply value_ok_spec. Qed.
Lemma digits_field t n : denotes t n -> header_text t.
Proof.
  intros H a Ha. right. pose proof (denotes_digits t n H a Ha) as Hd. clear Ha. revert a Hd. apply Forall_forall.
  repeat constructor; vm_compute; done.
Qed.

Lemma show_int_spec z : int_shown (show_int z) z.
Proof.
  unfold show_int. destruct (Z.ltb_spec z 0).
  - exists (num (Z.to_N (- z))), (Z.to_N (- z)). split; [apply num_denotes|]. right. split; [done|]. lia.
  - exists (num (Z.to_N z)), (Z.to_N z). split; [apply num_denotes|]. left. split; [done|]. lia.
Qed.
Lemma int_field t z : int_shown t z -> header_text t.
Proof.
  intros (ds & n & Hd & [[-> _]|[-> _]]); [by eapply digits_field|]. apply field_value_app. split; [by apply field_literal|by eapply digits_field].
Qed.
Lemma date_field t secs : http_date t secs -> header_text t.
Proof.
  intros H. destruct H as [days wd x dd mon yyyy h hh mi mm s ss _ Hw Hm [_ [_ Hd]] [_ [_ Hy]] _ _ _ [_ [_ Hh]] [_ [_ Hmi]] [_ [_ Hs]]].
  rewrite !field_value_app.
  assert (forall l n (w : bytes), forallb header_value_ok l = true -> l !! n = Some w -> header_text w) as Hl.
  { intros l n w Hl Hn. apply value_ok_spec. rewrite forallb_forall in Hl. apply Hl, elem_of_list_In, elem_of_list_lookup. eauto. }
  repeat split; try (by apply field_literal); try (by eapply digits_field); eapply Hl; try eassumption; by vm_compute.
Qed.

(* What the tables have to satisfy. *)
Definition shown_kind (f : bytes) : kind :=
  if decide (f ∈ flags) then KBool else if decide (f ∈ numbers) then KInt else if decide (f = B "last_modified") then KTime else KStr.
Definition answers_right (op : s3_op) : bool :=
  forallb (fun r => bool_decide (out_header r = header_of (out_field r)) && bool_decide (out_kind r = shown_kind (out_field r)) &&
                    bool_decide (out_field r ∈ api_answers op)) (output_rows op) &&
  forallb (fun f => bool_decide (f ∈ map out_field (output_rows op)) || bool_decide (f ∈ [B "bucket_key_enabled"; B "archive_status"])) (api_answers op) &&
  bool_decide (NoDup (map out_header (output_rows op))) && bool_decide (NoDup (map out_field (output_rows op))) &&
  forallb (fun r => negb (starts_with (B "x-amz-meta-") (out_header r))) (output_rows op).
Lemma all_answers_right op : answers_right op = true.
Proof. by destruct op; vm_compute. Qed.

Definition row_header (d : dto) (r : output_row) : option (bytes * bytes) :=
  match dto_get (out_field r) d with
  | Some v => match show_kind (out_kind r) v with Some t => Some (out_header r, t) | None => None end
  | None => None
  end.

Lemma set_rows_none rows d : set_rows rows d None = None.
Proof.
  unfold set_rows. induction rows as [|r rows IH]; [done|]. cbn [fold_left].
  destruct (dto_get _ _) as [v|]; [destruct (show_kind _ _)|]; done.
Qed.

Lemma set_rows_spec rows d : forall hs, NoDup (hs.*1 ++ map out_header rows) ->
  (forall r v, r ∈ rows -> dto_get (out_field r) d = Some v -> exists t, show_kind (out_kind r) v = Some t /\ header_value_ok t = true) ->
  set_rows rows d (Some hs) = Some (hs ++ omap (row_header d) rows).
Proof.
  induction rows as [|r rows IH]; intros hs Hnd Hok; [cbn; by rewrite app_nil_r|].
  unfold set_rows. cbn [fold_left omap list_omap]. unfold row_header at 1. destruct (dto_get (out_field r) d) as [v|] eqn:E.
  - destruct (Hok r v ltac:(by left) E) as (t & -> & Ht). cbn [set_header]. rewrite Ht.
    rewrite md_insert_new.
    + fold (set_rows rows d (Some (hs ++ [(out_header r, t)]))). rewrite IH.
      * by rewrite <- app_assoc.
      * rewrite fmap_app, <- app_assoc. exact Hnd.
      * intros r' v' Hr'. apply Hok. by right.
    + apply NoDup_app in Hnd as (_ & Hd & _). intros Hin. apply (Hd _ Hin). by left.
  - fold (set_rows rows d (Some hs)). apply IH.
    + cbn in Hnd. rewrite NoDup_app in Hnd |- *. destruct Hnd as (H1 & H2 & H3). apply NoDup_cons in H3 as [_ H3].
      split; [done|]. split; [|done]. intros x Hx Hin. apply (H2 x Hx). by right.
    + intros r' v' Hr'. apply Hok. by right.
Qed.

Lemma dto_get_elem f v d : NoDup d.*1 -> dto_get f d = Some v <-> (f, v) ∈ d.
Proof.
  unfold dto_get. induction d as [|[g w] d IH]; intros Hnd.
  - split; [done|by intros ?%elem_of_nil].
  - cbn in Hnd |- *. apply NoDup_cons in Hnd as [Hg Hnd]. rewrite elem_of_cons. destruct (beq g f) eqn:E.
    + apply beq_true in E as ->. split; [intros [= ->]; by left|]. intros [[= ->]|Hin]; [done|].
      destruct Hg. apply elem_of_list_fmap. by exists (f, v).
    + apply beq_false in E. rewrite IH by done. split; [by right|]. by intros [[= -> ->]|?].
Qed.

Lemma show_spec f v : showable f v -> exists t, show_kind (shown_kind f) v = Some t /\ header_text t /\ member_shown f v t.
Proof.
  unfold showable, shown_kind, member_shown. destruct (decide _); [|destruct (decide _); [|destruct (decide _)]].
  - intros [b ->]. eexists. split; [done|]. split; [by destruct b; apply field_literal|eauto].
  - intros [z ->]. eexists. split; [done|]. pose proof (show_int_spec z). split; [by eapply int_field|eauto].
  - intros (s & secs & -> & Hs & Hy). cbn. destruct (C69_header_denotes s secs Hs Hy) as (h & Hh & Hd).
    exists h. split; [done|]. split; [by eapply date_field|eauto].
  - intros (t & -> & Ht). by exists t.
Qed.

Lemma starts_app p t : starts_with p (p ++ t) = true.
Proof. unfold starts_with. by rewrite strip_prefix_app. Qed.

Lemma showable_presentable m : showable_metadata m -> presentable m.
Proof.
  intros [Hnd H]. split; [done|]. apply Forall_forall. intros [n v] Hin. destruct (H n v Hin) as (Hn & Hl & Hv). cbn [fst snd].
  assert (Hw : forall a, a ∈ n -> is_token a = true /\ to_lower a = a).
  { intros a Ha. destruct (wire_name a (Hn a Ha)) as (? & ? & _). done. }
  split; [|split; [|split]].
  - rewrite forallb_app. apply andb_true_iff. split; [done|]. apply forallb_forall. intros a Ha%elem_of_list_In. by apply Hw.
  - rewrite map_app. f_equal. rewrite <- (map_id n) at 2. apply map_ext_in. intros a Ha%elem_of_list_In. by apply Hw.
  - rewrite app_length, Nnat.Nat2N.inj_add. change (N.of_nat (length (B "x-amz-meta-"))) with 11%N. lia.
  - by apply value_ok_spec.
Qed.


(** Whatever a storage answers — its members being of the right type and fit for headers — the
    response has one header for each, with the API's name and the member's text, one for each piece
    of metadata, the type of the document if there is one, and no others. *)
Theorem C73_headers op o :
  NoDup (od_fields o).*1 -> (forall f v, (f, v) ∈ od_fields o -> f ∈ api_answers op /\ ~ not_shown f /\ showable f v) ->
  showable_metadata (returned_metadata op (od_metadata o)) -> (od_doc o <> None -> has_document op) ->
  exists resp, dto_response op o = Ok resp /\
    rs_status resp = (if decide (op = OpDeleteObject \/ op = OpDeleteBucket) then 204%N else 200%N) /\
    headers_of (od_fields o) (returned_metadata op (od_metadata o))
      (match od_doc o with Some _ => [(B "content-type", B "text/xml")] | None => [] end) (rs_headers resp).
Proof.
  intros Hnd Hf Hm Hdoc. pose proof (all_answers_right op) as Hr. unfold answers_right in Hr. rewrite !andb_true_iff, !bool_decide_eq_true in Hr.
  destruct Hr as [[[[Hr Ha] Hnh] Hnf] Hnm]. rewrite forallb_forall in Hr, Ha, Hnm.
  assert (Hrow : forall r, r ∈ output_rows op -> out_header r = header_of (out_field r) /\ out_kind r = shown_kind (out_field r)).
  { intros r Hin%elem_of_list_In. specialize (Hr r Hin). rewrite !andb_true_iff, !bool_decide_eq_true in Hr. tauto. }
  set (hs := omap (row_header (od_fields o)) (output_rows op)).
  assert (Hset : set_rows (output_rows op) (od_fields o) (Some []) = Some hs).
  { rewrite set_rows_spec; [done|done|]. intros r v Hin Hv. apply dto_get_elem in Hv; [|done]. destruct (Hf _ _ Hv) as (_ & _ & Hs).
    destruct (Hrow r Hin) as [_ ->]. destruct (show_spec _ _ Hs) as (t & Ht & Hv' & _). exists t. split; [done|]. by apply value_ok_spec. }
  assert (Hhs : forall n t, (n, t) ∈ hs <-> exists r v, r ∈ output_rows op /\ (out_field r, v) ∈ od_fields o /\ n = out_header r /\ show_kind (out_kind r) v = Some t).
  { intros n t. unfold hs. rewrite elem_of_list_omap. unfold row_header. split.
    - intros (r & Hin & H). destruct (dto_get _ _) as [v|] eqn:E; [|done]. destruct (show_kind _ _) as [t'|] eqn:E'; [|done].
      injection H as <- <-. apply dto_get_elem in E; [|done]. eauto 10.
    - intros (r & v & Hin & Hv & -> & Hs). exists r. split; [done|]. apply dto_get_elem in Hv; [|done]. by rewrite Hv, Hs. }
  assert (Hhn : NoDup hs.*1).
  { unfold hs. clear - Hnh. induction (output_rows op) as [|r rows IH]; [constructor|]. cbn in Hnh. apply NoDup_cons in Hnh as [Hn Hnh].
    cbn [omap list_omap]. assert (Hno : out_header r ∉ (omap (row_header (od_fields o)) rows).*1).
    { intros Hin. apply Hn. apply elem_of_list_fmap in Hin as ([n t] & Heq & Hin). apply elem_of_list_omap in Hin as (r' & Hin & H).
      unfold row_header in H. destruct (dto_get _ _); [|done]. destruct (show_kind _ _); [|done]. injection H as <- <-. cbn in Heq. rewrite Heq.
      apply elem_of_list_fmap. eauto. }
    unfold row_header at 1. destruct (dto_get _ _); [|by apply IH]. destruct (show_kind _ _); [|by apply IH]. cbn. apply NoDup_cons. split; [done|]. by apply IH. }
  assert (Hmeta : forall n t, (n, t) ∈ hs -> forall k, n <> B "x-amz-meta-" ++ k).
  { intros n t Hin k ->. apply Hhs in Hin as (r & v & Hin & _ & Heq & _). apply elem_of_list_In in Hin. specialize (Hnm r Hin).
    rewrite <- Heq, starts_app in Hnm. done. }
  assert (Hall : forall f v, (f, v) ∈ od_fields o -> exists t, member_shown f v t /\ (header_of f, t) ∈ hs).
  { intros f v Hin. destruct (Hf f v Hin) as (Hapi & Hns & Hs). destruct (show_spec f v Hs) as (t & Ht & _ & Hsh). exists t. split; [done|].
    apply elem_of_list_In in Hapi. specialize (Ha f Hapi). apply orb_true_iff in Ha as [Ha|Ha]; apply bool_decide_eq_true in Ha; [|done].
    apply elem_of_list_fmap in Ha as (r & -> & Hr'). apply Hhs. exists r, v. destruct (Hrow r Hr') as [H1 H2]. rewrite H1, H2. done. }
  assert (Hback : forall n t, (n, t) ∈ hs -> exists f v, (f, v) ∈ od_fields o /\ n = header_of f /\ member_shown f v t).
  { intros n t Hin. apply Hhs in Hin as (r & v & Hin & Hv & -> & Hs). destruct (Hrow r Hin) as [H1 H2]. rewrite H2 in Hs.
    exists (out_field r), v. split; [done|]. split; [done|]. destruct (Hf _ _ Hv) as (_ & _ & Hsh). apply show_spec in Hsh as (t' & Ht' & _ & Hsh).
    congruence. }
  unfold dto_response. rewrite Hset. clear Hset. clearbody hs. set (m := returned_metadata op (od_metadata o)) in *.
  assert (Hmd : match op with OpGetObject | OpHeadObject => set_metadata_headers (od_metadata o) (Some hs) | _ => Some hs end = Some (hs ++ metadata_headers m)).
  { assert (Hg : showable_metadata (default [] (od_metadata o)) -> set_metadata_headers (od_metadata o) (Some hs) = Some (hs ++ metadata_headers (default [] (od_metadata o)))).
    { intros Hs. apply metadata_headers_set; [by apply showable_presentable|]. intros [n t] Hin. by eapply Hmeta. }
    destruct op; try (cbn; by rewrite app_nil_r); by apply Hg. }
  rewrite Hmd.
  assert (Hst : match op with OpDeleteObject | OpDeleteBucket => 204%N | _ => 200%N end = if decide (op = OpDeleteObject \/ op = OpDeleteBucket) then 204%N else 200%N)
    by (by destruct op).
  assert (Hmh : forall n t, (n, t) ∈ metadata_headers m <-> exists k, (k, t) ∈ m /\ n = B "x-amz-meta-" ++ k).
  { intros n t. unfold metadata_headers. rewrite elem_of_list_In, in_map_iff. split.
    - intros ([k v] & [= <- <-] & Hin%elem_of_list_In). eauto.
    - intros (k & Hin%elem_of_list_In & ->). by exists (k, t). }
  assert (Hmn : NoDup (hs ++ metadata_headers m).*1).
  { rewrite fmap_app. apply NoDup_app. split; [done|]. split.
    - intros n Hin Hin'. apply elem_of_list_fmap in Hin as ([n1 t1] & -> & Hin). apply elem_of_list_fmap in Hin' as ([n2 t2] & Heq & Hin').
      apply Hmh in Hin' as (k & _ & ->). exact (Hmeta n1 t1 Hin k Heq).
    - unfold metadata_headers. destruct Hm as [Hm _]. rewrite <- list_fmap_compose. clear - Hm. induction m as [|[k v] m' IH]; [constructor|].
      rewrite fmap_cons in Hm |- *. cbn [fst] in Hm. apply NoDup_cons in Hm as [Hk Hm]. apply NoDup_cons. split; [|by apply IH].
      intros Hin. apply Hk. apply elem_of_list_fmap in Hin as ([k' v'] & Heq & Hin). cbn [fst compose] in Heq. apply app_inv_head in Heq as ->. apply elem_of_list_fmap. by exists (k', v'). }
  assert (Hconcl : forall more : list (bytes * bytes), NoDup more.*1 -> (more <> [] -> B "content-type" ∉ (hs ++ metadata_headers m).*1) ->
    Forall (fun x => x.1 = B "content-type") more -> headers_of (od_fields o) m more ((hs ++ metadata_headers m) ++ more)).
  { intros more Hn1 Hn2 Hn3. rewrite Forall_forall in Hn3. split; [|split; [|split; [|split]]].
    - rewrite fmap_app. apply NoDup_app. split; [done|]. split; [|done]. intros n Hin Hin'. apply elem_of_list_fmap in Hin' as (x & -> & Hx).
      rewrite (Hn3 x Hx) in Hin. apply Hn2; [|done]. intros ->. by apply elem_of_nil in Hx.
    - intros f v Hin. destruct (Hall f v Hin) as (t & Ht & Hin'). exists t. split; [done|]. rewrite !elem_of_app. auto.
    - intros n v Hin. rewrite !elem_of_app, Hmh. left. right. eauto.
    - intros x Hx. rewrite elem_of_app. by right.
    - intros n t. rewrite !elem_of_app, Hmh. intros [[Hin|Hin]|Hin]; [left; by apply Hback|right; by left|right; by right]. }
  destruct (od_doc o) as [x|] eqn:Ed.
  - assert (m = []) as Hm0.
    { specialize (Hdoc ltac:(done)). unfold m, returned_metadata, has_document in *. destruct op; try done; exfalso; revert Hdoc; compute_done. }
    assert (Hct : B "content-type" ∉ (hs ++ metadata_headers m).*1).
    { rewrite Hm0. cbn [metadata_headers map]. rewrite app_nil_r. intros Hin. apply elem_of_list_fmap in Hin as ([n t] & Heq & Hin). cbn in Heq. subst n.
      apply Hhs in Hin as (r & v & Hin & _ & Heq & _). specialize (Hdoc ltac:(done)). clear - Hdoc Hin Heq.
      assert (forallb (fun r => bool_decide (out_header r <> B "content-type")) (output_rows op) = true) as H.
      { unfold has_document in Hdoc. destruct op; try (by vm_compute); exfalso; revert Hdoc; compute_done. }
      rewrite forallb_forall in H. apply elem_of_list_In in Hin. specialize (H r Hin). by apply bool_decide_eq_true in H. }
    rewrite Hst. cbn [set_header]. change (header_value_ok (B "text/xml")) with true. cbv iota. rewrite md_insert_new.
    + eexists. split; [done|]. split; [done|]. cbn [rs_headers]. apply Hconcl; [compute_done|by intros _|by repeat constructor].
    + exact Hct.
  - rewrite Hst. eexists. split; [done|]. split; [done|]. cbn [rs_headers]. rewrite <- (app_nil_r (hs ++ metadata_headers m)). apply Hconcl; [constructor|done|constructor].
Qed.
Print Assumptions C73_headers.

(** Whatever a storage answers, no header of the response contains a line end or another control
    character, and where that is impossible there is an internal error instead of a response. *)
Lemma set_rows_values rows d : forall hs hs', set_rows rows d hs = Some hs' ->
  exists hs0, hs = Some hs0 /\ (Forall (fun h => header_text h.2) hs0 -> Forall (fun h => header_text h.2) hs').
Proof.
  induction rows as [|r rows IH]; intros hs hs' H; [exists hs'; done|].
  unfold set_rows in H. cbn [fold_left] in H. apply IH in H as (hs1 & H & Hf).
  destruct (dto_get _ _) as [v|]; [|by exists hs1]. destruct (show_kind _ _) as [t|]; [|done].
  destruct hs as [hs|]; [|done]. cbn [set_header] in H. destruct (header_value_ok t) eqn:E; [|done]. injection H as <-.
  exists hs. split; [done|]. intros Hh. apply Hf, Forall_forall. intros x Hx%md_insert_elem. destruct Hx as [->|Hx]; [by apply value_ok_spec|].
  rewrite Forall_forall in Hh. by apply Hh.
Qed.

Lemma set_metadata_values md : forall hs hs', set_metadata_headers md hs = Some hs' ->
  exists hs0, hs = Some hs0 /\ (Forall (fun h => header_text h.2) hs0 -> Forall (fun h => header_text h.2) hs').
Proof.
  unfold set_metadata_headers. induction (default [] md) as [|[k v] m IH]; intros hs hs' H; [exists hs'; done|].
  cbn [fold_left] in H. apply IH in H as (hs1 & H & Hf). destruct hs as [hs|]; [|done].
  destruct (header_name_of _) as [n|]; [|done]. cbn [snd] in H. destruct (header_value_ok v) eqn:E; [|done]. injection H as <-.
  exists hs. split; [done|]. intros Hh. apply Hf, Forall_forall. intros x Hx%md_insert_elem. destruct Hx as [->|Hx]; [by apply value_ok_spec|].
  rewrite Forall_forall in Hh. by apply Hh.
Qed.

Theorem C73_no_injection op o :
  match dto_response op o with
  | Ok resp => forall n t, (n, t) ∈ rs_headers resp -> header_text t
  | Err e => e = InternalError
  end.
Proof.
  unfold dto_response. set (hs := match op with OpGetObject | OpHeadObject => _ | _ => _ end).
  assert (Hhs : forall l, hs = Some l -> Forall (fun h => header_text h.2) l).
  { intros l Hl. unfold hs in Hl.
    assert (Hr : forall l, set_rows (output_rows op) (od_fields o) (Some []) = Some l -> Forall (fun h => header_text h.2) l).
    { intros l' H. apply set_rows_values in H as (hs0 & [= <-] & Hf). apply Hf. constructor. }
    assert (Hm : set_metadata_headers (od_metadata o) (set_rows (output_rows op) (od_fields o) (Some [])) = Some l -> Forall (fun h => header_text h.2) l).
    { intros H. apply set_metadata_values in H as (hs0 & H0 & Hf). apply Hf. by apply Hr. }
    destruct op; auto. }
  clearbody hs. destruct (od_doc o) as [d|]; destruct hs as [l|]; try done; specialize (Hhs l eq_refl); rewrite Forall_forall in Hhs.
  - cbn [set_header]. change (header_value_ok (B "text/xml")) with true. cbn [wrap rs_headers]. intros n t Hin%md_insert_elem.
    destruct Hin as [[= -> ->]|Hin]; [by apply field_literal|by apply (Hhs (n, t))].
  - cbn [wrap rs_headers]. intros n t Hin. by apply (Hhs (n, t)).
Qed.
Print Assumptions C73_no_injection.

(** A member that cannot stand in its header makes the answer an internal error. *)
Theorem C73_unfit_refused op o f t :
  f ∈ api_answers op -> ~ not_shown f -> f ∉ flags -> f ∉ numbers -> f <> B "last_modified" ->
  NoDup (od_fields o).*1 -> (f, DStr t) ∈ od_fields o -> ~ header_text t ->
  dto_response op o = Err InternalError.
Proof.
  intros Hf Hns H1 H2 H3 Hnd Hin Ht. pose proof (all_answers_right op) as Hr. unfold answers_right in Hr. rewrite !andb_true_iff, !bool_decide_eq_true in Hr.
  destruct Hr as [[[[Hr Ha] _] _] _]. rewrite forallb_forall in Hr, Ha. apply elem_of_list_In in Hf. specialize (Ha f Hf).
  apply orb_true_iff in Ha as [Ha|Ha]; apply bool_decide_eq_true in Ha; [|done].
  apply elem_of_list_fmap in Ha as (r & -> & Hrow). specialize (Hr r (proj1 (elem_of_list_In _ _) Hrow)).
  rewrite !andb_true_iff, !bool_decide_eq_true in Hr. destruct Hr as [[_ Hk] _]. unfold shown_kind in Hk. rewrite !decide_False in Hk by done.
  apply dto_get_elem in Hin; [|done]. assert (header_value_ok t = false) as Hv.
  { apply not_true_iff_false. by rewrite value_ok_spec. }
  assert (set_rows (output_rows op) (od_fields o) (Some []) = None) as Hset.
  { generalize (Some (A:=list (bytes * bytes)) []). clear - Hrow Hin Hk Hv. induction (output_rows op) as [|r' rows IH]; [by apply elem_of_nil in Hrow|].
    intros hs. unfold set_rows. cbn [fold_left]. apply elem_of_cons in Hrow as [<-|Hrow].
    - rewrite Hin, Hk. cbn [show_kind]. destruct hs as [hs|]; cbn [set_header]; [rewrite Hv|]; apply set_rows_none.
    - by apply IH. }
  unfold dto_response. rewrite Hset.
  assert (Hn : forall md, set_metadata_headers md None = None).
  { intros md. unfold set_metadata_headers. induction (default [] md) as [|p m IH]; [done|]. exact IH. }
  rewrite Hn. destruct (od_doc o); by destruct op.
Qed.
Print Assumptions C73_unfit_refused.

(** ** Documents *)

Definition all_named (m : bytes) (xs : list xml) : Prop := Forall (fun x => element_name x = m) xs.
Lemma filter_same m n xs : all_named m xs -> filter (named n) (map tree xs) = if bool_decide (m = n) then map tree xs else [].
Proof.
  intros H. rewrite filter_tree. unfold elements. induction H as [|x xs Hx H IH]; [by destruct (bool_decide _)|].
  rewrite filter_cons, Hx. destruct (decide (m = n)) as [E|E].
  - rewrite bool_decide_eq_true_2 in IH |- * by done. cbn [map]. by rewrite IH.
  - rewrite bool_decide_eq_false_2 in IH |- * by done. exact IH.
Qed.
Lemma named_opt m v : all_named m (opt_element m v).
Proof. destruct v; by repeat constructor. Qed.
Lemma named_bool m v : all_named m (opt_bool m v).
Proof. apply named_opt. Qed.
Lemma named_int m v : all_named m (opt_int m v).
Proof. apply named_opt. Qed.
Lemma named_stack {A} m (v : option A) f : all_named m (opt_stack m v f).
Proof. destruct v; by repeat constructor. Qed.
Lemma named_map {A} m (l : list A) f : (forall a, element_name (f a) = m) -> all_named m (map f l).
Proof. intros H. apply Forall_forall. intros x Hx%elem_of_list_In. apply in_map_iff in Hx as (a & <- & _). apply H. Qed.

(* Elements one after the other, each with its name. *)
Definition sections (l : list (bytes * list xml)) : list xml := concat (map snd l).
Lemma filter_sections n l : Forall (fun p => all_named p.1 p.2) l ->
  filter (named n) (map tree (sections l)) = map tree (concat (map snd (filter (fun p => p.1 = n) l))).
Proof.
  intros H. unfold sections. induction H as [|[m xs] l Hx H IH]; [done|]. cbn [map concat fst snd] in *.
  rewrite map_app, filter_app, IH, (filter_same m) by done. rewrite filter_cons. cbn [fst snd].
  destruct (decide (m = n)) as [E|E].
  - rewrite bool_decide_eq_true_2 by done. cbn [map concat snd]. by rewrite map_app.
  - by rewrite bool_decide_eq_false_2.
Qed.
Lemma only_sections ns l : Forall (fun p => all_named p.1 p.2) l -> forallb (fun p => bool_decide (p.1 ∈ ns)) l = true ->
  only ns (map tree (sections l)).
Proof.
  intros H Hn. unfold only. apply Forall_forall. intros y Hy%elem_of_list_In. apply in_map_iff in Hy as (x & <- & Hx).
  unfold sections in Hx. apply in_concat in Hx as (xs & Hxs & Hx). apply in_map_iff in Hxs as (p & <- & Hp).
  rewrite forallb_forall in Hn. specialize (Hn p Hp). apply bool_decide_eq_true in Hn. exists p.1. split; [done|].
  rewrite named_tree. apply bool_decide_eq_true. apply elem_of_list_In in Hp. rewrite Forall_forall in H. specialize (H p Hp). unfold all_named in H.
  rewrite Forall_forall in H. apply H. by apply elem_of_list_In.
Qed.
Lemma names_sections l : Forall (fun p => Forall names_fine p.2) l -> Forall names_fine (sections l).
Proof. unfold sections. induction 1 as [|p l Hp H IH]; [constructor|]. cbn. by apply Forall_app. Qed.

Ltac in_sections l := 
  match goal with |- context [map tree ?xs] => 
    assert (xs = sections l) as -> by (unfold sections; cbn [map concat snd]; rewrite ?app_nil_r, <- ?app_assoc; reflexivity) end.

Lemma text_section n v l : Forall (fun p => all_named p.1 p.2) l -> filter (fun p => p.1 = n) l = [(n, opt_element n v)] ->
  text_child n v (map tree (sections l)).
Proof. intros H Hf. unfold text_child. rewrite filter_sections by done. rewrite Hf. cbn. rewrite app_nil_r. by destruct v. Qed.
Lemma flag_section n v l : Forall (fun p => all_named p.1 p.2) l -> filter (fun p => p.1 = n) l = [(n, opt_bool n v)] ->
  flag_child n v (map tree (sections l)).
Proof. intros H Hf. unfold flag_child. apply text_section; [done|]. rewrite Hf. unfold opt_bool. by destruct v as [[]|]. Qed.
Lemma int_section n v l : Forall (fun p => all_named p.1 p.2) l -> filter (fun p => p.1 = n) l = [(n, opt_int n v)] ->
  int_child n v (map tree (sections l)).
Proof.
  intros H Hf. unfold int_child. destruct v as [z|]; [exists (show_int z); split; [apply show_int_spec|]|]; by apply text_section.
Qed.
Lemma list_section {A} n (P : A -> node -> Prop) f v l : Forall (fun p => all_named p.1 p.2) l -> filter (fun p => p.1 = n) l = [(n, map f v)] ->
  (forall a, P a (tree (f a))) -> list_child n P v (map tree (sections l)).
Proof.
  intros H Hf HP. unfold list_child. rewrite filter_sections by done. rewrite Hf. cbn. rewrite app_nil_r, map_map.
  clear Hf. induction v as [|a v IH]; [constructor|]. cbn. by constructor.
Qed.
Lemma opt_section {A} n (P : A -> node -> Prop) f v l : Forall (fun p => all_named p.1 p.2) l -> filter (fun p => p.1 = n) l = [(n, opt_stack n v f)] ->
  (forall a, P a (tree (XStack n (f a)))) -> opt_child n P v (map tree (sections l)).
Proof.
  intros H Hf HP. unfold opt_child. apply (list_section n P (fun a => XStack n (f a))); [done| |done]. rewrite Hf. by destruct v.
Qed.

Ltac named_sections := 
  repeat (constructor; [first [apply named_opt|apply named_bool|apply named_int|apply named_stack|by apply named_map]|]); constructor.
Ltac one_section :=
  lazymatch goal with
  | |- text_child _ _ _ => apply text_section
  | |- flag_child _ _ _ => apply flag_section
  | |- int_child _ _ _ => apply int_section
  | |- opt_child _ _ _ _ => eapply opt_section
  | |- list_child _ _ _ _ => eapply list_section
  end; [named_sections|reflexivity|..].

Ltac read_sections xs l :=
  exists (map tree xs); split; [reflexivity|];
  assert (xs = sections l) as -> by (unfold sections; cbn [map concat snd]; rewrite ?app_nil_r, <- ?app_assoc; reflexivity);
  repeat apply conj; try one_section; try (apply only_sections; [named_sections|by vm_compute]).

Lemma owner_read o : reads_owner o (tree (XStack (B "Owner") (owner_elements o))).
Proof.
  read_sections (owner_elements o)
    [(B "ID", opt_element (B "ID") (ow_id o)); (B "DisplayName", opt_element (B "DisplayName") (ow_name o))].
Qed.
Lemma entry_read o : reads_entry o (tree (object_element o)).
Proof.
  read_sections (opt_element (B "Key") (ob_key o) ++ opt_element (B "LastModified") (ob_modified o) ++
     opt_element (B "ETag") (ob_etag o) ++ opt_int (B "Size") (ob_size o) ++
     opt_element (B "StorageClass") (ob_class o) ++ opt_stack (B "Owner") (ob_owner o) owner_elements)
    [(B "Key", opt_element (B "Key") (ob_key o)); (B "LastModified", opt_element (B "LastModified") (ob_modified o));
     (B "ETag", opt_element (B "ETag") (ob_etag o)); (B "Size", opt_int (B "Size") (ob_size o));
     (B "StorageClass", opt_element (B "StorageClass") (ob_class o)); (B "Owner", opt_stack (B "Owner") (ob_owner o) owner_elements)].
  apply owner_read.
Qed.
Lemma deleted_read d : reads_deleted d (tree (deleted_element d)).
Proof.
  read_sections (opt_bool (B "DeleteMarker") (de_marker d) ++ opt_element (B "DeleteMarkerVersionId") (de_marker_version d) ++
     opt_element (B "Key") (de_key d) ++ opt_element (B "VersionId") (de_version d))
    [(B "DeleteMarker", opt_bool (B "DeleteMarker") (de_marker d));
     (B "DeleteMarkerVersionId", opt_element (B "DeleteMarkerVersionId") (de_marker_version d));
     (B "Key", opt_element (B "Key") (de_key d)); (B "VersionId", opt_element (B "VersionId") (de_version d))].
Qed.
Lemma failed_read f : reads_failed f (tree (failed_element f)).
Proof.
  read_sections (opt_element (B "Code") (fa_code f) ++ opt_element (B "Key") (fa_key f) ++
     opt_element (B "Message") (fa_message f) ++ opt_element (B "VersionId") (fa_version f))
    [(B "Code", opt_element (B "Code") (fa_code f)); (B "Key", opt_element (B "Key") (fa_key f));
     (B "Message", opt_element (B "Message") (fa_message f)); (B "VersionId", opt_element (B "VersionId") (fa_version f))].
Qed.
Lemma bucket_read b : reads_bucket b (tree (bucket_element b)).
Proof.
  read_sections (opt_element (B "CreationDate") (bu_date b) ++ opt_element (B "Name") (bu_name b))
    [(B "CreationDate", opt_element (B "CreationDate") (bu_date b)); (B "Name", opt_element (B "Name") (bu_name b))].
Qed.
Lemma buckets_read bs : reads_buckets bs (tree (XStack (B "Buckets") (map bucket_element bs))).
Proof.
  read_sections (map bucket_element bs) [(B "Bucket", map bucket_element bs)]. apply bucket_read.
Qed.

(* Documents that the server writes as the API has them: not the answer to the creation of an
   upload, whose root element is misnamed, and no listings with several common prefixes or an
   empty list of them, which are put in one element. *)
Definition regular (d : doc_dto) : Prop :=
  match d with
  | DocInitiated _ _ _ | DocCopied None => False
  | DocListing l | DocListing2 l => li_prefixes l = None \/ exists p, li_prefixes l = Some [p]
  | _ => True
  end.

Lemma prefixes_read ps : ps = None \/ (exists p, ps = Some [p]) ->
  exists f, opt_stack (B "CommonPrefixes") ps (flat_map (opt_element (B "Prefix"))) = map f (default [] ps) /\
    (forall p, reads_prefix p (tree (f p))) /\ forall p, element_name (f p) = B "CommonPrefixes".
Proof.
  intros H. exists (fun p => XStack (B "CommonPrefixes") (opt_element (B "Prefix") p)). split.
  - destruct H as [->|[p ->]]; [done|]. cbn. by rewrite app_nil_r.
  - split; [|done]. intros p. read_sections (opt_element (B "Prefix") p) [(B "Prefix", opt_element (B "Prefix") p)].
Qed.

Lemma doc_read d x : regular d -> document_of d = Some x -> reads_doc d (tree x).
Proof.
  destruct d as [l b k t|[[t m]|]|b k u|ds es|t|bs o|l|l]; intros Hd [= <-]; try done.
  - read_sections (opt_element (B "Location") l ++ opt_element (B "Bucket") b ++ opt_element (B "Key") k ++ opt_element (B "ETag") t)
      [(B "Location", opt_element (B "Location") l); (B "Bucket", opt_element (B "Bucket") b); (B "Key", opt_element (B "Key") k);
       (B "ETag", opt_element (B "ETag") t)].
  - read_sections (opt_element (B "ETag") t ++ opt_element (B "LastModified") m)
      [(B "ETag", opt_element (B "ETag") t); (B "LastModified", opt_element (B "LastModified") m)].
  - read_sections (map deleted_element (default [] ds) ++ map failed_element (default [] es))
      [(B "Deleted", map deleted_element (default [] ds)); (B "Error", map failed_element (default [] es))];
      [apply deleted_read|apply failed_read].
  - read_sections (opt_stack (B "Buckets") bs (map bucket_element) ++
               opt_stack (B "Owner") o (fun o => opt_element (B "DisplayName") (ow_name o) ++ opt_element (B "ID") (ow_id o)))
      [(B "Buckets", opt_stack (B "Buckets") bs (map bucket_element));
       (B "Owner", opt_stack (B "Owner") o (fun o => opt_element (B "DisplayName") (ow_name o) ++ opt_element (B "ID") (ow_id o)))];
      [apply buckets_read|].
    intros a. read_sections (opt_element (B "DisplayName") (ow_name a) ++ opt_element (B "ID") (ow_id a))
      [(B "DisplayName", opt_element (B "DisplayName") (ow_name a)); (B "ID", opt_element (B "ID") (ow_id a))].
  - cbn in Hd. destruct (prefixes_read _ Hd) as (f & Hf & Hp & Hn). unfold listing_common. rewrite Hf.
    read_sections (opt_bool (B "IsTruncated") (li_truncated l) ++ opt_element (B "Marker") (li_marker l) ++
               opt_element (B "NextMarker") (li_next_marker l) ++ map object_element (default [] (li_contents l)) ++
  opt_element (B "Name") (li_name l) ++ opt_element (B "Prefix") (li_prefix l) ++
  opt_element (B "Delimiter") (li_delimiter l) ++ opt_int (B "MaxKeys") (li_max_keys l) ++
  map f (default [] (li_prefixes l)) ++ opt_element (B "EncodingType") (li_encoding l))
      [(B "IsTruncated", opt_bool (B "IsTruncated") (li_truncated l)); (B "Marker", opt_element (B "Marker") (li_marker l));
       (B "NextMarker", opt_element (B "NextMarker") (li_next_marker l)); (B "Contents", map object_element (default [] (li_contents l)));
       (B "Name", opt_element (B "Name") (li_name l)); (B "Prefix", opt_element (B "Prefix") (li_prefix l));
       (B "Delimiter", opt_element (B "Delimiter") (li_delimiter l)); (B "MaxKeys", opt_int (B "MaxKeys") (li_max_keys l));
       (B "CommonPrefixes", map f (default [] (li_prefixes l))); (B "EncodingType", opt_element (B "EncodingType") (li_encoding l))].
    + apply entry_read.
    + apply Hp.
  - cbn in Hd. destruct (prefixes_read _ Hd) as (f & Hf & Hp & Hn). unfold listing_common. rewrite Hf.
    read_sections (opt_bool (B "IsTruncated") (li_truncated l) ++ (map object_element (default [] (li_contents l)) ++
  opt_element (B "Name") (li_name l) ++ opt_element (B "Prefix") (li_prefix l) ++
  opt_element (B "Delimiter") (li_delimiter l) ++ opt_int (B "MaxKeys") (li_max_keys l) ++
  map f (default [] (li_prefixes l)) ++ opt_element (B "EncodingType") (li_encoding l)) ++ opt_int (B "KeyCount") (li_count l) ++
               opt_element (B "ContinuationToken") (li_token l) ++ opt_element (B "NextContinuationToken") (li_next_token l) ++
               opt_element (B "StartAfter") (li_start_after l))
      [(B "IsTruncated", opt_bool (B "IsTruncated") (li_truncated l)); (B "Contents", map object_element (default [] (li_contents l)));
       (B "Name", opt_element (B "Name") (li_name l)); (B "Prefix", opt_element (B "Prefix") (li_prefix l));
       (B "Delimiter", opt_element (B "Delimiter") (li_delimiter l)); (B "MaxKeys", opt_int (B "MaxKeys") (li_max_keys l));
       (B "CommonPrefixes", map f (default [] (li_prefixes l))); (B "EncodingType", opt_element (B "EncodingType") (li_encoding l));
       (B "KeyCount", opt_int (B "KeyCount") (li_count l)); (B "ContinuationToken", opt_element (B "ContinuationToken") (li_token l));
       (B "NextContinuationToken", opt_element (B "NextContinuationToken") (li_next_token l));
       (B "StartAfter", opt_element (B "StartAfter") (li_start_after l))].
    + apply entry_read.
    + apply Hp.
Qed.

(* The texts of an answer. *)
Lemma fine_opt n v : tag_name n -> Forall names_fine (opt_element n v).
Proof. intros H. destruct v as [t|]; [|constructor]. constructor; [|constructor]. by apply fine_text_names. Qed.
Lemma fine_stack {A} n (v : option A) f : tag_name n -> (forall a, Forall names_fine (f a)) -> Forall names_fine (opt_stack n v f).
Proof. intros H Hf. destruct v as [a|]; [|constructor]. constructor; [|constructor]. by apply names_fine_stack. Qed.

Ltac tag := apply tag_literal; by vm_compute.
Ltac fine :=
  repeat first
    [ apply Forall_app; split
    | apply fine_opt; tag
    | apply fine_stack; [tag|intros ?]
    | apply fine_map; intros ?; apply names_fine_stack; split; [tag|] ].

Lemma doc_names d x : document_of d = Some x -> names_fine x.
Proof.
  assert (Hp : forall ps, Forall names_fine (flat_map (opt_element (B "Prefix")) ps)).
  { induction ps as [|p ps IH]; [constructor|]. cbn [flat_map]. apply Forall_app. split; [apply fine_opt; tag|done]. }
  destruct d as [l b k t|[[t m]|]|b k u|ds es|t|bs o|l|l]; intros [= <-]; try (by apply fine_text_names; tag);
    apply names_fine_stack; (split; [tag|]); unfold listing_common, opt_bool, opt_int, owner_elements in *; fine; try apply Hp.
  all: unfold owner_elements, opt_int; fine.
Qed.

(** The document of an answer is read by anyone who reads XML as this answer, under the API's
    names.  Missing: the answer to the creation of an upload, and listings with several common
    prefixes, which are refuted below. *)
Theorem C73_documents_partial op o d resp gt :
  od_doc o = Some d -> regular d -> dto_response op o = Ok resp ->
  exists x, rs_body resp = RbXml x /\ (B "content-type", B "text/xml") ∈ rs_headers resp /\
    (Forall (fine_text gt) (texts x) ->
     exists y, document (xml_body_text gt x) y /\ (forall z, document (xml_body_text gt x) z -> z = y) /\ reads_doc d y).
Proof.
  intros Ho Hd H. unfold dto_response in H. rewrite Ho in H.
  set (hs := match op with OpGetObject | OpHeadObject => _ | _ => _ end) in H. destruct hs as [l|]; [|done].
  cbn [set_header] in H. change (header_value_ok (B "text/xml")) with true in H. cbn [wrap] in H. injection H as <-.
  destruct (document_of d) as [x|] eqn:Ex; [|by destruct d as [| [[]|] | | | | | |]]. exists x. split; [done|]. split.
  { cbn [rs_headers]. clear. induction l as [|[k v] l IH]; [by left|]. cbn [md_insert]. destruct (beq k _) eqn:E; [apply beq_true in E as ->; by left|by right]. }
  intros Hf. exists (tree x). pose proof (body_read gt x (doc_names d x Ex) Hf) as Hr.
  split; [done|]. split; [|by apply doc_read]. intros z Hz. by eapply document_unique.
Qed.
Print Assumptions C73_documents_partial.

(* A document that cannot be read as the answer. *)
Definition misread (op : s3_op) (d : doc_dto) : Prop :=
  exists resp x, dto_response op (OutDto [] None (Some d) None) = Ok resp /\ rs_body resp = RbXml x /\
    forall gt, exists y, document (xml_body_text gt x) y /\ (forall z, document (xml_body_text gt x) z -> z = y) /\ ~ reads_doc d y.
Lemma misread_intro op d x : document_of d = Some x -> op = OpListObjects \/ op = OpListObjectsV2 \/ op = OpCreateMultipartUpload ->
  (forall gt, Forall (fine_text gt) (texts x)) -> ~ reads_doc d (tree x) -> misread op d.
Proof.
  intros Hx Hop Hf Hn. eexists (Response 200 [(B "content-type", B "text/xml")] (RbXml x)), x.
  split.
  { unfold dto_response. cbn [od_fields od_metadata od_doc]. rewrite Hx. by destruct Hop as [->|[->| ->]]. }
  split; [done|]. intros gt. exists (tree x). pose proof (body_read gt x (doc_names d x Hx) (Hf gt)) as Hr. split; [done|]. split; [|done].
  intros z Hz. by eapply document_unique.
Qed.

(** The root element of the answer to the creation of an upload is misnamed, and several common
    prefixes are put in one element. *)
Theorem C73_root_refuted : exists b k u, misread OpCreateMultipartUpload (DocInitiated (Some b) (Some k) (Some u)).
Proof.
  exists (B "bkt"), (B "key"), (B "1"). eapply misread_intro; [reflexivity|by right; right| |].
  - intros gt. cbn [texts flat_map opt_element app]. repeat (constructor; [by apply chars_of_literal; vm_compute|]). constructor.
  - intros (xs & Heq & _). cbn [tree] in Heq. injection Heq. discriminate.
Qed.
Print Assumptions C73_root_refuted.

Definition two_prefixes : listing_dto :=
  ListingDto (Some false) None None None (Some (B "bkt")) None (Some (B "/")) None (Some [Some (B "a/"); Some (B "b/")]) None None None None None.
Theorem C73_prefixes_refuted : exists l, length (default [] (li_prefixes l)) = 2%nat /\
  misread OpListObjects (DocListing l) /\ misread OpListObjectsV2 (DocListing2 l).
Proof.
  exists two_prefixes. split; [done|]. 
  split; (eapply misread_intro; [reflexivity|auto| |]).
  1,3: intros gt; apply Forall_forall; intros t Ht; apply chars_of_literal; revert t Ht; apply Forall_forall; compute_done.
  all: intros (xs & Heq & (_ & _ & _ & _ & _ & _ & H & _) & _); cbn [tree] in Heq; injection Heq as <-; apply Forall2_length in H; vm_compute in H; done.
Qed.
Print Assumptions C73_prefixes_refuted.

(** Metadata whose names differ only in case is merged; a name in upper case does not return. *)
Theorem C73_metadata_case_refuted : exists m resp, NoDup m.*1 /\ length m = 2%nat /\
  dto_response OpGetObject (OutDto [] (Some m) None None) = Ok resp /\ length (rs_headers resp) = 1%nat.
Proof.
  exists [(B "Color", B "red"); (B "color", B "blue")]. eexists. split; [compute_done|]. split; [done|]. split; [vm_compute; reflexivity|]. done.
Qed.
Print Assumptions C73_metadata_case_refuted.

(** The responses that the other theorems speak of are these responses. *)
Definition fits (op : s3_op) (a : s_ans) : bool :=
  match op, a with
  | OpCompleteMultipartUpload, ACompleted _ _ _ | OpCopyObject, ACopy _ | OpCreateBucket, ADone | OpCreateMultipartUpload, ACreated _ _ _
  | OpDeleteBucket, ADone | OpDeleteObject, ADone | OpDeleteObjects, ADeleted _ | OpGetBucketLocation, ADone | OpGetObject, AGet _ _ _ _ _ _
  | OpHeadBucket, ADone | OpHeadObject, AHead _ _ | OpListBuckets, ABuckets _ | OpListObjects, AList _ _ None | OpListObjectsV2, AList _ _ (Some _)
  | OpPutObject, APut _ | OpUploadPart, APart _ => true
  | _, _ => false
  end.
Lemma show_int_N n : show_int (Z.of_N n) = num n.
Proof. unfold show_int. rewrite (proj2 (Z.ltb_ge _ _)) by lia. by rewrite N2Z.id. Qed.

Lemma set_rows_given rows d hs :
  set_rows rows d hs = set_rows (List.filter (fun r => match dto_get (out_field r) d with Some _ => true | None => false end) rows) d hs.
Proof.
  revert hs. induction rows as [|r rows IH]; intros hs; [done|]. cbn [List.filter]. unfold set_rows at 1. cbn [fold_left].
  destruct (dto_get (out_field r) d) eqn:E; [|apply IH]. unfold set_rows at 1. cbn [fold_left]. rewrite E. apply IH.
Qed.
Lemma set_rows_two rows f g n n' z t hs :
  List.filter (fun r => beq f (out_field r) || beq g (out_field r)) rows = [OutputRow f n KInt; OutputRow g n' KStr] -> f <> g ->
  set_rows rows [(f, DInt z); (g, DStr t)] hs = set_header n' (Some t) (set_header n (Some (show_int z)) hs).
Proof.
  intros H Hne. rewrite set_rows_given.
  assert (List.filter (fun r => match dto_get (out_field r) [(f, DInt z); (g, DStr t)] with Some _ => true | None => false end) rows =
    List.filter (fun r => beq f (out_field r) || beq g (out_field r)) rows) as ->.
  { apply filter_ext. intros r. unfold dto_get. cbn [find fst snd]. by destruct (beq f _), (beq g _). }
  rewrite H. unfold set_rows. cbn [fold_left out_field out_header out_kind]. unfold dto_get. cbn [find fst snd].
  rewrite (proj2 (beq_true f f)), (proj2 (beq_false f g)), (proj2 (beq_true g g)) by done. reflexivity.
Qed.

Theorem C73_file_system op c a : fits op a = true -> respond op c (Ok a) = dto_response op (fs_output op c a).
Proof.
  assert (Hobj : forall o : bytes * N, object_element (ObjectDto (Some o.1) None None (Some (Z.of_N o.2)) None None) = contents_xml o).
  { intros [k n]. unfold object_element, contents_xml, opt_int. cbn [ob_key ob_size ob_modified ob_etag ob_class ob_owner fst snd]. by rewrite show_int_N. }
  destruct op, a; try discriminate; intros Hfit; try reflexivity.
  - (* DeleteObjects *) cbn [fs_output]. unfold dto_response. cbn [od_doc document_of from_option]; unfold id. rewrite map_map, app_nil_r. reflexivity.
  - (* GetObject *) unfold dto_response, fs_output. cbn [od_fields od_metadata od_doc od_stream respond respond_ok].
    rewrite (set_rows_two _ _ _ (B "content-length") (B "etag")), show_int_N by (first [discriminate|by vm_compute]). reflexivity.
  - (* HeadObject *) unfold dto_response, fs_output. cbn [od_fields od_metadata od_doc od_stream respond respond_ok].
    rewrite (set_rows_two _ _ _ (B "content-length") (B "content-type")), show_int_N by (first [discriminate|by vm_compute]). reflexivity.
  - (* ListBuckets *) cbn [fs_output]. unfold dto_response. cbn [od_doc document_of opt_stack app]. rewrite map_map. reflexivity.
  - (* ListObjects *) destruct count; [done|]. cbn [fs_output]. unfold dto_response. cbn [od_doc document_of]. unfold listing_common, fs_listing.
    cbn [li_truncated li_marker li_next_marker li_contents li_name li_prefix li_delimiter li_max_keys li_prefixes li_encoding from_option]; unfold id.
    rewrite map_map, (map_ext _ _ Hobj). cbn [opt_element opt_bool opt_int opt_stack app]. cbn [respond respond_ok]. rewrite app_nil_r. reflexivity.
  - (* ListObjectsV2 *) destruct count as [n|]; [|done]. cbn [fs_output]. unfold dto_response. cbn [od_doc document_of]. unfold listing_common, fs_listing.
    cbn [li_truncated li_contents li_name li_prefix li_delimiter li_max_keys li_prefixes li_encoding li_count li_token li_next_token li_start_after from_option]; unfold id.
    rewrite map_map, (map_ext _ _ Hobj). cbn [opt_element opt_bool opt_int opt_stack app]. cbn [respond respond_ok]. rewrite show_int_N, <- !app_assoc. cbn [app]. rewrite <- !app_assoc. reflexivity.
  - (* PutObject *) destruct etag; reflexivity.
Qed.
Print Assumptions C73_file_system.

Example ex_answer : exists resp,
  dto_response OpGetObject (OutDto [(B "content_length", DInt 3); (B "delete_marker", DBool false); (B "last_modified", DStr (B "2020-02-29T12:30:00+01:00"));
    (B "ssekms_key_id", DStr (B "k")); (B "e_tag", DStr (B "x"))] (Some [(B "a", B "b")]) None None) = Ok resp /\
  rs_headers resp = [(B "x-amz-delete-marker", B "false"); (B "last-modified", B "Sat, 29 Feb 2020 11:30:00 GMT"); (B "content-length", B "3"); (B "etag", B "x");
    (B "x-amz-server-side-encryption-aws-kms-key-id", B "k"); (B "x-amz-meta-a", B "b")].
Proof. eexists. split; vm_compute; reflexivity. Qed.

Example ex_fields : exists c r,
  front ex_open_server (HttpRequest (B "GET") (B "/bkt") (Some (B "list-type=2&max-keys=7&start-after=a&fetch-owner=true")) [(B "x-amz-request-payer", B "requester")] []) = FrCall OpListObjectsV2 c r /\
  fields_of OpListObjectsV2 c = Done [(B "fetch_owner", DBool true); (B "max_keys", DInt 7); (B "start_after", DStr (B "a")); (B "request_payer", DStr (B "requester"))].
Proof. eexists _, _. split; [vm_compute; reflexivity|]. vm_compute. reflexivity. Qed.
