(** C08, C09: header and query lookup, signed header selection. *)
From Verif Require Import M_Base M_Ordered L_Base L_Ordered.
From Coq Require Import Lia.

(** C08.  [qs_from_pairs] and [headers_from_req] build the ordered container from the pairs
    in transmission order; the lookup returns a value exactly when the name occurs, and
    the value is one that occurs under that name. *)
Theorem C08_lookup_sound l name v :
  ordered_get (qs_from_pairs l) name = Some v -> (name, v) ∈ l.
Proof.
  intros H. apply ordered_get_Some in H; [|apply sort_by_sorted, _].
  by rewrite (sort_by_perm pair_cmp l) in H.
Qed.
Print Assumptions C08_lookup_sound.

Theorem C08_lookup_complete l name :
  (exists v, (name, v) ∈ l) <-> is_Some (ordered_get (qs_from_pairs l) name).
Proof.
  rewrite <- not_eq_None_Some.
  rewrite ordered_get_None by apply sort_by_sorted, _. unfold qs_from_pairs.
  setoid_rewrite (sort_by_perm pair_cmp l). split.
  - intros [v Hv] H. by destruct (H v).
  - intros H. destruct (decide (name ∈ l.*1)) as [Hin|Hn].
    + apply elem_of_list_fmap in Hin as ([n v] & -> & Hv). by exists v.
    + destruct H. intros v Hv. apply Hn. apply elem_of_list_fmap. by exists (name, v).
Qed.
Print Assumptions C08_lookup_complete.

Theorem C08_lookup_unique l name v :
  (name, v) ∈ l -> (forall v', (name, v') ∈ l -> v' = v) ->
  ordered_get (qs_from_pairs l) name = Some v.
Proof.
  intros Hin Hu. destruct (proj1 (C08_lookup_complete l name)) as [v' Hv']; [by exists v|].
  rewrite Hv'. f_equal. apply Hu. by apply C08_lookup_sound.
Qed.
Print Assumptions C08_lookup_unique.

Theorem C08_lookup_order_independent l l' name :
  l ≡ₚ l' -> ordered_get (qs_from_pairs l) name = ordered_get (qs_from_pairs l') name.
Proof. intros H. unfold qs_from_pairs. by rewrite (sort_by_perm_eq pair_cmp l l' H). Qed.
Print Assumptions C08_lookup_order_independent.

(** The same for headers, which are refused as a whole when a value is not visible ASCII. *)
Definition visible_value (v : bytes) : Prop :=
  forall a, a ∈ v -> (32 <= N_of_ascii a < 127)%N \/ a = "009"%char.

Lemma is_visible_spec v : forallb is_visible v = true <-> visible_value v.
Proof.
  rewrite forallb_Forall, Forall_forall. unfold visible_value, is_visible, code.
  setoid_rewrite orb_true_iff. setoid_rewrite andb_true_iff.
  setoid_rewrite N.leb_le. setoid_rewrite N.ltb_lt. setoid_rewrite aeq_true. done.
Qed.

Theorem C08_headers_are_a_sorted_rearrangement hs :
  (forall h, h ∈ hs -> visible_value h.2) ->
  exists ohs, headers_from_req hs = Some ohs /\ ohs = qs_from_pairs hs.
Proof.
  intros H. exists (qs_from_pairs hs). unfold headers_from_req.
  rewrite (proj2 (forallb_Forall _ _)); [done|].
  rewrite Forall_forall. intros h Hh. by apply is_visible_spec, H.
Qed.
Print Assumptions C08_headers_are_a_sorted_rearrangement.

Theorem C08_headers_refused hs :
  headers_from_req hs = None <-> exists h, h ∈ hs /\ ~ visible_value h.2.
Proof.
  unfold headers_from_req. destruct (forallb _ hs) eqn:E.
  - rewrite forallb_Forall, Forall_forall in E. split; [done|].
    intros (h & Hh & Hv). destruct Hv. by apply is_visible_spec, E.
  - split; [|done]. intros _. apply not_true_iff_false in E.
    rewrite forallb_Forall in E. apply neg_Forall_Exists_neg, Exists_exists in E.
    2:{ intros x. apply bool_dec. }
    destruct E as (h & Hh & Hn). exists h. split; [done|]. by rewrite <- is_visible_spec.
Qed.
Print Assumptions C08_headers_refused.

(** C09.  The headers selected for signing: exactly the request headers named in the
    (sorted) list, in sorted order. *)
Theorem C09_selection_is_exact hs names h :
  h ∈ map_signed_headers (qs_from_pairs hs) (sort_by bytes_cmp names) <-> h ∈ hs /\ h.1 ∈ names.
Proof.
  rewrite map_signed_headers_spec by apply sort_by_sorted, _.
  rewrite elem_of_list_In, List.filter_In, <- elem_of_list_In.
  rewrite bool_decide_eq_true. unfold qs_from_pairs.
  by rewrite (sort_by_perm pair_cmp hs), (sort_by_perm bytes_cmp names).
Qed.
Print Assumptions C09_selection_is_exact.

(** With multiplicities: the selection is the sorted sub-multiset of headers so named. *)
Theorem C09_selection_is_sorted_filter hs names :
  map_signed_headers (qs_from_pairs hs) (sort_by bytes_cmp names) =
  qs_from_pairs (List.filter (fun h => bool_decide (h.1 ∈ names)) hs).
Proof.
  rewrite map_signed_headers_spec by apply sort_by_sorted, _.
  unfold qs_from_pairs. rewrite <- filter_sort_by.
  apply List.filter_ext. intros h. apply bool_decide_ext. by rewrite (sort_by_perm bytes_cmp names).
Qed.
Print Assumptions C09_selection_is_sorted_filter.

Theorem C09_selection_sorted hs names :
  StronglySorted (cmp_le pair_cmp) (map_signed_headers (qs_from_pairs hs) (sort_by bytes_cmp names)).
Proof.
  rewrite C09_selection_is_sorted_filter. apply sort_by_sorted, _.
Qed.
Print Assumptions C09_selection_sorted.

Theorem C09_selection_order_independent hs hs' names names' :
  hs ≡ₚ hs' -> names ≡ₚ names' ->
  map_signed_headers (qs_from_pairs hs) (sort_by bytes_cmp names) =
  map_signed_headers (qs_from_pairs hs') (sort_by bytes_cmp names').
Proof.
  intros H1 H2. unfold qs_from_pairs.
  by rewrite (sort_by_perm_eq pair_cmp _ _ H1), (sort_by_perm_eq bytes_cmp _ _ H2).
Qed.
Print Assumptions C09_selection_order_independent.

Definition ex_headers : list (bytes * bytes) :=
  [(B "x-amz-date", B "20130524T000000Z"); (B "host", B "a.example"); (B "accept", B "*/*");
   (B "range", B "bytes=0-9"); (B "host", B "b.example")].
Example ex_get : ordered_get (qs_from_pairs ex_headers) (B "range") = Some (B "bytes=0-9").
Proof. vm_compute. reflexivity. Qed.
Example ex_select :
  map_signed_headers (qs_from_pairs ex_headers) (sort_by bytes_cmp [B "x-amz-date"; B "host"; B "absent"]) =
  [(B "host", B "a.example"); (B "host", B "b.example"); (B "x-amz-date", B "20130524T000000Z")].
Proof. vm_compute. reflexivity. Qed.
Example ex_visible : forall h, h ∈ ex_headers -> visible_value h.2.
Proof.
  intros h Hh. apply is_visible_spec.
  assert (forallb (fun h => forallb is_visible h.2) ex_headers = true) as H by reflexivity.
  rewrite forallb_Forall, Forall_forall in H. by apply H.
Qed.
