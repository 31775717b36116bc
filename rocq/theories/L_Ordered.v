(** Lemmas about binary search, lookup and signed header selection. *)
From Verif Require Import M_Base M_Ordered L_Base.
From Coq Require Import Lia.

Section bsearch.
  Context {A : Type} (f : A -> comparison) (l : list A).
  (** [f] is non-decreasing along [l]: first [Lt], then [Eq], then [Gt]. *)
  Hypothesis mono_lt : forall i j x y, (i <= j)%nat -> l !! i = Some x -> l !! j = Some y -> f y = Lt -> f x = Lt.
  Hypothesis mono_gt : forall i j x y, (i <= j)%nat -> l !! i = Some x -> l !! j = Some y -> f x = Gt -> f y = Gt.

  Lemma bsearch_Some fuel left right i :
    bsearch f l fuel left right = Some i -> exists x, l !! i = Some x /\ f x = Eq.
  Proof.
    revert left right; induction fuel as [|fuel IH]; intros left right; [done|]. cbn [bsearch].
    destruct (left <? right)%nat; [|done].
    destruct (l !! (left + _)%nat) as [x|] eqn:E; [|done].
    destruct (f x) eqn:Ef; eauto. intros [= <-]. eauto.
  Qed.

  Lemma bsearch_None fuel left right :
    (right - left < fuel)%nat -> (right <= length l)%nat ->
    (forall i x, (i < left)%nat -> l !! i = Some x -> f x = Lt) ->
    (forall i x, (right <= i)%nat -> l !! i = Some x -> f x = Gt) ->
    bsearch f l fuel left right = None -> forall i x, l !! i = Some x -> f x <> Eq.
  Proof.
    revert left right; induction fuel as [|fuel IH]; intros left right Hf Hr H1 H2; [lia|]. cbn [bsearch].
    destruct (Nat.ltb_spec left right) as [Hlt|Hge].
    - set (mid := (left + (right - left) / 2)%nat).
      assert ((right - left) / 2 < right - left)%nat as Hdiv by (apply Nat.div_lt; lia).
      destruct (l !! mid) as [x|] eqn:E.
      2:{ apply lookup_ge_None in E. unfold mid in E. lia. }
      destruct (f x) eqn:Ef; [done| |].
      + apply IH; unfold mid in *; [lia|done| |done].
        intros i y Hi Hy. eapply mono_lt; [|exact Hy|exact E|exact Ef]. lia.
      + apply IH; unfold mid in *; [lia|lia|done|].
        intros i y Hi Hy. eapply mono_gt; [|exact E|exact Hy|exact Ef]. lia.
    - intros _ i x Hx Heq. destruct (decide (i < left)%nat).
      + rewrite (H1 i x) in Heq; done.
      + rewrite (H2 i x) in Heq; [done|lia|done].
  Qed.

  Lemma binary_search_by_spec :
    match binary_search_by f l with
    | Some i => exists x, l !! i = Some x /\ f x = Eq
    | None => forall x, x ∈ l -> f x <> Eq
    end.
  Proof.
    unfold binary_search_by. destruct (bsearch _ _ _ _ _) as [i|] eqn:E.
    - by eapply bsearch_Some.
    - intros x [i Hi]%elem_of_list_lookup. eapply bsearch_None; [| | | |exact E|exact Hi].
      + lia.
      + lia.
      + intros; lia.
      + intros j y Hj Hy. apply lookup_lt_Some in Hy. lia.
  Qed.
End bsearch.

Lemma StronglySorted_lookup {A} (R : A -> A -> Prop) l i j x y :
  StronglySorted R l -> (i < j)%nat -> l !! i = Some x -> l !! j = Some y -> R x y.
Proof.
  intros H; revert i j; induction H as [|a l Hs IH Hf]; intros i j Hij Hi Hj; [done|].
  destruct j as [|j]; [lia|]. simpl in Hj. destruct i as [|i]; simpl in Hi.
  - simplify_eq. rewrite Forall_forall in Hf. apply Hf. by eapply elem_of_list_lookup_2.
  - eapply IH; [|done|done]. lia.
Qed.

(** Search by name in a list of names sorted by [bytes_cmp]. *)
Lemma mono_names l name :
  StronglySorted (cmp_le bytes_cmp) l ->
  (forall i j x y, (i <= j)%nat -> l !! i = Some x -> l !! j = Some y -> bytes_cmp y name = Lt -> bytes_cmp x name = Lt) /\
  (forall i j x y, (i <= j)%nat -> l !! i = Some x -> l !! j = Some y -> bytes_cmp x name = Gt -> bytes_cmp y name = Gt).
Proof.
  intros Hs. split; intros i j x y Hij Hi Hj H.
  - destruct (decide (i = j)) as [->|Hne]; [naive_solver|].
    assert (cmp_le bytes_cmp x y) as Hle by (eapply StronglySorted_lookup; [done| |done|done]; lia).
    unfold cmp_le in Hle. destruct (bytes_cmp x y) eqn:E; [|by eapply bytes_cmp_lt_trans|done].
    apply bytes_cmp_eq in E as ->. done.
  - destruct (decide (i = j)) as [->|Hne]; [naive_solver|].
    assert (cmp_le bytes_cmp x y) as Hle by (eapply StronglySorted_lookup; [done| |done|done]; lia).
    unfold cmp_le in Hle. destruct (bytes_cmp y name) eqn:E; [| |done].
    + apply bytes_cmp_eq in E as ->. congruence.
    + exfalso. destruct (bytes_cmp x y) eqn:E2; [| |done].
      * apply bytes_cmp_eq in E2 as ->. congruence.
      * rewrite (bytes_cmp_lt_trans x y name) in H; done.
Qed.

Lemma search_names l name :
  StronglySorted (cmp_le bytes_cmp) l ->
  match binary_search_by (fun probe => bytes_cmp probe name) l with
  | Some i => l !! i = Some name
  | None => name ∉ l
  end.
Proof.
  intros Hs. destruct (mono_names l name Hs) as [Hl Hg].
  pose proof (binary_search_by_spec (fun probe => bytes_cmp probe name) l Hl Hg) as H.
  destruct (binary_search_by _ l) as [i|].
  - destruct H as (x & Hx & Heq). by apply bytes_cmp_eq in Heq as ->.
  - intros Hin. apply (H _ Hin). apply bytes_cmp_refl.
Qed.

Lemma pair_le_fst (p q : bytes * bytes) : cmp_le pair_cmp p q -> cmp_le bytes_cmp p.1 q.1.
Proof.
  unfold cmp_le, pair_cmp. destruct (bytes_cmp p.1 q.1); done.
Qed.

Lemma sorted_fst l : StronglySorted (cmp_le pair_cmp) l -> StronglySorted (cmp_le bytes_cmp) (map fst l).
Proof.
  induction 1 as [|a l Hs IH Hf]; simpl; constructor; [done|].
  rewrite Forall_map. eapply Forall_impl; [done|]. intros x. simpl. apply pair_le_fst.
Qed.

Lemma search_pairs l name :
  StronglySorted (cmp_le pair_cmp) l ->
  match binary_search_by (fun p => bytes_cmp p.1 name) l with
  | Some i => exists v, l !! i = Some (name, v)
  | None => forall v, (name, v) ∉ l
  end.
Proof.
  intros Hs. destruct (mono_names (map fst l) name (sorted_fst _ Hs)) as [Hl Hg].
  assert (forall i (x : bytes * bytes), l !! i = Some x -> map fst l !! i = Some x.1) as Hmap.
  { intros i x Hx. rewrite list_lookup_fmap, Hx. done. }
  pose proof (binary_search_by_spec (fun p => bytes_cmp p.1 name) l
    ltac:(intros i j x y Hij Hi Hj; eapply (Hl i j); eauto)
    ltac:(intros i j x y Hij Hi Hj; eapply (Hg i j); eauto)) as H.
  destruct (binary_search_by _ l) as [i|].
  - destruct H as ([n v] & Hx & Heq). simpl in Heq. apply bytes_cmp_eq in Heq as ->. eauto.
  - intros v Hin. apply (H _ Hin). apply bytes_cmp_refl.
Qed.

Lemma ordered_get_Some l name v :
  StronglySorted (cmp_le pair_cmp) l -> ordered_get l name = Some v -> (name, v) ∈ l.
Proof.
  intros Hs. unfold ordered_get. pose proof (search_pairs l name Hs) as H.
  destruct (binary_search_by _ l) as [i|]; [|done]. destruct H as [v' Hv]. rewrite Hv.
  intros [= <-]. by eapply elem_of_list_lookup_2.
Qed.

Lemma ordered_get_None l name :
  StronglySorted (cmp_le pair_cmp) l -> ordered_get l name = None <-> forall v, (name, v) ∉ l.
Proof.
  intros Hs. unfold ordered_get. pose proof (search_pairs l name Hs) as H.
  destruct (binary_search_by _ l) as [i|]; [|done]. destruct H as [v' Hv]. rewrite Hv.
  split; [done|]. intros Hn. destruct (Hn v'). by eapply elem_of_list_lookup_2.
Qed.

Lemma filter_ext_in {A} (f g : A -> bool) l :
  (forall x, x ∈ l -> f x = g x) -> List.filter f l = List.filter g l.
Proof.
  intros H. apply List.filter_ext_in. intros x Hx. apply H. by apply elem_of_list_In.
Qed.

Lemma map_signed_headers_spec hs names :
  StronglySorted (cmp_le bytes_cmp) names ->
  map_signed_headers hs names = List.filter (fun h => bool_decide (h.1 ∈ names)) hs.
Proof.
  intros Hs. unfold map_signed_headers. apply List.filter_ext. intros h.
  pose proof (search_names names h.1 Hs) as H.
  destruct (binary_search_by _ names) as [i|].
  - symmetry. apply bool_decide_eq_true. by eapply elem_of_list_lookup_2.
  - symmetry. by apply bool_decide_eq_false.
Qed.

Lemma filter_perm {A} (f : A -> bool) l k : l ≡ₚ k -> List.filter f l ≡ₚ List.filter f k.
Proof.
  induction 1; simpl.
  - done.
  - destruct (f x); [by constructor|done].
  - destruct (f x), (f y); try done. constructor.
  - by etrans.
Qed.

Lemma filter_sorted {A} (R : A -> A -> Prop) (f : A -> bool) l :
  StronglySorted R l -> StronglySorted R (List.filter f l).
Proof.
  induction 1 as [|a l Hs IH Hf]; simpl; [constructor|].
  destruct (f a); [|done]. constructor; [done|].
  rewrite Forall_forall in *. intros x Hx. apply Hf.
  rewrite elem_of_list_In in *. by apply List.filter_In in Hx as [? _].
Qed.

(** Filtering and sorting commute. *)
Lemma filter_sort_by (f : bytes * bytes -> bool) l :
  List.filter f (sort_by pair_cmp l) = sort_by pair_cmp (List.filter f l).
Proof.
  symmetry. rewrite <- (sort_by_id pair_cmp (List.filter f (sort_by pair_cmp l))).
  - apply sort_by_perm_eq; [apply _|]. symmetry. apply filter_perm. apply sort_by_perm.
  - apply filter_sorted, sort_by_sorted. apply _.
Qed.
