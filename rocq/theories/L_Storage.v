(** Paths of the storage back end, and the scope of every operation. *)
From Verif Require Import M_Base M_Fs M_Storage S_Path S_Storage L_Base L_Path L_Fs.

(** ** Normalisation *)

Lemma split_all_ne c l : split_all c l <> [].
Proof. destruct l as [|a l]; [done|]. cbn. destruct (aeq a c); [done|]. by destruct (split_all c l). Qed.

Lemma split_all_none c x : c ∉ x -> split_all c x = [x].
Proof.
  induction x as [|a x IH]; [done|]. intros [Ha Hx]%not_elem_of_cons. cbn [split_all].
  rewrite (proj2 (aeq_false a c)) by congruence. by rewrite IH.
Qed.

Lemma split_all_app c x y : c ∉ x -> split_all c (x ++ c :: y) = x :: split_all c y.
Proof.
  induction x as [|a x IH]; intros H.
  - cbn. by rewrite aeq_refl.
  - apply not_elem_of_cons in H as [Ha Hx]. cbn [app split_all].
    rewrite (proj2 (aeq_false a c)) by congruence. by rewrite IH.
Qed.

Lemma split_all_slashed segs : segs <> [] -> Forall segment_ok segs ->
  split_all "/" (slashed segs) = segs.
Proof.
  induction segs as [|c segs IH]; [done|]. intros _ Hok.
  inversion Hok as [|? ? Hc Hs]; subst. destruct Hc as (_ & _ & _ & Hc).
  destruct segs as [|d segs]; [cbn; by apply split_all_none|].
  change (slashed (c :: d :: segs)) with (c ++ "/"%char :: slashed (d :: segs)).
  rewrite split_all_app by done. by rewrite IH.
Qed.

Lemma fold_push_ok segs acc : Forall segment_ok segs -> fold_left push_component segs acc = acc ++ segs.
Proof.
  revert acc. induction segs as [|c segs IH]; intros acc Hok; cbn [fold_left]; [by rewrite app_nil_r|].
  inversion Hok as [|? ? Hc Hs]; subst. destruct Hc as (H1 & H2 & H3 & _).
  rewrite IH by done. unfold push_component.
  rewrite (proj2 (beq_false c [])), (proj2 (beq_false c (B "."))), (proj2 (beq_false c (B ".."))) by done.
  cbn. by rewrite <- app_assoc.
Qed.

Lemma split_all_no_sep c l x : x ∈ split_all c l -> c ∉ x.
Proof.
  revert x. induction l as [|a l IH]; cbn; intros x.
  - rewrite elem_of_list_singleton. intros ->. apply not_elem_of_nil.
  - destruct (aeq a c) eqn:E.
    + intros [->|H]%elem_of_cons; [apply not_elem_of_nil|by apply IH].
    + apply aeq_false in E. destruct (split_all c l) as [|y ys] eqn:Es.
      * rewrite elem_of_list_singleton. intros ->. rewrite elem_of_list_singleton. congruence.
      * intros [->|H]%elem_of_cons.
        -- apply not_elem_of_cons. split; [congruence|]. apply IH. by left.
        -- apply IH. by right.
Qed.

Lemma removelast_Forall {A} (P : A -> Prop) l : Forall P l -> Forall P (removelast l).
Proof.
  induction 1 as [|x l Hx Hl IH]; [constructor|]. destruct l; [constructor|].
  change (removelast (x :: a :: l)) with (x :: removelast (a :: l)). by constructor.
Qed.

Lemma fold_push_segments l acc :
  Forall segment_ok acc -> Forall (fun x => "/"%char ∉ x) l -> Forall segment_ok (fold_left push_component l acc).
Proof.
  revert acc. induction l as [|c l IH]; intros acc Ha Hl; [done|].
  inversion Hl; subst. cbn [fold_left]. apply IH; [|done].
  unfold push_component. destruct (beq c [] || beq c (B ".")) eqn:E1; [done|].
  apply orb_false_iff in E1 as [E1 E2]. destruct (beq c (B "..")) eqn:E3; [by apply removelast_Forall|].
  apply beq_false in E1, E2, E3. apply Forall_app. split; [done|]. by repeat constructor.
Qed.

Lemma normalize_segments str : Forall segment_ok (normalize str).
Proof.
  unfold normalize. apply fold_push_segments; [constructor|]. apply Forall_forall.
  intros x Hx. by eapply split_all_no_sep.
Qed.

Lemma below_Some root p q : below root p = Some q <-> p = root ++ q.
Proof.
  revert p. induction root as [|a root IH]; intros p; [cbn; naive_solver|].
  destruct p as [|b p]; cbn [below app]; [naive_solver|].
  destruct (beq a b) eqn:E.
  - apply beq_true in E as ->. rewrite IH. naive_solver.
  - apply beq_false in E. naive_solver.
Qed.

Lemma absolutize_segments e str p : absolutize e str = Some p -> Forall segment_ok p.
Proof.
  unfold absolutize. pose proof (normalize_segments str) as Hn.
  destruct (starts_with _ _); [|by intros [= <-]].
  intros H. apply below_Some in H. rewrite H in Hn. by apply Forall_app in Hn as [_ ?].
Qed.

Lemma slashed_cons c segs : segs <> [] -> slashed (c :: segs) = c ++ B "/" ++ slashed segs.
Proof. by destruct segs. Qed.

Lemma segment_no_lead c rest : segment_ok c -> starts_with (B "/") (c ++ rest) = false.
Proof.
  intros (H1 & _ & _ & H4). destruct c as [|a c]; [done|].
  apply not_elem_of_cons in H4 as [Ha _]. unfold starts_with. cbn.
  unfold strip_prefix. cbn. rewrite (proj2 (aeq_false _ _)); [done|]. exact Ha.
Qed.

Lemma normalize_slashed segs : segs <> [] -> Forall segment_ok segs -> normalize (slashed segs) = segs.
Proof.
  intros Hne Hok. unfold normalize. rewrite split_all_slashed by done.
  by rewrite fold_push_ok.
Qed.

Lemma slashed_starts segs : segs <> [] -> Forall segment_ok segs -> starts_with (B "/") (slashed segs) = false.
Proof.
  intros Hne Hok. destruct segs as [|c segs]; [done|]. inversion Hok; subst.
  destruct segs as [|d segs].
  - rewrite <- (app_nil_r (slashed [c])). by apply segment_no_lead.
  - rewrite slashed_cons by done. by apply segment_no_lead.
Qed.

(** Ordinary keys are where they belong. *)
Lemma located_path e bucket key p : segment_ok bucket -> located bucket key p ->
  get_object_path e bucket key = Some p.
Proof.
  intros Hb (segs & Hne & Hok & -> & ->). unfold get_object_path, join_path.
  rewrite slashed_starts by done. unfold absolutize.
  rewrite segment_no_lead by done.
  rewrite <- slashed_cons by done. rewrite normalize_slashed; [done|done|by constructor].
Qed.

Lemma bucket_path e bucket : segment_ok bucket -> get_bucket_path e bucket = Some [bucket].
Proof.
  intros Hb. unfold get_bucket_path, absolutize.
  rewrite <- (app_nil_r bucket) at 1. rewrite segment_no_lead by done.
  change bucket with (slashed [bucket]) at 1. rewrite normalize_slashed; [done|done|by constructor].
Qed.

Lemma slashed_inj segs segs' : segs <> [] -> segs' <> [] ->
  Forall segment_ok segs -> Forall segment_ok segs' -> slashed segs = slashed segs' -> segs = segs'.
Proof.
  intros H1 H2 H3 H4 Heq. rewrite <- (split_all_slashed segs), <- (split_all_slashed segs') by done.
  by rewrite Heq.
Qed.

Lemma located_inj b k b' k' p : located b k p -> located b' k' p -> b = b' /\ k = k'.
Proof. intros (s & _ & _ & -> & ->) (s' & _ & _ & -> & [= -> ->]). done. Qed.
Lemma located_fun b k p p' : located b k p -> located b k p' -> p = p'.
Proof.
  intros (s & H1 & H2 & -> & ->) (s' & H1' & H2' & Heq & ->). f_equal. by apply slashed_inj.
Qed.

Lemma legal_bucket_segment b : legal_bucket b -> segment_ok b.
Proof.
  intros ([Hl _] & Hc & _). split_and!; try (intros ->; simpl in Hl; lia).
  intros Hin. apply Hc in Hin as [H|[H|[H|H]]]; [..|done|done]; revert H; compute_done.
Qed.
