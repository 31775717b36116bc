(** Lemmas about the base functions. *)
From Verif Require Import M_Base.
From Coq Require Import Lia.

Global Arguments N.mul : simpl never.
Global Arguments N.add : simpl never.
Global Arguments N.sub : simpl never.
Global Arguments N.div : simpl never.
Global Arguments N.modulo : simpl never.
Global Arguments N.pow : simpl never.
Global Arguments N.leb : simpl never.
Global Arguments N.ltb : simpl never.
Global Arguments N.of_nat : simpl never.

Lemma aeq_true a b : aeq a b = true <-> a = b.
Proof. unfold aeq; apply bool_decide_eq_true. Qed.
Lemma aeq_false a b : aeq a b = false <-> a <> b.
Proof. unfold aeq; apply bool_decide_eq_false. Qed.
Lemma aeq_refl a : aeq a a = true.
Proof. by apply aeq_true. Qed.
Lemma beq_true a b : beq a b = true <-> a = b.
Proof. unfold beq; apply bool_decide_eq_true. Qed.
Lemma beq_false a b : beq a b = false <-> a <> b.
Proof. unfold beq; apply bool_decide_eq_false. Qed.
Lemma beq_refl a : beq a a = true.
Proof. by apply beq_true. Qed.

(** All bytes, for exhaustive case analysis. *)
Definition all_ascii : list ascii := map (fun n => ascii_of_nat n) (seq 0 256).

Lemma all_ascii_complete a : In a all_ascii.
Proof.
  unfold all_ascii. apply in_map_iff. exists (nat_of_ascii a). split.
  - apply ascii_nat_embedding.
  - apply in_seq. pose proof (nat_ascii_bounded a). lia.
Qed.

Lemma ascii_forall (P : ascii -> bool) : forallb P all_ascii = true -> forall a, P a = true.
Proof. intros H a. rewrite forallb_forall in H. apply H, all_ascii_complete. Qed.

Ltac ascii_cases a :=
  let b0 := fresh in let b1 := fresh in let b2 := fresh in let b3 := fresh in
  let b4 := fresh in let b5 := fresh in let b6 := fresh in let b7 := fresh in
  destruct a as [b0 b1 b2 b3 b4 b5 b6 b7];
  destruct b0, b1, b2, b3, b4, b5, b6, b7.

Lemma code_inj a b : code a = code b -> a = b.
Proof. intros H. rewrite <- (ascii_N_embedding a), <- (ascii_N_embedding b). unfold code in H. by rewrite H. Qed.

Lemma code_bound a : (code a < 256)%N.
Proof. apply N_ascii_bounded. Qed.

Lemma code_ascii_of_N n : (n < 256)%N -> code (ascii_of_N n) = n.
Proof. apply N_ascii_embedding. Qed.

Lemma in_range_spec lo hi a : in_range lo hi a = true <-> (code lo <= code a <= code hi)%N.
Proof. unfold in_range. rewrite andb_true_iff, !N.leb_le. done. Qed.

(** [strip_prefix] *)
Lemma strip_prefix_Some p l r : strip_prefix p l = Some r <-> l = p ++ r.
Proof.
  revert l; induction p as [|a p IH]; intros l; simpl.
  - naive_solver.
  - destruct l as [|b l]; simpl; [naive_solver|].
    destruct (aeq a b) eqn:E.
    + apply aeq_true in E as ->. rewrite IH. naive_solver.
    + apply aeq_false in E. naive_solver.
Qed.

Lemma strip_prefix_app p r : strip_prefix p (p ++ r) = Some r.
Proof. by apply strip_prefix_Some. Qed.

Lemma strip_prefix_None p l : strip_prefix p l = None <-> forall r, l <> p ++ r.
Proof.
  split.
  - intros H r ->. by rewrite strip_prefix_app in H.
  - intros H. destruct (strip_prefix p l) as [r|] eqn:E; [|done].
    apply strip_prefix_Some in E. by destruct (H r).
Qed.

Lemma starts_with_spec p l : starts_with p l = true <-> exists r, l = p ++ r.
Proof.
  unfold starts_with. destruct (strip_prefix p l) as [r|] eqn:E.
  - apply strip_prefix_Some in E. naive_solver.
  - rewrite strip_prefix_None in E. naive_solver.
Qed.

Lemma starts_with_false p l : starts_with p l = false <-> forall r, l <> p ++ r.
Proof.
  rewrite <- not_true_iff_false, starts_with_spec. naive_solver.
Qed.

(** [split_once] *)
Lemma split_once_Some c l x y :
  split_once c l = Some (x, y) <-> l = x ++ c :: y /\ c ∉ x.
Proof.
  revert x; induction l as [|a l IH]; intros x; simpl.
  - split; [done|]. intros [H _]. by destruct x.
  - destruct (aeq a c) eqn:E.
    + apply aeq_true in E as ->. split.
      * intros [= <- <-]. split; [done|]. apply not_elem_of_nil.
      * intros [H Hn]. destruct x as [|b x]; simplify_eq/=; [done|].
        destruct Hn. left.
    + apply aeq_false in E. destruct (split_once c l) as [[x' y']|] eqn:E2.
      * split.
        -- intros [= <- <-]. destruct (proj1 (IH x') eq_refl) as [-> Hn].
           split; [done|]. rewrite not_elem_of_cons; naive_solver.
        -- intros [H Hn]. destruct x as [|b x]; simplify_eq/=.
           rewrite not_elem_of_cons in Hn.
           assert (Some (x', y') = Some (x, y)) as Heq by (apply IH; naive_solver).
           naive_solver.
      * split; [done|]. intros [H Hn]. destruct x as [|b x]; simplify_eq/=.
        rewrite not_elem_of_cons in Hn. exfalso.
        assert (None = Some (x, y)) by (apply IH; naive_solver). done.
Qed.

Lemma split_once_None c l : split_once c l = None <-> c ∉ l.
Proof.
  split.
  - intros H Hin. apply elem_of_list_split in Hin as Hs.
    revert H Hin. clear Hs. induction l as [|a l IH]; simpl.
    + intros _ Hi. by apply elem_of_nil in Hi.
    + destruct (aeq a c) eqn:E; [done|]. apply aeq_false in E.
      destruct (split_once c l) as [[]|] eqn:E2; [done|]. intros _ Hi.
      apply elem_of_cons in Hi as [->|Hi]; [done|]. by apply IH.
  - intros H. destruct (split_once c l) as [[x y]|] eqn:E; [|done].
    apply split_once_Some in E as [-> _]. exfalso; apply H.
    rewrite elem_of_app, elem_of_cons; naive_solver.
Qed.

Lemma split_once_app c x y : c ∉ x -> split_once c (x ++ c :: y) = Some (x, y).
Proof. intros. by apply split_once_Some. Qed.

(** [span] *)
Lemma span_spec f l x y :
  span f l = (x, y) <->
  l = x ++ y /\ forallb f x = true /\
  match y with [] => True | a :: _ => f a = false end.
Proof.
  revert x y; induction l as [|a l IH]; intros x y; simpl.
  - split; [intros [= <- <-]; done|]. intros (H & _). symmetry in H.
    by apply app_eq_nil in H as [-> ->].
  - destruct (f a) eqn:E.
    + destruct (span f l) as [x' y'] eqn:E2.
      destruct (proj1 (IH x' y') eq_refl) as (-> & Hx & Hy).
      split.
      * intros [= <- <-]. simpl. rewrite E, Hx. done.
      * intros (H & Hf & Hb). destruct x as [|b x]; simplify_eq/=.
        -- congruence.
        -- apply andb_true_iff in Hf as [Hb' Hf].
           assert ((x', y') = (x, y)) by (apply IH; done). naive_solver.
    + split.
      * intros [= <- <-]. done.
      * intros (H & Hf & Hb). destruct x as [|b x]; simplify_eq/=; [done|].
        rewrite E in Hf. done.
Qed.

Lemma span_app f x a y :
  forallb f x = true -> f a = false -> span f (x ++ a :: y) = (x, a :: y).
Proof. intros. apply span_spec. done. Qed.

Lemma span_all f x : forallb f x = true -> span f x = (x, []).
Proof. intros. apply span_spec. by rewrite app_nil_r. Qed.

(** [take_n] *)
Lemma take_n_Some n l x y : take_n n l = Some (x, y) <-> l = x ++ y /\ length x = n.
Proof.
  revert l x; induction n as [|n IH]; intros l x; simpl.
  - split; [intros [= <- <-]; done|]. intros [-> H]. by apply nil_length_inv in H as ->.
  - destruct l as [|a l].
    + split; [done|]. intros [H Hl]. symmetry in H. apply app_eq_nil in H as [-> _]. done.
    + destruct (take_n n l) as [[x' y']|] eqn:E.
      * split.
        -- intros [= <- <-]. apply IH in E as [-> <-]. done.
        -- intros [H Hl]. destruct x as [|b x]; simplify_eq/=.
           assert (Some (x', y') = Some (x, y)) as [= -> ->]; [|done].
           rewrite <- E. by apply IH.
      * split; [done|]. intros [H Hl]. destruct x as [|b x]; simplify_eq/=.
        assert (None = Some (x, y)); [|done]. rewrite <- E. by apply IH.
Qed.

Lemma take_n_app n x y : length x = n -> take_n n (x ++ y) = Some (x, y).
Proof. intros. by apply take_n_Some. Qed.

(** Decimal values *)
Lemma dec_acc_app acc x y : dec_acc acc (x ++ y) = dec_acc (dec_acc acc x) y.
Proof. unfold dec_acc. apply fold_left_app. Qed.

Lemma dec_acc_spec acc l : dec_acc acc l = (acc * 10 ^ N.of_nat (length l) + dec_val l)%N.
Proof.
  unfold dec_val. revert acc. induction l as [|a l IH]; intros acc.
  - cbn. lia.
  - change (dec_acc acc (a :: l)) with (dec_acc (acc * 10 + digit_val a) l).
    change (dec_acc 0 (a :: l)) with (dec_acc (0 * 10 + digit_val a) l).
    rewrite IH, (IH (0 * 10 + digit_val a)%N).
    change (length (a :: l)) with (S (length l)).
    rewrite Nat2N.inj_succ, N.pow_succ_r' by lia. lia.
Qed.

(** Comparison is a total order. *)
Lemma bytes_cmp_eq x y : bytes_cmp x y = Eq <-> x = y.
Proof.
  revert y; induction x as [|a x IH]; intros [|b y]; simpl; try naive_solver.
  destruct (N.compare_spec (code a) (code b)) as [E|E|E].
  - apply code_inj in E as ->. rewrite IH. naive_solver.
  - split; [done|]. intros [= -> ->]. lia.
  - split; [done|]. intros [= -> ->]. lia.
Qed.

Lemma bytes_cmp_refl x : bytes_cmp x x = Eq.
Proof. by apply bytes_cmp_eq. Qed.

Lemma bytes_cmp_opp x y : bytes_cmp y x = CompOpp (bytes_cmp x y).
Proof.
  revert y; induction x as [|a x IH]; intros [|b y]; simpl; try done.
  rewrite (N.compare_antisym (code a) (code b)).
  destruct (N.compare (code a) (code b)); simpl; auto.
Qed.

Lemma bytes_cmp_lt_trans x y z : bytes_cmp x y = Lt -> bytes_cmp y z = Lt -> bytes_cmp x z = Lt.
Proof.
  revert y z; induction x as [|a x IH]; intros [|b y] [|c z]; simpl; try done.
  destruct (N.compare_spec (code a) (code b)) as [E|E|E]; try done;
  destruct (N.compare_spec (code b) (code c)) as [E'|E'|E']; try done; intros H1 H2;
  destruct (N.compare_spec (code a) (code c)) as [E''|E''|E'']; try done; try lia.
  by eapply IH.
Qed.

Lemma bytes_cmp_le_trans x y z : bytes_cmp x y <> Gt -> bytes_cmp y z <> Gt -> bytes_cmp x z <> Gt.
Proof.
  intros H1 H2. destruct (bytes_cmp x y) eqn:E1; try done.
  - apply bytes_cmp_eq in E1 as ->. done.
  - destruct (bytes_cmp y z) eqn:E2; try done.
    + apply bytes_cmp_eq in E2 as ->. congruence.
    + rewrite (bytes_cmp_lt_trans x y z); done.
Qed.

Lemma pair_cmp_eq p q : pair_cmp p q = Eq <-> p = q.
Proof.
  destruct p as [a b], q as [c d]. unfold pair_cmp; simpl.
  destruct (bytes_cmp a c) eqn:E.
  - apply bytes_cmp_eq in E as ->. rewrite bytes_cmp_eq. naive_solver.
  - split; [done|]. intros [= -> ->]. by rewrite bytes_cmp_refl in E.
  - split; [done|]. intros [= -> ->]. by rewrite bytes_cmp_refl in E.
Qed.

Lemma pair_cmp_opp p q : pair_cmp q p = CompOpp (pair_cmp p q).
Proof.
  destruct p as [a b], q as [c d]. unfold pair_cmp; simpl.
  rewrite (bytes_cmp_opp a c). destruct (bytes_cmp a c); simpl; auto using bytes_cmp_opp.
Qed.

Lemma pair_cmp_le_trans x y z : pair_cmp x y <> Gt -> pair_cmp y z <> Gt -> pair_cmp x z <> Gt.
Proof.
  destruct x as [a b], y as [c d], z as [e f]. unfold pair_cmp; simpl.
  destruct (bytes_cmp a c) eqn:E1; try done; destruct (bytes_cmp c e) eqn:E2; try done.
  - apply bytes_cmp_eq in E1 as ->. rewrite E2. apply bytes_cmp_le_trans.
  - apply bytes_cmp_eq in E1 as ->. by rewrite E2.
  - apply bytes_cmp_eq in E2 as ->. by rewrite E1.
  - by rewrite (bytes_cmp_lt_trans a c e).
Qed.

(** Comparison functions that are total orders. *)
Class CmpOrder {A} (cmp : A -> A -> comparison) : Prop := {
  cmp_eq : forall x y, cmp x y = Eq <-> x = y;
  cmp_opp : forall x y, cmp y x = CompOpp (cmp x y);
  cmp_trans : forall x y z, cmp x y <> Gt -> cmp y z <> Gt -> cmp x z <> Gt;
}.

Global Instance bytes_cmp_order : CmpOrder bytes_cmp.
Proof. split; [apply bytes_cmp_eq|apply bytes_cmp_opp|apply bytes_cmp_le_trans]. Qed.
Global Instance pair_cmp_order : CmpOrder pair_cmp.
Proof. split; [apply pair_cmp_eq|apply pair_cmp_opp|apply pair_cmp_le_trans]. Qed.

Section sorting.
  Context {A} (cmp : A -> A -> comparison) `{!CmpOrder cmp}.

  Global Instance cmp_le_trans : Transitive (cmp_le cmp).
  Proof. intros x y z. apply cmp_trans. Qed.
  Global Instance cmp_le_total : Total (cmp_le cmp).
  Proof.
    intros x y. unfold cmp_le. rewrite (cmp_opp (cmp:=cmp) x y).
    destruct (cmp x y); simpl; naive_solver.
  Qed.
  Global Instance cmp_le_antisymm : AntiSymm (=) (cmp_le cmp).
  Proof.
    intros x y. unfold cmp_le. rewrite (cmp_opp (cmp:=cmp) x y). intros H1 H2.
    apply (cmp_eq (cmp:=cmp)). destruct (cmp x y); simpl in *; naive_solver.
  Qed.

  Lemma sort_by_sorted l : StronglySorted (cmp_le cmp) (sort_by cmp l).
  Proof. apply StronglySorted_merge_sort; apply _. Qed.
  Lemma sort_by_perm l : sort_by cmp l ≡ₚ l.
  Proof. apply merge_sort_Permutation. Qed.
  Lemma sort_by_perm_eq l k : l ≡ₚ k -> sort_by cmp l = sort_by cmp k.
  Proof.
    intros H. eapply (StronglySorted_unique (cmp_le cmp)).
    - apply sort_by_sorted.
    - apply sort_by_sorted.
    - by rewrite !sort_by_perm.
  Qed.
  Lemma sort_by_id l : StronglySorted (cmp_le cmp) l -> sort_by cmp l = l.
  Proof.
    intros H. eapply (StronglySorted_unique (cmp_le cmp)); [apply sort_by_sorted|done|].
    apply sort_by_perm.
  Qed.
  Lemma sort_by_perm_inv l k : sort_by cmp l = sort_by cmp k -> l ≡ₚ k.
  Proof. intros H. by rewrite <- (sort_by_perm l), <- (sort_by_perm k), H. Qed.
End sorting.

(** [split_all] and joining with one separator character. *)
Lemma split_all_nil_not c l : split_all c l <> [].
Proof. induction l as [|a l IH]; simpl; [done|]. destruct (aeq a c); [done|]. destruct (split_all c l); done. Qed.

Fixpoint intercalate (c : ascii) (ls : list bytes) : bytes :=
  match ls with
  | [] => []
  | [x] => x
  | x :: ls' => x ++ c :: intercalate c ls'
  end.

Lemma split_all_free c x : c ∉ x -> split_all c x = [x].
Proof.
  induction x as [|a x IH]; simpl; [done|]. rewrite not_elem_of_cons. intros [H1 H2].
  destruct (aeq a c) eqn:E; [apply aeq_true in E; congruence|]. by rewrite IH.
Qed.

Lemma split_all_cons c x l : c ∉ x -> split_all c (x ++ c :: l) = x :: split_all c l.
Proof.
  induction x as [|a x IH]; simpl.
  - by rewrite aeq_refl.
  - rewrite not_elem_of_cons. intros [H1 H2].
    destruct (aeq a c) eqn:E; [apply aeq_true in E; congruence|]. by rewrite IH.
Qed.

Lemma split_all_intercalate c ls :
  ls <> [] -> Forall (fun x => c ∉ x) ls -> split_all c (intercalate c ls) = ls.
Proof.
  induction ls as [|x ls IH]; [done|]. intros _ H. inversion H as [|?? Hx Hls]; subst.
  destruct ls as [|y ls].
  - simpl. by apply split_all_free.
  - change (intercalate c (x :: y :: ls)) with (x ++ c :: intercalate c (y :: ls)).
    rewrite split_all_cons by done. f_equal. by apply IH.
Qed.

Lemma intercalate_split_all c l : intercalate c (split_all c l) = l.
Proof.
  induction l as [|a l IH]; simpl; [done|].
  destruct (aeq a c) eqn:E.
  - apply aeq_true in E as ->. destruct (split_all c l) eqn:E2.
    + by apply split_all_nil_not in E2.
    + simpl. simpl in IH. by rewrite <- IH.
  - destruct (split_all c l) as [|x xs] eqn:E2; [by apply split_all_nil_not in E2|].
    destruct xs; simpl in *; by rewrite <- IH.
Qed.

Lemma split_all_no_sep c l : Forall (fun x => c ∉ x) (split_all c l).
Proof.
  induction l as [|a l IH]; simpl.
  - constructor; [apply not_elem_of_nil|constructor].
  - destruct (aeq a c) eqn:E.
    + constructor; [apply not_elem_of_nil|done].
    + apply aeq_false in E. destruct (split_all c l) as [|x xs].
      * constructor; [|constructor]. apply not_elem_of_cons; split; [congruence|apply not_elem_of_nil].
      * inversion IH; subst. constructor; [|done]. apply not_elem_of_cons; split; [congruence|done].
Qed.

Lemma intercalate_inj c xs ys :
  xs <> [] -> ys <> [] ->
  Forall (fun x => c ∉ x) xs -> Forall (fun x => c ∉ x) ys ->
  intercalate c xs = intercalate c ys -> xs = ys.
Proof.
  intros Hx Hy Fx Fy H. rewrite <- (split_all_intercalate c xs), <- (split_all_intercalate c ys) by done.
  by rewrite H.
Qed.

(** A separator-delimited prefix is determined. *)
Lemma app_sep_inj (c : ascii) x y x' y' :
  c ∉ x -> c ∉ x' -> x ++ c :: y = x' ++ c :: y' -> x = x' /\ y = y'.
Proof.
  intros Hx Hx' H.
  assert (split_once c (x ++ c :: y) = Some (x, y)) as E1 by by apply split_once_app.
  rewrite H, split_once_app in E1 by done. naive_solver.
Qed.

Lemma forallb_Forall {A} (f : A -> bool) l : forallb f l = true <-> Forall (fun x => f x = true) l.
Proof.
  rewrite forallb_forall, Forall_forall. setoid_rewrite elem_of_list_In. done.
Qed.

Lemma existsb_elem {A} (f : A -> bool) l : existsb f l = true <-> exists x, x ∈ l /\ f x = true.
Proof.
  rewrite existsb_exists. setoid_rewrite elem_of_list_In. done.
Qed.

Lemma last_Some_app {A} (l : list A) x : last l = Some x <-> exists l', l = l' ++ [x].
Proof. apply last_Some. Qed.

Global Arguments strip_prefix : simpl never.
Global Arguments starts_with : simpl never.
