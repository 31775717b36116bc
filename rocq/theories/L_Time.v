(** Lemmas about the calendar. *)
From Verif Require Import M_Base M_Headers M_Time S_Time L_Base L_Headers.
Local Open Scope Z_scope.

Definition cal_of (x : date) : cal := let '(y, m, d) := x in Cal y m d.

(** ** One cycle of 400 years, by computation *)

Definition in_cycle (c : Z) : date :=
  let '(y, o) := cycle_to_yo c in
  let '(m, d) := month_day 1 o (month_lengths (leap y)) in (y, m, d).

Definition len_of (y m : Z) : Z := default 0 (month_lengths (leap y) !! Z.to_nat (m - 1)).

Definition next_b (a b : date) : bool :=
  let '(y, m, d) := a in
  let '(y', m', d') := b in
  if d <? len_of y m then (y' =? y) && (m' =? m) && (d' =? d + 1)
  else (d =? len_of y m) &&
       if m <? 12 then (y' =? y) && (m' =? m + 1) && (d' =? 1)
       else (y' =? y + 1) && (m' =? 1) && (d' =? 1).

Definition chk (c : Z) : bool :=
  let '(y, m, d) := in_cycle c in
  (0 <=? y) && (y <=? 399) && (1 <=? m) && (m <=? 12) && (1 <=? d) && (d <=? 31) && date_ok (y, m, d) &&
  (days_of_date (y, m, d) + 719528 =? c) &&
  next_b (y, m, d) (if c =? 146096 then (400, 1, 1) else in_cycle (c + 1)).

Fixpoint chk_from (k : nat) (c : Z) : bool :=
  match k with O => true | S k' => if chk c then chk_from k' (c + 1) else false end.

Lemma chk_from_spec k c : chk_from k c = true -> forall i, c <= i < c + Z.of_nat k -> chk i = true.
Proof.
  revert c. induction k as [|k IH]; intros c H i Hi; [lia|]. cbn in H. destruct (chk c) eqn:E; [|done].
  destruct (decide (i = c)) as [->|]; [done|]. apply (IH (c + 1)); [done|lia].
Qed.

Lemma chk_cycle c : 0 <= c < 146097 -> chk c = true.
Proof.
  assert (H : chk_from (Z.to_nat 146097) 0 = true) by by vm_compute.
  intros Hc. apply (chk_from_spec _ _ H). rewrite Z2Nat.id by lia. lia.
Qed.

(** ** All cycles *)

Lemma leap_spec y : leap y = true <-> leap_year y.
Proof.
  unfold leap, leap_year. rewrite andb_true_iff, orb_true_iff, negb_true_iff, !Z.eqb_eq, Z.eqb_neq.
  rewrite !Z.mod_divide by lia. done.
Qed.

Lemma leap_shift y q : leap (y + 400 * q) = leap y.
Proof.
  unfold leap. replace ((y + 400 * q) mod 4) with (y mod 4) by (replace (400 * q) with ((100 * q) * 4) by lia; by rewrite Z_mod_plus_full).
  replace ((y + 400 * q) mod 100) with (y mod 100) by (replace (400 * q) with ((4 * q) * 100) by lia; by rewrite Z_mod_plus_full).
  replace ((y + 400 * q) mod 400) with (y mod 400) by (replace (400 * q) with (q * 400) by lia; by rewrite Z_mod_plus_full).
  done.
Qed.

Lemma len_of_spec y m : 1 <= m <= 12 -> month_has y m (len_of y m).
Proof.
  intros Hm. unfold len_of.
  assert (m = 1 \/ m = 2 \/ m = 3 \/ m = 4 \/ m = 5 \/ m = 6 \/ m = 7 \/ m = 8 \/ m = 9 \/ m = 10 \/ m = 11 \/ m = 12) as Hc by lia.
  destruct Hc as [->|[->|[->|[->|[->|[->|[->|[->|[->|[->|[->| ->]]]]]]]]]]]; cbn;
    try (apply mh_long; lia); try (apply mh_short; lia).
  destruct (leap y) eqn:E; [apply mh_feb_leap; by apply leap_spec|apply mh_feb]. by rewrite <- leap_spec, E.
Qed.

Lemma month_has_fun y m a b : month_has y m a -> month_has y m b -> a = b.
Proof. destruct 1; inversion 1; subst; try lia; by exfalso. Qed.

Lemma month_has_month y m a : month_has y m a -> 1 <= m <= 12 /\ 28 <= a.
Proof. destruct 1; lia. Qed.

Lemma next_b_spec a b : (let '(y, m, d) := a in 1 <= m <= 12 /\ 1 <= d) -> next_b a b = true -> next_day (cal_of a) (cal_of b).
Proof.
  destruct a as [[y m] d], b as [[y' m'] d']. intros [Hm Hd] H. unfold next_b in H. cbn [cal_of].
  pose proof (len_of_spec y m Hm) as Hl. destruct (d <? len_of y m) eqn:E.
  - rewrite !andb_true_iff, !Z.eqb_eq in H. destruct H as [[-> ->] ->]. eapply nd_same; [done|]. apply Z.ltb_lt in E. lia.
  - apply andb_true_iff in H as [He H]. apply Z.eqb_eq in He as ->. destruct (m <? 12) eqn:Em.
    + rewrite !andb_true_iff, !Z.eqb_eq in H. destruct H as [[-> ->] ->]. apply Z.ltb_lt in Em. by apply nd_month.
    + rewrite !andb_true_iff, !Z.eqb_eq in H. destruct H as [[-> ->] ->]. apply Z.ltb_ge in Em.
      assert (m = 12) as -> by lia. rewrite (month_has_fun y 12 (len_of y 12) 31) by (try done; apply mh_long; lia). apply nd_year.
Qed.

Lemma date_split n c q : n = 146097 * q + c -> 0 <= c < 146097 ->
  date_of_days (n - 719528) = let '(y, m, d) := in_cycle c in (q * 400 + y, m, d).
Proof.
  intros -> Hc. unfold date_of_days, in_cycle. replace (146097 * q + c - 719528 + 719163 + 365) with (c + q * 146097) by lia.
  rewrite Z_mod_plus_full, Z_div_plus_full, (Z.mod_small c), (Z.div_small c) by lia. 
  destruct (cycle_to_yo c) as [y o]. destruct (month_day 1 o _) as [m d]. done.
Qed.

Lemma date_decomp days : exists c q, 0 <= c < 146097 /\ days = 146097 * q + c - 719528 /\
  date_of_days days = let '(y, m, d) := in_cycle c in (q * 400 + y, m, d).
Proof.
  exists ((days + 719528) mod 146097), ((days + 719528) / 146097).
  pose proof (Z.div_mod (days + 719528) 146097 ltac:(lia)) as H.
  pose proof (Z.mod_pos_bound (days + 719528) 146097 ltac:(lia)) as Hb.
  split; [lia|]. split; [lia|]. rewrite <- (date_split _ _ _ H Hb). f_equal; lia.
Qed.

Lemma chk_unfold c y m d : 0 <= c < 146097 -> in_cycle c = (y, m, d) ->
  0 <= y <= 399 /\ 1 <= m <= 12 /\ 1 <= d <= 31 /\ date_ok (y, m, d) = true /\ days_of_date (y, m, d) + 719528 = c /\
  next_b (y, m, d) (if c =? 146096 then (400, 1, 1) else in_cycle (c + 1)) = true.
Proof.
  intros Hc Hi. pose proof (chk_cycle c Hc) as H. unfold chk in H. rewrite Hi in H.
  rewrite !andb_true_iff, !Z.leb_le, Z.eqb_eq in H. destruct H as [[[[[[[[? ?] ?] ?] ?] ?] ?] ?] ?].
  split_and!; done.
Qed.

Lemma len_shift y q m : len_of (q * 400 + y) m = len_of y m.
Proof. unfold len_of. replace (q * 400 + y) with (y + 400 * q) by lia. by rewrite leap_shift. Qed.

Lemma next_b_shift q y m d y' m' d' :
  next_b (q * 400 + y, m, d) (q * 400 + y', m', d') = next_b (y, m, d) (y', m', d').
Proof.
  unfold next_b. rewrite len_shift. replace (q * 400 + y' =? q * 400 + y) with (y' =? y) by lia.
  replace (q * 400 + y' =? q * 400 + y + 1) with (y' =? y + 1) by lia. done.
Qed.

Lemma date_next days : next_day (cal_of (date_of_days days)) (cal_of (date_of_days (days + 1))).
Proof.
  destruct (date_decomp days) as (c & q & Hc & Hd & He). destruct (in_cycle c) as [[y m] d] eqn:Hi.
  destruct (chk_unfold c y m d Hc Hi) as (Hy & Hm & Hdd & _ & _ & Hn). rewrite He.
  apply (next_b_spec (q * 400 + y, m, d)); [split; lia|]. destruct (c =? 146096) eqn:Ec.
  - apply Z.eqb_eq in Ec as ->. replace (days + 1) with (146097 * (q + 1) + 0 - 719528) by lia.
    rewrite (date_split _ 0 (q + 1)) by lia. replace (in_cycle 0) with (0, 1, 1) by by vm_compute.
    cbv iota. replace ((q + 1) * 400 + 0) with (q * 400 + 400) by lia. by rewrite next_b_shift.
  - apply Z.eqb_neq in Ec. replace (days + 1) with (146097 * q + (c + 1) - 719528) by lia.
    rewrite (date_split _ (c + 1) q) by lia. destruct (in_cycle (c + 1)) as [[y' m'] d']. by rewrite next_b_shift.
Qed.

Lemma date_later n a : later n (cal_of (date_of_days a)) (cal_of (date_of_days (a + Z.of_nat n))).
Proof.
  induction n as [|n IH]; [rewrite Z.add_0_r; constructor|]. econstructor; [exact IH|].
  replace (a + Z.of_nat (S n)) with (a + Z.of_nat n + 1) by lia. apply date_next.
Qed.

Lemma date_epoch : cal_of (date_of_days 0) = Cal 1970 1 1.
Proof. by vm_compute. Qed.

Lemma date_day_number days : day_number days (cal_of (date_of_days days)).
Proof.
  unfold day_number. destruct (Z.leb_spec 0 days) as [H|H].
  - rewrite <- date_epoch. pose proof (date_later (Z.to_nat days) 0) as Hl. by rewrite Z2Nat.id, Z.add_0_l in Hl by done.
  - rewrite <- date_epoch. pose proof (date_later (Z.to_nat (- days)) days) as Hl. rewrite Z2Nat.id in Hl by lia.
    by replace (days + - days) with 0 in Hl by lia.
Qed.

(** ** Days follow one another in one way *)

Lemma next_day_fun a b c : next_day a b -> next_day a c -> b = c.
Proof.
  intros H1 H2. inversion H1 as [y m d len Hl Hd|y m len Hl Hm|y]; subst; inversion H2 as [y' m' d' len' Hl' Hd'|y' m' len' Hl' Hm'|y']; subst; try done; try lia.
  - pose proof (month_has_fun _ _ _ _ Hl Hl'). lia.
  - pose proof (month_has_fun _ _ _ _ Hl ltac:(apply mh_long; lia)). lia.
  - pose proof (month_has_fun _ _ _ _ Hl Hl'). lia.
  - pose proof (month_has_fun _ _ _ _ Hl' ltac:(apply mh_long; lia)). lia.
Qed.

Lemma next_day_inj a b c : next_day a c -> next_day b c -> a = b.
Proof.
  intros H1 H2. inversion H1 as [y m d len Hl Hd|y m len Hl Hm|y]; subst; inversion H2 as [y' m' d' len' Hl' Hd'|y' m' len' Hl' Hm'|y']; subst; try lia.
  - f_equal; lia.
  - assert (m' = m) as -> by lia. by rewrite (month_has_fun _ _ _ _ Hl Hl').
  - apply month_has_month in Hl. lia.
  - apply month_has_month in Hl'. lia.
  - f_equal; lia.
Qed.

Lemma later_fun n a b c : later n a b -> later n a c -> b = c.
Proof.
  intros H. revert c. induction H as [a|n a b c Hl IH Hn]; intros x Hx; inversion Hx; subst; [done|].
  match goal with H : later n a ?z |- _ => pose proof (IH _ H) as -> end. by eapply next_day_fun.
Qed.

Lemma later_inj n a b c : later n a c -> later n b c -> a = b.
Proof.
  intros H. revert b. induction H as [a|n a x c Hl IH Hn]; intros b Hb; inversion Hb; subst; [done|].
  match goal with H : next_day ?z c |- _ => pose proof (next_day_inj _ _ _ Hn H) as -> end. by apply IH.
Qed.

Lemma day_number_date days x : day_number days x -> x = cal_of (date_of_days days).
Proof.
  pose proof (date_day_number days) as H. unfold day_number in *. destruct (0 <=? days); intros Hx.
  - by eapply later_fun.
  - by eapply later_inj.
Qed.

(** ** Back to day numbers *)

Lemma days_before_shift y q m : days_before (leap (q * 400 + y)) m = days_before (leap y) m.
Proof. replace (q * 400 + y) with (y + 400 * q) by lia. by rewrite leap_shift. Qed.

Definition year_days (y : Z) : Z := y * 1461 / 4 - y / 100 + y / 100 / 4.

Lemma year_days_shift y k : year_days (y + k * 400) = year_days y + k * 146097.
Proof.
  unfold year_days. replace ((y + k * 400) * 1461) with (y * 1461 + (k * 146100) * 4) by lia. rewrite Z_div_plus_full by lia.
  replace (y + k * 400) with (y + (k * 4) * 100) by lia. rewrite Z_div_plus_full by lia.
  rewrite Z_div_plus_full by lia. lia.
Qed.

Lemma days_of_date_eq y m d : days_of_date (y, m, d) = year_days (y - 1) + (days_before (leap y) m + d) - 719163.
Proof.
  unfold days_of_date. set (k := if y - 1 <? 0 then _ else 0). pose proof (year_days_shift (y - 1) k) as H.
  unfold year_days in *. lia.
Qed.

Lemma days_of_date_of days : days_of_date (date_of_days days) = days /\ date_ok (date_of_days days) = true.
Proof.
  destruct (date_decomp days) as (c & q & Hc & Hd & He). destruct (in_cycle c) as [[y m] d] eqn:Hi.
  destruct (chk_unfold c y m d Hc Hi) as (Hy & Hm & Hdd & Hok & Hinv & _). rewrite He. split.
  - rewrite days_of_date_eq in *. rewrite days_before_shift. replace (q * 400 + y - 1) with (y - 1 + q * 400) by lia.
    rewrite year_days_shift. lia.
  - unfold date_ok in *. replace (q * 400 + y) with (y + 400 * q) by lia. by rewrite leap_shift.
Qed.

Lemma date_bounds days y m d : date_of_days days = (y, m, d) ->
  1 <= m <= 12 /\ 1 <= d <= 31 /\ (-719528 <= days < 2932897 -> 0 <= y <= 9999).
Proof.
  destruct (date_decomp days) as (c & q & Hc & Hd & He). destruct (in_cycle c) as [[y0 m0] d0] eqn:Hi.
  destruct (chk_unfold c y0 m0 d0 Hc Hi) as (Hy & Hm & Hdd & _). rewrite He. intros [= <- <- <-]. 
  split; [done|]. split; [done|]. intros Hr. assert (0 <= q <= 24) by lia. lia.
Qed.
