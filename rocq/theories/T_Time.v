(** C69: the time stamps shown to clients. *)
From Verif Require Import M_Base S_Path S_Headers M_Headers M_Time S_Time L_Base L_Path L_Headers L_Time.
Local Open Scope Z_scope.

(** ** Digits *)

Lemma scan_digits k n l rest : digits_of k n l -> scan_number k (l ++ rest) = Some (n, rest).
Proof.
  intros (Hl & Hn & Hd). apply denotes_spec in Hd as (_ & Hd & Hv). unfold scan_number.
  rewrite take_n_app, Hd, Hv by done. by rewrite Z2N.id.
Qed.

Lemma z2_digits n : 0 <= n < 100 -> digits_of 2 n (z2 n).
Proof. intros Hn. split; [done|]. split; [lia|]. apply pad2_denotes. lia. Qed.

Lemma year_digits y : 0 <= y <= 9999 -> digits_of 4 y (show_year y).
Proof.
  intros Hy. unfold show_year. replace ((0 <=? y) && (y <=? 9999)) with true by lia. split; [done|]. split; [lia|].
  apply pad4_denotes. lia.
Qed.

Lemma digits_fun k n n' l : digits_of k n l -> digits_of k n' l -> n = n'.
Proof. intros (_ & H1 & H2) (_ & H3 & H4). pose proof (denotes_fun _ _ _ H2 H4). lia. Qed.

Lemma digits_text k n l l' : digits_of k n l -> digits_of k n l' -> l = l'.
Proof.
  intros (Hl & _ & Hd) (Hl' & _ & Hd'). apply denotes_spec in Hd as (_ & Hd & Hv), Hd' as (_ & Hd' & Hv').
  rewrite <- Hv' in Hv. clear Hv' n. revert l' k Hl Hl' Hd Hd' Hv.
  induction l as [|a l IH] using rev_ind; intros l' k Hl Hl' Hd Hd' Hv.
  - destruct l'; [done|]. cbn in *. lia.
  - destruct l' as [|a' l' _] using rev_ind; [rewrite app_length in Hl; cbn in *; lia|].
    rewrite !forallb_app in *. apply andb_true_iff in Hd as [H1 H2], Hd' as [H1' H2'].
    cbn in H2, H2'. rewrite andb_true_r in *. rewrite !dec_val_snoc in Hv. rewrite !app_length in *. cbn in *.
    pose proof (digit_val_bound _ H2). pose proof (digit_val_bound _ H2').
    rewrite (IH l' (length l)) by (try done; lia). f_equal. f_equal.
    rewrite <- (dig_digit_val a), <- (dig_digit_val a') by done. f_equal. lia.
Qed.

Lemma pad_digits k n : Forall (fun c => c ∈ digits) (pad k n) /\ length (pad k n) = k.
Proof.
  revert n. induction k as [|k IH]; intros n; [split; [constructor|done]|]. cbn [pad]. destruct (IH (n / 10)%N) as [H1 H2]. split.
  - apply Forall_app. split; [done|]. apply Forall_cons. split; [|constructor].
    apply is_digit_spec. by apply dig_spec, N.mod_lt.
  - rewrite app_length, H2. cbn. lia.
Qed.

Lemma pad_ne k n : pad (S k) n <> [].
Proof. cbn. by destruct (pad k (n / 10)). Qed.

(** ** Reading what RFC 3339 writes *)

Lemma scan_frac frac c rest : is_digit c = false -> c <> "."%char ->
  frac = [] \/ (exists ds, frac = B "." ++ ds /\ ds <> [] /\ Forall (fun c => c ∈ digits) ds) ->
  scan_fraction (frac ++ c :: rest) = Some (c :: rest).
Proof.
  intros Hc Hdot [->|(ds & -> & Hne & Hds)].
  - cbn. unfold scan_fraction. destruct c as [[] [] [] [] [] [] [] []]; try done.
  - change (B "." ++ ds) with ("."%char :: ds). cbn [app scan_fraction].
    rewrite span_app; [by destruct ds| |done].
    apply forallb_Forall. eapply Forall_impl; [exact Hds|]. intros x Hx. apply is_digit_spec in Hx. by rewrite Hx.
Qed.

Lemma scan_off sign oh ohh om omm : digits_of 2 oh ohh -> digits_of 2 om omm -> 0 <= om < 60 -> sign = B "+" \/ sign = B "-" ->
  scan_offset (sign ++ ohh ++ B ":" ++ omm) =
    Some ((if bool_decide (sign = B "-") then -1 else 1) * (oh * 3600 + om * 60), []).
Proof.
  intros Hh Hm Hr Hs. rewrite <- (app_nil_r omm). 
  assert (Hgo : forall c : ascii, aeq c "+" || aeq c "-" = true -> scan_offset (c :: ohh ++ B ":" ++ omm ++ []) =
    Some ((if aeq c "-" then -1 else 1) * (oh * 3600 + om * 60), [])).
  { intros c Hc. assert (Hsc : scan_offset (c :: ohh ++ B ":" ++ omm ++ []) =
      match scan_number 2 (ohh ++ B ":" ++ omm ++ []) with None => None | Some (hh, s2) =>
      match strip_prefix (B ":") s2 with None => None | Some s3 =>
      match scan_number 2 s3 with None => None | Some (mi, s4) =>
      if mi <=? 59 then Some ((if aeq c "-" then -1 else 1) * (hh * 3600 + mi * 60), s4) else None
      end end end).
    { apply orb_true_iff in Hc as [->%aeq_true | ->%aeq_true]; reflexivity. }
    rewrite Hsc, (scan_digits _ _ _ _ Hh), strip_prefix_app, (scan_digits _ _ _ _ Hm). by replace (om <=? 59) with true by lia. }
  destruct Hs as [-> | ->]; [apply (Hgo "+"%char eq_refl)|apply (Hgo "-"%char eq_refl)].
Qed.

Lemma parse_spec s t : rfc3339 s t -> parse_rfc3339 s = Some (t, false).
Proof.
  intros H. destruct H as [days x yyyy mo dd h hh mi mm s ss frac sign oh ohh om omm Hday Hy Hmo Hd Hh Hmi Hs Hhh Hmm Hss Hf Hoh Hom Hohh Homm Hsign].
  apply day_number_date in Hday. destruct (days_of_date_of days) as [Hinv Hok].
  destruct (date_of_days days) as [[y m] d]. cbn [cal_of] in Hday. subst x. cbn [c_year c_month c_day] in *.
  unfold parse_rfc3339. rewrite (scan_digits _ _ _ _ Hy). rewrite strip_prefix_app, (scan_digits _ _ _ _ Hmo), strip_prefix_app, (scan_digits _ _ _ _ Hd).
  change (scan_t (B "T" ++ ?z)) with (Some z). cbv iota.
  rewrite (scan_digits _ _ _ _ Hhh), strip_prefix_app, (scan_digits _ _ _ _ Hmm), strip_prefix_app, (scan_digits _ _ _ _ Hss).
  assert (Hsc : exists c, sign = [c] /\ is_digit c = false /\ c <> "."%char) by (destruct Hsign as [-> | ->]; by eexists).
  destruct Hsc as (c & Hc & Hc1 & Hc2). rewrite Hc at 1. cbn [app]. rewrite (scan_frac frac c _ Hc1 Hc2 Hf).
  change (c :: ?z) with ([c] ++ z). rewrite <- Hc. rewrite (scan_off sign oh ohh om omm Hohh Homm Hom Hsign). cbv iota.
  rewrite Hok, Hinv. set (g := if bool_decide _ then -1 else 1). assert (g = 1 \/ g = -1) as Hg by (unfold g; case_bool_decide; auto).
  replace (h <=? 23) with true by lia. replace (mi <=? 59) with true by lia. replace (s <=? 60) with true by lia.
  replace (-86400 <? _) with true by lia. replace (_ <? 86400) with true by lia. cbn [andb].
  f_equal. f_equal; lia.
Qed.

(** ** What is shown *)

Lemma weekday_eq days : day_names !! Z.to_nat ((days + 3) mod 7) = weekdays !! Z.to_nat (days mod 7).
Proof.
  rewrite <- Z.add_mod_idemp_l by lia. pose proof (Z.mod_pos_bound days 7 ltac:(lia)) as H. set (r := days mod 7) in *.
  assert (r = 0 \/ r = 1 \/ r = 2 \/ r = 3 \/ r = 4 \/ r = 5 \/ r = 6) as Hr by lia.
  destruct Hr as [->|[->|[->|[->|[->|[->| ->]]]]]]; done.
Qed.

Lemma lookup_default {A} (d : A) (l : list A) n : 0 <= n < Z.of_nat (length l) -> l !! Z.to_nat n = Some (default d (l !! Z.to_nat n)).
Proof. intros H. destruct (lookup_lt_is_Some_2 l (Z.to_nat n)) as [x ->]; [lia|done]. Qed.

(* The years 0000 to 9999. *)
Definition four_digit_years (t : Z) : Prop := -62167219200 <= t < 253402300800.

Lemma show_spec t : four_digit_years t -> http_date (show_last_modified t false) t.
Proof.
  intros Ht. unfold four_digit_years in Ht. unfold show_last_modified. cbv zeta iota. pose proof (Z.div_mod t 86400 ltac:(lia)) as Hdm.
  pose proof (Z.mod_pos_bound t 86400 ltac:(lia)) as Hb. set (days := t / 86400) in *. set (sod := t mod 86400) in *.
  destruct (date_of_days days) as [[y m] d] eqn:Hdate. destruct (date_bounds _ _ _ _ Hdate) as (Hm & Hd & Hy).
  pose proof (date_day_number days) as Hn. rewrite Hdate in Hn. cbn [cal_of] in Hn.
  rewrite weekday_eq.
  assert (Hs : sod = sod / 3600 * 3600 + sod / 60 mod 60 * 60 + (sod mod 60 + 0)).
  { pose proof (Z.div_mod sod 60 ltac:(lia)). pose proof (Z.div_mod (sod / 60) 60 ltac:(lia)) as H2.
    rewrite Z.div_div in H2 by lia. change (60 * 60) with 3600 in H2. lia. }
  assert (Heq : t = days * 86400 + sod / 3600 * 3600 + sod / 60 mod 60 * 60 + (sod mod 60 + 0)) by lia. rewrite Heq.
  clearbody days sod.
  assert (0 <= sod / 3600 < 24) by (split; [apply Z.div_pos; lia|apply Z.div_lt_upper_bound; lia]).
  pose proof (Z.mod_pos_bound (sod / 60) 60 ltac:(lia)). pose proof (Z.mod_pos_bound sod 60 ltac:(lia)).
  apply (http_date_intro days _ (Cal y m d)); try done; cbn [c_year c_month c_day].
  - apply (lookup_default []). cbn. apply Z.mod_pos_bound. lia.
  - apply (lookup_default []). cbn. lia.
  - apply z2_digits. lia.
  - apply year_digits. apply Hy. lia.
  - lia.
  - apply z2_digits. lia.
  - apply z2_digits. lia.
  - apply z2_digits. lia.
Qed.

(** Whatever time stamp in the form of RFC 3339 a storage hands over, the Last-Modified header
    is an HTTP date of the same second. *)
Theorem C69_header_denotes s t : rfc3339 s t -> four_digit_years t ->
  exists h, rfc3339_to_last_modified s = Some h /\ http_date h t.
Proof.
  intros Hs Ht. unfold rfc3339_to_last_modified. rewrite (parse_spec s t Hs). eexists. split; [done|]. by apply show_spec.
Qed.
Print Assumptions C69_header_denotes.

(** What the file-system storage hands over, in whatever time zone the server runs, is of that
    form and denotes the modification time of the file. *)
Theorem C69_stamp_denotes t off : -86400 < off < 86400 -> (60 | off) -> four_digit_years (st_secs t + off) ->
  rfc3339 (to_rfc3339 off t) (st_secs t).
Proof.
  intros Hoff [k Hk] Hl. unfold four_digit_years in Hl. unfold to_rfc3339. cbv zeta. set (local := st_secs t + off) in *.
  pose proof (Z.div_mod local 86400 ltac:(lia)) as Hdm. pose proof (Z.mod_pos_bound local 86400 ltac:(lia)) as Hb.
  set (days := local / 86400) in *. set (sod := local mod 86400) in *.
  destruct (date_of_days days) as [[y m] d] eqn:Hdate. destruct (date_bounds _ _ _ _ Hdate) as (Hm & Hd & Hy).
  pose proof (date_day_number days) as Hn. rewrite Hdate in Hn. cbn [cal_of] in Hn.
  assert (Hs : sod = sod / 3600 * 3600 + sod / 60 mod 60 * 60 + sod mod 60).
  { pose proof (Z.div_mod sod 60 ltac:(lia)). pose proof (Z.div_mod (sod / 60) 60 ltac:(lia)) as H2.
    rewrite Z.div_div in H2 by lia. change (60 * 60) with 3600 in H2. lia. }
  assert (0 <= sod / 3600 < 24) by (split; [apply Z.div_pos; lia|apply Z.div_lt_upper_bound; lia]).
  pose proof (Z.mod_pos_bound (sod / 60) 60 ltac:(lia)). pose proof (Z.mod_pos_bound sod 60 ltac:(lia)).
  assert (Ho : Z.abs off = Z.abs off / 3600 * 3600 + Z.abs off / 60 mod 60 * 60).
  { pose proof (Z.div_mod (Z.abs off) 60 ltac:(lia)). pose proof (Z.div_mod (Z.abs off / 60) 60 ltac:(lia)) as Hq.
    rewrite Z.div_div in Hq by lia. change (60 * 60) with 3600 in Hq.
    assert (Z.abs off mod 60 = 0); [|lia]. apply Z.mod_divide; [done|]. apply Z.divide_abs_r. by exists k. }
  assert (0 <= Z.abs off / 3600 < 24) by (split; [apply Z.div_pos; lia|apply Z.div_lt_upper_bound; lia]).
  pose proof (Z.mod_pos_bound (Z.abs off / 60) 60 ltac:(lia)).
  unfold show_clock, show_offset. rewrite <- !app_assoc.
  set (sign := if off <? 0 then B "-" else B "+").
  replace (st_secs t) with (days * 86400 + sod / 3600 * 3600 + sod / 60 mod 60 * 60 + sod mod 60 -
    (if bool_decide (sign = B "-") then -1 else 1) * (Z.abs off / 3600 * 3600 + Z.abs off / 60 mod 60 * 60)).
  2:{ rewrite <- Ho. clear Ho. unfold sign. destruct (Z.ltb_spec off 0).
      - rewrite bool_decide_eq_true_2 by done. lia.
      - rewrite bool_decide_eq_false_2 by done. lia. }
  apply (rfc3339_intro days (Cal y m d)); cbn [c_year c_month c_day]; try (by apply z2_digits; lia); try done.
  - apply year_digits, Hy. lia.
  - unfold show_nanos. destruct (_ =? 0)%N; [by left|]. right.
    destruct (_ =? 0)%N; [|destruct (_ =? 0)%N]; (eexists; split; [done|]; split; [apply pad_ne|apply pad_digits]).
  - unfold sign. destruct (off <? 0); auto.
Qed.
Print Assumptions C69_stamp_denotes.

(** So the Last-Modified header of a download names the second of the modification, whatever
    the time zone of the server. *)
Theorem C69_last_modified t off : -86400 < off < 86400 -> (60 | off) ->
  four_digit_years (st_secs t + off) -> four_digit_years (st_secs t) ->
  exists h, rfc3339_to_last_modified (to_rfc3339 off t) = Some h /\ http_date h (st_secs t).
Proof. intros H1 H2 H3 H4. apply C69_header_denotes; [by apply C69_stamp_denotes|done]. Qed.
Print Assumptions C69_last_modified.

(** The time zone of the server does not show. *)
Theorem C69_time_zone t off off' : -86400 < off < 86400 -> (60 | off) -> four_digit_years (st_secs t + off) ->
  -86400 < off' < 86400 -> (60 | off') -> four_digit_years (st_secs t + off') ->
  rfc3339_to_last_modified (to_rfc3339 off t) = rfc3339_to_last_modified (to_rfc3339 off' t).
Proof.
  intros H1 H2 H3 H1' H2' H3'. unfold rfc3339_to_last_modified.
  by rewrite (parse_spec _ _ (C69_stamp_denotes t off H1 H2 H3)), (parse_spec _ _ (C69_stamp_denotes t off' H1' H2' H3')).
Qed.
Print Assumptions C69_time_zone.

(** ** HTTP dates are unambiguous *)

Lemma day_number_fun n n' x : day_number n x -> day_number n' x -> n = n'.
Proof.
  intros H H'. apply day_number_date in H, H'. rewrite H in H'.
  destruct (days_of_date_of n) as [E _], (days_of_date_of n') as [E' _]. rewrite <- E, <- E'. f_equal.
  destruct (date_of_days n) as [[? ?] ?], (date_of_days n') as [[? ?] ?]. cbn in H'. by injection H' as -> -> ->.
Qed.

Lemma len3 (l : list bytes) n x : Forall (fun w : bytes => length w = 3%nat) l -> l !! n = Some x -> length x = 3%nat.
Proof. intros H Hx. rewrite Forall_lookup in H. by eapply H. Qed.

Lemma weekdays_3 : Forall (fun w : bytes => length w = 3%nat) weekdays.
Proof. by compute_done. Qed.
Lemma months_3 : Forall (fun w : bytes => length w = 3%nat) months.
Proof. by compute_done. Qed.

Lemma months_nodup : NoDup months.
Proof. by compute_done. Qed.

Theorem C69_unambiguous h t t' : http_date h t -> http_date h t' -> t = t'.
Proof.
  intros H. assert (Hgo : forall h', h = h' -> http_date h' t' -> t = t'); [|by intros; eapply Hgo]. intros h' Heq H'. destruct H as [days wd x dd mon yyyy hr hh mi mm s ss Hn Hw Hm Hd Hy Hh Hmi Hs Hhh Hmm Hss].
  destruct H' as [days' wd' x' dd' mon' yyyy' hr' hh' mi' mm' s' ss' Hn' Hw' Hm' Hd' Hy' Hh' Hmi' Hs' Hhh' Hmm' Hss'].
  pose proof (len3 _ _ _ weekdays_3 Hw) as L1. pose proof (len3 _ _ _ weekdays_3 Hw') as L1'.
  pose proof (len3 _ _ _ months_3 Hm) as L2. pose proof (len3 _ _ _ months_3 Hm') as L2'.
  apply app_inj_1 in Heq as [_ Heq]; [|congruence]. apply app_inv_head in Heq.
  apply app_inj_1 in Heq as [-> Heq]; [|by rewrite (proj1 Hd), (proj1 Hd')]. apply app_inv_head in Heq.
  apply app_inj_1 in Heq as [-> Heq]; [|congruence]. apply app_inv_head in Heq.
  apply app_inj_1 in Heq as [-> Heq]; [|by rewrite (proj1 Hy), (proj1 Hy')]. apply app_inv_head in Heq.
  apply app_inj_1 in Heq as [-> Heq]; [|by rewrite (proj1 Hhh), (proj1 Hhh')]. apply app_inv_head in Heq.
  apply app_inj_1 in Heq as [-> Heq]; [|by rewrite (proj1 Hmm), (proj1 Hmm')]. apply app_inv_head in Heq.
  apply app_inv_tail in Heq as ->.
  pose proof (digits_fun _ _ _ _ Hhh Hhh'). pose proof (digits_fun _ _ _ _ Hmm Hmm'). pose proof (digits_fun _ _ _ _ Hss Hss').
  pose proof (digits_fun _ _ _ _ Hd Hd') as Ed. pose proof (digits_fun _ _ _ _ Hy Hy') as Ey.
  assert (Em : c_month x = c_month x').
  { pose proof (NoDup_lookup _ _ _ _ months_nodup Hm Hm') as E.
    assert (forall n y, day_number n y -> 1 <= c_month y <= 12) as Hr.
    { intros n y Hny. apply day_number_date in Hny. destruct (date_of_days n) as [[? ?] ?] eqn:Ed2.
      apply date_bounds in Ed2. subst y. cbn. lia. }
    apply Hr in Hn, Hn'. lia. }
  assert (x = x') as -> by (destruct x, x'; cbn in *; congruence).
  pose proof (day_number_fun _ _ _ Hn Hn'). lia.
Qed.
Print Assumptions C69_unambiguous.

(** ** Where it goes wrong *)

(* A time zone whose distance from UTC is not a whole number of minutes (local mean times, for
   modification times before about 1900 to 1970): the header is off by the seconds. *)
Theorem C69_odd_offset_refuted : exists t off h, -86400 < off < 86400 /\ four_digit_years (st_secs t) /\
  rfc3339_to_last_modified (to_rfc3339 off t) = Some h /\ ~ http_date h (st_secs t).
Proof.
  (* Amsterdam before 1937: 0:19:32 ahead. *)
  exists (SysTime (-1500000000) 0), 1172. eexists. split; [lia|]. split; [unfold four_digit_years; cbn; lia|].
  split; [by vm_compute|]. intros H. assert (H2 : http_date (show_last_modified (-1499999968) false) (-1499999968)).
  { apply show_spec. unfold four_digit_years. lia. }
  pose proof (C69_unambiguous _ _ _ H H2) as E. discriminate E.
Qed.
Print Assumptions C69_odd_offset_refuted.

(* From the year 10000 on, the time stamp cannot be read back: downloads fail. *)
Theorem C69_year_10000_refuted : exists t, rfc3339_to_last_modified (to_rfc3339 0 t) = None.
Proof. exists (SysTime 253402300800 0). by vm_compute. Qed.
Print Assumptions C69_year_10000_refuted.

(** Non-vacuity. *)
Example ex_time :
  to_rfc3339 19800 (SysTime 1600000000 123456000) = B "2020-09-13T17:56:40.123456+05:30" /\
  rfc3339_to_last_modified (B "2020-09-13T17:56:40.123456+05:30") = Some (B "Sun, 13 Sep 2020 12:26:40 GMT") /\
  rfc3339_to_last_modified (to_rfc3339 (-12600) (SysTime (-2203891201) 5)) = Some (B "Wed, 28 Feb 1900 23:59:59 GMT") /\
  rfc3339_to_last_modified (to_rfc3339 (-12600) (SysTime 951782400 0)) = Some (B "Tue, 29 Feb 2000 00:00:00 GMT") /\
  rfc3339_to_last_modified (B "2016-12-31T23:59:60Z") = Some (B "Sat, 31 Dec 2016 23:59:60 GMT") /\
  rfc3339_to_last_modified (B "2021-02-29T00:00:00Z") = None.
Proof. by vm_compute. Qed.
