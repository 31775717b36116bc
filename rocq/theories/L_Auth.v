(** Lemmas for the Authorization header parser. *)
From Verif Require Import M_Base M_Path M_Headers L_Base S_Path L_Path S_Headers L_Headers.
From Coq Require Import Lia.

Lemma semicolons_intercalate hs : semicolons hs = intercalate ";" hs.
Proof. induction hs as [|h [|h' hs] IH]; simpl in *; [done..|]. by rewrite IH. Qed.

Lemma slash_tail0_spec l x rest :
  slash_tail0 l = Some (x, rest) <-> l = x ++ B "/" ++ rest /\ "/"%char ∉ x.
Proof.
  unfold slash_tail0. destruct (span _ l) as [x' r] eqn:E.
  pose proof (proj1 (span_spec _ _ _ _) E) as (Hl & Hx & Hr).
  assert (forall x, forallb (fun c => negb (aeq c "/")) x = true <-> "/"%char ∉ x) as Hns.
  { intros y. rewrite forallb_Forall, Forall_forall. setoid_rewrite negb_true_iff.
    setoid_rewrite aeq_false. split.
    - intros H Hin. by destruct (H _ Hin).
    - intros H x0 Hx0 ->. done. }
  split.
  - destruct r as [|a r]; [done|]. intros [= <- <-]. rewrite negb_false_iff, aeq_true in Hr.
    subst. by rewrite <- Hns.
  - intros [H1 H2]. rewrite <- Hns in H2.
    assert (span (fun c => negb (aeq c "/")) l = (x, "/"%char :: rest)) as E'.
    { apply span_spec. done. }
    rewrite E in E'. by simplify_eq.
Qed.

Lemma slash_tail1_spec l x rest :
  slash_tail1 l = Some (x, rest) <-> l = x ++ B "/" ++ rest /\ x <> [] /\ "/"%char ∉ x.
Proof.
  unfold slash_tail1. destruct (slash_tail0 l) as [[[|a y] r]|] eqn:E.
  - split; [done|]. intros (-> & Hn & Hs).
    apply slash_tail0_spec in E as [Hl _]. destruct x; [done|]. simpl in Hl. injection Hl as -> _.
    destruct Hs. left.
  - pose proof (proj1 (slash_tail0_spec _ _ _) E) as [Hl Hs]. split; [intros [= <- <-]; done|].
    intros (Hl' & Hn & Hs'). rewrite <- E. by apply slash_tail0_spec.
  - split; [done|]. intros (-> & Hn & Hs). rewrite <- E. by apply slash_tail0_spec.
Qed.

Lemma parse_credential_spec l c rest :
  parse_credential l = Some (c, rest) <->
  l = credential_text c ++ rest /\ credential_fields_ok c /\ verify_date (cred_date c) = true.
Proof.
  unfold parse_credential, credential_text, credential_fields_ok. split.
  - intros H.
    destruct (slash_tail1 l) as [[ak l1]|] eqn:E1; [|done].
    destruct (slash_tail1 l1) as [[date l2]|] eqn:E2; [|done].
    destruct (verify_date date) eqn:Ev; [|done]. simpl in H.
    destruct (slash_tail0 l2) as [[region l3]|] eqn:E3; [|done].
    destruct (slash_tail1 l3) as [[service l4]|] eqn:E4; [|done].
    destruct (strip_prefix _ l4) as [l5|] eqn:E5; [|done].
    injection H as <- <-.
    apply slash_tail1_spec in E1 as (->&?&?), E2 as (->&?&?), E4 as (->&?&?).
    apply slash_tail0_spec in E3 as (->&?). apply strip_prefix_Some in E5 as ->.
    cbn [access_key_id cred_date aws_region aws_service].
    split; [|done]. rewrite <- !app_assoc. done.
  - intros (-> & (Hak & Haks & Hd & Hr & Hs & Hss) & Hv).
    destruct c as [ak date region service]. cbn [access_key_id cred_date aws_region aws_service] in *.
    rewrite <- !app_assoc.
    rewrite (proj2 (slash_tail1_spec _ ak _) (conj eq_refl (conj Hak Haks))).
    assert (date <> []) by (by intros ->).
    rewrite (proj2 (slash_tail1_spec _ date _)) by done. rewrite Hv. simpl negb.
    rewrite (proj2 (slash_tail0_spec _ region _)) by done.
    rewrite (proj2 (slash_tail1_spec _ service (B "aws4_request" ++ rest))) by done.
    by rewrite strip_prefix_app.
Qed.

Lemma not_sep_spec h :
  forallb (fun c => negb (aeq c ";" || aeq c ",")) h = true <-> ";"%char ∉ h /\ ","%char ∉ h.
Proof.
  rewrite forallb_Forall, Forall_forall. setoid_rewrite negb_true_iff.
  setoid_rewrite orb_false_iff. setoid_rewrite aeq_false. split.
  - intros H. split; intros Hin; by destruct (H _ Hin).
  - intros [H1 H2] x Hx. split; intros ->; done.
Qed.

Lemma p_signed_headers_sound n l hs rest :
  p_signed_headers n l = Some (hs, rest) ->
  l = semicolons hs ++ B "," ++ rest /\ hs <> [] /\
  (forall h, h ∈ hs -> h <> [] /\ ";"%char ∉ h /\ ","%char ∉ h).
Proof.
  revert l hs. induction n as [|n IH]; intros l hs; [done|]. simpl.
  destruct (span _ l) as [h r] eqn:E.
  apply span_spec in E as (-> & Hh & Hr). apply not_sep_spec in Hh.
  destruct h as [|a h]; [done|]. destruct r as [|sep r]; [done|].
  destruct (aeq sep ",") eqn:Es.
  - apply aeq_true in Es as ->. intros [= <- <-]. split; [done|]. split; [done|].
    intros h' ->%elem_of_list_singleton. done.
  - destruct (p_signed_headers n r) as [[hs' r']|] eqn:E; [|done]. intros [= <- <-].
    apply IH in E as (-> & Hne & Hall). cbv beta in Hr. rewrite orb_false_r, negb_false_iff, aeq_true in Hr.
    subst sep. split; [|split; [done|]].
    + destruct hs'; [done|]. simpl. by rewrite <- !app_assoc.
    + intros h' [->|Hin]%elem_of_cons; [done|]. by apply Hall.
Qed.

Lemma p_signed_headers_complete n hs rest :
  hs <> [] -> (forall h, h ∈ hs -> h <> [] /\ ";"%char ∉ h /\ ","%char ∉ h) ->
  (length hs <= n)%nat ->
  p_signed_headers n (semicolons hs ++ B "," ++ rest) = Some (hs, rest).
Proof.
  revert n. induction hs as [|h hs IH]; intros n; [done|]. intros _ Hall Hn.
  destruct n as [|n]; [simpl in Hn; lia|].
  destruct (Hall h) as [Hne Hsep]; [left|]. apply not_sep_spec in Hsep.
  destruct hs as [|h' hs].
  - simpl. change (h ++ "," %char :: rest) with (h ++ ","%char :: rest).
    rewrite span_app by done. destruct h; [done|]. by rewrite aeq_refl.
  - change (semicolons (h :: h' :: hs)) with (h ++ ";"%char :: semicolons (h' :: hs)).
    cbn [p_signed_headers]. rewrite <- app_assoc. cbn [app].
    rewrite span_app by done. destruct h as [|a h]; [done|].
    change (aeq ";" ",") with false. cbv iota.
    change (semicolons (h' :: hs) ++ B "," ++ rest) with (semicolons (h' :: hs) ++ B "," ++ rest).
    rewrite IH; [done|done| |simpl in *; lia].
    intros x Hx. apply Hall. by right.
Qed.

Lemma semicolons_length hs :
  (forall h, h ∈ hs -> h <> []) -> (length hs <= length (semicolons hs))%nat.
Proof.
  induction hs as [|h [|h' hs] IH]; simpl; intros Hall; [lia| |].
  - assert (h <> []) by (apply Hall; left). destruct h; simpl; [done|lia].
  - rewrite app_length. simpl.
    assert (length (h' :: hs) <= length (semicolons (h' :: hs)))%nat.
    { apply IH. intros x Hx. apply Hall. by right. }
    simpl in *. lia.
Qed.

Lemma blanks_spec s : blanks s <-> forallb is_multispace s = true.
Proof.
  rewrite forallb_Forall, Forall_forall. unfold blanks, is_multispace.
  setoid_rewrite orb_true_iff. setoid_rewrite orb_true_iff. setoid_rewrite orb_true_iff.
  setoid_rewrite aeq_true. split; intros H a Ha; apply H in Ha.
  - rewrite !elem_of_cons, elem_of_nil in Ha. tauto.
  - rewrite !elem_of_cons, elem_of_nil. tauto.
Qed.
Lemma no_blank_spec s : no_blank s <-> forallb (fun c => negb (is_ascii_ws c)) s = true.
Proof.
  rewrite forallb_Forall, Forall_forall. unfold no_blank, is_ascii_ws.
  setoid_rewrite negb_true_iff. setoid_rewrite <- not_true_iff_false.
  setoid_rewrite orb_true_iff. setoid_rewrite orb_true_iff. setoid_rewrite orb_true_iff.
  setoid_rewrite orb_true_iff.
  setoid_rewrite aeq_true. split; intros H a Ha; apply H in Ha.
  - rewrite !elem_of_cons, elem_of_nil in Ha. tauto.
  - rewrite !elem_of_cons, elem_of_nil. tauto.
Qed.

Lemma multispace_ws a : is_multispace a = true -> is_ascii_ws a = true.
Proof. unfold is_multispace, is_ascii_ws. destruct (aeq a "012"), (aeq a " "), (aeq a "009"), (aeq a "010"), (aeq a "013"); done. Qed.

Lemma span_snd_blanks w r :
  blanks w -> match r with [] => True | a :: _ => is_multispace a = false end ->
  span is_multispace (w ++ r) = (w, r).
Proof. intros Hw Hr. apply span_spec. by rewrite <- blanks_spec. Qed.

Lemma authorization_spec l a :
  authorization_from_header_str l = Some a <->
  exists w1 w2 w3 w4,
    l = authorization_text a w1 w2 w3 w4 /\ authorization_fields_ok a w1 w2 w3 w4 /\
    verify_date (cred_date (auth_credential a)) = true.
Proof.
  unfold authorization_from_header_str, authorization_text, authorization_fields_ok. split.
  - intros H.
    destruct (span (fun c => negb (is_ascii_ws c)) l) as [alg l1] eqn:E1.
    destruct alg as [|alg0 alg']; [done|]. set (alg := alg0 :: alg') in *.
    destruct (span is_multispace l1) as [w1 l2] eqn:E2.
    destruct w1 as [|w10 w1']; [done|]. set (w1 := w10 :: w1') in *.
    destruct (strip_prefix (B "Credential=") l2) as [l3|] eqn:E3; [|done].
    destruct (parse_credential l3) as [[cred l4]|] eqn:E4; [|done].
    destruct (strip_prefix (B ",") l4) as [l5|] eqn:E5; [|done].
    destruct (span is_multispace l5) as [w2 l6] eqn:E6. simpl snd in H.
    destruct (strip_prefix (B "SignedHeaders=") l6) as [l7|] eqn:E7; [|done].
    destruct (p_signed_headers _ l7) as [[hs l8]|] eqn:E8; [|done].
    destruct (span is_multispace l8) as [w3 l9] eqn:E9. simpl snd in H.
    destruct (strip_prefix (B "Signature=") l9) as [l10|] eqn:E10; [|done].
    destruct (span _ l10) as [sig l11] eqn:E11.
    destruct (span is_multispace l11) as [w4 l12] eqn:E12. simpl snd in H.
    destruct l12; [|done]. injection H as <-.
    apply span_spec in E1 as (->&Halg&_), E2 as (->&Hw1&_), E6 as (->&Hw2&_),
      E9 as (->&Hw3&_), E11 as (->&Hsig&_), E12 as (->&Hw4&_).
    apply strip_prefix_Some in E3 as ->, E5 as ->, E7 as ->, E10 as ->.
    apply parse_credential_spec in E4 as (->&Hc&Hv).
    apply p_signed_headers_sound in E8 as (->&Hhs&Hall).
    exists w1, w2, w3, w4.
    cbn [algorithm auth_credential signed_headers auth_signature].
    rewrite !blanks_spec, !no_blank_spec. rewrite app_nil_r.
    split; [|done]. rewrite <- ?app_assoc. done.
  - intros (w1 & w2 & w3 & w4 & -> & (Halg & Hnb & Hw1n & Hw1 & Hw2 & Hw3 & Hw4 & Hc & Hhs & Hall & Hsig) & Hv).
    destruct a as [alg cred hs sig]. cbn [algorithm auth_credential signed_headers auth_signature] in *.
    rewrite no_blank_spec in Hnb, Hsig.
    destruct w1 as [|w10 w1]; [done|].
    assert (is_multispace w10 = true) as Hw10.
    { rewrite blanks_spec in Hw1. simpl in Hw1. by apply andb_true_iff in Hw1 as [? _]. }
    assert (is_ascii_ws w10 = true) as Hw10' by by apply multispace_ws.
    set (tail0 := B "Credential=" ++ _).
    assert (span (fun c => negb (is_ascii_ws c)) (alg ++ (w10 :: w1) ++ tail0) = (alg, (w10 :: w1) ++ tail0)) as ->.
    { apply span_spec. split; [done|]. split; [done|]. simpl. by rewrite Hw10'. }
    destruct alg as [|a0 alg]; [done|].
    rewrite (span_snd_blanks (w10 :: w1)) by done. cbv beta iota.
    unfold tail0. rewrite strip_prefix_app.
    set (tail1 := B "," ++ _).
    rewrite (proj2 (parse_credential_spec (credential_text cred ++ tail1) cred tail1) (conj eq_refl (conj Hc Hv))).
    cbv beta iota. unfold tail1. rewrite strip_prefix_app.
    set (tail2 := B "SignedHeaders=" ++ _).
    rewrite (span_snd_blanks w2) by done. simpl snd. unfold tail2. rewrite strip_prefix_app.
    set (tail3 := w3 ++ _).
    rewrite p_signed_headers_complete; [|done|done|].
    2:{ assert (length hs <= length (semicolons hs))%nat.
        { apply semicolons_length. intros h Hh. by apply Hall. }
        rewrite app_length. lia. }
    unfold tail3. set (tail4 := B "Signature=" ++ _).
    rewrite (span_snd_blanks w3) by done. simpl snd. unfold tail4. rewrite strip_prefix_app.
    assert (span (fun c => negb (is_ascii_ws c)) (sig ++ w4) = (sig, w4)) as ->.
    { apply span_spec. split; [done|]. split; [done|]. destruct w4 as [|w40 w4]; [done|].
      rewrite blanks_spec in Hw4. simpl in Hw4. apply andb_true_iff in Hw4 as [Hx _].
      by rewrite multispace_ws. }
    cbv beta iota. rewrite <- (app_nil_r w4), (span_snd_blanks w4) by done. done.
Qed.

(** Dates of credentials *)
Lemma leap_spec y : leap y <-> is_leap y = true.
Proof.
  unfold leap, is_leap. rewrite andb_true_iff, orb_true_iff, negb_true_iff, !N.eqb_eq, N.eqb_neq.
  rewrite (N.mod_divide y 4), (N.mod_divide y 400) by done.
  assert (forall d, d <> 0%N -> ((exists k, y = d * k)%N <-> (d | y)%N)) as Hdiv.
  { intros d Hd. split; intros [k Hk]; exists k; lia. }
  rewrite !Hdiv by done.
  assert ((forall k, y <> 100 * k)%N <-> (y mod 100 <> 0)%N) as ->; [|done].
  rewrite N.mod_divide by done. split.
  - intros H [k Hk]. apply (H k). lia.
  - intros H k Hk. apply H. exists k. lia.
Qed.

Lemma month_table feb m : (1 <= m <= 12)%N ->
  month_lengths feb !! (N.to_nat m - 1) =
  Some (if m =? 2 then feb else if (m =? 4) || (m =? 6) || (m =? 9) || (m =? 11) then 30 else 31)%N.
Proof.
  intros H. assert (exists n, m = N.of_nat n /\ (1 <= n <= 12)%nat) as (n & -> & Hn).
  { exists (N.to_nat m). lia. }
  rewrite Nat2N.id. clear H.
  do 13 (destruct n as [|n]; [try lia; try reflexivity|]). lia.
Qed.

Lemma parse_uint_str_digits mx l :
  l <> [] -> forallb is_digit l = true -> (dec_val l <= mx)%N -> parse_uint_str mx l = Some (dec_val l).
Proof.
  intros Hne Hd Hm. unfold parse_uint_str. destruct l as [|a l]; [done|].
  assert (aeq a "+" = false) as ->.
  { apply aeq_false. intros ->. simpl in Hd. done. }
  rewrite Hd. unfold parse_uint. apply N.leb_le in Hm. by rewrite Hm.
Qed.

Lemma dec_val_bound l : forallb is_digit l = true -> (dec_val l < 10 ^ N.of_nat (length l))%N.
Proof.
  induction l as [|d l IH] using rev_ind; [done|].
  rewrite forallb_app, andb_true_iff. intros [H1 H2]. simpl in H2. rewrite andb_true_r in H2.
  apply digit_val_bound in H2. apply IH in H1. rewrite dec_val_snoc, app_length. simpl length.
  rewrite Nat.add_1_r, Nat2N.inj_succ, N.pow_succ_r'. lia.
Qed.

Lemma calendar_verify s : calendar_date s -> verify_date s = true.
Proof.
  intros (Y & M & D & y & m & d & feb & dm & -> & LY & LM & LD & HY & HM & HD & Hfeb & Hm & Hdm & Hd).
  unfold verify_date. rewrite !take_n_app by done. rewrite <- (app_nil_r D), take_n_app by done.
  apply denotes_spec in HY as (NY&HY1&<-), HM as (NM&HM1&<-), HD as (ND&HD1&<-).
  pose proof (dec_val_bound _ HY1) as BY. pose proof (dec_val_bound _ HM1) as BM. pose proof (dec_val_bound _ HD1) as BD.
  rewrite LY in BY. rewrite LM in BM. rewrite LD in BD.
  change (10 ^ N.of_nat 4)%N with 10000%N in BY. change (10 ^ N.of_nat 2)%N with 100%N in *.
  assert (parse_year_part Y = Some (false, dec_val Y)) as ->.
  { unfold parse_year_part. destruct Y as [|a Y]; [done|].
    assert (aeq a "-" = false) as ->. { apply aeq_false. intros ->. done. }
    unfold parse_u32_part. rewrite parse_uint_str_digits; [done|done|done|]. unfold u32_max. lia. }
  unfold parse_u32_part. rewrite !parse_uint_str_digits by (try done; unfold u32_max; lia).
  assert (dec_val M <= 12)%N as HM12.
  { apply lookup_lt_Some in Hdm. simpl in Hdm. lia. }
  rewrite month_table in Hdm by done.
  assert (days_in_month (dec_val Y) (dec_val M) = dm) as ->.
  { unfold days_in_month. injection Hdm as <-.
    destruct Hfeb as [[Hl ->]|[Hl ->]].
    - apply leap_spec in Hl. by rewrite Hl.
    - rewrite leap_spec in Hl. apply not_true_is_false in Hl. by rewrite Hl. }
  destruct Hd. rewrite !(proj2 (N.leb_le _ _)) by done. done.
Qed.

Lemma verify_calendar s :
  verify_date s = true -> length s = 8 /\ (forallb is_digit s = true -> calendar_date s).
Proof.
  unfold verify_date. intros H.
  destruct (take_n 4 s) as [[Y l1]|] eqn:E1; [|done].
  destruct (take_n 2 l1) as [[M l2]|] eqn:E2; [|done].
  destruct (take_n 2 l2) as [[D l3]|] eqn:E3; [|done]. destruct l3; [|done].
  apply take_n_Some in E1 as [-> LY], E2 as [-> LM], E3 as [-> LD].
  rewrite app_nil_r. split; [rewrite !app_length; lia|].
  rewrite !forallb_app, !andb_true_iff. intros (HY & HM & HD).
  pose proof (dec_val_bound _ HY) as BY. pose proof (dec_val_bound _ HM) as BM. pose proof (dec_val_bound _ HD) as BD.
  rewrite LY in BY. rewrite LM in BM. rewrite LD in BD.
  change (10 ^ N.of_nat 4)%N with 10000%N in BY. change (10 ^ N.of_nat 2)%N with 100%N in *.
  assert (Y <> [] /\ M <> [] /\ D <> []) as (NY & NM & ND) by (by destruct Y, M, D).
  assert (parse_year_part Y = Some (false, dec_val Y)) as Ey.
  { unfold parse_year_part. destruct Y as [|a Y]; [done|].
    assert (aeq a "-" = false) as ->. { apply aeq_false. intros ->. done. }
    unfold parse_u32_part. rewrite parse_uint_str_digits; [done|done|done|]. unfold u32_max. lia. }
  rewrite Ey in H. unfold parse_u32_part in H.
  rewrite !parse_uint_str_digits in H by (try done; unfold u32_max; lia).
  rewrite !andb_true_iff, !N.leb_le in H. destruct H as [[[Hm1 Hm2] Hd1] Hd2].
  exists Y, M, D, (dec_val Y), (dec_val M), (dec_val D), (if is_leap (dec_val Y) then 29 else 28)%N,
    (days_in_month (dec_val Y) (dec_val M)).
  repeat split; try done; try (by apply denotes_spec).
  - destruct (is_leap (dec_val Y)) eqn:El.
    + left. split; [by apply leap_spec|done].
    + right. split; [rewrite leap_spec; congruence|done].
  - rewrite month_table by done. unfold days_in_month. done.
Qed.
