(** Lemmas for the header parsers. *)
From Verif Require Import M_Base M_Path M_Headers L_Base S_Path L_Path S_Headers.
From Coq Require Import Lia.

(** Digit strings *)
Lemma digits_lookup v d : digits !! N.to_nat v = Some d <-> is_digit d = true /\ digit_val d = v.
Proof.
  split.
  - intros H. assert (N.to_nat v < 10)%nat as Hv.
    { apply lookup_lt_Some in H. done. }
    assert (is_digit d = true) as Hd by (apply is_digit_spec; by eapply elem_of_list_lookup_2).
    split; [done|].
    remember (N.to_nat v) as n eqn:En. assert (v = N.of_nat n) as -> by lia. clear En Hd.
    do 10 (destruct n as [|n]; [simplify_eq/=; reflexivity|]). lia.
  - intros [H <-].
    assert (forallb (fun d => bool_decide (digits !! N.to_nat (digit_val d) = Some d)) digits = true)
      as Ha by (vm_compute; reflexivity).
    rewrite forallb_Forall, Forall_forall in Ha.
    apply is_digit_spec in H. apply Ha in H. by apply bool_decide_eq_true in H.
Qed.

Lemma digit_val_bound d : is_digit d = true -> (digit_val d < 10)%N.
Proof.
  intros H. unfold is_digit in H. apply in_range_spec in H. unfold digit_val.
  change (code "0") with 48%N in *. change (code "9") with 57%N in *. lia.
Qed.

Lemma dec_val_snoc ds d : dec_val (ds ++ [d]) = (10 * dec_val ds + digit_val d)%N.
Proof.
  unfold dec_val at 1. rewrite dec_acc_app. fold (dec_val ds).
  change (dec_acc (dec_val ds) [d]) with (dec_val ds * 10 + digit_val d)%N. lia.
Qed.

Lemma denotes_spec ds n :
  denotes ds n <-> ds <> [] /\ forallb is_digit ds = true /\ dec_val ds = n.
Proof.
  split.
  - induction 1 as [d v Hd|ds n d v Hds IH Hd].
    + apply digits_lookup in Hd as [Hd Hv]. split; [done|]. simpl. rewrite Hd.
      split; [done|]. change (dec_val [d]) with (0 * 10 + digit_val d)%N. lia.
    + apply digits_lookup in Hd as [Hd Hv]. destruct IH as (_ & H1 & H2). split; [by destruct ds|].
      rewrite forallb_app, H1. simpl. rewrite Hd. split; [done|].
      rewrite dec_val_snoc. lia.
  - intros (Hne & Hd & <-). induction ds as [|d ds IH] using rev_ind; [done|].
    rewrite forallb_app in Hd. apply andb_true_iff in Hd as [H1 H2]. simpl in H2.
    rewrite andb_true_r in H2. rewrite dec_val_snoc.
    destruct ds as [|e ds].
    + change (dec_val []) with 0%N. rewrite N.mul_0_r, N.add_0_l.
      constructor. by apply digits_lookup.
    + apply den_more; [|by apply digits_lookup]. by apply IH.
Qed.

Lemma denotes_fun ds n n' : denotes ds n -> denotes ds n' -> n = n'.
Proof. rewrite !denotes_spec. naive_solver. Qed.

Lemma fits64_spec n : fits64 n <-> (n <=? u64_max)%N = true.
Proof. unfold fits64, u64_max. rewrite N.leb_le. change (2^64)%N with 18446744073709551616%N. lia. Qed.

Lemma p_u64_spec l n rest :
  p_u64 l = Some (n, rest) <->
  exists ds, l = ds ++ rest /\ denotes ds n /\ fits64 n /\
             match rest with [] => True | a :: _ => is_digit a = false end.
Proof.
  unfold p_u64, parse_uint. destruct (span is_digit l) as [ds r] eqn:E.
  pose proof (proj1 (span_spec _ _ _ _) E) as (-> & Hd & Hr).
  split.
  - destruct ds as [|d ds]; [done|].
    destruct (dec_val (d :: ds) <=? u64_max)%N eqn:El; [|done]. intros [= <- <-].
    exists (d :: ds). repeat split; try done.
    + by apply denotes_spec.
    + by apply fits64_spec.
  - intros (ds' & Heq & Hden & Hfit & Hr').
    apply denotes_spec in Hden as (Hne & Hd' & Hv).
    assert (span is_digit (ds ++ r) = (ds', rest)) as E'.
    { apply span_spec. done. }
    rewrite E in E'. simplify_eq. destruct ds'; [done|].
    apply fits64_spec in Hfit. by rewrite Hfit.
Qed.

Lemma p_u64_None_nodigit l : match l with [] => True | a :: _ => is_digit a = false end -> p_u64 l = None.
Proof. unfold p_u64. destruct l as [|a l]; [done|]. simpl. by intros ->. Qed.

Lemma is_digit_dash : is_digit "-" = false.
Proof. reflexivity. Qed.

Lemma range_spec h r : range_from_header_str h = Some r <-> range_text h r.
Proof.
  unfold range_from_header_str. split.
  - destruct (strip_prefix (B "bytes=") h) as [l|] eqn:E; [|done].
    apply strip_prefix_Some in E as ->.
    destruct (p_range_alt l) as [[r' rest]|] eqn:E; [|done].
    destruct rest; [|done]. intros [= ->].
    unfold p_range_alt in E.
    destruct (p_range_normal l) as [r1|] eqn:En.
    + simplify_eq. unfold p_range_normal in En.
      destruct (p_u64 l) as [[f l1]|] eqn:E1; [|done].
      apply p_u64_spec in E1 as (F & -> & Hf & Hff & _).
      destruct (strip_prefix (B "-") l1) as [l2|] eqn:E2; [|done].
      apply strip_prefix_Some in E2 as ->.
      destruct (p_u64 l2) as [[x l3]|] eqn:E3.
      * apply p_u64_spec in E3 as (L & -> & Hl & Hfl & _).
        destruct (N.ltb_spec x f); [done|]. simplify_eq. rewrite app_nil_r.
        by constructor.
      * simplify_eq. rewrite app_nil_r. by constructor.
    + simplify_eq. unfold p_range_suffix in E.
      destruct (strip_prefix (B "-") l) as [l1|] eqn:E1; [|done].
      apply strip_prefix_Some in E1 as ->.
      destruct (p_u64 l1) as [[n l2]|] eqn:E2; [|done]. simplify_eq.
      apply p_u64_spec in E2 as (X & -> & Hn & Hfn & _). rewrite app_nil_r.
      change (B "bytes=" ++ B "-" ++ X) with (B "bytes=-" ++ X). by constructor.
  - intros H. destruct H as [F f Hf Hff|F f L l Hf Hl Hff Hfl Hle|X n Hn Hfn].
    + rewrite strip_prefix_app. unfold p_range_alt, p_range_normal.
      assert (p_u64 (F ++ B "-") = Some (f, B "-")) as ->.
      { apply p_u64_spec. exists F. done. }
      done.
    + rewrite strip_prefix_app. unfold p_range_alt, p_range_normal.
      assert (p_u64 (F ++ B "-" ++ L) = Some (f, B "-" ++ L)) as ->.
      { apply p_u64_spec. exists F. done. }
      rewrite strip_prefix_app.
      assert (p_u64 L = Some (l, [])) as ->.
      { apply p_u64_spec. exists L. by rewrite app_nil_r. }
      destruct (N.ltb_spec l f); [lia|]. done.
    + change (B "bytes=-" ++ X) with (B "bytes=" ++ B "-" ++ X). rewrite strip_prefix_app.
      unfold p_range_alt, p_range_normal.
      assert (p_u64 (B "-" ++ X) = None) as -> by by apply p_u64_None_nodigit.
      unfold p_range_suffix. rewrite strip_prefix_app.
      assert (p_u64 X = Some (n, [])) as ->.
      { apply p_u64_spec. exists X. by rewrite app_nil_r. }
      done.
Qed.

(** Dates *)
Lemma amz_date_spec h d : amz_date_from_header_str h = Some d <-> date_text h d.
Proof.
  split.
  - unfold amz_date_from_header_str. intros H.
    repeat match type of H with
    | context [match take_n ?n ?l with _ => _ end] =>
        let E := fresh "E" in destruct (take_n n l) as [[? ?]|] eqn:E; [|done]; apply take_n_Some in E as [-> ?]
    | context [match strip_prefix ?n ?l with _ => _ end] =>
        let E := fresh "E" in destruct (strip_prefix n l) as [?|] eqn:E; [|done]; apply strip_prefix_Some in E as ->
    end.
    destruct l5; [|done].
    destruct (forallb _ _) eqn:Ef; [|done]. simplify_eq.
    rewrite !app_nil_r. cbn [forallb] in Ef. rewrite !andb_true_iff in Ef.
    destruct Ef as (?&?&?&?&?&?&_).
    constructor; try done; apply denotes_spec; (split; [|done]);
      match goal with |- ?x <> [] => destruct x; done end.
  - intros H. destruct H as [Y M D h m s y mo d hh mi ss ?????? HY HM HD Hh Hm Hs].
    unfold amz_date_from_header_str.
    rewrite !take_n_app by done. rewrite strip_prefix_app, !take_n_app by done.
    rewrite <- (app_nil_r (B "Z")), strip_prefix_app.
    apply denotes_spec in HY as (_&HY1&<-), HM as (_&HM1&<-), HD as (_&HD1&<-),
     Hh as (_&Hh1&<-), Hm as (_&Hm1&<-), Hs as (_&Hs1&<-).
    cbn [forallb]. by rewrite HY1, HM1, HD1, Hh1, Hm1, Hs1.
Qed.

Lemma dig_digit_val a : is_digit a = true -> dig (digit_val a) = a.
Proof.
  intros H. assert (forallb (fun a => aeq (dig (digit_val a)) a) digits = true) as Ha by reflexivity.
  rewrite forallb_Forall, Forall_forall in Ha. apply is_digit_spec in H. apply Ha in H. by apply aeq_true.
Qed.

Lemma pad2_dec_val l : length l = 2 -> forallb is_digit l = true -> pad2 (dec_val l) = l.
Proof.
  destruct l as [|a [|b [|]]]; try done. intros _. simpl. rewrite andb_true_r, andb_true_iff.
  intros [Ha Hb]. pose proof (digit_val_bound _ Ha). pose proof (digit_val_bound _ Hb).
  assert (dec_val [a; b] = digit_val b + digit_val a * 10)%N as ->.
  { change (dec_val [a; b]) with ((0 * 10 + digit_val a) * 10 + digit_val b)%N. lia. }
  unfold pad2. rewrite N.div_add, N.mod_add by done.
  rewrite N.div_small, N.mod_small, N.add_0_l by done.
  by rewrite !dig_digit_val.
Qed.

Lemma pad4_dec_val l : length l = 4 -> forallb is_digit l = true -> pad4 (dec_val l) = l.
Proof.
  destruct l as [|a [|b [|c [|d [|]]]]]; try done. intros _. simpl. rewrite andb_true_r, !andb_true_iff.
  intros (Ha & Hb & Hc & Hd).
  pose proof (digit_val_bound _ Ha). pose proof (digit_val_bound _ Hb).
  pose proof (digit_val_bound _ Hc). pose proof (digit_val_bound _ Hd).
  set (va := digit_val a) in *. set (vb := digit_val b) in *.
  set (vc := digit_val c) in *. set (vd := digit_val d) in *.
  assert (dec_val [a; b; c; d] = vd + vc * 10 + vb * 100 + va * 1000)%N as ->.
  { change (dec_val [a; b; c; d]) with ((((0 * 10 + va) * 10 + vb) * 10 + vc) * 10 + vd)%N. lia. }
  unfold pad4.
  assert ((vd + vc * 10 + vb * 100 + va * 1000) / 1000 = va)%N as ->.
  { rewrite N.div_add by done. rewrite N.div_small; lia. }
  assert ((vd + vc * 10 + vb * 100 + va * 1000) / 100 = vb + va * 10)%N as ->.
  { replace (vd + vc * 10 + vb * 100 + va * 1000)%N with (vd + vc * 10 + (vb + va * 10) * 100)%N by lia.
    rewrite N.div_add by done. rewrite N.div_small; lia. }
  assert ((vd + vc * 10 + vb * 100 + va * 1000) / 10 = vc + (vb + va * 10) * 10)%N as ->.
  { replace (vd + vc * 10 + vb * 100 + va * 1000)%N with (vd + (vc + vb * 10 + va * 100) * 10)%N by lia.
    rewrite N.div_add by done. rewrite N.div_small; lia. }
  assert ((vd + vc * 10 + vb * 100 + va * 1000) mod 10 = vd)%N as ->.
  { replace (vd + vc * 10 + vb * 100 + va * 1000)%N with (vd + (vc + vb * 10 + va * 100) * 10)%N by lia.
    rewrite N.mod_add by done. rewrite N.mod_small; lia. }
  rewrite !N.mod_add, !N.mod_small by lia.
  subst va vb vc vd. by rewrite !dig_digit_val.
Qed.

Lemma dig_spec n : (n < 10)%N -> is_digit (dig n) = true /\ digit_val (dig n) = n.
Proof.
  intros H. assert (forallb (fun n => is_digit (dig n) && (digit_val (dig n) =? n)%N) (map N.of_nat (seq 0 10)) = true) as Ha by reflexivity.
  rewrite forallb_Forall, Forall_forall in Ha.
  assert (n ∈ map N.of_nat (seq 0 10)) as Hn.
  { apply elem_of_list_fmap. exists (N.to_nat n). split; [lia|]. apply elem_of_seq. lia. }
  apply Ha in Hn. apply andb_true_iff in Hn as [? ?%N.eqb_eq]. done.
Qed.

Lemma pad2_denotes n : (n < 100)%N -> denotes (pad2 n) n.
Proof.
  intros H. assert (n / 10 < 10)%N by (apply N.div_lt_upper_bound; lia).
  assert (n mod 10 < 10)%N by (apply N.mod_lt; done).
  destruct (dig_spec (n / 10)) as [D1 V1]; [done|]. destruct (dig_spec (n mod 10)) as [D2 V2]; [done|].
  apply denotes_spec. split; [done|]. unfold pad2. simpl. rewrite D1, D2. split; [done|].
  unfold dec_val, dec_acc, fold_left. rewrite V1, V2. pose proof (N.div_mod n 10 ltac:(done)). lia.
Qed.

Lemma pad4_denotes n : (n < 10000)%N -> denotes (pad4 n) n.
Proof.
  intros H. assert (n / 1000 < 10)%N by (apply N.div_lt_upper_bound; lia).
  destruct (dig_spec (n / 1000)) as [D1 V1]; [done|].
  destruct (dig_spec (n / 100 mod 10)) as [D2 V2]; [by apply N.mod_lt|].
  destruct (dig_spec (n / 10 mod 10)) as [D3 V3]; [by apply N.mod_lt|].
  destruct (dig_spec (n mod 10)) as [D4 V4]; [by apply N.mod_lt|].
  apply denotes_spec. split; [done|]. unfold pad4. simpl. rewrite D1, D2, D3, D4. split; [done|].
  unfold dec_val, dec_acc, fold_left. rewrite V1, V2, V3, V4.
  pose proof (N.div_mod n 10 ltac:(done)). pose proof (N.div_mod (n / 10) 10 ltac:(done)) as H2.
  pose proof (N.div_mod (n / 100) 10 ltac:(done)) as H3.
  rewrite N.div_div in H2 by done. rewrite N.div_div in H3 by done.
  change (10 * 10)%N with 100%N in H2. change (100 * 10)%N with 1000%N in H3. lia.
Qed.

Lemma date_text_print h d : date_text h d -> to_iso8601 d = h /\ to_date d = take 8 h.
Proof.
  intros [Y M D hh m s y mo d' h' mi ss L1 L2 L3 L4 L5 L6 HY HM HD Hh Hm Hs].
  apply denotes_spec in HY as (_&HY1&<-), HM as (_&HM1&<-), HD as (_&HD1&<-),
     Hh as (_&Hh1&<-), Hm as (_&Hm1&<-), Hs as (_&Hs1&<-).
  unfold to_iso8601, to_date; simpl year; simpl month; simpl day; simpl hour; simpl minute; simpl second.
  rewrite !pad2_dec_val, pad4_dec_val by done. split; [done|].
  replace 8%nat with (length (Y ++ M ++ D)) by (rewrite !app_length; lia).
  replace (Y ++ M ++ D ++ B "T" ++ hh ++ m ++ s ++ B "Z")
    with ((Y ++ M ++ D) ++ (B "T" ++ hh ++ m ++ s ++ B "Z")) by (by rewrite <- !app_assoc).
  by rewrite take_app.
Qed.

Lemma to_iso8601_text d :
  (year d < 10000 /\ month d < 100 /\ day d < 100 /\ hour d < 100 /\ minute d < 100 /\ second d < 100)%N ->
  date_text (to_iso8601 d) d.
Proof.
  destruct d as [y mo da h mi s]. simpl. intros (?&?&?&?&?&?). unfold to_iso8601.
  constructor; try done; by (apply pad2_denotes || apply pad4_denotes).
Qed.

(** Copy source *)
Lemma existsb_LF l : existsb (fun c => aeq c LF) l = false <-> LF ∉ l.
Proof.
  rewrite <- not_true_iff_false, existsb_elem. setoid_rewrite aeq_true. naive_solver.
Qed.

Lemma re_bucket_key_spec h b k :
  re_bucket_key h = Some (b, k) <->
  h = b ++ B "/" ++ k /\ b <> [] /\ "/"%char ∉ tail b /\ k <> [] /\ LF ∉ h.
Proof.
  unfold re_bucket_key. destruct h as [|a h].
  { split; [done|]. intros (H&?&_). by destruct b. }
  destruct (split_once "/" h) as [[x k']|] eqn:E.
  - apply split_once_Some in E as [-> Hx].
    destruct (beq k' []) eqn:Ek.
    { apply beq_true in Ek as ->. split; [done|]. intros (H & Hb & Ht & Hk & _).
      destruct b as [|b0 b]; [done|]. injection H as -> H.
      change (x ++ ["/"%char]) with (x ++ "/"%char :: []) in *.
      apply app_sep_inj in H as [-> ?]; done. }
    apply beq_false in Ek.
    destruct (existsb _ _) eqn:El.
    { split; [done|]. intros (_&_&_&_&H). apply existsb_LF in H. congruence. }
    apply existsb_LF in El. split.
    + intros [= <- <-]. done.
    + intros (H & Hb & Ht & Hk & _). destruct b as [|b0 b]; [done|]. injection H as -> H.
      apply app_sep_inj in H as [-> ->]; done.
  - apply split_once_None in E. split; [done|]. intros (H & Hb & _).
    destruct b as [|b0 b]; [done|]. injection H as -> ->. destruct E.
    rewrite elem_of_app, elem_of_cons. naive_solver.
Qed.

Lemma check_key_spec k : check_key k = true <-> (N.of_nat (length k) <= 1024)%N.
Proof. unfold check_key. apply N.leb_le. Qed.

Lemma copy_source_spec h b k :
  copy_source_from_header_str h = Ok (b, k) <->
  h = b ++ B "/" ++ k /\ legal_bucket b /\ legal_key k /\ LF ∉ h.
Proof.
  unfold copy_source_from_header_str, legal_key. rewrite <- check_bucket_name_spec, <- check_key_spec.
  destruct (re_bucket_key h) as [[b' k']|] eqn:E.
  - apply re_bucket_key_spec in E as (-> & Hb & Ht & Hk & Hl).
    split.
    + destruct (check_bucket_name b') eqn:E1; [|done]. simpl.
      destruct (check_key k') eqn:E2; [|done]. simpl. intros [= <- <-]. done.
    + intros (Heq & H1 & [H2 H3] & _).
      assert (Some (b', k') = Some (b, k)) as [= -> ->].
      { transitivity (re_bucket_key (b' ++ B "/" ++ k')).
        - symmetry. by apply re_bucket_key_spec.
        - apply re_bucket_key_spec. repeat split; try done.
          + intros ->. by vm_compute in H1.
          + intros Hin. apply check_bucket_name_spec, legal_bucket_no_slash in H1. destruct H1.
            destruct b; [done|]. by right. }
      by rewrite H1, H3.
  - split; [done|]. intros (Heq & H1 & [H2 H3] & Hl).
    assert (None = Some (b, k)); [|done]. rewrite <- E. apply re_bucket_key_spec.
    repeat split; try done.
    + intros ->. by vm_compute in H1.
    + intros Hin. apply check_bucket_name_spec, legal_bucket_no_slash in H1. destruct H1.
      destruct b; [done|]. by right.
Qed.
