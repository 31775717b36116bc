(** Lemmas for path parsing. *)
From Verif Require Import M_Base M_Path L_Base S_Path.
From stdpp Require Import pretty.
From Coq Require Import Lia.

Lemma is_lower_spec a : is_lower a = true <-> a ∈ letters.
Proof.
  assert (Bool.eqb (is_lower a) (bool_decide (a ∈ letters)) = true) as H.
  { revert a. apply ascii_forall. vm_compute. reflexivity. }
  apply eqb_prop in H. rewrite H. apply bool_decide_eq_true.
Qed.
Lemma is_digit_spec a : is_digit a = true <-> a ∈ digits.
Proof.
  assert (Bool.eqb (is_digit a) (bool_decide (a ∈ digits)) = true) as H.
  { revert a. apply ascii_forall. vm_compute. reflexivity. }
  apply eqb_prop in H. rewrite H. apply bool_decide_eq_true.
Qed.
Lemma is_upper_spec a : is_upper a = true <-> a ∈ LETTERS.
Proof.
  assert (Bool.eqb (is_upper a) (bool_decide (a ∈ LETTERS)) = true) as H.
  { revert a. apply ascii_forall. vm_compute. reflexivity. }
  apply eqb_prop in H. rewrite H. apply bool_decide_eq_true.
Qed.

Lemma alnum_char_spec a : alnum_char a = true <-> a ∈ letters \/ a ∈ digits.
Proof. unfold alnum_char. rewrite orb_true_iff, is_lower_spec, is_digit_spec. done. Qed.
Lemma bucket_char_spec a :
  bucket_char a = true <-> a ∈ letters \/ a ∈ digits \/ a = "."%char \/ a = "-"%char.
Proof.
  unfold bucket_char. rewrite !orb_true_iff, is_lower_spec, is_digit_spec, !aeq_true. tauto.
Qed.

(** Octets *)
Definition octet_values : list N := map N.of_nat (seq 0 256).

Lemma octet_values_in n : (n <= 255)%N -> n ∈ octet_values.
Proof.
  intros H. unfold octet_values. apply elem_of_list_fmap. exists (N.to_nat n).
  split; [lia|]. apply elem_of_seq. lia.
Qed.

Lemma octet_of_decimal n : (n <= 255)%N -> ipv4_octet (decimal n) = true.
Proof.
  intros H. assert (forallb (fun n => ipv4_octet (decimal n)) octet_values = true) as Ha
    by (vm_compute; reflexivity).
  rewrite forallb_Forall, Forall_forall in Ha. by apply Ha, octet_values_in.
Qed.

Definition octet_ok (l : bytes) : bool :=
  implb (ipv4_octet l) ((dec_val l <=? 255)%N && beq l (decimal (dec_val l))).

Lemma octet_decimal l : ipv4_octet l = true -> (dec_val l <= 255)%N /\ l = decimal (dec_val l).
Proof.
  intros H.
  assert (octet_ok l = true) as Hok.
  { destruct l as [|a [|b [|c [|d l]]]]; try done.
    - simpl in H. apply is_digit_spec in H.
      assert (forallb (fun a => octet_ok [a]) digits = true) as Ha by (vm_compute; reflexivity).
      rewrite forallb_Forall, Forall_forall in Ha. by apply Ha.
    - simpl in H. rewrite !andb_true_iff in H. destruct H as [[H1 H2] _].
      apply is_digit_spec in H1, H2.
      assert (forallb (fun a => forallb (fun b => octet_ok [a; b]) digits) digits = true) as Ha
        by (vm_compute; reflexivity).
      rewrite forallb_Forall, Forall_forall in Ha. apply Ha in H1.
      rewrite forallb_Forall, Forall_forall in H1. by apply H1.
    - simpl in H. rewrite !andb_true_iff in H. destruct H as [[[[H1 H2] H3] _] _].
      apply is_digit_spec in H1, H2, H3.
      assert (forallb (fun a => forallb (fun b => forallb (fun c => octet_ok [a; b; c]) digits) digits) digits = true) as Ha
        by (vm_compute; reflexivity).
      rewrite forallb_Forall, Forall_forall in Ha. apply Ha in H1.
      rewrite forallb_Forall, Forall_forall in H1. apply H1 in H2.
      rewrite forallb_Forall, Forall_forall in H2. by apply H2. }
  unfold octet_ok in Hok. rewrite H in Hok. simpl in Hok.
  apply andb_true_iff in Hok as [H1 H2]. apply N.leb_le in H1. by apply beq_true in H2.
Qed.

Lemma octet_no_dot l : ipv4_octet l = true -> "."%char ∉ l.
Proof.
  intros H Hin. destruct l as [|a [|b [|c [|d l]]]]; try done; simpl in H;
  rewrite ?andb_true_iff, !is_digit_spec in H;
  rewrite ?elem_of_cons, elem_of_nil in Hin;
  destruct_and?; destruct_or?; subst; try done;
  match goal with H : "."%char ∈ digits |- _ => revert H; rewrite <- is_digit_spec; vm_compute; done end.
Qed.

Lemma is_ip_addr_spec s : is_ip_addr s = true <-> dotted_quad s.
Proof.
  unfold is_ip_addr, dotted_quad. split.
  - intros H. pose proof (intercalate_split_all "." s) as Hs.
    destruct (split_all "." s) as [|w [|x [|y [|z [|? ?]]]]]; try done.
    rewrite !andb_true_iff in H. destruct H as [[[H1 H2] H3] H4].
    apply octet_decimal in H1 as [? E1], H2 as [? E2], H3 as [? E3], H4 as [? E4].
    exists (dec_val w), (dec_val x), (dec_val y), (dec_val z). split; [done|].
    rewrite <- E1, <- E2, <- E3, <- E4, <- Hs. done.
  - intros (a & b & c & d & (Ha & Hb & Hc & Hd) & ->).
    apply octet_of_decimal in Ha, Hb, Hc, Hd.
    simpl. rewrite !split_all_cons by by apply octet_no_dot.
    rewrite split_all_free by by apply octet_no_dot.
    by rewrite Ha, Hb, Hc, Hd.
Qed.

Lemma check_bucket_name_spec b : check_bucket_name b = true <-> legal_bucket b.
Proof.
  unfold check_bucket_name, legal_bucket.
  rewrite <- is_ip_addr_spec, <- starts_with_false.
  destruct ((3 <=? length b)%nat && (length b <? 64)%nat) eqn:E1; simpl.
  2:{ apply andb_false_iff in E1. rewrite Nat.leb_gt, Nat.ltb_ge in E1.
      split; [done|]. intros [? _]. lia. }
  apply andb_true_iff in E1. rewrite Nat.leb_le, Nat.ltb_lt in E1.
  destruct (forallb bucket_char b) eqn:E2; simpl.
  2:{ split; [done|]. intros (_ & H & _). rewrite <- not_true_iff_false in E2.
      destruct E2. apply forallb_Forall, Forall_forall. intros a Ha.
      by apply bucket_char_spec, H. }
  rewrite forallb_Forall, Forall_forall in E2.
  destruct (head b) as [x|] eqn:E3; simpl.
  2:{ split; [done|]. intros (_ & _ & (?&?&_) & _). done. }
  destruct (alnum_char x) eqn:E4; simpl.
  2:{ rewrite <- not_true_iff_false, alnum_char_spec in E4.
      split; [done|]. intros (_ & _ & (?&?&?) & _). naive_solver. }
  apply alnum_char_spec in E4.
  destruct (last b) as [y|] eqn:E5; simpl.
  2:{ split; [done|]. intros (_ & _ & _ & (?&?&_) & _). done. }
  destruct (alnum_char y) eqn:E6; simpl.
  2:{ rewrite <- not_true_iff_false, alnum_char_spec in E6.
      split; [done|]. intros (_ & _ & _ & (?&?&?) & _). naive_solver. }
  apply alnum_char_spec in E6.
  assert (forall a, a ∈ b -> a ∈ letters \/ a ∈ digits \/ a = "."%char \/ a = "-"%char).
  { intros a Ha. by apply bucket_char_spec, E2. }
  destruct (is_ip_addr b); simpl.
  { split; [done|]. intros (_ & _ & _ & _ & Hn & _). by destruct Hn. }
  destruct (starts_with _ b); simpl.
  { split; [done|]. intros (_ & _ & _ & _ & _ & Hn). done. }
  split; [|done]. intros _. repeat split; try done; try lia; eauto.
Qed.

Lemma check_bucket_name_false b : check_bucket_name b = false <-> ~ legal_bucket b.
Proof. rewrite <- check_bucket_name_spec. by rewrite not_true_iff_false. Qed.

Lemma legal_bucket_no_slash b : legal_bucket b -> "/"%char ∉ b.
Proof.
  intros (_ & H & _) Hin. apply H, bucket_char_spec in Hin. by vm_compute in Hin.
Qed.
Lemma legal_bucket_nonempty b : legal_bucket b -> b <> [].
Proof. intros ([? _] & _) ->. simpl in *. lia. Qed.

Lemma B_slash r : B "/" ++ r = "/"%char :: r.
Proof. done. Qed.

Lemma try_from_path_sound p : addresses p (try_from_path p).
Proof.
  unfold try_from_path. destruct (split_once "/" p) as [[pre rest]|] eqn:E.
  - apply split_once_Some in E as [-> Hpre]. destruct pre as [|a pre].
    + simpl. destruct (beq rest []) eqn:Er.
      { apply beq_true in Er as ->. constructor. }
      apply beq_false in Er.
      destruct (split_once "/" rest) as [[b k]|] eqn:E2.
      * apply split_once_Some in E2 as [-> Hb].
        assert (forall X : result path_error s3path, (check_bucket_name b = true -> addresses ("/"%char :: b ++ "/"%char :: k) X) ->
                addresses ("/"%char :: b ++ "/"%char :: k)
                 (if negb (check_bucket_name b) then Err InvalidBucketName else X)) as Haux.
        { intros X HX. destruct (check_bucket_name b) eqn:Ec; simpl; [by apply HX|].
          apply check_bucket_name_false in Ec.
          change ("/"%char :: b ++ "/"%char :: k) with (B "/" ++ b ++ (B "/" ++ k)).
          apply addr_bad_bucket; eauto. }
        destruct k as [|c k].
        -- apply Haux. intros Hc. apply check_bucket_name_spec in Hc.
           change ("/"%char :: b ++ ["/"%char]) with (B "/" ++ b ++ B "/").
           by constructor.
        -- apply Haux. intros Hc. apply check_bucket_name_spec in Hc.
           change ("/"%char :: b ++ "/"%char :: c :: k) with (B "/" ++ b ++ B "/" ++ c :: k).
           unfold check_key. destruct (N.leb_spec (N.of_nat (length (c :: k))) 1024); simpl negb; cbv iota.
           ++ constructor; [done|]. done.
           ++ by constructor.
      * apply split_once_None in E2.
        destruct (check_bucket_name rest) eqn:Ec; simpl.
        -- apply check_bucket_name_spec in Ec.
           change ("/"%char :: rest) with (B "/" ++ rest). by constructor.
        -- apply check_bucket_name_false in Ec.
           rewrite <- (app_nil_r rest) at 1.
           change ("/"%char :: rest ++ []) with (B "/" ++ rest ++ []).
           apply addr_bad_bucket; auto. by rewrite app_nil_r.
    + simpl. apply addr_bad_path. intros r [= -> ?]. rewrite not_elem_of_cons in Hpre. naive_solver.
  - apply split_once_None in E. apply addr_bad_path. intros r ->. apply E.
    rewrite B_slash. left.
Qed.

Lemma addresses_functional p r1 : addresses p r1 -> try_from_path p = r1.
Proof.
  intros H. destruct H as [|b Hb|b Hb|b k Hb [Hk Hl]|b k Hb Hl|b rest Hs Hb Hr Hne|p Hp].
  - done.
  - unfold try_from_path. simpl. pose proof (legal_bucket_no_slash _ Hb). pose proof (legal_bucket_nonempty _ Hb).
    rewrite (proj2 (beq_false b []) ltac:(done)), (proj2 (split_once_None _ _) ltac:(done)).
    apply check_bucket_name_spec in Hb. by rewrite Hb.
  - unfold try_from_path. simpl. pose proof (legal_bucket_no_slash _ Hb). pose proof (legal_bucket_nonempty _ Hb).
    rewrite split_once_app by done.
    rewrite (proj2 (beq_false _ [])) by (by destruct b).
    apply check_bucket_name_spec in Hb. by rewrite Hb.
  - unfold try_from_path. simpl. pose proof (legal_bucket_no_slash _ Hb). pose proof (legal_bucket_nonempty _ Hb).
    rewrite split_once_app by done.
    rewrite (proj2 (beq_false _ [])) by (by destruct b).
    destruct k as [|c k]; [done|].
    apply check_bucket_name_spec in Hb. rewrite Hb.
    assert (check_key (c :: k) = true) as -> by (unfold check_key; by apply N.leb_le). done.
  - unfold try_from_path. simpl. pose proof (legal_bucket_no_slash _ Hb). pose proof (legal_bucket_nonempty _ Hb).
    rewrite split_once_app by done.
    rewrite (proj2 (beq_false _ [])) by (by destruct b).
    destruct k as [|c k]; [simpl in Hl; lia|].
    apply check_bucket_name_spec in Hb. rewrite Hb.
    assert (check_key (c :: k) = false) as -> by (unfold check_key; by apply N.leb_gt). done.
  - unfold try_from_path. simpl. rewrite (proj2 (beq_false _ [])) by done.
    apply check_bucket_name_false in Hb.
    destruct Hr as [->|[k ->]].
    + rewrite app_nil_r, (proj2 (split_once_None _ _) ltac:(done)). by rewrite Hb.
    + rewrite B_slash, split_once_app by done. destruct k; by rewrite Hb.
  - unfold try_from_path. destruct (split_once "/" p) as [[[|a pre] rest]|] eqn:E; try done.
    apply split_once_Some in E as [-> _]. by destruct (Hp rest).
Qed.

Lemma try_from_path_spec p r : try_from_path p = r <-> addresses p r.
Proof.
  split; [intros <-; apply try_from_path_sound|apply addresses_functional].
Qed.
