(** C25: the file part of a POST form. *)
From Verif Require Import M_Base M_Utf8 M_Chunked M_Multipart S_Chunked S_Multipart L_Base L_Chunked.

Lemma app_prefix_le (p q r s : bytes) :
  p ++ q = r ++ s -> (length p <= length r)%nat -> exists t, r = p ++ t.
Proof.
  intros H Hle. exists (drop (length p) r). 
  assert (take (length p) (p ++ q) = take (length p) (r ++ s)) as Ht by by rewrite H.
  rewrite take_app, take_app_le in Ht by done. rewrite Ht at 1. by rewrite take_drop.
Qed.

Lemma scan_spec p l :
  let pat := CR :: p in
  match scan pat l with
  | ScanFound b => exists post, first_at pat l b post
  | ScanPartial b r => l = b ++ r /\ (length r < length pat)%nat /\
      forall more x y, l ++ more = x ++ pat ++ y -> (length b <= length x)%nat
  | ScanNone => forall more x y, l ++ more = x ++ pat ++ y -> (length l <= length x)%nat
  end.
Proof.
  intros pat. induction l as [|a l IH]; cbn [scan].
  { intros. simpl. lia. }
  assert (Hcons : (forall more y, (a :: l) ++ more <> pat ++ y) ->
    match scan_cons a (scan pat l) with
    | ScanFound b => exists post, first_at pat (a :: l) b post
    | ScanPartial b r => a :: l = b ++ r /\ (length r < length pat)%nat /\
        forall more x y, (a :: l) ++ more = x ++ pat ++ y -> (length b <= length x)%nat
    | ScanNone => forall more x y, (a :: l) ++ more = x ++ pat ++ y -> (length (a :: l) <= length x)%nat
    end).
  { intros Hno. destruct (scan pat l) as [b|b r|]; cbn [scan_cons].
    - destruct IH as (post & -> & Hmin). exists post. split; [done|].
      intros [|a' x] y Heq.
      + exfalso. apply (Hno [] y). by rewrite app_nil_r.
      + injection Heq as -> Heq. apply Hmin in Heq. simpl. lia.
    - destruct IH as (-> & Hr & Hmin). split; [done|]. split; [done|].
      intros more [|a' x] y Heq; [by apply Hno in Heq|].
      injection Heq as -> Heq. apply Hmin in Heq. simpl. lia.
    - intros more [|a' x] y Heq; [by apply Hno in Heq|].
      injection Heq as -> Heq. apply IH in Heq. simpl. lia. }
  destruct (aeq a CR) eqn:Ea.
  - apply aeq_true in Ea as ->.
    destruct (length pat <=? length (CR :: l))%nat eqn:Elen.
    + apply Nat.leb_le in Elen. destruct (starts_with pat (CR :: l)) eqn:Es.
      * apply starts_with_spec in Es as [post Hp]. exists post. split; [done|].
        intros. simpl. lia.
      * apply Hcons. intros more y Heq. symmetry in Heq.
        apply app_prefix_le in Heq as [t Ht]; [|done].
        by apply (proj1 (starts_with_false _ _) Es t).
    + apply Nat.leb_gt in Elen. destruct (starts_with (CR :: l) pat) eqn:Es.
      * split; [done|]. split; [done|]. intros. simpl. lia.
      * apply Hcons. intros more y Heq.
        apply app_prefix_le in Heq as [t Ht]; [|lia].
        by apply (proj1 (starts_with_false _ _) Es t).
  - apply aeq_false in Ea. apply Hcons. intros more y [= ? ?]. done.
Qed.

Lemma first_at_shift pat b rest before after :
  (forall x y, b ++ rest = x ++ pat ++ y -> (length b <= length x)%nat) ->
  first_at pat rest before after -> first_at pat (b ++ rest) (b ++ before) after.
Proof.
  intros Hmin (-> & Hf). split; [by rewrite <- app_assoc|].
  intros x y Heq. pose proof (Hmin _ _ Heq) as Hle.
  pose proof (app_prefix_le _ _ _ _ Heq Hle) as [t ->].
  rewrite <- app_assoc in Heq. apply app_inj_1 in Heq as [_ Heq]; [|done].
  apply Hf in Heq. rewrite !app_length. lia.
Qed.

Lemma absent_shift pat b rest :
  (forall x y, b ++ rest = x ++ pat ++ y -> (length b <= length x)%nat) ->
  absent pat rest -> absent pat (b ++ rest).
Proof.
  intros Hmin Ha x y Heq. pose proof (Hmin _ _ Heq) as Hle.
  pose proof (app_prefix_le _ _ _ _ Heq Hle) as [t ->].
  rewrite <- app_assoc in Heq. apply app_inj_1 in Heq as [_ Heq]; [|done]. by eapply Ha.
Qed.

Lemma first_at_more pat l more b post :
  first_at pat l b post -> first_at pat (l ++ more) b (post ++ more).
Proof.
  intros (-> & Hf). split; [by rewrite <- !app_assoc|].
  intros x y Heq. destruct (decide (length b <= length x)%nat) as [|Hlt]; [done|]. exfalso.
  (* an earlier occurrence lies inside [l] *)
  assert (exists y', b ++ pat ++ post = x ++ pat ++ y') as [y' Hy'].
  { assert (length (x ++ pat) <= length (b ++ pat ++ post))%nat as Hl.
    { rewrite !app_length. lia. }
    rewrite (app_assoc x) in Heq. symmetry in Heq.
    apply app_prefix_le in Heq as [t Ht]; [|done]. exists t. by rewrite Ht, <- app_assoc. }
  apply Hf in Hy'. lia.
Qed.

Lemma file_loop_spec p cur fs out e :
  let pat := CR :: p in
  file_loop pat cur fs = (out, e) ->
  (exists before after, first_at pat (cur ++ carried fs) before after /\
     concat out = before /\ e = FileOk) \/
  (absent pat (cur ++ carried fs) /\
     e = (if broken fs then FileIo else FileIncomplete) /\
     concat out `prefix_of` (cur ++ carried fs)).
Proof.
  intros pat. revert cur out. induction fs as [|f fs IH]; intros cur out; cbn [file_loop];
    pose proof (scan_spec p cur) as Hs; fold pat in Hs; cbv zeta in Hs;
    destruct (scan pat cur) as [b|b r|].
  - destruct Hs as [post Hs]. intros [= <- <-]. left. exists b, (post ++ []).
    cbn [concat carried]. rewrite (app_nil_r b). split; [by apply first_at_more|done].
  - destruct Hs as (-> & Hr & Hs). intros [= <- <-]. right. cbn [carried concat]. rewrite !app_nil_r.
    split_and!; [|done|by apply prefix_app_r].
    intros x y Heq. pose proof Heq as Heq'. rewrite <- (app_nil_r (b ++ r)) in Heq.
    apply Hs in Heq. apply (f_equal length) in Heq'. rewrite !app_length in Heq'. lia.
  - intros [= <- <-]. right. cbn [carried concat]. rewrite !app_nil_r.
    split_and!; [|done|done].
    intros x y Heq. pose proof Heq as Heq'. rewrite <- (app_nil_r cur) in Heq. apply Hs in Heq.
    apply (f_equal length) in Heq'. unfold pat in Heq'. rewrite !app_length in Heq'. simpl in Heq'. lia.
  - destruct Hs as [post Hs]. intros [= <- <-]. left. exists b, (post ++ carried (f :: fs)).
    cbn [concat]. rewrite (app_nil_r b). split; [by apply first_at_more|done].
  - destruct Hs as (-> & Hr & Hs). destruct f as [c|].
    + destruct (file_loop pat (r ++ c) fs) as [out' e'] eqn:E. intros [= <- <-].
      cbn [carried concat]. rewrite broken_cons_data.
      assert (Hmin : forall x y, b ++ (r ++ c) ++ carried fs = x ++ pat ++ y -> (length b <= length x)%nat).
      { intros x y Heq. apply (Hs (c ++ carried fs) x y). by rewrite <- Heq, <- !app_assoc. }
      rewrite <- app_assoc, (app_assoc r c).
      destruct (IH _ _ E) as [(before & after & Hf & <- & ->)|(Ha & -> & Hp)].
      * left. exists (b ++ concat out'), after. split; [by apply first_at_shift|done].
      * right. split_and!; [by apply absent_shift|done|by apply prefix_app].
    + intros [= <- <-]. right. cbn [carried concat]. rewrite !app_nil_r.
      split_and!; [|done|by apply prefix_app_r].
      intros x y Heq. pose proof Heq as Heq'. rewrite <- (app_nil_r (b ++ r)) in Heq.
      apply Hs in Heq. apply (f_equal length) in Heq'. rewrite !app_length in Heq'. lia.
  - destruct f as [c|].
    + destruct (file_loop pat c fs) as [out' e'] eqn:E. intros [= <- <-].
      cbn [carried concat]. rewrite broken_cons_data.
      assert (Hmin : forall x y, cur ++ c ++ carried fs = x ++ pat ++ y -> (length cur <= length x)%nat)
        by (intros x y Heq; by eapply Hs).
      destruct (IH _ _ E) as [(before & after & Hf & <- & ->)|(Ha & -> & Hp)].
      * left. exists (cur ++ concat out'), after. split; [by apply first_at_shift|done].
      * right. split_and!; [by apply absent_shift|done|by apply prefix_app].
    + intros [= <- <-]. right. cbn [carried concat]. rewrite !app_nil_r.
      split_and!; [|done|done].
      intros x y Heq. pose proof Heq as Heq'. rewrite <- (app_nil_r cur) in Heq. apply Hs in Heq.
      apply (f_equal length) in Heq'. unfold pat in Heq'. rewrite !app_length in Heq'. simpl in Heq'. lia.
Qed.

Lemma file_stream_spec boundary prev fs out e :
  file_stream boundary prev fs = (out, e) ->
  let input := default [] prev ++ carried fs in
  (exists before after, first_at (delimiter boundary) input before after /\
     concat out = before /\ e = FileOk) \/
  (absent (delimiter boundary) input /\
     e = (if broken fs then FileIo else FileIncomplete) /\
     concat out `prefix_of` input).
Proof.
  unfold file_stream, delimiter, CRLF. destruct prev as [b|]; cbn [default app].
  - apply file_loop_spec.
  - destruct fs as [|[b|] fs].
    + intros [= <- <-]. right. split_and!; [|done|done]. intros x y Heq.
      symmetry in Heq. by apply app_eq_nil in Heq as [_ ?].
    + cbn [carried]. rewrite broken_cons_data. apply file_loop_spec.
    + intros [= <- <-]. right. split_and!; [|done|done]. intros x y Heq.
      symmetry in Heq. by apply app_eq_nil in Heq as [_ ?].
Qed.

Lemma first_at_fun pat input b a b' a' :
  first_at pat input b a -> first_at pat input b' a' -> b = b' /\ a = a'.
Proof.
  intros (H1 & Hm1) (H2 & Hm2).
  assert (length b = length b') as Hl.
  { apply Nat.le_antisymm; [by eapply Hm1|by eapply Hm2]. }
  rewrite H1 in H2. apply app_inj_1 in H2 as [-> H2]; [|done].
  apply app_inj_1 in H2 as [_ ->]; done.
Qed.

(** C25: the file is exactly what precedes the first delimiter, for every framing. *)
Theorem C25_file_content_exact boundary prev fs before after :
  first_at (delimiter boundary) (default [] prev ++ carried fs) before after ->
  concat (file_stream boundary prev fs).1 = before /\ (file_stream boundary prev fs).2 = FileOk.
Proof.
  intros Hf. destruct (file_stream boundary prev fs) as [out e] eqn:E.
  apply file_stream_spec in E as [(b & a & Hf' & Ho & ->)|(Ha & _)].
  - destruct (first_at_fun _ _ _ _ _ _ Hf Hf') as [-> ->]. done.
  - exfalso. destruct Hf as [Heq _]. by eapply Ha.
Qed.
Print Assumptions C25_file_content_exact.

Theorem C25_no_delimiter_fails boundary prev fs :
  absent (delimiter boundary) (default [] prev ++ carried fs) ->
  (file_stream boundary prev fs).2 = (if broken fs then FileIo else FileIncomplete).
Proof.
  intros Ha. destruct (file_stream boundary prev fs) as [out e] eqn:E.
  apply file_stream_spec in E as [(b & a & [Heq _] & Ho & ->)|(_ & He & _)]; [|done].
  exfalso. by eapply Ha.
Qed.
Print Assumptions C25_no_delimiter_fails.

(** Every input falls in one of the two cases. *)
Theorem C25_cases_exhaustive pat input : pat <> [] ->
  absent pat input \/ exists before after, first_at pat input before after.
Proof.
  intros Hne. induction input as [|a l IH].
  - left. intros x y Heq. symmetry in Heq. apply app_eq_nil in Heq as [_ Heq].
    by apply app_eq_nil in Heq as [? _].
  - destruct (starts_with pat (a :: l)) eqn:E.
    + apply starts_with_spec in E as [r ->]. right. exists [], r. split; [done|]. intros; simpl; lia.
    + pose proof (proj1 (starts_with_false _ _) E) as Hno.
      destruct IH as [Ha|(before & after & -> & Hm)].
      * left. intros [|a' x] y Heq; [by eapply Hno|]. injection Heq as -> Heq. by eapply Ha.
      * right. exists (a :: before), after. split; [done|].
        intros [|a' x] y Heq; [by apply Hno in Heq|].
        injection Heq as -> Heq. apply Hm in Heq. simpl. lia.
Qed.
Print Assumptions C25_cases_exhaustive.

Example ex_file_stream :
  file_stream (B "xx") (Some (B "ab")) [FData [CR]; FData [LF; CR]; FData (LF :: B "-"); FData (B "-x"); FData (B "x--")]
  = ([B "ab"; []; CRLF; []; []; []], FileOk).
Proof. vm_compute. reflexivity. Qed.
Example ex_file_stream_hyp : first_at (delimiter (B "xx")) (B "ab" ++ CRLF ++ delimiter (B "xx") ++ B "--")
  (B "ab" ++ CRLF) (B "--").
Proof.
  split; [reflexivity|]. intros x y Heq.
  do 4 (destruct x as [|? x]; [cbn in Heq; discriminate Heq|injection Heq as -> Heq]). cbn. lia.
Qed.
