(** The form parser accepts exactly the form texts. *)
From Verif Require Import M_Base M_Utf8 M_Chunked M_Multipart S_Chunked S_Multipart S_Form L_Base L_Chunked L_Multipart.

Lemma name_char_spec a : name_char a <-> is_token a = true.
Proof.
  unfold name_char, is_token. rewrite !orb_true_iff, existsb_exists.
  assert (Hin : a ∈ B "!#$%&'*+-.^_`|~" <-> exists x, In x (B "!#$%&'*+-.^_`|~") /\ aeq a x = true).
  { split.
    - intros H. exists a. split; [by apply elem_of_list_In|]. by apply aeq_true.
    - intros (x & Hx & ->%aeq_true). by apply elem_of_list_In. }
  rewrite Hin. unfold is_digit, is_lower, is_upper, in_range. rewrite !andb_true_iff, !N.leb_le.
  change (code "0") with 48%N. change (code "9") with 57%N. change (code "a") with 97%N. change (code "z") with 122%N.
  change (code "A") with 65%N. change (code "Z") with 90%N. tauto.
Qed.
Lemma tokens_spec l : Forall name_char l <-> forallb is_token l = true.
Proof. induction l as [|a l IH]; [done|]. cbn. rewrite Forall_cons, andb_true_iff, IH. by rewrite name_char_spec. Qed.
Lemma blanks_spec l : Forall blank l <-> forallb is_blank l = true.
Proof. induction l as [|a l IH]; [done|]. cbn. rewrite Forall_cons, andb_true_iff, IH. by rewrite is_blank_spec. Qed.

Lemma blank_value a : is_blank a = true -> is_value_token a = true.
Proof. intros [-> | ->]%is_blank_spec; done. Qed.

Lemma header_eol_done l rest : header_eol l = PsDone () rest <-> exists e, line_end e /\ l = e ++ rest.
Proof.
  split.
  - destruct l as [|a l]; [done|]. cbn [header_eol]. destruct (aeq a LF) eqn:E1.
    { apply aeq_true in E1 as ->. intros [= <-]. exists [LF]. split; [by right|done]. }
    destruct (aeq a CR) eqn:E2; [|done]. apply aeq_true in E2 as ->. destruct l as [|b l]; [done|].
    destruct (aeq b LF) eqn:E3; [|done]. apply aeq_true in E3 as ->. intros [= <-]. exists CRLF. split; [by left|done].
  - intros (e & [-> | ->] & ->); done.
Qed.

Lemma trim_blank_end_spec l : exists bl, l = trim_blank_end l ++ bl /\ Forall blank bl /\
  forall a, last (trim_blank_end l) = Some a -> ~ blank a.
Proof.
  unfold trim_blank_end. destruct (span is_blank (rev l)) as [x y] eqn:E. apply span_spec in E as (Hl & Hx & Hy).
  cbn [snd]. exists (rev x). apply (f_equal (@rev _)) in Hl. rewrite rev_involutive, rev_app_distr in Hl.
  split; [done|]. split.
  - apply blanks_spec. rewrite forallb_forall in *. intros a Ha. apply Hx. by apply in_rev.
  - intros a Ha. destruct y as [|b y]; [done|]. cbn [rev] in Ha. rewrite last_snoc in Ha. injection Ha as ->.
    intros Hb. apply is_blank_spec in Hb. congruence.
Qed.
Lemma trim_blank_end_app v bl : Forall blank bl -> (forall a, last v = Some a -> ~ blank a) -> trim_blank_end (v ++ bl) = v.
Proof.
  intros Hbl Hv. unfold trim_blank_end. rewrite rev_app_distr.
  assert (span is_blank (rev bl ++ rev v) = (rev bl, rev v)) as ->; [|cbn [snd]; apply rev_involutive].
  apply span_spec. split_and!; [done| |].
  - apply blanks_spec in Hbl. rewrite forallb_forall in *. intros a Ha. apply Hbl. by apply in_rev.
  - destruct (rev v) as [|a w] eqn:Er; [done|]. destruct (is_blank a) eqn:Eb; [|done]. exfalso.
    apply (Hv a); [|by apply is_blank_spec]. rewrite <- (rev_involutive v), Er. cbn [rev]. by rewrite last_snoc.
Qed.

Lemma parse_header_line_done l h rest : (exists a l', l = a :: l' /\ is_token a = true) ->
  parse_header_line l = PsDone h rest <-> exists t, part_header h t /\ l = t ++ rest.
Proof.
  intros (a0 & l0 & Hl0 & Ha0). unfold parse_header_line. split.
  - destruct (span is_token l) as [n l1] eqn:E1. apply span_spec in E1 as (-> & Hn & _).
    destruct l1 as [|c l2]; [done|]. destruct (aeq c ":") eqn:Ec; [|done]. apply aeq_true in Ec as ->. cbn [negb].
    destruct (span is_blank l2) as [bl1 l3] eqn:E2. apply span_spec in E2 as (-> & Hb1 & Hl3).
    destruct (span is_value_token l3) as [v l4] eqn:E3. apply span_spec in E3 as (-> & Hv & Hl4).
    destruct (header_eol l4) as [| |[] r] eqn:E4; try done. intros [= <- <-].
    apply header_eol_done in E4 as (e & He & ->).
    destruct (trim_blank_end_spec v) as (bl2 & Hv2 & Hbl2 & Hlast).
    exists (n ++ B ":" ++ bl1 ++ trim_blank_end v ++ bl2 ++ e). split.
    + exists bl1, bl2, e. cbn [fst snd]. split_and!; try done.
      * intros ->. cbn in Hl0. injection Hl0 as <- _. done.
      * by apply tokens_spec.
      * by apply blanks_spec.
      * apply printable_spec. rewrite Hv2, forallb_app in Hv. by apply andb_true_iff in Hv as [? _].
      * intros a Ha Hbl. apply is_blank_spec in Hbl. rewrite Hv2 in Hl3.
        destruct (trim_blank_end v) as [|b w]; [done|]. injection Ha as ->. cbn in Hl3. congruence.
    + rewrite Hv2 at 1. by rewrite <- !app_assoc.
  - intros (t & (bl1 & bl2 & e & -> & Hne & Hn & Hb1 & Hb2 & He & Hp & Hhd & Hlst) & ->).
    destruct h as [n v]. cbn [fst snd] in *. rewrite <- !app_assoc.
    assert (span is_token (n ++ B ":" ++ bl1 ++ v ++ bl2 ++ e ++ rest) = (n, B ":" ++ bl1 ++ v ++ bl2 ++ e ++ rest)) as ->.
    { apply span_spec. split_and!; [done|by apply tokens_spec|done]. }
    change (B ":") with [":"%char]. cbn [app]. change (aeq ":" ":") with true. cbn [negb].
    assert (He' : match e ++ rest with [] => True | a :: _ => is_value_token a = false end).
    { by destruct He as [-> | ->]. }
    destruct v as [|a v]; cbn [app].
    + assert (span is_blank (bl1 ++ bl2 ++ e ++ rest) = (bl1 ++ bl2, e ++ rest)) as ->.
      { apply span_spec. split_and!; [by rewrite <- app_assoc| |].
        - rewrite forallb_app. apply andb_true_iff. split; by apply blanks_spec.
        - by destruct He as [-> | ->]. }
      assert (span is_value_token (e ++ rest) = ([], e ++ rest)) as -> by (by apply span_spec).
      rewrite (proj2 (header_eol_done (e ++ rest) rest)) by eauto. done.
    + assert (span is_blank (bl1 ++ a :: v ++ bl2 ++ e ++ rest) = (bl1, a :: v ++ bl2 ++ e ++ rest)) as ->.
      { apply span_spec. split_and!; [done|by apply blanks_spec|]. cbn [app].
        destruct (is_blank a) eqn:Eb; [|done]. apply is_blank_spec in Eb. by destruct (Hhd a eq_refl). }
      assert (span is_value_token (a :: v ++ bl2 ++ e ++ rest) = ((a :: v) ++ bl2, e ++ rest)) as ->.
      { apply span_spec. split_and!; [by rewrite app_comm_cons, <- app_assoc| |done]. rewrite forallb_app. apply andb_true_iff.
        split; [by apply printable_spec|]. apply blanks_spec in Hb2. rewrite forallb_forall in *. intros x Hx.
        by apply blank_value, Hb2. }
      rewrite (proj2 (header_eol_done (e ++ rest) rest)) by eauto. by rewrite trim_blank_end_app.
Qed.

Lemma part_header_token h t : part_header h t -> exists a t', t = a :: t' /\ is_token a = true.
Proof.
  intros (bl1 & bl2 & e & -> & Hne & Hn & _). destruct h as [[|a n] v]; [done|]. cbn [fst snd app] in *.
  eexists _, _. split; [done|]. apply Forall_cons in Hn as [Ha _]. by apply name_char_spec.
Qed.

Lemma parse_headers_done room l hs rest : parse_headers room l = PsDone hs rest <->
  (length hs <= room)%nat /\ exists ts e, Forall2 part_header hs ts /\ line_end e /\ l = concat ts ++ e ++ rest.
Proof.
  revert l hs rest. induction room as [|room IH]; intros l hs rest.
  - split.
    + destruct l as [|a l]; [done|]. cbn [parse_headers]. destruct (is_token a); [done|].
      destruct (header_eol (a :: l)) as [| |[] r] eqn:E; try done. intros [= <- <-].
      apply header_eol_done in E as (e & He & ->). split; [done|]. by exists [], e.
    + intros [Hlen (ts & e & Hts & He & ->)]. destruct hs; [|cbn in Hlen; lia]. inversion Hts; subst. cbn [concat app].
      destruct He as [-> | ->]; done.
  - split.
    + destruct l as [|a l]; [done|]. cbn [parse_headers]. destruct (is_token a) eqn:Ea.
      * destruct (parse_header_line (a :: l)) as [| |h r] eqn:E; try done.
        apply parse_header_line_done in E as (t & Ht & Hl); [|by eauto].
        destruct (parse_headers room r) as [| |hs' r'] eqn:E'; try done. intros [= <- <-].
        apply IH in E' as (Hlen & ts & e & Hts & He & ->). split; [cbn; lia|]. exists (t :: ts), e.
        split_and!; [by constructor|done|]. rewrite Hl. cbn [concat]. by rewrite <- app_assoc.
      * destruct (header_eol (a :: l)) as [| |[] r] eqn:E; try done. intros [= <- <-].
        apply header_eol_done in E as (e & He & ->). split; [cbn; lia|]. by exists [], e.
    + intros [Hlen (ts & e & Hts & He & ->)]. destruct Hts as [|h t hs ts Ht Hts]; cbn [concat app].
      * destruct He as [-> | ->]; done.
      * destruct (part_header_token h t Ht) as (a & t' & -> & Ha). cbn [app]. cbn [parse_headers]. rewrite Ha.
        assert (parse_header_line (a :: (t' ++ concat ts) ++ e ++ rest) = PsDone h (concat ts ++ e ++ rest)) as ->.
        { apply parse_header_line_done; [by eauto|]. exists (a :: t'). split; [done|]. cbn [app]. by rewrite <- app_assoc. }
        rewrite (proj2 (IH (concat ts ++ e ++ rest) hs rest)); [done|]. split; [cbn in Hlen; lia|]. by exists ts, e.
Qed.

Lemma header_block_spec l hs rest : parse_headers 2 l = PsDone hs rest <-> exists t, header_block hs t /\ l = t ++ rest.
Proof.
  rewrite parse_headers_done. split.
  - intros [Hlen (ts & e & Hts & He & ->)]. exists (concat ts ++ e). split; [|by rewrite <- app_assoc].
    split; [done|]. by exists ts, e.
  - intros (t & [Hlen (ts & e & Hts & He & ->)] & ->). split; [done|]. exists ts, e. by rewrite <- app_assoc.
Qed.

Lemma find_header_spec n hs v : find_header n hs = Some v <-> last_named n hs v.
Proof.
  unfold find_header. induction hs as [|h hs IH] using rev_ind.
  - split; [done|]. intros (xs & m & ys & H & _). by destruct xs.
  - rewrite fold_left_app. cbn [fold_left]. destruct (eq_ignore_case h.1 n) eqn:E.
    + split.
      * intros [= <-]. exists hs, h.1, []. split_and!; [by destruct h|done|done].
      * intros (xs & m & ys & Heq & Hm & Hys). destruct ys as [|y ys _] using rev_ind.
        -- apply app_inj_tail in Heq as [_ ->]. done.
        -- rewrite app_comm_cons, app_assoc in Heq. apply app_inj_tail in Heq as [_ ->].
           apply Forall_app in Hys as [_ Hys]. apply Forall_cons in Hys as [Hys _]. congruence.
    + rewrite IH. split.
      * intros (xs & m & ys & -> & Hm & Hys). exists xs, m, (ys ++ [h]). split_and!; [by rewrite <- app_assoc|done|].
        apply Forall_app. split; [done|]. by apply Forall_singleton.
      * intros (xs & m & ys & Heq & Hm & Hys). destruct ys as [|y ys _] using rev_ind.
        -- apply app_inj_tail in Heq as [_ ->]. cbn in E. congruence.
        -- rewrite app_comm_cons, app_assoc in Heq. apply app_inj_tail in Heq as [-> ->].
           apply Forall_app in Hys as [Hys _]. exists xs, m, ys. done.
Qed.

Lemma quoted_spec key l v rest : quoted key l = Some (v, rest) <-> quotable v /\ l = key ++ v ++ B """" ++ rest.
Proof.
  unfold quoted. split.
  - destruct (strip_prefix key l) as [l1|] eqn:E; [|done]. apply strip_prefix_Some in E as ->.
    destruct (span _ l1) as [w l2] eqn:E. apply span_spec in E as (-> & Hw & Hl2).
    destruct w as [|a w]; [done|]. destruct (utf8_valid (a :: w)) eqn:Eu; [|done].
    destruct l2 as [|c l3]; [done|]. intros [= <- <-]. apply negb_false_iff, aeq_true in Hl2 as ->.
    split; [|done]. split_and!; [done| |done]. intros Hin. rewrite forallb_forall in Hw.
    apply elem_of_list_In, Hw in Hin. done.
  - intros [(Hne & Hq & Hu) ->]. rewrite strip_prefix_app.
    assert (span (fun a => negb (aeq a """"%char)) (v ++ B """" ++ rest) = (v, """"%char :: rest)) as ->.
    { apply span_spec. split_and!; [done| |done]. apply forallb_forall. intros a Ha. apply negb_true_iff.
      destruct (aeq a """") eqn:E; [|done]. apply aeq_true in E as ->. by apply elem_of_list_In in Ha. }
    destruct v; [done|]. by rewrite Hu.
Qed.

Lemma disposition_spec l name fn : parse_content_disposition l = Some (name, fn) <-> disposition name fn l.
Proof.
  unfold parse_content_disposition, disposition. split.
  - destruct (strip_prefix _ l) as [l1|] eqn:E; [|done]. apply strip_prefix_Some in E as ->.
    destruct (quoted (B "name=""") l1) as [[nm l2]|] eqn:E; [|done]. apply quoted_spec in E as [Hnm ->].
    destruct (strip_prefix (B "; ") l2) as [l2'|] eqn:E2.
    + apply strip_prefix_Some in E2 as ->. destruct (quoted (B "filename=""") l2') as [[f l3]|] eqn:E3; [|done].
      apply quoted_spec in E3 as [Hf ->]. destruct l3; [|done]. intros [= -> <-]. split_and!; [done|by intros ? [= <-]|done].
    + destruct l2; [|done]. intros [= -> <-]. split_and!; [done|done|]. done.
  - intros (Hn & Hf & ->).
    change (B "form-data; name=""") with (B "form-data; " ++ B "name="""). rewrite <- app_assoc, strip_prefix_app.
    rewrite (proj2 (quoted_spec (B "name=""") _ name _)) by (split; [done|reflexivity]).
    destruct fn as [f|]; [|done].
    change (B "; filename=""") with (B "; " ++ B "filename="""). rewrite <- app_assoc, strip_prefix_app.
    rewrite (proj2 (quoted_spec (B "filename=""") _ f [])) by (split; [by apply Hf|by rewrite app_nil_r]). done.
Qed.

(** ** Lines *)
Lemma split_crlf_None p : split_crlf p = None <-> absent CRLF p.
Proof.
  split.
  - intros H x y ->. destruct (split_crlf x) as [[l r]|] eqn:E.
    + by rewrite (split_crlf_more x l r _ E) in H.
    + by rewrite (split_crlf_none x y E) in H.
  - intros H. destruct (split_crlf p) as [[l r]|] eqn:E; [|done]. apply split_crlf_Some in E. by apply H in E.
Qed.
Lemma split_crlf_at t line r x y : split_crlf t = Some (line, r) -> t = x ++ CRLF ++ y ->
  (x = line /\ y = r) \/ exists x', x = line ++ CRLF ++ x' /\ r = x' ++ CRLF ++ y.
Proof.
  intros H ->. destruct (split_crlf x) as [[l r']|] eqn:E.
  - right. rewrite (split_crlf_more x l r' _ E) in H. injection H as <- <-. apply split_crlf_Some in E as ->. by exists r'.
  - left. rewrite (split_crlf_none x y E) in H. by injection H as <- <-.
Qed.
Lemma split_crlf_line t line r : split_crlf t = Some (line, r) -> absent CRLF line.
Proof.
  intros H x y ->. pose proof (split_crlf_Some _ _ _ H) as Ht. rewrite <- !app_assoc in Ht.
  destruct (split_crlf_at _ _ _ _ _ H Ht) as [[Hx _]|(x' & Hx & _)]; apply (f_equal length) in Hx;
    rewrite !app_length in Hx; cbn in Hx; lia.
Qed.

Definition line_start (x : bytes) : Prop := x = [] \/ exists x', x = x' ++ CRLF.

Lemma occurs_step t line r pat x y : split_crlf t = Some (line, r) -> line <> pat -> absent CRLF pat ->
  (t = x ++ pat ++ CRLF ++ y /\ line_start x) <->
  exists x0, x = line ++ CRLF ++ x0 /\ line_start x0 /\ r = x0 ++ pat ++ CRLF ++ y.
Proof.
  intros Hs Hne Hpat. split.
  - intros [Ht [->|[x' ->]]].
    + exfalso. cbn [app] in Ht. subst t. apply split_crlf_None in Hpat. rewrite (split_crlf_none pat y Hpat) in Hs.
      injection Hs as <- _. done.
    + rewrite <- app_assoc in Ht. destruct (split_crlf_at _ _ _ _ _ Hs Ht) as [[-> Hr]|(x0 & -> & ->)].
      * exists []. split_and!; [by rewrite app_nil_r|by left|done].
      * exists (x0 ++ CRLF). split_and!; [by rewrite <- !app_assoc|right; by exists x0|by rewrite <- app_assoc].
  - intros (x0 & -> & Hx0 & ->). apply split_crlf_Some in Hs as ->. split; [by rewrite <- !app_assoc|].
    right. destruct Hx0 as [->|[x' ->]]; [exists line; by rewrite app_nil_r|].
    exists (line ++ CRLF ++ x'). by rewrite <- !app_assoc.
Qed.

Definition first_line_at (pat t before rest : bytes) : Prop :=
  t = before ++ pat ++ CRLF ++ rest /\ line_start before /\
  forall x y, t = x ++ pat ++ CRLF ++ y -> line_start x -> (length before <= length x)%nat.

Lemma split_to_loop_spec fuel pat t len n rest : (length t < fuel)%nat -> absent CRLF pat -> rest <> [] ->
  split_to_loop fuel pat t len = Some (n, rest) <->
  exists before, n = (len + length before)%nat /\ first_line_at pat t before rest.
Proof.
  intros Hf Hpat Hrest. revert t len Hf. induction fuel as [|fuel IH]; intros t len Hf; [lia|]. cbn [split_to_loop].
  unfold next_line. destruct (split_crlf t) as [[line r]|] eqn:Hs.
  - pose proof (split_crlf_Some _ _ _ Hs) as Ht. destruct (beq line pat) eqn:Eb.
    + apply beq_true in Eb as ->. split.
      * intros [= <- <-]. exists []. split; [cbn; lia|]. split_and!; [done|by left|]. intros; cbn; lia.
      * intros (before & -> & Hb & Hls & Hmin). specialize (Hmin [] r Ht ltac:(by left)).
        destruct before; [|cbn in Hmin; lia]. cbn [app length] in *. rewrite Ht in Hb.
        apply app_inv_head, app_inv_head in Hb as ->. do 2 f_equal. lia.
    + assert (Hne : line <> pat) by (intros ->; by rewrite beq_refl in Eb).
      rewrite IH by (apply (f_equal length) in Ht; rewrite !app_length in Ht; cbn in Ht; lia).
      split.
      * intros (b0 & -> & Hr & Hls & Hmin). exists (line ++ CRLF ++ b0). rewrite !app_length. change (length CRLF) with 2%nat.
        split; [lia|]. destruct (proj2 (occurs_step t line r pat (line ++ CRLF ++ b0) rest Hs Hne Hpat)) as [H1 H2]; [by exists b0|].
        split_and!; [done|done|]. intros x y Hx Hlx.
        destruct (proj1 (occurs_step t line r pat x y Hs Hne Hpat)) as (x0 & -> & Hl0 & Hr0); [done|].
        specialize (Hmin x0 y Hr0 Hl0). rewrite !app_length. lia.
      * intros (before & -> & Hb & Hls & Hmin).
        destruct (proj1 (occurs_step t line r pat before rest Hs Hne Hpat)) as (b0 & -> & Hl0 & Hr0); [done|].
        exists b0. rewrite !app_length. change (length CRLF) with 2%nat. split; [lia|]. split_and!; [done|done|].
        intros x y Hx Hlx.
        destruct (proj2 (occurs_step t line r pat (line ++ CRLF ++ x) y Hs Hne Hpat)) as [H1 H2]; [by exists x|].
        specialize (Hmin _ _ H1 H2). rewrite !app_length in Hmin. lia.
  - assert (Hno : forall before, ~ first_line_at pat t before rest).
    { intros before (-> & _). apply split_crlf_None in Hs. apply (Hs (before ++ pat) rest). by rewrite <- app_assoc. }
    split; [|by intros (? & _ & ?%Hno)]. destruct t as [|a t]; [done|]. destruct (beq (a :: t) pat).
    + intros [= _ <-]. done.
    + destruct fuel; [done|]. cbn. done.
Qed.

Lemma split_to_spec pat t b rest : absent CRLF pat -> rest <> [] ->
  split_to pat t = Some (b, rest) <-> first_line_at pat t b rest.
Proof.
  intros Hpat Hrest. unfold split_to. destruct (split_to_loop (S (length t)) pat t 0) as [[n r]|] eqn:E.
  - split.
    + intros [= <- ->]. apply split_to_loop_spec in E as (before & -> & Hb); [|lia|done|done]. pose proof Hb as (Ht & _).
      cbn [Nat.add]. assert (take (Nat.min (length before) (length t)) t = before) as ->; [|done].
      rewrite Ht. rewrite app_length, Nat.min_l by lia. by rewrite take_app.
    + intros Hb.
      assert (E' : split_to_loop (S (length t)) pat t 0 = Some (length b, rest)).
      { apply split_to_loop_spec; [lia|done|done|]. by exists b. }
      rewrite E' in E. injection E as <- <-. pose proof Hb as (Ht & _).
      do 2 f_equal. rewrite Ht. rewrite app_length, Nat.min_l by lia. by rewrite take_app.
  - split; [done|]. intros Hb.
    assert (E' : split_to_loop (S (length t)) pat t 0 = Some (length b, rest)).
    { apply split_to_loop_spec; [lia|done|done|]. by exists b. }
    congruence.
Qed.

Lemma delimited_spec boundary t v rest : absent CRLF (B "--" ++ boundary) -> rest <> [] ->
  (exists b, split_to (B "--" ++ boundary) t = Some (b, rest) /\ v = take (length b - 2) b) <->
  delimited boundary t v rest.
Proof.
  intros Hpat Hrest. split.
  - intros (b & Hs & ->). apply split_to_spec in Hs as (Ht & Hls & Hmin); [|done|done]. exists b.
    split_and!; [by rewrite Ht at 1; rewrite <- ?app_assoc| |].
    + destruct Hls as [->|[x ->]]; [by right|]. left. rewrite app_length. change (length CRLF) with 2%nat.
      replace (length x + 2 - 2)%nat with (length x) by lia. by rewrite take_app.
    + intros x y Hx Hlx. apply (Hmin x y); [|done]. rewrite Hx at 1. by rewrite <- ?app_assoc.
  - intros (b & Ht & Hv & Hmin). exists b. split.
    + apply split_to_spec; [done|done|]. split_and!; [by rewrite Ht at 1; rewrite <- ?app_assoc| |].
      * destruct Hv as [->|[-> _]]; [right; by eexists|by left].
      * intros x y Hx Hlx. apply (Hmin x y); [|done]. rewrite Hx at 1. by rewrite <- ?app_assoc.
    + destruct Hv as [->|[-> ->]]; [|done]. rewrite app_length. change (length CRLF) with 2%nat.
      replace (length v + 2 - 2)%nat with (length v) by lia. by rewrite take_app.
Qed.

(** ** The whole text *)
Lemma header_block_ne hs t : header_block hs t -> t <> [].
Proof. intros [_ (ts & e & _ & [-> | ->] & ->)] H; by apply app_eq_nil in H as [_ ?]. Qed.
Lemma form_parts_ne b t fields fn ct rest : form_parts b t fields fn ct rest -> t <> [].
Proof. intros []; intros Heq; apply app_eq_nil in Heq as [Heq _]; by eapply header_block_ne. Qed.

Lemma parts_loop_spec fuel boundary t acc fields fn ct rest : (length t < fuel)%nat -> absent CRLF (B "--" ++ boundary) ->
  parts_loop fuel (B "--" ++ boundary) t acc = TDone fields fn ct rest <->
  exists fs, fields = acc ++ fs /\ form_parts boundary t fs fn ct rest.
Proof.
  intros Hf Hpat. revert t acc Hf. induction fuel as [|fuel IH]; intros t acc Hf; [lia|]. cbn [parts_loop]. split.
  - destruct (parse_headers 2 t) as [| |hs t1] eqn:E; [done|done|]. apply header_block_spec in E as (h & Hh & ->).
    destruct (find_header (B "Content-Disposition") hs) as [cd|] eqn:Ecd; [|done]. apply find_header_spec in Ecd.
    destruct (parse_content_disposition cd) as [[name [f|]]|] eqn:Ed; [| |done]; apply disposition_spec in Ed.
    + destruct (find_header (B "Content-Type") hs) as [c|] eqn:Ect; [|done]. apply find_header_spec in Ect.
      destruct (utf8_valid c) eqn:Eu; [|done]. intros [= <- <- <- <-]. exists []. split; [by rewrite app_nil_r|].
      by eapply file_part.
    + destruct (split_to _ t1) as [[b t2]|] eqn:Es; [|done]. destruct (utf8_valid _) eqn:Eu; [|done]. intros Hp.
      assert (Hne : t2 <> []) by (intros ->; by destruct fuel).
      assert (Hlen : (length t2 < fuel)%nat).
      { apply split_to_spec in Es as (-> & _); [|done|done]. pose proof (header_block_ne _ _ Hh) as Hh0.
        destruct h; [done|]. rewrite !app_length in Hf. cbn in Hf. lia. }
      apply IH in Hp as (fs & -> & Hp); [|done]. exists ((name, take (length b - 2) b) :: fs).
      split; [by rewrite <- app_assoc|]. eapply field_part; [done|done|done| |done|done].
      apply delimited_spec; [done|done|]. by exists b.
  - intros (fs & -> & Hp). destruct Hp as [h hs cd name f c r Hh Hcd Hd Hct Hu|h hs cd name t v r fs f c r' Hh Hcd Hd Hdl Hu Hp].
    + rewrite (proj2 (header_block_spec (h ++ r) hs r)) by eauto.
      rewrite (proj2 (find_header_spec _ _ _) Hcd), (proj2 (disposition_spec _ _ _) Hd), (proj2 (find_header_spec _ _ _) Hct), Hu.
      by rewrite app_nil_r.
    + rewrite (proj2 (header_block_spec (h ++ t) hs t)) by eauto.
      rewrite (proj2 (find_header_spec _ _ _) Hcd), (proj2 (disposition_spec _ _ _) Hd).
      pose proof (form_parts_ne _ _ _ _ _ _ Hp) as Hr.
      destruct (proj2 (delimited_spec boundary t v r Hpat Hr) Hdl) as (b & -> & Hv). rewrite <- Hv, Hu.
      apply IH.
      * destruct Hdl as (b' & -> & _). pose proof (header_block_ne _ _ Hh) as Hh0. destruct h; [done|].
        rewrite !app_length in Hf. cbn in Hf. lia.
      * exists fs. split; [by rewrite <- app_assoc|done].
Qed.

Lemma absent_dashes boundary : absent CRLF (B "--" ++ boundary) <-> absent CRLF boundary.
Proof.
  split; [apply absent_app_r|]. intros H x y Heq. destruct x as [|a [|b x]]; [done|done|].
  injection Heq as _ _ Heq. by apply (H x y).
Qed.

Lemma try_parse_spec boundary t fields fn ct rest :
  try_parse boundary t = TDone fields fn ct rest <-> body_form boundary t fields fn ct rest.
Proof.
  unfold try_parse, body_form.
  assert (Hgo : forall l, absent CRLF (B "--" ++ boundary) ->
    parts_loop (S (length l)) (B "--" ++ boundary) l [] = TDone fields fn ct rest <-> form_parts boundary l fields fn ct rest).
  { intros l Hp. rewrite parts_loop_spec by (done || lia). split; [by intros (fs & -> & ?)|]. intros H. by exists fields. }
  assert (Hnil : forall pat acc, parts_loop (S (length (@nil ascii))) pat [] acc = TMore) by done.
  split.
  - unfold next_line at 1. destruct (split_crlf t) as [[line r]|] eqn:Hs.
    + pose proof (split_crlf_Some _ _ _ Hs) as Ht. destruct line as [|a line].
      * unfold next_line. destruct (split_crlf r) as [[line2 r2]|] eqn:Hs2.
        -- destruct (beq line2 _) eqn:Eb; [|done]. apply beq_true in Eb as ->. pose proof (split_crlf_line _ _ _ Hs2) as Hab.
           intros Hp. apply Hgo in Hp; [|done]. split; [by apply absent_dashes|]. apply split_crlf_Some in Hs2 as ->.
           exists CRLF, r2. split_and!; [by right|by rewrite Ht, <- !app_assoc|done].
        -- destruct r as [|b r]; [done|]. destruct (beq _ _); [|done]. by rewrite Hnil.
      * destruct (beq _ _) eqn:Eb; [|done]. apply beq_true in Eb. rewrite Eb in *. pose proof (split_crlf_line _ _ _ Hs) as Hab.
        intros Hp. apply Hgo in Hp; [|done]. split; [by apply absent_dashes|].
        exists [], r. split_and!; [by left|by rewrite Ht, <- !app_assoc|done].
    + destruct t as [|a t]; [done|]. destruct (beq _ _); [|done]. by rewrite Hnil.
  - intros (Hab & lead & l & Hlead & -> & Hp). apply absent_dashes in Hab as Hab'.
    assert (Hl : next_line (B "--" ++ boundary ++ CRLF ++ l) = Some (B "--" ++ boundary, l)).
    { unfold next_line. rewrite (app_assoc (B "--")), split_crlf_none; [done|]. by apply split_crlf_None. }
    destruct Hlead as [-> | ->].
    + cbn [app]. rewrite Hl. change (B "--") with ["-"; "-"]%char. cbn [app]. rewrite beq_refl. by apply Hgo.
    + assert (next_line (CRLF ++ B "--" ++ boundary ++ CRLF ++ l) = Some ([], B "--" ++ boundary ++ CRLF ++ l)) as -> by done.
      rewrite Hl, beq_refl. by apply Hgo.
Qed.

(** ** More input, and input in frames *)
Lemma delimited_more boundary t v r z : delimited boundary t v r -> delimited boundary (t ++ z) v (r ++ z).
Proof.
  intros (b & Ht & Hv & Hmin). exists b. split_and!; [by rewrite Ht, <- !app_assoc|done|].
  intros x y Hx Hlx. destruct (decide (length b <= length x)%nat) as [|Hlt]; [done|].
  apply (Hmin x (drop (length x + length (B "--" ++ boundary) + 2) t)); [|done].
  assert (Hl : (length x + length (B "--" ++ boundary) + 2 <= length t)%nat).
  { rewrite Ht, !app_length. change (length CRLF) with 2%nat. lia. }
  apply (f_equal (take (length x + length (B "--" ++ boundary) + 2))) in Hx.
  rewrite take_app_le in Hx by lia. rewrite <- (take_drop (length x + length (B "--" ++ boundary) + 2) t) at 1.
  rewrite Hx. rewrite (app_assoc x), (app_assoc (x ++ _)).
  rewrite take_app_alt by (rewrite !app_length; reflexivity || (cbn; lia)). by rewrite <- !app_assoc.
Qed.
Lemma form_parts_more b t fields fn ct rest z : form_parts b t fields fn ct rest -> form_parts b (t ++ z) fields fn ct (rest ++ z).
Proof.
  induction 1; rewrite <- app_assoc.
  - by eapply file_part.
  - eapply field_part; [done|done|done|by apply delimited_more|done|done].
Qed.
Lemma body_form_more b t fields fn ct rest z : body_form b t fields fn ct rest -> body_form b (t ++ z) fields fn ct (rest ++ z).
Proof.
  intros (Hab & lead & t' & Hl & -> & Hp). split; [done|]. exists lead, (t' ++ z).
  split_and!; [done|by rewrite <- !app_assoc|by apply form_parts_more].
Qed.

Lemma transform_loop_sound boundary buf fs m : transform_loop boundary buf fs = Some m ->
  mp_boundary m = boundary /\
  body_form boundary (buf ++ carried fs) (mp_fields m) (mp_file_name m) (mp_content_type m)
    (default [] (mp_prev m) ++ carried (mp_frames m)).
Proof.
  revert buf. induction fs as [|[d|] fs IH]; intros buf; [done| |done]. cbn [transform_loop carried].
  destruct (try_parse boundary (buf ++ d)) as [| |fields fn ct rest] eqn:E; [|done|].
  - intros H. destruct (IH (buf ++ d) H) as [Hb Hf]. split; [done|]. by rewrite app_assoc.
  - intros [= <-]. cbn. split; [done|]. apply try_parse_spec in E. rewrite app_assoc.
    assert (default [] match rest with [] => None | _ :: _ => Some rest end = rest) as -> by by destruct rest.
    by apply body_form_more.
Qed.
