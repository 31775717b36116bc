(** Lemmas about the multipart/form-data parser. *)
From Verif Require Import M_Base M_Utf8 M_Chunked M_Multipart S_Chunked S_Multipart L_Base L_Chunked.

(** ** Parsing headers is stable under more input *)
Lemma span_stable f p x a y k : span f p = (x, a :: y) -> span f (p ++ k) = (x, a :: y ++ k).
Proof.
  intros H. apply span_spec in H as (-> & Hx & Ha). apply span_spec.
  split_and!; [by rewrite <- app_assoc|done|done].
Qed.

Lemma header_eol_stable p k :
  (forall r, header_eol p = PsDone () r -> header_eol (p ++ k) = PsDone () (r ++ k)) /\
  (header_eol p = PsError -> header_eol (p ++ k) = PsError).
Proof.
  destruct p as [|a [|b p]]; cbn [header_eol app]; [done|..]; destruct (aeq a LF);
    try (destruct (aeq a CR)); try (destruct (aeq b LF)); split; intros; simplify_eq; auto.
Qed.

Lemma parse_header_line_stable p k :
  (forall h r, parse_header_line p = PsDone h r -> parse_header_line (p ++ k) = PsDone h (r ++ k)) /\
  (parse_header_line p = PsError -> parse_header_line (p ++ k) = PsError).
Proof.
  unfold parse_header_line.
  destruct (span is_token p) as [name [|c l2]] eqn:E1; [done|].
  rewrite (span_stable _ _ _ _ _ k E1).
  destruct (negb (aeq c ":")); [done|].
  destruct (span is_blank l2) as [bl [|d l3]] eqn:E2; [done|].
  rewrite (span_stable _ _ _ _ _ k E2).
  destruct (span is_value_token (d :: l3)) as [v [|e l4]] eqn:E3; [done|].
  change (d :: l3 ++ k) with ((d :: l3) ++ k). rewrite (span_stable _ _ _ _ _ k E3).
  change (e :: l4 ++ k) with ((e :: l4) ++ k).
  destruct (header_eol_stable (e :: l4) k) as [H1 H2].
  destruct (header_eol (e :: l4)) as [| |[] r]; split; intros; simplify_eq.
  - by rewrite H2.
  - by rewrite (H1 _ eq_refl).
Qed.

Lemma parse_headers_stable room p k :
  (forall hs r, parse_headers room p = PsDone hs r -> parse_headers room (p ++ k) = PsDone hs (r ++ k)) /\
  (parse_headers room p = PsError -> parse_headers room (p ++ k) = PsError).
Proof.
  revert p. induction room as [|room IH]; intros [|a p]; cbn [parse_headers app]; try done;
    destruct (is_token a); try done;
    change (a :: p ++ k) with ((a :: p) ++ k).
  - destruct (header_eol_stable (a :: p) k) as [H1 H2].
    destruct (header_eol (a :: p)) as [| |[] r]; split; intros; simplify_eq.
    + by rewrite H2.
    + by rewrite (H1 _ eq_refl).
  - destruct (parse_header_line_stable (a :: p) k) as [H1 H2].
    destruct (parse_header_line (a :: p)) as [| |h r].
    + done.
    + split; [done|]. intros _. by rewrite H2.
    + rewrite (H1 _ _ eq_refl). destruct (IH r) as [H3 H4].
      destruct (parse_headers room r) as [| |hs r'].
      * done.
      * split; [done|]. intros _. by rewrite H4.
      * split; intros; simplify_eq. by rewrite (H3 _ _ eq_refl).
  - destruct (header_eol_stable (a :: p) k) as [H1 H2].
    destruct (header_eol (a :: p)) as [| |[] r]; split; intros; simplify_eq.
    + by rewrite H2.
    + by rewrite (H1 _ eq_refl).
Qed.

(* A proper prefix of what a header block needs is incomplete. *)
Lemma parse_headers_prefix room p k hs :
  parse_headers room (p ++ k) = PsDone hs [] -> k <> [] -> parse_headers room p = PsPartial.
Proof.
  intros H Hk. destruct (parse_headers_stable room p k) as [H1 H2].
  destruct (parse_headers room p) as [| |hs' r]; [done| |].
  - rewrite H2 in H by done. done.
  - rewrite (H1 _ _ eq_refl) in H. injection H as _ H. by apply app_eq_nil in H as [_ ?].
Qed.

(** ** Well-formed header lines *)
Lemma printable_spec l : printable l <-> forallb is_value_token l = true.
Proof.
  rewrite forallb_Forall, Forall_forall. unfold printable, is_value_token.
  split; intros H a Ha; specialize (H a Ha).
  - rewrite orb_true_iff, andb_true_iff, negb_true_iff, N.eqb_eq, N.leb_le, N.eqb_neq.
    destruct H as [->|H]; [left; reflexivity|by right].
  - rewrite orb_true_iff, andb_true_iff, negb_true_iff, N.eqb_eq, N.leb_le, N.eqb_neq in H.
    destruct H as [H|H]; [left|by right]. apply code_inj. done.
Qed.

Lemma is_blank_spec a : is_blank a = true <-> a = " "%char \/ a = "009"%char.
Proof.
  unfold is_blank. rewrite orb_true_iff, !N.eqb_eq. split.
  - intros [H|H]; [right|left]; by apply code_inj.
  - intros [->| ->]; [right|left]; reflexivity.
Qed.

Lemma trim_blank_end_id v :
  (forall a, last v = Some a -> a <> " "%char /\ a <> "009"%char) -> trim_blank_end v = v.
Proof.
  intros H. unfold trim_blank_end. destruct v as [|a v] using rev_ind; [done|].
  rewrite rev_unit. cbn [span]. specialize (H a). rewrite last_snoc in H.
  specialize (H eq_refl). destruct (is_blank a) eqn:E; [apply is_blank_spec in E; tauto|].
  cbn [snd]. rewrite <- rev_unit, rev_involutive. done.
Qed.

(* A header line written with one space after the colon. *)
Lemma parse_header_line_ok name v rest :
  forallb is_token name = true -> printable v ->
  (forall a, head v = Some a -> a <> " "%char /\ a <> "009"%char) ->
  (forall a, last v = Some a -> a <> " "%char /\ a <> "009"%char) ->
  parse_header_line (name ++ B ": " ++ v ++ CRLF ++ rest) = PsDone (name, v) rest.
Proof.
  intros Hn Hv Hh Hl. unfold parse_header_line.
  change (B ": " ++ v ++ CRLF ++ rest) with (":"%char :: " "%char :: v ++ CRLF ++ rest).
  rewrite span_app by done. cbn [negb]. rewrite aeq_refl. cbn [negb].
  assert (span is_blank (" "%char :: v ++ CRLF ++ rest) = ([" "%char], v ++ CRLF ++ rest)) as ->.
  { apply span_spec. split_and!; [done|done|]. destruct v as [|a v]; [done|].
    cbn [app]. destruct (is_blank a) eqn:E; [|done]. apply is_blank_spec in E.
    destruct (Hh a eq_refl). tauto. }
  change (v ++ CRLF ++ rest) with (v ++ CR :: LF :: rest).
  rewrite span_app by (try done; by apply printable_spec).
  change (header_eol (CR :: LF :: rest)) with (PsDone () rest : parse_status unit).
  by rewrite trim_blank_end_id.
Qed.

Lemma parse_headers_cons room name v rest :
  name <> [] -> forallb is_token name = true -> printable v ->
  (forall a, head v = Some a -> a <> " "%char /\ a <> "009"%char) ->
  (forall a, last v = Some a -> a <> " "%char /\ a <> "009"%char) ->
  parse_headers (S room) (name ++ B ": " ++ v ++ CRLF ++ rest) =
  match parse_headers room rest with
  | PsPartial => PsPartial
  | PsError => PsError
  | PsDone hs rest' => PsDone ((name, v) :: hs) rest'
  end.
Proof.
  intros Hne Hn Hv Hh Hl. pose proof (parse_header_line_ok name v rest Hn Hv Hh Hl) as Hp.
  destruct name as [|c name]; [done|].
  cbn [app] in *. cbn [parse_headers]. rewrite Hp.
  cbn [forallb] in Hn. apply andb_prop in Hn as [-> _]. done.
Qed.

Lemma parse_headers_end room rest : parse_headers room (CRLF ++ rest) = PsDone [] rest.
Proof. destruct room; reflexivity. Qed.

(** ** Content-Disposition values *)
Lemma quoted_ok key v rest :
  name_ok v -> quoted key (key ++ v ++ B """" ++ rest) = Some (v, rest).
Proof.
  intros (Hne & _ & Hq & Hu). unfold quoted. rewrite strip_prefix_app.
  change (B """" ++ rest) with (""""%char :: rest).
  rewrite span_app; [|apply forallb_Forall, Forall_forall; intros a Ha;
    rewrite negb_true_iff; apply aeq_false; congruence|done].
  destruct v as [|c w] eqn:Ev; [done|]. rewrite <- Ev in *. by rewrite Hu.
Qed.

Definition cd_field (n : bytes) : bytes := B "form-data; name=""" ++ n ++ B """".
Definition cd_file (n fn : bytes) : bytes :=
  B "form-data; name=""" ++ n ++ B """; filename=""" ++ fn ++ B """".

Lemma parse_cd_field n : name_ok n -> parse_content_disposition (cd_field n) = Some (n, None).
Proof.
  intros Hn. unfold parse_content_disposition, cd_field.
  change (B "form-data; name=""" ++ n ++ B """")
    with (B "form-data; " ++ B "name=""" ++ n ++ B """" ++ []).
  rewrite strip_prefix_app, quoted_ok by done. reflexivity.
Qed.

Lemma parse_cd_file n fn : name_ok n -> name_ok fn ->
  parse_content_disposition (cd_file n fn) = Some (n, Some fn).
Proof.
  intros Hn Hf. unfold parse_content_disposition, cd_file.
  change (B "form-data; name=""" ++ n ++ B """; filename=""" ++ fn ++ B """")
    with (B "form-data; " ++ B "name=""" ++ n ++ B """" ++ B "; " ++ B "filename=""" ++ fn ++ B """" ++ []).
  rewrite strip_prefix_app, quoted_ok, strip_prefix_app, quoted_ok by done. reflexivity.
Qed.

Lemma last_app_some {A} (l k : list A) x : last k = Some x -> last (l ++ k) = Some x.
Proof. intros H. rewrite last_app, H. done. Qed.

Lemma printable_app x y : printable x -> printable y -> printable (x ++ y).
Proof. intros Hx Hy a [?|?]%elem_of_app; auto. Qed.
Lemma printable_lit x : forallb is_value_token x = true -> printable x.
Proof. apply printable_spec. Qed.

Lemma cd_field_ok n : name_ok n -> printable (cd_field n) /\
  (forall a, head (cd_field n) = Some a -> a <> " "%char /\ a <> "009"%char) /\
  (forall a, last (cd_field n) = Some a -> a <> " "%char /\ a <> "009"%char).
Proof.
  intros (_ & Hp & _). unfold cd_field. split_and!.
  - repeat apply printable_app; try done; by apply printable_lit.
  - by intros a [= <-].
  - intros a. rewrite !(last_app_some _ _ """"%char) by (rewrite ?(last_app_some _ _ """"%char); done).
    by intros [= <-].
Qed.

Lemma cd_file_ok n fn : name_ok n -> name_ok fn -> printable (cd_file n fn) /\
  (forall a, head (cd_file n fn) = Some a -> a <> " "%char /\ a <> "009"%char) /\
  (forall a, last (cd_file n fn) = Some a -> a <> " "%char /\ a <> "009"%char).
Proof.
  intros (_ & Hp & _) (_ & Hp' & _). unfold cd_file. split_and!.
  - repeat apply printable_app; try done; by apply printable_lit.
  - by intros a [= <-].
  - intros a. rewrite !app_assoc. rewrite (last_app_some _ _ """"%char) by done.
    by intros [= <-].
Qed.

(* The head of a field part and of the file part. *)
Definition field_head (n : bytes) : bytes :=
  B "Content-Disposition: form-data; name=""" ++ n ++ B """" ++ CRLF ++ CRLF.

Lemma parse_field_head n rest : name_ok n ->
  parse_headers 2 (field_head n ++ rest) = PsDone [(B "Content-Disposition", cd_field n)] rest.
Proof.
  intros Hn. destruct (cd_field_ok n Hn) as (H1 & H2 & H3).
  replace (field_head n ++ rest) with
    (B "Content-Disposition" ++ B ": " ++ cd_field n ++ CRLF ++ (CRLF ++ rest))
    by (unfold field_head, cd_field; rewrite <- !app_assoc; reflexivity).
  rewrite parse_headers_cons by (done || vm_compute; reflexivity).
  by rewrite parse_headers_end.
Qed.

Lemma parse_file_head f rest : name_ok (f_control f) -> name_ok (f_filename f) -> type_ok (f_type f) ->
  parse_headers 2 (encode_file_head f ++ rest) =
  PsDone [(B "Content-Disposition", cd_file (f_control f) (f_filename f));
          (B "Content-Type", f_type f)] rest.
Proof.
  intros Hn Hf (Ht1 & Ht2 & Ht3 & Ht4). destruct (cd_file_ok _ _ Hn Hf) as (H1 & H2 & H3).
  replace (encode_file_head f ++ rest) with
    (B "Content-Disposition" ++ B ": " ++ cd_file (f_control f) (f_filename f) ++ CRLF ++
     (B "Content-Type" ++ B ": " ++ f_type f ++ CRLF ++ (CRLF ++ rest)))
    by (unfold encode_file_head, cd_file; rewrite <- !app_assoc; reflexivity).
  rewrite parse_headers_cons by (done || vm_compute; reflexivity).
  rewrite parse_headers_cons by (done || vm_compute; reflexivity).
  by rewrite parse_headers_end.
Qed.

(** ** Lines *)
Lemma split_crlf_more p l r z : split_crlf p = Some (l, r) -> split_crlf (p ++ z) = Some (l, r ++ z).
Proof.
  revert l. induction p as [|a p IH]; intros l; [done|]. cbn [split_crlf app].
  destruct p as [|b p]; [done|]. cbn [app].
  destruct (aeq a CR && aeq b LF); [intros [= <- <-]; done|].
  destruct (split_crlf (b :: p)) as [[x y]|]; [|done].
  intros [= <- <-]. change (b :: p ++ z) with ((b :: p) ++ z). by rewrite (IH x).
Qed.

Lemma split_crlf_none p z : split_crlf p = None -> split_crlf (p ++ CRLF ++ z) = Some (p, z).
Proof.
  induction p as [|a p IH]; [done|]. cbn [split_crlf app].
  destruct p as [|b p].
  - intros _. cbn. rewrite andb_false_r. done.
  - cbn [app]. destruct (aeq a CR && aeq b LF); [done|].
    destruct (split_crlf (b :: p)) as [[x y]|]; [done|]. intros _.
    change (b :: p ++ CRLF ++ z) with ((b :: p) ++ CRLF ++ z). by rewrite IH.
Qed.

Lemma split_crlf_Some p l r : split_crlf p = Some (l, r) -> p = l ++ CRLF ++ r.
Proof.
  revert l. induction p as [|a p IH]; intros l; [done|]. cbn [split_crlf].
  destruct p as [|b p]; [done|]. destruct (aeq a CR && aeq b LF) eqn:E.
  - apply andb_prop in E as [->%aeq_true ->%aeq_true]. intros [= <- <-]. done.
  - destruct (split_crlf (b :: p)) as [[x y]|]; [|done]. intros [= <- <-]. by rewrite (IH x).
Qed.

Lemma split_crlf_free p : CR ∉ p -> split_crlf p = None.
Proof.
  induction p as [|a p IH]; [done|]. intros Hn. cbn [split_crlf].
  destruct p as [|b p]; [done|].
  assert (aeq a CR = false) as -> by (apply aeq_false; set_solver). cbn [andb].
  rewrite IH by set_solver. done.
Qed.

Lemma next_line_length p l r : next_line p = Some (l, r) -> (length r < length p)%nat.
Proof.
  unfold next_line. destruct (split_crlf p) as [[x y]|] eqn:E.
  - apply split_crlf_Some in E as ->. intros [= <- <-]. unfold CRLF. rewrite !app_length. simpl. lia.
  - destruct p; [done|]. intros [= <- <-]. simpl. lia.
Qed.

Lemma split_to_fuel f1 f2 pat p len :
  (length p < f1)%nat -> (length p < f2)%nat ->
  split_to_loop f1 pat p len = split_to_loop f2 pat p len.
Proof.
  revert f2 p len. induction f1 as [|f1 IH]; intros [|f2] p len H1 H2; try lia.
  cbn [split_to_loop]. destruct (next_line p) as [[l r]|] eqn:E; [|done].
  apply next_line_length in E. destruct (beq l pat); [done|]. apply IH; lia.
Qed.

Lemma absent_app_r pat x y : absent pat (x ++ y) -> absent pat y.
Proof. intros H a b ->. apply (H (x ++ a) b). by rewrite <- app_assoc. Qed.
Lemma absent_app_l pat x y : absent pat (x ++ y) -> absent pat x.
Proof. intros H a b ->. apply (H a (b ++ y)). by rewrite <- !app_assoc. Qed.
Lemma absent_ne pat : ~ absent pat pat.
Proof. intros H. apply (H [] []). by rewrite app_nil_r. Qed.

Lemma split_to_skip fuel fuel' pat pre z len :
  (length z < fuel')%nat -> absent pat pre -> (length (pre ++ CRLF ++ z) < fuel)%nat ->
  split_to_loop fuel pat (pre ++ CRLF ++ z) len =
  split_to_loop fuel' pat z (len + length pre + 2).
Proof.
  intros Hf'. revert pre len. induction fuel as [|fuel IH]; intros pre len Ha Hf; [lia|].
  cbn [split_to_loop]. unfold next_line.
  destruct (split_crlf pre) as [[l r]|] eqn:E.
  - rewrite (split_crlf_more _ _ _ _ E). apply split_crlf_Some in E as ->.
    assert (beq l pat = false) as ->.
    { apply beq_false. intros ->. by apply absent_app_l, absent_ne in Ha. }
    rewrite IH.
    + f_equal. unfold CRLF. rewrite !app_length. simpl. lia.
    + by apply absent_app_r, absent_app_r in Ha.
    + unfold CRLF in *. rewrite !app_length in *. simpl in *. lia.
  - rewrite split_crlf_none by done.
    assert (beq pre pat = false) as ->.
    { apply beq_false. intros ->. by apply absent_ne in Ha. }
    apply split_to_fuel; [|lia]. unfold CRLF in Hf. rewrite !app_length in Hf. simpl in Hf. lia.
Qed.

Lemma split_to_absent fuel pat p len : absent pat p -> split_to_loop fuel pat p len = None.
Proof.
  revert p len. induction fuel as [|fuel IH]; intros p len Ha; [done|]. cbn [split_to_loop].
  unfold next_line. destruct (split_crlf p) as [[l r]|] eqn:E.
  - apply split_crlf_Some in E as ->.
    assert (beq l pat = false) as ->.
    { apply beq_false. intros ->. by apply absent_app_l, absent_ne in Ha. }
    apply IH. by apply absent_app_r, absent_app_r in Ha.
  - destruct p as [|a p]; [done|].
    assert (beq (a :: p) pat = false) as ->.
    { apply beq_false. intros Heq. rewrite Heq in Ha. by apply absent_ne in Ha. }
    by destruct fuel.
Qed.

(* Splitting off a value, with the delimiter line complete, at the end, or cut inside CR LF. *)
Lemma split_to_value pat v rest :
  absent pat v -> CR ∉ pat -> split_to pat (v ++ CRLF ++ pat ++ CRLF ++ rest) = Some (v ++ CRLF, rest).
Proof.
  intros Ha Hp. unfold split_to. rewrite (split_to_skip _ (S (length _)) _ _ _ _ (Nat.lt_succ_diag_r _)) by (done || lia).
  cbn [split_to_loop]. unfold next_line.
  rewrite split_crlf_none by by apply split_crlf_free. rewrite beq_refl. cbn [plus].
  f_equal. f_equal. rewrite app_assoc.
  rewrite Nat.min_l by (unfold CRLF; rewrite !app_length; simpl; lia).
  rewrite take_app_alt; [done|]. unfold CRLF. rewrite app_length. simpl. lia.
Qed.

Lemma split_to_value_end pat v :
  absent pat v -> CR ∉ pat -> pat <> [] -> split_to pat (v ++ CRLF ++ pat) = Some (v ++ CRLF, []).
Proof.
  intros Ha Hp Hne. unfold split_to. rewrite (split_to_skip _ (S (length _)) _ _ _ _ (Nat.lt_succ_diag_r _)) by (done || lia).
  cbn [split_to_loop]. unfold next_line. rewrite split_crlf_free by done.
  destruct pat as [|c pat0] eqn:Ep; [done|]. rewrite <- Ep in *. rewrite beq_refl. cbn [plus].
  f_equal. f_equal. rewrite app_assoc.
  rewrite Nat.min_l by (unfold CRLF; rewrite !app_length; simpl; lia).
  rewrite take_app_alt; [done|]. unfold CRLF. rewrite app_length. simpl. lia.
Qed.

Lemma split_to_value_cr pat v :
  absent pat v -> CR ∉ pat -> LF ∉ pat -> pat <> [] -> split_to pat (v ++ CRLF ++ pat ++ [CR]) = None.
Proof.
  intros Ha Hp Hp' Hne. unfold split_to. rewrite (split_to_skip _ (S (length _)) _ _ _ _ (Nat.lt_succ_diag_r _)) by (done || lia).
  cbn [split_to_loop]. unfold next_line.
  assert (split_crlf (pat ++ [CR]) = None) as ->.
  { destruct (split_crlf (pat ++ [CR])) as [[l r]|] eqn:E; [|done].
    apply split_crlf_Some in E. exfalso.
    assert (LF ∈ pat ++ [CR]) as Hin.
    { rewrite E. unfold CRLF. apply elem_of_app. right. right. left. }
    apply elem_of_app in Hin as [?|Hin]; [done|]. revert Hin. compute_done. }
  destruct pat as [|c pat0] eqn:Ep; [done|]. rewrite <- Ep in *.
  destruct (pat ++ [CR]) as [|x xs] eqn:Ex; [by destruct pat|]. rewrite <- Ex.
  assert (beq (pat ++ [CR]) pat = false) as ->.
  { apply beq_false. intros H. apply (f_equal length) in H. rewrite app_length in H. simpl in H. lia. }
  by destruct (length (pat ++ [CR])).
Qed.

(* A proper prefix of value, CR LF and delimiter contains no delimiter. *)
Lemma absent_prefix pat v p k :
  absent pat v -> CR ∉ pat -> LF ∉ pat -> pat <> [] ->
  p ++ k = v ++ CRLF ++ pat -> k <> [] -> absent pat p.
Proof.
  intros Ha Hc Hl Hne Heq Hk x y ->.
  rewrite <- !app_assoc in Heq.
  destruct (decide (length x + length pat <= length v)%nat) as [Hle|Hgt].
  - assert (exists t, v = (x ++ pat) ++ t) as [t Ht].
    { exists (drop (length (x ++ pat)) v).
      assert (take (length (x ++ pat)) ((x ++ pat) ++ y ++ k) =
              take (length (x ++ pat)) (v ++ CRLF ++ pat)) as H by by rewrite <- app_assoc, Heq.
      rewrite take_app, take_app_le in H by (rewrite app_length; done).
      rewrite H at 1. by rewrite take_drop. }
    rewrite <- app_assoc in Ht. by apply Ha in Ht.
  - assert (length x < length v + 2)%nat.
    { apply (f_equal length) in Heq. unfold CRLF in Heq. rewrite !app_length in Heq. simpl in Heq.
      destruct k; [done|]. simpl in Heq. lia. }
    (* position [i] of the whole lies in the occurrence and holds CR or LF *)
    assert (0 < length pat)%nat by (destruct pat; [done|simpl; lia]).
    set (i := Nat.max (length x) (length v)).
    assert (exists c, (c = CR \/ c = LF) /\ (v ++ CRLF ++ pat) !! i = Some c) as (c & Hcc & Hi).
    { destruct (decide (i = length v)) as [->|].
      - exists CR. split; [auto|]. rewrite lookup_app_r by lia. by rewrite Nat.sub_diag.
      - exists LF. split; [auto|]. assert (i = length v + 1)%nat as -> by lia.
        rewrite lookup_app_r by lia. by replace (length v + 1 - length v)%nat with 1%nat by lia. }
    rewrite <- Heq in Hi. rewrite lookup_app_r in Hi by lia.
    rewrite lookup_app_l in Hi by lia. apply elem_of_list_lookup_2 in Hi.
    destruct Hcc as [-> | ->]; done.
Qed.
