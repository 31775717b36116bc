(** C26, C27: POST forms. *)
From Verif Require Import M_Base M_Utf8 M_Chunked M_Multipart S_Chunked S_Multipart
  L_Base L_Chunked L_Multipart T_FileStream.

Lemma find_cd1 v : find_header (B "Content-Disposition") [(B "Content-Disposition", v)] = Some v.
Proof. vm_compute. reflexivity. Qed.
Lemma find_cd2 v t :
  find_header (B "Content-Disposition") [(B "Content-Disposition", v); (B "Content-Type", t)] = Some v.
Proof. vm_compute. reflexivity. Qed.
Lemma find_ct2 v t :
  find_header (B "Content-Type") [(B "Content-Disposition", v); (B "Content-Type", t)] = Some t.
Proof. vm_compute. reflexivity. Qed.

Lemma encode_field_eq boundary n v :
  encode_field boundary (n, v) =
  field_head n ++ v ++ CRLF ++ (B "--" ++ boundary) ++ CRLF.
Proof. unfold encode_field, field_head. cbn [fst snd]. by rewrite <- !app_assoc. Qed.

Definition pat_of (boundary : bytes) : bytes := B "--" ++ boundary.

Lemma pat_ok boundary : boundary_ok boundary ->
  CR ∉ pat_of boundary /\ LF ∉ pat_of boundary /\ pat_of boundary <> [].
Proof.
  intros [H1 H2]. unfold pat_of. rewrite !elem_of_app. split_and!; [| |done].
  - intros [H|H]; [revert H; compute_done|done].
  - intros [H|H]; [revert H; compute_done|done].
Qed.

Lemma parts_done boundary fields f fuel acc r :
  boundary_ok boundary ->
  Forall (fun p => name_ok p.1 /\ utf8_valid p.2 = true /\ absent (pat_of boundary) p.2) fields ->
  name_ok (f_control f) -> name_ok (f_filename f) -> type_ok (f_type f) ->
  let slice := concat (map (encode_field boundary) fields) ++ encode_file_head f ++ r in
  (length slice < fuel)%nat ->
  parts_loop fuel (pat_of boundary) slice acc = TDone (acc ++ fields) (f_filename f) (f_type f) r.
Proof.
  intros Hb Hf Hc Hn Ht. destruct (pat_ok _ Hb) as (Hp1 & Hp2 & Hp3).
  revert fuel acc. induction fields as [|[n v] fields IH]; intros fuel acc slice Hfuel;
    (destruct fuel as [|fuel]; [lia|]); cbn [parts_loop]; unfold slice in *; clear slice.
  - cbn [map concat app]. rewrite parse_file_head by done. rewrite find_cd2, parse_cd_file by done.
    rewrite find_ct2. destruct Ht as (_ & Hu & _). by rewrite Hu, app_nil_r.
  - inversion Hf as [|? ? (H1 & H2 & H3) Hf']; subst. cbn [fst snd] in *.
    cbn [map concat] in *. rewrite encode_field_eq in *. fold (pat_of boundary) in *.
    rewrite <- !app_assoc in *. rewrite parse_field_head by done.
    rewrite find_cd1, parse_cd_field by done.
    rewrite split_to_value by done.
    replace (take (length (v ++ CRLF) - 2) (v ++ CRLF)) with v
      by (rewrite take_app_alt; [done|unfold CRLF; rewrite app_length; simpl; lia]).
    rewrite H2, IH.
    + by rewrite <- app_assoc.
    + done.
    + rewrite !app_length in Hfuel. rewrite !app_length.
      assert (length CRLF = 2%nat) by done. lia.
Qed.

(* Prefixes: either cut inside [x] or after it. *)
Lemma prefix_cases (p k x y : bytes) : p ++ k = x ++ y ->
  (exists t, x = p ++ t /\ t <> []) \/ (exists t, p = x ++ t /\ t ++ k = y).
Proof.
  revert x. induction p as [|a p IH]; intros x Heq.
  - destruct x as [|b x]; [right; exists []; auto|left; exists (b :: x); auto].
  - destruct x as [|b x]; [right; exists (a :: p); auto|].
    injection Heq as -> Heq. destruct (IH _ Heq) as [(t & -> & ?)|(t & -> & ?)]; eauto.
Qed.

Lemma parts_more boundary fields f fuel acc p k :
  boundary_ok boundary ->
  Forall (fun p => name_ok p.1 /\ utf8_valid p.2 = true /\ absent (pat_of boundary) p.2) fields ->
  name_ok (f_control f) -> name_ok (f_filename f) -> type_ok (f_type f) ->
  p ++ k = concat (map (encode_field boundary) fields) ++ encode_file_head f -> k <> [] ->
  parts_loop fuel (pat_of boundary) p acc = TMore.
Proof.
  intros Hb Hf Hc Hn Ht Heq Hk. destruct (pat_ok _ Hb) as (Hp1 & Hp2 & Hp3).
  revert fuel acc p Heq. induction fields as [|[n v] fields IH]; intros fuel acc p Heq;
    (destruct fuel as [|fuel]; [done|]); cbn [parts_loop].
  - cbn [map concat app] in Heq.
    rewrite (parse_headers_prefix 2 p k [(B "Content-Disposition", cd_file (f_control f) (f_filename f));
          (B "Content-Type", f_type f)]); [done| |done].
    rewrite Heq, <- (app_nil_r (encode_file_head f)). by apply parse_file_head.
  - inversion Hf as [|? ? (H1 & H2 & H3) Hf']; subst. cbn [fst snd] in *.
    cbn [map concat] in Heq. rewrite encode_field_eq in Heq. fold (pat_of boundary) in Heq.
    rewrite <- !app_assoc in Heq.
    apply prefix_cases in Heq as [(t & Ht' & Hne)|(p1 & -> & Heq)].
    + (* inside the part header *)
      rewrite (parse_headers_prefix 2 p t [(B "Content-Disposition", cd_field n)]); [done| |done].
      rewrite <- Ht', <- (app_nil_r (field_head n)). by apply parse_field_head.
    + rewrite parse_field_head by done. rewrite find_cd1, parse_cd_field by done.
      assert (Heq' : p1 ++ k = (v ++ CRLF ++ pat_of boundary) ++
          (CRLF ++ concat (map (encode_field boundary) fields) ++ encode_file_head f))
        by (rewrite Heq, <- !app_assoc; done).
      apply prefix_cases in Heq' as [(t & Ht' & Hne)|(t & -> & Heq')].
      * (* inside the value or its delimiter *)
        assert (split_to (pat_of boundary) p1 = None) as ->; [|done].
        unfold split_to. rewrite split_to_absent; [done|].
        by eapply (absent_prefix _ v p1 t).
      * rewrite <- !app_assoc.
        destruct t as [|c [|c' t]].
        -- rewrite app_nil_r. rewrite split_to_value_end by done.
           replace (take (length (v ++ CRLF) - 2) (v ++ CRLF)) with v
             by (rewrite take_app_alt; [done|unfold CRLF; rewrite app_length; simpl; lia]).
           rewrite H2. by destruct fuel.
        -- injection Heq' as -> _. by rewrite split_to_value_cr.
        -- injection Heq' as -> -> Heq'. change (CR :: LF :: t) with (CRLF ++ t).
           rewrite split_to_value by done.
           replace (take (length (v ++ CRLF) - 2) (v ++ CRLF)) with v
             by (rewrite take_app_alt; [done|unfold CRLF; rewrite app_length; simpl; lia]).
           rewrite H2. by apply IH.
Qed.

(** The first line, possibly after one empty line. *)
Lemma try_parse_first lead boundary rest :
  boundary_ok boundary -> lead = [] \/ lead = CRLF ->
  try_parse boundary (lead ++ pat_of boundary ++ CRLF ++ rest) =
  parts_loop (S (length rest)) (pat_of boundary) rest [].
Proof.
  intros Hb Hlead. destruct (pat_ok _ Hb) as (Hp1 & Hp2 & Hp3).
  assert (Hline : next_line (pat_of boundary ++ CRLF ++ rest) = Some (pat_of boundary, rest)).
  { unfold next_line. by rewrite split_crlf_none by by apply split_crlf_free. }
  unfold try_parse. destruct Hlead as [-> | ->]; cbn [app].
  - rewrite Hline. fold (pat_of boundary).
    destruct (pat_of boundary) as [|c p] eqn:E; [done|]. by rewrite beq_refl.
  - change (next_line (CRLF ++ pat_of boundary ++ CRLF ++ rest))
      with (Some ([] : bytes, pat_of boundary ++ CRLF ++ rest)).
    cbv beta iota. rewrite Hline. fold (pat_of boundary). by rewrite beq_refl.
Qed.

Definition head_rest (boundary : bytes) (f : form) : bytes :=
  concat (map (encode_field boundary) (f_fields f)) ++ encode_file_head f.

Lemma encode_head_eq boundary f :
  encode_head boundary f = pat_of boundary ++ CRLF ++ head_rest boundary f.
Proof. unfold encode_head, pat_of, head_rest. by rewrite <- !app_assoc. Qed.

Lemma try_parse_done lead boundary f r :
  form_ok boundary f -> lead = [] \/ lead = CRLF ->
  try_parse boundary (lead ++ encode_head boundary f ++ r) =
  TDone (f_fields f) (f_filename f) (f_type f) r.
Proof.
  intros (Hb & Hf & Hc & Hn & Ht & _) Hlead. rewrite encode_head_eq, <- !app_assoc.
  rewrite try_parse_first by done. unfold head_rest. rewrite <- app_assoc.
  rewrite parts_done; try done. lia.
Qed.

Lemma try_parse_more lead boundary f p k :
  form_ok boundary f -> lead = [] \/ lead = CRLF ->
  p ++ k = head_rest boundary f -> k <> [] ->
  try_parse boundary (lead ++ pat_of boundary ++ CRLF ++ p) = TMore.
Proof.
  intros (Hb & Hf & Hc & Hn & Ht & _) Hlead Heq Hk.
  rewrite try_parse_first by done. by eapply parts_more.
Qed.

(* The delimiter after the file is the first one. *)
Lemma content_first boundary content trailer :
  boundary_ok boundary -> absent (pat_of boundary) content ->
  first_at (delimiter boundary) (content ++ delimiter boundary ++ trailer) content trailer.
Proof.
  intros Hb Ha. split; [done|]. intros x y Heq.
  destruct (decide (length content <= length x)%nat) as [|Hlt]; [done|]. exfalso.
  destruct (pat_ok _ Hb) as (Hp1 & Hp2 & Hp3).
  assert (Hd : delimiter boundary = CR :: LF :: pat_of boundary) by reflexivity.
  destruct (decide (length x + length (delimiter boundary) <= length content)%nat) as [Hin|Hout].
  - symmetry in Heq. rewrite app_assoc in Heq.
    apply app_prefix_le in Heq as [t Ht]; [|rewrite app_length; lia].
    apply (Ha (x ++ CRLF) t). rewrite Ht, Hd, <- !app_assoc. done.
  - (* the start of the later delimiter lies inside the earlier one: a CR at position > 0 *)
    assert ((content ++ delimiter boundary ++ trailer) !! length content = Some CR) as Hl.
    { rewrite lookup_app_r by lia. rewrite Nat.sub_diag, Hd. done. }
    rewrite Heq, lookup_app_r, lookup_app_l in Hl by lia.
    rewrite Hd in Hl. destruct (length content - length x)%nat as [|[|n]] eqn:En; [lia| |].
    + cbn in Hl. done.
    + cbn in Hl. apply elem_of_list_lookup_2 in Hl. done.
Qed.

Lemma transform_loop_form lead boundary f trailer p fs :
  form_ok boundary f -> lead = [] \/ lead = CRLF ->
  lead ++ pat_of boundary ++ CRLF ++ p ++ carried fs = lead ++ encode_form boundary f trailer ->
  (forall r, p <> head_rest boundary f ++ r) ->
  exists m, transform_loop boundary (lead ++ pat_of boundary ++ CRLF ++ p) fs = Some m /\
    mp_fields m = f_fields f /\ mp_file_name m = f_filename f /\ mp_content_type m = f_type f /\
    concat (mp_stream m).1 = f_content f /\ (mp_stream m).2 = FileOk.
Proof.
  intros Hok Hlead Heq Hinc. apply app_inv_head in Heq.
  unfold encode_form in Heq. rewrite encode_head_eq, <- !app_assoc in Heq.
  apply app_inv_head, app_inv_head in Heq.
  revert p Heq Hinc. induction fs as [|fr fs IH]; intros p Heq Hinc.
  - exfalso. cbn [carried] in Heq. rewrite app_nil_r in Heq. by eapply Hinc.
  - destruct fr as [b|]; [|exfalso; cbn [carried] in Heq; rewrite app_nil_r in Heq; by eapply Hinc].
    cbn [transform_loop carried] in *. rewrite <- !app_assoc.
    rewrite app_assoc in Heq. pose proof Heq as Heq'.
    apply prefix_cases in Heq as [(t & Ht & Hne)|(r & Hr & Hrest)].
    + erewrite (try_parse_more _ _ _ (p ++ b) t); [|done|done|done|done].
      apply IH; [done|]. intros r Hr. rewrite Hr in Ht. apply (f_equal length) in Ht.
      rewrite !app_length in Ht. destruct t; [done|simpl in Ht; lia].
    + assert (lead ++ pat_of boundary ++ CRLF ++ p ++ b = lead ++ encode_head boundary f ++ r) as ->.
      { rewrite encode_head_eq, Hr, <- !app_assoc. done. }
      rewrite try_parse_done by done. eexists. split; [done|].
      cbn [mp_fields mp_file_name mp_content_type]. split_and!; try done.
      all: unfold mp_stream; cbn [mp_boundary mp_prev mp_frames].
      all: destruct Hok as (Hb & _ & _ & _ & _ & Hco).
      all: edestruct (C25_file_content_exact boundary
             (match r with [] => None | _ :: _ => Some r end) fs (f_content f) trailer) as [HH1 HH2];
           [|first [exact HH1|exact HH2]].
      all: assert (default [] (match r with [] => None | _ :: _ => Some r end) = r) as -> by by destruct r.
      all: rewrite Hrest; by apply content_first.
Qed.

Lemma head_rest_ne boundary f : head_rest boundary f <> [].
Proof.
  unfold head_rest, encode_file_head. intros H. apply app_eq_nil in H as [_ H].
  discriminate H.
Qed.

(** C27, the part that holds: for every framing whose first non-empty frame contains the
    whole first line (with the preamble line break, if any), the form is understood exactly.
    Missing: first frames that stop inside that line, which are rejected (see the
    refutation below). *)
Theorem C27_framing_independent_partial lead boundary f trailer empties b fs :
  form_ok boundary f -> lead = [] \/ lead = CRLF ->
  Forall (fun fr => fr = FData []) empties ->
  b ++ carried fs = lead ++ encode_form boundary f trailer ->
  (exists t, b = lead ++ B "--" ++ boundary ++ CRLF ++ t) ->
  exists m, transform_multipart boundary (empties ++ FData b :: fs) = Some m /\
    mp_fields m = f_fields f /\ mp_file_name m = f_filename f /\ mp_content_type m = f_type f /\
    concat (mp_stream m).1 = f_content f /\ (mp_stream m).2 = FileOk.
Proof.
  intros Hok Hlead Hemp Heq [t Hb]. unfold transform_multipart.
  assert (Hskip : forall l, transform_loop boundary [] (empties ++ l) = transform_loop boundary [] l).
  { intros l. induction Hemp as [|fr es -> _ IH]; [done|]. exact IH. }
  rewrite Hskip. clear Hskip Hemp empties.
  assert (transform_loop boundary [] (FData b :: fs) =
    transform_loop boundary (lead ++ pat_of boundary ++ CRLF ++ []) (FData t :: fs)) as ->.
  { cbn [transform_loop]. rewrite app_nil_r, <- !app_assoc.
    cbn [app]. unfold pat_of. rewrite <- app_assoc. by rewrite <- Hb. }
  apply transform_loop_form with (trailer := trailer); [done|done| |].
  - cbn [app carried]. rewrite Hb in Heq. unfold pat_of. rewrite <- !app_assoc in *. exact Heq.
  - intros r Hr. symmetry in Hr. apply app_eq_nil in Hr as [Hr _]. by apply head_rest_ne in Hr.
Qed.
Print Assumptions C27_framing_independent_partial.

(** C26: a standard form delivered in one frame is parsed exactly. *)
Theorem C26_form_round_trip lead boundary f trailer :
  form_ok boundary f -> lead = [] \/ lead = CRLF ->
  exists m, transform_multipart boundary [FData (lead ++ encode_form boundary f trailer)] = Some m /\
    mp_fields m = f_fields f /\ mp_file_name m = f_filename f /\ mp_content_type m = f_type f /\
    concat (mp_stream m).1 = f_content f /\ (mp_stream m).2 = FileOk.
Proof.
  intros Hok Hlead.
  apply (C27_framing_independent_partial lead boundary f trailer [] _ []); try done.
  - cbn [carried]. by rewrite app_nil_r.
  - unfold encode_form. rewrite encode_head_eq. unfold pat_of.
    eexists. rewrite <- !app_assoc. done.
Qed.
Print Assumptions C26_form_round_trip.

(** Looking up a field: the last one with that name, ignoring case. *)
Theorem C26_field_lookup m name v :
  find_field_value m name = Some v <->
  exists xs n ys, mp_fields m = xs ++ (n, v) :: ys /\ eq_ignore_case n name = true /\
    Forall (fun f => eq_ignore_case f.1 name = false) ys.
Proof.
  unfold find_field_value. generalize (mp_fields m). intros l.
  induction l as [|[n w] l IH] using rev_ind.
  - cbn. split; [done|]. intros (xs & n & ys & H & _). by destruct xs.
  - rewrite rev_unit. cbn [find fst]. destruct (eq_ignore_case n name) eqn:E.
    + cbn [snd]. split.
      * intros [= <-]. exists l, n, []. done.
      * intros (xs & n' & ys & Heq & Hn' & Hys).
        destruct ys as [|y ys _] using rev_ind.
        -- apply app_inj_tail in Heq as [_ Heq]. by simplify_eq.
        -- rewrite app_comm_cons, app_assoc in Heq. apply app_inj_tail in Heq as [_ <-].
           apply Forall_app in Hys as [_ Hys]. rewrite Forall_singleton in Hys. cbn [fst] in Hys. congruence.
    + rewrite IH. split.
      * intros (xs & n' & ys & -> & Hn' & Hys). exists xs, n', (ys ++ [(n, w)]).
        rewrite <- app_assoc. split_and!; try done. apply Forall_app. split; [done|]. by constructor.
      * intros (xs & n' & ys & Heq & Hn' & Hys).
        destruct ys as [|y ys _] using rev_ind.
        -- apply app_inj_tail in Heq as [_ Heq]. simplify_eq. congruence.
        -- rewrite app_comm_cons, app_assoc in Heq. apply app_inj_tail in Heq as [-> <-].
           apply Forall_app in Hys as [Hys _]. by exists xs, n', ys.
Qed.
Print Assumptions C26_field_lookup.

(** Examples, and the refutation of full framing independence: the same bytes are accepted in
    one frame and rejected when the first frame stops inside the boundary line. *)
Definition ex_form : form :=
  Form [(B "key", B "a" ++ CRLF ++ B "b"); (B "Policy", [])] (B "file") (B "x.jpg") (B "image/jpg")
    (B "data" ++ CRLF ++ B "--").
Definition ex_boundary : bytes := B "9431149156168".

Lemma absent_dec pat l :
  forallb (fun n => negb (starts_with pat (drop n l))) (seq 0 (S (length l))) = true -> absent pat l.
Proof.
  intros H x y ->. rewrite forallb_Forall, Forall_forall in H.
  specialize (H (length x)). rewrite drop_app, negb_true_iff in H.
  assert (length x ∈ seq 0 (S (length (x ++ pat ++ y)))) as Hin.
  { apply elem_of_seq. rewrite app_length. lia. }
  apply H in Hin. by apply (proj1 (starts_with_false _ _) Hin y).
Qed.

Example ex_form_ok : form_ok ex_boundary ex_form.
Proof.
  assert (Hname : forall n, forallb is_value_token n = true -> """"%char ∉ n ->
    utf8_valid n = true -> n <> [] -> name_ok n).
  { intros n H1 H2 H3 H4. split_and!; try done. by apply printable_spec. }
  split_and!.
  - split; compute_done.
  - constructor; [|constructor; [|constructor]]; cbn [fst snd]; split_and!;
      try (apply Hname; [reflexivity|compute_done|reflexivity|done]); try reflexivity;
      apply absent_dec; vm_compute; reflexivity.
  - apply Hname; [reflexivity|compute_done|reflexivity|done].
  - apply Hname; [reflexivity|compute_done|reflexivity|done].
  - split_and!; [by apply printable_spec|reflexivity| |]; intros a [= <-]; done.
  - apply absent_dec. vm_compute. reflexivity.
Qed.

Example ex_form_parsed :
  exists m, transform_multipart ex_boundary [FData (encode_form ex_boundary ex_form (B "--" ++ CRLF))]
    = Some m /\ mp_fields m = f_fields ex_form /\ mp_stream m = ([f_content ex_form], FileOk).
Proof. eexists. split_and!; vm_compute; reflexivity. Qed.

Theorem C27_framing_independent_refuted :
  exists boundary fs fs' m, carried fs = carried fs' /\ broken fs = false /\ broken fs' = false /\
    transform_multipart boundary fs = Some m /\ transform_multipart boundary fs' = None.
Proof.
  pose (body := encode_form ex_boundary ex_form (B "--" ++ CRLF)).
  exists ex_boundary, [FData body], [FData (take 5 body); FData (drop 5 body)].
  eexists. split_and!; vm_compute; reflexivity.
Qed.
Print Assumptions C27_framing_independent_refuted.

(** Exactly which framings are rejected: those with a frame end strictly inside the first
    line [--boundary CRLF], other than just before its line break. *)
Definition splits_first_line (boundary : bytes) (fs : list frame) : Prop :=
  exists fs1 fs2 t, fs = fs1 ++ fs2 /\ broken fs1 = false /\
    carried fs1 <> [] /\ carried fs1 <> B "--" ++ boundary /\
    t <> [] /\ B "--" ++ boundary ++ CRLF = carried fs1 ++ t.

Lemma split_crlf_prefix pat q t : CR ∉ pat -> pat ++ CRLF = q ++ t -> t <> [] -> split_crlf q = None.
Proof.
  intros Hp. revert q. induction pat as [|c pat IH]; intros q Heq Ht.
  - destruct q as [|a [|b q]]; [done| |].
    + injection Heq as <- Heq. reflexivity.
    + exfalso. injection Heq as <- <- Heq. symmetry in Heq. by apply app_eq_nil in Heq as [_ ?].
  - destruct q as [|a q]; [done|]. injection Heq as <- Heq.
    apply not_elem_of_cons in Hp as [Hc Hp]. specialize (IH Hp q Heq Ht).
    cbn [split_crlf]. rewrite IH. destruct q as [|b q]; [done|].
    assert (aeq c CR = false) as -> by (apply aeq_false; congruence). done.
Qed.

Lemma try_parse_prefix boundary q t : boundary_ok boundary ->
  pat_of boundary ++ CRLF = q ++ t -> t <> [] ->
  try_parse boundary q = if decide (q = [] \/ q = pat_of boundary) then TMore else TFormat.
Proof.
  intros Hb Heq Ht. destruct (pat_ok _ Hb) as (Hp1 & _ & Hp3).
  pose proof (split_crlf_prefix _ _ _ Hp1 Heq Ht) as Hs.
  unfold try_parse. destruct q as [|a q]; [by rewrite decide_True by auto|].
  unfold next_line. rewrite Hs. cbv beta iota.
  fold (pat_of boundary).
  destruct (beq (a :: q) (pat_of boundary)) eqn:E.
  - apply beq_true in E. rewrite decide_True by auto. done.
  - rewrite decide_False; [done|]. intros [?|H]; [done|]. rewrite H, beq_refl in E. done.
Qed.

Lemma carried_app fs1 fs2 : broken fs1 = false -> carried (fs1 ++ fs2) = carried fs1 ++ carried fs2.
Proof.
  induction fs1 as [|[b|] fs1 IH]; [done| |done]. intros H. cbn [carried app].
  rewrite IH by done. by rewrite app_assoc.
Qed.

Theorem C27_split_first_line_rejected boundary fs :
  boundary_ok boundary -> splits_first_line boundary fs -> transform_multipart boundary fs = None.
Proof.
  intros Hb (fs1 & fs2 & t & -> & Hbr & Hne & Hnp & Ht & Heq).
  unfold transform_multipart.
  assert (H : forall buf, fs1 <> [] -> pat_of boundary ++ CRLF = buf ++ carried fs1 ++ t ->
     buf ++ carried fs1 <> [] -> buf ++ carried fs1 <> pat_of boundary ->
     transform_loop boundary buf (fs1 ++ fs2) = None).
  { clear Heq Hne Hnp. revert Hbr. induction fs1 as [|[b|] fs1 IH]; intros Hbr buf Hfs Heq Hne Hnp;
      [done| |done].
    cbn [app transform_loop carried] in *. rewrite <- app_assoc in Heq. rewrite app_assoc in Heq.
    rewrite app_assoc in Hne, Hnp.
    rewrite (try_parse_prefix boundary (buf ++ b) (carried fs1 ++ t)); [|done|done|].
    2: { intros H. by apply app_eq_nil in H as [_ ?]. }
    case_decide as Hd; [|done]. apply IH; try done.
    intros ->. cbn [carried] in *. rewrite app_nil_r in *. by destruct Hd. }
  apply H; try done. by intros ->.
Qed.
Print Assumptions C27_split_first_line_rejected.

Theorem C27_other_framings_accepted boundary f trailer fs :
  form_ok boundary f -> carried fs = encode_form boundary f trailer ->
  ~ splits_first_line boundary fs ->
  exists m, transform_multipart boundary fs = Some m /\
    mp_fields m = f_fields f /\ mp_file_name m = f_filename f /\ mp_content_type m = f_type f /\
    concat (mp_stream m).1 = f_content f /\ (mp_stream m).2 = FileOk.
Proof.
  intros Hok Heq Hns. pose proof Hok as (Hb & _). destruct (pat_ok _ Hb) as (_ & _ & Hpne).
  unfold transform_multipart.
  (* generalise over the frames already read *)
  assert (H : forall fs2 fs1, fs = fs1 ++ fs2 -> broken fs1 = false ->
    carried fs1 = [] \/ carried fs1 = pat_of boundary ->
    exists m, transform_loop boundary (carried fs1) fs2 = Some m /\
    mp_fields m = f_fields f /\ mp_file_name m = f_filename f /\ mp_content_type m = f_type f /\
    concat (mp_stream m).1 = f_content f /\ (mp_stream m).2 = FileOk).
  { assert (Henc : encode_form boundary f trailer = pat_of boundary ++ CRLF ++
      head_rest boundary f ++ f_content f ++ delimiter boundary ++ trailer).
    { unfold encode_form. rewrite encode_head_eq, <- !app_assoc. done. }
    assert (Hnot : forall x : bytes, x = [] \/ x = pat_of boundary -> x <> encode_form boundary f trailer).
    { intros x Hx Heq'. rewrite Henc in Heq'. destruct Hx as [-> | ->].
      - symmetry in Heq'. by apply app_eq_nil in Heq' as [? _].
      - rewrite <- (app_nil_r (pat_of boundary)) in Heq' at 1. by apply app_inv_head in Heq'. }
    induction fs2 as [|[b|] fs2 IH]; intros fs1 Hfs Hbr Hc.
    - exfalso. rewrite app_nil_r in Hfs. subst fs. by eapply Hnot.
    - assert (Hbr' : broken (fs1 ++ [FData b]) = false).
      { unfold broken in *. rewrite existsb_app, Hbr. done. }
      assert (Hca : carried (fs1 ++ [FData b]) = carried fs1 ++ b).
      { rewrite carried_app by done. cbn [carried]. by rewrite app_nil_r. }
      pose proof Heq as Heq2. rewrite Hfs, carried_app in Heq2 by done. cbn [carried] in Heq2.
      rewrite app_assoc, Henc, (app_assoc _ CRLF) in Heq2.
      apply prefix_cases in Heq2 as [(t & Ht & Htn)|(p & Hp & Hrest)].
      + destruct (decide (carried fs1 ++ b = [] \/ carried fs1 ++ b = pat_of boundary)) as [Hd|Hd].
        * cbn [transform_loop]. rewrite (try_parse_prefix _ _ t) by done.
          rewrite decide_True by done. rewrite <- Hca. apply IH; [|done|by rewrite Hca].
          by rewrite <- app_assoc.
        * exfalso. apply Hns. exists (fs1 ++ [FData b]), fs2, t. rewrite Hca.
          split_and!.
          -- by rewrite <- app_assoc.
          -- done.
          -- intros E. apply Hd. by left.
          -- intros E. apply Hd. by right.
          -- done.
          -- exact Ht.
      + assert (transform_loop boundary (carried fs1) (FData b :: fs2) =
          transform_loop boundary ([] ++ pat_of boundary ++ CRLF ++ []) (FData p :: fs2)) as ->.
        { cbn [transform_loop app]. rewrite Hp, app_nil_r, <- !app_assoc. done. }
        apply (transform_loop_form [] boundary f trailer); [done|by left| |].
        * cbn [app carried]. rewrite Henc, Hrest. done.
        * intros r Hr. symmetry in Hr. apply app_eq_nil in Hr as [Hr _]. by apply head_rest_ne in Hr.
    - exfalso. rewrite Hfs, carried_app in Heq by done. cbn [carried] in Heq.
      rewrite app_nil_r in Heq. by eapply Hnot. }
  apply (H fs []); auto.
Qed.
Print Assumptions C27_other_framings_accepted.

Example ex_not_split :
  let body := encode_form ex_boundary ex_form (B "--" ++ CRLF) in
  exists m, transform_multipart ex_boundary
      (map (fun a => FData a) [[]; take 15 body; take 20 (drop 15 body); drop 35 body]) = Some m
    /\ mp_fields m = f_fields ex_form.
Proof. eexists. split; vm_compute; reflexivity. Qed.
