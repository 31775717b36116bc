(** Lemmas about the [aws-chunked] decoder. *)
From Verif Require Import M_Base M_Headers M_Crypto M_SigV4 M_Chunked S_Path S_Chunked L_Base L_SigV4.

Lemma broken_cons_err fs : broken (FErr :: fs) = true.
Proof. reflexivity. Qed.
Lemma broken_cons_data b fs : broken (FData b :: fs) = broken fs.
Proof. reflexivity. Qed.
Lemma broken_nil : broken [] = false.
Proof. reflexivity. Qed.

(** ** Reading a header line *)
Definition size_left (rest : bytes) (fs : list frame) : nat := length rest + frames_len fs.

Lemma frames_len_data b fs : frames_len (FData b :: fs) = (length b + frames_len fs)%nat.
Proof. reflexivity. Qed.

Lemma read_meta_spec acc cur fs :
  match read_meta acc cur fs with
  | REof => LF ∉ cur ++ carried fs /\ broken fs = false
  | RIo => LF ∉ cur ++ carried fs /\ broken fs = true
  | RFormat => False
  | ROk buf rest fs' =>
      exists line, buf = acc ++ line ++ [LF] /\ LF ∉ line /\
        cur ++ carried fs = line ++ [LF] ++ rest ++ carried fs' /\
        broken fs' = broken fs /\ (size_left rest fs' < size_left cur fs)%nat
  end.
Proof.
  revert acc cur. induction fs as [|f fs IH]; intros acc cur; cbn [read_meta]; unfold split_lf.
  - destruct (split_once LF cur) as [[x y]|] eqn:E.
    + apply split_once_Some in E as [-> Hx]. exists x.
      split_and!; auto. { by rewrite <- app_assoc. }
      unfold size_left. rewrite !app_length. simpl. lia.
    + apply split_once_None in E. cbn. rewrite app_nil_r. auto.
  - destruct (split_once LF cur) as [[x y]|] eqn:E.
    + apply split_once_Some in E as [-> Hx]. exists x.
      split_and!; auto. { by rewrite <- app_assoc. }
      unfold size_left. rewrite !app_length. simpl. lia.
    + apply split_once_None in E. destruct f as [b|].
      * specialize (IH (acc ++ cur) b). cbn [carried].
        rewrite broken_cons_data.
        destruct (read_meta (acc ++ cur) b fs) as [| | |buf rest fs'].
        -- destruct IH as [H ?]. split; [|done]. rewrite !elem_of_app in *. tauto.
        -- destruct IH as [H ?]. split; [|done]. rewrite !elem_of_app in *. tauto.
        -- done.
        -- destruct IH as (line & -> & Hl & Heq & Hb & Hlt).
           exists (cur ++ line). rewrite <- !app_assoc. split_and!; auto.
           ++ rewrite elem_of_app. tauto.
           ++ by rewrite Heq.
           ++ unfold size_left in *. rewrite frames_len_data. lia.
      * cbn. rewrite app_nil_r. auto.
Qed.

(** ** Reading the data *)
Lemma collect_data_spec size acc cur fs :
  match collect_data size acc cur fs with
  | REof => (N.of_nat (length (cur ++ carried fs)) < size)%N /\ broken fs = false
  | RIo => (N.of_nat (length (cur ++ carried fs)) < size)%N /\ broken fs = true
  | RFormat => False
  | ROk ps rest fs' =>
      exists more, ps = acc ++ more /\ N.of_nat (length (concat more)) = size /\
        cur ++ carried fs = concat more ++ rest ++ carried fs' /\
        broken fs' = broken fs /\ (size_left rest fs' <= size_left cur fs)%nat
  end.
Proof.
  revert size acc cur. induction fs as [|f fs IH]; intros size acc cur; cbn [collect_data].
  all: destruct (size =? 0)%N eqn:E0;
    [apply N.eqb_eq in E0 as ->; exists []; cbn; rewrite app_nil_r; done|].
  all: apply N.eqb_neq in E0.
  all: destruct (size <=? N.of_nat (length cur))%N eqn:E1.
  1,3: apply N.leb_le in E1; exists [take (N.to_nat size) cur]; cbn [concat]; rewrite (app_nil_r (take _ _));
    split_and!; auto; [rewrite take_length; lia
      |by rewrite app_assoc, take_drop
      |unfold size_left; rewrite drop_length; lia].
  all: apply N.leb_gt in E1.
  - cbn. rewrite app_nil_r. auto.
  - destruct f as [b|].
    + specialize (IH (size - N.of_nat (length cur))%N (acc ++ [cur]) b).
      cbn [carried]. rewrite broken_cons_data.
      destruct (collect_data _ _ b fs) as [| | |ps rest fs'].
      * destruct IH; split; [|done]. rewrite !app_length in *. lia.
      * destruct IH; split; [|done]. rewrite !app_length in *. lia.
      * done.
      * destruct IH as (more & -> & Hlen & Heq & Hb & Hle).
        exists (cur :: more). cbn [concat]. rewrite <- !app_assoc. split_and!; auto.
        -- rewrite app_length. lia.
        -- by rewrite Heq.
        -- unfold size_left in *. rewrite frames_len_data. lia.
    + cbn. rewrite app_nil_r. auto.
Qed.

Lemma expect_byte_spec c cur fs :
  match expect_byte c cur fs with
  | REof => cur ++ carried fs = [] /\ broken fs = false
  | RIo => cur ++ carried fs = [] /\ broken fs = true
  | RFormat => exists x r, cur ++ carried fs = x :: r /\ x <> c
  | ROk _ rest fs' =>
      cur ++ carried fs = c :: rest ++ carried fs' /\
      broken fs' = broken fs /\ (size_left rest fs' <= size_left cur fs)%nat
  end.
Proof.
  revert cur. induction fs as [|f fs IH]; intros [|x cur]; cbn [expect_byte].
  - done.
  - destruct (aeq x c) eqn:E; [apply aeq_true in E as ->|apply aeq_false in E].
    + split_and!; auto; unfold size_left; simpl; lia.
    + by eexists x, _.
  - destruct f as [b|].
    + specialize (IH b). cbn [carried app]. rewrite broken_cons_data.
      destruct (expect_byte c b fs) as [| | |[] rest fs']; auto.
    + done.
  - destruct (aeq x c) eqn:E; [apply aeq_true in E as ->|apply aeq_false in E].
    + split_and!; auto; unfold size_left; simpl; lia.
    + by eexists x, _.
Qed.

Lemma expect_crlf_spec cur fs :
  match expect_crlf cur fs with
  | REof => (cur ++ carried fs = [] \/ cur ++ carried fs = [CR]) /\ broken fs = false
  | RIo => (cur ++ carried fs = [] \/ cur ++ carried fs = [CR]) /\ broken fs = true
  | RFormat => (forall r, cur ++ carried fs <> CRLF ++ r) /\
      cur ++ carried fs <> [] /\ cur ++ carried fs <> [CR]
  | ROk _ rest fs' =>
      cur ++ carried fs = CRLF ++ rest ++ carried fs' /\
      broken fs' = broken fs /\ (size_left rest fs' <= size_left cur fs)%nat
  end.
Proof.
  unfold expect_crlf. destruct (starts_with CRLF cur) eqn:E.
  - apply starts_with_spec in E as [r ->]. split_and!; auto.
    unfold size_left. rewrite drop_length. lia.
  - pose proof (expect_byte_spec CR cur fs) as H1.
    destruct (expect_byte CR cur fs) as [| | |[] cur' fs'].
    + naive_solver.
    + naive_solver.
    + destruct H1 as (x & r & -> & ?). split_and!; intros; unfold CRLF; cbn; congruence.
    + destruct H1 as (H1 & Hb1 & Hs1). rewrite H1.
      pose proof (expect_byte_spec LF cur' fs') as H2.
      destruct (expect_byte LF cur' fs') as [| | |[] cur'' fs''].
      * destruct H2 as [-> ?]. rewrite <- Hb1. auto.
      * destruct H2 as [-> ?]. rewrite <- Hb1. auto.
      * destruct H2 as (x & r & -> & ?). split_and!; intros; unfold CRLF; cbn; congruence.
      * destruct H2 as (H2 & Hb2 & Hs2). rewrite H2. split_and!; auto; [congruence|lia].
Qed.

(** ** Hexadecimal sizes *)
Lemma hexdigit_spec a :
  (match hex_val a with Some _ => true | None => false end) = bool_decide (a ∈ hexdigits).
Proof.
  pose proof (ascii_forall (fun a => eqb (match hex_val a with Some _ => true | None => false end)
    (bool_decide (a ∈ hexdigits)))) as H.
  apply eqb_prop. apply H. vm_compute. reflexivity.
Qed.

Lemma hexvalue_spec a : a ∈ hexdigits -> hex_val a = Some (hexvalue a).
Proof.
  pose proof (ascii_forall (fun a => implb (bool_decide (a ∈ hexdigits))
    (bool_decide (hex_val a = Some (hexvalue a))))) as H.
  specialize (H ltac:(vm_compute; reflexivity) a).
  intros Ha. cbv beta in H. rewrite bool_decide_eq_true_2 in H by exact Ha. cbn [implb] in H.
  by apply bool_decide_eq_true_1 in H.
Qed.

Definition hex_fold (l : bytes) : N :=
  fold_left (fun n a => n * 16 + default 0 (hex_val a))%N l 0%N.

Lemma hex_fold_snoc l a : hex_fold (l ++ [a]) = (hex_fold l * 16 + default 0 (hex_val a))%N.
Proof. unfold hex_fold. by rewrite fold_left_app. Qed.

Lemma hex_denotes_fold h n :
  hex_denotes h n <-> (forall a, a ∈ h -> a ∈ hexdigits) /\ n = hex_fold h.
Proof.
  split.
  - induction 1 as [|s n a H [IH1 ->] Ha].
    + split; [|done]. intros a Ha. by apply elem_of_nil in Ha.
    + split; [|by rewrite hex_fold_snoc, (hexvalue_spec a Ha)].
      intros x [?|Hx]%elem_of_app; [by apply IH1|]. apply elem_of_list_singleton in Hx as ->. done.
  - intros [Hall ->]. induction h as [|a h IH] using rev_ind.
    + constructor.
    + rewrite hex_fold_snoc. assert (a ∈ hexdigits) as Ha.
      { apply Hall, elem_of_app. right. by apply elem_of_list_singleton. }
      rewrite (hexvalue_spec a Ha). cbn [default]. constructor; auto. apply IH.
      intros x Hx. apply Hall, elem_of_app. by left.
Qed.

Lemma hex_u32_spec s n : hex_u32 s = Some n <-> size_field s n.
Proof.
  unfold hex_u32, size_field.
  set (f := fun a => match hex_val a with Some _ => true | None => false end).
  destruct (span f s) as [h r] eqn:E.
  pose proof E as E'. apply span_spec in E' as (-> & Hh & Hr).
  assert (Hhex : forall a, a ∈ h -> a ∈ hexdigits).
  { intros a Ha. rewrite forallb_Forall, Forall_forall in Hh. specialize (Hh a Ha).
    unfold f in Hh. rewrite hexdigit_spec in Hh. by apply bool_decide_eq_true_1 in Hh. }
  assert (Hr' : forall a r', r = a :: r' -> a ∉ hexdigits).
  { intros a r' ->. unfold f in Hr.
    rewrite hexdigit_spec in Hr. by apply bool_decide_eq_false_1 in Hr. }
  split.
  - destruct h as [|a0 h0] eqn:Eh; [done|]. rewrite <- Eh in *. intros [= <-].
    exists (take 8 h), (drop 8 h ++ r). split_and!.
    + by rewrite app_assoc, take_drop.
    + by rewrite Eh.
    + apply hex_denotes_fold. split; [|done]. intros a Ha. apply Hhex.
      rewrite <- (take_drop 8 h). apply elem_of_app. by left.
    + rewrite take_length. lia.
    + destruct (decide (8 <= length h)%nat); [left; rewrite take_length; lia|right].
      rewrite drop_ge by lia. done.
  - intros (h' & r' & Heq & Hne & Hden & Hlen & Hmax).
    apply hex_denotes_fold in Hden as [Hall ->].
    assert (Hpre : take 8 h = h').
    { destruct Hmax as [H8|Hmax].
      - assert (h' `prefix_of` h) as [k ->].
        { destruct (decide (length h' <= length h)%nat) as [Hle|Hle].
          - exists (drop (length h') h). rewrite <- (take_drop (length h') h) at 1. f_equal.
            assert (take (length h') (h ++ r) = take (length h') (h' ++ r')) as H by by rewrite Heq.
            by rewrite take_app, take_app_le in H by lia.
          - exfalso. assert (exists a r0, r = a :: r0 /\ a ∈ h') as (a & r0 & -> & Ha).
            { assert (h' !! length h = r !! 0) as H.
              { rewrite <- (lookup_app_l h' r') by lia. rewrite <- Heq.
                rewrite lookup_app_r by lia. by rewrite Nat.sub_diag. }
              destruct (lookup_lt_is_Some_2 h' (length h)) as [x Hx]; [lia|].
              rewrite Hx in H. destruct r as [|a r0]; [done|]. cbn in H. simplify_eq.
              exists a, r0. split; [done|]. by eapply elem_of_list_lookup_2. }
            by eapply Hr', Hall. }
        rewrite take_app_alt by lia. done.
      - assert (h = h' /\ r = r') as [-> ->].
        { revert h' Hall Hne Heq Hlen. clear -Hhex Hr' Hmax. induction h as [|a h IH].
          - intros [|b h'] Hall Hne Heq _; [done|]. cbn in Heq. exfalso.
            eapply (Hr' b); [done|]. apply Hall. left.
          - intros [|b h'] Hall Hne Heq Hlen; [done|]. cbn in Heq. simplify_eq.
            destruct h' as [|b' h'].
            + destruct h as [|c h]; cbn in *; [done|]. exfalso. subst.
              eapply (Hmax c); [done|]. apply Hhex. right. left.
            + destruct (IH ltac:(intros; apply Hhex; by right) (b' :: h')) as [-> ->]; try done.
              * intros; apply Hall; by right.
              * simpl in *. lia. }
        by rewrite take_ge by lia. }
    destruct h as [|a0 h0]; [subst h'; done|]. by rewrite Hpre.
Qed.

(** ** Header lines *)
Lemma parse_chunk_meta_spec l n sig : parse_chunk_meta l = Some (n, sig) <-> header_line l n sig.
Proof.
  unfold parse_chunk_meta, header_line, chunk_header.
  destruct (span (fun a => negb (aeq a ";")) l) as [size l1] eqn:E. split.
  - intros H. apply span_spec in E as (-> & Hs & _).
    destruct size as [|a0 size0] eqn:Es; [done|]. rewrite <- Es in *. clear Es.
    destruct (strip_prefix _ l1) as [l2|] eqn:E1; [|done].
    apply strip_prefix_Some in E1 as ->.
    destruct (take_n 64 l2) as [[sg l3]|] eqn:E2; [|done].
    apply take_n_Some in E2 as [-> Hlen].
    destruct (beq l3 CRLF) eqn:E3; [|done]. apply beq_true in E3 as ->.
    destruct (hex_u32 size) as [m|] eqn:E4; [|done]. simplify_eq.
    exists size. split_and!; auto.
    + rewrite forallb_Forall, Forall_forall in Hs. intros Hin. by apply Hs in Hin.
    + by apply hex_u32_spec.
  - intros (sz & -> & Hsemi & Hsz & Hlen).
    change (B ";chunk-signature=" ++ sig ++ CRLF)
      with (";"%char :: B "chunk-signature=" ++ sig ++ CRLF) in E.
    rewrite span_app in E; [|apply forallb_Forall, Forall_forall; intros a Ha;
      rewrite negb_true_iff; apply aeq_false; congruence|done].
    simplify_eq.
    destruct size as [|a0 size0] eqn:Es.
    { destruct Hsz as (h & r & Hh & Hne & _). symmetry in Hh. apply app_eq_nil in Hh as [-> ->]. done. }
    rewrite <- Es in *. clear Es.
    change (";"%char :: B "chunk-signature=" ++ sig ++ CRLF) with (B ";chunk-signature=" ++ sig ++ CRLF).
    rewrite strip_prefix_app, take_n_app, beq_refl by done.
    apply hex_u32_spec in Hsz. by rewrite Hsz.
Qed.

Lemma header_line_fun l n sig n' sig' :
  header_line l n sig -> header_line l n' sig' -> n = n' /\ sig = sig'.
Proof. rewrite <- !parse_chunk_meta_spec. intros H1 H2. rewrite H1 in H2. by simplify_eq. Qed.

Lemma header_line_lf line n sig :
  header_line line n sig -> exists body, line = body ++ [LF] /\ removelast line = body.
Proof.
  intros (size & -> & _). unfold chunk_header, CRLF.
  exists (size ++ B ";chunk-signature=" ++ sig ++ [CR]). split.
  - by rewrite <- !app_assoc.
  - change [CR; LF] with ([CR] ++ [LF]). rewrite !app_assoc. rewrite removelast_last. done.
Qed.

(** ** Signatures *)
Local Opaque sha256 hmac_sha256 signing_key to_iso8601 to_date to_hex.

Lemma check_chunk_signature_spec ctx expected data s :
  check_chunk_signature ctx expected data = Some s <->
  s = expected /\
  expected = chunk_sig (sc_date ctx) (sc_region ctx) (sc_secret ctx) (sc_prev ctx) (concat data).
Proof.
  unfold check_chunk_signature.
  assert (Hm : (match data with [] => empty_sha256_hash | _ => hex_sha256_chunk data end) =
      to_hex (sha256 (concat data))).
  { destruct data; [exact empty_hash|reflexivity]. }
  assert (calculate_signature (create_chunk_string_to_sign (sc_date ctx) (sc_region ctx)
     (sc_prev ctx) data) (sc_secret ctx) (sc_date ctx) (sc_region ctx) =
     chunk_sig (sc_date ctx) (sc_region ctx) (sc_secret ctx) (sc_prev ctx) (concat data)) as ->.
  { unfold calculate_signature, chunk_sig, create_chunk_string_to_sign, hex_hmac_sha256.
    rewrite Hm, empty_hash. unfold scope, hex_sha256. rewrite <- !app_assoc. reflexivity. }
  generalize (chunk_sig (sc_date ctx) (sc_region ctx) (sc_secret ctx) (sc_prev ctx) (concat data)).
  intros c. destruct (beq c expected) eqn:E; [apply beq_true in E|apply beq_false in E]; split.
  - intros [= <-]. auto.
  - intros [-> ->]. done.
  - done.
  - intros [-> ->]. done.
Qed.
