(** File names of metadata and parts: different objects and parts get different names. *)
From Verif Require Import M_Base M_Crypto M_Fs M_Storage S_Path S_Storage L_Base L_Fs L_Storage.

(** ** Base64url *)

Lemma digit_inj a b : (a < 64)%N -> (b < 64)%N -> b64url_digit a = b64url_digit b -> a = b.
Proof.
  intros Ha Hb Heq.
  assert (Hall : forallb (fun x => forallb (fun y =>
      negb (aeq (b64url_digit (N.of_nat x)) (b64url_digit (N.of_nat y))) || (x =? y)%nat) (seq 0 64)) (seq 0 64) = true)
    by by vm_compute.
  rewrite forallb_forall in Hall. specialize (Hall (N.to_nat a)).
  rewrite forallb_forall in Hall. 
  assert (Hin : forall n, (n < 64)%N -> In (N.to_nat n) (seq 0 64)) by (intros n Hn; apply in_seq; lia).
  specialize (Hall (Hin a Ha) (N.to_nat b) (Hin b Hb)).
  rewrite !N2Nat.id, Heq, aeq_refl in Hall. cbn in Hall. apply Nat.eqb_eq in Hall. lia.
Qed.

Definition url_char (a : ascii) : bool :=
  in_range "A" "Z" a || in_range "a" "z" a || in_range "0" "9" a || aeq a "-" || aeq a "_".

Lemma digit_char n : (n < 64)%N -> url_char (b64url_digit n) = true.
Proof.
  intros Hn.
  assert (Hall : forallb (fun x => url_char (b64url_digit (N.of_nat x))) (seq 0 64) = true) by by vm_compute.
  rewrite forallb_forall in Hall. rewrite <- (N2Nat.id n). apply Hall. apply in_seq. lia.
Qed.

Lemma list_ind3 {A} (P : list A -> Prop) :
  P [] -> (forall a, P [a]) -> (forall a b, P [a; b]) -> (forall a b c l, P l -> P (a :: b :: c :: l)) ->
  forall l, P l.
Proof.
  intros H0 H1 H2 H3. fix IH 1. intros [|a [|b [|c l]]]; [done|done|done|]. apply H3, IH.
Qed.

Local Ltac dlia := zify; Z.to_euclidean_division_equations; lia.

Lemma b64url_chars l : Forall (fun a => url_char a = true) (b64url l).
Proof.
  induction l as [|a|a b|a b c l IH] using list_ind3; cbn [b64url]; cbv zeta.
  - constructor.
  - pose proof (code_bound a). repeat (apply Forall_cons_2; [apply digit_char; dlia|]). constructor.
  - pose proof (code_bound a); pose proof (code_bound b).
    repeat (apply Forall_cons_2; [apply digit_char; dlia|]). constructor.
  - pose proof (code_bound a); pose proof (code_bound b); pose proof (code_bound c).
    repeat (apply Forall_cons_2; [apply digit_char; dlia|]). done.
Qed.

Lemma b64url_inj l l' : b64url l = b64url l' -> l = l'.
Proof.
  revert l'. induction l as [|a|a b|a b c l IH] using list_ind3; intros l' Heq;
    destruct l' as [|a' [|b' [|c' l']]]; cbn [b64url] in Heq; cbv zeta in Heq; try discriminate Heq; [done|..];
    pose proof (code_bound a); pose proof (code_bound a').
  - injection Heq as E1 E2. apply digit_inj in E1; [|dlia..]. apply digit_inj in E2; [|dlia..].
    f_equal. apply code_inj. dlia.
  - pose proof (code_bound b); pose proof (code_bound b').
    injection Heq as E1 E2 E3. apply digit_inj in E1; [|dlia..]. apply digit_inj in E2; [|dlia..].
    apply digit_inj in E3; [|dlia..].
    assert (code a = code a') by (dlia). assert (code b = code b') by (dlia).
    f_equal; [by apply code_inj|]. f_equal. by apply code_inj.
  - pose proof (code_bound b); pose proof (code_bound b'); pose proof (code_bound c); pose proof (code_bound c').
    injection Heq as E1 E2 E3 E4 E5. apply digit_inj in E1; [|dlia..]. apply digit_inj in E2; [|dlia..].
    apply digit_inj in E3; [|dlia..]. apply digit_inj in E4; [|dlia..].
    assert (code a = code a') by (dlia). assert (code b = code b') by (dlia).
    assert (code c = code c') by (dlia).
    f_equal; [by apply code_inj|]. f_equal; [by apply code_inj|]. f_equal; [by apply code_inj|]. by apply IH.
Qed.

Lemma b64url_no c l : url_char c = false -> c ∉ b64url l.
Proof.
  intros Hc Hin. pose proof (b64url_chars l) as H. rewrite Forall_forall in H.
  specialize (H c Hin). cbn in H. congruence.
Qed.

(** ** Metadata files *)

Lemma metadata_name_inj b k b' k' : metadata_name b k = metadata_name b' k' -> b = b' /\ k = k'.
Proof.
  unfold metadata_name. intros Heq. apply app_inv_head in Heq.
  change (B ".object-") with ("."%char :: B "object-") in Heq. cbn [app] in Heq.
  apply app_sep_inj in Heq as [H1 H2]; [|by apply b64url_no..].
  apply app_inv_head in H2. apply app_inv_tail in H2.
  split; by apply b64url_inj.
Qed.

Lemma metadata_name_segment b k : segment_ok (metadata_name b k).
Proof.
  unfold metadata_name. split_and!; try done.
  rewrite !elem_of_app. intros [H|[H|[H|[H|H]]]].
  - revert H. compute_done.
  - by eapply b64url_no in H.
  - revert H. compute_done.
  - by eapply b64url_no in H.
  - revert H. compute_done.
Qed.

Lemma absolutize_segment e c : segment_ok c -> absolutize e c = Some [c].
Proof. apply bucket_path. Qed.

Lemma metadata_path e b k : get_metadata_path e b k = Some [metadata_name b k].
Proof. apply absolutize_segment, metadata_name_segment. Qed.

(** ** Part files *)

Lemma pretty_N_go_chars (n : N) s c :
  (forall c, c ∈ B s -> in_range "0" "9" c = true) -> c ∈ B (pretty_N_go n s) -> in_range "0" "9" c = true.
Proof.
  revert s. induction (N.lt_wf_0 n) as [n _ IH]; intros s Hs.
  destruct (decide (n = 0)%N) as [->|Hn]; [rewrite pretty_N_go_0; by auto|].
  rewrite pretty_N_go_step by lia. apply IH; [apply N.div_lt; lia|].
  intros c'. unfold B. cbn [list_ascii_of_string]. intros [->|Hc]%elem_of_cons; [|by apply Hs].
  pose proof (N.mod_lt n 10 ltac:(done)). unfold pretty_N_char.
  destruct (n mod 10)%N as [|[[[[]|[]|]|[[]|[]|]|]|[[[]|[]|]|[[]|[]|]|]|]]; try done; lia.
Qed.

Lemma pretty_N_chars (n : N) c : c ∈ B (pretty n) -> in_range "0" "9" c = true.
Proof.
  unfold pretty, pretty_N. destruct (decide (n = 0)%N).
  - cbn. rewrite elem_of_list_singleton. by intros ->.
  - apply pretty_N_go_chars. cbn. intros c' H. by apply elem_of_nil in H.
Qed.

Lemma pretty_Z_no c (n : Z) : in_range "0" "9" c = false -> c <> "-"%char -> c ∉ B (pretty n).
Proof.
  intros Hc Hm Hin. destruct n as [|p|p]; cbn in Hin.
  - apply elem_of_list_singleton in Hin. by subst.
  - apply pretty_N_chars in Hin. congruence.
  - unfold B in Hin. cbn in Hin. apply elem_of_cons in Hin as [?|Hin]; [done|].
    apply pretty_N_chars in Hin. congruence.
Qed.

Lemma B_inj s s' : B s = B s' -> s = s'.
Proof.
  unfold B. intros H. rewrite <- (string_of_list_ascii_of_string s), <- (string_of_list_ascii_of_string s').
  by rewrite H.
Qed.

Lemma app_last_sep_inj (c : ascii) x y x' y' :
  c ∉ y -> c ∉ y' -> x ++ c :: y = x' ++ c :: y' -> x = x' /\ y = y'.
Proof.
  assert (Hrev : forall l : bytes, c ∉ l -> c ∉ rev l).
  { intros l Hl. by rewrite elem_of_list_In, <- in_rev, <- elem_of_list_In. }
  intros Hy Hy' Heq. apply (f_equal (@rev ascii)) in Heq. rewrite !rev_app_distr in Heq. cbn [rev] in Heq.
  rewrite <- !app_assoc in Heq. cbn [app] in Heq.
  apply app_sep_inj in Heq as [H1 H2]; [|by apply Hrev..].
  apply (f_equal (@rev ascii)) in H1, H2. by rewrite !rev_involutive in H1, H2.
Qed.

Lemma part_name_inj u n u' n' : part_name u n = part_name u' n' -> u = u' /\ n = n'.
Proof.
  unfold part_name. intros Heq. apply app_inv_head in Heq.
  change (B ".part-") with ("."%char :: B "part-") in Heq. cbn [app] in Heq.
  apply app_last_sep_inj in Heq as [H1 H2].
  - split; [done|]. apply app_inv_head in H2. apply B_inj in H2. by apply (inj pretty) in H2.
  - rewrite elem_of_app. intros [H|H]; [revert H; compute_done|]. by apply pretty_Z_no in H.
  - rewrite elem_of_app. intros [H|H]; [revert H; compute_done|]. by apply pretty_Z_no in H.
Qed.

Lemma part_name_segment u n : "/"%char ∉ u -> segment_ok (part_name u n).
Proof.
  intros Hu. unfold part_name. split_and!; try done.
  rewrite !elem_of_app. intros [H|[H|[H|H]]]; [revert H; compute_done|done|revert H; compute_done|].
  by apply pretty_Z_no in H.
Qed.

Lemma part_path_eq e u n : "/"%char ∉ u -> part_path e u n = Some [part_name u n].
Proof. intros Hu. apply absolutize_segment. by apply part_name_segment. Qed.

Lemma part_metadata_neq u n b k : part_name u n <> metadata_name b k.
Proof. unfold part_name, metadata_name. done. Qed.

(** Hidden names are not bucket names. *)
Lemma dot_not_bucket r : ~ legal_bucket (B "." ++ r).
Proof. intros (_ & _ & (a & [= <-] & [H|H]) & _); revert H; compute_done. Qed.
