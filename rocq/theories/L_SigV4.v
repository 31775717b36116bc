(** Lemmas about percent-encoding and canonical requests. *)
From Verif Require Import M_Base M_Path M_Headers M_Crypto M_Ordered M_SigV4
  L_Base L_Ordered S_Path L_Path S_SigV4.
From Coq Require Import Lia.

Global Arguments sha256 : simpl never.
Global Arguments md5 : simpl never.
Global Arguments hmac_sha256 : simpl never.

(** Percent-encoding *)
Lemma unreserved_spec a : unreserved a = true <-> a ∈ rfc_unreserved.
Proof.
  assert (Bool.eqb (unreserved a) (bool_decide (a ∈ rfc_unreserved)) = true) as H.
  { revert a. apply ascii_forall. vm_compute. reflexivity. }
  apply eqb_prop in H. rewrite H. apply bool_decide_eq_true.
Qed.

Lemma hex_lookup_hi a : HEX !! (N.to_nat (N_of_ascii a) / 16) = Some (hex_digit_upper (code a / 16)).
Proof.
  apply (bool_decide_eq_true_1 _). revert a. apply ascii_forall. vm_compute. reflexivity.
Qed.
Lemma hex_lookup_lo a : HEX !! (N.to_nat (N_of_ascii a) mod 16) = Some (hex_digit_upper (code a mod 16)).
Proof.
  apply (bool_decide_eq_true_1 _). revert a. apply ascii_forall. vm_compute. reflexivity.
Qed.

Lemma uri_encode_cons es a s : uri_encode es (a :: s) = uri_encode_byte es a ++ uri_encode es s.
Proof. done. Qed.
Lemma uri_encode_app es s t : uri_encode es (s ++ t) = uri_encode es s ++ uri_encode es t.
Proof. unfold uri_encode. apply flat_map_app. Qed.

Lemma uri_encode_spec es s t : uri_encode es s = t <-> pct_encoded (negb es) s t.
Proof.
  split.
  - intros <-. induction s as [|a s IH]; [constructor|].
    rewrite uri_encode_cons. unfold uri_encode_byte.
    destruct (unreserved a) eqn:E1.
    { simpl. constructor; [|done]. left. by apply unreserved_spec. }
    apply not_true_iff_false in E1. rewrite unreserved_spec in E1.
    destruct (aeq a "/") eqn:E2.
    + apply aeq_true in E2 as ->. destruct es.
      * change (B "%2F" ++ uri_encode true s) with ("%"%char :: "2"%char :: "F"%char :: uri_encode true s).
        by constructor.
      * simpl. constructor; [|done]. right. done.
    + apply aeq_false in E2. simpl. constructor; [done|done| | |done].
      * apply hex_lookup_hi.
      * apply hex_lookup_lo.
  - intros H. induction H as [|a s t Ha _ IH|a h l s t Hn Hs Hh Hl _ IH]; [done| |].
    + rewrite uri_encode_cons. unfold uri_encode_byte. rewrite IH.
      destruct (unreserved a) eqn:E1; [done|].
      apply not_true_iff_false in E1. rewrite unreserved_spec in E1.
      destruct Ha as [Ha|[Hes ->]]; [done|]. destruct es; done.
    + rewrite uri_encode_cons. unfold uri_encode_byte. rewrite IH.
      rewrite hex_lookup_hi in Hh. rewrite hex_lookup_lo in Hl. simplify_eq.
      rewrite <- unreserved_spec, not_true_iff_false in Hn. rewrite Hn.
      destruct (aeq a "/") eqn:E; [|done]. apply aeq_true in E as ->.
      destruct es; [|by destruct Hs]. done.
Qed.

Lemma pct_encoded_decoded slash s t : pct_encoded slash s t -> pct_decoded t s.
Proof.
  induction 1 as [|a s t Ha _ IH|a h l s t Hn Hs Hh Hl _ IH]; [constructor| |by constructor].
  constructor; [|done]. intros ->. destruct Ha as [Ha|[_ Ha]]; [|done].
  revert Ha. rewrite <- unreserved_spec. done.
Qed.

Lemma hex_nibbles_inj a b :
  hex_digit_upper (code a / 16) = hex_digit_upper (code b / 16) ->
  hex_digit_upper (code a mod 16) = hex_digit_upper (code b mod 16) -> a = b.
Proof.
  assert (forall n, (n < 16)%N -> hex_val (hex_digit_upper n) = Some n) as Hv.
  { intros n Hn. assert (forallb (fun n => bool_decide (hex_val (hex_digit_upper n) = Some n)) (map N.of_nat (seq 0 16)) = true) as Ha by reflexivity.
    rewrite forallb_Forall, Forall_forall in Ha. apply (bool_decide_eq_true_1 _). apply Ha.
    apply elem_of_list_fmap. exists (N.to_nat n). split; [lia|]. apply elem_of_seq. lia. }
  pose proof (code_bound a). pose proof (code_bound b).
  assert (forall x, (code x / 16 < 16)%N) as Hd.
  { intros x. pose proof (code_bound x). apply N.div_lt_upper_bound; lia. }
  intros H1 H2. apply (f_equal hex_val) in H1, H2. rewrite !Hv in H1 by done.
  rewrite !Hv in H2 by (by apply N.mod_lt).
  injection H1 as H1. injection H2 as H2. apply code_inj.
  rewrite (N.div_mod (code a) 16), (N.div_mod (code b) 16) by done. by rewrite H1, H2.
Qed.

Lemma pct_decoded_fun t s s' : pct_decoded t s -> pct_decoded t s' -> s = s'.
Proof.
  intros H. revert s'. induction H as [|a t s Ha _ IH|a h l t s Hh Hl _ IH]; intros s' H'.
  - by inversion H'.
  - inversion H'; subst; [f_equal; auto|done].
  - inversion H' as [|?????|a' ? ? ? ? Hh' Hl' Ht']; subst; [done|].
    rewrite hex_lookup_hi in Hh, Hh'. rewrite hex_lookup_lo in Hl, Hl'. simplify_eq.
    f_equal; [|auto]. by apply hex_nibbles_inj.
Qed.

Lemma uri_encode_inj es s s' : uri_encode es s = uri_encode es s' -> s = s'.
Proof.
  intros H. assert (pct_decoded (uri_encode es s) s) as H1.
  { eapply pct_encoded_decoded. by apply uri_encode_spec. }
  assert (pct_decoded (uri_encode es s') s') as H2.
  { eapply pct_encoded_decoded. by apply uri_encode_spec. }
  rewrite H in H1. by eapply pct_decoded_fun.
Qed.

(** Characters of encodings *)
Definition enc_char (a : ascii) : bool := unreserved a || aeq a "%" || aeq a "/".
Lemma uri_encode_chars es s : forallb enc_char (uri_encode es s) = true.
Proof.
  induction s as [|a s IH]; [done|]. rewrite uri_encode_cons, forallb_app, IH, andb_true_r.
  destruct es; revert a; apply ascii_forall; vm_compute; reflexivity.
Qed.
Lemma uri_encode_true_noslash s : "/"%char ∉ uri_encode true s.
Proof.
  induction s as [|a s IH]; [by apply not_elem_of_nil|]. rewrite uri_encode_cons, elem_of_app.
  intros [H|H]; [|done]. revert H. apply (bool_decide_eq_false_1 _). apply negb_true_iff.
  revert a. apply ascii_forall. vm_compute. reflexivity.
Qed.
Lemma enc_char_not c l : enc_char c = false -> forallb enc_char l = true -> c ∉ l.
Proof.
  intros Hc Hl Hin. rewrite forallb_Forall, Forall_forall in Hl. apply Hl in Hin. congruence.
Qed.

(** Trimming *)
Lemma white_spec a : is_trim_ws a = true <-> white a.
Proof.
  assert (Bool.eqb (is_trim_ws a) (bool_decide (a ∈ [" "; "009"; "010"; "011"; "012"; "013"]%char)) = true) as H.
  { revert a. apply ascii_forall. vm_compute. reflexivity. }
  apply eqb_prop in H. rewrite H. apply bool_decide_eq_true.
Qed.

Lemma trim_start_spec l :
  exists w, l = w ++ trim_start l /\ (forall a, a ∈ w -> white a) /\
            (forall a, head (trim_start l) = Some a -> ~ white a).
Proof.
  induction l as [|a l IH]; simpl.
  - exists []. split; [done|]. split; [|done]. intros a Ha. by apply elem_of_nil in Ha.
  - destruct (is_trim_ws a) eqn:E.
    + destruct IH as (w & Hl & Hw & Hh). exists (a :: w). split; [simpl; congruence|].
      split; [|done]. intros x [->|Hx]%elem_of_cons; [by apply white_spec|by apply Hw].
    + exists []. split; [done|]. split; [intros x Hx; by apply elem_of_nil in Hx|].
      simpl. intros x [= <-]. rewrite <- white_spec. congruence.
Qed.

Lemma last_rev {A} (l : list A) : last (rev l) = head l.
Proof. destruct l as [|a l]; [done|]. simpl. apply last_snoc. Qed.

Lemma head_app_nonempty {A} (l k : list A) : l <> [] -> head (l ++ k) = head l.
Proof. by destruct l. Qed.

Lemma trim_trimmed v : trimmed v (trim v).
Proof.
  unfold trim. destruct (trim_start_spec v) as (w1 & Hv & Hw1 & Hh1).
  set (u := trim_start v) in *.
  destruct (trim_start_spec (rev u)) as (w2 & Hu & Hw2 & Hh2).
  set (t := trim_start (rev u)) in *.
  assert (u = rev t ++ rev w2) as Hu'.
  { rewrite <- rev_app_distr, <- Hu. by rewrite rev_involutive. }
  exists w1, (rev w2). split; [by rewrite <- Hu'|]. split; [done|]. split; [|split].
  - intros a Ha. apply Hw2. by rewrite elem_of_list_In, <- in_rev, <- elem_of_list_In in Ha.
  - intros a Ha. apply Hh1. rewrite Hu', head_app_nonempty; [done|]. by intros E; rewrite E in Ha.
  - intros a Ha. apply Hh2. by rewrite last_rev in Ha.
Qed.

(** Query *)
Lemma join_intercalate c ls : join [c] ls = intercalate c ls.
Proof. induction ls as [|x [|y ls] IH]; simpl in *; [done..|]. by rewrite IH. Qed.

Lemma encode_pair_inj p q : encode_pair p = encode_pair q -> p = q.
Proof.
  destruct p as [a b], q as [c d]. unfold encode_pair. simpl. intros [= H1 H2].
  apply uri_encode_inj in H1, H2. by subst.
Qed.

Lemma encoded_no_sep c p : enc_char c = false -> c ∉ uri_encode true p.
Proof. intros H. apply enc_char_not; [done|]. apply uri_encode_chars. Qed.

Definition enc_pairs (qs : list (bytes * bytes)) := sort_by pair_cmp (map encode_pair qs).

Lemma enc_pairs_elem qs x : x ∈ enc_pairs qs -> exists p, x = encode_pair p.
Proof.
  unfold enc_pairs. rewrite (sort_by_perm pair_cmp). intros (p & -> & _)%elem_of_list_fmap. eauto.
Qed.

Lemma qs_pairs_inj l k :
  (forall x, x ∈ l -> exists p, x = encode_pair p) -> (forall x, x ∈ k -> exists p, x = encode_pair p) ->
  map qs_pair l = map qs_pair k -> l = k.
Proof.
  revert k; induction l as [|x l IH]; intros [|y k] Hl Hk; try done. simpl. intros [= H1 H2].
  destruct (Hl x) as [p ->]; [left|]. destruct (Hk y) as [q ->]; [left|].
  f_equal.
  - unfold qs_pair, encode_pair in *; simpl in *.
    apply app_sep_inj in H1 as [-> ->]; [done|by apply encoded_no_sep..].
  - apply IH; [| |done]; intros z Hz; [apply Hl|apply Hk]; by right.
Qed.

Lemma canonical_query_inj q1 q2 : canonical_query q1 = canonical_query q2 -> q1 ≡ₚ q2.
Proof.
  unfold canonical_query. fold (enc_pairs q1) (enc_pairs q2). intros H.
  change (B "&") with ["&"%char] in H. rewrite !join_intercalate in H.
  assert (forall q, Forall (fun x => "&"%char ∉ x) (map qs_pair (enc_pairs q))) as Hsep.
  { intros q. rewrite Forall_map, Forall_forall. intros x Hx. apply enc_pairs_elem in Hx as [[n v] ->].
    unfold qs_pair, encode_pair. simpl. rewrite elem_of_app, elem_of_cons.
    intros [Hx|[Hx|Hx]]; [|done|]; revert Hx; by apply encoded_no_sep. }
  assert (forall x k, intercalate "&" (map qs_pair (x :: k)) <> []) as Hne.
  { intros [n v] k. simpl. unfold qs_pair; simpl.
    destruct (map _ k); intros E; destruct n; done. }
  assert (map qs_pair (enc_pairs q1) = map qs_pair (enc_pairs q2)) as Heq.
  { destruct (enc_pairs q1) as [|x1 k1] eqn:E1, (enc_pairs q2) as [|x2 k2] eqn:E2; [done| | |].
    - symmetry in H. by apply Hne in H.
    - by apply Hne in H.
    - eapply intercalate_inj; [done|done| | |exact H]; rewrite <- ?E1, <- ?E2; apply Hsep. }
  apply qs_pairs_inj in Heq; [|apply enc_pairs_elem..].
  apply sort_by_perm_inv in Heq.
  apply Permutation_map_inv in Heq as (l3 & Hm & Hp).
  assert (q1 = l3) as ->; [|done].
  clear -Hm. revert l3 Hm. induction q1 as [|p q1 IH]; intros [|q l3] Hm; try done.
  cbn [map] in Hm. injection Hm as H1 H2 H3. f_equal; [|by apply IH].
  apply encode_pair_inj. unfold encode_pair. by rewrite H1, H2.
Qed.

Lemma canonical_query_chars q :
  forallb (fun a => enc_char a || aeq a "&" || aeq a "=") (canonical_query q) = true.
Proof.
  unfold canonical_query. fold (enc_pairs q). change (B "&") with ["&"%char]. rewrite join_intercalate.
  set (f := fun a => _). assert (forall s, forallb f (uri_encode true s) = true) as Hf.
  { intros s. pose proof (uri_encode_chars true s) as H. rewrite forallb_Forall in *.
    eapply Forall_impl; [exact H|]. intros a Ha. unfold f. simpl in Ha. by rewrite Ha. }
  assert (forall l, (forall x, x ∈ l -> exists p, x = encode_pair p) -> forallb f (intercalate "&" (map qs_pair l)) = true) as H.
  { induction l as [|x l IH]; intros Hl; [done|].
    destruct (Hl x) as [[n v] ->]; [left|].
    assert (forallb f (qs_pair (encode_pair (n, v))) = true) as H1.
    { unfold qs_pair, encode_pair. simpl. rewrite forallb_app. simpl. by rewrite !Hf. }
    destruct l as [|y l]; [done|].
    change (intercalate "&" (map qs_pair (encode_pair (n, v) :: y :: l)))
      with (qs_pair (encode_pair (n, v)) ++ "&"%char :: intercalate "&" (map qs_pair (y :: l))).
    rewrite forallb_app, H1. cbn [forallb]. rewrite IH; [done|]. intros z Hz. apply Hl. by right. }
  apply H, enc_pairs_elem.
Qed.

Lemma canonical_query_no_LF q : LF ∉ canonical_query q.
Proof.
  intros Hin. pose proof (canonical_query_chars q) as H. rewrite forallb_Forall, Forall_forall in H.
  apply H in Hin. by vm_compute in Hin.
Qed.
Lemma uri_encode_no_LF es s : LF ∉ uri_encode es s.
Proof. apply enc_char_not; [reflexivity|apply uri_encode_chars]. Qed.

Lemma canonical_query_perm q1 q2 : q1 ≡ₚ q2 -> canonical_query q1 = canonical_query q2.
Proof.
  intros H. unfold canonical_query. rewrite (sort_by_perm_eq pair_cmp (map encode_pair q1) (map encode_pair q2)); [done|].
  by apply Permutation_map.
Qed.

(** Trimmed values keep the absence of line breaks. *)
Lemma trim_no_LF v : LF ∉ v -> LF ∉ trim v.
Proof.
  intros H Hin. apply H. destruct (trim_trimmed v) as (w1 & w2 & -> & _).
  rewrite !elem_of_app. tauto.
Qed.

(** Header block *)
Definition header_lines (hs : list (bytes * bytes)) : bytes :=
  flat_map (fun h => h.1 ++ B ":" ++ trim h.2 ++ [LF]) hs.

Definition header_ok (h : bytes * bytes) : Prop := ":"%char ∉ h.1 /\ LF ∉ h.1 /\ LF ∉ h.2.

Lemma header_lines_inj h1 h2 r1 r2 :
  Forall header_ok h1 -> Forall header_ok h2 ->
  header_lines h1 ++ LF :: r1 = header_lines h2 ++ LF :: r2 ->
  map (fun h => (h.1, trim h.2)) h1 = map (fun h => (h.1, trim h.2)) h2 /\ r1 = r2.
Proof.
  assert (forall h hs r r', header_ok h -> header_lines (h :: hs) ++ LF :: r <> LF :: r') as Hne.
  { intros [n v] hs r r' (_ & Hn & _). simpl in Hn. unfold header_lines. simpl.
    destruct n as [|c n]; simpl; [done|]. intros [= -> _]. apply Hn. left. }
  revert h2; induction h1 as [|x1 h1 IH]; intros [|x2 h2] F1 F2 H.
  - simpl in H. naive_solver.
  - inversion F2; subst. symmetry in H. by apply Hne in H.
  - inversion F1; subst. by apply Hne in H.
  - inversion F1 as [|?? (C1 & N1 & V1) F1']; inversion F2 as [|?? (C2 & N2 & V2) F2']; subst.
    assert (forall x hs r, header_lines (x :: hs) ++ LF :: r =
      (x.1 ++ ":"%char :: trim x.2) ++ LF :: (header_lines hs ++ LF :: r)) as Hun.
    { intros x hs r. unfold header_lines. cbn [flat_map]. change (B ":") with [":"%char].
      rewrite <- !app_assoc. simpl. rewrite <- ?app_assoc. done. }
    rewrite !Hun in H.
    assert (forall x, LF ∉ x.1 -> LF ∉ x.2 -> LF ∉ x.1 ++ ":"%char :: trim x.2) as Hlf.
    { intros x Hn Hv. rewrite elem_of_app, elem_of_cons. intros [?|[?|Ht]]; try done.
      by apply trim_no_LF in Ht. }
    apply app_sep_inj in H as [Hl Hr]; [|by apply Hlf..].
    apply app_sep_inj in Hl as [Hn Hv]; [|done..].
    apply IH in Hr as [Hm Hr]; [|done..]. split; [|done]. simpl. by rewrite Hn, Hv, Hm.
Qed.

Lemma same_trim hs1 hs2 :
  map (fun h => (h.1, trim h.2)) hs1 = map (fun h => (h.1, trim h.2)) hs2 -> same_signed hs1 hs2.
Proof.
  revert hs2; induction hs1 as [|[n1 v1] hs1 IH]; intros [|[n2 v2] hs2] H; try done; [constructor|].
  simpl in H. injection H as -> Hv H. constructor; [|by apply IH]. simpl. split; [done|].
  exists (trim v1). split; [apply trim_trimmed|]. rewrite Hv. apply trim_trimmed.
Qed.

Lemma signed_names_eq hs1 hs2 : same_signed hs1 hs2 -> map fst hs1 = map fst hs2.
Proof. induction 1 as [|x y l k [H _] _ IH]; [done|]. simpl. by rewrite H, IH. Qed.

(** Payload descriptors *)
Lemma to_hex_chars l : forallb (fun c => is_digit c || in_range "a" "f" c) (to_hex l) = true.
Proof.
  induction l as [|a l IH]; [done|]. unfold to_hex. cbn [flat_map app forallb]. fold (to_hex l). rewrite IH, andb_true_r.
  revert a. apply ascii_forall. vm_compute. reflexivity.
Qed.

Lemma hex_lower_nibbles_inj a b :
  hex_digit_lower (code a / 16) = hex_digit_lower (code b / 16) ->
  hex_digit_lower (code a mod 16) = hex_digit_lower (code b mod 16) -> a = b.
Proof.
  assert (forall n, (n < 16)%N -> hex_val (hex_digit_lower n) = Some n) as Hv.
  { intros n Hn. assert (forallb (fun n => bool_decide (hex_val (hex_digit_lower n) = Some n)) (map N.of_nat (seq 0 16)) = true) as Ha by reflexivity.
    rewrite forallb_Forall, Forall_forall in Ha. apply (bool_decide_eq_true_1 _). apply Ha.
    apply elem_of_list_fmap. exists (N.to_nat n). split; [lia|]. apply elem_of_seq. lia. }
  pose proof (code_bound a). pose proof (code_bound b).
  assert (forall x, (code x / 16 < 16)%N) as Hd.
  { intros x. pose proof (code_bound x). apply N.div_lt_upper_bound; lia. }
  intros H1 H2. apply (f_equal hex_val) in H1, H2. rewrite !Hv in H1 by done.
  rewrite !Hv in H2 by (by apply N.mod_lt).
  injection H1 as H1. injection H2 as H2. apply code_inj.
  rewrite (N.div_mod (code a) 16), (N.div_mod (code b) 16) by done. by rewrite H1, H2.
Qed.

Lemma to_hex_inj x y : to_hex x = to_hex y -> x = y.
Proof.
  revert y; induction x as [|a x IH]; intros [|b y] H; try done.
  unfold to_hex in H. cbn [flat_map app] in H. injection H as H1 H2 H3.
  f_equal; [by apply hex_lower_nibbles_inj|by apply IH].
Qed.

Lemma to_hex_no_LF x : LF ∉ to_hex x.
Proof.
  intros Hin. pose proof (to_hex_chars x) as H. rewrite forallb_Forall, Forall_forall in H.
  apply H in Hin. by vm_compute in Hin.
Qed.

Lemma hashed_payload_head pl a :
  head (hashed_payload pl) = Some a ->
  match pl with
  | PlUnsigned => a = "U"%char
  | PlMultipleChunks => a = "S"%char
  | _ => is_digit a || in_range "a" "f" a = true
  end.
Proof.
  destruct pl as [| |data|]; simpl; try (by intros [= <-]).
  unfold hex_sha256. intros H. pose proof (to_hex_chars (sha256 data)) as Hc.
  destruct (to_hex (sha256 data)) as [|c l]; [done|]. simpl in H, Hc. injection H as ->.
  by apply andb_true_iff in Hc as [? _].
Qed.

Lemma empty_hash : empty_sha256_hash = hex_sha256 [].
Proof. vm_compute. reflexivity. Qed.
