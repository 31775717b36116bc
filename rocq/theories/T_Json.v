(** C101: a metadata file is read as the JSON text that it is. *)
From Coq Require Import ZifyBool.
From Verif Require Import M_Base M_Path M_Utf8 M_Json M_Fs M_Storage S_Path S_Headers S_Chunked S_Utf8 S_Storage S_Store S_Json
  L_Base L_Headers L_Chunked L_Utf8 L_Service L_Json L_Path L_Fs L_Storage L_Scope L_Names L_Ops L_Results L_Tidy T_Utf8 T_Store.
Local Open Scope N_scope.

Lemma utf8_encode_spec n : utf8_encode n = encode_scalar n.
Proof.
  unfold utf8_encode, encode_scalar. destruct (n <? 128); [done|]. destruct (n <? 2048); [done|].
  by destruct (n <? 65536).
Qed.

Lemma hex4_spec a b c d n : hex4 a b c d = Some n <-> quad [a; b; c; d] n.
Proof.
  unfold hex4. split.
  - destruct (hex_val a) as [x|] eqn:E1; [|done]. destruct (hex_val b) as [y|] eqn:E2; [|done].
    destruct (hex_val c) as [z|] eqn:E3; [|done]. destruct (hex_val d) as [w|] eqn:E4; [|done].
    apply hex_val_Some in E1 as [? <-], E2 as [? <-], E3 as [? <-], E4 as [? <-]. intros [= <-].
    replace (_ * 16 + _) with (hexvalue a * 4096 + hexvalue b * 256 + hexvalue c * 16 + hexvalue d) by lia.
    by constructor.
  - inversion 1 as [a' b' c' d' Ha Hb Hc Hd]; subst.
    rewrite (hexvalue_spec a), (hexvalue_spec b), (hexvalue_spec c), (hexvalue_spec d) by done. f_equal. lia.
Qed.

Lemma quad_list q n : quad q n -> exists a b c d, q = [a; b; c; d] /\ hex4 a b c d = Some n.
Proof. inversion 1; subst. eexists _, _, _, _. split; [done|]. by apply hex4_spec. Qed.

Definition put (bs : bytes) (r : option (bytes * bytes)) : option (bytes * bytes) :=
  match r with Some (x, rest) => Some (bs ++ x, rest) | None => None end.

Lemma json_chars_piece fuel t v l : piece t v ->
  json_chars (S fuel) (t ++ l) = put v (json_chars fuel l).
Proof.
  destruct 1 as [a Ha Hq Hb|c v Hc|q n Hq Hs|q1 q2 n Hn Hq1 Hq2].
  - cbn [app json_chars]. rewrite (proj2 (aeq_false a dquote)), (proj2 (aeq_false a bsl)) by done.
    replace (code a <? 32) with false by (symmetry; by apply N.ltb_ge). done.
  - unfold short_escapes in Hc. rewrite !elem_of_cons in Hc.
    destruct Hc as [[= -> ->]|[[= -> ->]|[[= -> ->]|[[= -> ->]|[[= -> ->]|[[= -> ->]|[[= -> ->]|[[= -> ->]|?%elem_of_nil]]]]]]]]; [..|done];
      reflexivity.
  - apply quad_list in Hq as (a & b & c & d & -> & Hq). cbn [app json_chars].
    change (aeq backslash dquote) with false. change (aeq backslash bsl) with true. cbv iota.
    change (aeq "u" dquote || aeq "u" bsl || aeq "u" "/") with false.
    change (aeq "u" "b") with false. change (aeq "u" "f") with false. change (aeq "u" "n") with false.
    change (aeq "u" "r") with false. change (aeq "u" "t") with false. change (aeq "u" "u") with true. cbv iota.
    rewrite Hq. rewrite <- utf8_encode_spec.
    destruct ((56320 <=? n) && (n <? 57344)) eqn:E1; [unfold scalar in Hs; lia|].
    destruct ((55296 <=? n) && (n <? 56320)) eqn:E2; [unfold scalar in Hs; lia|]. done.
  - apply quad_list in Hq1 as (a1 & b1 & c1 & d1 & -> & Hq1), Hq2 as (a2 & b2 & c2 & d2 & -> & Hq2).
    cbn [app json_chars].
    change (aeq backslash dquote) with false. change (aeq backslash bsl) with true. cbv iota.
    change (aeq "u" dquote || aeq "u" bsl || aeq "u" "/") with false.
    change (aeq "u" "b") with false. change (aeq "u" "f") with false. change (aeq "u" "n") with false.
    change (aeq "u" "r") with false. change (aeq "u" "t") with false. change (aeq "u" "u") with true. cbv iota.
    rewrite Hq1, Hq2.
    assert ((n - 65536) / 1024 < 1024) by (apply N.div_lt_upper_bound; lia).
    pose proof (N.mod_lt (n - 65536) 1024 ltac:(lia)). pose proof (N.div_mod (n - 65536) 1024 ltac:(lia)).
    remember ((n - 65536) / 1024) as hi. remember ((n - 65536) mod 1024) as lo.
    replace ((56320 <=? 55296 + hi) && (55296 + hi <? 57344)) with false by lia.
    replace ((55296 <=? 55296 + hi) && (55296 + hi <? 56320)) with true by lia. cbn [andb].
    replace ((56320 <=? 56320 + lo) && (56320 + lo <? 57344)) with true by lia.
    replace ((55296 + hi - 55296) * 1024 + (56320 + lo - 56320) + 65536) with n by lia.
    by rewrite utf8_encode_spec.
Qed.

Lemma json_chars_sound fuel : forall l v rest, json_chars fuel l = Some (v, rest) ->
  exists inner, l = inner ++ quote :: rest /\ pieces inner v.
Proof.
  induction fuel as [|fuel IH]; [done|]. intros l v rest.
  assert (forall t x l', piece t x -> l = t ++ l' -> put x (json_chars fuel l') = Some (v, rest) ->
    exists inner, l = inner ++ quote :: rest /\ pieces inner v) as Hput.
  { intros t x l' Hp -> H. unfold put in H. destruct (json_chars fuel l') as [[y r]|] eqn:E; [|done].
    injection H as <- <-. apply IH in E as (inner & -> & Hps). exists (t ++ inner).
    rewrite <- app_assoc. split; [done|]. by constructor. }
  cbn [json_chars]. destruct l as [|a l1]; [done|].
  destruct (aeq a dquote) eqn:Eq; [apply aeq_true in Eq as ->; intros [= <- <-]; exists []; split; [done|constructor]|].
  apply aeq_false in Eq.
  destruct (aeq a bsl) eqn:Eb.
  - apply aeq_true in Eb as ->. destruct l1 as [|b l2]; [done|].
    assert (forall x, (b, x) ∈ short_escapes -> put [x] (json_chars fuel l2) = Some (v, rest) ->
      exists inner, bsl :: b :: l2 = inner ++ quote :: rest /\ pieces inner v) as Hshort.
    { intros x Hx. apply (Hput [bsl; b]); [by apply piece_short|done]. }
    destruct (aeq b dquote || aeq b bsl || aeq b "/") eqn:E1.
    { apply Hshort. rewrite !orb_true_iff in E1. destruct E1 as [[E1|E1]|E1]; apply aeq_true in E1 as ->; compute_done. }
    destruct (aeq b "b") eqn:E2; [apply aeq_true in E2 as ->; apply Hshort; compute_done|].
    destruct (aeq b "f") eqn:E3; [apply aeq_true in E3 as ->; apply Hshort; compute_done|].
    destruct (aeq b "n") eqn:E4; [apply aeq_true in E4 as ->; apply Hshort; compute_done|].
    destruct (aeq b "r") eqn:E5; [apply aeq_true in E5 as ->; apply Hshort; compute_done|].
    destruct (aeq b "t") eqn:E6; [apply aeq_true in E6 as ->; apply Hshort; compute_done|].
    destruct (aeq b "u") eqn:E7; [|done]. apply aeq_true in E7 as ->.
    destruct l2 as [|c1 [|c2 [|c3 [|c4 l3]]]]; try done.
    destruct (hex4 c1 c2 c3 c4) as [n|] eqn:En; [|done]. apply hex4_spec in En.
    destruct ((56320 <=? n) && (n <? 57344)) eqn:E8; [done|].
    assert (n < 65536) as Hn.
    { revert En. clear. inversion 1; subst.
      assert (forall a, a ∈ hexdigits -> hexvalue a < 16) as Hlt.
      { intros x Hx. pose proof (ascii_forall (fun a => implb (bool_decide (a ∈ hexdigits)) (hexvalue a <? 16))) as H'.
        specialize (H' ltac:(vm_compute; reflexivity) x). cbv beta in H'. rewrite bool_decide_eq_true_2 in H' by done.
        by apply N.ltb_lt. }
      repeat match goal with H : _ ∈ hexdigits |- _ => apply Hlt in H end. lia. }
    destruct ((55296 <=? n) && (n <? 56320)) eqn:E9.
    + destruct l3 as [|e1 [|e2 [|d1 [|d2 [|d3 [|d4 l4]]]]]]; try done.
      destruct (aeq e1 bsl && aeq e2 "u") eqn:E10; [|done].
      apply andb_true_iff in E10 as [E10 E11]. apply aeq_true in E10 as ->, E11 as ->.
      destruct (hex4 d1 d2 d3 d4) as [m|] eqn:Em; [|done]. apply hex4_spec in Em.
      destruct ((56320 <=? m) && (m <? 57344)) eqn:E12; [|done].
      rewrite utf8_encode_spec. remember ((n - 55296) * 1024 + (m - 56320) + 65536) as x eqn:Hx.
      assert ((x - 65536) / 1024 = n - 55296 /\ (x - 65536) mod 1024 = m - 56320) as [Hd Hm].
      { split; symmetry; [eapply (N.div_unique _ _ _ (m - 56320))|eapply (N.mod_unique _ _ (n - 55296))]; lia. }
      apply (Hput ((bsl :: "u"%char :: [c1; c2; c3; c4]) ++ (bsl :: "u"%char :: [d1; d2; d3; d4]))); [|done].
      apply piece_pair; [lia| |].
      * rewrite Hd. by replace (55296 + (n - 55296)) with n by lia.
      * rewrite Hm. by replace (56320 + (m - 56320)) with m by lia.
    + rewrite utf8_encode_spec. apply (Hput (bsl :: "u"%char :: [c1; c2; c3; c4])); [|done].
      apply piece_code; [done|]. unfold scalar. lia.
  - apply aeq_false in Eb. destruct (code a <? 32) eqn:E1; [done|].
    apply (Hput [a]); [|done]. apply piece_plain; [by apply N.ltb_ge|done|done].
Qed.

Lemma json_chars_complete inner v : pieces inner v -> forall fuel rest, (length inner < fuel)%nat ->
  json_chars fuel (inner ++ quote :: rest) = Some (v, rest).
Proof.
  induction 1 as [|t v ts vs Hp Hps IH]; intros fuel rest Hf; (destruct fuel as [|fuel]; [lia|]); [done|].
  rewrite <- app_assoc, (json_chars_piece _ _ _ _ Hp), IH; [done|].
  rewrite app_length in Hf. assert (1 <= length t)%nat; [|lia].
  destruct Hp; cbn [length app]; lia.
Qed.

Lemma json_parse_string_spec l v rest :
  json_parse_string l = Some (v, rest) <-> exists t, l = t ++ rest /\ json_text t v.
Proof.
  split.
  - unfold json_parse_string. destruct l as [|a l1]; [done|]. destruct (aeq a dquote) eqn:E; [|done].
    apply aeq_true in E as ->. destruct (json_chars _ l1) as [[s r]|] eqn:Ec; [|done].
    destruct (utf8_valid s) eqn:Ev; [|done]. intros [= -> ->].
    apply json_chars_sound in Ec as (inner & -> & Hp). exists ([quote] ++ inner ++ [quote]).
    rewrite <- !app_assoc. split; [done|]. exists inner. split; [done|]. split; [done|]. by apply C76_valid_exactly.
  - intros (t & -> & inner & -> & Hp & Hu). rewrite <- !app_assoc. cbn [app json_parse_string].
    change (aeq quote dquote) with true. cbv iota.
    rewrite (json_chars_complete _ _ Hp).
    + apply C76_valid_exactly in Hu. by rewrite Hu.
    + cbn [length]. rewrite app_length. lia.
Qed.

(** *** White space *)

Lemma ws_blank a : json_ws a = true <-> a ∈ [" "; "009"; "010"; "013"]%char.
Proof.
  pose proof (ascii_forall (fun a => eqb (json_ws a) (bool_decide (a ∈ [" "; "009"; "010"; "013"]%char)))) as H.
  specialize (H ltac:(vm_compute; reflexivity) a). cbv beta in H. apply eqb_prop in H. rewrite H.
  by rewrite bool_decide_eq_true.
Qed.

Lemma skip_ws_sound l : exists w, l = w ++ skip_ws l /\ blanks w.
Proof.
  unfold skip_ws. destruct (span json_ws l) as [w r] eqn:E. apply span_spec in E as (-> & Hw & _).
  exists w. split; [done|]. intros a Ha. apply ws_blank.
  rewrite forallb_forall in Hw. by apply Hw, elem_of_list_In.
Qed.

Lemma skip_ws_complete w l : blanks w -> match l with a :: _ => json_ws a = false | [] => True end -> skip_ws (w ++ l) = l.
Proof.
  intros Hw Hl. unfold skip_ws. assert (forallb json_ws w = true) as Hf.
  { apply forallb_forall. intros a Ha. by apply ws_blank, Hw, elem_of_list_In. }
  destruct l as [|a l]; [rewrite app_nil_r; by rewrite span_all|]. by rewrite span_app.
Qed.

Lemma text_head t v : json_text t v -> exists r, t = quote :: r.
Proof. intros (inner & -> & _). by eexists. Qed.
Lemma member_head t m : member t m -> exists r, t = quote :: r.
Proof. intros (tk & w1 & w2 & tv & -> & _ & _ & H & _). apply text_head in H as [r ->]. by eexists. Qed.

(** *** Members *)

Lemma json_parse_entry_spec l k v rest :
  json_parse_entry l = Some (k, v, rest) <-> exists t, l = t ++ rest /\ member t (k, v).
Proof.
  split.
  - unfold json_parse_entry. destruct (json_parse_string l) as [[k' l1]|] eqn:E1; [|done].
    apply json_parse_string_spec in E1 as (tk & -> & Hk).
    destruct (skip_ws_sound l1) as (w1 & Hl1 & Hw1). destruct (skip_ws l1) as [|c l2]; [done|].
    destruct (aeq c ":") eqn:Ec; [|done]. apply aeq_true in Ec as ->.
    destruct (skip_ws_sound l2) as (w2 & Hl2 & Hw2).
    destruct (json_parse_string (skip_ws l2)) as [[v' l3]|] eqn:E2; [|done].
    apply json_parse_string_spec in E2 as (tv & E2 & Hv). intros [= -> -> ->].
    exists (tk ++ w1 ++ B ":" ++ w2 ++ tv). split.
    + rewrite Hl1, Hl2, E2. by rewrite <- !app_assoc.
    + by exists tk, w1, w2, tv.
  - intros (t & -> & tk & w1 & w2 & tv & -> & Hw1 & Hw2 & Hk & Hv). cbn [fst snd] in *.
    unfold json_parse_entry. rewrite <- !app_assoc.
    rewrite (proj2 (json_parse_string_spec _ k (w1 ++ B ":" ++ w2 ++ tv ++ rest))) by (by exists tk).
    rewrite skip_ws_complete by done. cbn [app B]. 
    change (B ":" ++ w2 ++ tv ++ rest) with (":"%char :: (w2 ++ tv ++ rest)). change (aeq ":" ":") with true. cbv iota.
    rewrite skip_ws_complete; [|done|destruct (text_head _ _ Hv) as [r ->]; done].
    by rewrite (proj2 (json_parse_string_spec _ v rest)) by (by exists tv).
Qed.

(* What is left of a list of members after its first one. *)
Inductive more_members : bytes -> list (bytes * bytes) -> Prop :=
| mm_none : more_members [] []
| mm_more w1 w2 t m ts ms : blanks w1 -> blanks w2 -> member t m -> more_members ts ms ->
    more_members (w1 ++ B "," ++ w2 ++ t ++ ts) (m :: ms).

Lemma members_more_iff t ms : members t ms <-> exists t1 m t2 ms', t = t1 ++ t2 /\ ms = m :: ms' /\ member t1 m /\ more_members t2 ms'.
Proof.
  split.
  - induction 1 as [t m Hm|t m w1 w2 ts ms Hm Hw1 Hw2 Hms (t1 & m1 & t2 & ms' & -> & -> & H1 & H2)].
    + exists t, m, [], []. rewrite app_nil_r. split; [done|]. split; [done|]. split; [done|constructor].
    + exists t, m, (w1 ++ B "," ++ w2 ++ t1 ++ t2), (m1 :: ms'). split; [done|]. split; [done|]. split; [done|].
      by constructor.
  - intros (t1 & m & t2 & ms' & -> & -> & Hm & H). revert t1 m Hm.
    induction H as [|w1 w2 t m' ts ms Hw1 Hw2 Hm' H IH]; intros t1 m Hm; [rewrite app_nil_r; by constructor|].
    constructor; [done..|]. by apply IH.
Qed.

Lemma more_length t ms : more_members t ms -> (length ms <= length t)%nat.
Proof. induction 1; cbn [length]; [done|]. rewrite !app_length. cbn [length B]. change (length (B ",")) with 1%nat. lia. Qed.

Definition insert_all (ms m : metadata) : metadata := fold_left (fun m e => md_insert e.1 e.2 m) ms m.

Lemma json_parse_more_sound fuel : forall l acc m rest, json_parse_more fuel l acc = Some (m, rest) ->
  exists t ms w, l = t ++ w ++ B "}" ++ rest /\ blanks w /\ more_members t ms /\ m = insert_all ms acc.
Proof.
  induction fuel as [|fuel IH]; [done|]. intros l acc m rest. cbn [json_parse_more].
  destruct (skip_ws_sound l) as (w & Hl & Hw). destruct (skip_ws l) as [|c l1]; [done|].
  destruct (aeq c "}") eqn:E1.
  - apply aeq_true in E1 as ->. intros [= <- <-]. exists [], [], w. split; [done|]. split; [done|]. split; [constructor|done].
  - destruct (aeq c ",") eqn:E2; [|done]. apply aeq_true in E2 as ->.
    destruct (skip_ws_sound l1) as (w2 & Hl1 & Hw2).
    destruct (json_parse_entry (skip_ws l1)) as [[[k v] l2]|] eqn:E3; [|done].
    apply json_parse_entry_spec in E3 as (t & E3 & Hm). intros (ts & ms & w3 & -> & Hw3 & Hms & ->)%IH.
    exists (w ++ B "," ++ w2 ++ t ++ ts), ((k, v) :: ms), w3. split.
    + rewrite Hl, Hl1, E3. by rewrite <- !app_assoc.
    + split; [done|]. split; [by constructor|done].
Qed.

Lemma json_parse_more_complete t ms : more_members t ms -> forall fuel w acc rest, (length ms < fuel)%nat -> blanks w ->
  json_parse_more fuel (t ++ w ++ B "}" ++ rest) acc = Some (insert_all ms acc, rest).
Proof.
  induction 1 as [|w1 w2 t m ts ms Hw1 Hw2 Hm H IH]; intros fuel w acc rest Hf Hw; (destruct fuel as [|fuel]; [cbn in Hf; lia|]).
  - cbn [app json_parse_more]. by rewrite skip_ws_complete.
  - cbn [json_parse_more]. rewrite <- !app_assoc. rewrite skip_ws_complete by done.
    change (B "," ++ w2 ++ t ++ ts ++ w ++ B "}" ++ rest) with (","%char :: (w2 ++ t ++ ts ++ w ++ B "}" ++ rest)).
    change (aeq "," "}") with false. change (aeq "," ",") with true. cbv iota.
    rewrite skip_ws_complete; [|done|destruct (member_head _ _ Hm) as [r ->]; done]. destruct m as [k v].
    rewrite (proj2 (json_parse_entry_spec _ k v (ts ++ w ++ B "}" ++ rest))) by (by exists t).
    apply IH; [cbn in Hf; lia|done].
Qed.

(** *** The map *)

Lemma insert_elem k v m : NoDup m.*1 ->
  NoDup (md_insert k v m).*1 /\ forall k' v', (k', v') ∈ md_insert k v m <-> (k' = k /\ v' = v) \/ (k' <> k /\ (k', v') ∈ m).
Proof.
  induction m as [|[k1 v1] m IH]; intros Hd.
  - split; [cbn; apply NoDup_singleton|]. intros k' v'. cbn [md_insert]. rewrite elem_of_list_singleton.
    split; [intros [= -> ->]; by left|intros [[-> ->]|[_ ?%elem_of_nil]]; done].
  - apply NoDup_cons in Hd as [Hn Hd]. destruct (IH Hd) as [IH1 IH2]. cbn [md_insert]. destruct (beq k1 k) eqn:E.
    + apply beq_true in E as ->. split; [by apply NoDup_cons|]. intros k' v'. rewrite !elem_of_cons.
      split.
      * intros [[= -> ->]|H]; [by left|right]. split; [|by right]. intros ->. apply Hn. apply elem_of_list_fmap. by exists (k, v').
      * intros [[-> ->]|[Hk [[= -> ->]|H]]]; [by left|done|by right].
    + apply beq_false in E. split.
      * apply NoDup_cons. split; [|done]. intros H. apply elem_of_list_fmap in H as ([k2 v2] & Hk & H). cbn in Hk. subst k2.
        apply IH2 in H as [[-> _]|[_ H]]; [done|]. apply Hn. apply elem_of_list_fmap. by exists (k1, v2).
      * intros k' v'. rewrite !elem_of_cons, IH2. split.
        -- intros [[= -> ->]|[[-> ->]|[Hk H]]]; [right; by split; [|left]|by left|right; by split; [|right]].
        -- intros [[-> ->]|[Hk [[= -> ->]|H]]]; [right; by left|by left|right; right; done].
Qed.

Lemma stands_insert_all ms : stands_for ms (insert_all ms []).
Proof.
  unfold insert_all. induction ms as [|[k v] ms IH] using rev_ind.
  - split; [apply NoDup_nil_2|]. intros k v. split; [by intros ?%elem_of_nil|]. intros (xs & ys & H & _). by destruct xs.
  - rewrite fold_left_app. cbn [fold_left fst snd]. destruct IH as [IH1 IH2].
    destruct (insert_elem k v _ IH1) as [H1 H2]. split; [done|]. intros k' v'. rewrite H2, IH2. split.
    + intros [[-> ->]|[Hk (xs & ys & -> & Hys)]].
      * exists ms, []. split; [done|]. by intros ? ?%elem_of_nil.
      * exists xs, (ys ++ [(k, v)]). split; [by rewrite <- app_assoc|]. intros v2 [H|H]%elem_of_app; [by eapply Hys|].
        apply elem_of_list_singleton in H. congruence.
    + intros (xs & ys & E & Hys). destruct ys as [|y ys _] using rev_ind.
      * apply app_inj_tail in E as [_ [= -> ->]]. by left.
      * rewrite app_comm_cons, app_assoc in E. apply app_inj_tail in E as [-> <-]. right.
        split; [intros ->; apply (Hys v), elem_of_app; right; by apply elem_of_list_singleton|].
        exists xs, ys. split; [done|]. intros v2 H. eapply Hys, elem_of_app. by left.
Qed.

(** *** Objects *)

(** C101, part 1: only JSON objects of strings are read, and as what they stand for. *)
Theorem C101_read_is_json t m : json_decode t = Some m -> exists ms, json_object t ms /\ stands_for ms m.
Proof.
  unfold json_decode. destruct (skip_ws_sound t) as (w0 & Ht & Hw0).
  destruct (skip_ws t) as [|c l1] eqn:E0; [done|]. destruct (aeq c "{") eqn:Ec; [|done]. apply aeq_true in Ec as ->.
  destruct (skip_ws_sound l1) as (w1 & Hl1 & Hw1). destruct (skip_ws l1) as [|d l2] eqn:E1; [done|].
  destruct (aeq d "}") eqn:Ed.
  - apply aeq_true in Ed as ->. destruct (skip_ws_sound l2) as (w2 & Hl2 & Hw2). destruct (skip_ws l2); [|done].
    intros [= <-]. exists []. rewrite app_nil_r in Hl2. split; [|apply (stands_insert_all [])].
    rewrite Ht, Hl1, Hl2. change (json_object (w0 ++ B "{" ++ w1 ++ B "}" ++ w2) []). by constructor.
  - destruct (json_parse_entry (d :: l2)) as [[[k v] l3]|] eqn:E2; [|done].
    apply json_parse_entry_spec in E2 as (t1 & E2 & Hm).
    destruct (json_parse_more _ l3 _) as [[m' rest]|] eqn:E3; [|done].
    apply json_parse_more_sound in E3 as (t2 & ms & w2 & -> & Hw2 & Hms & ->).
    destruct (skip_ws_sound rest) as (w3 & Hr & Hw3). destruct (skip_ws rest); [|done]. intros [= <-].
    rewrite app_nil_r in Hr. subst w3. exists ((k, v) :: ms). split; [|apply (stands_insert_all ((k, v) :: ms))].
    rewrite Ht, Hl1, E2.
    replace (w0 ++ "{"%char :: w1 ++ t1 ++ t2 ++ w2 ++ B "}" ++ rest)
      with (w0 ++ B "{" ++ w1 ++ (t1 ++ t2) ++ w2 ++ B "}" ++ rest) by (by rewrite <- !app_assoc).
    constructor; try done. apply members_more_iff. by exists t1, (k, v), t2, ms.
Qed.
Print Assumptions C101_read_is_json.

(** C101, part 2: every JSON object of strings is read. *)
Theorem C101_json_is_read t ms : json_object t ms -> exists m, json_decode t = Some m /\ stands_for ms m.
Proof.
  intros H. exists (insert_all ms []). split; [|apply stands_insert_all].
  destruct H as [w0 w1 w2 Hw0 Hw1 Hw2|w0 w1 w2 w3 t ms Hw0 Hw1 Hw2 Hw3 Ht].
  - unfold json_decode. rewrite skip_ws_complete by done.
    change (B "{" ++ w1 ++ B "}" ++ w2) with ("{"%char :: (w1 ++ B "}" ++ w2)). change (aeq "{" "{") with true. cbv iota.
    rewrite skip_ws_complete by done. change (B "}" ++ w2) with ("}"%char :: w2). change (aeq "}" "}") with true. cbv iota.
    rewrite <- (app_nil_r w2). by rewrite skip_ws_complete.
  - apply members_more_iff in Ht as (t1 & [k v] & t2 & ms' & -> & -> & Hm & Hms).
    unfold json_decode.
    assert (length ms' < length (w0 ++ B "{" ++ w1 ++ (t1 ++ t2) ++ w2 ++ B "}" ++ w3))%nat as Hlen.
    { pose proof (more_length _ _ Hms). rewrite !app_length. change (length (B "{")) with 1%nat. lia. }
    remember (length (w0 ++ B "{" ++ w1 ++ (t1 ++ t2) ++ w2 ++ B "}" ++ w3)) as fuel. clear Heqfuel.
    rewrite skip_ws_complete by done.
    change (B "{" ++ w1 ++ (t1 ++ t2) ++ w2 ++ B "}" ++ w3) with ("{"%char :: (w1 ++ (t1 ++ t2) ++ w2 ++ B "}" ++ w3)).
    change (aeq "{" "{") with true. cbv iota. rewrite <- app_assoc.
    destruct (member_head _ _ Hm) as [r Hr].
    rewrite skip_ws_complete; [|done|by rewrite Hr]. rewrite Hr. cbn [app]. change (aeq quote "}") with false. cbv iota.
    change (quote :: r ++ t2 ++ w2 ++ B "}" ++ w3) with ((quote :: r) ++ t2 ++ w2 ++ B "}" ++ w3). rewrite <- Hr.
    rewrite (proj2 (json_parse_entry_spec _ k v (t2 ++ w2 ++ B "}" ++ w3))) by (by exists t1).
    rewrite (json_parse_more_complete _ _ Hms) by done. rewrite <- (app_nil_r w3). by rewrite skip_ws_complete.
Qed.
Print Assumptions C101_json_is_read.

(** C101, part 4: what the server writes is a JSON object that stands for the metadata. *)
Theorem C101_written_is_json m :
  Forall (fun e => utf8_text e.1 /\ utf8_text e.2) m -> NoDup m.*1 ->
  exists ms, json_object (json_encode m) ms /\ stands_for ms m.
Proof.
  intros Hm Hd. apply C101_read_is_json, json_round_trip; [|done].
  eapply Forall_impl; [exact Hm|]. intros e [H1 H2]. split; by apply C76_valid_exactly.
Qed.
Print Assumptions C101_written_is_json.

Section stored.
Local Opaque md5 etag_of json_decode json_encode metadata_name part_name.

(** C101, part 3: whoever wrote the metadata file of an object, HEAD requests and downloads answer with
    the map that its text stands for, and fail with InternalError if it is no JSON object of strings. *)
Theorem C101_answers e s b k p i t :
  legal_bucket b -> resolved b k p -> e_os_ok e p = true -> fs_nodes s !! p = Some (NFile i) ->
  (file_len s i <= i64_max)%N ->
  e_os_ok e [metadata_name b k] = true -> content s [metadata_name b k] = Some t ->
  (forall ms, json_object t ms ->
     exists m h tag, stands_for ms m /\ answer e (RHeadObject b k) s = Ok (AHead (file_len s i) (Some m)) /\
       answer e (RGetObject b k None) s = Ok (AGet h 0 (file_len s i) (file_len s i) (Some m) tag)) /\
  ((forall ms, ~ json_object t ms) ->
     answer e (RHeadObject b k) s = Err InternalError /\ answer e (RGetObject b k None) s = Err InternalError).
Proof.
  intros Hb Hp Ho Hn Hl Hom Ht.
  assert (get_object_path e b k = Some p) as Ep by (apply resolved_path; [by apply legal_bucket_segment|done]).
  assert (meta_of e s b k = match json_decode t with Some m => Some (Some m) | None => None end) as Hm.
  { unfold meta_of. rewrite Hom, Ht. rewrite bool_decide_eq_true_2; [done|].
    unfold content in Ht. destruct (fs_nodes s !! [metadata_name b k]); [by eexists|done]. }
  unfold answer. cbn [storage]. rewrite (run_get_file e b k None p i), (run_head_file e b k p i) by done.
  cbn [parse_range extent snd]. rewrite Hm. split.
  - intros ms (m & -> & Hs)%C101_json_is_read. apply N.leb_le in Hl. rewrite Hl. by eexists m, _, _.
  - intros Hno. destruct (json_decode t) as [m|] eqn:E; [|done].
    apply C101_read_is_json in E as (ms & H & _). by destruct (Hno ms).
Qed.
Print Assumptions C101_answers.
End stored.

(* A text that the server would not have written: blanks, escapes, a surrogate pair, a name twice. *)
Definition ex_json : bytes :=
  B " { ""a"" : ""\u0041\/\ud83d\ude00"" , ""b"":""""," ++ ["010"%char] ++ B """a"":""x"" }".
Example C101_ex : json_decode ex_json = Some [(B "a", B "x"); (B "b", [])] /\ exists ms, json_object ex_json ms.
Proof.
  assert (json_decode ex_json = Some [(B "a", B "x"); (B "b", [])]) as E by (vm_compute; reflexivity).
  split; [done|]. apply C101_read_is_json in E as (ms & H & _). by exists ms.
Qed.
Example C101_ex_text : json_decode (B "{""a"":""\ud83d\ude00""}") = Some [(B "a", encode_scalar 128512)].
Proof. vm_compute. reflexivity. Qed.
(* A number, a comma too many, a form feed and half a surrogate pair are refused. *)
Example C101_ex_not : Forall (fun t => forall ms, ~ json_object t ms)
  [B "{""a"":1}"; B "{""a"":""x"",}"; B "{" ++ ["012"%char] ++ B "}"; B "{""a"":""\ud83d""}"; []].
Proof.
  rewrite !Forall_cons. split_and!; [..|by apply Forall_nil_2]; intros ms (m & H & _)%C101_json_is_read; by vm_compute in H.
Qed.
