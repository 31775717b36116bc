(** Lemmas connecting the specification of authentication with the model. *)
From Verif Require Import M_Base M_Crypto M_Utf8 M_Headers M_Http M_Auth M_Service
  S_Path S_Headers S_SigV4 S_Chunked S_Service
  L_Base L_Path L_Headers L_Auth L_Ordered L_SigV4 L_Chunked L_Utf8.

Local Notation join := M_SigV4.join.

(** ** Order *)

Lemma precedes_spec s t : precedes s t <-> bytes_cmp s t <> Gt.
Proof.
  revert t. induction s as [|a s IH]; intros t.
  - split; [|constructor]. destruct t; done.
  - destruct t as [|b t].
    + split; [inversion 1|]. cbn. done.
    + cbn [bytes_cmp]. destruct (N.compare_spec (code a) (code b)) as [H|H|H].
      * apply code_inj in H as ->. split.
        -- inversion 1 as [|? ? ? ? Hl|]; subst; [unfold code in *; lia|by apply IH].
        -- intros Hc. apply pr_same. by apply IH.
      * split; [done|]. intros _. by constructor.
      * split; [|done]. inversion 1; subst; [unfold code in *; lia|lia].
Qed.

Lemma pair_precedes_spec p q : pair_precedes p q <-> cmp_le pair_cmp p q.
Proof.
  unfold pair_precedes, cmp_le, pair_cmp. rewrite !precedes_spec.
  destruct (bytes_cmp p.1 q.1) eqn:E.
  - apply bytes_cmp_eq in E. split; [|by auto]. intros [[? ?]|[_ ?]]; done.
  - split; [done|]. intros _. left. split; [|done]. intros Hq.
    rewrite Hq, bytes_cmp_refl in E. done.
  - split; [|done]. intros [[_ ?]|[Hq _]]; [done|]. by rewrite Hq, bytes_cmp_refl in E.
Qed.

Lemma in_order_sorted {A} (R R' : A -> A -> Prop) l :
  (forall x y, R x y <-> R' x y) -> in_order R l <-> StronglySorted R' l.
Proof.
  intros HR. split.
  - induction l as [|x l IH]; intros H; constructor.
    + apply IH. intros i j y z Hij Hy Hz. apply (H (S i) (S j)); [lia|done|done].
    + apply Forall_lookup. intros j y Hy. apply HR. apply (H 0%nat (S j)); [lia|done|done].
  - intros H i j x y Hij Hx Hy. apply HR. by eapply StronglySorted_lookup.
Qed.

Lemma in_order_pairs l : in_order pair_precedes l <-> StronglySorted (cmp_le pair_cmp) l.
Proof. apply in_order_sorted, pair_precedes_spec. Qed.

Lemma in_order_names l : in_order precedes l <-> StronglySorted (cmp_le bytes_cmp) l.
Proof. apply in_order_sorted. intros x y. apply precedes_spec. Qed.

Lemma sorted_perm_eq l k :
  l ≡ₚ k -> in_order pair_precedes l -> l = sort_by pair_cmp k.
Proof.
  intros Hp Hs%in_order_pairs. rewrite <- (sort_by_id pair_cmp l) by done.
  by apply sort_by_perm_eq; [apply _|].
Qed.

Lemma sort_by_in_order k : in_order pair_precedes (sort_by pair_cmp k).
Proof. apply in_order_pairs, sort_by_sorted. apply _. Qed.

Lemma glued_join sep ls : glued sep ls = join sep ls.
Proof. induction ls as [|x [|y ls] IH]; [done|done|]. change (x ++ sep ++ glued sep (y :: ls) = x ++ sep ++ join sep (y :: ls)). by rewrite IH. Qed.

Lemma semicolons_join ls : semicolons ls = join (B ";") ls.
Proof. induction ls as [|x [|y ls] IH]; [done|done|]. change (x ++ B ";" ++ semicolons (y :: ls) = x ++ B ";" ++ join (B ";") (y :: ls)). by rewrite IH. Qed.

(** ** Hexadecimal text *)

Lemma hexl_lookup_hi a : hex !! (N.to_nat (N_of_ascii a) / 16) = Some (hex_digit_lower (code a / 16)).
Proof.
  pose proof (ascii_forall (fun a => bool_decide
    (hex !! (N.to_nat (N_of_ascii a) / 16) = Some (hex_digit_lower (code a / 16))))) as H.
  specialize (H ltac:(vm_compute; reflexivity) a). cbv beta in H. by apply bool_decide_eq_true_1 in H.
Qed.
Lemma hexl_lookup_lo a : hex !! (N.to_nat (N_of_ascii a) mod 16) = Some (hex_digit_lower (code a mod 16)).
Proof.
  pose proof (ascii_forall (fun a => bool_decide
    (hex !! (N.to_nat (N_of_ascii a) mod 16) = Some (hex_digit_lower (code a mod 16))))) as H.
  specialize (H ltac:(vm_compute; reflexivity) a). cbv beta in H. by apply bool_decide_eq_true_1 in H.
Qed.

Lemma hex_text_spec s t : hex_text s t <-> t = to_hex s.
Proof.
  split.
  - induction 1 as [|a h l s t Hh Hl _ IH]; [done|].
    rewrite hexl_lookup_hi in Hh. rewrite hexl_lookup_lo in Hl. simplify_eq. done.
  - intros ->. induction s as [|a s IH]; [constructor|].
    change (to_hex (a :: s)) with
      (hex_digit_lower (code a / 16) :: hex_digit_lower (code a mod 16) :: to_hex s).
    constructor; [apply hexl_lookup_hi|apply hexl_lookup_lo|done].
Qed.

(** ** Percent-decoding *)

Lemma hex_val_Some h x : hex_val h = Some x <-> h ∈ hexdigits /\ hexvalue h = x.
Proof.
  split.
  - intros H. assert (h ∈ hexdigits) as Hh.
    { apply (bool_decide_eq_true_1 (h ∈ hexdigits)). rewrite <- hexdigit_spec. by rewrite H. }
    split; [done|]. rewrite (hexvalue_spec h Hh) in H. by injection H.
  - intros [Hh <-]. by apply hexvalue_spec.
Qed.

Definition pp (form : bool) (a : ascii) : ascii := if form then plus_to_space a else a.
Definition dec (form : bool) (l : bytes) : bytes := pct_decode (map (pp form) l).

Lemma pp_hex form h : hex_val (pp form h) = hex_val h.
Proof.
  destruct form; [|done]. unfold pp, plus_to_space.
  destruct (aeq h "+") eqn:E; [|done]. apply aeq_true in E as ->. by vm_compute.
Qed.
Lemma pp_pct form a : aeq (pp form a) "%" = aeq a "%".
Proof.
  destruct form; [|done]. unfold pp, plus_to_space.
  destruct (aeq a "+") eqn:E; [|done]. apply aeq_true in E as ->. by vm_compute.
Qed.

Lemma dec_cons form a t :
  dec form (a :: t) =
  if aeq a "%" then
    match t with
    | h :: l :: t' =>
        match hex_val h, hex_val l with
        | Some x, Some y => ascii_of_N (x * 16 + y) :: dec form t'
        | _, _ => a :: dec form t
        end
    | _ => a :: dec form t
    end
  else pp form a :: dec form t.
Proof.
  unfold dec. cbn [map pct_decode]. rewrite pp_pct.
  destruct (aeq a "%") eqn:E; [|done]. apply aeq_true in E as ->.
  assert (pp form "%" = "%"%char) as -> by (destruct form; by vm_compute).
  destruct t as [|h [|l t]]; [done|done|]. cbn [map]. rewrite !pp_hex. done.
Qed.

Lemma hexvalue_bound h : h ∈ hexdigits -> (hexvalue h < 16)%N.
Proof.
  pose proof (ascii_forall (fun h => implb (bool_decide (h ∈ hexdigits)) (hexvalue h <? 16)%N)) as H.
  specialize (H ltac:(vm_compute; reflexivity) h). intros Hh. cbv beta in H.
  rewrite bool_decide_eq_true_2 in H by done. cbn [implb] in H. by apply N.ltb_lt.
Qed.

Lemma escape_spec a h l : escape a h l <->
  exists x y, hex_val h = Some x /\ hex_val l = Some y /\ a = ascii_of_N (x * 16 + y).
Proof.
  unfold escape. setoid_rewrite hex_val_Some. split.
  - intros (Hh & Hl & Ha). exists (hexvalue h), (hexvalue l). split; [done|]. split; [done|].
    rewrite <- Ha. by rewrite ascii_N_embedding.
  - intros (x & y & (Hh & <-) & (Hl & <-) & ->). split; [done|]. split; [done|].
    apply N_ascii_embedding. pose proof (hexvalue_bound h Hh). pose proof (hexvalue_bound l Hl). lia.
Qed.

Lemma unescaped_dec form x y : unescaped form x y -> y = dec form x.
Proof.
  induction 1 as [|t s Hf _ IH|a h l t s He _ IH|a t s Hp Hn _ IH].
  - done.
  - rewrite dec_cons. subst form. cbn. by rewrite IH.
  - rewrite dec_cons. apply escape_spec in He as (x & y & Hx & Hy & ->).
    replace (aeq "%" "%") with true by done. by rewrite Hx, Hy, IH.
  - rewrite dec_cons. destruct (aeq a "%") eqn:E.
    + apply aeq_true in E as ->. specialize (Hn eq_refl).
      destruct t as [|h [|l t]]; [by rewrite IH|by rewrite IH|].
      destruct (hex_val h) as [x|] eqn:Ex; [|by rewrite IH].
      destruct (hex_val l) as [z|] eqn:Ez; [|by rewrite IH].
      exfalso. apply (Hn h l t (ascii_of_N (x * 16 + z)) eq_refl). apply escape_spec. eauto.
    + rewrite IH. f_equal. destruct form; [|done]. unfold pp, plus_to_space.
      destruct (aeq a "+") eqn:E2; [|done]. apply aeq_true in E2. by destruct (Hp eq_refl).
Qed.

Lemma unescaped_total form x : unescaped form x (dec form x).
Proof.
  induction x as [x IH] using (induction_ltof1 _ (@length ascii)). unfold ltof in IH.
  destruct x as [|a t]; [constructor|]. cbn [length] in IH. rewrite dec_cons.
  destruct (aeq a "%") eqn:E.
  - apply aeq_true in E as ->.
    destruct t as [|h [|l t]].
    1,2: apply un_plain; [done|naive_solver|]; apply IH; cbn; lia.
    destruct (hex_val h) as [x|] eqn:Ex.
    + destruct (hex_val l) as [z|] eqn:Ez.
      * apply un_hex; [apply escape_spec; eauto|]. apply IH. cbn. lia.
      * apply un_plain; [done| |apply IH; cbn; lia].
        intros _ h' l' t' b [= <- <- <-] (? & ? & _ & ? & _)%escape_spec. congruence.
    + apply un_plain; [done| |apply IH; cbn; lia].
      intros _ h' l' t' b [= <- <- <-] (? & ? & ? & _)%escape_spec. congruence.
  - apply aeq_false in E. destruct form; cbn [pp].
    + unfold plus_to_space. destruct (aeq a "+") eqn:E2.
      * apply aeq_true in E2 as ->. apply un_plus; [done|]. apply IH. lia.
      * apply aeq_false in E2. apply un_plain; [done|done|]. apply IH. lia.
    + apply un_plain; [done|done|]. apply IH. lia.
Qed.

Lemma unescaped_spec form x y : unescaped form x y <-> y = dec form x.
Proof. split; [apply unescaped_dec|]. intros ->. apply unescaped_total. Qed.

Lemma unescaped_path x y : unescaped false x y <-> y = pct_decode x.
Proof.
  rewrite unescaped_spec. unfold dec. replace (map (pp false) x) with x; [done|].
  induction x as [|a x IH]; [done|]. cbn. by rewrite <- IH.
Qed.

Lemma form_text_spec x s : form_text x s <-> s = qs_decode x.
Proof.
  unfold form_text, qs_decode. split.
  - intros (y & Hy%unescaped_spec & ->). by rewrite Hy.
  - intros ->. eexists. split; [apply unescaped_total|done].
Qed.

Lemma form_pair_spec x p : form_pair x p <-> p = qs_piece x.
Proof.
  unfold form_pair, qs_piece. split.
  - intros (n & v & Hn & Hx & H1%form_text_spec & H2%form_text_spec).
    destruct Hx as [-> |[-> ->]].
    + change (n ++ B "=" ++ v) with (n ++ "="%char :: v). rewrite split_once_app by done.
      rewrite <- H1, <- H2. by destruct p.
    + apply split_once_None in Hn as ->. rewrite <- H1. rewrite surjective_pairing at 1.
      by rewrite H2.
  - intros ->. destruct (split_once "=" x) as [[n v]|] eqn:E.
    + apply split_once_Some in E as [-> Hn]. exists n, v. split; [done|].
      split; [by left|]. by rewrite !form_text_spec.
    + apply split_once_None in E. exists x, []. split; [done|]. split; [by right|].
      by rewrite !form_text_spec.
Qed.

Lemma glued_intercalate c ls : glued [c] ls = intercalate c ls.
Proof. by rewrite glued_join, join_intercalate. Qed.

Lemma list_filter_spec {A} (P : A -> Prop) `{forall x, Decision (P x)} (f : A -> bool) l :
  (forall x, f x = true <-> P x) -> List.filter f l = filter P l.
Proof.
  intros Hf. induction l as [|x l IH]; [done|]. rewrite filter_cons. cbn [List.filter].
  destruct (f x) eqn:E.
  - rewrite decide_True by (by apply Hf). by rewrite IH.
  - rewrite decide_False; [done|]. intros HP%Hf. congruence.
Qed.

Lemma nonempty_filter l :
  List.filter (fun x => negb (beq x [])) l = filter (fun x : bytes => x <> []) l.
Proof. apply list_filter_spec. intros x. by rewrite negb_true_iff, beq_false. Qed.

Lemma query_params_spec q ps :
  query_params q ps <-> ps = match q with Some q => qs_parse q | None => [] end.
Proof.
  destruct q as [q|]; [|done]. unfold query_params, qs_parse. rewrite nonempty_filter. split.
  - intros (pieces & -> & Hne & Hs & HF).
    rewrite (glued_intercalate "&"), split_all_intercalate; [|done|by apply Forall_forall].
    induction HF as [|x p xs ps' Hx _ IH]; [done|]. cbn [map]. rewrite <- IH.
    apply form_pair_spec in Hx. by rewrite Hx.
  - intros ->. exists (split_all "&" q). split; [by rewrite (glued_intercalate "&"), intercalate_split_all|].
    split; [apply split_all_nil_not|]. split; [apply Forall_forall, split_all_no_sep|].
    induction (filter (fun x : bytes => x <> []) (split_all "&" q)) as [|x xs IH]; [constructor|].
    constructor; [by apply form_pair_spec|done].
Qed.

(** ** Canonical requests *)

Lemma encoded_pairs_spec ps es :
  Forall2 (fun p e : bytes * bytes => pct_encoded false p.1 e.1 /\ pct_encoded false p.2 e.2) ps es <->
  es = map encode_pair ps.
Proof.
  split.
  - induction 1 as [|p e ps es [H1 H2] _ IH]; [done|]. cbn [map]. rewrite <- IH. f_equal.
    apply (uri_encode_spec true) in H1, H2. unfold encode_pair. rewrite H1, H2. by destruct e.
  - intros ->. induction ps as [|p ps IH]; [constructor|]. cbn [map]. constructor; [|done].
    split; by apply (uri_encode_spec true).
Qed.

Lemma canonical_query_spec ps t : canonical_query_text ps t <-> t = canonical_query ps.
Proof.
  unfold canonical_query_text, canonical_query. split.
  - intros (es & sorted & ->%encoded_pairs_spec & Hp & Ho & ->).
    rewrite (sorted_perm_eq _ _ Hp Ho). by rewrite glued_join.
  - intros ->. exists (map encode_pair ps), (sort_by pair_cmp (map encode_pair ps)).
    split; [by apply encoded_pairs_spec|]. split; [apply (sort_by_perm pair_cmp)|].
    split; [apply sort_by_in_order|]. symmetry. apply glued_join.
Qed.

Lemma trimmed_fun v t t' : trimmed v t -> trimmed v t' -> t = t'.
Proof.
  intros (w1 & w2 & -> & Hw1 & Hw2 & Hh & Hl) (v1 & v2 & E & Hv1 & Hv2 & Hh' & Hl').
  assert (forall (x1 x2 y1 y2 : bytes), (forall a, a ∈ x1 -> white a) -> (forall a, a ∈ y1 -> white a) ->
    (forall a, head x2 = Some a -> ~ white a) -> (forall a, head y2 = Some a -> ~ white a) ->
    x1 ++ x2 = y1 ++ y2 -> (x2 = [] \/ y2 = [] \/ x1 = y1 /\ x2 = y2)) as Hstart.
  { clear. intros x1. induction x1 as [|a x1 IH]; intros x2 y1 y2 H1 H2 H3 H4 E.
    - destruct y1 as [|b y1]; [by right; right|]. destruct x2 as [|c x2]; [by left|].
      cbn in E. injection E as -> E. exfalso. apply (H3 b eq_refl). apply H2. left.
    - destruct y1 as [|b y1].
      + destruct y2 as [|c y2]; [by right; left|]. cbn in E. injection E as -> E.
        exfalso. apply (H4 c eq_refl). apply H1. left.
      + cbn in E. injection E as -> E.
        destruct (IH x2 y1 y2) as [?|[?|[? ?]]]; auto.
        * intros c Hc. apply H1. by right.
        * intros c Hc. apply H2. by right.
        * right. right. split; congruence. }
  destruct (decide (t = [])) as [-> |Ht].
  { destruct t' as [|a t']; [done|]. exfalso. apply (Hh' a eq_refl).
    assert (a ∈ w1 ++ [] ++ w2) as Ha by (rewrite E; set_solver).
    apply elem_of_app in Ha as [Ha|Ha]; [by apply Hw1|]. cbn in Ha. by apply Hw2. }
  destruct (decide (t' = [])) as [-> |Ht'].
  { destruct t as [|a t]; [done|]. exfalso. apply (Hh a eq_refl).
    assert (a ∈ v1 ++ [] ++ v2) as Ha by (rewrite <- E; set_solver).
    apply elem_of_app in Ha as [Ha|Ha]; [by apply Hv1|]. cbn in Ha. by apply Hv2. }
  destruct (Hstart w1 (t ++ w2) v1 (t' ++ v2)) as [H|[H|[_ H]]]; auto.
  - intros a Ha. rewrite head_app_nonempty in Ha by done. auto.
  - intros a Ha. rewrite head_app_nonempty in Ha by done. auto.
  - by apply app_eq_nil in H as [-> _].
  - by apply app_eq_nil in H as [-> _].
  - apply (f_equal (@rev ascii)) in H. rewrite !rev_app_distr in H.
    destruct (Hstart (rev w2) (rev t) (rev v2) (rev t')) as [H'|[H'|[_ H']]]; auto.
    + intros a Ha. apply Hw2. by apply elem_of_list_In, in_rev, elem_of_list_In.
    + intros a Ha. apply Hv2. by apply elem_of_list_In, in_rev, elem_of_list_In.
    + intros a Ha. apply Hl. by rewrite <- (rev_involutive t), last_rev.
    + intros a Ha. apply Hl'. by rewrite <- (rev_involutive t'), last_rev.
    + apply (f_equal (@rev ascii)) in H'. rewrite rev_involutive in H'. done.
    + apply (f_equal (@rev ascii)) in H'. rewrite rev_involutive in H'. done.
    + apply (f_equal (@rev ascii)) in H'. by rewrite !rev_involutive in H'.
Qed.

Lemma header_text_spec h t : header_text h t <-> t = h.1 ++ B ":" ++ trim h.2 ++ [LF].
Proof.
  unfold header_text. split.
  - intros (v & Hv & ->). by rewrite (trimmed_fun _ _ _ Hv (trim_trimmed h.2)).
  - intros ->. exists (trim h.2). split; [apply trim_trimmed|done].
Qed.

Lemma header_texts_spec hs lines :
  Forall2 header_text hs lines <-> lines = map (fun h => h.1 ++ B ":" ++ trim h.2 ++ [LF]) hs.
Proof.
  split.
  - induction 1 as [|h l hs ls Hh _ IH]; [done|]. cbn [map]. rewrite <- IH.
    by apply header_text_spec in Hh as ->.
  - intros ->. induction hs as [|h hs IH]; [constructor|]. cbn [map].
    constructor; [by apply header_text_spec|done].
Qed.

(** The canonical request as one function of the sorted headers. *)
Definition creq_of (method path : bytes) (ps hs : list (bytes * bytes)) (payload : bytes) : bytes :=
  method ++ [LF] ++ uri_encode false path ++ [LF] ++ canonical_query ps ++ [LF]
  ++ header_lines hs ++ [LF] ++ join (B ";") (map fst hs) ++ [LF] ++ payload.

Lemma canonical_text_spec method path ps hs payload t :
  canonical_text method path ps hs payload t <->
  t = creq_of method path ps (sort_by pair_cmp hs) payload.
Proof.
  assert (forall l, concat (map (fun h : bytes * bytes => h.1 ++ B ":" ++ trim h.2 ++ [LF]) l) =
    header_lines l) as Hl by (intros l; unfold header_lines; by rewrite flat_map_concat_map).
  unfold canonical_text, creq_of. split.
  - intros (uri & query & sorted & lines & Hu & Hq & Hp & Ho & HF & ->).
    apply (uri_encode_spec false) in Hu as <-. apply canonical_query_spec in Hq as ->.
    apply header_texts_spec in HF as ->. rewrite (sorted_perm_eq _ _ Hp Ho).
    cbn [glued]. by rewrite semicolons_join, Hl.
  - intros ->. eexists _, _, (sort_by pair_cmp hs), _.
    split; [by apply (uri_encode_spec false)|]. split; [by apply canonical_query_spec|].
    split; [apply (sort_by_perm pair_cmp)|]. split; [apply sort_by_in_order|].
    split; [by apply header_texts_spec|]. cbn [glued]. by rewrite semicolons_join, Hl.
Qed.

Lemma create_canonical_request_eq method path ps hs p :
  create_canonical_request method path ps hs p =
  creq_of method path ps (kept_headers hs) (hashed_payload p).
Proof. done. Qed.

Lemma create_presigned_canonical_request_eq method path ps hs :
  create_presigned_canonical_request method path ps hs =
  creq_of method path (filter (fun p => p.1 <> B "X-Amz-Signature") ps) (kept_headers hs)
    (B "UNSIGNED-PAYLOAD").
Proof.
  unfold create_presigned_canonical_request. erewrite list_filter_spec; [done|].
  intros x. unfold is_skipped_query_string. by rewrite negb_true_iff, beq_false.
Qed.

(** ** Signatures *)

Lemma signs_spec secret ts d region creq sig :
  date_text ts d ->
  signs secret ts region creq sig <->
  sig = calculate_signature (create_string_to_sign creq d region) secret d region.
Proof.
  intros (Hiso & Hdate)%date_text_print.
  assert (forall sts, string_to_sign_text ts region creq sts <-> sts = create_string_to_sign creq d region) as Hs.
  { intros sts. unfold string_to_sign_text, create_string_to_sign, scope. rewrite Hiso, Hdate. split.
    - intros (h & ->%hex_text_spec & ->). unfold hex_sha256. cbn [glued].
      change (B "/s3/aws4_request") with (B "/" ++ B "s3" ++ B "/" ++ B "aws4_request").
      by rewrite <- !app_assoc.
    - intros ->. eexists. split; [by apply hex_text_spec|]. unfold hex_sha256. cbn [glued].
      change (B "/s3/aws4_request") with (B "/" ++ B "s3" ++ B "/" ++ B "aws4_request").
      by rewrite <- !app_assoc. }
  unfold signs. setoid_rewrite Hs.
  unfold aws_signature, aws_key, calculate_signature, signing_key, hex_hmac_sha256.
  cbn [foldl]. rewrite Hdate. split.
  - intros (sts & -> & Ht). by apply hex_text_spec in Ht.
  - intros ->. eexists. split; [done|]. by apply hex_text_spec.
Qed.

Lemma aws_signature_spec secret ts d region sts sig :
  date_text ts d ->
  aws_signature secret ts region sts sig <-> sig = calculate_signature sts secret d region.
Proof.
  intros (Hiso & Hdate)%date_text_print. unfold aws_signature. rewrite hex_text_spec.
  unfold aws_key, calculate_signature, signing_key, hex_hmac_sha256. cbn [foldl]. by rewrite Hdate.
Qed.
