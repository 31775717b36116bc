(** Reading XML documents: readings are unique, and written documents are read back. *)
From Verif Require Import M_Base M_Utf8 M_Storage M_Ops M_Xml S_Path S_Xml L_Base.

Lemma span_unique (P : ascii -> Prop) x : forall y a b, (forall c, c ∈ x -> P c) -> (forall c, c ∈ y -> P c) ->
  (forall c, head a = Some c -> ~ P c) -> (forall c, head b = Some c -> ~ P c) -> x ++ a = y ++ b -> x = y /\ a = b.
Proof.
  induction x as [|c x IH]; intros [|d y] a b Hx Hy Ha Hb Heq; cbn in Heq.
  - done.
  - subst a. destruct (Ha d eq_refl). apply Hy. by left.
  - subst b. destruct (Hb c eq_refl). apply Hx. by left.
  - injection Heq as <- Heq. destruct (IH y a b) as [<- <-]; try done.
    + intros; apply Hx. by right.
    + intros; apply Hy. by right.
Qed.

Definition name_char (a : ascii) : Prop := a ∈ letters ++ LETTERS ++ digits.
Definition space_char (a : ascii) : Prop := a ∈ [" "%char; byte 9; byte 10; byte 13].
Global Instance name_char_dec a : Decision (name_char a) := _.
Global Instance space_char_dec a : Decision (space_char a) := _.
Lemma space_not_name a : space_char a -> ~ name_char a.
Proof. revert a. apply Forall_forall. compute_done. Qed.

Lemma tag_unique n w c i n' w' c' i' : tag_name n -> tag_name n' -> space w -> space w' ->
  c = ">"%char \/ c = "/"%char -> c' = ">"%char \/ c' = "/"%char ->
  n ++ w ++ c :: i = n' ++ w' ++ c' :: i' -> n = n' /\ w = w' /\ c = c' /\ i = i'.
Proof.
  intros [_ Hn] [_ Hn'] Hw Hw' Hc Hc' Heq.
  assert (Hh : forall w c (i : bytes) x, space w -> c = ">"%char \/ c = "/"%char -> head (w ++ c :: i) = Some x -> ~ name_char x).
  { intros u a j x Hu Ha Hx. destruct u as [|d u]; cbn in Hx; injection Hx as ->.
    - destruct Ha as [-> | ->]; compute_done.
    - apply space_not_name, Hu. by left. }
  destruct (span_unique name_char n n' (w ++ c :: i) (w' ++ c' :: i')) as [-> Heq2]; try done.
  { intros x Hx. by apply (Hh w c i x). }
  { intros x Hx. by apply (Hh w' c' i' x). }
  destruct (span_unique space_char w w' (c :: i) (c' :: i')) as [-> [= -> ->]]; try done.
  - intros x [= <-]. destruct Hc as [-> | ->]; compute_done.
  - intros x [= <-]. destruct Hc' as [-> | ->]; compute_done.
Qed.

Lemma char_data_no_lt t u : char_data t u -> forall c, c ∈ t -> c <> "<"%char.
Proof.
  induction 1; intros x; try (rewrite elem_of_app; intros [Hx|Hx]; [|by apply IHchar_data]; revert x Hx; apply Forall_forall; compute_done).
  - by intros ?%elem_of_nil.
  - intros [->|Hx]%elem_of_cons; [done|by apply IHchar_data].
Qed.
Lemma char_data_unique t u : char_data t u -> forall u', char_data t u' -> u = u'.
Proof.
  induction 1; intros u' H'; inversion H'; subst; try done; f_equal; try (apply IHchar_data; done).
  all: try (match goal with H : _ ++ _ = _ ++ _ |- _ => cbn in H; injection H; intros; subst end; eauto; done).
Qed.

Lemma element_starts i x r : element i x r -> exists a j, i = "<"%char :: a :: j /\ name_char a.
Proof.
  inversion 1 as [n w ? [Hne Hn] |n w w' j xs ? [Hne Hn]]; subst; (destruct n as [|a n]; [done|]);
    exists a; eexists; (split; [reflexivity|]); apply Hn; by left.
Qed.

Scheme element_mut := Induction for element Sort Prop with nodes_mut := Induction for nodes Sort Prop.
Combined Scheme element_nodes_ind from element_mut, nodes_mut.

Lemma readings_unique :
  (forall i x r, element i x r -> forall x' r', element i x' r' -> x = x' /\ r = r') /\
  (forall i xs r, nodes i xs r -> forall xs' r', nodes i xs' r' -> xs = xs' /\ r = r').
Proof.
  apply element_nodes_ind.
  - intros n w r Hn Hw x' r' H'. inversion H' as [n2 w2 ? Hn2 Hw2 Heq|n2 w2 w2' j xs ? Hn2 Hw2 _ _ Heq]; subst.
    + destruct (tag_unique _ _ _ _ _ _ _ _ Hn2 Hn Hw2 Hw (or_intror eq_refl) (or_intror eq_refl) Heq)
        as (-> & _ & _ & [= ->]). done.
    + by destruct (tag_unique _ _ _ _ _ _ _ _ Hn2 Hn Hw2 Hw (or_introl eq_refl) (or_intror eq_refl) Heq)
        as (_ & _ & [=] & _).
  - intros n w w' i xs r Hn Hw Hw' Hc IH x' r' H'.
    inversion H' as [n2 w2 ? Hn2 Hw2 Heq|n2 w2 w2' j xs2 ? Hn2 Hw2 Hw2' Hc2 Heq]; subst.
    + by destruct (tag_unique _ _ _ _ _ _ _ _ Hn2 Hn Hw2 Hw (or_intror eq_refl) (or_introl eq_refl) Heq)
        as (_ & _ & [=] & _).
    + destruct (tag_unique _ _ _ _ _ _ _ _ Hn2 Hn Hw2 Hw (or_introl eq_refl) (or_introl eq_refl) Heq)
        as (-> & _ & _ & ->).
      destruct (IH _ _ Hc2) as [-> Hr]. apply app_inv_head in Hr.
      destruct (tag_unique _ _ _ _ _ _ _ _ Hn2 Hn2 Hw' Hw2' (or_introl eq_refl) (or_introl eq_refl) Hr) as (_ & _ & _ & ->). done.
  - intros r xs' r' H'. inversion H' as [? Heq|i x i' xs ? He _ Heq|t u i xs ? Ht [Hcd _] _ _ Heq]; subst; try done.
    + destruct (element_starts _ _ _ He) as (a & j & [= <- _] & Ha). exfalso. revert Ha. compute_done.
    + destruct t as [|a t]; [done|]. apply (f_equal head) in Heq; cbn in Heq; injection Heq as ->. by destruct (char_data_no_lt _ _ Hcd "<"%char ltac:(left)).
  - intros i x i' xs r He IHe Hc IHc xs' r' H'.
    inversion H' as [? Heq|? x2 i2 xs2 ? He2 Hc2 Heq|t u i2 xs2 ? Ht [Hcd _] _ _ Heq]; subst.
    + destruct (element_starts _ _ _ He) as (a & j & [= <- _] & Ha). exfalso. revert Ha. compute_done.
    + destruct (IHe _ _ He2) as [<- <-]. by destruct (IHc _ _ Hc2) as [<- <-].
    + destruct (element_starts _ _ _ He) as (a & j & Hi & Ha). destruct t as [|b t]; [done|].
      injection Hi as -> _. by destruct (char_data_no_lt _ _ Hcd "<"%char ltac:(left)).
  - intros t u i xs r Ht [Hcd Hp] Hh Hc IH xs' r' H'.
    inversion H' as [? Heq|? x2 i2 xs2 ? He2 Hc2 Heq|t2 u2 i2 xs2 ? Ht2 [Hcd2 _] Hh2 Hc2 Heq]; subst.
    + destruct t as [|b t]; [done|]. apply (f_equal head) in Heq; cbn in Heq; injection Heq as <-. by destruct (char_data_no_lt _ _ Hcd "<"%char ltac:(left)).
    + destruct (element_starts _ _ _ He2) as (a & j & Hi & Ha). destruct t as [|b t]; [done|].
      injection Hi as -> _. by destruct (char_data_no_lt _ _ Hcd "<"%char ltac:(left)).
    + destruct (span_unique (fun c => c <> "<"%char) t2 t i2 i (char_data_no_lt _ _ Hcd2) (char_data_no_lt _ _ Hcd)) as [-> ->].
      * intros c Hc'. rewrite Hh2 in Hc'. injection Hc' as <-. tauto.
      * intros c Hc'. rewrite Hh in Hc'. injection Hc' as <-. tauto.
      * exact Heq.
      * destruct (IH _ _ Hc2) as [-> ->]. by rewrite (char_data_unique _ _ Hcd _ Hcd2).
Qed.

Lemma line_ends_unique t u : line_ends t u -> forall u', line_ends t u' -> u = u'.
Proof.
  induction 1; intros u' H'; inversion H'; subst; try done; f_equal; eauto; by cbn in *.
Qed.

Lemma document_unique body x x' : document body x -> document body x' -> x = x'.
Proof.
  intros (_ & t & w & Hl & He & _) (_ & t' & w' & Hl' & He' & _).
  pose proof (line_ends_unique _ _ Hl _ Hl') as Heq. apply app_inv_head in Heq. rewrite Heq in He.
  by destruct (proj1 readings_unique _ _ _ He _ _ He').
Qed.

(* Element names can be read. *)
Fixpoint names_fine (x : xml) : Prop :=
  match x with
  | XText n _ => tag_name n
  | XStack n xs => tag_name n /\ (fix go xs := match xs with [] => True | x :: xs' => names_fine x /\ go xs' end) xs
  end.
Lemma names_fine_stack n xs : names_fine (XStack n xs) <-> tag_name n /\ Forall names_fine xs.
Proof.
  cbn. apply and_iff_compat_l. induction xs as [|x xs IH]; [by split|]. rewrite Forall_cons. by rewrite IH.
Qed.

(* Induction over documents. *)
Lemma xml_rect2 (P : xml -> Prop) : (forall n t, P (XText n t)) -> (forall n xs, Forall P xs -> P (XStack n xs)) ->
  forall x, P x.
Proof.
  intros Ht Hs. fix IH 1. intros [n t|n xs]; [apply Ht|]. apply Hs.
  induction xs as [|x xs IHxs]; constructor; [apply IH|exact IHxs].
Qed.

Lemma escape_char_data gt t : char_data (escape gt t) t.
Proof.
  induction t as [|a t IH]; [constructor|]. cbn. unfold escape_char.
  destruct (aeq a "<"%char) eqn:H1; [apply aeq_true in H1 as ->|apply aeq_false in H1]; [by apply cd_lt|].
  destruct (aeq a "&"%char) eqn:H2; [apply aeq_true in H2 as ->|apply aeq_false in H2]; [by apply cd_amp|].
  destruct gt; cbn [andb]; [|by apply cd_plain].
  destruct (aeq a ">"%char) eqn:H3; [apply aeq_true in H3 as ->|apply aeq_false in H3]; [by apply cd_gt|by apply cd_plain].
Qed.

Lemma escape_app gt t u : escape gt (t ++ u) = escape gt t ++ escape gt u.
Proof. apply flat_map_app. Qed.
Lemma escape_cons gt a t : escape gt (a :: t) = escape_char gt a ++ escape gt t.
Proof. done. Qed.
(* The pieces of an escaped text: a byte itself, or a reference. *)
Lemma escape_piece gt a :
  escape_char gt a = [a] /\ a <> "<"%char /\ a <> "&"%char /\ (gt = true -> a <> ">"%char) \/
  escape_char gt a ∈ [B "&lt;"; B "&amp;"; B "&gt;"] /\ a ∈ ["<"%char; "&"%char; ">"%char].
Proof.
  unfold escape_char. destruct (aeq a "<") eqn:H1; [apply aeq_true in H1 as ->; right; split; [left|compute_done]|].
  destruct (aeq a "&") eqn:H2; [apply aeq_true in H2 as ->; right; split; [right; left|compute_done]|].
  apply aeq_false in H1, H2. destruct gt; cbn [andb]; [|by left].
  destruct (aeq a ">") eqn:H3; [apply aeq_true in H3 as ->; right; split; [right; right; left|compute_done]|].
  apply aeq_false in H3. by left.
Qed.
Lemma escape_head gt t a u : a <> "&"%char -> escape gt t = a :: u -> exists t', t = a :: t' /\ escape gt t' = u.
Proof.
  intros Ha. destruct t as [|c t]; [done|]. rewrite escape_cons.
  destruct (escape_piece gt c) as [[-> _]|[Hp _]].
  - intros [= -> <-]. by exists t.
  - rewrite !elem_of_cons in Hp. destruct Hp as [->|[->|[->|[]%elem_of_nil]]]; intros [= <- _]; done.
Qed.
Lemma escape_no_gt t : ">"%char ∉ escape true t.
Proof.
  induction t as [|a t IH]; [by intros ?%elem_of_nil|]. rewrite escape_cons, elem_of_app. intros [H|H]; [|done].
  destruct (escape_piece true a) as [(Hp & _ & _ & Hne)|[Hp _]].
  - rewrite Hp in H. apply elem_of_list_singleton in H. by destruct (Hne eq_refl).
  - rewrite !elem_of_cons in Hp. destruct Hp as [Hp|[Hp|[Hp|[]%elem_of_nil]]]; rewrite Hp in H; revert H; compute_done.
Qed.
Lemma escape_cdata_end gt t : forall x y, escape gt t = x ++ B "]]>" ++ y ->
  gt = false /\ exists x' y', t = x' ++ B "]]>" ++ y'.
Proof.
  destruct gt.
  { intros x y Heq. exfalso. apply (escape_no_gt t). rewrite Heq, !elem_of_app. right. left. compute_done. }
  induction t as [|a t IH]; intros x y Heq; [by destruct x|]. rewrite escape_cons in Heq.
  split; [done|]. destruct x as [|b x].
  - destruct (escape_head false (a :: t) "]"%char ("]"%char :: ">"%char :: y)) as (t1 & [= -> <-] & H1); [done|done|].
    destruct (escape_head false t "]"%char (">"%char :: y)) as (t2 & -> & H2); [done|done|].
    destruct (escape_head false t2 ">"%char y) as (t3 & -> & H3); [done|done|]. by exists [], t3.
  - destruct (escape_piece false a) as [[Hp _]|[Hp _]].
    + rewrite Hp in Heq. injection Heq as -> Heq. destruct (IH _ _ Heq) as (_ & x' & y' & ->). by exists (b :: x'), y'.
    + assert (Hsq : "]"%char ∉ escape_char false a).
      { rewrite !elem_of_cons in Hp. destruct Hp as [Hp|[Hp|[Hp|[]%elem_of_nil]]]; rewrite Hp; compute_done. }
      destruct (decide (length (escape_char false a) <= length (b :: x))) as [Hl|Hl].
      * apply (f_equal (drop (length (escape_char false a)))) in Heq.
        rewrite drop_app, drop_app_le in Heq by done. destruct (IH _ _ Heq) as (_ & x' & y' & ->).
        by exists (a :: x'), y'.
      * exfalso. apply Hsq. apply (f_equal (fun l => l !! length (b :: x))) in Heq.
        rewrite lookup_app_l in Heq by lia. rewrite lookup_app_r, Nat.sub_diag in Heq by done.
        by apply elem_of_list_lookup_2 in Heq.
Qed.
Lemma plain_escaped gt t : fine_text gt t -> plain_text (escape gt t) t.
Proof.
  intros (_ & _ & Hc). split; [apply escape_char_data|]. intros x y Heq.
  destruct (escape_cdata_end gt t x y Heq) as (Hgt & x' & y' & Ht). by apply (Hc Hgt x' y').
Qed.

Lemma chars_nil : xml_chars [].
Proof. by exists []. Qed.
Lemma chars_app t u : xml_chars t -> xml_chars u -> xml_chars (t ++ u).
Proof.
  intros (cs & -> & Hc) (ds & -> & Hd). exists (cs ++ ds). split; [by rewrite concat_app|by apply Forall_app].
Qed.
Lemma chars_ascii t : (forall a, a ∈ t -> (32 <= code a < 128)%N) -> xml_chars t.
Proof.
  induction t as [|a t IH]; intros Ha; [apply chars_nil|]. apply (chars_app [a] t).
  - exists [[a]]. split; [done|]. apply Forall_singleton, xc_ascii. left. apply Ha. by left.
  - apply IH. intros; apply Ha. by right.
Qed.
Lemma escape_high gt c : Forall (fun a => 128 <= code a)%N c -> escape gt c = c.
Proof.
  induction 1 as [|a c Ha _ IH]; [done|]. rewrite escape_cons, IH.
  destruct (escape_piece gt a) as [[-> _]|[_ Hp]]; [done|]. exfalso. revert Ha.
  rewrite !elem_of_cons in Hp. destruct Hp as [->|[->|[->|[]%elem_of_nil]]]; by vm_compute.
Qed.
Lemma chars_escaped gt t : xml_chars t -> xml_chars (escape gt t).
Proof.
  intros (cs & -> & Hc). induction Hc as [|c cs Hc _ IH]; [apply chars_nil|]. cbn [concat]. rewrite escape_app.
  apply chars_app; [clear IH|exact IH].
  assert (Hself : xml_chars c) by (exists [c]; split; [by cbn; rewrite app_nil_r|by constructor]).
  inversion Hc; subst.
  - rewrite escape_cons. cbn [escape flat_map]. rewrite app_nil_r.
    destruct (escape_piece gt a) as [[-> _]|[Hp _]]; [done|]. apply chars_ascii.
    rewrite !elem_of_cons in Hp. destruct Hp as [->|[->|[->|[]%elem_of_nil]]]; apply Forall_forall; compute_done.
  - rewrite escape_high; [done|]. unfold cont in *. repeat (apply Forall_cons; split); try apply Forall_nil; try done; lia.
  - rewrite escape_high; [done|]. unfold cont in *. repeat (apply Forall_cons; split); try apply Forall_nil; try done; lia.
  - rewrite escape_high; [done|]. unfold cont in *. repeat (apply Forall_cons; split); try apply Forall_nil; try done; lia.
Qed.
Lemma escaped_no_cr gt t : CR ∉ t -> CR ∉ escape gt t.
Proof.
  induction t as [|a t IH]; [done|]. rewrite escape_cons, elem_of_cons, elem_of_app. intros Hn [H|H].
  - destruct (escape_piece gt a) as [[Hp _]|[Hp _]].
    + rewrite Hp in H. apply elem_of_list_singleton in H. subst. tauto.
    + rewrite !elem_of_cons in Hp. destruct Hp as [Hp|[Hp|[Hp|[]%elem_of_nil]]]; rewrite Hp in H; revert H; compute_done.
  - tauto.
Qed.
Lemma line_ends_same t : CR ∉ t -> line_ends t t.
Proof.
  induction t as [|a t IH]; [constructor|]. rewrite elem_of_cons. intros Hn. apply le_other; [|apply IH; tauto].
  intros ->. apply Hn. by left.
Qed.

Lemma tag_name_chars n : tag_name n -> xml_chars n /\ CR ∉ n.
Proof.
  intros [_ Hn]. split.
  - apply chars_ascii. intros a Ha%Hn. revert a Ha. apply Forall_forall. compute_done.
  - intros Ha%Hn. revert Ha. compute_done.
Qed.
Lemma literal_chars t : forallb (fun a => (32 <=? code a)%N && (code a <? 128)%N) t = true -> xml_chars t /\ CR ∉ t.
Proof.
  rewrite forallb_forall. intros Ht.
  assert (H : forall a, a ∈ t -> (32 <= code a < 128)%N).
  { intros a Ha%elem_of_list_In%Ht. apply andb_true_iff in Ha as [?%N.leb_le ?%N.ltb_lt]. lia. }
  split; [by apply chars_ascii|]. intros Ha%H. revert Ha. vm_compute. by intros [].
Qed.

(* Text without carriage returns, of XML characters. *)
Definition clean (t : bytes) : Prop := xml_chars t /\ CR ∉ t.
Lemma clean_app t u : clean t -> clean u -> clean (t ++ u).
Proof. intros [? ?] [? ?]. split; [by apply chars_app|]. rewrite elem_of_app. tauto. Qed.

Lemma written_clean gt x : names_fine x -> Forall (fine_text gt) (texts x) -> clean (xml_element gt x).
Proof.
  induction x as [n t|n xs IH] using xml_rect2.
  - intros Hn Ht. apply Forall_inv in Ht. cbn [xml_element]. destruct Ht as (Hc & Hcr & _).
    repeat apply clean_app; try (by apply tag_name_chars); try (by apply literal_chars).
    split; [by apply chars_escaped|by apply escaped_no_cr].
  - intros [Hn Hns]%names_fine_stack Ht. cbn [texts] in Ht.
    assert (Hxs : clean (flat_map (xml_element gt) xs)).
    { clear Hn. induction IH as [|x xs Hx _ IHxs]; [by split; [apply chars_nil|intros ?%elem_of_nil]|].
      cbn [flat_map] in *. apply Forall_cons in Hns as [? ?]. apply Forall_app in Ht as [? ?].
      apply clean_app; [by apply Hx|by apply IHxs]. }
    destruct xs as [|x xs]; cbn [xml_element].
    + repeat apply clean_app; try (by apply tag_name_chars); by apply literal_chars.
    + change (clean (B "<" ++ n ++ B ">" ++ flat_map (xml_element gt) (x :: xs) ++ B "</" ++ n ++ B ">")).
      revert Hxs. generalize (flat_map (xml_element gt) (x :: xs)). intros l Hl.
      repeat apply clean_app; try (by apply tag_name_chars); try (by apply literal_chars). exact Hl.
Qed.

Lemma no_space : space [].
Proof. by intros a ?%elem_of_nil. Qed.

Lemma written_read gt x : names_fine x -> Forall (fine_text gt) (texts x) ->
  forall r, element (xml_element gt x ++ r) (tree x) r.
Proof.
  induction x as [n t|n xs IH] using xml_rect2.
  - intros Hn Ht r. apply Forall_inv in Ht. cbn [xml_element tree].
    assert (Hc : nodes (escape gt t ++ B "</" ++ n ++ B ">" ++ r) (match t with [] => [] | _ => [Text t] end) (B "</" ++ n ++ B ">" ++ r)).
    { destruct t as [|a t]; [apply co_end|]. apply co_text; [|by apply plain_escaped|done|apply co_end].
      rewrite escape_cons. intros [Hp _]%app_eq_nil.
      destruct (escape_piece gt a) as [[Hp' _]|[Hp' _]]; rewrite Hp in Hp'; [done|].
      rewrite !elem_of_cons in Hp'. by destruct Hp' as [?|[?|[?|[]%elem_of_nil]]]. }
    pose proof (el_full n [] [] _ _ r Hn no_space no_space Hc) as He.
    rewrite !app_assoc_reverse. destruct t; exact He.
  - intros [Hn Hns]%names_fine_stack Ht r. cbn [texts] in Ht. cbn [tree].
    assert (Hxs : forall r, nodes (flat_map (xml_element gt) xs ++ B "</" ++ r) (map tree xs) (B "</" ++ r)).
    { clear Hn r. induction IH as [|x xs Hx _ IHxs]; intros r; [apply co_end|].
      cbn [flat_map map] in *. apply Forall_cons in Hns as [? ?]. apply Forall_app in Ht as [? ?].
      rewrite app_assoc_reverse. eapply co_element; [by apply Hx|by apply IHxs]. }
    destruct xs as [|x xs].
    + cbn [xml_element map]. rewrite !app_assoc_reverse. apply (el_empty n (B " ") r Hn).
      intros a ->%elem_of_list_singleton. left.
    + pose proof (el_full n [] [] _ _ r Hn no_space no_space (Hxs (n ++ B ">" ++ r))) as He.
      change (xml_element gt (XStack n (x :: xs))) with (B "<" ++ n ++ B ">" ++ flat_map (xml_element gt) (x :: xs) ++ B "</" ++ n ++ B ">").
      rewrite !app_assoc_reverse. exact He.
Qed.

Lemma body_read gt x : names_fine x -> Forall (fine_text gt) (texts x) ->
  document (xml_body_text gt x) (tree x).
Proof.
  intros Hn Ht. destruct (written_clean gt x Hn Ht) as [Hc Hcr].
  assert (Hd : clean xml_declaration) by by apply literal_chars.
  destruct (clean_app _ _ Hd (conj Hc Hcr)) as [Hc' Hcr'].
  split; [exact Hc'|]. exists (xml_element gt x), []. rewrite app_nil_r. split; [by apply line_ends_same|].
  split; [|apply no_space]. pose proof (written_read gt x Hn Ht []) as He. by rewrite app_nil_r in He.
Qed.
