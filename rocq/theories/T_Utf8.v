(** C76: what counts as text is exactly UTF-8. *)
From Verif Require Import M_Base M_Utf8 S_Utf8 L_Base L_Utf8 L_Encode.
Local Open Scope N_scope.

Lemma encode_prefix c c' y y' : scalar c -> scalar c' -> encode_scalar c ++ y = encode_scalar c' ++ y' -> c = c' /\ y = y'.
Proof.
  intros Hc Hc'.
  destruct (encode_cases c Hc) as [[Hl E]|[(a & b & E & Hs & V)|[(a & b & d & E & Hs & V)|(a & b & d & e & E & Hs & V)]]];
  destruct (encode_cases c' Hc') as [[Hl' E']|[(a' & b' & E' & Hs' & V')|[(a' & b' & d' & E' & Hs' & V')|(a' & b' & d' & e' & E' & Hs' & V')]]];
    rewrite E, E'; cbn [app]; unfold seq2, seq3, seq4 in *; clear E E' Hc Hc'.
  - intros [= H ->]. split; [|done]. rewrite <- (code_of c), <- (code_of c') by lia. by rewrite H.
  - intros [= H _]. exfalso. assert (code a' = c) by (rewrite <- H; apply code_of; lia). lia.
  - intros [= H _]. exfalso. assert (code a' = c) by (rewrite <- H; apply code_of; lia). lia.
  - intros [= H _]. exfalso. assert (code a' = c) by (rewrite <- H; apply code_of; lia). lia.
  - intros [= H _]. exfalso. assert (code a = c') by (rewrite H; apply code_of; lia). lia.
  - intros [= -> -> ->]. split; [congruence|done].
  - intros [= -> _]. exfalso. lia.
  - intros [= -> _]. exfalso. lia.
  - intros [= H _]. exfalso. assert (code a = c') by (rewrite H; apply code_of; lia). lia.
  - intros [= -> _]. exfalso. lia.
  - intros [= -> -> -> ->]. split; [congruence|done].
  - intros [= -> _]. exfalso. lia.
  - intros [= H _]. exfalso. assert (code a = c') by (rewrite H; apply code_of; lia). lia.
  - intros [= -> _]. exfalso. lia.
  - intros [= -> _]. exfalso. lia.
  - intros [= -> -> -> -> ->]. split; [congruence|done].
Qed.

Lemma step_sound a l n : utf8_step a l = (true, n) ->
  exists c y, scalar c /\ a :: l = encode_scalar c ++ y /\ n = length (encode_scalar c).
Proof.
  unfold utf8_step. destruct (N.ltb_spec (code a) 128) as [Ha|Ha].
  { intros [= <-]. destruct (encode1 a Ha) as (c & Hc & E). exists c, l. by rewrite E. }
  destruct (utf8_lead a) as [[[lo hi] more]|] eqn:El; [|done].
  pose proof (lead_shape _ _ _ _ El) as (Hm & _).
  destruct l as [|b l]; [done|]. destruct (byte_in lo hi b) eqn:Eb; [|done].
  destruct more as [|[|[|]]]; [| | |lia].
  { intros [= <-]. apply (lead_two _ _ _ _ El) in Eb. destruct (encode2 a b Eb) as (c & Hc & E). exists c, l. by rewrite E. }
  - destruct l as [|d l]; [done|]. destruct (is_cont d) eqn:Ed; [|done]. intros [= <-].
    destruct (encode3 a b d) as (c & Hc & E); [by apply (lead_three _ _ _ _ _ El)|]. exists c, l. by rewrite E.
  - destruct l as [|d l]; [done|]. destruct (is_cont d) eqn:Ed; [|done].
    destruct l as [|e l]; [done|]. destruct (is_cont e) eqn:Ee; [|done]. intros [= <-].
    destruct (encode4 a b d e) as (c & Hc & E); [by apply (lead_four _ _ _ _ _ _ El)|]. exists c, l. by rewrite E.
Qed.

Lemma step_complete a l c y : scalar c -> a :: l = encode_scalar c ++ y -> utf8_step a l = (true, length (encode_scalar c)).
Proof.
  intros Hc. destruct (encode_cases c Hc) as [[Hl E]|[(a' & b & E & Hs & V)|[(a' & b & d & E & Hs & V)|(a' & b & d & e & E & Hs & V)]]];
    rewrite E; cbn [app length]; intros [= -> ->]; unfold utf8_step.
  - rewrite code_of by lia. by rewrite (proj2 (N.ltb_lt _ _)).
  - destruct (lead_range a' 0%nat) as (lo & hi & El); [unfold seq2 in Hs; lia|]. rewrite (high_not_ascii _ _ _ _ El), El.
    by apply (lead_two _ _ _ _ El) in Hs as ->.
  - destruct (lead_range a' 1%nat) as (lo & hi & El); [unfold seq3 in Hs; lia|]. rewrite (high_not_ascii _ _ _ _ El), El.
    by apply (lead_three _ _ _ _ _ El) in Hs as [-> ->].
  - destruct (lead_range a' 2%nat) as (lo & hi & El); [unfold seq4 in Hs; lia|]. rewrite (high_not_ascii _ _ _ _ El), El.
    by apply (lead_four _ _ _ _ _ _ El) in Hs as (-> & -> & ->).
Qed.

Lemma valid_step a l : utf8_valid (a :: l) =
  (let '(ok, n) := utf8_step a l in if ok then utf8_valid (drop n (a :: l)) else false).
Proof.
  cbn [utf8_valid]. unfold utf8_step. destruct (code a <? 128); [done|].
  destruct (utf8_lead a) as [[[lo hi] more]|] eqn:El; [|done].
  pose proof (lead_shape _ _ _ _ El) as (Hm & _).
  destruct more as [|[|[|]]]; [| | |lia]; (destruct l as [|b l]; [done|]).
  - by destruct (byte_in lo hi b).
  - destruct l as [|d l]; [by destruct (byte_in lo hi b)|]. by destruct (byte_in lo hi b), (is_cont d).
  - destruct l as [|d [|e l]]; [by destruct (byte_in lo hi b)|by destruct (byte_in lo hi b), (is_cont d)|].
    by destruct (byte_in lo hi b), (is_cont d), (is_cont e).
Qed.

Lemma valid_scalar c y : scalar c -> utf8_valid (encode_scalar c ++ y) = utf8_valid y.
Proof.
  intros Hc. destruct (encode_scalar c ++ y) as [|a l] eqn:E.
  { apply app_eq_nil in E as [E _]. by apply encode_nonempty in E. }
  rewrite valid_step. rewrite (step_complete a l c y) by done. rewrite <- E. by rewrite drop_app.
Qed.

Lemma valid_text n : forall l, (length l <= n)%nat -> utf8_valid l = true -> utf8_text l.
Proof.
  induction n as [|n IH]; intros [|a l] Hn Hv; cbn [length] in Hn; [by exists []|lia|by exists []|].
  rewrite valid_step in Hv. destruct (utf8_step a l) as [[|] k] eqn:Es; [|done].
  apply step_sound in Es as (c & y & Hc & E & ->). rewrite E in *. rewrite drop_app in Hv.
  destruct (IH y) as (cs & Hcs & ->); [|done|].
  { pose proof (encode_nonempty c). assert (length (a :: l) = length (encode_scalar c ++ y)) as Hl by by rewrite E.
    rewrite app_length in Hl. cbn [length] in Hl. destruct (encode_scalar c); [done|]. cbn [length] in Hl. lia. }
  exists (c :: cs). split; [by constructor|done].
Qed.

(* The test for text accepts exactly the encodings of sequences of scalars. *)
Theorem C76_valid_exactly l : utf8_valid l = true <-> utf8_text l.
Proof.
  split; [by apply (valid_text (length l))|]. intros (cs & Hcs & ->). unfold encode_text.
  induction Hcs as [|c cs Hc _ IH]; [done|]. cbn [map concat]. by rewrite valid_scalar.
Qed.

(* No two texts have the same bytes. *)
Theorem C76_text_unique cs cs' : Forall scalar cs -> Forall scalar cs' -> encode_text cs = encode_text cs' -> cs = cs'.
Proof.
  intros Hcs. revert cs'. induction Hcs as [|c cs Hc _ IH]; intros cs' Hcs'; unfold encode_text; cbn [map concat].
  - destruct cs' as [|c' cs']; [done|]. cbn [map concat]. intros E. symmetry in E. apply app_eq_nil in E as [E _].
    by apply encode_nonempty in E.
  - destruct Hcs' as [|c' cs' Hc' Hcs']; cbn [map concat]; intros E.
    + apply app_eq_nil in E as [E _]. by apply encode_nonempty in E.
    + apply encode_prefix in E as [-> E]; [|done|done]. f_equal. by apply IH.
Qed.

Lemma replacement_bytes : map ascii_of_N [239; 191; 189] = encode_scalar replacement.
Proof. by vm_compute. Qed.

(* What a failing step says about the bytes. *)
Lemma step_fails a l n : utf8_step a l = (false, n) ->
  (forall c y, scalar c -> a :: l <> encode_scalar c ++ y) /\
  exists x y, a :: l = x ++ y /\ n = length x /\ x <> [] /\
    (x = [a] /\ ~ begins_scalar [a] \/
     begins_scalar x /\ forall z w, y = z ++ w -> z <> [] -> ~ begins_scalar (x ++ z)).
Proof.
  intros Es. split.
  { intros c y Hc E. by rewrite (step_complete a l c y) in Es. }
  unfold utf8_step in Es. destruct (N.ltb_spec (code a) 128) as [Ha|Ha]; [done|].
  destruct (utf8_lead a) as [[[lo hi] more]|] eqn:El.
  2:{ injection Es as <-. exists [a], l. split_and!; [done..|]. left. split; [done|]. rewrite begins_one.
      intros [?|[? ?]]; [lia|congruence]. }
  destruct l as [|b l].
  { injection Es as <-. exists [a], []. split_and!; [done..|]. right. split; [apply begins_one; eauto|].
    intros z w E Hz. symmetry in E. by apply app_eq_nil in E as [-> _]. }
  assert (Hmax : forall (x y : bytes), (forall b0 y0, y = b0 :: y0 -> ~ begins_scalar (x ++ [b0])) ->
     forall z w, y = z ++ w -> z <> [] -> ~ begins_scalar (x ++ z)).
  { intros x y H z w -> Hz Hb. destruct z as [|b0 z]; [done|]. apply (H b0 (z ++ w)); [done|].
    apply (begins_app _ z). by rewrite <- app_assoc. }
  destruct (byte_in lo hi b) eqn:Eb.
  2:{ injection Es as <-. exists [a], (b :: l). split_and!; [done..|]. right. split; [apply begins_one; eauto|].
      apply Hmax. intros b0 y0 [= <- <-]. cbn [app]. rewrite begins_two. intros (? & ? & ? & El' & Eb'). congruence. }
  destruct more as [|more]; [done|].
  assert (Hb2 : begins_scalar [a; b]) by (apply begins_two; eauto 6).
  destruct l as [|d l].
  { injection Es as <-. exists [a; b], []. split_and!; [done..|]. right. split; [done|]. by apply Hmax. }
  destruct (is_cont d) eqn:Ed.
  2:{ injection Es as <-. exists [a; b], (d :: l). split_and!; [done..|]. right. split; [done|].
      apply Hmax. intros b0 y0 [= <- <-]. cbn [app]. rewrite begins_three. intros (? & ? & ? & El' & Eb' & Ed'). congruence. }
  destruct more as [|more]; [done|].
  assert (Hb3 : begins_scalar [a; b; d]) by (apply begins_three; eauto 8).
  assert (n = 3%nat) as -> by (destruct l as [|e l]; [|destruct (is_cont e)]; by injection Es).
  exists [a; b; d], l. split_and!; [done..|]. right. split; [done|].
  apply Hmax. intros e y0 ->. cbn [app]. destruct (is_cont e) eqn:Ee; [done|].
  intros (c & y & Hc & E).
  destruct (encode_cases c Hc) as [[_ E']|[(a' & b' & E' & _)|[(a' & b' & d' & E' & _)|(a' & b' & d' & e' & E' & Hs & _)]]];
    rewrite E' in E; try done. injection E as -> -> -> -> _.
  unfold seq4 in Hs. unfold is_cont in Ee. apply byte_in_false in Ee. lia.
Qed.

Lemma lossy_replaced n : forall l, (length l <= n)%nat ->
  exists cs, replaced l cs /\ Forall scalar cs /\ utf8_lossy_loop n l = encode_text cs.
Proof.
  induction n as [|n IH]; intros [|a l] Hn; cbn [length] in Hn; [|lia| |];
    [exists []; split_and!; [constructor|constructor|done]..|].
  cbn [utf8_lossy_loop]. destruct (utf8_step a l) as [ok k] eqn:Es.
  assert (Hlen : forall x y : bytes, a :: l = x ++ y -> x <> [] -> (length y <= n)%nat).
  { intros x y E Hx. assert (length (a :: l) = length (x ++ y)) as Hl by by rewrite E. rewrite app_length in Hl.
    destruct x; [done|]. cbn [length] in Hl. lia. }
  destruct ok.
  - apply step_sound in Es as (c & y & Hc & E & ->).
    destruct (IH y) as (cs & Hr & Hs & Hcs); [by eapply Hlen, encode_nonempty|].
    exists (c :: cs). rewrite E, take_app, drop_app, Hcs. split_and!; [by constructor|by constructor|done].
  - apply step_fails in Es as (Hno & x & y & E & -> & Hx & Hcase).
    destruct (IH y) as (cs & Hr & Hs & Hcs); [by eapply Hlen|].
    exists (replacement :: cs). rewrite E in *. rewrite drop_app, Hcs, replacement_bytes.
    split_and!; [|constructor; [right; by vm_compute|done]|done].
    destruct Hcase as [[-> Hb]|[Hb Hmax]]; [by apply replaced_byte|by apply replaced_part].
Qed.

Lemma app_compare {A} (x y x' y' : list A) : x ++ y = x' ++ y' ->
  (exists z, x' = x ++ z /\ y = z ++ y') \/ (exists z, x = x' ++ z /\ y' = z ++ y).
Proof.
  revert x'. induction x as [|a x IH]; intros [|a' x'] E; cbn in E.
  - left. by exists [].
  - left. exists (a' :: x'). done.
  - right. exists (a :: x). done.
  - injection E as -> E. destruct (IH x' E) as [(z & -> & ->)|(z & -> & ->)]; [left|right]; by exists z.
Qed.

(* Replacing is a function of the bytes. *)
Lemma replaced_unique l cs cs' : replaced l cs -> replaced l cs' -> cs = cs'.
Proof.
  intros H. revert cs'. induction H as [|c l cs Hc _ IH|x l cs Hx Hb Hno Hmax _ IH|a l cs Hb _ IH]; intros cs' H'.
  - inversion H' as [| c l cs0 Hc Hr E|x l cs0 Hx Hb Hno Hmax Hr E|]; subst; [done| |].
    + apply app_eq_nil in E as [E _]. by apply encode_nonempty in E.
    + destruct (app_eq_nil _ _ E) as [-> ->]. by destruct Hx.
  - remember (encode_scalar c ++ l) as t eqn:Et. destruct H' as [|c' l' cs' Hc' Hr|x l' cs' Hx Hb Hno Hmax Hr|a l' cs' Hb Hr].
    + symmetry in Et. apply app_eq_nil in Et as [Et _]. by apply encode_nonempty in Et.
    + apply encode_prefix in Et as [-> ->]; [|done|done]. f_equal. by apply IH.
    + by apply Hno in Et.
    + destruct Hb. destruct (encode_scalar c) as [|a' y] eqn:E; [by apply encode_nonempty in E|].
      injection Et as -> _. by exists c, y.
  - remember (x ++ l) as t eqn:Et. destruct H' as [|c' l' cs' Hc' Hr|x' l' cs' Hx' Hb' Hno' Hmax' Hr|a l' cs' Hb' Hr].
    + symmetry in Et. by apply app_eq_nil in Et as [-> _].
    + exfalso. by eapply Hno.
    + f_equal. apply IH. destruct (app_compare _ _ _ _ Et) as [(z & -> & ->)|(z & -> & ->)].
      * destruct z as [|a z]; [done|]. by eapply Hmax' in Hb.
      * destruct z as [|a z]; [done|]. by eapply Hmax in Hb'.
    + destruct Hb'. destruct x as [|a' x]; [done|]. injection Et as -> _. by apply (begins_app [_] x).
  - remember (a :: l) as t eqn:Et. destruct H' as [|c' l' cs' Hc' Hr|x l' cs' Hx Hb' Hno Hmax Hr|a' l' cs' Hb' Hr].
    + done.
    + destruct Hb. destruct (encode_scalar c') as [|a' y] eqn:E; [by apply encode_nonempty in E|].
      injection Et as -> _. by exists c', y.
    + destruct Hb. destruct x as [|a' x]; [done|]. injection Et as -> _. by apply (begins_app [_] x).
    + injection Et as -> ->. f_equal. by apply IH.
Qed.

(* Lossy decoding keeps scalars and replaces maximal beginnings of scalars and stray bytes. *)
Theorem C76_lossy_exactly l cs : replaced l cs <-> Forall scalar cs /\ utf8_lossy l = encode_text cs.
Proof.
  destruct (lossy_replaced (length l) l) as (cs0 & Hr & Hs & E); [done|]. split.
  - intros H. by rewrite (replaced_unique _ _ _ H Hr).
  - intros [H E']. unfold utf8_lossy in E'. rewrite E in E'. by rewrite <- (C76_text_unique _ _ Hs H E').
Qed.

Theorem C76_lossy_text l : utf8_text (utf8_lossy l).
Proof. destruct (lossy_replaced (length l) l) as (cs & _ & Hs & E); [done|]. by exists cs. Qed.
Theorem C76_lossy_keeps l : utf8_lossy l = l <-> utf8_text l.
Proof.
  split; [|intros H; by apply utf8_lossy_valid, C76_valid_exactly].
  intros E. rewrite <- E. apply C76_lossy_text.
Qed.

(* Examples: the euro sign, an overlong encoding of the slash, a surrogate, a code point beyond the last;
   cut-off sequences become one replacement character each. *)
Definition chars (l : list N) : bytes := map ascii_of_N l.
Example ex_euro : utf8_valid (chars [226; 130; 172]) = true /\ encode_scalar 8364 = chars [226; 130; 172].
Proof. by vm_compute. Qed.
Example ex_overlong : utf8_valid (chars [192; 175]) = false /\ utf8_valid (chars [224; 128; 175]) = false.
Proof. by vm_compute. Qed.
Example ex_surrogate : utf8_valid (chars [237; 160; 128]) = false /\ utf8_valid (chars [237; 159; 191]) = true.
Proof. by vm_compute. Qed.
Example ex_beyond : utf8_valid (chars [244; 144; 128; 128]) = false /\ utf8_valid (chars [244; 143; 191; 191]) = true.
Proof. by vm_compute. Qed.
Example ex_cut : replaced (chars [65; 240; 159; 146; 66; 192; 175; 226; 130])
  [65; replacement; 66; replacement; replacement; replacement].
Proof. apply C76_lossy_exactly. split; [|by vm_compute]. repeat constructor; unfold scalar; by vm_compute. Qed.

Print Assumptions C76_valid_exactly.
Print Assumptions C76_text_unique.
Print Assumptions C76_lossy_exactly.
Print Assumptions C76_lossy_text.
Print Assumptions C76_lossy_keeps.
