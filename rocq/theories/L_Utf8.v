(** Facts about UTF-8 validity and lossy decoding. *)
From Verif Require Import M_Base M_Utf8 L_Base.

Local Ltac bools := repeat match goal with
  | H : _ && _ = true |- _ => apply andb_true_iff in H as [? ?]
  end.

(* Valid text is not changed. *)
Lemma lossy_loop_valid fuel : forall l, length l <= fuel -> utf8_valid l = true -> utf8_lossy_loop fuel l = l.
Proof.
  induction fuel as [|fuel IH]; intros [|a l1] Hlen Hv; cbn [length] in *; try done; [lia|].
  cbn [utf8_lossy_loop]. cbn [utf8_valid] in Hv. unfold utf8_step.
  destruct (code a <? 128)%N; [cbn [firstn skipn app]; rewrite ?drop_0, ?take_0; by rewrite IH by (done || lia)|].
  destruct (utf8_lead a) as [[[lo hi] more]|]; [|done].
  destruct l1 as [|b l2]; [by destruct more as [|[|[|]]]|]. cbn [length] in *.
  destruct more as [|[|[|]]]; [| | |done].
  - bools. match goal with H : byte_in _ _ _ = true |- _ => rewrite H end. cbn [firstn skipn app]; rewrite ?drop_0, ?take_0. by rewrite IH by (done || lia).
  - destruct l2 as [|c l3]; [done|]. cbn [length] in *. bools.
    repeat match goal with H : byte_in _ _ _ = true |- _ => rewrite H; clear H | H : is_cont _ = true |- _ => rewrite H; clear H end.
    cbn [firstn skipn app]; rewrite ?drop_0, ?take_0. by rewrite IH by (done || lia).
  - destruct l2 as [|c [|d l4]]; [done|done|]. cbn [length] in *. bools.
    repeat match goal with H : byte_in _ _ _ = true |- _ => rewrite H; clear H | H : is_cont _ = true |- _ => rewrite H; clear H end.
    cbn [firstn skipn app]; rewrite ?drop_0, ?take_0. by rewrite IH by (done || lia).
Qed.
Lemma utf8_lossy_valid l : utf8_valid l = true -> utf8_lossy l = l.
Proof. by apply lossy_loop_valid. Qed.

Lemma ascii_valid l : Forall (fun a => code a < 128)%N l -> utf8_valid l = true.
Proof. induction 1 as [|a l Ha _ IH]; [done|]. cbn [utf8_valid]. by rewrite (proj2 (N.ltb_lt _ _)). Qed.

(* If the result is plain ASCII nothing was replaced. *)
Lemma lossy_loop_ascii fuel : forall l, length l <= fuel ->
  Forall (fun a => code a < 128)%N (utf8_lossy_loop fuel l) -> utf8_lossy_loop fuel l = l.
Proof.
  induction fuel as [|fuel IH]; intros [|a l1] Hlen; cbn [length] in *; try done; [lia|].
  cbn [utf8_lossy_loop]. destruct (utf8_step a l1) as [ok n] eqn:E. rewrite Forall_app. intros [H1 H2].
  destruct ok.
  - assert (Hn : exists n', n = S n').
    { unfold utf8_step in E. destruct n; [|by eexists]. exfalso. revert E.
      repeat case_match; by intros [=]. }
    destruct Hn as [n' ->]. cbn [take drop] in *. inversion H1 as [|? ? Ha Hr]; subst.
    assert (n' = 0) as ->.
    { unfold utf8_step in E. rewrite (proj2 (N.ltb_lt _ _)) in E by done. by injection E. }
    cbn [firstn skipn app]; rewrite ?drop_0, ?take_0. f_equal. apply IH; [lia|done].
  - exfalso. cbn [map] in H1. apply Forall_inv in H1. by vm_compute in H1.
Qed.
Lemma utf8_lossy_ascii l : Forall (fun a => code a < 128)%N (utf8_lossy l) -> utf8_lossy l = l.
Proof. by apply lossy_loop_ascii. Qed.

(* Cutting at an ASCII character. *)
Lemma utf8_valid_cut x c y : (code c < 128)%N ->
  utf8_valid (x ++ c :: y) = utf8_valid x && utf8_valid y.
Proof.
  intros Hc.
  assert (Hcont : forall lo hi, (128 <= lo)%N -> byte_in lo hi c = false).
  { intros lo hi Hlo. unfold byte_in. rewrite (proj2 (N.leb_gt _ _)) by lia. done. }
  assert (Hlo : forall a lo hi more, utf8_lead a = Some (lo, hi, more) -> (128 <= lo)%N).
  { intros a lo hi more. unfold utf8_lead. repeat case_match; intros [=]; lia. }
  remember (length x) as n eqn:Hn. revert x Hn. induction (lt_wf n) as [n _ IH]. intros x ->.
  destruct x as [|a x].
  { cbn [app utf8_valid]. by rewrite (proj2 (N.ltb_lt _ _)). }
  cbn [app utf8_valid]. destruct (code a <? 128)%N; [eapply IH; [|done]; cbn; lia|].
  destruct (utf8_lead a) as [[[lo hi] more]|] eqn:El; [|done]. apply Hlo in El.
  destruct x as [|b x].
  - cbn [app]. destruct more as [|[|[|more]]]; [| | |done].
    + by rewrite Hcont.
    + destruct y; [done|]. by rewrite Hcont.
    + destruct y as [|? [|? ?]]; try done. by rewrite Hcont.
  - cbn [app]. destruct more as [|[|[|more]]]; [| | |done].
    + rewrite (IH (length x)) by (done || (cbn; lia)). by rewrite andb_assoc.
    + destruct x as [|d x]; cbn [app].
      * unfold is_cont. rewrite Hcont by done. by rewrite andb_false_r.
      * rewrite (IH (length x)) by (done || (cbn; lia)). by rewrite !andb_assoc.
    + destruct x as [|d [|d' x]]; cbn [app].
      * destruct y; [done|]. unfold is_cont. rewrite Hcont by done. by rewrite andb_false_r.
      * unfold is_cont. rewrite (Hcont _ _ (N.le_refl _)). by rewrite andb_false_r.
      * rewrite (IH (length x)) by (done || (cbn; lia)). by rewrite !andb_assoc.
Qed.
