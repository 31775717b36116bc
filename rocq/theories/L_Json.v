(** Metadata survives being written as JSON and read back. *)
From Verif Require Import M_Base M_Utf8 M_Json L_Base.

Lemma json_chars_escape fuel a l :
  json_chars (S fuel) (json_escape a ++ l) =
  match json_chars fuel l with Some (x, rest) => Some (a :: x, rest) | None => None end.
Proof.
  destruct a as [b0 b1 b2 b3 b4 b5 b6 b7].
  destruct b0, b1, b2, b3, b4, b5, b6, b7; reflexivity.
Qed.

Lemma json_chars_string fuel x rest : (length x < fuel)%nat ->
  json_chars fuel (flat_map json_escape x ++ dquote :: rest) = Some (x, rest).
Proof.
  revert fuel. induction x as [|a x IH]; intros fuel Hf; destruct fuel as [|fuel]; cbn [length] in Hf; try lia.
  - reflexivity.
  - cbn [flat_map]. rewrite <- app_assoc, json_chars_escape, IH by lia. done.
Qed.

Lemma json_escape_length x : (length x <= length (flat_map json_escape x))%nat.
Proof.
  induction x as [|a x IH]; [done|]. cbn [flat_map length]. rewrite app_length.
  assert (1 <= length (json_escape a))%nat; [|lia].
  unfold json_escape. repeat match goal with |- context [if ?b then _ else _] => destruct b end; cbn [length]; lia.
Qed.

Lemma json_parse_string_ok x rest : utf8_valid x = true ->
  json_parse_string (json_string x ++ rest) = Some (x, rest).
Proof.
  intros Hv. unfold json_string. cbn [app]. rewrite <- app_assoc. cbn [app]. unfold json_parse_string.
  rewrite aeq_refl, json_chars_string, Hv; [done|].
  cbn [length]. rewrite app_length. pose proof (json_escape_length x). lia.
Qed.

Lemma skip_ws_none a l : json_ws a = false -> skip_ws (a :: l) = a :: l.
Proof. intros H. unfold skip_ws. cbn. by rewrite H. Qed.

Lemma json_string_head x : exists r, json_string x = dquote :: r.
Proof. by eexists. Qed.

Lemma skip_ws_string x rest : skip_ws (json_string x ++ rest) = json_string x ++ rest.
Proof. destruct (json_string_head x) as [r ->]. cbn [app]. by apply skip_ws_none. Qed.

Lemma json_parse_entry_ok x y rest : utf8_valid x = true -> utf8_valid y = true ->
  json_parse_entry (json_entry (x, y) ++ rest) = Some (x, y, rest).
Proof.
  intros Hx Hy. unfold json_entry, json_parse_entry. cbn [fst snd]. rewrite <- !app_assoc.
  rewrite json_parse_string_ok by done. cbn [app].
  change (B ":" ++ json_string y ++ rest) with (":"%char :: (json_string y ++ rest)).
  rewrite skip_ws_none by done. cbn [aeq]. rewrite aeq_refl, skip_ws_string, json_parse_string_ok by done. done.
Qed.

Lemma md_insert_new k v m : k ∉ m.*1 -> md_insert k v m = m ++ [(k, v)].
Proof.
  induction m as [|[k' v'] m IH]; [done|]. cbn. intros [H1 H2]%not_elem_of_cons.
  rewrite (proj2 (beq_false k' k)) by congruence. by rewrite IH.
Qed.

Lemma skip_ws_entry e rest : skip_ws (json_entry e ++ rest) = json_entry e ++ rest.
Proof. unfold json_entry. rewrite <- app_assoc. apply skip_ws_string. Qed.

Lemma json_parse_more_ok fuel m acc :
  Forall (fun e => utf8_valid e.1 = true /\ utf8_valid e.2 = true) m -> NoDup (acc ++ m).*1 ->
  (length m < fuel)%nat ->
  json_parse_more fuel (match m with [] => B "}" | _ => B "," ++ json_entries m ++ B "}" end) acc = Some (acc ++ m, []).
Proof.
  revert fuel acc. induction m as [|[k v] m IH]; intros fuel acc Hv Hd Hf; (destruct fuel as [|fuel]; [cbn in Hf; lia|]).
  - cbn. by rewrite app_nil_r.
  - inversion Hv as [|? ? [Hk Hval] Hv']; subst. cbn [fst snd] in Hk, Hval. cbn [json_parse_more].
    change (B "," ++ json_entries ((k, v) :: m) ++ B "}") with
      (","%char :: (json_entries ((k, v) :: m) ++ B "}")).
    rewrite skip_ws_none by done. cbn [aeq]. change (aeq "," "}") with false. change (aeq "," ",") with true. cbv iota.
    assert (Hform : json_entries ((k, v) :: m) ++ B "}" =
      json_entry (k, v) ++ match m with [] => B "}" | _ => B "," ++ json_entries m ++ B "}" end).
    { destruct m as [|e m]; [done|].
      change (json_entries ((k, v) :: e :: m)) with (json_entry (k, v) ++ B "," ++ json_entries (e :: m)).
      by rewrite <- !app_assoc. }
    rewrite Hform, skip_ws_entry, json_parse_entry_ok by done.
    rewrite md_insert_new.
    + rewrite IH; [by rewrite <- app_assoc|done| |cbn in Hf; lia]. by rewrite <- app_assoc.
    + rewrite fmap_app in Hd. apply NoDup_app in Hd as (_ & Hd & _). intros Hin. apply (Hd k Hin). by left.
Qed.

Lemma json_entries_length m : (length m <= length (json_entries m))%nat.
Proof.
  assert (He : forall e, (1 <= length (json_entry e))%nat).
  { intros e. unfold json_entry. rewrite app_length. destruct (json_string_head e.1) as [r ->]. cbn [length]. lia. }
  induction m as [|e m IH]; [done|]. destruct m as [|e' m].
  - cbn [json_entries length]. apply He.
  - change (json_entries (e :: e' :: m)) with (json_entry e ++ B "," ++ json_entries (e' :: m)).
    rewrite !app_length. specialize (He e). cbn [length] in *. lia.
Qed.

Lemma json_round_trip m :
  Forall (fun e => utf8_valid e.1 = true /\ utf8_valid e.2 = true) m -> NoDup m.*1 ->
  json_decode (json_encode m) = Some m.
Proof.
  intros Hv Hd. unfold json_decode, json_encode.
  change (B "{" ++ json_entries m ++ B "}") with ("{"%char :: (json_entries m ++ B "}")) at 1.
  rewrite skip_ws_none by done. change (aeq "{" "{") with true. cbv iota.
  destruct m as [|[k v] m]; [reflexivity|].
  inversion Hv as [|? ? [Hk Hval] Hv']; subst. cbn [fst snd] in Hk, Hval.
  assert (Hform : json_entries ((k, v) :: m) ++ B "}" =
      json_entry (k, v) ++ match m with [] => B "}" | _ => B "," ++ json_entries m ++ B "}" end).
  { destruct m as [|e m]; [done|].
    change (json_entries ((k, v) :: e :: m)) with (json_entry (k, v) ++ B "," ++ json_entries (e :: m)).
    by rewrite <- !app_assoc. }
  rewrite Hform, skip_ws_entry.
  set (tail := match m with [] => B "}" | _ => B "," ++ json_entries m ++ B "}" end).
  assert (Hhead : exists r, json_entry (k, v) ++ tail = dquote :: r).
  { unfold json_entry. cbn [fst]. destruct (json_string_head k) as [r ->]. by eexists. }
  destruct Hhead as [r Hr]. rewrite Hr. change (aeq dquote "}") with false. cbv iota. rewrite <- Hr.
  rewrite json_parse_entry_ok by done.
  change (md_insert k v []) with [(k, v)].
  unfold tail. rewrite json_parse_more_ok; [reflexivity|done|done|].
  rewrite <- Hform. rewrite !app_length. pose proof (json_entries_length ((k, v) :: m)) as Hl.
  cbn [length] in Hl |- *. lia.
Qed.
