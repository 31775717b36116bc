(** Facts about the encoding of scalars as bytes. *)
From Verif Require Import M_Base M_Utf8 S_Utf8 L_Base L_Utf8.
Local Open Scope N_scope.

Lemma code_lt a : code a < 256.
Proof. apply N_ascii_bounded. Qed.
Lemma code_of n : n < 256 -> code (ascii_of_N n) = n.
Proof. apply N_ascii_embedding. Qed.
Lemma of_code a : ascii_of_N (code a) = a.
Proof. apply ascii_N_embedding. Qed.

Lemma byte_in_true lo hi a : byte_in lo hi a = true <-> lo <= code a <= hi.
Proof. unfold byte_in. by rewrite andb_true_iff, !N.leb_le. Qed.
Lemma byte_in_false lo hi a : byte_in lo hi a = false <-> ~ lo <= code a <= hi.
Proof. rewrite <- byte_in_true. by destruct (byte_in lo hi a). Qed.

(* Well-formed sequences by length, in terms of the bytes. *)
Definition seq2 (a b : ascii) : Prop := 194 <= code a <= 223 /\ 128 <= code b <= 191.
Definition seq3 (a b c : ascii) : Prop :=
  224 <= code a <= 239 /\ 128 <= code b <= 191 /\ 128 <= code c <= 191 /\
  (code a = 224 -> 160 <= code b) /\ (code a = 237 -> code b <= 159).
Definition seq4 (a b c d : ascii) : Prop :=
  240 <= code a <= 244 /\ 128 <= code b <= 191 /\ 128 <= code c <= 191 /\ 128 <= code d <= 191 /\
  (code a = 240 -> 144 <= code b) /\ (code a = 244 -> code b <= 143).

Ltac arith := zify; Z.to_euclidean_division_equations; lia.

Lemma encode_cases c : scalar c ->
  (c < 128 /\ encode_scalar c = [ascii_of_N c]) \/
  (exists a b, encode_scalar c = [a; b] /\ seq2 a b /\ c = (code a - 192) * 64 + (code b - 128)) \/
  (exists a b d, encode_scalar c = [a; b; d] /\ seq3 a b d /\
     c = (code a - 224) * 4096 + (code b - 128) * 64 + (code d - 128)) \/
  (exists a b d e, encode_scalar c = [a; b; d; e] /\ seq4 a b d e /\
     c = (code a - 240) * 262144 + (code b - 128) * 4096 + (code d - 128) * 64 + (code e - 128)).
Proof.
  intros Hc. unfold encode_scalar, scalar in *.
  destruct (N.ltb_spec c 128); [by left|right].
  destruct (N.ltb_spec c 2048); [left|right].
  { eexists _, _. split; [reflexivity|]. unfold seq2. rewrite !code_of by arith. arith. }
  destruct (N.ltb_spec c 65536); [left|right].
  { eexists _, _, _. split; [reflexivity|]. unfold seq3. rewrite !code_of by arith. arith. }
  { eexists _, _, _, _. split; [reflexivity|]. unfold seq4. rewrite !code_of by arith. arith. }
Qed.

Lemma encode1 a : code a < 128 -> exists c, scalar c /\ encode_scalar c = [a].
Proof.
  intros Ha. exists (code a). split; [unfold scalar; lia|]. unfold encode_scalar.
  destruct (N.ltb_spec (code a) 128); [|lia]. cbn [map]. by rewrite of_code.
Qed.
Lemma encode2 a b : seq2 a b -> exists c, scalar c /\ encode_scalar c = [a; b].
Proof.
  intros Hs. unfold seq2 in Hs. exists ((code a - 192) * 64 + (code b - 128)). split; [unfold scalar; arith|].
  set (c := (code a - 192) * 64 + (code b - 128)). unfold encode_scalar.
  assert (128 <= c < 2048) by (unfold c; arith).
  assert (192 + c / 64 = code a /\ 128 + c mod 64 = code b) as [Ea Eb] by (unfold c; arith).
  destruct (N.ltb_spec c 128); [lia|]. destruct (N.ltb_spec c 2048); [|lia]. cbn [map]. by rewrite Ea, Eb, !of_code.
Qed.
Lemma encode3 a b d : seq3 a b d -> exists c, scalar c /\ encode_scalar c = [a; b; d].
Proof.
  intros Hs. unfold seq3 in Hs. exists ((code a - 224) * 4096 + (code b - 128) * 64 + (code d - 128)).
  set (c := (code a - 224) * 4096 + (code b - 128) * 64 + (code d - 128)).
  assert (2048 <= c < 65536) by (unfold c; arith).
  assert (scalar c) by (unfold scalar, c; arith).
  assert (c / 4096 = code a - 224 /\ (c / 64) mod 64 = code b - 128 /\ c mod 64 = code d - 128) as (Ea & Eb & Ed)
    by (unfold c; arith).
  split; [done|]. unfold encode_scalar.
  destruct (N.ltb_spec c 128); [lia|]. destruct (N.ltb_spec c 2048); [lia|]. destruct (N.ltb_spec c 65536); [|lia].
  cbn [map]. rewrite Ea, Eb, Ed. repeat f_equal; rewrite <- of_code; f_equal; lia.
Qed.
Lemma encode4 a b d e : seq4 a b d e -> exists c, scalar c /\ encode_scalar c = [a; b; d; e].
Proof.
  intros Hs. unfold seq4 in Hs.
  exists ((code a - 240) * 262144 + (code b - 128) * 4096 + (code d - 128) * 64 + (code e - 128)).
  set (c := (code a - 240) * 262144 + (code b - 128) * 4096 + (code d - 128) * 64 + (code e - 128)).
  assert (65536 <= c <= 1114111) by (unfold c; arith).
  assert (c / 262144 = code a - 240 /\ (c / 4096) mod 64 = code b - 128 /\ (c / 64) mod 64 = code d - 128 /\ c mod 64 = code e - 128)
    as (Ea & Eb & Ed & Ee) by (unfold c; arith).
  split; [unfold scalar; lia|]. unfold encode_scalar.
  destruct (N.ltb_spec c 128); [lia|]. destruct (N.ltb_spec c 2048); [lia|]. destruct (N.ltb_spec c 65536); [lia|].
  cbn [map]. rewrite Ea, Eb, Ed, Ee. repeat f_equal; rewrite <- of_code; f_equal; lia.
Qed.

(* The table of lead bytes says the same as [seq2], [seq3], [seq4]. *)
Lemma lead_table a p : utf8_lead a = Some p ->
  (194 <= code a <= 223 /\ p = (128, 191, 0%nat)) \/
  (code a = 224 /\ p = (160, 191, 1%nat)) \/
  (code a = 237 /\ p = (128, 159, 1%nat)) \/
  (225 <= code a <= 239 /\ code a <> 237 /\ p = (128, 191, 1%nat)) \/
  (code a = 240 /\ p = (144, 191, 2%nat)) \/
  (241 <= code a <= 243 /\ p = (128, 191, 2%nat)) \/
  (code a = 244 /\ p = (128, 143, 2%nat)).
Proof.
  unfold utf8_lead. intros Hp.
  destruct (byte_in 194 223 a) eqn:H1; [apply byte_in_true in H1; injection Hp as <-; by left|right].
  destruct (byte_in 224 224 a) eqn:H2; [apply byte_in_true in H2; injection Hp as <-; left; split; [lia|done]|right].
  destruct (byte_in 237 237 a) eqn:H3; [apply byte_in_true in H3; injection Hp as <-; left; split; [lia|done]|right].
  apply byte_in_false in H3.
  destruct (byte_in 225 239 a) eqn:H4; [apply byte_in_true in H4; injection Hp as <-; left; split_and!; (done || lia)|right].
  destruct (byte_in 240 240 a) eqn:H5; [apply byte_in_true in H5; injection Hp as <-; left; split; [lia|done]|right].
  destruct (byte_in 241 243 a) eqn:H6; [apply byte_in_true in H6; injection Hp as <-; left; split; [lia|done]|right].
  destruct (byte_in 244 244 a) eqn:H7; [apply byte_in_true in H7; injection Hp as <-; split; [lia|done]|done].
Qed.
Ltac rows H := apply lead_table in H;
  destruct H as [[? H]|[[? H]|[[? H]|[(? & ? & H)|[[? H]|[[? H]|[? H]]]]]]]; injection H; intros; subst; try discriminate.

Lemma lead_two a lo hi b : utf8_lead a = Some (lo, hi, 0%nat) -> byte_in lo hi b = true <-> seq2 a b.
Proof. intros H. rows H. rewrite byte_in_true. unfold seq2. split; lia. Qed.
Lemma lead_three a lo hi b d : utf8_lead a = Some (lo, hi, 1%nat) ->
  byte_in lo hi b = true /\ is_cont d = true <-> seq3 a b d.
Proof. intros H. unfold is_cont. rows H; rewrite !byte_in_true; unfold seq3; split; intros; repeat split; lia. Qed.
Lemma lead_four a lo hi b d e : utf8_lead a = Some (lo, hi, 2%nat) ->
  byte_in lo hi b = true /\ is_cont d = true /\ is_cont e = true <-> seq4 a b d e.
Proof. intros H. unfold is_cont. rows H; rewrite !byte_in_true; unfold seq4; split; intros; repeat split; lia. Qed.
Lemma lead_shape a lo hi more : utf8_lead a = Some (lo, hi, more) ->
  (more <= 2)%nat /\ 128 <= lo /\ lo <= hi /\ hi <= 191 /\ 194 <= code a <= 244.
Proof. intros H. rows H; repeat split; lia. Qed.
Lemma lead_range a more :
  (more = 0%nat /\ 194 <= code a <= 223) \/ (more = 1%nat /\ 224 <= code a <= 239) \/ (more = 2%nat /\ 240 <= code a <= 244) ->
  exists lo hi, utf8_lead a = Some (lo, hi, more).
Proof.
  intros H. assert (194 <= code a <= 244) by lia. unfold utf8_lead.
  destruct (byte_in 194 223 a) eqn:H1; [apply byte_in_true in H1; assert (more = 0)%nat as -> by lia; by eexists _, _|].
  destruct (byte_in 224 224 a) eqn:H2; [apply byte_in_true in H2; assert (more = 1)%nat as -> by lia; by eexists _, _|].
  destruct (byte_in 237 237 a) eqn:H3; [apply byte_in_true in H3; assert (more = 1)%nat as -> by lia; by eexists _, _|].
  destruct (byte_in 225 239 a) eqn:H4; [apply byte_in_true in H4; assert (more = 1)%nat as -> by lia; by eexists _, _|].
  destruct (byte_in 240 240 a) eqn:H5; [apply byte_in_true in H5; assert (more = 2)%nat as -> by lia; by eexists _, _|].
  destruct (byte_in 241 243 a) eqn:H6; [apply byte_in_true in H6; assert (more = 2)%nat as -> by lia; by eexists _, _|].
  destruct (byte_in 244 244 a) eqn:H7; [apply byte_in_true in H7; assert (more = 2)%nat as -> by lia; by eexists _, _|].
  exfalso. apply byte_in_false in H1, H2, H3, H4, H5, H6, H7. lia.
Qed.
Lemma high_not_ascii a lo hi more : utf8_lead a = Some (lo, hi, more) -> (code a <? 128) = false.
Proof. intros H. apply lead_shape in H. apply N.ltb_ge. lia. Qed.

(* What the beginning of a scalar looks like. *)
Lemma begins_one a : begins_scalar [a] <-> code a < 128 \/ exists p, utf8_lead a = Some p.
Proof.
  split.
  - intros (c & y & Hc & He).
    destruct (encode_cases c Hc) as [[Hl E]|[(a' & b & E & Hs & _)|[(a' & b & d & E & Hs & _)|(a' & b & d & e & E & Hs & _)]]];
      rewrite E in He; cbn [app] in He; [injection He as <- ?|injection He as -> ?..].
    + left. rewrite code_of by lia. done.
    + right. destruct (lead_range a 0%nat) as (lo & hi & ->); [unfold seq2 in Hs; lia|]. by eexists.
    + right. destruct (lead_range a 1%nat) as (lo & hi & ->); [unfold seq3 in Hs; lia|]. by eexists.
    + right. destruct (lead_range a 2%nat) as (lo & hi & ->); [unfold seq4 in Hs; lia|]. by eexists.
  - intros [Ha|[[[lo hi] more] Hl]].
    + destruct (encode1 a Ha) as (c & Hc & E). by exists c, [].
    + pose proof (lead_shape _ _ _ _ Hl) as (Hm & H1 & H2 & H3 & H4).
      assert (Hb : byte_in lo hi (ascii_of_N lo) = true) by (apply byte_in_true; rewrite code_of by lia; lia).
      assert (Hd : is_cont (ascii_of_N 128) = true) by by vm_compute.
      destruct more as [|[|[|]]]; [| | |lia].
      * apply (lead_two _ _ _ _ Hl) in Hb. destruct (encode2 _ _ Hb) as (c & Hc & E). exists c; eexists; split; [done|exact E].
      * destruct (encode3 a (ascii_of_N lo) (ascii_of_N 128)) as (c & Hc & E); [by apply (lead_three _ _ _ _ _ Hl)|].
        exists c; eexists; split; [done|exact E].
      * destruct (encode4 a (ascii_of_N lo) (ascii_of_N 128) (ascii_of_N 128)) as (c & Hc & E);
          [by apply (lead_four _ _ _ _ _ _ Hl)|]. exists c; eexists; split; [done|exact E].
Qed.
Lemma begins_two a b : begins_scalar [a; b] <->
  exists lo hi more, utf8_lead a = Some (lo, hi, more) /\ byte_in lo hi b = true.
Proof.
  split.
  - intros (c & y & Hc & He).
    destruct (encode_cases c Hc) as [[Hl E]|[(a' & b' & E & Hs & _)|[(a' & b' & d & E & Hs & _)|(a' & b' & d & e & E & Hs & _)]]];
      rewrite E in He; cbn [app] in He; [done|..]; injection He as -> -> ?.
    + destruct (lead_range a 0%nat) as (lo & hi & Hl); [unfold seq2 in Hs; lia|]. exists lo, hi, 0%nat.
      split; [done|]. by apply (lead_two _ _ _ _ Hl).
    + destruct (lead_range a 1%nat) as (lo & hi & Hl); [unfold seq3 in Hs; lia|]. exists lo, hi, 1%nat.
      split; [done|]. by apply (lead_three _ _ _ _ _ Hl) in Hs as [? _].
    + destruct (lead_range a 2%nat) as (lo & hi & Hl); [unfold seq4 in Hs; lia|]. exists lo, hi, 2%nat.
      split; [done|]. by apply (lead_four _ _ _ _ _ _ Hl) in Hs as [? _].
  - intros (lo & hi & more & Hl & Hb). pose proof (lead_shape _ _ _ _ Hl) as (Hm & _).
    assert (Hd : is_cont (ascii_of_N 128) = true) by by vm_compute.
    destruct more as [|[|[|]]]; [| | |lia].
    + apply (lead_two _ _ _ _ Hl) in Hb. destruct (encode2 _ _ Hb) as (c & Hc & E). by exists c, [].
    + destruct (encode3 a b (ascii_of_N 128)) as (c & Hc & E); [by apply (lead_three _ _ _ _ _ Hl)|].
      exists c; eexists; split; [done|exact E].
    + destruct (encode4 a b (ascii_of_N 128) (ascii_of_N 128)) as (c & Hc & E);
        [by apply (lead_four _ _ _ _ _ _ Hl)|]. exists c; eexists; split; [done|exact E].
Qed.
Lemma begins_three a b d : begins_scalar [a; b; d] <->
  exists lo hi more, utf8_lead a = Some (lo, hi, S more) /\ byte_in lo hi b = true /\ is_cont d = true.
Proof.
  split.
  - intros (c & y & Hc & He).
    destruct (encode_cases c Hc) as [[Hl E]|[(a' & b' & E & Hs & _)|[(a' & b' & d' & E & Hs & _)|(a' & b' & d' & e & E & Hs & _)]]];
      rewrite E in He; cbn [app] in He; [done|done|..]; injection He as -> -> -> ?.
    + destruct (lead_range a 1%nat) as (lo & hi & Hl); [unfold seq3 in Hs; lia|]. exists lo, hi, 0%nat.
      split; [done|]. by apply (lead_three _ _ _ _ _ Hl) in Hs.
    + destruct (lead_range a 2%nat) as (lo & hi & Hl); [unfold seq4 in Hs; lia|]. exists lo, hi, 1%nat.
      split; [done|]. by apply (lead_four _ _ _ _ _ _ Hl) in Hs as (? & ? & _).
  - intros (lo & hi & more & Hl & Hb & Hd). pose proof (lead_shape _ _ _ _ Hl) as (Hm & _).
    assert (Hf : is_cont (ascii_of_N 128) = true) by by vm_compute.
    destruct more as [|[|]]; [| |lia].
    + destruct (encode3 a b d) as (c & Hc & E); [by apply (lead_three _ _ _ _ _ Hl)|]. by exists c, [].
    + destruct (encode4 a b d (ascii_of_N 128)) as (c & Hc & E);
        [by apply (lead_four _ _ _ _ _ _ Hl)|]. exists c; eexists; split; [done|exact E].
Qed.
Lemma begins_app x y : begins_scalar (x ++ y) -> begins_scalar x.
Proof. intros (c & z & Hc & E). exists c, (y ++ z). by rewrite app_assoc. Qed.

Lemma encode_nonempty c : encode_scalar c <> [].
Proof. unfold encode_scalar. by repeat case_match. Qed.
