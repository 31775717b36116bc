(** C21-C24: the [aws-chunked] decoder. *)
From Verif Require Import M_Base M_Headers M_Crypto M_SigV4 M_Chunked S_Path S_Chunked
  L_Base L_SigV4 L_Crypto L_Chunked.
Local Opaque sha256 hmac_sha256 signing_key to_iso8601 to_date to_hex chunk_sig.

Lemma read_data_spec size prev fs :
  match read_data size prev fs with
  | REof | RIo => 
      ((N.of_nat (length (prev ++ carried fs)) < size)%N \/
       exists data, N.of_nat (length data) = size /\
         (prev ++ carried fs = data \/ prev ++ carried fs = data ++ [CR])) /\
      broken fs = match read_data size prev fs with RIo => true | _ => false end
  | RFormat => exists data tail, prev ++ carried fs = data ++ tail /\
      N.of_nat (length data) = size /\
      (forall r, tail <> CRLF ++ r) /\ tail <> [] /\ tail <> [CR]
  | ROk ps rest fs' =>
      N.of_nat (length (concat ps)) = size /\
      prev ++ carried fs = concat ps ++ CRLF ++ rest ++ carried fs' /\
      broken fs' = broken fs /\ (size_left rest fs' <= size_left prev fs)%nat
  end.
Proof.
  unfold read_data. pose proof (collect_data_spec size [] prev fs) as H.
  destruct (collect_data size [] prev fs) as [| | |ps rest fs'].
  - destruct H. auto.
  - destruct H. auto.
  - done.
  - destruct H as (more & -> & Hlen & Heq & Hb & Hs). cbn [app].
    pose proof (expect_crlf_spec rest fs') as H.
    destruct (expect_crlf rest fs') as [| | |[] rest' fs''].
    + destruct H as [H Hb']. rewrite <- Hb. split; [|done]. right. exists (concat more).
      split; [done|]. rewrite Heq. destruct H as [-> | ->]; [left; by rewrite app_nil_r|by right].
    + destruct H as [H Hb']. rewrite <- Hb. split; [|done]. right. exists (concat more).
      split; [done|]. rewrite Heq. destruct H as [-> | ->]; [left; by rewrite app_nil_r|by right].
    + exists (concat more), (rest ++ carried fs'). auto.
    + destruct H as (Heq' & Hb' & Hs'). rewrite Heq, Heq'. split_and!; auto; [congruence|lia].
Qed.

(** Every run of the decoder is one the format allows. *)
Lemma chunk_loop_means fuel ctx prev fs out e :
  (size_left prev fs < fuel)%nat ->
  chunk_loop fuel ctx prev fs = (out, e) ->
  chunked_means (sc_date ctx) (sc_region ctx) (sc_secret ctx) (sc_prev ctx)
    (prev ++ carried fs) (broken fs) (concat out) e.
Proof.
  revert ctx prev fs out. induction fuel as [|fuel IH]; intros ctx prev fs out Hf; [lia|].
  cbn [chunk_loop]. pose proof (read_meta_spec [] prev fs) as H.
  destruct (read_meta [] prev fs) as [| | |buf prev1 fs1].
  - destruct H as [H ->]. intros [= <- <-]. by constructor.
  - destruct H as [H ->]. intros [= <- <-]. by constructor.
  - done.
  - destruct H as (line & -> & Hlf & Heq & Hb & Hs). cbn [app].
    destruct (parse_chunk_meta (line ++ [LF])) as [[size expected]|] eqn:Em.
    2:{ intros [= <- <-]. rewrite Heq. apply cm_bad_header; [done|].
        intros n sig. rewrite <- parse_chunk_meta_spec. congruence. }
    apply parse_chunk_meta_spec in Em.
    assert (Hrl : LF ∉ removelast (line ++ [LF])) by by rewrite removelast_last.
    rewrite app_assoc in Heq.
    pose proof (read_data_spec size prev1 fs1) as Hd.
    destruct (read_data size prev1 fs1) as [| | |ps prev2 fs2] eqn:Er.
    + destruct Hd as [Hd Hb1]. intros [= <- <-]. rewrite Heq, <- Hb, Hb1.
      eapply (cm_short _ _ _ _ _ _ _ _ false); eauto.
    + destruct Hd as [Hd Hb1]. intros [= <- <-]. rewrite Heq, <- Hb, Hb1.
      eapply (cm_short _ _ _ _ _ _ _ _ true); eauto.
    + destruct Hd as (data & tail & Hd & Hlen & Ht). intros [= <- <-].
      rewrite Heq, Hd. eapply cm_no_crlf; naive_solver.
    + destruct Hd as (Hlen & Hd & Hb2 & Hs2).
      destruct (check_chunk_signature ctx expected ps) as [s|] eqn:Ec.
      * apply check_chunk_signature_spec in Ec as [-> Hsig].
        destruct (chunk_loop fuel _ prev2 fs2) as [out' e'] eqn:El.
        intros [= <- <-]. apply IH in El; [|lia]. cbn [sc_date sc_region sc_secret sc_prev] in El.
        rewrite concat_app, Heq, Hd, <- Hb, <- Hb2.
        eapply cm_chunk; eauto.
      * intros [= <- <-]. rewrite Heq, Hd. eapply cm_mismatch; eauto.
        intros Hsig. assert (check_chunk_signature ctx expected ps = Some expected) as H
          by by apply check_chunk_signature_spec.
        congruence.
Qed.

(** The format determines the result. *)
Lemma line_lf line n sig rest :
  header_line line n sig -> LF ∈ line ++ rest.
Proof.
  intros H. apply header_line_lf in H as (body & -> & _).
  apply elem_of_app. left. apply elem_of_app. right. by left.
Qed.

Lemma line_split line n sig rest line' n' sig' rest' :
  header_line line n sig -> LF ∉ removelast line ->
  header_line line' n' sig' -> LF ∉ removelast line' ->
  line ++ rest = line' ++ rest' ->
  line = line' /\ n = n' /\ sig = sig' /\ rest = rest'.
Proof.
  intros H Hl H' Hl' Heq.
  pose proof (header_line_lf _ _ _ H) as (body & Hb & Hr).
  pose proof (header_line_lf _ _ _ H') as (body' & Hb' & Hr').
  rewrite Hr in Hl. rewrite Hr' in Hl'.
  rewrite Hb, Hb', <- !app_assoc in Heq. cbn [app] in Heq.
  apply app_sep_inj in Heq as [-> ->]; [|done..].
  assert (line = line') as -> by congruence.
  split; [done|]. destruct (header_line_fun _ _ _ _ _ H H'). done.
Qed.

Lemma line_bad line rest line' n' sig' rest' :
  LF ∉ line -> (forall n sig, ~ header_line (line ++ [LF]) n sig) ->
  header_line line' n' sig' -> LF ∉ removelast line' ->
  line ++ [LF] ++ rest = line' ++ rest' -> False.
Proof.
  intros Hl Hbad H' Hl' Heq.
  pose proof (header_line_lf _ _ _ H') as (body' & Hb' & Hr').
  rewrite Hr' in Hl'. rewrite Hb', <- !app_assoc in Heq. cbn [app] in Heq.
  apply app_sep_inj in Heq as [-> ->]; [|done..]. rewrite Hb' in H'. by eapply Hbad.
Qed.

Lemma data_inj n (d1 d2 t1 t2 : bytes) :
  N.of_nat (length d1) = n -> N.of_nat (length d2) = n -> d1 ++ t1 = d2 ++ t2 ->
  d1 = d2 /\ t1 = t2.
Proof. intros. apply app_inj_1; [lia|done]. Qed.

Lemma data_short n (data tail : bytes) :
  N.of_nat (length data) = n ->
  (N.of_nat (length (data ++ tail)) < n)%N \/
    (exists data', N.of_nat (length data') = n /\
      (data ++ tail = data' \/ data ++ tail = data' ++ [CR])) ->
  tail = [] \/ tail = [CR].
Proof.
  intros Hlen [Hs|(d' & Hl & [Hs|Hs])].
  - rewrite app_length in Hs. lia.
  - rewrite <- (app_nil_r d') in Hs. apply (data_inj n) in Hs as [_ ->]; auto.
  - apply (data_inj n) in Hs as [_ ->]; auto.
Qed.

(* Relate the two readings of the same input. *)
Local Ltac read_line :=
  match goal with
  | X : LF ∉ ?l ++ _, Hh : header_line ?l _ _ |- _ => exfalso; apply X; by eapply line_lf
  | X : LF ∉ _ ++ [LF] ++ _ |- _ => exfalso; apply X; apply elem_of_app; right; by left
  | X : LF ∉ _ ++ LF :: _ |- _ => exfalso; apply X; apply elem_of_app; right; by left
  | Hb : (forall n sig, ~ header_line (?l0 ++ [LF]) n sig), Hl0 : LF ∉ ?l0,
    Hh : header_line ?l ?n ?sig, Hl : LF ∉ removelast ?l, Hi : ?l0 ++ _ = ?l ++ _ |- _ =>
      exfalso; exact (line_bad _ _ _ _ _ _ Hl0 Hb Hh Hl Hi)
  | Hb : (forall n sig, ~ header_line (?l0 ++ [LF]) n sig), Hl0 : LF ∉ ?l0,
    Hh : header_line ?l ?n ?sig, Hl : LF ∉ removelast ?l, Hi : ?l ++ _ = ?l0 ++ _ |- _ =>
      exfalso; exact (line_bad _ _ _ _ _ _ Hl0 Hb Hh Hl (eq_sym Hi))
  | Hh0 : header_line ?l0 ?n0 ?s0, Hl0 : LF ∉ removelast ?l0,
    Hh : header_line ?l ?n ?s, Hl : LF ∉ removelast ?l, Hi : ?l0 ++ _ = ?l ++ _ |- _ =>
      destruct (line_split _ _ _ _ _ _ _ _ Hh0 Hl0 Hh Hl Hi) as (? & ? & ? & ?);
      clear Hi Hh0 Hl0; subst l0
  end.
Local Ltac read_data' :=
  match goal with
  | Hd : N.of_nat (length ?d) = N.of_nat (length ?d0), Hi : ?d ++ _ = ?d0 ++ _ |- _ =>
      destruct (data_inj _ _ _ _ _ Hd eq_refl Hi) as [? ?]; clear Hi
  end.

Lemma chunked_means_fun d region secret prev input br out e out' e' :
  chunked_means d region secret prev input br out e ->
  chunked_means d region secret prev input br out' e' ->
  out = out' /\ e = e'.
Proof.
  intros H. revert out' e'.
  induction H as [prev input Hlf|prev input Hlf|prev line rest br Hlf Hbad
    |prev line n sig data rest br out e Hh Hlf Hlen Hsig H IH
    |prev line n sig data rest br Hh Hlf Hlen Hsig
    |prev line n sig data tail br Hh Hlf Hlen Ht1 Ht2 Ht3
    |prev line n sig rest br Hh Hlf Hs]; intros out' e' H'; inversion H'; clear H';
    subst; try done; try read_line; try done; try read_data'; subst;
    repeat match goal with X : CR :: LF :: _ = CR :: LF :: _ |- _ => injection X as X end; subst;
    try done.
  all: try (exfalso; match goal with X : forall r, _ <> CRLF ++ r |- _ => by eapply X end).
  all: try match goal with
    | X : (N.of_nat (length (?dd ++ ?t)) < N.of_nat (length ?dd))%N \/ _ |- _ =>
        exfalso; apply (data_short _ dd t eq_refl) in X as [X|X]; done
    end.
  match goal with X : chunked_means _ _ _ _ _ _ out0 _ |- _ => apply IH in X as [<- <-] end. done.
Qed.

(** The decoder implements the format: for every framing, its result is the one the format
    defines for the bytes received. *)
Theorem C21_decoder_implements_format d region secret seed fs out e :
  (exists pieces, aws_chunked d region secret seed fs = (pieces, e) /\ concat pieces = out) <->
  chunked_means d region secret seed (carried fs) (broken fs) out e.
Proof.
  unfold aws_chunked.
  destruct (chunk_loop (S (frames_len fs)) (SignatureCtx d region secret seed) [] fs)
    as [ps e'] eqn:E.
  pose proof E as E'. apply chunk_loop_means in E'; [|unfold size_left; simpl; lia].
  cbn [sc_date sc_region sc_secret sc_prev app] in E'. split.
  - intros (? & [= <- <-] & <-). done.
  - intros H. exists ps. destruct (chunked_means_fun _ _ _ _ _ _ _ _ _ _ H E') as [-> ->]. done.
Qed.
Print Assumptions C21_decoder_implements_format.

(** C21 *)
Theorem C21_framing_independent d region secret seed fs fs' :
  carried fs = carried fs' -> broken fs = broken fs' ->
  concat (aws_chunked d region secret seed fs).1 = concat (aws_chunked d region secret seed fs').1 /\
  (aws_chunked d region secret seed fs).2 = (aws_chunked d region secret seed fs').2.
Proof.
  intros Hc Hb.
  destruct (aws_chunked d region secret seed fs) as [ps e] eqn:E.
  destruct (aws_chunked d region secret seed fs') as [ps' e'] eqn:E'.
  assert (chunked_means d region secret seed (carried fs) (broken fs) (concat ps) e) as H
    by (apply C21_decoder_implements_format; eauto).
  assert (chunked_means d region secret seed (carried fs') (broken fs') (concat ps') e') as H'
    by (apply C21_decoder_implements_format; eauto).
  rewrite <- Hc, <- Hb in H'. cbn [fst snd]. by eapply chunked_means_fun.
Qed.
Print Assumptions C21_framing_independent.

(** The model's loop never runs out of fuel. *)
Theorem C21_decoder_terminates d region secret seed fs :
  (aws_chunked d region secret seed fs).2 <> SFuel.
Proof.
  destruct (aws_chunked d region secret seed fs) as [ps e] eqn:E. cbn [snd].
  assert (chunked_means d region secret seed (carried fs) (broken fs) (concat ps) e) as H
    by (apply C21_decoder_implements_format; eauto).
  clear E. revert H. generalize (concat ps). intros out H. induction H; done.
Qed.
Print Assumptions C21_decoder_terminates.

(** C22: what is delivered is the data of a leading run of chunks of the received bytes, each
    carrying the signature of its data chained from the seed. *)
Lemma chunked_means_delivered d region secret prev input br out e :
  chunked_means d region secret prev input br out e ->
  exists chunks rest, input = encode_chunks d region secret prev chunks ++ rest /\
    sizes_ok chunks /\ out = concat (map snd chunks) /\ (e = SEnd <-> LF ∉ rest /\ br = false).
Proof.
  unfold sizes_ok, encode_chunks.
  induction 1 as [prev input Hlf|prev input Hlf|prev line rest br Hlf Hbad
    |prev line n sig data rest br out e Hh Hlf Hlen Hsig H IH
    |prev line n sig data rest br Hh Hlf Hlen Hsig
    |prev line n sig data tail br Hh Hlf Hlen Ht1 Ht2 Ht3
    |prev line n sig rest br Hh Hlf Hs].
  1,2: (exists [], input; split; [done|]; split; [constructor|]; split; [done|]; split; [done|]; by intros []).
  1: { exists [], (line ++ [LF] ++ rest). split; [done|]. split; [constructor|]. split; [done|]. split; [done|].
       intros [H _]. destruct H. rewrite !elem_of_app, elem_of_list_singleton. auto. }
  2-4: (match goal with |- exists chunks rest', ?x = _ /\ _ => exists [], x end; split; [done|]; split; [constructor|];
    split; [done|]; split; [done|]; intros [H _]; destruct H; apply elem_of_app; left;
    destruct Hh as (size & -> & _); unfold chunk_header, CRLF; rewrite !elem_of_app; right; right; right; by right; left).
  destruct IH as (chunks & rest' & -> & Hok & -> & He).
  pose proof (header_line_lf _ _ _ Hh) as (body & Hb & Hr). rewrite Hr in Hlf.
  destruct Hh as (size & -> & Hsemi & Hsz & Hl64).
  exists ((size, data) :: chunks), rest'. cbn [encode_with map concat].
  rewrite <- Hsig. split_and!; auto.
  - rewrite <- !app_assoc. done.
  - constructor; [|done]. cbn [fst snd]. rewrite Hlen. split_and!; auto.
    intros Hin. apply Hlf. rewrite <- Hr. unfold chunk_header, CRLF.
    change [CR; LF] with ([CR] ++ [LF]). rewrite !app_assoc, removelast_last, <- !app_assoc.
    apply elem_of_app. by left.
Qed.

Theorem C22_only_verified_bytes d region secret seed fs pieces e :
  aws_chunked d region secret seed fs = (pieces, e) ->
  exists chunks rest,
    carried fs = encode_chunks d region secret seed chunks ++ rest /\
    sizes_ok chunks /\
    concat pieces = concat (map snd chunks) /\
    (* the stream ends well if and only if no line is left *)
    (e = SEnd <-> LF ∉ rest /\ broken fs = false).
Proof.
  intros E. eapply chunked_means_delivered. apply C21_decoder_implements_format. eauto.
Qed.
Print Assumptions C22_only_verified_bytes.

(** A chunk with a wrong signature ends the stream in an error and none of its bytes, nor any
    later byte, is delivered. *)
Lemma sizes_header d region secret prev size data :
  size_field size (N.of_nat (length data)) -> ";"%char ∉ size ->
  header_line (chunk_header size (chunk_sig d region secret prev data)) (N.of_nat (length data))
    (chunk_sig d region secret prev data).
Proof.
  intros H1 H2. exists size. split_and!; auto.
  Transparent chunk_sig. unfold chunk_sig. rewrite to_hex_length, hmac_length. reflexivity.
Qed.
Local Opaque chunk_sig.

Lemma chunk_sig_no_LF d region secret prev data : LF ∉ chunk_sig d region secret prev data.
Proof. Transparent chunk_sig. unfold chunk_sig. apply to_hex_no_LF. Qed.
Local Opaque chunk_sig.

Lemma header_removelast size sig :
  LF ∉ size -> LF ∉ sig -> LF ∉ removelast (chunk_header size sig).
Proof.
  intros H1 H2. unfold chunk_header, CRLF. change [CR; LF] with ([CR] ++ [LF]).
  rewrite !app_assoc, removelast_last, !elem_of_app. intros [[[?|H]|?]|H]; try done.
  - revert H. compute_done.
  - revert H. compute_done.
Qed.

Lemma encode_means d region secret prev chunks rest br out e :
  sizes_ok chunks ->
  chunked_means d region secret (foldl (chunk_sig d region secret) prev (map snd chunks))
    rest br out e ->
  chunked_means d region secret prev (encode_chunks d region secret prev chunks ++ rest) br
    (concat (map snd chunks) ++ out) e.
Proof.
  unfold encode_chunks. revert prev.
  induction chunks as [|[size data] cs IH]; intros prev Hok Hm; [done|].
  cbn [encode_with map concat foldl fst snd] in *. rewrite <- !app_assoc.
  inversion Hok as [|? ? (H1 & H2 & H3) Hok']; subst. cbn [fst snd] in *.
  eapply cm_chunk; [by apply sizes_header| |done|done|by apply IH].
  apply header_removelast; [done|]. apply chunk_sig_no_LF.
Qed.

Theorem C22_mismatch_stops d region secret seed chunks size sig data rest fs :
  sizes_ok chunks -> sizes_ok [(size, data)] -> length sig = 64%nat -> LF ∉ sig ->
  sig <> chunk_sig d region secret (foldl (chunk_sig d region secret) seed (map snd chunks)) data ->
  carried fs = encode_chunks d region secret seed chunks ++
    chunk_header size sig ++ data ++ CRLF ++ rest ->
  concat (aws_chunked d region secret seed fs).1 = concat (map snd chunks) /\
  (aws_chunked d region secret seed fs).2 = SErr CeMismatch.
Proof.
  intros Hok Hok1 Hlen Hlf Hne Hc.
  apply Forall_singleton in Hok1 as (H1 & H2 & H3). cbn [fst snd] in *.
  assert (chunked_means d region secret seed (carried fs) (broken fs)
    (concat (map snd chunks) ++ []) (SErr CeMismatch)) as H.
  { rewrite Hc. apply encode_means; [done|]. eapply cm_mismatch; [|by apply header_removelast|done|done].
    exists size. split_and!; auto. }
  apply C21_decoder_implements_format in H as (ps & -> & H). cbn [fst snd].
  rewrite H, app_nil_r. done.
Qed.
Print Assumptions C22_mismatch_stops.

(** What a chunk signature commits to: equal signatures mean equal data and equal position in
    the chain, unless HMAC-SHA-256 or SHA-256 collides on the inputs shown. *)
Theorem C22_signature_binds d region secret prev data prev' data' :
  LF ∉ prev -> LF ∉ prev' ->
  chunk_sig d region secret prev data = chunk_sig d region secret prev' data' ->
  (prev = prev' /\ data = data') \/
  (exists m m', m <> m' /\
     hmac_sha256 (signing_key secret d region) m = hmac_sha256 (signing_key secret d region) m') \/
  (data <> data' /\ sha256 data = sha256 data').
Proof.
  Transparent chunk_sig.
  intros Hp Hp' H. unfold chunk_sig in H. apply to_hex_inj in H.
  match type of H with hmac_sha256 _ ?m = hmac_sha256 _ ?m' =>
    destruct (decide (m = m')) as [Heq|Hne]; [|by right; left; eexists _, _] end.
  repeat (apply app_inj_1 in Heq as [_ Heq]; [|done]).
  apply app_sep_inj in Heq as [-> Heq]; [|done..].
  apply app_inj_1 in Heq as [_ Heq]; [|done]. injection Heq as Heq. apply to_hex_inj in Heq.
  destruct (decide (data = data')) as [->|?]; auto.
Qed.
Local Opaque chunk_sig.
Print Assumptions C22_signature_binds.

(** C23 *)
Theorem C23_round_trip d region secret seed chunks fs :
  sizes_ok chunks ->
  carried fs = encode_chunks d region secret seed chunks -> broken fs = false ->
  concat (aws_chunked d region secret seed fs).1 = concat (map snd chunks) /\
  (aws_chunked d region secret seed fs).2 = SEnd.
Proof.
  intros Hok Hc Hb.
  assert (chunked_means d region secret seed (carried fs) (broken fs)
    (concat (map snd chunks) ++ []) SEnd) as H.
  { rewrite Hc, Hb, <- (app_nil_r (encode_chunks _ _ _ _ _)). apply encode_means; [done|].
    constructor. apply not_elem_of_nil. }
  apply C21_decoder_implements_format in H as (ps & -> & H). cbn [fst snd].
  rewrite H, app_nil_r. done.
Qed.
Print Assumptions C23_round_trip.

(** Every chunk below 4 GiB has a size text, so the round trip applies to all of them. *)
Lemma hexdigit_exists n : (n < 16)%N -> exists a, a ∈ hexdigits /\ hexvalue a = n /\
  a <> ";"%char /\ a <> LF.
Proof.
  intros H. exists (hex_digit_lower n).
  assert (forall k, (k < 16)%nat -> hex_digit_lower (N.of_nat k) ∈ hexdigits /\
    hexvalue (hex_digit_lower (N.of_nat k)) = N.of_nat k /\
    hex_digit_lower (N.of_nat k) <> ";"%char /\ hex_digit_lower (N.of_nat k) <> LF) as Hk.
  { intros k Hk. do 16 (destruct k as [|k]; [split_and!; compute_done|]). lia. }
  specialize (Hk (N.to_nat n) ltac:(lia)). by rewrite N2Nat.id in Hk.
Qed.

Lemma size_text_exists k n : (n < 16 ^ N.of_nat k)%N ->
  exists s, length s = k /\ hex_denotes s n /\ ";"%char ∉ s /\ LF ∉ s.
Proof.
  revert n. induction k as [|k IH]; intros n Hn.
  - exists []. change (16 ^ N.of_nat 0)%N with 1%N in Hn. assert (n = 0)%N as -> by lia.
    split_and!; [done|constructor|apply not_elem_of_nil..].
  - rewrite Nat2N.inj_succ, N.pow_succ_r' in Hn.
    destruct (IH (n / 16)%N) as (s & Hl & Hd & Hs1 & Hs2).
    { apply N.div_lt_upper_bound; lia. }
    destruct (hexdigit_exists (n mod 16)) as (a & Ha & Hv & Ha1 & Ha2).
    { apply N.mod_lt. lia. }
    exists (s ++ [a]). split_and!.
    + rewrite app_length. simpl. lia.
    + pose proof (hd_snoc s (n / 16) a Hd Ha) as X. rewrite Hv in X.
      replace (n / 16 * 16 + n mod 16)%N with n in X; [done|].
      pose proof (N.div_mod n 16 ltac:(lia)). lia.
    + intros [?|?]%elem_of_app; [done|]. set_solver.
    + intros [?|?]%elem_of_app; [done|]. set_solver.
Qed.

Theorem C23_every_chunk_can_be_sent datas :
  Forall (fun data => N.of_nat (length data) < 2 ^ 32)%N datas ->
  exists chunks, map snd chunks = datas /\ sizes_ok chunks.
Proof.
  induction 1 as [|data datas H _ (chunks & Hm & Hok)].
  - exists []. split; [done|constructor].
  - destruct (size_text_exists 8 (N.of_nat (length data))) as (s & Hl & Hd & H1 & H2); [exact H|].
    exists ((s, data) :: chunks). split; [cbn; by f_equal|]. constructor; [|done]. cbn [fst snd].
    split; [|split; done]. exists s, []. rewrite app_nil_r.
    split_and!; [done|by intros ->|done|lia|by left].
Qed.
Print Assumptions C23_every_chunk_can_be_sent.

(** C24: the stream may end early without an error.  Witness: one data chunk, the final
    zero-length chunk missing, is accepted as complete. *)
Definition c24_date : amz_date := AmzDate 2013 5 24 0 0 0.
Definition c24_body : bytes :=
  encode_chunks c24_date (B "us-east-1") (B "secret") (B "seed") [(B "3", B "abc"); (B "0", [])].
Definition c24_cut : bytes :=
  encode_chunks c24_date (B "us-east-1") (B "secret") (B "seed") [(B "3", B "abc")].

Theorem C24_truncation_detected_refuted :
  exists d region secret seed (sent received : bytes) rest,
    sent = received ++ rest /\ rest <> [] /\
    (* [sent] is a complete upload: it ends with the signed zero-length chunk *)
    (exists chunks, sent = encode_chunks d region secret seed (chunks ++ [(B "0", [])]) /\
       Forall (fun c => c.2 <> []) chunks) /\
    (* and yet a shorter body is taken as complete, with less data *)
    (aws_chunked d region secret seed [FData received]).2 = SEnd.
Proof.
  exists c24_date, (B "us-east-1"), (B "secret"), (B "seed"), c24_body, c24_cut,
    (drop (length c24_cut) c24_body).
  split_and!.
  - vm_compute. reflexivity.
  - vm_compute. discriminate.
  - exists [(B "3", B "abc")]. split; [reflexivity|]. repeat constructor; done.
  - vm_compute. reflexivity.
Qed.
Print Assumptions C24_truncation_detected_refuted.

(** What holds: a body cut inside the data of a chunk, or inside the CR LF after it, is
    reported as incomplete, and in every case only whole chunks sent before the cut are
    delivered.  Missing (refuted above): cuts at a chunk boundary or inside a header line. *)
Lemma prefix_lines (a b x y : bytes) : a ++ b = x ++ y -> 
  (exists k, a = x ++ k /\ y = k ++ b) \/ (exists k, x = a ++ k /\ b = k ++ y /\ k <> []).
Proof.
  revert x. induction a as [|c a IH]; intros x Heq.
  - destruct x as [|c x]; [left; exists []; auto|]. right. exists (c :: x). auto.
  - destruct x as [|c' x]; cbn in Heq; [left; exists (c :: a); auto|].
    injection Heq as -> Heq. destruct (IH _ Heq) as [(k & -> & ->)|(k & -> & -> & ?)]; eauto.
Qed.

Lemma truncated_means d region secret prev chunks received rest :
  sizes_ok chunks ->
  encode_chunks d region secret prev chunks = received ++ rest ->
  exists k partial,
    received = encode_chunks d region secret prev (take k chunks) ++ partial /\
    (LF ∉ partial /\
       chunked_means d region secret prev received false (concat (map snd (take k chunks))) SEnd
     \/ LF ∈ partial /\ 
       chunked_means d region secret prev received false (concat (map snd (take k chunks)))
         (SErr CeIncomplete)).
Proof.
  unfold encode_chunks. revert prev received.
  induction chunks as [|[size data] cs IH]; intros prev received Hok Heq.
  - cbn in Heq. symmetry in Heq. apply app_eq_nil in Heq as [-> ->].
    exists 0%nat, []. split; [done|]. left. split; [apply not_elem_of_nil|].
    constructor. apply not_elem_of_nil.
  - inversion Hok as [|? ? (H1 & H2 & H3) Hok']; subst. cbn [fst snd] in *.
    cbn [encode_with] in Heq. set (sig := chunk_sig d region secret prev data) in *.
    assert (Hh : header_line (chunk_header size sig) (N.of_nat (length data)) sig)
      by by apply sizes_header.
    assert (Hrl : LF ∉ removelast (chunk_header size sig))
      by (apply header_removelast; [done|apply chunk_sig_no_LF]).
    symmetry in Heq. apply prefix_lines in Heq as [(k & -> & Heq)|(k & Hk & -> & Hne)].
    + (* the header line was received *)
      destruct (decide (length data + 2 <= length k)%nat) as [Hge|Hlt].
      * rewrite app_assoc in Heq. symmetry in Heq.
        apply prefix_lines in Heq as [(k' & -> & Heq)|(k' & Hk' & _ & Hne')].
        2:{ exfalso. apply (f_equal length) in Hk'. rewrite !app_length in Hk'. simpl in Hk'.
            destruct k'; [done|simpl in Hk'; lia]. }
        destruct (IH sig k' Hok' Heq) as (n & partial & -> & Hm).
        exists (S n), partial. cbn [take encode_with map concat fst snd]. fold sig.
        rewrite <- !app_assoc. split; [done|].
        destruct Hm as [[Hl Hm]|[Hl Hm]]; [left|right]; (split; [done|]);
          (eapply cm_chunk; eauto).
      * exists 0%nat, (chunk_header size sig ++ k). split; [done|]. right.
        split; [by eapply line_lf|]. cbn [take map concat].
        apply (cm_short _ _ _ _ _ (N.of_nat (length data)) sig k false); [done..|].
        destruct (decide (length k < length data)%nat); [left; lia|right].
        exists data. split; [done|]. symmetry in Heq.
        destruct (prefix_lines _ _ _ _ Heq) as [(k' & -> & Heq')|(k' & Hk' & _ & Hne')].
        -- destruct k' as [|c [|c' k']].
           ++ left. by rewrite app_nil_r.
           ++ right. cbn in Heq'. injection Heq' as <- _. done.
           ++ exfalso. rewrite app_length in Hlt. simpl in Hlt. lia.
        -- exfalso. apply (f_equal length) in Hk'. rewrite app_length in Hk'.
           destruct k'; [done|simpl in *; lia].
    + (* cut inside the header line *)
      assert (LF ∉ received).
      { intros Hin. apply Hrl. rewrite Hk. rewrite removelast_app by done.
        apply elem_of_app. by left. }
      exists 0%nat, received. split; [done|]. left. split; [done|]. by constructor.
Qed.

Theorem C24_truncation_detected_partial d region secret seed chunks received rest fs :
  sizes_ok chunks ->
  encode_chunks d region secret seed chunks = received ++ rest ->
  carried fs = received -> broken fs = false ->
  exists k partial,
    received = encode_chunks d region secret seed (take k chunks) ++ partial /\
    concat (aws_chunked d region secret seed fs).1 = concat (map snd (take k chunks)) /\
    ((aws_chunked d region secret seed fs).2 = SEnd /\ LF ∉ partial \/
     (aws_chunked d region secret seed fs).2 = SErr CeIncomplete /\ LF ∈ partial).
Proof.
  intros Hok Henc <- Hb.
  destruct (truncated_means _ _ _ _ _ _ _ Hok Henc) as (k & partial & Hrec & Hm).
  exists k, partial. split; [done|]. rewrite <- Hb in Hm.
  destruct Hm as [[Hl Hm]|[Hl Hm]]; apply C21_decoder_implements_format in Hm as (ps & -> & H);
    cbn [fst snd]; auto.
Qed.
Print Assumptions C24_truncation_detected_partial.

(** A transport error is never mistaken for the end of the upload. *)
Theorem C24_broken_connection_detected d region secret seed fs :
  broken fs = true -> (aws_chunked d region secret seed fs).2 <> SEnd.
Proof.
  intros Hb. destruct (aws_chunked d region secret seed fs) as [ps e] eqn:E. cbn [snd].
  assert (chunked_means d region secret seed (carried fs) (broken fs) (concat ps) e) as H
    by (apply C21_decoder_implements_format; eauto).
  rewrite Hb in H. clear E Hb. revert H. generalize (concat ps), (carried fs).
  intros out input H. remember true as br. induction H; subst; auto; done.
Qed.
Print Assumptions C24_broken_connection_detected.

(** Examples: the hypotheses hold for a real upload, and the decoder is run on it. *)
Example ex_sizes_ok : sizes_ok [(B "3", B "abc"); (B "0", [])].
Proof.
  constructor; [|constructor; [|constructor]]; cbn [fst snd]; (split; [|split; compute_done]);
    apply hex_u32_spec; vm_compute; reflexivity.
Qed.

Example ex_decode_split :
  let body := c24_body in
  aws_chunked c24_date (B "us-east-1") (B "secret") (B "seed")
    [FData (take 50 body); FData []; FData (take 35 (drop 50 body)); FData (drop 85 body)]
  = ([B "a"; B "bc"], SEnd).
Proof. vm_compute. reflexivity. Qed.

Example ex_decode_tampered :
  let body := encode_chunks c24_date (B "us-east-1") (B "secret") (B "seed") [(B "3", B "abc")] in
  aws_chunked c24_date (B "us-east-1") (B "secret") (B "seed")
    [FData (take 84 body ++ B "X" ++ drop 85 body)] = ([], SErr CeMismatch).
Proof. vm_compute. reflexivity. Qed.

Example ex_decode_cut_in_data :
  aws_chunked c24_date (B "us-east-1") (B "secret") (B "seed") [FData (take 86 c24_body)]
  = ([], SErr CeIncomplete).
Proof. vm_compute. reflexivity. Qed.
