(** C80: the head of every reply is read by the client as the server meant it. *)
From Verif Require Import M_Base M_Utf8 M_Path M_Headers M_Fs M_Json M_Storage M_Http M_Ops M_Service M_Dto M_Multipart
  S_Storage S_Store S_Service S_Http L_Base L_Json L_Fs L_Storage T_Calls T_Http T_Auth T_Store T_Answers.
Local Open Scope nat_scope.

(** ** Specification (RFC 7230, section 3.2) *)

(* A header: a name of token characters in lower case, and a value without control characters. *)
Definition clean (h : bytes * bytes) : Prop :=
  h.1 <> [] /\ (forall a, a ∈ h.1 -> a ∈ name_chars) /\
  (forall a, a ∈ h.2 -> (32 <= N_of_ascii a /\ N_of_ascii a <> 127)%N \/ a = "009"%char).
(* The headers as they are written. *)
Definition crlf : bytes := [CR; LF].
Definition header_lines (hs : list (bytes * bytes)) : bytes :=
  concat (map (fun h => h.1 ++ B ": " ++ h.2 ++ crlf) hs) ++ crlf.
(* A reply whose headers are clean and not repeated. *)
Definition clean_reply (r : response) : Prop := Forall clean (rs_headers r) /\ NoDup (rs_headers r).*1.

(** ** The lines determine the headers *)

Lemma name_no_colon a : a ∈ name_chars -> a <> ":"%char /\ a <> CR.
Proof.
  pose proof (ascii_forall (fun a => negb (bool_decide (a ∈ name_chars)) || (negb (aeq a ":") && negb (aeq a CR)))) as H.
  specialize (H ltac:(vm_compute; reflexivity) a). cbv beta in H. intros Ha. rewrite bool_decide_true in H by done.
  cbn [negb orb] in H. apply andb_true_iff in H as [H1 H2]. apply negb_true_iff, aeq_false in H1, H2. done.
Qed.
Lemma value_no_cr a : (32 <= N_of_ascii a /\ N_of_ascii a <> 127)%N \/ a = "009"%char -> a <> CR.
Proof. intros [[H _]| ->]; [|done]. intros ->. vm_compute in H. by apply H. Qed.

(* Two texts that end at the first occurrence of a byte. *)
Lemma until_unique (x : ascii) (l l' r r' : bytes) :
  (forall a, a ∈ l -> a <> x) -> (forall a, a ∈ l' -> a <> x) -> l ++ x :: r = l' ++ x :: r' -> l = l' /\ r = r'.
Proof.
  revert l'. induction l as [|a l IH]; intros [|a' l'] H H' E.
  - by injection E as ->.
  - injection E as E1 _. destruct (H' a'); [by left|done].
  - injection E as E1 _. destruct (H a); [by left|done].
  - injection E as -> E. destruct (IH l') as [-> ->]; [| |done|done]; intros b Hb; [apply H|apply H']; by right.
Qed.

Theorem C80_no_splitting hs hs' body body' : Forall clean hs -> Forall clean hs' ->
  header_lines hs ++ body = header_lines hs' ++ body' -> hs = hs' /\ body = body'.
Proof.
  unfold header_lines, crlf. intros Hc. revert hs'. induction Hc as [|[n v] hs (H1 & H2 & H3) Hc IH]; intros hs' Hc' E.
  - destruct Hc' as [|[n' v'] hs' (H1' & H2' & _) _].
    + split; [done|]. by apply app_inv_head in E.
    + exfalso. cbn [map concat fst snd] in *. destruct n' as [|a n']; [done|].
      rewrite <- !app_assoc in E. injection E as E _. destruct (name_no_colon a) as [_ H]; [apply H2'; by left|done].
  - destruct Hc' as [|[n' v'] hs' (H1' & H2' & H3') Hc'].
    + exfalso. cbn [map concat fst snd] in *. destruct n as [|a n]; [done|].
      rewrite <- !app_assoc in E. injection E as E _. destruct (name_no_colon a) as [_ H]; [apply H2; by left|done].
    + cbn [map concat fst snd] in *. rewrite <- !app_assoc in E.
      change (B ": ") with [":"%char; " "%char] in E. cbn [app] in E.
      apply until_unique in E as [-> E]; [| intros a Ha; by apply name_no_colon, H2|intros a Ha; by apply name_no_colon, H2'].
      injection E as E.
      apply until_unique in E as [-> E]; [|intros a Ha; by apply value_no_cr, H3|intros a Ha; by apply value_no_cr, H3'].
      injection E as E. destruct (IH hs') as [-> ->]; [done| |done]. rewrite <- !app_assoc. exact E.
Qed.
Print Assumptions C80_no_splitting.

(** ** Every reply is clean *)

Definition clean_list (hs : list (bytes * bytes)) : Prop := Forall clean hs /\ NoDup hs.*1.

Lemma insert_clean n v hs : n <> [] -> (forall a, a ∈ n -> a ∈ name_chars) -> header_value_ok v = true ->
  clean_list hs -> clean_list (md_insert n v hs).
Proof.
  intros H1 H2 H3 [Hc Hn]. split; [|by apply md_insert_NoDup].
  rewrite Forall_forall in Hc |- *. intros h [->|Hh]%md_insert_elem; [|by apply Hc].
  split_and!; [done|done|]. cbn [snd]. intros a Ha. apply value_char.
  unfold header_value_ok in H3. rewrite forallb_forall in H3. by apply H3, elem_of_list_In.
Qed.

(* Names written in the program. *)
Definition tokens (n : bytes) : bool := negb (beq n []) && forallb (fun a => bool_decide (a ∈ name_chars)) n.
Lemma tokens_spec n : tokens n = true -> n <> [] /\ (forall a, a ∈ n -> a ∈ name_chars).
Proof.
  unfold tokens. rewrite andb_true_iff, negb_true_iff, forallb_forall. intros [H1 H2]. split.
  - intros ->. done.
  - intros a Ha%elem_of_list_In. apply H2 in Ha. by apply bool_decide_eq_true in Ha.
Qed.

Lemma set_header_clean n v hs l : tokens n = true -> (forall l, hs = Some l -> clean_list l) ->
  set_header n v hs = Some l -> clean_list l.
Proof.
  intros [H1 H2]%tokens_spec Hhs. unfold set_header. destruct hs as [hs|]; [|done]. destruct v as [v|]; [|intros [= <-]; auto].
  destruct (header_value_ok v) eqn:Ev; [|done]. intros [= <-]. apply insert_clean; auto.
Qed.

Lemma to_lower_token a : is_token a = true -> to_lower a ∈ name_chars.
Proof.
  pose proof (ascii_forall (fun a => negb (is_token a) || bool_decide (to_lower a ∈ name_chars))) as H.
  specialize (H ltac:(vm_compute; reflexivity) a). cbv beta in H. intros Ha. rewrite Ha in H. cbn [negb orb] in H.
  by apply bool_decide_eq_true in H.
Qed.

Lemma header_name_clean n n' : header_name_of n = Some n' -> n' <> [] /\ (forall a, a ∈ n' -> a ∈ name_chars).
Proof.
  unfold header_name_of. destruct (forallb is_token n) eqn:E1; [|done]. destruct (beq n []) eqn:E2; [done|].
  destruct (_ <=? _)%N; [|done]. intros [= <-]. split.
  - destruct n; [done|]. done.
  - intros a (b & -> & Hb)%elem_of_list_fmap. apply to_lower_token. rewrite forallb_forall in E1. by apply E1, elem_of_list_In.
Qed.

Lemma set_metadata_clean md hs l : (forall l, hs = Some l -> clean_list l) ->
  set_metadata_headers md hs = Some l -> clean_list l.
Proof.
  unfold set_metadata_headers. generalize (default [] md). intros m. revert hs. induction m as [|[n v] m IH]; intros hs Hhs; [by apply Hhs|].
  cbn [fold_left]. apply IH. intros l'. destruct hs as [hs|]; [|done]. cbn [fst snd].
  destruct (header_name_of _) as [n'|] eqn:En; [|done]. destruct (header_value_ok v) eqn:Ev; [|done]. intros [= <-].
  destruct (header_name_clean _ _ En). apply insert_clean; auto.
Qed.

Lemma wrap_clean hs st body r : (forall l, hs = Some l -> clean_list l) -> wrap hs st body = Ok r -> clean_reply r.
Proof. intros H. unfold wrap. destruct hs as [hs|]; [|done]. intros [= <-]. by apply H. Qed.

Lemma empty_clean l : Some [] = Some l -> clean_list l.
Proof. intros [= <-]. split; constructor. Qed.

Lemma xml_clean st x : clean_reply (xml_response st x).
Proof.
  split; cbn; [|apply NoDup_singleton]. apply Forall_singleton. destruct (tokens_spec (B "content-type") eq_refl).
  split_and!; [done|done|]. cbn [snd]. intros a Ha. apply value_char.
  assert (Hv : forallb is_value_token (B "text/xml") = true) by done. rewrite forallb_forall in Hv. by apply Hv, elem_of_list_In.
Qed.

Lemma respond_clean op c a r : respond op c a = Ok r -> clean_reply r.
Proof.
  unfold respond. destruct a as [a|]; [|done]. intros H.
  assert (Hx : (exists st x, r = xml_response st x) \/ (exists st, r = Response st [] RbEmpty) \/
    (exists hs st body, (forall l, hs = Some l -> clean_list l) /\ wrap hs st body = Ok r)).
  { assert (Hset : forall n v hs, tokens n = true -> (forall l, hs = Some l -> clean_list l) ->
      forall l, set_header n v hs = Some l -> clean_list l) by eauto using set_header_clean.
    destruct op, a; cbn [respond_ok] in H;
      lazymatch type of H with
      | Ok (xml_response _ _) = _ => injection H as <-; left; by eexists _, _
      | Ok (Response _ [] RbEmpty) = _ => injection H as <-; right; left; by eexists
      | wrap _ _ _ = _ => right; right; eexists _, _, _; split; [|exact H]; clear H
      end;
      lazymatch goal with
      | |- forall l, set_metadata_headers _ _ = Some l -> _ => intros l; apply set_metadata_clean
      | _ => idtac
      end;
      repeat (apply Hset; [reflexivity|]); apply empty_clean. }
  destruct Hx as [(st & x & ->)|[(st & ->)|(hs & st & body & Hhs & Hw)]].
  - apply xml_clean.
  - split; constructor.
  - by eapply wrap_clean.
Qed.

(** Every reply of the server has clean headers, whatever is stored and whatever was sent. *)
Theorem C80_replies_clean e sv rq s s' r : exchange e sv rq s = (s', Replied r) -> clean_reply r.
Proof.
  intros Hx. destruct (front sv rq) as [code| |op c q] eqn:E.
  - unfold exchange, service in Hx. rewrite E in Hx. injection Hx as <- <-. apply xml_clean.
  - unfold exchange, service in Hx. by rewrite E in Hx.
  - rewrite (exchange_call _ _ _ _ _ _ _ E) in Hx. injection Hx as <- Hx.
    destruct (respond op c (answer e q s)) as [r'|code] eqn:Er; injection Hx as <-; [by eapply respond_clean|apply xml_clean].
Qed.
Print Assumptions C80_replies_clean.

(** So has every reply made from an answer of any storage. *)
Theorem C80_any_storage op o r : dto_response op o = Ok r -> clean_reply r.
Proof.
  unfold dto_response. set (hs := match op with OpGetObject | OpHeadObject => _ | _ => _ end).
  assert (Hhs : forall l, hs = Some l -> clean_list l).
  { assert (Hr : forall rows d hs, Forall (fun r => tokens (out_header r) = true) rows -> (forall l, hs = Some l -> clean_list l) ->
      forall l, set_rows rows d hs = Some l -> clean_list l).
    { clear. unfold set_rows. intros rows d hs Ht. revert hs. induction Ht as [|r rows Ht _ IH]; intros hs Hhs; [done|]. cbn [fold_left].
      apply IH. intros l'. destruct (dto_get _ _) as [v|]; [|by apply Hhs]. destruct (show_kind _ _) as [t|]; [|done].
      by apply set_header_clean. }
    assert (Ht : Forall (fun r => tokens (out_header r) = true) (output_rows op)).
    { rewrite Forall_forall. intros row Hrow%elem_of_list_In.
      assert (H : forallb (fun r => tokens (out_header r)) (output_rows op) = true) by (destruct op; vm_compute; reflexivity).
      rewrite forallb_forall in H. by apply H. }
    pose proof (Hr _ (od_fields o) (Some []) Ht empty_clean) as H.
    intros l. unfold hs. destruct op; try apply H; apply set_metadata_clean, H. }
  clearbody hs. destruct (od_doc o) as [d|].
  - apply wrap_clean. intros l. by apply set_header_clean.
  - by apply wrap_clean.
Qed.
Print Assumptions C80_any_storage.

(** Together: a client that reads the headers of a reply from the wire reads those that the server set, and
    the body begins where the server began it. *)
Theorem C80_read_as_sent e sv rq s s' r body hs' body' : exchange e sv rq s = (s', Replied r) ->
  Forall clean hs' -> header_lines (rs_headers r) ++ body = header_lines hs' ++ body' ->
  hs' = rs_headers r /\ body' = body.
Proof.
  intros Hx%C80_replies_clean Hc E. destruct (C80_no_splitting _ _ _ _ (proj1 Hx) Hc E) as [-> ->]. done.
Qed.
Print Assumptions C80_read_as_sent.

(** Example: metadata with an end of line, put into the store behind the server's back, do not become a
    header of their own; metadata that are fit do appear. *)
Example ex_no_splitting :
  let s md := after_all ex_env [RPutObject (B "bkt") (B "k") None None (Some md) (Some [FData (B "x")])] empty_store in
  (exchange ex_env ex_open_server (ex_get_object (B "/bkt/k")) (s [(B "a", B "v" ++ crlf ++ B "set-cookie: y")])).2 =
    Replied (error_response InternalError) /\
  (exchange ex_env ex_open_server (ex_get_object (B "/bkt/k")) (s [(B "a", B "v")])).2 =
    Replied (Response 200 [(B "content-length", B "1"); (B "etag", quoted_md5 (B "x")); (B "x-amz-meta-a", B "v")] (RbFile (HFile 0) 0 1)).
Proof. split; vm_compute; reflexivity. Qed.
