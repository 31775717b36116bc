(** C90: an object may be downloaded in pieces; the replies do not say that they are pieces. *)
From Verif Require Import M_Base M_Path M_Headers M_Chunked M_BytesStream M_Crypto M_Fs M_Json M_Utf8 M_Storage M_Http M_Auth M_Ops M_Service
  S_Path S_Headers S_Chunked S_Storage S_Store S_Http L_Base L_Headers L_Fs L_Storage L_Scope L_Names L_Json L_Ops
  L_Results L_Path L_Tidy S_Service S_Dispatch S_Calls L_Request T_Chunked T_Store T_Calls T_Dispatch T_Auth T_Ordered T_Etag T_Http.

Local Opaque md5 etag_of json_decode json_encode metadata_name part_name aws_chunked calculate_signature.

(* The one Range header of the request asks for [r]. *)
Definition asks_range (rq : http_request) (r : range) : Prop :=
  exists str, range_text str r /\ (B "range", str) ∈ rq_headers rq /\ forall v, (B "range", v) ∈ rq_headers rq -> v = str.

(* Requests by which a client fetches the bytes of an object of [len] bytes from [off] on, each beginning
   where the one before ended, with any harmless requests of others (marked [false]) in between. *)
Inductive in_pieces (b k : bytes) (len : N) : N -> list (bool * (server * http_request)) -> Prop :=
| ip_end : in_pieces b k len len []
| ip_other off x xs : harmless b k x -> in_pieces b k len off xs -> in_pieces b k len off ((false, x) :: xs)
| ip_piece off last sv rq xs : accepted sv rq -> gets_object rq b k -> asks_range rq (RNormal off (Some last)) ->
    (off <= last < len)%N -> in_pieces b k len (last + 1) xs -> in_pieces b k len off ((true, (sv, rq)) :: xs)
| ip_rest off sv rq xs : accepted sv rq -> gets_object rq b k -> asks_range rq (RNormal off None) ->
    (off < len)%N -> in_pieces b k len len xs -> in_pieces b k len off ((true, (sv, rq)) :: xs).

(* The client's requests are all answered with 200, the length of their bodies, the tag [tag] and the
   metadata [md], and the bodies together are [out]. *)
Fixpoint fetched (e : env) (tag : bytes) (md : metadata) (xs : list (bool * (server * http_request))) (s : fs) (out : bytes) : Prop :=
  match xs with
  | [] => out = []
  | (false, x) :: xs' => fetched e tag md xs' (exchange e x.1 x.2 s).1 out
  | (true, x) :: xs' => exists s' hs body t d out',
      exchange e x.1 x.2 s = (s', Replied (Response 200 hs body)) /\ streams s' body d /\
      denotes t (N.of_nat (length d)) /\
      hs ≡ₚ [(B "content-length", t); (B "etag", tag)] ++ metadata_headers md /\
      fetched e tag md xs' s' out' /\ out = d ++ out'
  end.

Lemma range_called sv rq b k r : accepted sv rq -> gets_object rq b k -> asks_range rq r ->
  exists c str, range_text str r /\ front sv rq = FrCall OpGetObject c (RGetObject b k (Some str)).
Proof.
  intros (op & c & rr & Hf) (Hm & Hp) (str & Hr & Hin & Hu). exists c, str. split; [done|]. rewrite Hf. pose proof Hf as Hasks%C58_called_as_asked.
  apply called_entered in Hf as (He & Hd & Hx).
  destruct (entered_object _ _ _ _ _ He Hp) as (Hm' & Hp' & _).
  assert (op = OpGetObject) as ->.
  { unfold dispatch, handlers in Hd. cbn [find] in Hd. unfold is_match in Hd. rewrite Hm', Hm, Hp' in Hd.
    vm_compute in Hd. by injection Hd. }
  inversion Hasks as [ | | | | | | | |b' k' rg Hp2 Hr2| | | | | | | |]; subst.
  pose proof (request_path_fun _ _ _ Hp Hp2) as [= <- <-]. destruct rg as [v|].
  - by rewrite (Hu v Hr2).
  - destruct Hr2. by exists str.
Qed.

Lemma range_reply e s sv rq b k p i r d md : get_object_path e b k = Some p -> e_os_ok e p = true ->
  fs_nodes s !! p = Some (NFile i) -> meta_of e s b k = Some md -> presentable (default [] md) ->
  (N.of_nat (length (data_of s i)) <= i64_max)%N ->
  accepted sv rq -> gets_object rq b k -> asks_range rq r -> S_Store.inside r (data_of s i) -> slice r (data_of s i) = Some d ->
  exists hs body t, exchange e sv rq s = (s, Replied (Response 200 hs body)) /\ streams s body d /\
    denotes t (N.of_nat (length d)) /\
    hs ≡ₚ [(B "content-length", t); (B "etag", quoted_md5 (data_of s i))] ++ metadata_headers (default [] md).
Proof.
  intros Hp Hos Hi Hm Hpr Hlen Hacc Hget Hr Hin Hsl. destruct (range_called _ _ _ _ _ Hacc Hget Hr) as (c & str & Hstr & Hf).
  rewrite (exchange_call _ _ _ _ _ _ _ Hf).
  pose proof (extent_slice str r (data_of s i) Hstr Hlen) as He. rewrite Hsl in He. destruct He as (off & He & Hd).
  destruct (slice_length str r _ d Hlen Hstr Hsl Hin) as [Hann Hle].
  assert (Hprs : parse_range (Some str) = Some (Some r)) by (unfold parse_range; by rewrite (proj2 (range_spec str r) Hstr)).
  destruct (gets_file e s b k p i (Some str) (Some r) off (announced r (data_of s i)) md) as (h & off' & lim & Hans & Hbody); try done; [lia|].
  assert (Hrun : after e (RGetObject b k (Some str)) s = s).
  { unfold after. cbn [storage]. by rewrite (run_get_file e b k (Some str) p i s Hp Hos Hi). }
  rewrite Hrun, Hans, get_response by (done || apply etag_value_ok). cbn [reply_of].
  assert (Hq : etag_of (data_of s i) = quoted_md5 (data_of s i)) by (with_strategy transparent [etag_of] unfold etag_of; done).
  rewrite Hq. do 3 eexists. split; [done|]. split; [|split; [apply num_denotes|by rewrite Hann]].
  exists h, off', lim. split; [done|]. intros sched Hsch. specialize (Hbody sched Hsch). by rewrite Hd in Hbody.
Qed.

Lemma meta_of_same e s s' b k : fs_nodes s' !! [metadata_name b k] = fs_nodes s !! [metadata_name b k] ->
  content s' [metadata_name b k] = content s [metadata_name b k] -> meta_of e s' b k = meta_of e s b k.
Proof. intros H1 H2. unfold meta_of. by rewrite H1, H2. Qed.

Lemma pieces_fetched e b k p data md : forall off xs, in_pieces b k (N.of_nat (length data)) off xs -> forall s,
  wf s -> legal_bucket b -> located b k p -> e_os_ok e p = true -> (N.of_nat (length data) <= i64_max)%N ->
  content s p = Some data -> meta_of e s b k = Some md -> presentable (default [] md) ->
  fetched e (quoted_md5 data) (default [] md) xs s (drop (N.to_nat off) data).
Proof.
  intros off xs H. remember (N.of_nat (length data)) as len eqn:Hlen. induction H as [|off x xs Hx _ IH|off last sv rq xs Hacc Hget Hr Hl _ IH|off sv rq xs Hacc Hget Hr Hl _ IH];
    intros s Hwf Hb Hloc Hos Hsm Hc Hm Hpr; subst len; cbn [fetched].
  - rewrite drop_ge by lia. done.
  - destruct (harmless_all e b k [x]) as (rs & H1 & H2 & H3); [by constructor|].
    specialize (H3 s). cbn [after_requests] in H3. rewrite H3.
    destruct (unaffected_all e rs s b k p Hwf H1 Hb Hloc H2) as (W & E1 & E2 & E3).
    apply IH; try done; [congruence|]. rewrite <- Hm. by apply meta_of_same.
  - assert (Hp : get_object_path e b k = Some p) by (apply located_path; [by apply legal_bucket_segment|done]).
    pose proof Hc as (i & Hi & Hd)%content_Some.
    set (d := take (N.to_nat (last + 1 - off)) (drop (N.to_nat off) data)).
    assert (slice (RNormal off (Some last)) data = Some d) as Hs by (unfold slice; rewrite decide_True by lia; done).
    destruct (range_reply e s sv rq b k p i (RNormal off (Some last)) d md) as (hs & body & t & Hx & Hst & Ht & Hh);
      rewrite ?Hd; try done; [unfold S_Store.inside; lia|].
    rewrite Hd in Hh. exists s, hs, body, t, d, (drop (N.to_nat (last + 1)) data). split_and!; try done; [by apply IH|].
    unfold d. rewrite <- (take_drop (N.to_nat (last + 1 - off)) (drop (N.to_nat off) data)) at 1. f_equal.
    rewrite drop_drop. f_equal. lia.
  - assert (Hp : get_object_path e b k = Some p) by (apply located_path; [by apply legal_bucket_segment|done]).
    pose proof Hc as (i & Hi & Hd)%content_Some.
    set (d := drop (N.to_nat off) data).
    assert (slice (RNormal off None) data = Some d) as Hs by (unfold slice; rewrite decide_True by lia; done).
    destruct (range_reply e s sv rq b k p i (RNormal off None) d md) as (hs & body & t & Hx & Hst & Ht & Hh); rewrite ?Hd; try done.
    rewrite Hd in Hh. exists s, hs, body, t, d, []. split_and!; try done; [|by rewrite app_nil_r].
    specialize (IH s). rewrite drop_ge in IH by lia. by apply IH.
Qed.

(* What was uploaded by a request that succeeded is downloaded in any pieces, each with the tag of the
   whole; a broken download can be resumed where it ended. *)
Theorem C90_pieces e sv rq s s1 resp b k :
  wf s -> intact s -> ordinary k -> puts_object rq b k -> wire rq ->
  exchange e sv rq s = (s1, Replied resp) -> success resp ->
  (exists n v, n <> [] /\ (B "x-amz-meta-" ++ n, v) ∈ rq_headers rq) \/ fs_nodes s !! [metadata_name b k] = None ->
  exists data md, delivers sv rq data /\ sent_metadata rq md /\
    ((N.of_nat (length data) <= i64_max)%N -> forall off xs, in_pieces b k (N.of_nat (length data)) off xs ->
     fetched e (quoted_md5 data) md xs s1 (drop (N.to_nat off) data)).
Proof.
  intros Hwf Hi Hk Hput Hw Hx Hs Hn.
  destruct (C60_success_is_executed _ _ _ _ _ _ Hx Hs) as (op & c & r & a & Hf & _ & Ha & -> & Hresp).
  destruct (put_called _ _ _ _ _ _ _ Hf Hput) as (class & len & md & -> & -> & Hmp & Hsent & Hne & Hv).
  pose proof (object_request _ _ _ (proj1 (proj2 Hput))) as Hb.
  destruct (sent_ok _ _ Hw Hv Hsent) as [Hpres Hok].
  assert (Hmd : forall m, md = Some m -> metadata_ok m) by by intros m ->.
  assert (Hn' : is_Some md \/ fs_nodes s !! [metadata_name b k] = None).
  { destruct Hn as [(n & v & Hnn & Hin)|Hn]; [|by auto]. left. destruct md as [m|]; [by eexists|].
    exfalso. apply Hnn. by eapply Hsent. }
  destruct (stored e s b k class len md (cx_body c) a []) as (-> & Hbr & p & i & Hp & Hos & Hni & Hd & Hm); try done; [constructor..|].
  cbn [after_all] in Hni, Hd, Hm.
  destruct (ordinary_located k b Hk) as [p' Hl].
  assert (p' = p) as ->.
  { rewrite (located_path e b k p' (legal_bucket_segment _ Hb) Hl) in Hp. by injection Hp. }
  exists (carried (cx_body c)), (default [] md). split; [by eapply called_delivers|]. split; [done|].
  intros Hlen off xs Hxs. apply (pieces_fetched e b k p _ _ off xs Hxs); try done; [by apply wf_after|].
  unfold content. by rewrite Hni, Hd.
Qed.
Print Assumptions C90_pieces.

(** ** Pieces are not marked *)

Lemma set_metadata_names md : forall hs hs', set_metadata_headers md (Some hs) = Some hs' ->
  forall h, h ∈ hs' -> h ∈ hs \/ exists n, h.1 = B "x-amz-meta-" ++ n.
Proof.
  unfold set_metadata_headers. generalize (default [] md). intros m. induction m as [|[n v] m IH]; intros hs hs'; cbn [fold_left fst snd].
  - intros [= <-]. by left.
  - destruct (header_name_of _) as [n'|] eqn:En.
    2: { match goal with |- fold_left ?f _ _ = _ -> _ => assert (forall l, fold_left f l None = None) as -> by (induction l; done); done end. }
    destruct (header_value_ok v).
    2: { match goal with |- fold_left ?f _ _ = _ -> _ => assert (forall l, fold_left f l None = None) as -> by (induction l; done); done end. }
    intros H h Hh. destruct (IH _ _ H h Hh) as [Hin|?]; [|by right]. apply md_insert_elem in Hin as [->|?]; [|by left]. right.
    unfold header_name_of in En. destruct (_ && _); [|done]. injection En as <-. cbn [fst]. exists (map to_lower n).
    change (map to_lower (B "x-amz-meta-" ++ n) = map to_lower (B "x-amz-meta-") ++ map to_lower n). apply map_app.
Qed.

Lemma set_metadata_none md : set_metadata_headers md None = None.
Proof. unfold set_metadata_headers. generalize (default [] md). intros m. induction m; done. Qed.

Definition is_get (a : s_ans) : Prop := match a with AGet _ _ _ _ _ _ => True | _ => False end.
Lemma yields_get e b k range : yields e is_get (get_object e b k range).
Proof. unfold get_object. repeat first [done | apply yields_ret; done | yields_step]. Qed.

(* Whatever is asked for, a download is answered with status 200, and nothing in the reply but the length
   tells which bytes it holds.  (Last-Modified, of which M_Dates speaks, is not among these headers.) *)
Theorem C90_never_marked e sv rq s s' resp b k :
  gets_object rq b k -> exchange e sv rq s = (s', Replied resp) -> success resp ->
  rs_status resp = 200%N /\
  forall n v, (n, v) ∈ rs_headers resp -> n = B "content-length" \/ n = B "etag" \/ exists m, n = B "x-amz-meta-" ++ m.
Proof.
  intros [Hm Hp] Hx Hs.
  destruct (C60_success_is_executed _ _ _ _ _ _ Hx Hs) as (op & c & r & a & Hf & Hasks & Ha & -> & Hresp).
  apply called_entered in Hf as (He & Hd & Hex). destruct (entered_object _ _ _ _ _ He Hp) as (Hm' & Hp' & _).
  assert (op = OpGetObject) as ->.
  { unfold dispatch, handlers in Hd. cbn [find] in Hd. unfold is_match in Hd. rewrite Hm', Hm, Hp' in Hd.
    vm_compute in Hd. by injection Hd. }
  inversion Hasks as [ | | | | | | | |b' k' rg Hp2 Hr2| | | | | | | |]; subst.
  assert (is_get a) as Hg.
  { unfold answer in Ha. cbn [storage] in Ha. destruct (run e (get_object e b' k' rg) s) as [s1 x] eqn:E. cbn [snd] in Ha. subst x.
    by apply (yields_get e b' k' rg) in E. }
  destruct a; try done. cbn [respond respond_ok] in Hresp. unfold set_header at 2 in Hresp. rewrite num_value_ok in Hresp.
  unfold set_header in Hresp. destruct (header_value_ok _); [|by rewrite set_metadata_none in Hresp].
  destruct (set_metadata_headers _ _) as [hs|] eqn:E; [|done]. cbn [wrap] in Hresp. injection Hresp as <-. cbn [rs_status rs_headers].
  split; [done|]. intros n v Hin. destruct (set_metadata_names _ _ _ E _ Hin) as [Hin'|?]; [|by right; right].
  vm_compute md_insert in Hin'.
  apply elem_of_cons in Hin' as [[= -> ->]|[[= -> ->]|[]%elem_of_nil]%elem_of_cons]; auto.
Qed.
Print Assumptions C90_never_marked.

(* Expected by RFC 9110: a reply with status 200 holds the whole object, and a part of it comes with
   status 206.  It does not. *)
Theorem C90_marked_refuted : exists e sv rq s s' hs body b k p whole d,
  gets_object rq b k /\ located b k p /\ content s p = Some whole /\
  exchange e sv rq s = (s', Replied (Response 200 hs body)) /\ streams s' body d /\ d <> whole.
Proof.
  pose (s := (exchange ex_env ex_open_server (ex_put_object (B "/bkt/a") [] (B "hello")) empty_store).1).
  pose (rq := HttpRequest (B "GET") (B "/bkt/a") None [(B "range", B "bytes=1-2")] []).
  pose (x := exchange ex_env ex_open_server rq s).
  exists ex_env, ex_open_server, rq, s, x.1.
  exists (match x.2 with Replied r => rs_headers r | Panicked => [] end).
  exists (match x.2 with Replied r => rs_body r | Panicked => RbEmpty end).
  exists (B "bkt"), (B "a"), [B "bkt"; B "a"], (B "hello"), (B "el").
  split_and!; try done.
  - split; [done|]. apply request_path_spec. exists (B "/bkt/a"). split; by vm_compute.
  - exists [B "a"]. split_and!; try done. repeat constructor; try done; compute_done.
  - exists (HFile 0%N), 1%N, 2%N. split; [vm_compute; reflexivity|]. intros sched Hs.
    pose proof (body_delivered x.1 0 1 2 sched Hs) as Hb. replace (take _ _) with (B "el") in Hb by (vm_compute; reflexivity). done.
Qed.
Print Assumptions C90_marked_refuted.

(** ** Examples *)

Definition ex_ranged (t : bytes) : http_request := HttpRequest (B "GET") (B "/bkt/a") None [(B "range", t)] [].
Lemma ex_asks t r : range_from_header_str t = Some r -> asks_range (ex_ranged t) r.
Proof.
  intros H. exists t. split; [by apply range_spec|]. split; [by apply elem_of_list_singleton|].
  intros v Hv. cbn [ex_ranged rq_headers] in Hv. apply elem_of_list_singleton in Hv. congruence.
Qed.
Lemma ex_gets t : gets_object (ex_ranged t) (B "bkt") (B "a").
Proof. split; [done|]. apply request_path_spec. exists (B "/bkt/a"). split; by vm_compute. Qed.

(* "hello" in two pieces and the rest, with a request for another object in between. *)
Example C90_ex : in_pieces (B "bkt") (B "a") 5 0
  [(true, (ex_open_server, ex_ranged (B "bytes=0-0"))); (false, (ex_open_server, ex_put_object (B "/bkt/b") [] (B "other")));
   (true, (ex_open_server, ex_ranged (B "bytes=1-3"))); (true, (ex_open_server, ex_ranged (B "bytes=4-")))].
Proof.
  apply (ip_piece _ _ _ 0 0); [by do 3 eexists; vm_compute|apply ex_gets|apply ex_asks; by vm_compute|done|].
  apply ip_other.
  { intros op c r H. vm_compute in H. injection H as <- <- <-. split; [|by intros [_ Hk]]. split_and!; [by apply check_bucket_name_spec|by exists [B "b"]; split_and!; try done; repeat constructor; try done; compute_done|done]. }
  apply (ip_piece _ _ _ (0 + 1) 3); [by do 3 eexists; vm_compute|apply ex_gets|apply ex_asks; by vm_compute|done|].
  apply (ip_rest _ _ _ (3 + 1)); [by do 3 eexists; vm_compute|apply ex_gets|apply ex_asks; by vm_compute|done|].
  apply ip_end.
Qed.
