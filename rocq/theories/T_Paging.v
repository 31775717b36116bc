(** C83: listings in pages. *)
From Verif Require Import M_Base M_Path M_Headers M_Chunked M_Crypto M_Fs M_Json M_Utf8 M_Storage M_Http M_Auth M_Ops M_Service
  S_Path S_Headers S_Chunked S_Storage S_Store S_Http L_Base L_Storage L_Names L_Ops
  L_Tidy S_Service S_Dispatch S_Calls S_Server L_Request T_Listing T_Store T_Calls T_Http T_Dispatch T_Auth T_Server T_Scope L_Service.

Local Opaque md5 etag_of json_decode json_encode metadata_name part_name.

(** ** What a client does *)

(* The keys of a page and whether there are more. *)
Definition listed_key (x : xml) : list bytes :=
  match x with
  | XStack n xs => if bool_decide (n = B "Contents")
                   then omap (fun y => match y with XText m t => if bool_decide (m = B "Key") then Some t else None | _ => None end) xs
                   else []
  | XText _ _ => []
  end.
Definition page_keys (x : xml) : list bytes :=
  match x with XStack _ xs => concat (map listed_key xs) | XText _ _ => [] end.
Definition truncated (x : xml) : Prop :=
  exists n xs, x = XStack n xs /\ XText (B "IsTruncated") (B "true") ∈ xs.
(* The keys before which the page stands for a whole group. *)
Definition grouped (x : xml) : Prop :=
  exists n xs ys, x = XStack n xs /\ XStack (B "CommonPrefixes") ys ∈ xs.

(* The reply is this page, and the store does not change. *)
Definition page (e : env) (sv : server) (s : fs) (rq : http_request) (x : xml) : Prop :=
  exists resp, exchange e sv rq s = (s, Replied resp) /\ rs_status resp = 200%N /\ rs_body resp = RbXml x.

(* The client asks for the page after [m], and goes on while it is told that there are more: [ask]
   says which request it sends. *)
Inductive paged (e : env) (sv : server) (s : fs) (ask : option bytes -> http_request) : option bytes -> list bytes -> Prop :=
| paged_last m x : page e sv s (ask m) x -> ~ truncated x -> paged e sv s ask m (page_keys x)
| paged_more m x k rest : page e sv s (ask m) x -> truncated x -> last (page_keys x) = Some k ->
    paged e sv s ask (Some k) rest -> paged e sv s ask m (page_keys x ++ rest).

(* The request is for a listing of the bucket [b] with [prefix]; whatever it says about markers,
   page sizes and delimiters. *)
Definition asks_listing (sv : server) (rq : http_request) (b : bytes) (prefix : option bytes) : Prop :=
  exists op c r, front sv rq = FrCall op c r /\ asks sv rq (cx_body c) (cx_multipart c) op r /\
    (r = RListObjects b prefix \/ r = RListObjectsV2 b prefix).

Lemma page_keys_listing b objs count c :
  page_keys (XStack (B "ListBucketResult") (map contents_xml objs ++ [XText (B "Name") b]
     ++ opt_element (B "Delimiter") (cx_query c (B "delimiter")) ++ opt_element (B "EncodingType") (cx_query c (B "encoding-type"))
     ++ match count with Some n => [XText (B "KeyCount") (num n)] | None => [] end)) = objs.*1.
Proof.
  unfold page_keys. rewrite map_app, concat_app.
  assert (concat (map listed_key (map contents_xml objs)) = objs.*1) as ->.
  { induction objs as [|[k n] objs IH]; [done|]. cbn [map concat fmap list_fmap]. by rewrite IH. }
  assert (forall v n, concat (map listed_key (opt_element n v)) = []) as Ho by (by intros [v|] n).
  rewrite !map_app, !concat_app, !Ho. by destruct count; rewrite app_nil_r.
Qed.

Lemma listing_page e sv s rq b prefix : wf s -> tidy e s -> legal_bucket b -> fs_nodes s !! [b] = Some NDir ->
  (forall q c, content s (b :: q) = Some c -> (N.of_nat (length c) <= i64_max)%N) -> asks_listing sv rq b prefix ->
  exists x, page e sv s rq x /\ (forall x', page e sv s rq x' -> x' = x) /\ ~ truncated x /\ ~ grouped x /\
    StronglySorted bytes_lt (page_keys x) /\
    forall k, k ∈ page_keys x <->
      (forall y, prefix = Some y -> y `prefix_of` k) /\ exists p c, located b k p /\ content s p = Some c.
Proof.
  intros Hwf Ht Hb Hbd Hsm (op & c & r & Hf & Ha & Hr).
  assert (exists v2 : bool, r = if v2 then RListObjectsV2 b prefix else RListObjects b prefix) as [v2 Hr2].
  { destruct Hr as [->| ->]; [by exists false|by exists true]. }
  destruct (C36_listing e s b prefix v2 Hwf Ht Hb Hbd Hsm) as (l & Hl & Hin & Hs). rewrite <- Hr2 in Hl.
  assert (op = OpListObjects \/ op = OpListObjectsV2) as Hop.
  { destruct Hr as [-> | ->]; inversion Ha; auto. }
  assert (after e r s = s) as Haf by (destruct Hr as [-> | ->]; apply C51_reads_leave_store; done).
  set (x := XStack (B "ListBucketResult") (map contents_xml l ++ [XText (B "Name") b]
     ++ opt_element (B "Delimiter") (cx_query c (B "delimiter")) ++ opt_element (B "EncodingType") (cx_query c (B "encoding-type"))
     ++ match (if v2 then Some (N.of_nat (length l)) else None) with Some n => [XText (B "KeyCount") (num n)] | None => [] end)).
  assert (exchange e sv rq s = (s, Replied (xml_response 200 x))) as Hx.
  { rewrite (exchange_call e sv rq s op c r), Haf, Hl by done. by destruct Hop as [-> | ->]. }
  assert (Hel : forall y, y ∈ map contents_xml l ++ [XText (B "Name") b]
     ++ opt_element (B "Delimiter") (cx_query c (B "delimiter")) ++ opt_element (B "EncodingType") (cx_query c (B "encoding-type"))
     ++ match (if v2 then Some (N.of_nat (length l)) else None) with Some n => [XText (B "KeyCount") (num n)] | None => [] end ->
     y <> XText (B "IsTruncated") (B "true") /\ forall ys, y <> XStack (B "CommonPrefixes") ys).
  { intros y. rewrite !elem_of_app, elem_of_list_singleton. intros [Hy|[->|[Hy|[Hy|Hy]]]]; [|done| | |].
    - apply elem_of_list_fmap in Hy as (o & -> & _). by unfold contents_xml.
    - destruct (cx_query c (B "delimiter")); [|by apply elem_of_nil in Hy]. apply elem_of_list_singleton in Hy as ->. done.
    - destruct (cx_query c (B "encoding-type")); [|by apply elem_of_nil in Hy]. apply elem_of_list_singleton in Hy as ->. done.
    - destruct v2; [|by apply elem_of_nil in Hy]. apply elem_of_list_singleton in Hy as ->. done. }
  exists x. split_and!.
  - eexists. split; [exact Hx|]. done.
  - intros x' (resp & Hx' & _ & Hb'). rewrite Hx in Hx'. injection Hx' as <-. by injection Hb' as <-.
  - intros (n & xs & [= <- <-] & Hy). by destruct (Hel _ Hy).
  - intros (n & xs & ys & [= <- <-] & Hy). destruct (Hel _ Hy) as [_ H]. by eapply H.
  - unfold x. rewrite page_keys_listing. clear -Hs. induction Hs as [|o l Hs IH HF]; [constructor|].
    cbn [fmap list_fmap]. constructor; [done|]. by apply Forall_fmap.
  - intros k. unfold x. rewrite page_keys_listing. rewrite elem_of_list_fmap. split.
    + intros ([k' n] & -> & H). apply Hin in H as (Hp & p & d & H1 & H2 & _). split; [done|]. by exists p, d.
    + intros (Hp & p & d & H1 & H2). exists (k, N.of_nat (length d)). split; [done|]. apply Hin. split; [done|]. by exists p, d.
Qed.

(** ** Pages *)

(* A client that goes through the pages sees every object once, in order, and nothing else. *)
Theorem C83_pages_complete e sv s ask b prefix : wf s -> tidy e s -> legal_bucket b -> fs_nodes s !! [b] = Some NDir ->
  (forall q c, content s (b :: q) = Some c -> (N.of_nat (length c) <= i64_max)%N) ->
  (forall m, asks_listing sv (ask m) b prefix) ->
  exists ks, paged e sv s ask None ks /\ (forall ks', paged e sv s ask None ks' -> ks' = ks) /\ StronglySorted bytes_lt ks /\
    forall k, k ∈ ks <-> (forall y, prefix = Some y -> y `prefix_of` k) /\ exists p c, located b k p /\ content s p = Some c.
Proof.
  intros Hwf Ht Hb Hbd Hsm Hask.
  destruct (listing_page e sv s (ask None) b prefix Hwf Ht Hb Hbd Hsm (Hask None)) as (x & Hx & Hu & Hn & _ & Hs & Hin).
  exists (page_keys x). split_and!; [by constructor| |done|done].
  intros ks' H. inversion H as [m y Hy Ht'|m y k rest Hy Ht']; subst.
  - by rewrite (Hu y Hy).
  - rewrite (Hu y Hy) in Ht'. done.
Qed.
Print Assumptions C83_pages_complete.

(** ** What is not done *)

Definition ex_list (q : bytes) : http_request := HttpRequest (B "GET") (B "/bkt") (Some q) [] [].
Definition ex_three : fs :=
  after_requests ex_env [(ex_open_server, ex_put_object (B "/bkt/a/x") [] (B "1"));
    (ex_open_server, ex_put_object (B "/bkt/a/y") [] (B "2")); (ex_open_server, ex_put_object (B "/bkt/b") [] (B "3"))] empty_store.

Definition page_of (r : reply) : option xml :=
  match r with
  | Replied resp => match rs_body resp with RbXml x => Some x | _ => None end
  | Panicked => None
  end.
Lemma page_computed e sv s rq x st hs : exchange e sv rq s = (s, Replied (Response st hs (RbXml x))) -> st = 200%N -> page e sv s rq x.
Proof. intros H ->. by eexists. Qed.

Ltac page_by_computation := apply (page_computed _ _ _ _ _ 200%N [xml_type]); [apply injective_projections; vm_compute; reflexivity|done].

(* max-keys does not limit the page. *)
Theorem C83_limit_refuted : exists e sv s rq x,
  (exists ps, query_params (rq_query rq) ps /\ (B "max-keys", B "1") ∈ ps) /\
  page e sv s rq x /\ page_keys x = [B "a/x"; B "a/y"; B "b"].
Proof.
  exists ex_env, ex_open_server, ex_three, (ex_list (B "max-keys=1")). eexists. split; [|split].
  - eexists. split; [apply query_params_spec; reflexivity|]. vm_compute. by left.
  - page_by_computation.
  - by vm_compute.
Qed.
Print Assumptions C83_limit_refuted.

(* Neither marker nor start-after skips anything. *)
Theorem C83_marker_refuted : exists e sv s,
  (exists rq x ps, query_params (rq_query rq) ps /\ (B "marker", B "a/y") ∈ ps /\
    page e sv s rq x /\ page_keys x = [B "a/x"; B "a/y"; B "b"]) /\
  (exists rq x ps, query_params (rq_query rq) ps /\ (B "list-type", B "2") ∈ ps /\ (B "start-after", B "a/y") ∈ ps /\
    page e sv s rq x /\ page_keys x = [B "a/x"; B "a/y"; B "b"]).
Proof.
  exists ex_env, ex_open_server, ex_three. split.
  - exists (ex_list (B "marker=a/y")). eexists. eexists. split; [apply query_params_spec; reflexivity|].
    split; [vm_compute; by left|]. split; [page_by_computation|by vm_compute].
  - exists (ex_list (B "list-type=2&start-after=a/y")). eexists. eexists. split; [apply query_params_spec; reflexivity|].
    split; [vm_compute; by left|]. split; [vm_compute; by right; left|]. split; [page_by_computation|by vm_compute].
Qed.
Print Assumptions C83_marker_refuted.

(* A delimiter is repeated in the reply, but the keys are not grouped. *)
Theorem C83_delimiter_refuted : exists e sv s rq x ps,
  query_params (rq_query rq) ps /\ (B "delimiter", B "/") ∈ ps /\
  page e sv s rq x /\ page_keys x = [B "a/x"; B "a/y"; B "b"] /\ ~ grouped x /\
  exists xs, x = XStack (B "ListBucketResult") xs /\ XText (B "Delimiter") (B "/") ∈ xs.
Proof.
  exists ex_env, ex_open_server, ex_three, (ex_list (B "delimiter=/")). eexists. eexists.
  split; [apply query_params_spec; reflexivity|]. split; [vm_compute; by left|]. split; [page_by_computation|].
  split; [by vm_compute|]. split.
  - intros (n & xs & ys & [= <- <-] & H). revert H. rewrite !elem_of_cons. by intros [|[|[|[|[|?%elem_of_nil]]]]].
  - eexists. split; [done|]. do 4 right. by left.
Qed.
Print Assumptions C83_delimiter_refuted.

(** ** Example *)

(* A client that asks for one key at a time. *)
Definition ex_ask (m : option bytes) : http_request :=
  ex_list (match m with Some k => B "max-keys=1&marker=" ++ k | None => B "max-keys=1" end).
Example ex_paged :
  paged ex_env ex_open_server ex_three ex_ask None [B "a/x"; B "a/y"; B "b"] /\
  asks_listing ex_open_server (ex_ask (Some (B "b"))) (B "bkt") None.
Proof.
  split.
  - assert (exists x, page ex_env ex_open_server ex_three (ex_ask None) x /\ page_keys x = [B "a/x"; B "a/y"; B "b"] /\ ~ truncated x)
      as (x & Hx & <- & Ht).
    { eexists. split; [page_by_computation|]. split; [by vm_compute|].
      intros (n & xs & [= <- <-] & H). revert H. rewrite !elem_of_cons. by intros [|[|[|[|?%elem_of_nil]]]]. }
    by constructor.
  - assert (called (front ex_open_server (ex_ask (Some (B "b")))) = Some (OpListObjects, RListObjects (B "bkt") None))
      as H by (vm_compute; reflexivity).
    unfold called in H. destruct (front _ _) as [| |op c r] eqn:E; try done. injection H as -> ->.
    eexists _, _, _. split; [done|]. split; [by apply C58_called_as_asked|by left].
Qed.
