(** C79: downloads, HEAD requests and listings agree. *)
From Verif Require Import M_Base M_Path M_Headers M_Chunked M_BytesStream M_Crypto M_Fs M_Json M_Utf8 M_Storage M_Http M_Auth M_Ops M_Service
  S_Path S_Headers S_Chunked S_Storage S_Store S_Map S_Http L_Base L_Headers L_Fs L_Storage L_Scope L_Names L_Json L_Ops
  L_Results L_Path L_Tidy T_Store T_Listing L_Service L_Request S_Service S_Dispatch S_Calls T_Auth T_Calls T_Http.

Local Opaque md5 etag_of json_decode json_encode metadata_name part_name.

Lemma run_get_dir e s b k p : get_object_path e b k = Some p -> fs_nodes s !! p = Some NDir ->
  exists c, answer e (RGetObject b k None) s = Err c.
Proof.
  intros Hp Hn. unfold answer. cbn [storage]. unfold get_object. rewrite Hp. cbn [try_path].
  rewrite run_bind, run_call. cbn [exec]. rewrite Hn. destruct (negb (e_os_ok e p)) eqn:Ho; [by eexists|].
  rewrite run_try_io, run_call. cbn [exec get_extent]. rewrite run_try_res. cbn [run].
  rewrite run_try_io, run_load_metadata. destruct (meta_of e s b k) as [md|]; [|by eexists].
  rewrite run_try_io, (run_get_md5 e b k p) by done.
  unfold content. rewrite Hn. destruct (e_os_ok e p); by eexists.
Qed.

(** In every store, a HEAD request and a download fail with the same error, or give the same length and
    metadata, or the key names a folder. *)
Theorem C79_head_agrees e s b k :
  (exists c, answer e (RGetObject b k None) s = Err c /\ answer e (RHeadObject b k) s = Err c) \/
  (exists h len md tag, answer e (RGetObject b k None) s = Ok (AGet h 0 len len md tag) /\
     answer e (RHeadObject b k) s = Ok (AHead len md)) \/
  (exists p c, fs_nodes s !! p = Some NDir /\ (forall q, legal_bucket b -> resolved b k q -> p = q) /\
     answer e (RGetObject b k None) s = Err c).
Proof.
  destruct (get_object_path e b k) as [p|] eqn:Ep.
  2:{ left. exists InternalError. unfold answer. cbn [storage]. unfold get_object, head_object. by rewrite Ep. }
  destruct (e_os_ok e p) eqn:Eo.
  2:{ left. exists NoSuchKey. unfold answer. cbn [storage].
      rewrite (run_get_absent e b k None p), (run_head_absent e b k p); auto. }
  destruct (fs_nodes s !! p) as [[|i]|] eqn:En.
  - do 2 right. destruct (run_get_dir e s b k p Ep En) as [c Hc]. exists p, c. split; [done|]. split; [|done].
    intros q Hb Hq. rewrite (resolved_path e b k q) in Ep; [congruence|by apply legal_bucket_segment|done].
  - unfold answer. cbn [storage]. rewrite (run_get_file e b k None p i), (run_head_file e b k p i) by done.
    cbn [parse_range extent snd]. destruct (meta_of e s b k) as [md|]; [|left; by eexists].
    destruct (file_len s i <=? i64_max)%N; [|left; by eexists]. right. left. by eexists _, _, _, _.
  - left. exists NoSuchKey. unfold answer. cbn [storage].
    rewrite (run_get_absent e b k None p), (run_head_absent e b k p); auto.
Qed.
Print Assumptions C79_head_agrees.

Lemma located_below b k p : located b k p -> exists q, p = b :: q.
Proof. intros (segs & _ & _ & _ & ->). by eexists. Qed.

(** What a listing shows is what downloads and HEAD requests give. *)
Theorem C79_views_agree e rs b prefix (v2 : bool) l n0 : e_os_ok e [] = true ->
  Forall text_req rs -> Forall plain_req rs -> legal_bucket b ->
  let s := after_all e rs empty_store in
  fs_nodes s !! [b] = Some NDir ->
  (forall q c, content s (b :: q) = Some c -> (N.of_nat (length c) <= i64_max)%N) ->
  answer e (if v2 then RListObjectsV2 b prefix else RListObjects b prefix) s = Ok (AList b l n0) ->
  forall k n, ordinary k ->
    ((k, n) ∈ l <-> (forall x, prefix = Some x -> x `prefix_of` k) /\
       exists h md tag, answer e (RGetObject b k None) s = Ok (AGet h 0 n n md tag)) /\
    ((k, n) ∈ l -> exists md, answer e (RHeadObject b k) s = Ok (AHead n md)).
Proof.
  intros Hos Ht Hp Hb s Hd Hsm Hl k n Hk.
  destruct (C36_listing_reachable e rs b prefix v2 Hos Ht Hb Hd Hsm) as (l' & Hl' & Hiff & _). fold s in Hl', Hiff.
  rewrite Hl in Hl'. injection Hl' as <- _.
  destruct (reachable_tidy e rs Hos Ht) as [Hwf Htidy]. fold s in Hwf, Htidy.
  destruct (intact_all e rs empty_store wf_empty intact_empty Hp) as [Hin _]. fold s in Hin.
  destruct (intact_meta e s b k Hin) as [md Hmd].
  destruct (ordinary_located k b Hk) as [p Hloc].
  assert (Hpath : get_object_path e b k = Some p) by (apply located_path; [by apply legal_bucket_segment|done]).
  rewrite (Hiff k n). unfold answer. cbn [storage].
  destruct (fs_nodes s !! p) as [[|i]|] eqn:En.
  - destruct (run_get_dir e s b k p Hpath En) as [c Hc]. unfold answer in Hc. cbn [storage] in Hc. rewrite Hc.
    split; [split|]; [intros [? H]|intros [? H]|intros [? H]].
    + destruct H as (p' & c' & Hl' & Hc' & _). rewrite (located_fun _ _ _ _ Hl' Hloc) in Hc'. unfold content in Hc'. by rewrite En in Hc'.
    + destruct H as (? & ? & ? & ?). done.
    + destruct H as (p' & c' & Hl' & Hc' & _). rewrite (located_fun _ _ _ _ Hl' Hloc) in Hc'. unfold content in Hc'. by rewrite En in Hc'.
  - assert (Ho : e_os_ok e p = true) by (apply Htidy; by eexists).
    assert (Hc : content s p = Some (data_of s i)) by (unfold content; by rewrite En).
    assert (Hlen : (file_len s i <=? i64_max)%N = true).
    { apply N.leb_le. destruct (located_below _ _ _ Hloc) as [q ->]. unfold file_len. by apply (Hsm q). }
    rewrite (run_get_file e b k None p i), (run_head_file e b k p i) by done.
    cbn [parse_range extent snd]. rewrite Hmd, Hlen. cbn [snd].
    split; [split|]; intros [Hpre H].
    + split; [done|]. destruct H as (p' & c' & Hl' & Hc' & ->). rewrite (located_fun _ _ _ _ Hl' Hloc), Hc in Hc'.
      injection Hc' as <-. by eexists _, _, _.
    + split; [done|]. destruct H as (? & ? & ? & [= _ <- _ _]). by exists p, (data_of s i).
    + destruct H as (p' & c' & Hl' & Hc' & ->). rewrite (located_fun _ _ _ _ Hl' Hloc), Hc in Hc'.
      injection Hc' as <-. by eexists.
  - rewrite (run_get_absent e b k None p), (run_head_absent e b k p) by auto.
    split; [split|]; intros [? H].
    + destruct H as (p' & c' & Hl' & Hc' & _). rewrite (located_fun _ _ _ _ Hl' Hloc) in Hc'. unfold content in Hc'. by rewrite En in Hc'.
    + by destruct H as (? & ? & ? & ?).
    + destruct H as (p' & c' & Hl' & Hc' & _). rewrite (located_fun _ _ _ _ Hl' Hloc) in Hc'. unfold content in Hc'. by rewrite En in Hc'.
Qed.
Print Assumptions C79_views_agree.

(** But a HEAD request finds the folder of an object: after the upload of "a/b" there is an object "a" for
    HEAD requests, and neither for downloads nor for listings. *)
Theorem C79_phantom_refuted : exists e s b k md c l,
  s = after_all e [RPutObject b (k ++ B "/b") None None None (Some [FData (B "x")])] empty_store /\
  legal_bucket b /\ ordinary k /\
  answer e (RHeadObject b k) s = Ok (AHead 4096 md) /\ answer e (RGetObject b k None) s = Err c /\
  answer e (RListObjects b None) s = Ok (AList b l None) /\ k ∉ l.*1.
Proof.
  exists ex_env. eexists. exists (B "bkt"), (B "a"), None, InternalError, [(B "a/b", 1%N)]. split; [reflexivity|].
  split_and!.
  - apply check_bucket_name_spec. by vm_compute.
  - exists [B "a"]. by split_and!; try compute_done.
  - vm_compute. reflexivity.
  - vm_compute. reflexivity.
  - vm_compute. reflexivity.
  - compute_done.
Qed.
Print Assumptions C79_phantom_refuted.

(** The content type sent with an upload is lost, and the reply to a HEAD request lacks the tag which
    downloads have. *)
Definition ex_typed_server : server :=
  Server None (fun _ => Some (Mime false None)) (fun _ => true) (fun _ => None) (fun _ => None) (B "u-u-i-d").

Theorem C79_headers_refuted : exists e sv put get head hs1 hs2 body r,
  puts_object put (B "bkt") (B "k") /\ (B "content-type", B "text/plain") ∈ rq_headers put /\
  gets_object get (B "bkt") (B "k") /\ heads_object head (B "bkt") (B "k") /\
  replies e [(sv, put); (sv, get); (sv, head)] empty_store =
    [Replied r; Replied (Response 200 hs1 body); Replied (Response 200 hs2 RbEmpty)] /\ success r /\
  B "content-type" ∉ hs1.*1 /\ (B "content-type", B "application/octet-stream") ∈ hs2 /\
  (B "etag", quoted_md5 (B "one")) ∈ hs1 /\ B "etag" ∉ hs2.*1.
Proof.
  exists ex_env, ex_typed_server, (ex_put_object (B "/bkt/k") [(B "content-type", B "text/plain")] (B "one")).
  exists (ex_get_object (B "/bkt/k")), (HttpRequest (B "HEAD") (B "/bkt/k") None [] []).
  exists [(B "content-length", B "3"); (B "etag", quoted_md5 (B "one"))].
  exists [(B "content-length", B "3"); (B "content-type", B "application/octet-stream")], (RbFile (HFile 0) 0 3).
  exists (Response 200 [(B "etag", quoted_md5 (B "one"))] RbEmpty). split_and!.
  - split; [done|]. split; [apply request_path_spec; eexists; split; vm_compute; reflexivity|].
    split; [|intros [v Hv]; by apply elem_of_list_singleton in Hv].
    intros (ps & v & ->%query_params_spec & ?%elem_of_nil). done.
  - compute_done.
  - split; [done|]. apply request_path_spec. eexists. split; vm_compute; reflexivity.
  - split; [done|]. apply request_path_spec. eexists. split; vm_compute; reflexivity.
  - vm_compute. reflexivity.
  - by split.
  - compute_done.
  - compute_done.
  - compute_done.
  - compute_done.
Qed.
Print Assumptions C79_headers_refuted.

(** C24: an upload whose connection breaks is never answered with success. *)
Theorem C24_broken_uploads_fail e sv rq s s' resp b k :
  wf s -> puts_object rq b k -> ordinary k ->
  exchange e sv rq s = (s', Replied resp) -> broken (rq_body rq) = true -> ~ success resp.
Proof.
  intros Hwf Hput Hk Hx Hbr Hs.
  destruct (C60_success_is_executed _ _ _ _ _ _ Hx Hs) as (op & c & r & a & Hf & _ & Ha & -> & Hresp).
  destruct (put_called _ _ _ _ _ _ _ Hf Hput) as (class & len & md & -> & -> & Hmp & _).
  pose proof (object_request _ _ _ (proj1 (proj2 Hput))) as Hb.
  destruct (ordinary_located k b Hk) as [p Hloc].
  destruct (put_ok e b k class len md (Some (cx_body c)) p s (after e (RPutObject b k class len md (Some (cx_body c))) s) a) as (fs & [= <-] & Hbr' & _); [done|by apply legal_bucket_segment|done| |].
  { unfold answer, after in *. cbn [storage] in *. rewrite <- Ha. by destruct (run _ _ _). }
  destruct (called_delivers _ _ _ _ _ Hf Hmp Hbr') as [(_ & _ & H)|(_ & H)]; [congruence|].
  destruct H as (? & ? & ? & ? & ? & ? & ? & ? & ? & ? & ? & _ & _ & _ & _ & _ & _ & _ & H). congruence.
Qed.
Print Assumptions C24_broken_uploads_fail.

(** The hypotheses hold: a plain and a broken upload. *)
Example ex_broken_upload :
  let put := HttpRequest (B "PUT") (B "/bkt/k") None [] [FData (B "o"); FErr] in
  puts_object put (B "bkt") (B "k") /\ broken (rq_body put) = true /\
  (exchange ex_env ex_open_server put empty_store).2 = Replied (error_response InternalError).
Proof.
  split_and!; [|done|vm_compute; reflexivity].
  split; [done|]. split; [apply request_path_spec; eexists; split; vm_compute; reflexivity|].
  split; [|by intros [? ?%elem_of_nil]]. intros (ps & v & ->%query_params_spec & ?%elem_of_nil). done.
Qed.

Example ex_views_agree :
  let s := after_all ex_env [RPutObject (B "bkt") (B "a/b") None None None (Some [FData (B "xyz")])] empty_store in
  fs_nodes s !! [B "bkt"] = Some NDir /\
  answer ex_env (RListObjects (B "bkt") (Some (B "a"))) s = Ok (AList (B "bkt") [(B "a/b", 3%N)] None) /\
  answer ex_env (RGetObject (B "bkt") (B "a/b") None) s = Ok (AGet (HFile 0) 0 3 3 None (etag_of (B "xyz"))) /\
  answer ex_env (RHeadObject (B "bkt") (B "a/b")) s = Ok (AHead 3 None).
Proof. split_and!; vm_compute; reflexivity. Qed.
