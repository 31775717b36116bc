(** C61: the XML documents of replies, as a reader finds them. *)
From Verif Require Import M_Base M_Path M_Headers M_Chunked M_Crypto M_Fs M_Json M_Utf8 M_Storage M_Http M_Errors M_Ops M_Service M_Xml
  S_Path S_Headers S_SigV4 S_Chunked S_Storage S_Store S_Map S_Service S_Dispatch S_Calls S_Http S_Server S_Xml
  L_Base L_Path L_Fs L_Storage L_Names L_Ops L_Tidy L_Xml L_Request
  T_Errors T_Auth T_Store T_Scope T_Listing T_Calls T_Http T_Map T_Server.

Local Opaque md5 json_decode json_encode metadata_name part_name.

Lemma tag_literal n : negb (beq n []) && forallb (fun a => bool_decide (a ∈ letters ++ LETTERS ++ digits)) n = true -> tag_name n.
Proof.
  intros [H1 H2]%andb_true_iff. split.
  - intros ->. done.
  - intros a Ha%elem_of_list_In. rewrite forallb_forall in H2. by apply H2, bool_decide_eq_true in Ha.
Qed.
Ltac tag := apply tag_literal; vm_compute; reflexivity.
Lemma fine_text_names n t : tag_name n -> names_fine (XText n t).
Proof. done. Qed.
Lemma fine_map {A} (f : A -> xml) l : (forall x, names_fine (f x)) -> Forall names_fine (map f l).
Proof. intros Hf. by apply Forall_map, Forall_true. Qed.

Lemma respond_names op c a resp x : respond op c (Ok a) = Ok resp -> rs_body resp = RbXml x -> names_fine x.
Proof.
  cbn [respond]. unfold respond_ok. intros Hr Hx.
  assert (Hl : names_fine (XText (B "LocationConstraint") [])) by tag.
  destruct op, a; cbn [wrap] in Hr;
    try (destruct (set_metadata_headers _ _)); try (destruct (set_header _ _ _));
    try discriminate Hr; injection Hr as <-; cbn in Hx; try discriminate Hx; injection Hx as <-;
    try exact Hl.
  all: try (apply names_fine_stack; split; [tag|]; repeat (apply Forall_cons; split); try apply Forall_nil_2; tag).
  all: try (apply names_fine_stack; split; [tag|]; apply fine_map; intros y; apply names_fine_stack; split; [tag|];
    apply Forall_singleton; tag).
  all: try (apply names_fine_stack; split; [tag|]; apply Forall_singleton, names_fine_stack; split; [tag|];
    apply fine_map; intros y; apply names_fine_stack; split; [tag|]; apply Forall_singleton; tag).
  all: apply names_fine_stack; split; [tag|]; repeat (apply Forall_app; split).
  all: try (apply fine_map; intros y; apply names_fine_stack; split; [tag|]; repeat (apply Forall_cons; split); try apply Forall_nil_2; tag).
  all: try (apply Forall_cons; split; [tag|]; repeat (apply Forall_app; split)).
  all: try (destruct (cx_query _ _); [apply Forall_singleton; tag|apply Forall_nil_2]).
  all: try (destruct count; [apply Forall_singleton; tag|apply Forall_nil_2]).
Qed.
Lemma error_names code x : rs_body (error_response code) = RbXml x -> names_fine x.
Proof. intros [= <-]. apply names_fine_stack. split; [tag|]. apply Forall_singleton. tag. Qed.
Lemma reply_names e sv rq s s' resp x : exchange e sv rq s = (s', Replied resp) -> rs_body resp = RbXml x -> names_fine x.
Proof.
  intros Hx Hb. destruct (front sv rq) as [code| |op c r] eqn:Hf.
  - unfold exchange, service in Hx. rewrite Hf in Hx. cbn in Hx. injection Hx as _ <-. by eapply error_names.
  - unfold exchange, service in Hx. rewrite Hf in Hx. by cbn in Hx.
  - rewrite (exchange_call e sv rq s op c r Hf) in Hx. apply (f_equal snd) in Hx. cbn [snd] in Hx.
    destruct (answer e r s) as [a|code]; [|cbn in Hx; injection Hx as <-; by eapply error_names].
    destruct (respond op c (Ok a)) as [resp'|code] eqn:Hr; cbn [reply_of] in Hx; injection Hx as <-.
    + by eapply respond_names.
    + by eapply error_names.
Qed.

(** C61: every XML body, as long as its texts can be written in XML, is a document that is read
    in exactly one way: as the elements of the reply. *)
Theorem C61_replies_are_read_back e sv rq s s' resp x gt y :
  exchange e sv rq s = (s', Replied resp) -> rs_body resp = RbXml x -> Forall (fine_text gt) (texts x) ->
  document (xml_body_text gt x) y <-> y = tree x.
Proof.
  intros Hx Hb Ht. pose proof (body_read gt x (reply_names _ _ _ _ _ _ _ Hx Hb) Ht) as Hd.
  split; [|by intros ->]. intros Hy. by eapply document_unique.
Qed.

(* Listings. *)
Lemma chars_of_literal gt t : forallb (fun a => (32 <=? code a)%N && (code a <? 128)%N && negb (aeq a "]")) t = true -> fine_text gt t.
Proof.
  rewrite forallb_forall. intros Ht.
  destruct (literal_chars t) as [? ?].
  { apply forallb_forall. intros a Ha%Ht. by apply andb_true_iff in Ha as [Ha _]. }
  split; [done|]. split; [done|]. intros _ x y ->.
  assert (Hin : In "]"%char (x ++ B "]]>" ++ y)) by (apply in_app_iff; right; by left).
  apply Ht in Hin. by rewrite aeq_refl, andb_false_r in Hin.
Qed.
Lemma denotes_digits t n : denotes t n -> forall a, a ∈ t -> a ∈ digits.
Proof.
  induction 1 as [d v Hd|ds n d v _ IH Hd]; intros a.
  - intros ->%elem_of_list_singleton. by eapply elem_of_list_lookup_2.
  - rewrite elem_of_app. intros [Ha| ->%elem_of_list_singleton]; [by apply IH|by eapply elem_of_list_lookup_2].
Qed.
Lemma denotes_nonempty t n : denotes t n -> t <> [].
Proof. destruct 1; [done|]. by intros [_ [=]]%app_eq_nil. Qed.
Lemma digits_fine gt t n : denotes t n -> fine_text gt t.
Proof.
  intros Hd. apply chars_of_literal. apply forallb_forall. intros a Ha%elem_of_list_In%(denotes_digits t n Hd).
  revert a Ha. apply Forall_forall. compute_done.
Qed.
Lemma bucket_fine gt b : legal_bucket b -> fine_text gt b.
Proof.
  intros (_ & Hc & _). apply chars_of_literal. apply forallb_forall. intros a Ha%elem_of_list_In%Hc.
  assert (Hin : a ∈ letters ++ digits ++ B ".-") by (rewrite !elem_of_app; destruct Ha as [?|[?|[->| ->]]]; [tauto|tauto|right; right; compute_done..]).
  clear Ha. revert a Hin. apply Forall_forall. compute_done.
Qed.

Lemma named_tree n x : named n (tree x) = bool_decide (element_name x = n).
Proof. by destruct x. Qed.
Lemma filter_tree n xs : filter (named n) (map tree xs) = map tree (elements n xs).
Proof.
  unfold elements. induction xs as [|x xs IH]; [done|]. cbn [map]. rewrite !filter_cons, IH.
  destruct (decide (element_name x = n)) as [Hx|Hx].
  - rewrite decide_True; [done|]. rewrite named_tree. by apply bool_decide_pack.
  - rewrite decide_False; [done|]. rewrite named_tree. by rewrite bool_decide_spec.
Qed.
Lemma listing_tree b objs count x : lists_objects b objs count x -> reads_listing objs (tree x).
Proof.
  intros (xs & -> & Hxs & _). cbn [tree]. eexists. split; [reflexivity|]. rewrite filter_tree.
  revert Hxs. generalize (elements (B "Contents") xs). clear. intros ys H. induction H as [|o y os ys (t & Ht & ->) _ IH]; [constructor|].
  constructor; [|exact IH]. exists t. split; [done|]. cbn [tree map]. do 2 f_equal.
  pose proof (denotes_nonempty _ _ Ht). by destruct t.
Qed.
Lemma listing_texts op c b objs count x : op = OpListObjects \/ op = OpListObjectsV2 ->
  cx_query c (B "delimiter") = None -> cx_query c (B "encoding-type") = None ->
  forall resp, respond op c (Ok (AList b objs count)) = Ok resp -> rs_body resp = RbXml x ->
  forall t, t ∈ texts x -> t = b \/ t ∈ objs.*1 \/ exists n, denotes t n.
Proof.
  intros Hop Hd He resp Hr Hx t. cbn [respond] in Hr.
  assert (Hb : rs_body resp = RbXml (XStack (B "ListBucketResult") (map contents_xml objs ++ [XText (B "Name") b] ++
    opt_element (B "Delimiter") (cx_query c (B "delimiter")) ++ opt_element (B "EncodingType") (cx_query c (B "encoding-type")) ++
    match count with Some n => [XText (B "KeyCount") (num n)] | None => [] end))).
  { destruct Hop as [-> | ->]; by injection Hr as <-. }
  rewrite Hx in Hb. rewrite Hd, He in Hb. injection Hb as ->. cbn [texts]. rewrite !flat_map_app, !elem_of_app.
  intros [Hin|Hin].
  - apply elem_of_list_In, in_flat_map in Hin as (y & Hy & Hin). apply in_map_iff in Hy as ([k n] & <- & Ho).
    cbn in Hin. destruct Hin as [<-|[<-|[]]].
    + right. left. apply elem_of_list_fmap. exists (k, n). split; [done|]. by apply elem_of_list_In.
    + right. right. exists n. apply num_denotes.
  - cbn [flat_map texts app] in Hin. apply elem_of_cons in Hin as [->|Hin]; [by left|].
    destruct count as [n|]; [|by apply elem_of_nil in Hin]. apply elem_of_list_singleton in Hin as ->.
    right. right. exists n. apply num_denotes.
Qed.

(** C61: whoever reads the document of a listing finds exactly the objects of the bucket, if the
    keys can be written in XML and no encoding of the keys was asked for.  Missing: other keys
    and requests, see below. *)
Theorem C61_listing_is_read_partial e sv rq s op c b prefix (v2 gt : bool) :
  wf s -> tidy e s -> fs_nodes s !! [b] = Some NDir ->
  (forall q d, content s (b :: q) = Some d -> (N.of_nat (length d) <= i64_max)%N) ->
  (forall k p, located b k p -> is_Some (content s p) -> fine_text gt k) ->
  front sv rq = FrCall op c (if v2 then RListObjectsV2 b prefix else RListObjects b prefix) ->
  ~ has_param rq (B "delimiter") -> ~ has_param rq (B "encoding-type") ->
  exists resp x y l,
    exchange e sv rq s = (s, Replied resp) /\ rs_status resp = 200%N /\ rs_body resp = RbXml x /\
    (forall z, document (xml_body_text gt x) z <-> z = y) /\ reads_listing l y /\
    (forall k n, (k, n) ∈ l <-> (forall u, prefix = Some u -> u `prefix_of` k) /\
       exists p d, located b k p /\ content s p = Some d /\ n = N.of_nat (length d)) /\
    StronglySorted (fun x y => bytes_lt x.1 y.1) l.
Proof.
  intros Hwf Htidy Hb Hsz Hk Hf Hnd Hne.
  pose proof (C58_called_as_asked sv rq op c _ Hf) as Ha.
  destruct (called_entered _ _ _ _ _ Hf) as (Hen & _ & _).
  assert (Hop : op = OpListObjects \/ op = OpListObjectsV2) by (destruct v2; inversion Ha; tauto).
  assert (Hq : forall n, ~ has_param rq n -> cx_query c n = None).
  { intros n Hn. pose proof (entered_param _ _ _ n Hen) as Hg. destruct (cx_query c n) as [v|]; [|done].
    destruct Hn. destruct Hg as (ps & Hps & Hin). by exists ps, v. }
  assert (Hlb : legal_bucket b).
  { assert (Hp : request_path rq (PBucket b)) by (destruct v2; inversion Ha; subst; done).
    destruct Hp as (uri & _ & _ & Hp). by inversion Hp. }
  destruct (C36_listing e s b prefix v2 Hwf Htidy Hlb Hb Hsz) as (l & Hans & Hl & Hs).
  destruct (listing_shown op c b l (if v2 then Some (N.of_nat (length l)) else None)) as (resp & Hr & Hst & Hh & x & Hx & Hlo);
    [by destruct Hop as [-> | ->]..|].
  assert (Hex : exchange e sv rq s = (s, Replied resp)).
  { rewrite (exchange_call e sv rq s op c _ Hf), Hans, Hr. f_equal. apply C51_reads_leave_store. by destruct v2. }
  exists resp, x, (tree x), l. split; [done|]. split; [done|]. split; [done|]. split; [|split; [by eapply listing_tree|done]].
  intros z. eapply C61_replies_are_read_back; [exact Hex|done|]. apply Forall_forall. intros t Ht.
  destruct (listing_texts op c b l _ x Hop (Hq _ Hnd) (Hq _ Hne) resp Hr Hx t Ht) as [->|[Hin|[n Hn]]].
  - by apply bucket_fine.
  - apply elem_of_list_fmap in Hin as ([k n] & -> & Hin). apply Hl in Hin as (_ & p & d & Hp & Hd & _). by eapply Hk.
  - by eapply digits_fine.
Qed.
Print Assumptions C61_replies_are_read_back.
Print Assumptions C61_listing_is_read_partial.

(** ** Keys that documents cannot hold *)

Definition ex_listing : http_request := HttpRequest (B "GET") (B "/bkt") None [] [].
Definition ex_holding (path : bytes) : fs := (exchange ex_env ex_open_server (ex_put_object path [] (B "x")) empty_store).1.
Definition ex_listed (more : list xml) (k : bytes) : xml :=
  XStack (B "ListBucketResult") ([XStack (B "Contents") [XText (B "Key") k; XText (B "Size") (B "1")]; XText (B "Name") (B "bkt")] ++ more).

Lemma listing_leaves rq op b prefix s : called (front ex_open_server rq) = Some (op, RListObjects b prefix) ->
  (exchange ex_env ex_open_server rq s).1 = s.
Proof.
  unfold called. intros H. destruct (front _ _) as [| |op' c r] eqn:E; [done|done|]. rewrite (exchange_call _ _ _ _ _ _ _ E).
  cbn [fst]. injection H as -> ->. by apply C51_reads_leave_store.
Qed.
Lemma chars_bytes t a : xml_chars t -> a ∈ t -> (32 <= code a)%N \/ a = byte 9 \/ a = byte 10 \/ a = byte 13.
Proof.
  intros (cs & -> & Hcs) (c & Hin & Ha)%elem_of_list_In%in_concat. rewrite Forall_forall in Hcs.
  apply elem_of_list_In, Hcs in Hin. unfold cont in Hin. destruct Hin; cbn in Ha;
    repeat destruct Ha as [<-|Ha]; try done; unfold cont in *; try (left; lia). tauto.
Qed.

(** C61: one object whose key has a control character makes the listing unreadable. *)
Theorem C61_control_character_refuted : exists e sv rq rq' s k resp x,
  k = B "a" ++ [byte 1] ++ B "b" /\
  (exists resp', exchange e sv rq empty_store = (s, Replied resp') /\ success resp') /\ content s [B "bkt"; k] = Some (B "x") /\
  exchange e sv rq' s = (s, Replied resp) /\ rs_status resp = 200%N /\ rs_body resp = RbXml x /\
  forall gt y, ~ document (xml_body_text gt x) y.
Proof.
  exists ex_env, ex_open_server, (ex_put_object (B "/bkt/a%01b") [] (B "x")), ex_listing, (ex_holding (B "/bkt/a%01b")).
  exists (B "a" ++ [byte 1] ++ B "b"). exists (xml_response 200 (ex_listed [] (B "a" ++ [byte 1] ++ B "b"))), (ex_listed [] (B "a" ++ [byte 1] ++ B "b")).
  split; [done|]. split; [eexists; split; [apply pair_of_snd; vm_compute; reflexivity|by split]|].
  split; [vm_compute; reflexivity|]. split; [|split; [reflexivity|split; [reflexivity|]]].
  - apply injective_projections; [|vm_compute; reflexivity].
    apply (listing_leaves ex_listing OpListObjects (B "bkt") None). vm_compute. reflexivity.
  - intros gt y [Hc _]. apply (chars_bytes _ (byte 1)) in Hc.
    + destruct Hc as [Hc|[Hc|[Hc|Hc]]]; [by vm_compute in Hc|discriminate Hc..].
    + destruct gt; compute_done.
Qed.
Print Assumptions C61_control_character_refuted.

Fixpoint norm (t : bytes) : bytes :=
  match t with
  | [] => []
  | a :: t' =>
      if aeq a CR then
        match t' with
        | [] => [LF]
        | b :: _ => if aeq b LF then norm t' else LF :: norm t'
        end
      else a :: norm t'
  end.
Lemma norm_head t : head t = Some LF -> exists t', t = LF :: t' /\ norm t = LF :: norm t'.
Proof. destruct t as [|a t]; [done|]. intros [= ->]. by exists t. Qed.
Lemma norm_line_ends t : line_ends t (norm t).
Proof.
  remember (length t) as n eqn:Hn. assert (Hle : length t <= n) by lia. clear Hn. revert t Hle.
  induction n as [|n IH]; intros t Hle; [destruct t; [constructor|cbn in Hle; lia]|].
  destruct t as [|a t]; [constructor|]. cbn in Hle. cbn [norm]. destruct (aeq a CR) eqn:Ha.
  - apply aeq_true in Ha as ->. destruct t as [|b t]; [apply le_cr; [done|constructor]|].
    destruct (aeq b LF) eqn:Hb.
    + apply aeq_true in Hb as ->. change (norm (LF :: t)) with (LF :: norm t). apply le_crlf, IH. cbn in Hle. lia.
    + apply le_cr; [|apply IH; lia]. intros [= ->]. by rewrite aeq_refl in Hb.
  - apply le_other; [|apply IH; lia]. intros ->. by rewrite aeq_refl in Ha.
Qed.
Lemma read_after_norm body body' y : xml_chars body -> norm body = norm body' -> document body' y -> document body y.
Proof.
  intros Hc Hn [_ (t & w & Hl & He)]. split; [done|]. exists t, w. split; [|done].
  rewrite (line_ends_unique _ _ Hl _ (norm_line_ends body')), <- Hn. apply norm_line_ends.
Qed.

Lemma ex_listing_read gt k : fine_text gt k -> document (xml_body_text gt (ex_listed [] k)) (tree (ex_listed [] k)).
Proof.
  intros Hk. apply body_read.
  - apply names_fine_stack. split; [tag|]. apply Forall_cons; split; [|apply Forall_cons; split; [tag|apply Forall_nil_2]].
    apply names_fine_stack. split; [tag|]. apply Forall_cons; split; [tag|]. apply Forall_cons; split; [tag|apply Forall_nil_2].
  - cbn [ex_listed texts flat_map app]. apply Forall_cons; split; [done|].
    apply Forall_cons; split; [by apply chars_of_literal|]. apply Forall_cons; split; [by apply chars_of_literal|apply Forall_nil_2].
Qed.

(** C61: a carriage return in a key is read as a line feed, so that a reader sees a key which is
    not in the bucket. *)
Theorem C61_carriage_return_refuted : exists e sv rq rq' s k k' resp x,
  k = B "a" ++ [CR] ++ B "b" /\ k' = B "a" ++ [LF] ++ B "b" /\
  (exists resp', exchange e sv rq empty_store = (s, Replied resp') /\ success resp') /\
  content s [B "bkt"; k] = Some (B "x") /\ content s [B "bkt"; k'] = None /\
  exchange e sv rq' s = (s, Replied resp) /\ rs_status resp = 200%N /\ rs_body resp = RbXml x /\
  forall gt, exists y, (forall z, document (xml_body_text gt x) z <-> z = y) /\ reads_listing [(k', 1%N)] y.
Proof.
  exists ex_env, ex_open_server, (ex_put_object (B "/bkt/a%0Db") [] (B "x")), ex_listing, (ex_holding (B "/bkt/a%0Db")).
  exists (B "a" ++ [CR] ++ B "b"), (B "a" ++ [LF] ++ B "b"). exists (xml_response 200 (ex_listed [] (B "a" ++ [CR] ++ B "b"))), (ex_listed [] (B "a" ++ [CR] ++ B "b")).
  split; [done|]. split; [done|]. split; [eexists; split; [apply pair_of_snd; vm_compute; reflexivity|by split]|].
  split; [vm_compute; reflexivity|]. split; [vm_compute; reflexivity|]. split; [|split; [reflexivity|split; [reflexivity|]]].
  - apply injective_projections; [|vm_compute; reflexivity].
    apply (listing_leaves ex_listing OpListObjects (B "bkt") None). vm_compute. reflexivity.
  - intros gt. exists (tree (ex_listed [] (B "a" ++ [LF] ++ B "b"))). split.
    + assert (Hd : document (xml_body_text gt (ex_listed [] (B "a" ++ [CR] ++ B "b"))) (tree (ex_listed [] (B "a" ++ [LF] ++ B "b")))).
      { apply (read_after_norm _ (xml_body_text gt (ex_listed [] (B "a" ++ [LF] ++ B "b"))));
          [|destruct gt; vm_compute; reflexivity|apply (ex_listing_read gt)].
        - assert (Hch : forall t, forallb (fun a => (32 <=? code a)%N && (code a <? 128)%N || aeq a CR) t = true -> xml_chars t).
          { clear. induction t as [|a t IH]; intros Ht; [apply chars_nil|]. cbn [forallb] in Ht. apply andb_true_iff in Ht as [Ha Ht].
            apply (chars_app [a]); [|by apply IH]. exists [[a]]. split; [done|]. apply Forall_singleton, xc_ascii.
            apply orb_true_iff in Ha as [[H1 H2]%andb_true_iff|Ha%aeq_true]; [left|right; right; right; done].
            apply N.leb_le in H1. apply N.ltb_lt in H2. lia. }
          apply Hch. by destruct gt; vm_compute.
        - split; [|split; [by compute_done|]].
          + exists [[byte 97]; [byte 10]; [byte 98]]. split; [done|].
            apply Forall_cons; split; [apply xc_ascii; left; vm_compute; by split|].
            apply Forall_cons; split; [apply xc_ascii; right; right; by left|].
            apply Forall_singleton, xc_ascii. left. vm_compute. by split.
          + intros _ x y Hxy. assert (Hin : In "]"%char (B "a" ++ [LF] ++ B "b")) by (rewrite Hxy; apply in_app_iff; right; by left).
            cbn in Hin. by repeat destruct Hin as [[=]|Hin]. }
      intros z. split; [|by intros ->]. intros Hz. by eapply document_unique.
    + eexists. split; [reflexivity|]. vm_compute filter. constructor; [|constructor].
      exists (B "1"). split; [|reflexivity]. apply (num_denotes 1).
Qed.
Print Assumptions C61_carriage_return_refuted.

(** C61: the encoding type asked for is echoed, but keys are not encoded: a reader that decodes
    them finds a key that is not in the bucket. *)
Theorem C61_encoding_type_refuted : exists e sv rq rq' s k k' resp x,
  k = B "a%20b" /\ k' = B "a b" /\ pct_decoded k k' /\
  (exists resp', exchange e sv rq empty_store = (s, Replied resp') /\ success resp') /\
  content s [B "bkt"; k] = Some (B "x") /\ content s [B "bkt"; k'] = None /\
  rq_query rq' = Some (B "encoding-type=url") /\
  exchange e sv rq' s = (s, Replied resp) /\ rs_status resp = 200%N /\ rs_body resp = RbXml x /\
  forall gt, exists y xs, document (xml_body_text gt x) y /\ reads_listing [(k, 1%N)] y /\
    y = Element (B "ListBucketResult") xs /\ Element (B "EncodingType") [Text (B "url")] ∈ xs.
Proof.
  pose (rq' := HttpRequest (B "GET") (B "/bkt") (Some (B "encoding-type=url")) [] []).
  pose (x := ex_listed [XText (B "EncodingType") (B "url")] (B "a%20b")).
  exists ex_env, ex_open_server, (ex_put_object (B "/bkt/a%2520b") [] (B "x")), rq', (ex_holding (B "/bkt/a%2520b")).
  exists (B "a%20b"), (B "a b"). exists (xml_response 200 x), x.
  split; [done|]. split; [done|]. split.
  { apply pd_plain; [done|]. eapply pd_hex; [..|apply pd_plain; [done|apply pd_nil]]; vm_compute; reflexivity. }
  split; [eexists; split; [apply pair_of_snd; vm_compute; reflexivity|by split]|].
  split; [vm_compute; reflexivity|]. split; [vm_compute; reflexivity|]. split; [done|]. split; [|split; [reflexivity|split; [reflexivity|]]].
  - apply injective_projections; [|vm_compute; reflexivity].
    apply (listing_leaves rq' OpListObjects (B "bkt") None). vm_compute. reflexivity.
  - intros gt. exists (tree x). eexists. split; [|split; [|split; [reflexivity|]]].
    + apply body_read.
      * apply names_fine_stack. split; [tag|]. apply Forall_cons; split; [|apply Forall_cons; split; [tag|apply Forall_singleton; tag]].
        apply names_fine_stack. split; [tag|]. apply Forall_cons; split; [tag|]. apply Forall_singleton; tag.
      * cbn [x ex_listed texts flat_map app].
        repeat (apply Forall_cons; split; [by apply chars_of_literal|]). apply Forall_nil_2.
    + eexists. split; [reflexivity|]. vm_compute filter. constructor; [|constructor].
      exists (B "1"). split; [|reflexivity]. apply (num_denotes 1).
    + right. right. left.
Qed.
Print Assumptions C61_encoding_type_refuted.

(* A listing whose texts have to be escaped, as written and as read. *)
Example ex_escaped_listing : exists resp x,
  exchange ex_env ex_open_server ex_listing (ex_holding (B "/bkt/a%3Cb%26c")) = (ex_holding (B "/bkt/a%3Cb%26c"), Replied resp) /\
  rs_body resp = RbXml x /\
  xml_body_text true x = B "<?xml version=""1.0"" encoding=""UTF-8""?><ListBucketResult><Contents><Key>a&lt;b&amp;c</Key><Size>1</Size></Contents><Name>bkt</Name></ListBucketResult>" /\
  (forall z, document (xml_body_text true x) z <-> z = tree x) /\ reads_listing [(B "a<b&c", 1%N)] (tree x).
Proof.
  exists (xml_response 200 (ex_listed [] (B "a<b&c"))), (ex_listed [] (B "a<b&c")). assert (exchange ex_env ex_open_server ex_listing (ex_holding (B "/bkt/a%3Cb%26c")) =
    (ex_holding (B "/bkt/a%3Cb%26c"), Replied (xml_response 200 (ex_listed [] (B "a<b&c"))))) as Hx.
  { apply injective_projections; [|vm_compute; reflexivity].
    apply (listing_leaves ex_listing OpListObjects (B "bkt") None). vm_compute. reflexivity. }
  split; [exact Hx|]. split; [reflexivity|]. split; [vm_compute; reflexivity|]. split.
  - intros z. eapply C61_replies_are_read_back; [exact Hx|reflexivity|].
    cbn [ex_listed texts flat_map app]. repeat (apply Forall_cons; split; [by apply chars_of_literal|]). apply Forall_nil_2.
  - eexists. split; [reflexivity|]. vm_compute filter. constructor; [|constructor].
    exists (B "1"). split; [|reflexivity]. apply (num_denotes 1).
Qed.
