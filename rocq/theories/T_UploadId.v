(** C86: what an upload id can reach. *)
From Verif Require Import M_Base M_Path M_Headers M_Chunked M_BytesStream M_Crypto M_Multipart M_Fs M_Json M_Utf8 M_Http M_Auth M_Storage M_Ops M_Service
  S_Path S_Headers S_Chunked S_Storage S_Store S_Http S_Service S_Dispatch L_Base L_Path L_Fs L_Names L_Storage L_Scope L_Results L_Request T_Store T_Auth T_Http T_Uploads.

Local Opaque md5 etag_of json_decode json_encode metadata_name.

(** ** The specification *)

(* An id without '..' between slashes.  All issued ids are such: they have no slashes at all. *)
Definition level (u : bytes) : Prop :=
  exists segs, segs <> [] /\ Forall (fun c => "/"%char ∉ c) segs /\ B ".." ∉ segs /\ u = slashed segs.

(** ** Lemmas *)

Lemma issued_level u : issued u -> level u.
Proof.
  intros H. exists [u]. split; [done|]. split; [repeat constructor; by apply issued_no_slash|]. split; [|done].
  intros Hin%elem_of_list_singleton. destruct H as (a & b & c & d & f & Hu & _ & Ha & _). rewrite <- Hin in Hu.
  apply (f_equal length) in Hu. rewrite !app_length, Ha in Hu. cbn in Hu. lia.
Qed.

Lemma slashed_lead pre c l : pre ++ slashed (c :: l) = slashed ((pre ++ c) :: l).
Proof. destruct l; cbn; [done|]. by rewrite <- app_assoc. Qed.
Lemma slashed_trail l d post : slashed (l ++ [d]) ++ post = slashed (l ++ [d ++ post]).
Proof.
  induction l as [|c l IH]; [done|]. assert (Hne : forall x, l ++ [x] <> []) by (by destruct l).
  rewrite <- !app_comm_cons, !slashed_cons by done. rewrite <- !app_assoc, IH. done.
Qed.

Lemma split_slashed l : l <> [] -> Forall (fun c => "/"%char ∉ c) l -> split_all "/" (slashed l) = l.
Proof.
  induction l as [|c l IH]; [done|]. intros _ [Hc Hl]%Forall_cons. destruct l as [|d l].
  - cbn. by apply split_all_free.
  - rewrite slashed_cons by done. change (B "/" ++ ?x) with ("/"%char :: x). cbn [app].
    rewrite split_all_cons by done. f_equal. by apply IH.
Qed.

Lemma push_keeps_head l c acc : B ".." ∉ l -> exists acc', fold_left push_component l (c :: acc) = c :: acc'.
Proof.
  revert acc. induction l as [|d l IH]; intros acc Hl; [by exists acc|]. apply not_elem_of_cons in Hl as [Hd Hl].
  cbn [fold_left]. unfold push_component at 2. destruct (_ || _); [by apply IH|].
  rewrite (proj2 (beq_false d (B ".."))) by done. rewrite <- app_comm_cons. by apply IH.
Qed.

Lemma part_path_hidden e u n p : level u -> part_path e u n = Some p -> exists x q, p = (B ".upload_id-" ++ x) :: q.
Proof.
  intros (segs & Hne & Hsl & Hdd & ->). unfold part_path, absolutize.
  replace (starts_with (B "/") (part_name (slashed segs) n)) with false by done. intros [= <-].
  destruct (exists_last Hne) as (l & d & Hd). set (post := B ".part-" ++ B (pretty n)).
  assert (Hpost : "/"%char ∉ post).
  { unfold post. rewrite elem_of_app. intros [H|H]; [revert H; compute_done|]. by apply pretty_Z_no in H. }
  assert (Hpd : d ++ post <> B "..").
  { intros H. apply (f_equal length) in H. unfold post in H. rewrite !app_length in H. cbn in H. lia. }
  unfold part_name. fold post. rewrite Hd, slashed_trail. rewrite Hd in Hsl, Hdd. clear Hd Hne.
  apply Forall_app in Hsl as [Hsl [Hd _]%Forall_cons]. apply not_elem_of_app in Hdd as [Hdd _].
  assert (Hl' : Forall (fun c => "/"%char ∉ c) (l ++ [d ++ post])).
  { apply Forall_app. split; [done|]. repeat constructor. rewrite elem_of_app. tauto. }
  assert (Hdd' : B ".." ∉ l ++ [d ++ post]).
  { rewrite elem_of_app, elem_of_list_singleton. intros [?|?]; [done|congruence]. }
  destruct (l ++ [d ++ post]) as [|c t] eqn:E; [by destruct l|]. apply Forall_cons in Hl' as [Hc Ht].
  apply not_elem_of_cons in Hdd' as [_ Hdt]. rewrite slashed_lead. unfold normalize. rewrite split_slashed; [|done|].
  - cbn [fold_left]. unfold push_component at 2. cbn [beq orb app].
    match goal with |- context [fold_left push_component t ?a] => change a with [B ".upload_id-" ++ c] end.
    destruct (push_keeps_head t (B ".upload_id-" ++ c) [] Hdt) as [q ->]. by eexists _, _.
  - constructor; [|done]. rewrite elem_of_app. intros [H|H]; [revert H; compute_done|done].
Qed.

Lemma scoped_service e sv rq op c r : front sv rq = FrCall op c r ->
  scoped (r_files e r) (r_dirs e r) (r_rmdirs e r) no_own (service e sv rq).
Proof. intros H. unfold service. rewrite H. apply scoped_bind; [apply scoped_storage|]. done. Qed.

(** ** Theorems *)

(** C86: while a part is uploaded under a level id, and at whatever point the handling stops or
    fails, nothing in any bucket changes. *)
Theorem C86_part_apart e sv rq op c u n body s s' m' b q :
  front sv rq = FrCall op c (RUploadPart u n body) -> level u -> wf s -> steps e s (service e sv rq) s' m' ->
  legal_bucket b -> fs_nodes s' !! (b :: q) = fs_nodes s !! (b :: q) /\ content s' (b :: q) = content s (b :: q).
Proof.
  intros Hf Hu Hwf Hst Hb. pose proof (scoped_steps e _ _ _ _ s s' m' Hwf (scoped_service e sv rq _ _ _ Hf) Hst) as Hun.
  assert (Hn : ~ r_files e (RUploadPart u n body) (b :: q)).
  { cbn. intros H. apply (part_path_hidden e u n _ Hu) in H as (x & q' & [= -> ->]). by apply (dot_not_bucket (B "upload_id-" ++ x)). }
  split; [apply (un_node _ _ _ _ _ Hun); [done|intros H; exact H|intros H; exact H]|by apply (un_content _ _ _ _ _ Hun)].
Qed.
Print Assumptions C86_part_apart.

(** C86: likewise, while an upload with a level id is completed, the only object that changes is
    the one named in the request. *)
Theorem C86_completion_apart e sv rq op c b k u ps s s' m' b' q :
  front sv rq = FrCall op c (RCompleteMultipartUpload b k u ps) -> level u -> wf s -> steps e s (service e sv rq) s' m' ->
  legal_bucket b' -> (forall p, get_object_path e b k = Some p -> p <> b' :: q) ->
  fs_nodes s' !! (b' :: q) = fs_nodes s !! (b' :: q) /\ content s' (b' :: q) = content s (b' :: q).
Proof.
  intros Hf Hu Hwf Hst Hb Hp. pose proof (scoped_steps e _ _ _ _ s s' m' Hwf (scoped_service e sv rq _ _ _ Hf) Hst) as Hun.
  assert (Hn : ~ r_files e (RCompleteMultipartUpload b k u ps) (b' :: q)).
  { cbn. intros [H|(l & n & _ & _ & H)]; [by apply Hp in H|].
    apply (part_path_hidden e u n _ Hu) in H as (x & q' & [= -> ->]). by apply (dot_not_bucket (B "upload_id-" ++ x)). }
  split; [apply (un_node _ _ _ _ _ Hun); [done|intros H; exact H|intros H; exact H]|by apply (un_content _ _ _ _ _ Hun)].
Qed.
Print Assumptions C86_completion_apart.

(** ** The limits *)

(* A server that reads every document as the list of the part 1. *)
Definition ex_part_server : server :=
  Server None (fun _ => None) (fun _ => true) (fun _ => Some (Some [Some 1%Z])) (fun _ => None) (B "0f8fad5b-d9cb-469f-a165-70867728950e").
Definition ex_part (path id : bytes) (body : bytes) : http_request :=
  HttpRequest (B "PUT") path (Some (B "partNumber=1&uploadId=" ++ id)) [] [FData body].
Definition ex_complete (path id : bytes) : http_request :=
  HttpRequest (B "POST") path (Some (B "uploadId=" ++ id)) [] [FData (B "<CompleteMultipartUpload/>")].
Definition status_of (r : reply) : option N := match r with Replied x => Some (rs_status x) | Panicked => None end.

(** C86: any text is taken for an upload id.  A part "of" an object of one bucket replaces an object
    of another bucket. *)
Theorem C86_part_reaches_refuted : exists e sv rq s s' r,
  request_path rq (PObject (B "mine") (B "a")) /\
  exchange e sv rq s = (s', r) /\ status_of r = Some 200%N /\
  content s [B "yours"; B "k.part-1"] = Some (B "old") /\ content s' [B "yours"; B "k.part-1"] = Some (B "new").
Proof.
  pose (put := ex_put_object (B "/yours/k.part-1") [] (B "old")).
  pose (s := (exchange ex_env ex_part_server put empty_store).1).
  pose (rq := ex_part (B "/mine/a") (B "%2F..%2Fyours%2Fk") (B "new")).
  exists ex_env, ex_part_server, rq, s, (exchange ex_env ex_part_server rq s).1, (exchange ex_env ex_part_server rq s).2.
  split; [apply request_path_spec; eexists; split; vm_compute; reflexivity|].
  split; [apply surjective_pairing|]. split_and!; vm_compute; reflexivity.
Qed.
Print Assumptions C86_part_reaches_refuted.

(** C86: the completion of an "upload" takes an object away from another bucket: the data come to the
    object named in the request, and the other object is gone. *)
Theorem C86_completion_reaches_refuted : exists e sv rq s s' r,
  request_path rq (PObject (B "mine") (B "a")) /\
  exchange e sv rq s = (s', r) /\ status_of r = Some 200%N /\
  content s [B "yours"; B "k.part-1"] = Some (B "secret") /\ content s' [B "yours"; B "k.part-1"] = None /\
  content s' [B "mine"; B "a"] = Some (B "secret").
Proof.
  pose (s := after_requests ex_env [(ex_part_server, ex_put_object (B "/yours/k.part-1") [] (B "secret"));
     (ex_part_server, ex_put_object (B "/mine/b") [] (B "x"))] empty_store).
  pose (rq := ex_complete (B "/mine/a") (B "%2F..%2Fyours%2Fk")).
  exists ex_env, ex_part_server, rq, s, (exchange ex_env ex_part_server rq s).1, (exchange ex_env ex_part_server rq s).2.
  split; [apply request_path_spec; eexists; split; vm_compute; reflexivity|].
  split; [apply surjective_pairing|]. split_and!; vm_compute; reflexivity.
Qed.
Print Assumptions C86_completion_reaches_refuted.

(** C86: an id that nobody has issued is accepted, and so are parts that were uploaded for another
    object of another bucket: no request has begun an upload, and the part for "yours/x" becomes
    the object "mine/a". *)
Theorem C86_unknown_id_refuted : exists e sv part complete s,
  request_path part (PObject (B "yours") (B "x")) /\ request_path complete (PObject (B "mine") (B "a")) /\
  map status_of (replies e [(sv, part); (sv, complete)] s) = [Some 200%N; Some 200%N] /\
  content (after_requests e [(sv, part); (sv, complete)] s) [B "mine"; B "a"] = Some (B "data").
Proof.
  pose (s := after_requests ex_env [(ex_part_server, ex_put_object (B "/mine/b") [] (B "x"))] empty_store).
  exists ex_env, ex_part_server, (ex_part (B "/yours/x") (B "never-issued") (B "data")), (ex_complete (B "/mine/a") (B "never-issued")), s.
  split; [apply request_path_spec; eexists; split; vm_compute; reflexivity|].
  split; [apply request_path_spec; eexists; split; vm_compute; reflexivity|].
  split; vm_compute; reflexivity.
Qed.
Print Assumptions C86_unknown_id_refuted.

(** ** Example *)

(* A part under an issued id: accepted, and the bucket is as before. *)
Example C86_ex :
  let id := B "0f8fad5b-d9cb-469f-a165-70867728950e" in
  let s := (exchange ex_env ex_part_server (ex_put_object (B "/mine/b") [] (B "x")) empty_store).1 in
  let rq := ex_part (B "/mine/a") id (B "data") in
  level id /\ status_of (exchange ex_env ex_part_server rq s).2 = Some 200%N /\
  content (exchange ex_env ex_part_server rq s).1 [B "mine"; B "b"] = Some (B "x").
Proof.
  cbv zeta. split; [|split; vm_compute; reflexivity]. apply issued_level.
  exists (B "0f8fad5b"), (B "d9cb"), (B "469f"), (B "a165"), (B "70867728950e"). split; [done|]. split; [compute_done|done].
Qed.
