(** C93: the server only moves the bytes of objects. *)
From Verif Require Import M_Base M_Path M_Headers M_Chunked M_BytesStream M_Crypto M_Fs M_Json M_Utf8 M_Storage M_Http M_Errors M_Ops M_Service
  S_Path S_Headers S_Chunked S_Errors S_Storage S_Store S_Service S_Dispatch S_Calls S_Http S_Server
  L_Base L_Path L_Headers L_Fs L_Storage L_Scope L_Names L_Json L_Ops L_Results L_Tidy L_MapOps
  T_Errors T_Headers T_Auth T_Store T_Copy T_Scope T_Listing T_Buckets T_Calls T_Http T_Map T_Server T_Tenants.

Local Opaque md5 etag_of json_decode json_encode part_name.

(** ** What the theorem says *)

(* A relation between bytes, extended to contents, to bodies, to tags. *)
Section relation.
  Context (R : ascii -> ascii -> Prop).

  Definition contents_akin (c c' : bytes) : Prop := Forall2 R c c'.
  Definition tags_akin (x y : bytes) : Prop := exists c c', contents_akin c c' /\ x = etag_of c /\ y = etag_of c'.
  Inductive frames_akin : frame -> frame -> Prop :=
  | fa_data c c' : contents_akin c c' -> frames_akin (FData c) (FData c')
  | fa_err : frames_akin FErr FErr.
  (* Both arrive, or both break off; they may be cut differently. *)
  Definition bodies_akin (x y : list frame) : Prop :=
    contents_akin (body_data x) (body_data y) /\ (FErr ∈ x <-> FErr ∈ y).

  (* Requests that differ only in the bytes uploaded. *)
  Inductive requests_akin : s_req -> s_req -> Prop :=
  | qa_same r : (forall b k sc cl md body, r <> RPutObject b k sc cl md (Some body)) -> (forall u n body, r <> RUploadPart u n (Some body)) ->
      requests_akin r r
  | qa_put b k sc cl md x y : bodies_akin x y -> requests_akin (RPutObject b k sc cl md (Some x)) (RPutObject b k sc cl md (Some y))
  | qa_part u n x y : bodies_akin x y -> requests_akin (RUploadPart u n (Some x)) (RUploadPart u n (Some y)).

  (* Answers, with the disks from which bodies are read, that differ only in the bytes downloaded and in tags. *)
  Inductive answers_akin (s t : fs) : sres s_ans -> sres s_ans -> Prop :=
  | na_same a : match a with Ok (ACopy _ | AGet _ _ _ _ _ _ | APut (Some _) | APart _ | ACompleted _ _ _) => False | _ => True end ->
      answers_akin s t a a
  | na_copy x y : tags_akin x y -> answers_akin s t (Ok (ACopy x)) (Ok (ACopy y))
  | na_get h off lim len md x y : tags_akin x y ->
      (forall sched, Forall2 frames_akin (get_body s h off lim sched) (get_body t h off lim sched)) ->
      answers_akin s t (Ok (AGet h off lim len md x)) (Ok (AGet h off lim len md y))
  | na_put x y : tags_akin x y -> answers_akin s t (Ok (APut (Some x))) (Ok (APut (Some y)))
  | na_part x y : tags_akin x y -> answers_akin s t (Ok (APart x)) (Ok (APart y))
  | na_completed b k x y : tags_akin x y -> answers_akin s t (Ok (ACompleted b k x)) (Ok (ACompleted b k y)).

  (* Replies, in the same way. *)
  Definition headers_akin (x y : bytes * bytes) : Prop := x.1 = y.1 /\ (x.2 = y.2 \/ x.1 = B "etag" /\ tags_akin x.2 y.2).
  Inductive shown_akin (s t : fs) : resp_body -> resp_body -> Prop :=
  | ba_same b : (forall h off lim, b <> RbFile h off lim) -> shown_akin s t b b
  | ba_tag n l x y : tags_akin x y ->
      shown_akin s t (RbXml (XStack n (l ++ [XText (B "ETag") x]))) (RbXml (XStack n (l ++ [XText (B "ETag") y])))
  | ba_file h off lim : (forall sched, Forall2 frames_akin (get_body s h off lim sched) (get_body t h off lim sched)) ->
      shown_akin s t (RbFile h off lim) (RbFile h off lim).
  Inductive replies_akin (s t : fs) : reply -> reply -> Prop :=
  | ra_replied st hs hs' b b' : Forall2 headers_akin hs hs' -> shown_akin s t b b' ->
      replies_akin s t (Replied (Response st hs b)) (Replied (Response st hs' b'))
  | ra_panicked : replies_akin s t Panicked Panicked.
End relation.

(* The files in which the server keeps the metadata of objects. *)
Definition metadata_file (p : path) : Prop := exists c, p = [B ".bucket-" ++ c].

Lemma metadata_file_dec p : metadata_file p \/ ~ metadata_file p.
Proof.
  destruct p as [|c [|]]; [right; intros (b & [=])| |right; intros (b & [=])].
  destruct (starts_with (B ".bucket-") c) eqn:E.
  - left. apply starts_with_spec in E as [x ->]. by exists x.
  - right. intros (x & Hx). assert (Hc : c = B ".bucket-" ++ x) by by injection Hx. by apply (proj1 (starts_with_false _ _) E x).
Qed.
Lemma metadata_path_file e b k p : get_metadata_path e b k = Some p -> metadata_file p.
Proof. rewrite metadata_path. intros [= <-]. by eexists. Qed.

(* The same names, files of akin contents, the same metadata. *)
Record stores_akin (R : ascii -> ascii -> Prop) (s t : fs) : Prop := {
  ka_nodes : fs_nodes s = fs_nodes t;
  ka_next : fs_next s = fs_next t;
  ka_file p c c' : ~ metadata_file p -> content s p = Some c -> content t p = Some c' -> contents_akin R c c';
  ka_metadata p : metadata_file p -> content s p = content t p;
}.

(* No object or part that the request names is kept where metadata are, and no upload is completed into one of its own parts. *)
Definition spares_metadata (e : env) (r : s_req) : Prop :=
  let object b k := forall p, get_object_path e b k = Some p -> ~ metadata_file p in
  let part u n := forall p, part_path e u n = Some p -> ~ metadata_file p in
  match r with
  | RCopyObject src b k => (forall sb sk, copy_source_from_header_str src = Ok (sb, sk) -> object sb sk) /\ object b k
  | RGetObject b k _ => object b k
  | RPutObject b k _ _ _ _ => object b k
  | RUploadPart u n _ => part u n
  | RCompleteMultipartUpload b k u ps => object b k /\ forall n, part u n /\ forall p, part_path e u n = Some p -> get_object_path e b k <> Some p
  | _ => True
  end.

(** ** Programs *)

Section akin.
  Context (e : env) (R : ascii -> ascii -> Prop).
  Notation akin := (stores_akin R).

  Definition sim {A} (Q : A -> A -> Prop) (m m' : prog A) : Prop :=
    forall s t, wf s -> akin s t -> akin (run e m s).1 (run e m' t).1 /\ Q (run e m s).2 (run e m' t).2.

  Lemma sim_ret {A} (Q : A -> A -> Prop) (a a' : A) : Q a a' -> sim Q (Ret a) (Ret a').
  Proof. by intros HQ s t Hs Hm. Qed.
  Lemma sim_bind {A C} (Q : A -> A -> Prop) (Q' : C -> C -> Prop) (m m' : prog A) (f f' : A -> prog C) : sim Q m m' ->
    (forall a a', Q a a' -> sim Q' (f a) (f' a')) -> sim Q' (bind m f) (bind m' f').
  Proof.
    intros Hm Hf s t Hs Hst. destruct (Hm s t Hs Hst) as [H1 HQ]. pose proof (wf_run e m s Hs). rewrite !run_bind.
    destruct (run e m s) as [s1 a], (run e m' t) as [t1 a']. cbn [fst snd] in *. by apply (Hf a a').
  Qed.
  Lemma sim_bind_eq {A C} (Q : C -> C -> Prop) (m m' : prog A) (f f' : A -> prog C) : sim eq m m' ->
    (forall a, sim Q (f a) (f' a)) -> sim Q (bind m f) (bind m' f').
  Proof. intros Hm Hf. eapply sim_bind; [done|]. by intros a a' <-. Qed.
  Lemma sim_call {A} (Q : A -> A -> Prop) (c c' : syscall A) : (forall s t, wf s -> akin s t ->
      akin (exec e c s).1 (exec e c' t).1 /\ Q (exec e c s).2 (exec e c' t).2) -> sim Q (call c) (call c').
  Proof. intros Hc s t Hs Hm. rewrite !run_call. by apply Hc. Qed.

  Lemma ka_is_dir s t p : akin s t -> is_dir s p = is_dir t p.
  Proof. intros Hk. unfold is_dir. by rewrite (ka_nodes _ _ _ Hk). Qed.
  Lemma ka_child_names s t p : akin s t -> child_names s p = child_names t p.
  Proof. intros Hk. unfold child_names. by rewrite (ka_nodes _ _ _ Hk). Qed.
  Lemma ka_length s t p i : akin s t -> fs_nodes s !! p = Some (NFile i) -> length (data_of s i) = length (data_of t i).
  Proof.
    intros Hk Hp. assert (H1 : content s p = Some (data_of s i)) by (unfold content; by rewrite Hp).
    assert (H2 : content t p = Some (data_of t i)) by (unfold content; by rewrite <- (ka_nodes _ _ _ Hk), Hp).
    destruct (metadata_file_dec p) as [Hm|Hm].
    - pose proof (ka_metadata _ _ _ Hk p Hm). congruence.
    - pose proof (ka_file _ _ _ Hk p _ _ Hm H1 H2) as Hf. by apply Forall2_length in Hf.
  Qed.
  Lemma ka_content s t p : akin s t -> (content s p = None /\ content t p = None) \/ exists c c', content s p = Some c /\ content t p = Some c'.
  Proof.
    intros Hk. unfold content. rewrite (ka_nodes _ _ _ Hk). destruct (fs_nodes t !! p) as [[|i]|]; [by left|right; eauto|by left].
  Qed.

  Lemma ka_set s t p x : akin s t -> (x = None \/ x = Some NDir) ->
    akin (set_nodes s (partial_alter (fun _ => x) p (fs_nodes s))) (set_nodes t (partial_alter (fun _ => x) p (fs_nodes t))).
  Proof.
    intros Hk Hx. assert (Hc : forall s q, content (set_nodes s (partial_alter (fun _ => x) p (fs_nodes s))) q = if decide (q = p) then None else content s q).
    { intros u q. unfold content. cbn [set_nodes fs_nodes]. destruct (decide (q = p)) as [->|Hn].
      - rewrite lookup_partial_alter. by destruct Hx as [->| ->].
      - by rewrite lookup_partial_alter_ne. }
    split; cbn [set_nodes fs_nodes fs_next].
    - by rewrite (ka_nodes _ _ _ Hk).
    - apply Hk.
    - intros q c c'. rewrite !Hc. destruct (decide _); [done|]. apply Hk.
    - intros q Hq. rewrite !Hc. destruct (decide _); [done|]. by apply Hk.
  Qed.
  (* What is written to one file. *)
  Definition kin (p : path) (c c' : bytes) : Prop := (metadata_file p -> c = c') /\ (~ metadata_file p -> contents_akin R c c').
  Lemma kin_nil p : kin p [] [].
  Proof. split; [done|]. intros _. constructor. Qed.
  Lemma ka_kin s t p c c' : akin s t -> content s p = Some c -> content t p = Some c' -> kin p c c'.
  Proof.
    intros Hk H1 H2. split; intros Hm; [|by eapply (ka_file _ _ _ Hk)]. pose proof (ka_metadata _ _ _ Hk p Hm). congruence.
  Qed.
  Lemma ka_write_any s t i c c' : akin s t -> (forall p, fs_nodes s !! p = Some (NFile i) -> kin p c c') -> akin (set_data s i c) (set_data t i c').
  Proof.
    intros Hk Hp. split; [apply Hk..| |].
    - intros q d d' Hm. destruct (decide (fs_nodes s !! q = Some (NFile i))) as [Hq|Hq].
      + rewrite !content_set_data by (rewrite <- ?(ka_nodes _ _ _ Hk); done). intros [= <-] [= <-]. by apply (Hp q).
      + rewrite !content_set_data_ne by (rewrite <- ?(ka_nodes _ _ _ Hk); done). by apply Hk.
    - intros q Hm. destruct (decide (fs_nodes s !! q = Some (NFile i))) as [Hq|Hq].
      + rewrite !content_set_data by (rewrite <- ?(ka_nodes _ _ _ Hk); done). f_equal. by apply (Hp q).
      + rewrite !content_set_data_ne by (rewrite <- ?(ka_nodes _ _ _ Hk); done). by apply Hk.
  Qed.
  Lemma ka_write s t p i c c' : wf s -> akin s t -> fs_nodes s !! p = Some (NFile i) -> kin p c c' -> akin (set_data s i c) (set_data t i c').
  Proof. intros Hs Hk Hp Hc. apply ka_write_any; [done|]. intros q Hq. by rewrite (wf_inj _ Hs q p i). Qed.
  Lemma ka_create s t p : wf s -> akin s t ->
    (exec e (CCreate p) s = (s, None) /\ exec e (CCreate p) t = (t, None)) \/
    exists s1 t1 i, exec e (CCreate p) s = (s1, Some i) /\ exec e (CCreate p) t = (t1, Some i) /\
      akin s1 t1 /\ wf s1 /\ fs_nodes s1 !! p = Some (NFile i) /\ fs_data s1 !! i = Some [] /\ fs_data t1 !! i = Some [].
  Proof.
    intros Hs Hk. pose proof (wf_exec e (CCreate p) s Hs) as Hw.
    destruct (exec e (CCreate p) s) as [s1 [i|]] eqn:Es, (exec e (CCreate p) t) as [t1 o] eqn:Et.
    - right. pose proof (create_file _ _ _ _ _ Es) as (H1 & H2 & _). exists s1, t1, i. cbn [fst] in Hw.
      assert (o = Some i /\ akin s1 t1) as [-> Hk'].
      + cbn [exec] in Es, Et. rewrite <- (ka_nodes _ _ _ Hk), <- (ka_next _ _ _ Hk) in Et. destruct (negb _); [done|].
        destruct (fs_nodes s !! p) as [[|j]|] eqn:Ep; [done| |].
        * injection Es as <- <-. injection Et as <- <-. split; [done|].
          pose proof (ka_write s t p j [] [] Hs Hk Ep (kin_nil p)) as Hk2. unfold set_data in Hk2.
          by rewrite <- (ka_nodes _ _ _ Hk), <- (ka_next _ _ _ Hk) in Hk2.
        * destruct (parent p) as [[q c]|]; [|done]. rewrite (ka_is_dir s t) in Es by done. destruct (is_dir t q); [|done].
          injection Es as <- <-. injection Et as <- <-. split; [done|].
          assert (Hc : forall u x, fs_nodes u = fs_nodes s -> fs_next u = fs_next s ->
            content (Fs (<[p:=NFile (fs_next s)]> (fs_nodes s)) (<[fs_next s:=[]]> (fs_data u)) (fs_next s + 1)) x = if decide (x = p) then Some [] else content u x).
          { intros u x Hn1 Hn2. unfold content, data_of. cbn [fs_nodes fs_data]. destruct (decide (x = p)) as [->|Hn].
            - by rewrite lookup_insert, lookup_insert.
            - rewrite lookup_insert_ne by done. rewrite Hn1. destruct (fs_nodes s !! x) as [[|j]|] eqn:Ex; try done.
              pose proof (wf_next _ Hs _ _ Ex). rewrite lookup_insert_ne by lia. done. }
          split; [done|done| |].
          -- intros x d d' Hm. rewrite (Hc s) by done. rewrite (Hc t) by (symmetry; apply Hk). destruct (decide _); [|by apply Hk].
             intros [= <-] [= <-]. constructor.
          -- intros x Hm. rewrite (Hc s) by done. rewrite (Hc t) by (symmetry; apply Hk). destruct (decide _); [done|by apply Hk].
      + pose proof (create_file _ _ _ _ _ Et) as (_ & H3 & _). done.
    - left. pose proof (create_fail _ _ _ _ Es) as ->. split; [done|].
      cbn [exec] in Es, Et. rewrite <- (ka_nodes _ _ _ Hk) in Et. destruct (negb _); [by injection Et as <- <-|].
      destruct (fs_nodes s !! p) as [[|j]|] eqn:Ep; [by injection Et as <- <-|done|].
      destruct (parent p) as [[q c]|]; [|by injection Et as <- <-]. rewrite <- (ka_is_dir s t) in Et by done.
      destruct (is_dir s q); [done|by injection Et as <- <-].
  Qed.

  (** *** Calls that do not depend on contents *)

  Ltac quiet := apply sim_call; intros s t Hs Hk; cbn [exec fst snd]; (split; [done|]).
  Lemma sim_exists p : sim eq (call (CExists p)) (call (CExists p)).
  Proof. quiet. by rewrite (ka_nodes _ _ _ Hk). Qed.
  Lemma sim_stat p : sim eq (call (CStat p)) (call (CStat p)).
  Proof.
    quiet. rewrite <- (ka_nodes _ _ _ Hk). destruct (negb _); [done|]. destruct (fs_nodes s !! p) as [[|i]|] eqn:Ep; try done.
    by rewrite (ka_length s t p i).
  Qed.
  Lemma sim_readdir p : sim eq (call (CReadDir p)) (call (CReadDir p)).
  Proof.
    quiet. rewrite (ka_is_dir s t p), (ka_child_names s t p) by done. destruct (_ && _); [|done]. f_equal. apply map_ext. intros c.
    by rewrite (ka_is_dir s t).
  Qed.
  Lemma sim_count : sim eq (call CCount) (call CCount).
  Proof. quiet. by rewrite (ka_nodes _ _ _ Hk). Qed.
  Lemma sim_mkdir p : sim eq (call (CMkdir p)) (call (CMkdir p)).
  Proof.
    apply sim_call; intros s t Hs Hk; cbn [exec]. destruct (negb _); [done|].
    assert (Hpar : has_parent t p = has_parent s p).
    { unfold has_parent. destruct (parent p) as [[q c]|]; [|done]. symmetry. by apply ka_is_dir. }
    rewrite Hpar, <- (ka_nodes _ _ _ Hk). destruct (fs_nodes s !! p); [done|].
    destruct (has_parent s p); cbn [fst snd]; [|done]. split; [|done].
    pose proof (ka_set s t p (Some NDir) Hk) as Hset. rewrite <- (ka_nodes _ _ _ Hk) in Hset. apply Hset. by right.
  Qed.
  Lemma sim_unlink p : sim eq (call (CUnlink p)) (call (CUnlink p)).
  Proof.
    apply sim_call; intros s t Hs Hk; cbn [exec]. rewrite <- (ka_nodes _ _ _ Hk). destruct (e_os_ok e p); [|done].
    destruct (fs_nodes s !! p) as [[|i]|]; try done. cbn [fst snd]. split; [|done].
    pose proof (ka_set s t p None Hk) as Hset. rewrite <- (ka_nodes _ _ _ Hk) in Hset. apply Hset. by left.
  Qed.
  Lemma sim_rmdir p : sim eq (call (CRmdir p)) (call (CRmdir p)).
  Proof.
    apply sim_call; intros s t Hs Hk; cbn [exec]. rewrite (ka_child_names s t p), <- (ka_nodes _ _ _ Hk) by done. destruct (e_os_ok e p); [|done].
    destruct (fs_nodes s !! p) as [[|i]|]; try done. destruct (bool_decide _); [|done]. cbn [fst snd]. split; [|done].
    pose proof (ka_set s t p None Hk) as Hset. rewrite <- (ka_nodes _ _ _ Hk) in Hset. apply Hset. by left.
  Qed.

  (** *** Helpers *)

  Definition res_alike {A} (Q : A -> A -> Prop) (x y : sres A) : Prop :=
    match x, y with
    | Ok a, Ok b => Q a b
    | Err c, Err c' => c = c'
    | _, _ => False
    end.
  Lemma sim_try_path {A} (Q : A -> A -> Prop) o k k' : (forall p, o = Some p -> sim (res_alike Q) (k p) (k' p)) ->
    sim (res_alike Q) (try_path o k) (try_path o k').
  Proof. intros Hk. destruct o; cbn [try_path]; [by apply Hk|by apply sim_ret]. Qed.
  Lemma sim_try_io {A C} (Q : C -> C -> Prop) (m m' : prog (option A)) k k' : sim eq m m' ->
    (forall a, sim (res_alike Q) (k a) (k' a)) -> sim (res_alike Q) (try_io m k) (try_io m' k').
  Proof. intros Hm Hk. apply sim_bind_eq; [done|]. intros [a|]; [by apply Hk|by apply sim_ret]. Qed.
  Lemma sim_try_io_rel {A C} (P : A -> A -> Prop) (Q : C -> C -> Prop) (m m' : prog (option A)) k k' :
    sim (option_Forall2 P) m m' ->
    (forall a a', P a a' -> sim (res_alike Q) (k a) (k' a')) -> sim (res_alike Q) (try_io m k) (try_io m' k').
  Proof. intros Hm Hk. eapply sim_bind; [done|]. intros a a' Ha. destruct Ha; [by apply Hk|by apply sim_ret]. Qed.
  Lemma sim_try_res {A C} (Q : C -> C -> Prop) (m m' : prog (sres A)) k k' : sim (res_alike eq) m m' ->
    (forall a, sim (res_alike Q) (k a) (k' a)) -> sim (res_alike Q) (try_res m k) (try_res m' k').
  Proof.
    intros Hm Hk. eapply sim_bind; [done|]. intros [a|c] [a'|c'] Ha; cbn in Ha; try done; subst; first [apply Hk|by apply sim_ret].
  Qed.
  Ltac ret := by (apply sim_ret; first [done|by constructor]).

  Lemma sim_create_dir_all_rev rp : sim eq (create_dir_all_rev rp) (create_dir_all_rev rp).
  Proof.
    induction rp as [|c rp IH]; cbn [create_dir_all_rev].
    - apply sim_bind_eq; [apply sim_mkdir|]. intros []; try ret.
      apply sim_bind_eq; [apply sim_stat|]. intros [[[] n]|]; ret.
    - assert (Hd : sim eq (bind (call (CStat (rev (c :: rp)))) (fun st => match st with Some (true, _) => Ret (Some tt) | _ => Ret None end))
        (bind (call (CStat (rev (c :: rp)))) (fun st => match st with Some (true, _) => Ret (Some tt) | _ => Ret None end))).
      { apply sim_bind_eq; [apply sim_stat|]. intros [[[] n]|]; ret. }
      apply sim_bind_eq; [apply sim_mkdir|]. intros []; [ret| |by apply Hd].
      apply sim_bind_eq; [apply IH|]. intros [u|]; [|ret].
      apply sim_bind_eq; [apply sim_mkdir|]. intros []; [ret|by apply Hd..].
  Qed.
  Lemma sim_create_dir_all p : sim eq (create_dir_all p) (create_dir_all p).
  Proof. apply sim_create_dir_all_rev. Qed.
  Lemma sim_read_file p : sim (option_Forall2 (kin p)) (read_file p) (read_file p).
  Proof.
    intros s t Hs Hk. rewrite !run_read_file. cbn [fst snd]. split; [done|]. destruct (e_os_ok e p); [|constructor].
    destruct (ka_content s t p Hk) as [[-> ->]|(c & c' & H1 & H2)]; [constructor|]. rewrite H1, H2. constructor. by eapply ka_kin.
  Qed.
  Lemma sim_write_file p c c' : kin p c c' -> sim eq (write_file e p c) (write_file e p c').
  Proof.
    intros Hc s t Hs Hk. rewrite !run_write_file.
    destruct (ka_create s t p Hs Hk) as [[-> ->]|(s1 & t1 & i & -> & -> & Hk1 & Hs1 & Hp & Hd & Hd')]; [done|]. cbn [fst snd]. split; [|done].
    by eapply ka_write.
  Qed.
  Lemma sim_copy_file p q : (metadata_file p <-> metadata_file q) -> sim eq (copy_file e p q) (copy_file e p q).
  Proof.
    intros Hpq s t Hs Hk. rewrite !run_copy_file.
    destruct (ka_content s t p Hk) as [[-> ->]|(c & c' & H1 & H2)]; [done|]. rewrite H1, H2. destruct (e_os_ok e p); [|done].
    destruct (ka_create s t q Hs Hk) as [[-> ->]|(s1 & t1 & i & -> & -> & Hk1 & Hs1 & Hp & Hd & Hd')]; [done|]. cbn [fst snd]. split; [|done].
    eapply ka_write; [done|done|done|]. destruct (ka_content s1 t1 p Hk1) as [[-> ->]|(d & d' & H3 & H4)]; [apply kin_nil|].
    rewrite H3, H4. cbn [default]. destruct (ka_kin _ _ _ _ _ Hk1 H3 H4) as [K1 K2]. split; intros Hm; [apply K1|apply K2]; tauto.
  Qed.
  Lemma sim_load_metadata b k : sim eq (load_metadata e b k) (load_metadata e b k).
  Proof.
    unfold load_metadata. destruct (get_metadata_path e b k) as [p|] eqn:Hp; [|ret]. apply metadata_path_file in Hp.
    apply sim_bind_eq; [apply sim_exists|]. intros []; [|ret].
    eapply sim_bind; [apply sim_read_file|]. intros o o' Ho. destruct Ho as [c c' [Hc _]|]; [|ret]. rewrite (Hc Hp). destruct (json_decode c'); ret.
  Qed.
  Lemma sim_save_metadata b k m : sim eq (save_metadata e b k m) (save_metadata e b k m).
  Proof.
    unfold save_metadata. destruct (get_metadata_path e b k) as [p|] eqn:Hp; [|ret]. apply metadata_path_file in Hp.
    apply sim_write_file. by split.
  Qed.
  Lemma sim_get_md5_sum b k : (forall p, get_object_path e b k = Some p -> ~ metadata_file p) ->
    sim (option_Forall2 (tags_akin R)) (get_md5_sum e b k) (get_md5_sum e b k).
  Proof.
    intros Hm. unfold get_md5_sum. destruct (get_object_path e b k) as [p|] eqn:Hp; [|apply sim_ret; constructor].
    eapply sim_bind; [apply sim_read_file|]. intros o o' Ho. destruct Ho as [c c' [_ Hc]|]; [|apply sim_ret; constructor].
    apply sim_ret. constructor. exists c, c'. split; [|done]. apply Hc. by apply Hm.
  Qed.

  (** *** Bodies *)

  Lemma bytes_stream_akin fuel lim buf c c' sched : contents_akin R c c' ->
    Forall2 (frames_akin R) (bytes_stream_loop fuel lim buf c sched) (bytes_stream_loop fuel lim buf c' sched).
  Proof.
    revert lim c c' sched. induction fuel as [|fuel IH]; intros lim c c' sched Hc; cbn [bytes_stream_loop]; [constructor|].
    rewrite (Forall2_length _ _ _ Hc).
    assert (forall k, Forall2 (frames_akin R)
      (let n := read_count k (buf_len_of lim buf) (N.of_nat (length c')) in
       if (n =? 0)%N then [] else
       let nread := N.min n (buf_len_of lim buf) in
       let limit' := match lim with Some l => Some (l - nread)%N | None => None end in
       FData (take (N.to_nat nread) c) :: bytes_stream_loop fuel limit' buf (drop (N.to_nat n) c) (tail sched))
      (let n := read_count k (buf_len_of lim buf) (N.of_nat (length c')) in
       if (n =? 0)%N then [] else
       let nread := N.min n (buf_len_of lim buf) in
       let limit' := match lim with Some l => Some (l - nread)%N | None => None end in
       FData (take (N.to_nat nread) c') :: bytes_stream_loop fuel limit' buf (drop (N.to_nat n) c') (tail sched))) as Hgo.
    { intros k. cbn zeta. destruct (_ =? _)%N; [constructor|]. constructor; [constructor; by apply Forall2_take|]. apply IH. by apply Forall2_drop. }
    destruct (head sched) as [[k|]|]; [apply Hgo|repeat constructor|apply Hgo].
  Qed.
  Lemma get_body_akin s t i off lim sched : contents_akin R (data_of s i) (data_of t i) ->
    Forall2 (frames_akin R) (get_body s (HFile i) off lim sched) (get_body t (HFile i) off lim sched).
  Proof.
    intros Hc. cbn [get_body]. unfold bytes_stream.
    assert (H : contents_akin R (drop (N.to_nat off) (data_of s i)) (drop (N.to_nat off) (data_of t i))) by by apply Forall2_drop.
    rewrite (Forall2_length _ _ _ H). by apply bytes_stream_akin.
  Qed.
  Lemma body_ok_akin x y : bodies_akin R x y -> body_ok x = body_ok y.
  Proof.
    intros [_ Hf]. assert (Hb : forall x, body_ok x = true <-> FErr ∉ x).
    { intros z. induction z as [|[c|] z IH]; cbn; [split; [intros _ H; by apply elem_of_nil in H|done]| |].
      - rewrite IH, elem_of_cons. split; [intros H [|]; done|]. intros H Hz. apply H. by right.
      - split; [done|]. intros H. exfalso. apply H. by left. }
    apply eq_true_iff_eq. rewrite !Hb. tauto.
  Qed.

  (** *** Operations *)

  Lemma sim_upload {A} (Q : A -> A -> Prop) p x y (k k' : prog (sres A)) : ~ metadata_file p -> bodies_akin R x y -> sim (res_alike Q) k k' ->
    sim (res_alike Q) (try_io (call (CCreate p)) (fun i => try_io (copy_bytes e i 0 x) (fun _ => k)))
      (try_io (call (CCreate p)) (fun i => try_io (copy_bytes e i 0 y) (fun _ => k'))).
  Proof.
    intros Hp Hxy Hk s t Hs Hst. rewrite !run_try_io, !run_call.
    destruct (ka_create s t p Hs Hst) as [[-> ->]|(s1 & t1 & i & -> & -> & Hk1 & Hs1 & Hn & Hd & Hd')]; [done|].
    rewrite !run_try_io, !run_copy_bytes_0, (body_ok_akin x y) by done.
    assert (Hk2 : akin (set_data s1 i (body_data x)) (set_data t1 i (body_data y))).
    { eapply ka_write; [done|done|done|]. split; [done|]. intros _. apply Hxy. }
    destruct (body_ok y); [|done]. apply Hk; [by apply wf_set_data|done].
  Qed.

  Lemma append_parts_akin u i ps : (forall n p, part_path e u n = Some p -> ~ metadata_file p) ->
    forall s t d d' cnt, wf s -> akin s t -> fs_data s !! i = Some d -> fs_data t !! i = Some d' -> contents_akin R d d' ->
    (forall q, fs_nodes s !! q = Some (NFile i) -> ~ metadata_file q) ->
    (forall n p, part_path e u n = Some p -> fs_nodes s !! p <> Some (NFile i)) ->
    akin (run e (append_parts e u i (length d) cnt ps) s).1 (run e (append_parts e u i (length d) cnt ps) t).1 /\
    res_alike eq (run e (append_parts e u i (length d) cnt ps) s).2 (run e (append_parts e u i (length d) cnt ps) t).2.
  Proof.
    intros Hu. induction ps as [|[n|] ps IH]; intros s t d d' cnt Hs Hk Hd Hd' Hdd Hi Hne; cbn [append_parts]; [done| |done].
    destruct (negb _); [done|]. destruct (part_path e u n) as [p|] eqn:Hp; [|done]. cbn [try_path]. apply Hne in Hp as Hnp. apply Hu in Hp.
    rewrite !run_try_io, (run_append_file e p i s d) by done.
    rewrite (Forall2_length _ _ _ Hdd), (run_append_file e p i t d') by (done || by rewrite <- (ka_nodes _ _ _ Hk)).
    destruct (e_os_ok e p) eqn:Ho; [|done].
    destruct (ka_content s t p Hk) as [[-> ->]|(c & c' & H1 & H2)]; [done|]. rewrite H1, H2.
    pose proof (ka_file _ _ _ Hk p _ _ Hp H1 H2) as Hc.
    assert (Hcc : contents_akin R (d ++ c) (d' ++ c')) by by apply Forall2_app.
    assert (Hk2 : akin (set_data s i (d ++ c)) (set_data t i (d' ++ c'))).
    { apply ka_write_any; [done|]. intros q Hq. split; [|done]. intros Hm. by apply Hi in Hq. }
    rewrite !run_try_io. pose proof (sim_unlink p _ _ (wf_set_data s i (d ++ c) Hs) Hk2) as [Hk3 Hr]. rewrite !run_call in *.
    pose proof (wf_exec e (CUnlink p) _ (wf_set_data s i (d ++ c) Hs)) as Hw3.
    assert (Hun : forall u, fs_data (exec e (CUnlink p) u).1 = fs_data u /\ forall q x, fs_nodes (exec e (CUnlink p) u).1 !! q = Some x -> fs_nodes u !! q = Some x).
    { intros v. cbn [exec]. destruct (e_os_ok e p); [|done]. destruct (fs_nodes v !! p) as [[|]|]; try done. cbn [fst set_nodes fs_data fs_nodes]. split; [done|].
      intros q x. by intros [_ H]%lookup_delete_Some. }
    destruct (Hun (set_data s i (d ++ c))) as [D1 N1], (Hun (set_data t i (d' ++ c'))) as [D2 N2].
    destruct (exec e (CUnlink p) (set_data s i (d ++ c))) as [s3 o3], (exec e (CUnlink p) (set_data t i (d' ++ c'))) as [t3 o3']. cbn [fst snd] in *.
    subst o3'. destruct o3 as [[]|]; [|done]. rewrite <- (Forall2_length _ _ _ Hcc).
    apply (IH s3 t3 (d ++ c) (d' ++ c')); [done|done| | |done| |].
    - rewrite D1. apply set_data_lookup.
    - rewrite D2. apply set_data_lookup.
    - intros q Hq. apply Hi. by apply N1 in Hq.
    - intros n' p' Hp' Hq. apply N1 in Hq. by apply (Hne n' p' Hp').
  Qed.

  Lemma sim_existing b ks : sim (res_alike eq) (existing_objects e b ks) (existing_objects e b ks).
  Proof.
    induction ks as [|k ks IH]; cbn [existing_objects]; [ret|].
    apply sim_try_path. intros p _. apply sim_bind_eq; [apply sim_exists|]. intros ex. apply sim_try_res; [apply IH|]. intros l. ret.
  Qed.
  Lemma sim_remove_objects l : sim (res_alike eq) (remove_objects l) (remove_objects l).
  Proof.
    induction l as [|[p k] l IH]; cbn [remove_objects]; [ret|].
    apply sim_try_io; [apply sim_unlink|]. intros u. apply sim_try_res; [apply IH|]. intros ks. ret.
  Qed.
  Lemma sim_remove_dir_all n : forall p, sim eq (remove_dir_all n p) (remove_dir_all n p).
  Proof.
    induction n as [|n IH]; intros p; cbn [remove_dir_all]; [ret|]. apply sim_bind_eq; [apply sim_readdir|]. intros [es|]; [|ret].
    induction es as [|[c d] es IHes]; [apply sim_rmdir|]. apply sim_bind_eq.
    - destruct d; [apply IH|apply sim_unlink].
    - intros [u|]; [apply IHes|ret].
  Qed.
  Lemma sim_bucket_entries es : sim (res_alike eq) (bucket_entries es) (bucket_entries es).
  Proof.
    induction es as [|[c d] es IH]; cbn [bucket_entries]; [ret|]. destruct (_ && _); [|apply IH].
    apply sim_try_io; [apply sim_stat|]. intros st. apply sim_try_res; [apply IH|]. intros l. ret.
  Qed.
  Lemma sim_list_entries root x dir es : sim (res_alike eq) (list_entries root x dir es) (list_entries root x dir es).
  Proof.
    induction es as [|[c d] es IH]; cbn [list_entries]; [ret|]. destruct d.
    - apply sim_try_res; [apply IH|]. intros r. ret.
    - destruct (key_text _ _); [|ret]. destruct (match x with Some _ => _ | None => _ end); [|apply IH].
      apply sim_try_io; [apply sim_stat|]. intros st. destruct (_ <=? _)%N; [|ret]. apply sim_try_res; [apply IH|]. intros r. ret.
  Qed.
  Lemma sim_list_queue n root x q : sim (res_alike eq) (list_queue n root x q) (list_queue n root x q).
  Proof.
    revert q. induction n as [|n IH]; intros [|dir q]; cbn [list_queue]; [ret..|].
    apply sim_try_io; [apply sim_readdir|]. intros es. apply sim_try_res; [apply sim_list_entries|]. intros r.
    apply sim_try_res; [apply IH|]. intros l. ret.
  Qed.

  (* Answers without a body. *)
  Inductive plain_akin : s_ans -> s_ans -> Prop :=
  | pa_same a : match a with ACopy _ | AGet _ _ _ _ _ _ | APut (Some _) | APart _ | ACompleted _ _ _ => False | _ => True end -> plain_akin a a
  | pa_copy x y : tags_akin R x y -> plain_akin (ACopy x) (ACopy y)
  | pa_put x y : tags_akin R x y -> plain_akin (APut (Some x)) (APut (Some y))
  | pa_part x y : tags_akin R x y -> plain_akin (APart x) (APart y)
  | pa_completed b k x y : tags_akin R x y -> plain_akin (ACompleted b k x) (ACompleted b k y).

  Lemma sim_storage r r' : (match r with RGetObject _ _ _ => False | _ => True end) -> requests_akin R r r' -> spares_metadata e r ->
    sim (res_alike plain_akin) (storage e r) (storage e r').
  Proof.
    intros Hg Hrr Hm. destruct Hrr as [r Hput Hpart|b k sc cl md x y Hb|u n x y Hb].
    - destruct r; try done; cbn [storage].
      + apply sim_try_path. intros p _. apply sim_bind_eq; [apply sim_exists|]. intros []; [ret|].
        apply sim_bind_eq; [apply sim_mkdir|]. intros []; ret.
      + destruct Hm as [Hm1 Hm2]. unfold copy_object. destruct (copy_source_from_header_str _) as [[sb sk]|]; [|ret].
        specialize (Hm1 sb sk eq_refl).
        apply sim_try_path. intros p Hp. apply sim_try_path. intros q Hq.
        apply sim_try_io; [apply sim_stat|]. intros st.
        apply sim_try_io. { apply sim_copy_file. apply Hm1 in Hp. apply Hm2 in Hq. tauto. }
        intros ?. apply sim_try_path. intros sm Hsm. apply sim_bind_eq; [apply sim_exists|]. intros ex.
        apply sim_try_io.
        { destruct ex; [|ret]. destruct (get_metadata_path e bucket key) as [dm|] eqn:Hdm; [|ret].
          apply sim_copy_file. apply metadata_path_file in Hsm, Hdm. tauto. }
        intros ?. eapply sim_try_io_rel; [by apply sim_get_md5_sum|]. intros t1 t2 Ht. ret.
      + apply sim_try_path. intros p _. apply sim_bind_eq; [apply sim_count|]. intros n. apply sim_try_io; [apply sim_remove_dir_all|]. intros ?. ret.
      + apply sim_try_path. intros p _. destruct (ends_with_char _ _).
        * apply sim_try_io; [apply sim_readdir|]. intros [|]; [|ret]. apply sim_try_io; [apply sim_rmdir|]. intros ?. ret.
        * apply sim_try_io; [apply sim_unlink|]. intros ?. ret.
      + apply sim_try_res; [apply sim_existing|]. intros l. apply sim_try_res; [apply sim_remove_objects|]. intros ks. ret.
      + apply sim_try_path. intros p _. apply sim_bind_eq; [apply sim_exists|]. intros []; ret.
      + apply sim_try_path. intros p _. apply sim_bind_eq; [apply sim_exists|]. intros []; ret.
      + apply sim_try_path. intros p _. apply sim_bind_eq; [apply sim_exists|]. intros []; [|ret].
        apply sim_try_io; [apply sim_stat|]. intros st. apply sim_try_io; [apply sim_load_metadata|]. intros md.
        destruct (_ <=? _)%N; ret.
      + unfold list_buckets. apply sim_try_io; [apply sim_readdir|]. intros es. apply sim_try_res; [apply sim_bucket_entries|]. intros l. ret.
      + unfold list_objects. apply sim_try_path. intros p _. apply sim_bind_eq; [apply sim_count|]. intros n.
        apply sim_try_res; [apply sim_list_queue|]. intros l. ret.
      + unfold list_objects. apply sim_try_path. intros p _. apply sim_bind_eq; [apply sim_count|]. intros n.
        apply sim_try_res; [apply sim_list_queue|]. intros l. ret.
      + destruct body as [body|]; [by destruct (Hput bucket key storage_class content_length md body)|].
        unfold put_object. destruct (negb _); ret.
      + ret.
      + destruct body as [body|]; [by destruct (Hpart upload_id part_number body)|]. ret.
      + destruct Hm as [Hm1 Hm2]. unfold complete_multipart_upload. destruct parts as [ps|]; [|ret]. apply sim_try_path. intros p Hp.
        intros s t Hs Hst. rewrite !run_try_io, !run_call.
        destruct (ka_create s t p Hs Hst) as [[-> ->]|(s1 & t1 & i & Es & -> & Hk1 & Hs1 & Hn & Hd & Hd')]; [done|]. rewrite Es.
        rewrite !run_try_res. apply Hm1 in Hp as Hpm.
        destruct (append_parts_akin upload_id i ps (fun n => proj1 (Hm2 n)) s1 t1 [] [] 0%Z Hs1 Hk1 Hd Hd') as [Hk2 Hr].
        { constructor. }
        { intros q Hq. by rewrite (wf_inj _ Hs1 q p i). }
        { intros n q Hq Hqi. rewrite (wf_inj _ Hs1 p q i Hn Hqi) in Hp. by apply (proj2 (Hm2 n) q Hq). }
        cbn [length] in Hk2, Hr. pose proof (wf_run e (append_parts e upload_id i 0 0%Z ps) s1 Hs1) as Hw.
        destruct (run e (append_parts e upload_id i 0 0%Z ps) s1) as [s2 [n2|c2]], (run e (append_parts e upload_id i 0 0%Z ps) t1) as [t2 [n2'|c2']]; try done.
        assert (Hrest : sim (res_alike plain_akin) (try_io (call (CStat p)) (fun _ => try_io (get_md5_sum e bucket key) (fun tag => Ret (Ok (ACompleted bucket key tag)))))
          (try_io (call (CStat p)) (fun _ => try_io (get_md5_sum e bucket key) (fun tag => Ret (Ok (ACompleted bucket key tag)))))).
        { apply sim_try_io; [apply sim_stat|]. intros st. eapply sim_try_io_rel; [by apply sim_get_md5_sum|]. intros g1 g2 Ht. ret. }
        by apply Hrest.
    - cbn [storage]. unfold put_object. destruct (negb _); [ret|]. destruct (ends_with_char _ _).
      + destruct (bool_decide _); [|ret]. apply sim_try_path. intros p _. apply sim_try_io; [apply sim_create_dir_all|]. intros ?. ret.
      + apply sim_try_path. intros p Hp. apply Hm in Hp.
        apply sim_try_io. { destruct (parent p) as [[d c]|]; [apply sim_create_dir_all|ret]. }
        intros ?. apply sim_upload; [done|done|].
        apply sim_try_io. { destruct md; [apply sim_save_metadata|ret]. }
        intros ?. apply sim_ret. constructor. exists (body_data x), (body_data y). split; [apply Hb|done].
    - cbn [storage]. unfold upload_part. apply sim_try_path. intros p Hp. apply Hm in Hp.
      apply sim_upload; [done|done|]. apply sim_ret. constructor. exists (body_data x), (body_data y). split; [apply Hb|done].
  Qed.

  Lemma meta_of_akin s t b k : akin s t -> meta_of e s b k = meta_of e t b k.
  Proof.
    intros Hk. pose proof (ka_metadata _ _ _ Hk [metadata_name b k]) as Hm. unfold meta_of. rewrite (ka_nodes _ _ _ Hk).
    rewrite Hm; [done|]. by eexists.
  Qed.

  Lemma sim_get_dir p b k r : (forall p, get_object_path e b k = Some p -> ~ metadata_file p) ->
    sim (res_alike (fun a a' => exists off lim len md x y, a = AGet (HDir p) off lim len md x /\ a' = AGet (HDir p) off lim len md y /\ tags_akin R x y))
      (try_io (call (CLen (HDir p))) (fun file_len => try_res (get_extent (HDir p) r file_len) (fun ol =>
        try_io (load_metadata e b k) (fun md => try_io (get_md5_sum e b k) (fun tag =>
          if (ol.2 <=? i64_max)%N then Ret (Ok (AGet (HDir p) ol.1 ol.2 ol.2 md tag)) else Ret (Err InternalError))))))
      (try_io (call (CLen (HDir p))) (fun file_len => try_res (get_extent (HDir p) r file_len) (fun ol =>
        try_io (load_metadata e b k) (fun md => try_io (get_md5_sum e b k) (fun tag =>
          if (ol.2 <=? i64_max)%N then Ret (Ok (AGet (HDir p) ol.1 ol.2 ol.2 md tag)) else Ret (Err InternalError)))))).
  Proof.
    intros Hm. assert (Hl : sim eq (call (CLen (HDir p))) (call (CLen (HDir p)))) by (apply sim_call; by intros s t Hs Hk).
    apply sim_try_io; [done|]. intros len. apply sim_try_res.
    { destruct r as [[f l|l]|]; cbn [get_extent]; [destruct (_ <=? _)%N; ret| |ret].
      destruct (_ && _); [|ret]. apply sim_try_io; [done|]. intros a. destruct (_ <=? _)%N; ret. }
    intros ol. apply sim_try_io; [apply sim_load_metadata|]. intros md. eapply sim_try_io_rel; [by apply sim_get_md5_sum|]. intros x y Hxy.
    destruct (_ <=? _)%N; [|ret]. apply sim_ret. cbn. eauto 10.
  Qed.
  Lemma get_akin s t b k range : wf s -> akin s t -> (forall p, get_object_path e b k = Some p -> ~ metadata_file p) ->
    answers_akin R s t (answer e (RGetObject b k range) s) (answer e (RGetObject b k range) t).
  Proof.
    intros Hs Hk Hm. unfold answer. cbn [storage]. destruct (get_object_path e b k) as [p|] eqn:Hp.
    2: { unfold get_object. rewrite Hp. by apply na_same. }
    destruct (e_os_ok e p) eqn:Ho.
    2: { rewrite !(run_get_absent e b k range p) by auto. cbn [snd]. destruct (parse_range range); by apply na_same. }
    destruct (fs_nodes s !! p) as [[|i]|] eqn:En; pose proof En as En'; rewrite (ka_nodes _ _ _ Hk) in En'.
    - unfold get_object. rewrite Hp. cbn [try_path].
      assert (Hgo : forall r, answers_akin R s t
        (run e (bind (call (COpen p)) (fun o => match o with None => Ret (Err NoSuchKey) | Some h =>
            try_io (call (CLen h)) (fun file_len => try_res (get_extent h r file_len) (fun ol =>
            try_io (load_metadata e b k) (fun md => try_io (get_md5_sum e b k) (fun tag =>
              if (ol.2 <=? i64_max)%N then Ret (Ok (AGet h ol.1 ol.2 ol.2 md tag)) else Ret (Err InternalError))))) end)) s).2
        (run e (bind (call (COpen p)) (fun o => match o with None => Ret (Err NoSuchKey) | Some h =>
            try_io (call (CLen h)) (fun file_len => try_res (get_extent h r file_len) (fun ol =>
            try_io (load_metadata e b k) (fun md => try_io (get_md5_sum e b k) (fun tag =>
              if (ol.2 <=? i64_max)%N then Ret (Ok (AGet h ol.1 ol.2 ol.2 md tag)) else Ret (Err InternalError))))) end)) t).2).
      { intros r. rewrite !run_bind, !run_call. cbn [exec]. rewrite Ho, En, En'. cbn [negb].
        assert (Hm' : forall q, get_object_path e b k = Some q -> ~ metadata_file q) by (intros q Hq; apply Hm; congruence).
        destruct (sim_get_dir p b k r Hm' s t Hs Hk) as [_ Ha].
        match type of Ha with res_alike _ ?x ?y => destruct x as [a|c], y as [a'|c'] end; cbn in Ha; try done.
        - destruct Ha as (off & lim & len & md & x & y & -> & -> & Hxy). constructor; [done|]. intros sched. cbn. repeat constructor.
        - subst c'. by apply na_same. }
      destruct range as [str|]; [|apply Hgo]. destruct (range_from_header_str str); [apply Hgo|by apply na_same].
    - rewrite !(run_get_file e b k range p i) by done. cbn [snd]. destruct (parse_range range); [|by apply na_same].
      unfold file_len. rewrite (ka_length s t p i), (meta_of_akin s t) by done.
      destruct (extent _ _) as [[off lim]|]; [|by apply na_same]. destruct (meta_of e t b k); [|by apply na_same].
      destruct (_ <=? _)%N; [|by apply na_same].
      assert (Hc : contents_akin R (data_of s i) (data_of t i)).
      { apply (ka_file _ _ _ Hk p); [by apply Hm|unfold content; by rewrite En|unfold content; by rewrite En']. }
      apply na_get; [by exists (data_of s i), (data_of t i)|]. intros sched. by apply get_body_akin.
    - rewrite !(run_get_absent e b k range p) by auto. cbn [snd]. destruct (parse_range range); by apply na_same.
  Qed.

  Lemma step_akin r r' s t : wf s -> akin s t -> requests_akin R r r' -> spares_metadata e r ->
    akin (after e r s) (after e r' t) /\ answers_akin R s t (answer e r s) (answer e r' t).
  Proof.
    intros Hs Hk Hr Hm.
    assert ((match r with RGetObject _ _ _ => False | _ => True end) \/ exists b k x, r = RGetObject b k x) as [Hg|(b & k & x & ->)] by (destruct r; eauto).
    - destruct (sim_storage r r' Hg Hr Hm s t Hs Hk) as [H1 H2]. split; [done|]. unfold answer.
      destruct (run e (storage e r) s).2 as [a|c], (run e (storage e r') t).2 as [a'|c']; try done; cbn in H2.
      + destruct H2; constructor; done.
      + subst c'. by apply na_same.
    - inversion Hr; subst. rewrite !C51_reads_leave_store by done. split; [done|]. by apply get_akin.
  Qed.
End akin.

(** ** Sequences of requests *)

(* Every request with the disk it finds and its answer. *)
Fixpoint told (e : env) (s : fs) (rs : list s_req) : list (fs * sres s_ans) :=
  match rs with
  | [] => []
  | r :: rs' => (s, answer e r s) :: told e (after e r s) rs'
  end.

Theorem C93_moved (R : ascii -> ascii -> Prop) e rs rs' s t : wf s -> stores_akin R s t ->
  Forall2 (requests_akin R) rs rs' -> Forall (spares_metadata e) rs ->
  stores_akin R (after_all e rs s) (after_all e rs' t) /\
  Forall2 (fun x y => answers_akin R x.1 y.1 x.2 y.2) (told e s rs) (told e t rs').
Proof.
  intros Hs Hk Hr. revert s t Hs Hk. induction Hr as [|r r' rs rs' Hr _ IH]; intros s t Hs Hk Hm; cbn [after_all told]; [by split; [|constructor]|].
  apply Forall_cons in Hm as [Hm1 Hm2]. destruct (step_akin e R r r' s t Hs Hk Hr Hm1) as [H1 H2].
  destruct (IH _ _ (wf_after e r s Hs) H1 Hm2) as [H3 H4]. split; [done|]. by constructor.
Qed.
Print Assumptions C93_moved.

(* Bytes that nobody uploaded are never downloaded. *)
Definition uploads (P : ascii -> Prop) (r : s_req) : Prop :=
  match r with
  | RPutObject _ _ _ _ _ (Some body) | RUploadPart _ _ (Some body) => Forall P (body_data body)
  | _ => True
  end.
Definition downloads (P : ascii -> Prop) (x : fs * sres s_ans) : Prop :=
  forall h off lim len md tag sched c, x.2 = Ok (AGet h off lim len md tag) -> FData c ∈ get_body x.1 h off lim sched -> Forall P c.

Lemma Forall2_diag {A} (P : A -> Prop) l l' : Forall2 (fun x y => P x /\ x = y) l l' <-> Forall P l /\ l = l'.
Proof.
  split.
  - induction 1 as [|x y l l' [Hx <-] _ [IH <-]]; [by split|]. by split; [constructor|].
  - intros [H <-]. by induction H; constructor.
Qed.
Lemma uploads_akin P r : uploads P r -> requests_akin (fun x y => P x /\ x = y) r r.
Proof.
  intros Hu.
  assert (Hb : forall body, Forall P (body_data body) -> bodies_akin (fun x y => P x /\ x = y) body body) by (intros body Hb; split; [by apply Forall2_diag|done]).
  destruct r as [| | | | | | | | | | | |b k sc cl md [body|]| |u n [body|]|]; try (by apply qa_same); [apply qa_put|apply qa_part]; by apply Hb.
Qed.

Theorem C93_nothing_made_up (P : ascii -> Prop) e rs s : wf s -> (forall p c, ~ metadata_file p -> content s p = Some c -> Forall P c) ->
  Forall (uploads P) rs -> Forall (spares_metadata e) rs ->
  Forall (downloads P) (told e s rs) /\
  forall p c, ~ metadata_file p -> content (after_all e rs s) p = Some c -> Forall P c.
Proof.
  intros Hs Hc Hu Hm.
  destruct (C93_moved (fun x y => P x /\ x = y) e rs rs s s Hs) as [H1 H2]; [| |done|].
  - split; [done|done| |done]. intros p c c' Hp E1 E2. apply Forall2_diag. split; [by eapply Hc|congruence].
  - apply Forall_Forall2_diag. eapply Forall_impl; [exact Hu|]. apply uploads_akin.
  - split.
    + apply Forall_forall. intros x Hx h off lim len md tag sched c Ex Hin.
      apply elem_of_list_lookup in Hx as [n Hn]. destruct (Forall2_lookup_l _ _ _ _ _ H2 Hn) as (y & Hn' & Hxy).
      assert (y = x) as -> by congruence. clear Hn Hn' H1 H2. destruct x as [u a]. cbn [fst snd] in *. rewrite Ex in Hxy.
      inversion Hxy as [|? ? ? E|h' off' lim' len' md' x y Htag Hb| | |]; subst; [done|]. specialize (Hb sched).
      apply elem_of_list_lookup in Hin as [m Hin]. destruct (Forall2_lookup_l _ _ _ _ _ Hb Hin) as (f & _ & Hf).
      inversion Hf as [? ? Hcc|]; subst. by apply Forall2_diag in Hcc as [? _].
    + intros p c Hp Ec. pose proof (ka_file _ _ _ H1 p c c Hp Ec Ec) as Hf. by apply Forall2_diag in Hf as [? _].
Qed.
Print Assumptions C93_nothing_made_up.

(* Clients may encode bytes: what they download is encoded in the same way. *)
Definition map_frame (f : ascii -> ascii) (x : frame) : frame := match x with FData c => FData (map f c) | FErr => FErr end.
Definition map_upload (f : ascii -> ascii) (r : s_req) : s_req :=
  match r with
  | RPutObject b k sc cl md (Some body) => RPutObject b k sc cl md (Some (map (map_frame f) body))
  | RUploadPart u n (Some body) => RUploadPart u n (Some (map (map_frame f) body))
  | _ => r
  end.
Lemma Forall2_map_iff {A C} (f : A -> C) l l' : Forall2 (fun x y => y = f x) l l' <-> l' = map f l.
Proof.
  split.
  - induction 1 as [|x y l l' -> _ ->]; done.
  - intros ->. induction l; cbn; by constructor.
Qed.
Lemma body_data_map f body : body_data (map (map_frame f) body) = map f (body_data body).
Proof. induction body as [|[c|] body IH]; cbn; [done| |done]. by rewrite IH, map_app. Qed.
Lemma map_upload_akin f r : requests_akin (fun x y => y = f x) r (map_upload f r).
Proof.
  assert (Hb : forall body, bodies_akin (fun x y => y = f x) body (map (map_frame f) body)).
  { intros body. split; [rewrite body_data_map; by apply Forall2_map_iff|]. split.
    - intros H. apply (elem_of_list_fmap_1 (map_frame f) body FErr) in H. done.
    - intros H. apply elem_of_list_In, in_map_iff in H as ([c|] & Hx & H); [done|]. by apply elem_of_list_In. }
  destruct r as [| | | | | | | | | | | |b k sc cl md [body|]| |u n [body|]|]; try (by apply qa_same); [apply qa_put|apply qa_part]; apply Hb.
Qed.
Lemma frames_mapped f x y : Forall2 (frames_akin (fun a b => b = f a)) x y -> y = map (map_frame f) x.
Proof.
  intros H. apply Forall2_map_iff. eapply Forall2_impl; [done|]. intros a b Hab. destruct Hab as [c c' Hc|]; [|done].
  cbn. f_equal. by apply Forall2_map_iff.
Qed.

Theorem C93_encoded (f : ascii -> ascii) e rs s : wf s -> (forall p, content s p = None) -> Forall (spares_metadata e) rs ->
  forall n u a, told e s rs !! n = Some (u, a) -> exists u' a', told e s (map (map_upload f) rs) !! n = Some (u', a') /\
    match a with
    | Ok (AGet h off lim len md _) => exists tag', a' = Ok (AGet h off lim len md tag') /\
        forall sched, get_body u' h off lim sched = map (map_frame f) (get_body u h off lim sched)
    | Ok (ACopy _) => exists tag', a' = Ok (ACopy tag')
    | Ok (APut (Some _)) => exists tag', a' = Ok (APut (Some tag'))
    | Ok (APart _) => exists tag', a' = Ok (APart tag')
    | Ok (ACompleted b k _) => exists tag', a' = Ok (ACompleted b k tag')
    | _ => a' = a
    end.
Proof.
  intros Hs He Hm n u a Hn.
  destruct (C93_moved (fun x y => y = f x) e rs (map (map_upload f) rs) s s Hs) as [_ H2]; [| |done|].
  - split; [done|done| |done]. intros p c c' _ Hc. by rewrite He in Hc.
  - clear. induction rs as [|r rs IH]; cbn; constructor; [apply map_upload_akin|done].
  - destruct (Forall2_lookup_l _ _ _ _ _ H2 Hn) as ([u' a'] & Hn' & Ha). exists u', a'. split; [done|]. cbn [fst snd] in Ha.
    destruct Ha as [a Ha| | | | |]; [|by eexists| |by eexists..].
    + destruct a as [[]|]; try done. by destruct etag.
    + eexists. split; [done|]. intros sched. by apply frames_mapped.
Qed.
Print Assumptions C93_encoded.

(** ** Over HTTP *)

(* Received requests that differ only in what they upload: they are refused alike, or they ask for operations that are akin. *)
Inductive received_akin (R : ascii -> ascii -> Prop) (x y : received) : Prop :=
| xa_refused code : front x.1 x.2 = FrErr code -> front y.1 y.2 = FrErr code -> received_akin R x y
| xa_panic : front x.1 x.2 = FrPanic -> front y.1 y.2 = FrPanic -> received_akin R x y
| xa_call op c c' r r' : front x.1 x.2 = FrCall op c r -> front y.1 y.2 = FrCall op c' r' ->
    (forall n, cx_query c n = cx_query c' n) -> requests_akin R r r' -> received_akin R x y.

Section replies.
  Context (R : ascii -> ascii -> Prop).

  Lemma headers_refl hs : Forall2 (headers_akin R) hs hs.
  Proof. apply Forall_Forall2_diag, Forall_true. intros x. split; [done|by left]. Qed.
  Lemma md_insert_akin n v v' hs hs' : headers_akin R (n, v) (n, v') -> Forall2 (headers_akin R) hs hs' ->
    Forall2 (headers_akin R) (md_insert n v hs) (md_insert n v' hs').
  Proof.
    intros Hv. induction 1 as [|[a x] [b y] hs hs' [Hn Hxy] H IH]; cbn [md_insert]; [constructor; [done|constructor]|]. cbn in Hn. subst b.
    destruct (beq a n) eqn:E; [apply beq_true in E as ->|]; constructor; done.
  Qed.
  Lemma metadata_headers_akin md hs hs' : Forall2 (headers_akin R) hs hs' ->
    option_Forall2 (Forall2 (headers_akin R)) (set_metadata_headers md (Some hs)) (set_metadata_headers md (Some hs')).
  Proof.
    unfold set_metadata_headers. generalize (default [] md). intros l. revert hs hs'.
    assert (Hnone : forall l : metadata, fold_left (fun hs p => match hs, header_name_of (B "x-amz-meta-" ++ p.1) with
      | Some hs', Some n => if header_value_ok p.2 then Some (md_insert n p.2 hs') else None | _, _ => None end) l None = None) by (intros m; by induction m).
    induction l as [|[k v] l IH]; intros hs hs' H; [by constructor|]. cbn [fold_left fst snd].
    destruct (header_name_of _) as [n|]; [|rewrite Hnone; constructor]. destruct (header_value_ok v); [|rewrite Hnone; constructor].
    apply IH. apply md_insert_akin; [|done]. split; [done|by left].
  Qed.
  Lemma tag_value_ok x y : tags_akin R x y -> header_value_ok x = true /\ header_value_ok y = true.
  Proof. intros (c & c' & _ & -> & ->). by rewrite !etag_value_ok. Qed.
  Lemma same_reply s t x : match x with Ok resp => forall h off lim, rs_body resp <> RbFile h off lim | Err _ => True end ->
    replies_akin R s t (reply_of x) (reply_of x).
  Proof.
    destruct x as [[st hs b]|code]; intros Hb; apply ra_replied; [apply headers_refl|by apply ba_same|apply headers_refl|by apply ba_same].
  Qed.

  Lemma respond_akin op c c' s t a a' : (forall n, cx_query c n = cx_query c' n) -> answers_akin R s t a a' ->
    replies_akin R s t (reply_of (respond op c a)) (reply_of (respond op c' a')).
  Proof.
    intros Hq Ha. destruct Ha as [a Ha|x y Hxy|h off lim len md x y Hxy Hb|x y Hxy|x y Hxy|b k x y Hxy].
    - assert (respond op c' a = respond op c a) as ->.
      { destruct a as [a|]; [|done]. cbn [respond]. destruct op, a; cbn [respond_ok]; try done; by rewrite !Hq. }
      apply same_reply. destruct (respond op c a) as [resp|] eqn:Er; [|done]. eapply respond_no_file; [|by rewrite Er].
      intros h off lim len md tag ->. done.
    - destruct op; cbn; try (by apply (same_reply s t (Ok _))); apply ra_replied; try apply headers_refl; by apply (ba_tag R s t _ []).
    - destruct (tag_value_ok x y Hxy) as [Hx Hy].
      assert (Hgo : replies_akin R s t
        (reply_of (wrap (set_metadata_headers md (set_header (B "etag") (Some x) (set_header (B "content-length") (Some (num len)) (Some [])))) 200 (RbFile h off lim)))
        (reply_of (wrap (set_metadata_headers md (set_header (B "etag") (Some y) (set_header (B "content-length") (Some (num len)) (Some [])))) 200 (RbFile h off lim)))).
      { assert (Hh : forall hs, exists h1 h2, set_header (B "etag") (Some x) (Some hs) = Some h1 /\ set_header (B "etag") (Some y) (Some hs) = Some h2 /\ Forall2 (headers_akin R) h1 h2).
        { intros hs. cbn [set_header]. rewrite Hx, Hy. eexists _, _. split; [done|]. split; [done|]. apply md_insert_akin; [|apply headers_refl]. split; [done|]. by right. }
        destruct (set_header (B "content-length") (Some (num len)) (Some [])) as [hs|] eqn:E0.
        - destruct (Hh hs) as (h1 & h2 & -> & -> & Hhh). pose proof (metadata_headers_akin md h1 h2 Hhh) as Hmd.
          destruct Hmd as [h3 h4 Hmd|]; cbn [wrap reply_of]; [apply ra_replied; [done|by apply ba_file]|by apply (same_reply s t (Err _))].
        - cbn [set_header]. assert (set_metadata_headers md None = None) as ->; [|by apply same_reply].
          unfold set_metadata_headers. generalize (default [] md). intros l. by induction l. }
      cbn [respond]. destruct op; cbn [respond_ok]; try exact Hgo; by apply same_reply.
    - destruct (tag_value_ok x y Hxy) as [Hx Hy]. cbn [respond]. destruct op; cbn [respond_ok]; try (by apply same_reply).
      all: cbn [set_header]; rewrite Hx, Hy; cbn [wrap reply_of md_insert]; apply ra_replied; [|by apply ba_same].
      all: constructor; [split; [done|by right]|constructor].
    - destruct (tag_value_ok x y Hxy) as [Hx Hy]. cbn [respond]. destruct op; cbn [respond_ok]; try (by apply same_reply).
      all: cbn [set_header]; rewrite Hx, Hy; cbn [wrap reply_of md_insert]; apply ra_replied; [|by apply ba_same].
      all: constructor; [split; [done|by right]|constructor].
    - destruct op; cbn; try (by apply (same_reply s t (Ok _))); apply ra_replied; try apply headers_refl; by apply (ba_tag R s t _ [XText (B "Bucket") b; XText (B "Key") k]).
  Qed.
End replies.

Theorem C93_replies (R : ascii -> ascii -> Prop) e xs ys s t : wf s -> stores_akin R s t -> Forall2 (received_akin R) xs ys ->
  Forall (fun x => forall r, stands_for x r -> spares_metadata e r) xs ->
  Forall2 (fun x y => replies_akin R x.1 y.1 x.2 y.2) (heard e (fun _ => true) s xs) (heard e (fun _ => true) t ys).
Proof.
  intros Hs Hk Hxy. revert s t Hs Hk. induction Hxy as [|x y xs ys Hx _ IH]; intros s t Hs Hk Hm; cbn [heard]; [constructor|].
  apply Forall_cons in Hm as [Hm1 Hm2]. cbn [app].
  assert (stores_akin R (exchange e x.1 x.2 s).1 (exchange e y.1 y.2 t).1 /\ replies_akin R s t (exchange e x.1 x.2 s).2 (exchange e y.1 y.2 t).2 /\
    wf (exchange e x.1 x.2 s).1) as (H1 & H2 & H3).
  { destruct Hx as [code E1 E2|E1 E2|op c c' r r' E1 E2 Hq Hr].
    - unfold exchange, service. rewrite E1, E2. cbn [run fst snd]. split; [done|]. split; [|done]. by apply (same_reply R s t (Err code)).
    - unfold exchange, service. rewrite E1, E2. cbn [run fst snd]. split; [done|]. split; [constructor|done].
    - rewrite (exchange_call _ _ _ _ _ _ _ E1), (exchange_call _ _ _ _ _ _ _ E2). cbn [fst snd].
      destruct (step_akin e R r r' s t Hs Hk Hr) as [Ha Hb]; [apply Hm1; by eexists _, _|]. split; [done|]. split; [|by apply wf_after].
      by apply respond_akin. }
  constructor; [done|]. by apply IH.
Qed.
Print Assumptions C93_replies.

(* Keys that stay in their bucket spare metadata. *)
Lemma located_spares e b k p q : legal_bucket b -> located b k p -> get_object_path e b k = Some q -> ~ metadata_file q.
Proof.
  intros Hb Hl Hq (c & ->). rewrite (located_path e b k p) in Hq by (by try apply legal_bucket_segment). injection Hq as ->.
destruct Hl as (segs & Hne & _ & _ & E). injection E as _ <-. done.
Qed.

Lemma empty_content p : content empty_store p = None.
Proof.
  unfold content, empty_store. cbn [fs_nodes]. destruct (decide (p = [])) as [->|Hp]; [by rewrite lookup_singleton|].
  by rewrite lookup_singleton_ne.
Qed.

(* A key that leaves its bucket reaches the metadata of an object: then the bytes uploaded decide on replies. *)
Theorem C93_metadata_refuted : exists e rs rs' s, wf s /\ stores_akin (fun _ _ => True) s s /\ Forall2 (requests_akin (fun _ _ => True)) rs rs' /\
  ~ Forall2 (fun x y => answers_akin (fun _ _ => True) x.1 y.1 x.2 y.2) (told e s rs) (told e s rs').
Proof.
  pose (b := B "docs"). pose (k := B "a"). pose (up := fun c => [RCreateBucket b; RPutObject b k None None None (Some [FData (B "hi")]);
    RPutObject b (B "../" ++ metadata_name b k) None None None (Some [FData c]); RHeadObject b k]).
  exists ex_env, (up (B "{}")), (up (B "no")), empty_store. split; [apply wf_empty|]. split; [|split].
  - split; [done|done| |done]. intros p c c' _ H1 H2. by rewrite empty_content in H1.
  - assert (Hb : forall c c', length c = length c' -> bodies_akin (fun _ _ => True) [FData c] [FData c']).
    { intros c c' Hl. split.
      - cbn [body_data]. rewrite !app_nil_r. by apply Forall2_same_length_lookup_2.
      - rewrite !elem_of_list_singleton. done. }
    constructor; [by apply qa_same|]. constructor; [by apply qa_put, Hb|]. constructor; [by apply qa_put, Hb|]. constructor; [by apply qa_same|constructor].
  - intros H. destruct (told ex_env empty_store (up (B "{}")) !! 3) as [[u a]|] eqn:E1; [|vm_compute in E1; discriminate].
    destruct (Forall2_lookup_l _ _ _ _ _ H E1) as ([v a'] & E2 & Ha). cbn [fst snd] in Ha.
    assert (a = Ok (AHead 2 (Some []))) as ->. { assert (snd <$> told ex_env empty_store (up (B "{}")) !! 3 = Some (Ok (AHead 2 (Some [])))) as E by (vm_compute; reflexivity). rewrite E1 in E. by injection E. }
    assert (a' = Err InternalError) as ->. { assert (snd <$> told ex_env empty_store (up (B "no")) !! 3 = Some (Err InternalError)) as E by (vm_compute; reflexivity). rewrite E2 in E. by injection E. }
    inversion Ha.
Qed.
Print Assumptions C93_metadata_refuted.

(** ** Examples *)

Definition ex_uploads : list s_req :=
  [RCreateBucket (B "docs");
   RPutObject (B "docs") (B "a") None None None (Some [FData (B "he"); FData (B "llo")]);
   RCreateMultipartUpload (B "docs") (B "b/c") (B "id");
   RUploadPart (B "id") 1%Z (Some [FData (B "one,")]);
   RUploadPart (B "id") 2%Z (Some [FData (B "two")]);
   RCreateBucket (B "more");
   RCompleteMultipartUpload (B "more") (B "c") (B "id") (Some [Some 1%Z; Some 2%Z]);
   RCopyObject (B "more/c") (B "docs") (B "d");
   RGetObject (B "docs") (B "d") (Some (B "bytes=2-4"));
   RGetObject (B "docs") (B "a") None].
Definition ex_shift (a : ascii) : ascii := ascii_of_nat (S (nat_of_ascii a)).
Definition ex_bodies (rs : list s_req) : list (list frame) :=
  omap (fun x => match x.2 with Ok (AGet h off lim _ _ _) => Some (get_body x.1 h off lim []) | _ => None end) (told ex_env empty_store rs).

Example C93_ex :
  Forall (spares_metadata ex_env) ex_uploads /\
  Forall (uploads (fun a => a ∈ B "helo,ntw")) ex_uploads /\
  ex_bodies ex_uploads = [[FData (B "e,t")]; [FData (B "hello")]] /\
  ex_bodies (map (map_upload ex_shift) ex_uploads) = [[FData (B "f-u")]; [FData (B "ifmmp")]].
Proof.
  split; [|split; [|split]].
  - assert (Ho : forall b k q c, get_object_path ex_env b k = Some (b :: c :: q) -> forall p, get_object_path ex_env b k = Some p -> ~ metadata_file p).
    { intros b k q c -> p [= <-] (x & E). done. }
    unfold ex_uploads. repeat (apply Forall_cons; split); [..|apply Forall_nil_2]; try done.
    + refine (Ho _ _ [] _ _); vm_compute; reflexivity.
    + intros p Hp (x & ->). vm_compute in Hp. discriminate.
    + intros p Hp (x & ->). vm_compute in Hp. discriminate.
    + split; [refine (Ho _ _ [] _ _); vm_compute; reflexivity|]. intros n. rewrite part_path_eq by compute_done. split.
      * intros p Hp (x & ->). injection Hp as Hp. with_strategy transparent [part_name] unfold part_name in Hp. discriminate.
      * intros p [= <-]. assert (get_object_path ex_env (B "more") (B "c") = Some [B "more"; B "c"]) as -> by (vm_compute; reflexivity). intros [=].
    + split; [|refine (Ho _ _ [] _ _); vm_compute; reflexivity]. intros sb sk E. assert (copy_source_from_header_str (B "more/c") = Ok (B "more", B "c")) as E' by (vm_compute; reflexivity).
      rewrite E' in E. injection E as <- <-. refine (Ho _ _ [] _ _); vm_compute; reflexivity.
    + refine (Ho _ _ [] _ _); vm_compute; reflexivity.
    + refine (Ho _ _ [] _ _); vm_compute; reflexivity.
  - unfold ex_uploads. repeat (apply Forall_cons; split); [..|apply Forall_nil_2]; cbn [uploads]; try done; compute_done.
  - vm_compute. reflexivity.
  - vm_compute. reflexivity.
Qed.

(* Two uploads over HTTP. *)
Example C93_ex_received : received_akin (fun _ _ => True)
  (ex_open_server, HttpRequest (B "PUT") (B "/photos/cat") None [] [FData (B "hel"); FData (B "lo")])
  (ex_open_server, HttpRequest (B "PUT") (B "/photos/cat") None [] [FData (B "there")]).
Proof.
  eapply xa_call; [vm_compute; reflexivity|vm_compute; reflexivity|done|]. apply qa_put. split; [vm_compute; repeat constructor|].
  rewrite !elem_of_cons. split; intros H; exfalso; set_solver.
Qed.
