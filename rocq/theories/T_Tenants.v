(** C91: what happens to other buckets cannot be noticed. *)
From Verif Require Import M_Base M_Path M_Headers M_Chunked M_BytesStream M_Crypto M_Fs M_Json M_Utf8 M_Storage M_Http M_Errors M_Ops M_Service
  S_Path S_Headers S_Chunked S_Errors S_Storage S_Store S_Map S_Service S_Dispatch S_Calls S_Http S_Server
  L_Base L_Path L_Headers L_Fs L_Storage L_Scope L_Names L_Json L_Ops L_Results L_Tidy L_Map L_MapOps
  T_Errors T_Headers T_Auth T_Store T_Copy T_Etag T_Scope T_Listing T_Buckets T_Uploads T_Isolation T_Calls T_Http T_Map T_Server.

Local Opaque md5 json_decode json_encode metadata_name part_name.

(** ** What the theorem says *)

(* Buckets [T] and uploads [I] belong together.  Requests that are about nothing else: *)
Definition own (T I : bytes -> Prop) (r : s_req) : Prop :=
  match r with
  | RCreateBucket b | RDeleteBucket b | RGetBucketLocation b | RHeadBucket b
  | RListObjects b _ | RListObjectsV2 b _ | RDeleteObjects b _ => T b
  | RDeleteObject b _ | RGetObject b _ _ | RHeadObject b _ | RPutObject b _ _ _ _ _
  | RCreateMultipartUpload b _ _ => T b
  | RCopyObject src b _ => T b /\ exists sb sk, src = sb ++ B "/" ++ sk /\ T sb
  | RUploadPart u _ _ => I u
  | RCompleteMultipartUpload b _ u _ => T b /\ I u
  | RListBuckets => False
  end.
(* Requests that are to write elsewhere.  They may read anything, fail, be sent with a broken body, copy
   to missing folders, use keys with '.' segments, keys that end in a slash... *)
Definition spares (T I : bytes -> Prop) (r : s_req) : Prop :=
  match r with
  | RCreateBucket b | RDeleteBucket b => legal_bucket b /\ ~ T b
  | RCopyObject _ b k | RDeleteObject b k | RPutObject b k _ _ _ _ => legal_bucket b /\ ~ T b /\ tame k
  | RDeleteObjects b ks => legal_bucket b /\ ~ T b /\ Forall tame ks
  | RUploadPart u _ _ => ~ I u /\ "/"%char ∉ u
  | RCompleteMultipartUpload b k u _ => legal_bucket b /\ ~ T b /\ tame k /\ ~ I u /\ "/"%char ∉ u
  | _ => True
  end.

(* The replies to the requests of [mine], each with the store that its body is read from. *)
Fixpoint heard (e : env) (mine : received -> bool) (s : fs) (xs : list received) : list (fs * reply) :=
  match xs with
  | [] => []
  | x :: xs' =>
      (if mine x then [(s, (exchange e x.1 x.2 s).2)] else []) ++ heard e mine (exchange e x.1 x.2 s).1 xs'
  end.
(* Replies that look the same to the client. *)
Definition looks_same (x y : fs * reply) : Prop :=
  match x.2, y.2 with
  | Replied a, Replied b =>
      rs_status a = rs_status b /\ rs_headers a = rs_headers b /\
      ((rs_body a = rs_body b /\ forall h off lim, rs_body a <> RbFile h off lim) \/
       exists data, streams x.1 (rs_body a) data /\ streams y.1 (rs_body b) data)
  | Panicked, Panicked => True
  | _, _ => False
  end.

(** ** Part of a disk *)

Section parts.
  Context (e : env) (P : path -> Prop) (Pup : forall p c, P (p ++ [c]) -> P p).

  (* The disk [t] has the files and directories of [s] that are in [P]. *)
  Record part_of (s t : fs) : Prop := {
    po_in p : P p -> fs_nodes t !! p = fs_nodes s !! p;
    po_out p : is_Some (fs_nodes t !! p) -> P p;
    po_data : fs_data t = fs_data s;
    po_next : fs_next t = fs_next s;
  }.

  (* Programs that use names in [P] only and list no directories. *)
  Definition stays_call {R} (c : syscall R) : Prop :=
    match c with
    | CExists p | CStat p | COpen p | CCreate p | CMkdir p | CUnlink p => P p
    | CLen _ | CRead _ _ | CWrite _ _ _ | CBound _ => True
    | CRmdir _ | CReadDir _ | CCount => False
    end.
  Fixpoint stays {A} (m : prog A) : Prop :=
    match m with
    | Ret _ => True
    | Do c k => stays_call c /\ forall r, stays (k r)
    end.

  (* The same with a property of the results. *)
  Fixpoint stays_to {A} (Q : A -> Prop) (m : prog A) : Prop :=
    match m with
    | Ret a => Q a
    | Do c k => stays_call c /\ forall r, stays_to Q (k r)
    end.

  Lemma part_is_dir s t p : part_of s t -> P p -> is_dir t p = is_dir s p.
  Proof. intros Hp Hi. unfold is_dir. by rewrite (po_in _ _ Hp). Qed.
  Lemma part_data_of s t i : part_of s t -> data_of t i = data_of s i.
  Proof. intros Hp. unfold data_of. by rewrite (po_data _ _ Hp). Qed.
  Lemma part_content s t p : part_of s t -> P p -> content t p = content s p.
  Proof. intros Hp Hi. unfold content. rewrite (po_in _ _ Hp) by done. destruct (fs_nodes s !! p) as [[|i]|]; try done. f_equal. by apply part_data_of. Qed.
  Lemma part_has_parent s t p : part_of s t -> P p -> has_parent t p = has_parent s p.
  Proof.
    intros Hp Hi. unfold has_parent. destruct (parent p) as [[q c]|] eqn:E; [|done]. apply part_is_dir; [done|].
    apply parent_Some in E as ->. by eapply Pup.
  Qed.
  Lemma part_insert s t p x d n : part_of s t -> P p ->
    part_of (Fs (<[p := x]> (fs_nodes s)) d n) (Fs (<[p := x]> (fs_nodes t)) d n).
  Proof.
    intros Hp Hi. split; cbn; try done.
    - intros q Hq. destruct (decide (q = p)) as [->|]; [by rewrite !lookup_insert|]. rewrite !lookup_insert_ne by done. by apply Hp.
    - intros q. destruct (decide (q = p)) as [->|]; [done|]. rewrite lookup_insert_ne by done. apply Hp.
  Qed.
  Lemma part_delete s t p d n : part_of s t ->
    part_of (Fs (delete p (fs_nodes s)) d n) (Fs (delete p (fs_nodes t)) d n).
  Proof.
    intros Hp. split; cbn; try done.
    - intros q Hq. destruct (decide (q = p)) as [->|]; [by rewrite !lookup_delete|]. rewrite !lookup_delete_ne by done. by apply Hp.
    - intros q. destruct (decide (q = p)) as [->|]; [rewrite lookup_delete; by intros []|]. rewrite lookup_delete_ne by done. apply Hp.
  Qed.
  Lemma part_same s t d n : part_of s t -> part_of (Fs (fs_nodes s) d n) (Fs (fs_nodes t) d n).
  Proof. intros Hp. split; cbn; [apply Hp|apply Hp|done|done]. Qed.

  Lemma part_exec {R} (c : syscall R) s t : part_of s t -> stays_call c ->
    (exec e c t).2 = (exec e c s).2 /\ part_of (exec e c s).1 (exec e c t).1.
  Proof.
    intros Hp Hc. destruct c as [p|p|p|h|h off|p|i off b|p|p|p|p| |h]; cbn [stays_call] in Hc; try done; cbn [exec].
    - rewrite (po_in _ _ Hp) by done. done.
    - rewrite (po_in _ _ Hp) by done. split; [|done]. cbn [snd]. destruct (negb _); [done|].
      destruct (fs_nodes s !! p) as [[|i]|]; try done. by rewrite (part_data_of s t).
    - rewrite (po_in _ _ Hp) by done. done.
    - destruct h as [p|i]; [done|]. by rewrite (part_data_of s t).
    - destruct h as [p|i]; [done|]. by rewrite (part_data_of s t).
    - rewrite (po_in _ _ Hp) by done. destruct (negb _); [done|].
      destruct (fs_nodes s !! p) as [[|i]|]; [done| |].
      + cbn [fst snd]. split; [done|]. rewrite (po_data _ _ Hp), (po_next _ _ Hp). by apply part_same.
      + destruct (parent p) as [[q c]|] eqn:E; [|done]. apply parent_Some in E as ->.
        rewrite (part_is_dir s t q) by (try done; by eapply Pup). destruct (is_dir s q); [|done].
        cbn [fst snd]. rewrite (po_data _ _ Hp), (po_next _ _ Hp). split; [done|]. by apply part_insert.
    - cbn [fst snd]. rewrite (part_data_of s t) by done. rewrite (po_data _ _ Hp), (po_next _ _ Hp). split; [done|]. by apply part_same.
    - rewrite (po_in _ _ Hp) by done. destruct (negb _); [done|]. destruct (fs_nodes s !! p); [done|].
      rewrite (part_has_parent s t) by done. destruct (has_parent s p).
      + cbn [fst snd]. unfold set_nodes. rewrite (po_data _ _ Hp), (po_next _ _ Hp). split; [done|]. by apply part_insert.
      + split; [|done]. cbn [snd]. destruct (parent p) as [[q c]|] eqn:E; [|done]. apply parent_Some in E as ->.
        by rewrite (po_in _ _ Hp) by by eapply Pup.
    - rewrite (po_in _ _ Hp) by done. destruct (e_os_ok e p); [|done]. destruct (fs_nodes s !! p) as [[|i]|]; try done.
      cbn [fst snd]. unfold set_nodes. rewrite (po_data _ _ Hp), (po_next _ _ Hp). split; [done|]. by apply part_delete.
    - destruct h as [p|i]; [done|]. by rewrite (part_data_of s t).
  Qed.
  Lemma part_run {A} (m : prog A) s t : part_of s t -> stays m ->
    (run e m t).2 = (run e m s).2 /\ part_of (run e m s).1 (run e m t).1.
  Proof.
    revert s t. induction m as [a|R c k IH]; intros s t Hp Hm; [done|]. destruct Hm as [Hc Hk]. cbn [run].
    destruct (part_exec c s t Hp Hc) as [H1 H2].
    destruct (exec e c s) as [s1 r], (exec e c t) as [t1 r']. cbn [fst snd] in H1, H2. subst r'. by apply IH.
  Qed.

  (** The programs of the storage. *)
  Lemma stays_bind {A C} (m : prog A) (f : A -> prog C) : stays m -> (forall a, stays (f a)) -> stays (bind m f).
  Proof. intros Hm Hf. induction m as [a|R c k IH]; [apply Hf|]. destruct Hm as [Hc Hk]. split; [done|]. intros r. by apply IH. Qed.
  Lemma stays_bind_to {A C} Q (m : prog A) (f : A -> prog C) : stays_to Q m -> (forall a, Q a -> stays (f a)) -> stays (bind m f).
  Proof. intros Hm Hf. induction m as [a|R c k IH]; [by apply Hf|]. destruct Hm as [Hc Hk]. split; [done|]. intros r. by apply IH. Qed.
  Lemma stays_to_bind {A C} Q Q' (m : prog A) (f : A -> prog C) : stays_to Q m -> (forall a, Q a -> stays_to Q' (f a)) -> stays_to Q' (bind m f).
  Proof. intros Hm Hf. induction m as [a|R c k IH]; [by apply Hf|]. destruct Hm as [Hc Hk]. split; [done|]. intros r. by apply IH. Qed.
  Lemma stays_call_ {R} (c : syscall R) : stays_call c -> stays (call c).
  Proof. intros Hc. by split. Qed.
  Lemma stays_path {A} o (k : path -> prog (sres A)) : (forall p, o = Some p -> stays (k p)) -> stays (try_path o k).
  Proof. intros Hk. destruct o; [by apply Hk|done]. Qed.
  Lemma stays_io {A C} (m : prog (option A)) (k : A -> prog (sres C)) : stays m -> (forall a, stays (k a)) -> stays (try_io m k).
  Proof. intros Hm Hk. apply stays_bind; [done|]. intros [a|]; [apply Hk|done]. Qed.
  Lemma stays_res {A C} (m : prog (sres A)) (k : A -> prog (sres C)) : stays m -> (forall a, stays (k a)) -> stays (try_res m k).
  Proof. intros Hm Hk. apply stays_bind; [done|]. intros [a|]; [apply Hk|done]. Qed.

  Lemma stays_create_dir_all_rev rp : P (rev rp) -> stays (create_dir_all_rev rp).
  Proof.
    induction rp as [|c rp IH]; intros Hp.
    - cbn [create_dir_all_rev]. apply stays_bind; [by apply stays_call_|]. intros [| |]; try done.
      apply stays_bind; [by apply stays_call_|]. by intros [[[] ?]|].
    - cbn [create_dir_all_rev].
      assert (Hst : stays (bind (call (CStat (rev (c :: rp)))) (fun st =>
        match st with Some (true, _) => Ret (Some tt) | _ => Ret None end))).
      { apply stays_bind; [by apply stays_call_|]. by intros [[[] ?]|]. }
      apply stays_bind; [by apply stays_call_|]. intros [| |]; [done| |exact Hst].
      apply stays_bind.
      + apply IH. cbn [rev] in Hp. by eapply Pup.
      + intros [[]|]; [|done]. apply stays_bind; [by apply stays_call_|]. intros [| |]; [done|exact Hst|exact Hst].
  Qed.
  Lemma stays_create_dir_all p : P p -> stays (create_dir_all p).
  Proof. intros Hp. apply stays_create_dir_all_rev. by rewrite rev_involutive. Qed.
  Lemma stays_write_pieces i ps : forall off, stays (write_pieces i off ps).
  Proof.
    induction ps as [|b ps IH]; intros off; [done|]. cbn [write_pieces]. apply stays_bind; [by apply stays_call_|]. intros [?|]; [apply IH|done].
  Qed.
  Lemma stays_copy_bytes i body : forall off, stays (copy_bytes e i off body).
  Proof.
    induction body as [|[b|] body IH]; intros off; [done| |done]. cbn [copy_bytes]. apply stays_bind; [apply stays_write_pieces|]. intros [?|]; [apply IH|done].
  Qed.
  Lemma stays_read_file p : P p -> stays (read_file p).
  Proof.
    intros Hp. apply stays_bind; [by apply stays_call_|]. intros [h|]; [|done]. apply stays_bind; [by apply stays_call_|]. intros n.
    generalize 0. induction n as [|n IH]; intros off; [done|]. cbn [read_rest]. apply stays_bind; [by apply stays_call_|].
    intros [[|a x]|]; [done| |done]. apply stays_bind; [apply IH|]. by intros [c|].
  Qed.
  Lemma stays_transfer n h i : forall roff woff, stays (transfer e n h roff i woff).
  Proof.
    induction n as [|n IH]; intros roff woff; [done|]. cbn [transfer]. apply stays_bind; [by apply stays_call_|].
    intros [[|a x]|]; [done| |done]. apply stays_bind; [apply stays_write_pieces|]. intros [?|]; [apply IH|done].
  Qed.
  Lemma stays_append_file p i off : P p -> stays (append_file e p i off).
  Proof.
    intros Hp. apply stays_bind; [by apply stays_call_|]. intros [h|]; [|done]. apply stays_bind; [by apply stays_call_|]. intros n.
    apply stays_transfer.
  Qed.
  Lemma stays_write_file p b : P p -> stays (write_file e p b).
  Proof.
    intros Hp. apply stays_bind; [by apply stays_call_|]. intros [i|]; [|done]. apply stays_bind; [apply stays_write_pieces|]. by intros [?|].
  Qed.
  Lemma stays_load_metadata b k : P [metadata_name b k] -> stays (load_metadata e b k).
  Proof.
    intros Hp. unfold load_metadata. rewrite metadata_path. apply stays_bind; [by apply stays_call_|]. intros [|]; [|done].
    apply stays_bind; [by apply stays_read_file|]. intros [c|]; [|done]. by destruct (json_decode c).
  Qed.
  Lemma stays_save_metadata b k m : P [metadata_name b k] -> stays (save_metadata e b k m).
  Proof. intros Hp. unfold save_metadata. rewrite metadata_path. by apply stays_write_file. Qed.
  Lemma stays_md5 b k : (forall p, get_object_path e b k = Some p -> P p) -> stays (get_md5_sum e b k).
  Proof.
    intros Hp. unfold get_md5_sum. destruct (get_object_path e b k) as [p|]; [|done].
    apply stays_bind; [by apply stays_read_file, Hp|]. by intros [c|].
  Qed.
  Lemma stays_copy_file src dst : P src -> P dst -> stays (copy_file e src dst).
  Proof.
    intros Hs Hd. apply stays_bind; [by apply stays_call_|]. intros [[q|i]|]; try done.
    apply stays_bind; [by apply stays_call_|]. intros [j|]; [|done].
    apply stays_bind; [by apply stays_call_|]. intros n.
    apply stays_bind; [apply stays_transfer|]. by intros [?|].
  Qed.
  Lemma stays_extent h r n : stays (get_extent h r n).
  Proof.
    destruct r as [[f l|l]|]; cbn [get_extent]; [by destruct (_ <=? _)%N| |done].
    destruct (_ && _); [|done]. apply stays_io; [by apply stays_call_|]. intros len. by destruct (_ <=? _)%N.
  Qed.
End parts.

Section tenants.
  Context (e : env) (U : bytes -> bytes -> Prop) (HU : names_ok e U) (T I : bytes -> Prop).
  Context (UT : forall b k, U b k -> T b) (TL : forall b, T b -> legal_bucket b) (IL : forall u, I u -> "/"%char ∉ u).

  Definition area (p : path) : Prop :=
    p = [] \/ (exists b q, p = b :: q /\ T b) \/ (exists b k, p = [metadata_name b k] /\ T b) \/
    (exists u n, p = [part_name u n] /\ I u).
  Lemma area_up p c : area (p ++ [c]) -> area p.
  Proof.
    intros [H|[(b & q & H & Hb)|[(b & k & H & Hb)|(u & n & H & Hu)]]].
    - by destruct p.
    - destruct p as [|b' q']; [by left|]. injection H as -> _. right. left. by exists b, q'.
    - destruct p as [|x [|]]; [by left|done|done].
    - destruct p as [|x [|]]; [by left|done|done].
  Qed.
  Lemma area_object b k p : U b k -> get_object_path e b k = Some p -> area p.
  Proof.
    intros Hu Hp. destruct (U_path e U HU b k Hu) as (p' & (segs & _ & _ & _ & ->) & _ & Hp'). rewrite Hp in Hp'. injection Hp' as ->.
    right. left. eexists _, _. split; [done|]. by eapply UT.
  Qed.
  Lemma area_bucket b q : T b -> area (b :: q).
  Proof. intros Hb. right. left. by exists b, q. Qed.
  Lemma area_metadata b k : T b -> area [metadata_name b k].
  Proof. intros Hb. right. right. left. by exists b, k. Qed.
  Lemma area_part u n : I u -> area [part_name u n].
  Proof. intros Hu. right. right. right. by exists u, n. Qed.

  Local Hint Resolve stays_bind stays_path stays_io stays_res stays_call_ : core.

  (* Requests of the tenant that look at names of the tenant only. *)
  Lemma stays_storage st r : own T I r -> well_behaved e U st r ->
    match r with RListObjects _ _ | RListObjectsV2 _ _ | RDeleteBucket _ => False | _ => True end ->
    stays area (storage e r).
  Proof.
    intros Ho Hw Hr. destruct r; cbn [own well_behaved storage] in *; try done.
    - rename bucket into b. unfold create_bucket. rewrite bucket_path by by apply legal_bucket_segment, TL. cbn [try_path].
      apply stays_bind; [by apply stays_call_, area_bucket|]. intros [|]; [done|]. apply stays_bind; [by apply stays_call_, area_bucket|]. by intros [| |].
    - rename bucket into b, key into k. destruct Hw as (Hu & sb & sk & Hus & -> & _).
      unfold copy_object. destruct (copy_source_from_header_str (sb ++ B "/" ++ sk)) as [[sb' sk']|] eqn:Es; [|done].
      assert (Hsl : "/"%char ∉ sb) by (eapply bucket_no_slash, nm_bucket; done).
      assert (Heq : (sb', sk') = (sb, sk)).
      { destruct (nm_key _ _ HU _ _ Hus) as (_ & Hlk & _ & Hlf). rewrite copy_source_text in Es; [congruence|by eapply nm_bucket|done|].
        intros Hin. apply elem_of_app in Hin as [Hin|Hin]; [|apply elem_of_cons in Hin as [?|?]; done].
        by eapply bucket_no_LF, Hin; eapply nm_bucket. }
      injection Heq as -> ->.
      apply stays_path. intros src Hsrc. apply stays_path. intros dst Hdst.
      apply stays_io; [apply stays_call_; by eapply area_object, Hsrc|]. intros _.
      apply stays_io; [apply stays_copy_file; [by eapply area_object, Hsrc|by eapply area_object, Hdst]|]. intros _.
      apply stays_path. intros q. rewrite metadata_path. intros [= <-].
      apply stays_bind; [apply stays_call_, area_metadata; by eapply UT|]. intros ex.
      apply stays_io.
      + destruct ex; [|done]. rewrite metadata_path. apply stays_copy_file; apply area_metadata; by eapply UT.
      + intros _. apply stays_io; [|done]. apply stays_md5. intros p. by apply area_object.
    - rename bucket into b, key into k. destruct (nm_key _ _ HU _ _ Hw) as (Hk & _).
      unfold delete_object. rewrite ordinary_no_slash_end by done. apply stays_path. intros p Hp.
      apply stays_io; [apply stays_call_; by eapply area_object|done].
    - rename bucket into b. destruct Hw as (_ & Hks & _). unfold delete_objects.
      apply (stays_bind_to area (fun x => forall l, x = Ok l -> Forall (fun y => area y.1) l)).
      { clear -Hks HU UT. induction Hks as [|k ks Hk _ IH]; [by intros l [= <-]|]. cbn [existing_objects].
        destruct (get_object_path e b k) as [p|] eqn:Hp; cbn [try_path]; [|by intros l].
        apply (stays_to_bind _ (fun _ => True)); [split; [by eapply area_object|done]|]. intros ex _.
        eapply stays_to_bind; [exact IH|]. intros [l'|c] Hl'; [|by intros l]. cbn. intros l [= <-].
        destruct ex; [|by apply Hl']. apply Forall_cons. split; [by eapply area_object|by apply Hl']. }
      intros [l|c] Hl; [|done]. specialize (Hl l eq_refl). apply stays_res; [|done].
      clear -Hl. induction Hl as [|[p k] l Hp _ IH]; [done|]. cbn [remove_objects].
      apply stays_io; [by apply stays_call_|]. intros _. by apply stays_res.
    - rename bucket into b. unfold get_bucket_location. rewrite bucket_path by by apply legal_bucket_segment, TL. cbn [try_path].
      apply stays_bind; [by apply stays_call_, area_bucket|done].
    - rename bucket into b, key into k. destruct Hw as [Hu _]. unfold get_object. apply stays_path. intros p Hp.
      assert (Hgo : forall r, stays area (bind (call (COpen p)) (fun o =>
        match o with
        | None => Ret (Err NoSuchKey)
        | Some h =>
            try_io (call (CLen h)) (fun file_len =>
            try_res (get_extent h r file_len) (fun ol =>
            try_io (load_metadata e b k) (fun md =>
            try_io (get_md5_sum e b k) (fun tag =>
              if (ol.2 <=? i64_max)%N then Ret (Ok (AGet h ol.1 ol.2 ol.2 md tag))
              else Ret (Err InternalError)))))
        end))).
      { intros r. apply stays_bind; [apply stays_call_; by eapply area_object|]. intros [h|]; [|done].
        apply stays_io; [by apply stays_call_|]. intros n. apply stays_res; [apply stays_extent|]. intros ol.
        apply stays_io; [by apply stays_load_metadata, area_metadata|]. intros md.
        apply stays_io; [apply stays_md5; intros p'; by apply area_object|]. intros tag. by destruct (_ <=? _)%N. }
      destruct range as [str|]; [|apply Hgo]. destruct (range_from_header_str str); [apply Hgo|done].
    - rename bucket into b. unfold head_bucket. rewrite bucket_path by by apply legal_bucket_segment, TL. cbn [try_path].
      apply stays_bind; [by apply stays_call_, area_bucket|done].
    - rename bucket into b, key into k. unfold head_object. apply stays_path. intros p Hp.
      apply stays_bind; [apply stays_call_; by eapply area_object|]. intros [|]; [|done].
      apply stays_io; [apply stays_call_; by eapply area_object|]. intros stt.
      apply stays_io; [by apply stays_load_metadata, area_metadata|]. intros md. by destruct (_ <=? _)%N.
    - rename bucket into b, key into k. destruct Hw as (Hu & _). destruct (nm_key _ _ HU _ _ Hu) as (Hk & _).
      unfold put_object. destruct (negb _); [done|]. destruct body as [body|]; [|done].
      rewrite ordinary_no_slash_end by done. apply stays_path. intros p Hp. pose proof (area_object _ _ _ Hu Hp) as Ha.
      apply stays_io.
      { destruct (parent p) as [[q c]|] eqn:E; [|done]. apply parent_Some in E as ->. apply stays_create_dir_all; [apply area_up|]. by eapply area_up. }
      intros _. apply stays_io; [by apply stays_call_|]. intros i. apply stays_io; [apply stays_copy_bytes|]. intros _.
      apply stays_io; [|done]. destruct md; [by apply stays_save_metadata, area_metadata|done].
    - unfold upload_part. destruct body as [body|]; [|done]. apply stays_path. intros p. rewrite part_path_eq by by apply IL. intros [= <-].
      apply stays_io; [by apply stays_call_, area_part|]. intros i. apply stays_io; [apply stays_copy_bytes|done].
    - rename bucket into b, key into k. destruct Hw as (Hu & Hsl & _). destruct Ho as [Hb Hi]. unfold complete_multipart_upload.
      destruct parts as [ps|]; [|done]. apply stays_path. intros p Hp. pose proof (area_object _ _ _ Hu Hp) as Ha.
      apply stays_io; [by apply stays_call_|]. intros i. apply stays_res.
      { generalize 0%Z, 0. induction ps as [|[n|] ps IH]; intros cnt off; [done| |done]. cbn [append_parts]. destruct (negb _); [done|].
        apply stays_path. intros q. rewrite part_path_eq by done. intros [= <-].
        apply stays_io; [by apply stays_append_file, area_part|]. intros off'.
        apply stays_io; [by apply stays_call_, area_part|]. intros _. apply IH. }
      intros _. apply stays_io; [by apply stays_call_|]. intros _. apply stays_io; [|done]. apply stays_md5. intros p'. by apply area_object.
  Qed.

  Lemma tracks_ext st s s' : tracks e U st s -> wf s' -> (forall p, fs_nodes s' !! p = fs_nodes s !! p) ->
    (forall p, content s' p = content s p) -> tracks e U st s'.
  Proof.
    intros Ht Hwf Hn Hc. destruct Ht as [H1 H2 H3 H4 H5 H6 H7 H8 H9 H10 H11]. split; try done.
    - intros p. rewrite Hn. apply H2.
    - intros b k. rewrite Hn, Hc. apply H3.
    - by rewrite Hn.
    - intros b Hb. rewrite Hn. by apply H5.
    - intros b q c. rewrite Hc. apply H7.
    - intros b k p Hu Hl. rewrite Hn, Hc. by apply H8.
    - intros b k Hu. rewrite <- (H10 b k Hu). unfold meta_of. by rewrite Hn, Hc.
    - intros u n Hu. rewrite Hn, Hc. by apply H11.
  Qed.

  Lemma part_wf s t : part_of area s t -> wf s -> wf t.
  Proof.
    intros Hp [W1 W2 W3].
    assert (Heq : forall p, is_Some (fs_nodes t !! p) -> fs_nodes t !! p = fs_nodes s !! p).
    { intros p Hs. by apply Hp, (po_out _ _ _ Hp). }
    split.
    - intros p c Hs. pose proof (po_out _ _ _ Hp _ Hs) as Ha. rewrite (po_in _ _ _ Hp) by by eapply area_up.
      apply (W1 p c). by rewrite <- Heq.
    - intros p q i H1 H2. apply (W2 p q i).
      + rewrite <- Heq; [done|by rewrite H1].
      + rewrite <- Heq; [done|by rewrite H2].
    - intros p i H1. rewrite (po_next _ _ _ Hp). apply (W3 p i). rewrite <- Heq; [done|by rewrite H1].
  Qed.

  (* The disk holds the tenant's map, and whatever others left. *)
  Record holds (st : store) (s : fs) : Prop := {
    hd_wf : wf s;
    hd_tidy : tidy e s;
    hd_part : exists t, part_of area s t /\ tracks e U st t;
  }.

  Lemma spared r : spares T I r -> forall p, area p ->
    ~ r_files e r p /\ (p <> [] -> ~ r_dirs e r p) /\ ~ r_rmdirs e r p.
  Proof.
    intros Hs p Ha.
    assert (Hb : forall b q, legal_bucket b -> ~ T b -> p <> b :: q).
    { intros b q Hl Hn ->. destruct Ha as [H|[(b' & q' & H & Hb')|[(b' & k & H & Hb')|(u & n & H & Hu)]]]; [done|..].
      - apply cons_head in H. symmetry in H. by subst.
      - apply cons_head in H. symmetry in H. by eapply (bucket_not_meta b).
      - apply cons_head in H. symmetry in H. by eapply (bucket_not_part b). }
    assert (Hm : forall b k, ~ T b -> p <> [metadata_name b k]).
    { intros b k Hn ->. destruct Ha as [H|[(b' & q' & H & Hb')|[(b' & k' & H & Hb')|(u & n & H & Hu)]]]; [done|..].
      - apply cons_head in H. eapply (bucket_not_meta b'); [by apply TL|exact H].
      - apply cons_head in H. symmetry in H. apply metadata_name_inj in H as [-> _]. done.
      - apply cons_head in H. by apply part_metadata_neq in H. }
    assert (Hu : forall u n, ~ I u -> p <> [part_name u n]).
    { intros u n Hn ->. destruct Ha as [H|[(b' & q' & H & Hb')|[(b' & k' & H & Hb')|(u' & n' & H & Hu')]]]; [done|..].
      - apply cons_head in H. eapply (bucket_not_part b'); [by apply TL|exact H].
      - apply cons_head in H. symmetry in H. by apply part_metadata_neq in H.
      - apply cons_head in H. symmetry in H. apply part_name_inj in H as [-> _]. done. }
    assert (Ho : forall b k, legal_bucket b -> ~ T b -> tame k -> get_object_path e b k <> Some p).
    { intros b k Hl Hn Hk Hp. destruct (tame_path e b k p Hl Hk Hp) as [q ->]. by eapply Hb. }
    assert (Hbp : forall b q, legal_bucket b -> ~ T b -> get_bucket_path e b = Some q -> ~ q `prefix_of` p).
    { intros b q Hl Hn Hq [rest ->]. rewrite bucket_path in Hq by by apply legal_bucket_segment. injection Hq as <-. by eapply (Hb b rest). }
    destruct r; cbn [spares r_files r_dirs r_rmdirs] in *; try tauto.
    - destruct Hs as [Hl Hn]. split_and!; [tauto| |tauto]. intros _ Hp. by eapply Hbp.
    - destruct Hs as (Hl & Hn & Hk). split_and!; [|tauto|tauto]. rewrite metadata_path. intros [H|[= <-]]; [by eapply Ho|by eapply Hm].
    - destruct Hs as [Hl Hn]. split_and!; [|tauto|]; intros (q & Hq & Hp); by eapply Hbp.
    - destruct Hs as (Hl & Hn & Hk). split_and!; [|tauto|]; by apply Ho.
    - destruct Hs as (Hl & Hn & Hk). split_and!; [|tauto|tauto]. intros (k & Hin & Hp). rewrite Forall_forall in Hk. eapply Ho; eauto.
    - destruct Hs as (Hl & Hn & Hk). split_and!; [| |tauto].
      + rewrite metadata_path. intros [H|[_ [= <-]]]; [by eapply Ho|by eapply Hm].
      + intros Hne (q & Hq & Hp). destruct (tame_path e _ _ _ Hl Hk Hq) as [q' ->]. destruct p as [|x p']; [done|].
        apply prefix_cons_inv_1 in Hp as ->. by eapply Hb.
    - destruct Hs as [Hn Hsl]. split_and!; [|tauto|tauto]. rewrite part_path_eq by done. intros [= <-]. by eapply Hu.
    - destruct Hs as (Hl & Hn & Hk & Hi & Hsl). split_and!; [|tauto|tauto].
      intros [H|(l & n & _ & _ & H)]; [by eapply Ho|]. rewrite part_path_eq in H by done. injection H as <-. by eapply Hu.
  Qed.

  Lemma holds_foreign st s r : holds st s -> spares T I r -> text_req r -> holds st (after e r s).
  Proof.
    intros [Hwf Hti (t & Hp & Ht)] Hs Hr. pose proof (storage_untouched e r s Hwf) as Hu.
    assert (Hwf' : wf (after e r s)) by by apply wf_after.
    assert (Hn : forall p, area p -> fs_nodes (after e r s) !! p = fs_nodes s !! p).
    { intros p Ha. destruct (spared r Hs p Ha) as (H1 & H2 & H3). destruct (decide (p = [])) as [->|Hne].
      - assert (H0 : fs_nodes s !! [] = Some NDir) by (rewrite <- (po_in _ _ _ Hp) by done; apply (tk_root _ _ _ _ Ht)).
        rewrite H0. by apply (un_dir _ _ _ _ _ Hu).
      - apply (un_node _ _ _ _ _ Hu); auto. }
    assert (Hc : forall p, area p -> content (after e r s) p = content s p).
    { intros p Ha. apply (un_content _ _ _ _ _ Hu). by apply (spared r Hs p Ha). }
    assert (Hp' : part_of area (after e r s) (Fs (fs_nodes t) (fs_data (after e r s)) (fs_next (after e r s)))).
    { split; cbn; try done.
      - intros p Ha. rewrite Hn by done. by apply Hp.
      - intros p. apply Hp. }
    split; [done|by apply tidy_after|]. eexists. split; [exact Hp'|].
    apply (tracks_ext st t); [done|by eapply part_wf|done|].
    intros p. unfold content at 1 2. cbn [fs_nodes]. destruct (fs_nodes t !! p) as [[|i]|] eqn:E; try done.
    assert (Ha : area p) by by apply (po_out _ _ _ Hp); rewrite E.
    pose proof (Hc p Ha) as Hcp. unfold content in Hcp. rewrite Hn in Hcp by done. rewrite <- (po_in _ _ _ Hp) in Hcp by done. rewrite E in Hcp.
    injection Hcp as Hcp. f_equal. unfold data_of in *. cbn [fs_data]. rewrite Hcp. by rewrite (po_data _ _ _ Hp).
  Qed.

  Lemma holds_tracks st s : tracks e U st s -> (forall p, is_Some (fs_nodes s !! p) -> area p) -> holds st s.
  Proof.
    intros Ht Ha. split; [apply Ht|apply Ht|]. exists s. split; [|done]. by split.
  Qed.

  Lemma sees_part s t r v : part_of area s t -> (run e (storage e r) t).2 = (run e (storage e r) s).2 -> sees e t r v -> sees e s r v.
  Proof.
    intros Hp Heq. destruct v as [c|a|d md tag]; cbn [sees]; unfold answer; [by rewrite Heq|by rewrite Heq|].
    destruct r; try done. unfold gets, answer. rewrite Heq. intros (h & off & lim & Ha & Hb). exists h, off, lim. split; [done|].
    intros sched Hs. destruct (Hb sched Hs) as [H1 H2].
    replace (get_body s h off lim sched) with (get_body t h off lim sched); [done|].
    destruct h as [q|i]; [done|]. unfold get_body. by rewrite (part_data_of area s t).
  Qed.

  Lemma list_answer st t u b x (v2 : bool) : tracks e U st t -> T b -> wf u -> tidy e u ->
    fs_nodes t !! [b] = Some NDir -> fs_nodes u !! [b] = Some NDir -> (forall q, content u (b :: q) = content t (b :: q)) ->
    exists l, listing st b x l /\
      answer e (if v2 then RListObjectsV2 b x else RListObjects b x) u = Ok (AList b l (if v2 then Some (N.of_nat (length l)) else None)).
  Proof.
    intros Ht Hb Hwf Hti Hd Hd' Hc. pose proof (TL b Hb) as Hlb.
    assert (Hob : forall k p c, located b k p -> content u p = Some c -> objects st !! (b, k) = Some c).
    { intros k p c Hl Hcp. pose proof Hl as (segs & _ & _ & _ & ->). rewrite Hc in Hcp.
      destruct (tk_only _ _ _ _ Ht b segs c Hlb Hcp) as (k' & Hu' & Hl').
      destruct (located_inj _ _ _ _ _ Hl Hl') as [_ <-].
      destruct (tk_object _ _ _ _ Ht _ _ _ Hu' Hl) as [Heq _]. congruence. }
    destruct (C36_listing e u b x v2 Hwf Hti Hlb Hd') as (l & Ha & Hl & Hs).
    { intros q c Hcp. pose proof Hcp as Hcq. rewrite Hc in Hcq. destruct (tk_only _ _ _ _ Ht b q c Hlb Hcq) as (k & Hu & Hl).
      pose proof (Hob k _ c Hl Hcp) as Ho. by apply (tk_names _ _ _ _ Ht _ _ Ho). }
    exists l. split; [|done]. split; [|done]. intros k n. rewrite Hl. split.
    - intros (Hpre & p & c & Hlo & Hcp & ->). split; [done|]. exists c. split; [by eapply Hob|done].
    - intros (Hpre & d & Ho & ->). split; [done|]. destruct (tk_names _ _ _ _ Ht _ _ Ho) as [Hu _]. cbn in Hu.
      destruct (object_node e U HU st t b k Ht Hu) as (p & Hlo & _ & _ & Hcp & _). rewrite Ho in Hcp. exists p, d. split; [done|]. split; [|done].
      pose proof Hlo as (segs & _ & _ & _ & ->). by rewrite Hc.
  Qed.
  Lemma list_same st s t b x v2 : part_of area s t -> tracks e U st t -> T b -> wf s -> tidy e s ->
    answer e (if v2 : bool then RListObjectsV2 b x else RListObjects b x) s = answer e (if v2 then RListObjectsV2 b x else RListObjects b x) t.
  Proof.
    intros Hp Ht Hb Hwf Hti. pose proof (TL b Hb) as Hlb. pose proof (area_bucket b [] Hb) as Ha. pose proof (po_in _ _ _ Hp _ Ha) as Heq.
    destruct (bucket_node e U st t b Ht Hlb) as [(Hin & Hd & Hos)|[Hin Hd]].
    - destruct (list_answer st t s b x v2) as (l & Hl & ->); try done.
      { by rewrite <- Heq. } { intros q. symmetry. apply (part_content area); [done|]. by apply area_bucket. }
      destruct (list_answer st t t b x v2) as (l' & Hl' & ->); try done; [apply Ht|apply Ht|].
      by rewrite (listing_unique _ _ _ _ _ Hl Hl').
    - assert (Hr : forall u, fs_nodes u !! [b] = None -> run e (list_objects e v2 b x) u = (u, Err InternalError)).
      { intros u Hu. unfold list_objects. rewrite bucket_path by by apply legal_bucket_segment. cbn [try_path].
        rewrite run_bind, run_call. cbn [exec]. rewrite run_try_res. cbn [list_queue].
        rewrite run_try_io, run_call. cbn [exec]. unfold is_dir. rewrite Hu, andb_false_r. done. }
      assert (Hs : fs_nodes s !! [b] = None) by congruence.
      unfold answer. destruct v2; cbn [storage]; rewrite !Hr by done; done.
  Qed.

  Lemma deleted_nodes s b : wf s -> tidy e s -> legal_bucket b -> fs_nodes s !! [b] = Some NDir ->
    answer e (RDeleteBucket b) s = Ok ADone /\
    forall p, fs_nodes (after e (RDeleteBucket b) s) !! p = if decide ([b] `prefix_of` p) then None else fs_nodes s !! p.
  Proof.
    intros Hwf Hti Hb Hd. pose proof (C37_delete_succeeds e b s Hwf Hti Hb Hd) as Ha. split; [done|].
    destruct (C37_delete_effect e b s _ Hwf Hb Ha) as (Hh & _ & _ & _).
    assert (Hnb : fs_nodes (after e (RDeleteBucket b) s) !! [b] = None).
    { apply eq_None_not_Some. intros Hs.
      destruct (C37_head_and_location e b (after e (RDeleteBucket b) s) Hb) as [Hy _].
      destruct Hy as [Hy _]; [|by rewrite Hy in Hh]. split; [|done]. by apply Hti; rewrite Hd. }
    assert (wf (after e (RDeleteBucket b) s)) as Hwf' by by apply wf_after.
    pose proof (storage_untouched e (RDeleteBucket b) s Hwf) as Hun.
    intros p. destruct (decide _) as [[q ->]|Hn].
    - apply eq_None_not_Some. intros Hs. destruct q as [|c q]; [by rewrite app_nil_r, Hnb in Hs; destruct Hs|].
      assert (fs_nodes (after e (RDeleteBucket b) s) !! [b] = Some NDir); [|congruence].
      apply (wf_prefix _ ([b] ++ c :: q)); [done|done|by eexists|done].
    - apply (un_node _ _ _ _ _ Hun); cbn.
      + intros (q & Hq & Hp). rewrite bucket_path in Hq by by apply legal_bucket_segment. by injection Hq as <-.
      + tauto.
      + intros (q & Hq & Hp). rewrite bucket_path in Hq by by apply legal_bucket_segment. by injection Hq as <-.
  Qed.

  Lemma holds_own st s r : holds st s -> own T I r -> well_behaved e U st r ->
    exists v st', serves st r v st' /\ sees e s r v /\ holds st' (after e r s).
  Proof.
    intros [Hwf Hti (t & Hp & Ht)] Ho Hw. destruct (step_works e U HU st t r Ht Hw) as (v & st' & Hs & Hv & Ht').
    assert (Hwf' : wf (after e r s)) by by apply wf_after.
    assert (Hti' : tidy e (after e r s)) by (apply tidy_after; [done|]; by eapply (wb_text e U HU)).
    assert (Hgen : match r with RListObjects _ _ | RListObjectsV2 _ _ | RDeleteBucket _ => False | _ => True end ->
      exists v st', serves st r v st' /\ sees e s r v /\ holds st' (after e r s)).
    { intros Hr. destruct (part_run e area area_up (storage e r) s t Hp (stays_storage st r Ho Hw Hr)) as [H1 H2].
      exists v, st'. split; [done|]. split; [by eapply sees_part|]. split; [done|done|]. by exists (after e r t). }
    assert (Hread : after e r s = s -> after e r t = t -> answer e r s = answer e r t ->
      exists v st', serves st r v st' /\ sees e s r v /\ holds st' (after e r s)).
    { intros H1 H2 H3. exists v, st'. split; [done|]. split.
      - eapply sees_part; [done| |exact Hv]. exact (eq_sym H3).
      - rewrite H1. split; [done|done|]. exists t. split; [done|]. by rewrite <- H2. }
    destruct r; try (by apply Hgen).
    - rename bucket into b. cbn [own] in Ho. pose proof (TL b Ho) as Hlb. pose proof (po_in _ _ _ Hp _ (area_bucket b [] Ho)) as Heq.
      destruct (bucket_node e U st t b Ht Hlb) as [(Hin & Hd & Hos)|[Hin Hd]].
      + destruct (deleted_nodes s b Hwf Hti Hlb) as [Ha Hns]; [by rewrite <- Heq|].
        destruct (deleted_nodes t b (tk_wf _ _ _ _ Ht) (tk_tidy _ _ _ _ Ht) Hlb Hd) as [Hat Hnt].
        set (s1 := after e (RDeleteBucket b) s) in *. set (t1 := after e (RDeleteBucket b) t) in *.
        assert (Hp' : part_of area s1 (Fs (fs_nodes t1) (fs_data s1) (fs_next s1))).
        { split; cbn [fs_nodes fs_data fs_next]; try done.
          - intros p Hpa. rewrite Hns, Hnt. destruct (decide _); [done|]. by apply Hp.
          - intros p. rewrite Hnt. destruct (decide _); [by intros []|]. apply Hp. }
        exists v, st'. split; [done|]. split; [eapply sees_part; [done| |exact Hv]; unfold answer in Ha, Hat; by rewrite Ha, Hat|].
        split; [done|done|]. eexists. split; [exact Hp'|].
        apply (tracks_ext st' t1); [done|by eapply part_wf|done|].
        pose proof (storage_untouched e (RDeleteBucket b) s Hwf) as Hu.
        pose proof (storage_untouched e (RDeleteBucket b) t (tk_wf _ _ _ _ Ht)) as Hut. fold s1 in Hu. fold t1 in Hut.
        intros p. destruct (decide ([b] `prefix_of` p)) as [Hpre|Hpre].
        { unfold content. cbn [fs_nodes]. rewrite Hnt, decide_True by done. done. }
        assert (HF : ~ r_files e (RDeleteBucket b) p).
        { cbn. intros (q & Hq & Hpq). rewrite bucket_path in Hq by by apply legal_bucket_segment. by injection Hq as <-. }
        rewrite (un_content _ _ _ _ _ Hut) by done.
        destruct (fs_nodes t !! p) as [x|] eqn:Ex.
        * assert (Hpa : area p) by (apply (po_out _ _ _ Hp); by rewrite Ex).
          rewrite (part_content area s1 _ p Hp' Hpa), (un_content _ _ _ _ _ Hu) by done. symmetry. by apply (part_content area).
        * unfold content. cbn [fs_nodes]. rewrite Hnt, decide_False, Ex by done. done.
      + assert (Hr : forall u, fs_nodes u !! [b] = None -> run e (delete_bucket e b) u = (u, Err InternalError)).
        { intros u Hu. unfold delete_bucket. rewrite bucket_path by by apply legal_bucket_segment. cbn [try_path].
          rewrite run_bind, run_call. cbn [exec]. rewrite run_try_io. cbn [remove_dir_all].
          rewrite run_bind, run_call. cbn [exec]. unfold is_dir. rewrite Hu, andb_false_r. done. }
        assert (Hs0 : fs_nodes s !! [b] = None) by congruence.
        apply Hread; unfold after, answer; cbn [storage]; rewrite ?Hr by done; done.
    - rename bucket into b. apply Hread; [by apply C51_reads_leave_store|by apply C51_reads_leave_store|].
      by apply (list_same st s t b prefix false).
    - rename bucket into b. apply Hread; [by apply C51_reads_leave_store|by apply C51_reads_leave_store|].
      by apply (list_same st s t b prefix true).
  Qed.
End tenants.

Lemma respond_alike op c h h' off off' lim lim' len md tag :
  (exists hs, respond op c (Ok (AGet h off lim len md tag)) = Ok (Response 200 hs (RbFile h off lim)) /\
     respond op c (Ok (AGet h' off' lim' len md tag)) = Ok (Response 200 hs (RbFile h' off' lim'))) \/
  (respond op c (Ok (AGet h off lim len md tag)) = respond op c (Ok (AGet h' off' lim' len md tag)) /\
   forall resp, respond op c (Ok (AGet h off lim len md tag)) = Ok resp -> forall h0 off0 lim0, rs_body resp <> RbFile h0 off0 lim0).
Proof.
  cbn [respond].
  assert (Hw : forall hs, (exists hs', wrap hs 200 (RbFile h off lim) = Ok (Response 200 hs' (RbFile h off lim)) /\
     wrap hs 200 (RbFile h' off' lim') = Ok (Response 200 hs' (RbFile h' off' lim'))) \/
    (exists code, wrap hs 200 (RbFile h off lim) = Err code /\ wrap hs 200 (RbFile h' off' lim') = Err code)).
  { intros [hs|]; [left; by exists hs|right; by eexists]. }
  destruct op; cbn [respond_ok];
    try (right; split; [done|]; intros resp [= <-]; intros h0 off0 lim0; done);
    (match goal with |- context [wrap ?hs 200 (RbFile h off lim)] => destruct (Hw hs) as [H|(code & -> & ->)]; [by left|right; split; [done|by intros resp]] end).
Qed.
Lemma respond_no_file op c a : (forall h off lim len md tag, a <> Ok (AGet h off lim len md tag)) ->
  forall resp, reply_of (respond op c a) = Replied resp -> forall h off lim, rs_body resp <> RbFile h off lim.
Proof.
  intros Ha resp Hr h off lim. destruct a as [a|code]; [|by injection Hr as <-].
  assert (Hw : forall hs st resp, reply_of (wrap hs st RbEmpty) = Replied resp -> rs_body resp <> RbFile h off lim).
  { intros [hs|] st resp'; intros [= <-]; done. }
  cbn [respond] in Hr.
  destruct a; try (by edestruct Ha); destruct op; cbn [respond_ok reply_of] in Hr; try (by injection Hr as <-); try (by eapply Hw).
Qed.

Lemma looks_refl s s' rep : (forall resp, rep = Replied resp -> forall h off lim, rs_body resp <> RbFile h off lim) ->
  looks_same (s, rep) (s', rep).
Proof. intros Hb. destruct rep as [resp|]; [|done]. split; [done|]. split; [done|]. left. split; [done|]. by apply Hb. Qed.

(* The same thing is seen, so the replies look the same. *)
Lemma seen_alike e op c r s s' v : (forall a, v = Answered a -> forall h off lim len md tag, a <> AGet h off lim len md tag) ->
  sees e s r v -> sees e s' r v ->
  looks_same (s, reply_of (respond op c (answer e r s))) (s', reply_of (respond op c (answer e r s'))).
Proof.
  intros Hn H1 H2.
  assert (Heq : answer e r s = answer e r s' -> (forall h off lim len md tag, answer e r s <> Ok (AGet h off lim len md tag)) ->
    looks_same (s, reply_of (respond op c (answer e r s))) (s', reply_of (respond op c (answer e r s')))).
  { intros <- Hno. apply looks_refl. by apply respond_no_file. }
  destruct v as [code|a|d md tag]; cbn [sees] in H1, H2.
  - apply Heq; [congruence|]. intros. by rewrite H1.
  - apply Heq; [congruence|]. intros h off lim len md tag. rewrite H1. intros [= ->]. by eapply Hn.
  - destruct r; try done. destruct H1 as (h & off & lim & H1 & B1), H2 as (h' & off' & lim' & H2 & B2). rewrite H1, H2.
    destruct (respond_alike op c h h' off off' lim lim' (N.of_nat (length d)) md tag) as [(hs & -> & ->)|[Hs Hno]].
    + split; [done|]. split; [done|]. right. exists d. unfold streams. cbn [fst rs_body]. split; [by exists h, off, lim|by exists h', off', lim'].
    + rewrite <- Hs. apply looks_refl. intros resp Hr. destruct (respond op c (Ok (AGet h off lim _ md tag))) as [resp'|code].
      * injection Hr as <-. by apply Hno.
      * injection Hr as <-. done.
Qed.

Lemma served_no_get st r v st' : serves st r v st' -> forall a, v = Answered a -> forall h off lim len md tag, a <> AGet h off lim len md tag.
Proof. intros Hs a ->. inversion Hs; by subst. Qed.

(* Requests of the tenant and of others. *)
Definition neighbours (T I : bytes -> Prop) (mine : received -> bool) (x : received) : Prop :=
  forall r, stands_for x r -> if mine x then own T I r else spares T I r /\ text_req r.

(** C91: a tenant has some buckets and uploads.  Others send any requests that are to write elsewhere, of
    whatever outcome.  If the tenant's own requests are well behaved (C50, C64), the replies to them are those
    the tenant would get if nobody else used the server. *)
Theorem C91_undisturbed e U (T I : bytes -> Prop) mine xs : names_ok e U -> e_os_ok e [] = true ->
  (forall b k, U b k -> T b) -> (forall b, T b -> legal_bucket b) -> (forall u, I u -> "/"%char ∉ u) ->
  Forall (neighbours T I mine) xs ->
  all_well_behaved_received e U nothing_stored (filter (fun x => mine x = true) xs) ->
  Forall2 looks_same (heard e mine empty_store xs)
    (heard e (fun _ => true) empty_store (filter (fun x => mine x = true) xs)).
Proof.
  intros HU Hos UT TL IL Hn Hw.
  assert (Hh : holds e U T I nothing_stored empty_store).
  { apply holds_tracks; [by apply tracks_empty|]. cbn. intros p [x Hx]. destruct (decide (p = [])) as [->|Hp]; [by left|].
    by rewrite lookup_singleton_ne in Hx. }
  assert (Ht : tracks e U nothing_stored empty_store) by by apply tracks_empty.
  revert Hh Ht Hw. generalize empty_store at 1 3 as s. generalize empty_store as t. generalize nothing_stored as st.
  induction Hn as [|x xs Hx _ IH]; intros st t s Hh Ht Hw; [constructor|].
  cbn [heard]. destruct (mine x) eqn:Em.
  - rewrite filter_cons_True in Hw |- * by done. cbn [heard]. apply Forall2_cons.
    apply all_received_cons in Hw as [Hwx Hwxs].
    destruct (stands_for_dec x) as [[r Hr]|Hno].
    + destruct (Hwx r Hr) as [Hwb _]. pose proof (Hx r Hr) as Ho. rewrite Em in Ho.
      destruct (holds_own e U HU T I UT TL IL st s r Hh Ho Hwb) as (v & st1 & Hs & Hv & Hh1).
      destruct (step_works e U HU st t r Ht Hwb) as (v' & st1' & Hs' & Hv' & Ht1).
      destruct (C50_map_deterministic _ _ _ _ _ _ Hs Hs') as [Hvv <-].
      assert (v' = v) as ->. { inversion Hvv; subst; [done|]. inversion Hs; subst. done. }
      pose proof Hr as (op & c & Hf). rewrite !(exchange_call _ _ _ _ _ _ _ Hf). cbn [fst snd]. split.
      * apply seen_alike with (v := v); [by eapply served_no_get|done|done].
      * apply (IH st1); [done|done|]. eapply Hwxs. by apply sr_served.
    + assert (Hrep : exists rep, forall u, exchange e x.1 x.2 u = (u, rep) /\
        match rep with Replied resp => forall h off lim, rs_body resp <> RbFile h off lim | Panicked => True end).
      { unfold exchange, service. unfold stands_for in Hno. destruct (front x.1 x.2) as [code| |op c r].
        - exists (Replied (error_response code)). done.
        - exists Panicked. done.
        - exfalso. eapply Hno. by eexists _, _. }
      destruct Hrep as [rep Hex]. destruct (Hex s) as [Es Hb]. destruct (Hex t) as [Et _]. rewrite Es, Et. cbn [fst snd]. split.
      * apply looks_refl. by intros resp ->.
      * apply (IH st); [done|done|]. eapply Hwxs. by apply sr_rejected.
  - rewrite filter_cons_False in Hw |- * by (by rewrite Em). cbn [app]. apply (IH st); [|done|done].
    destruct (exchange_state e x.1 x.2 s) as [(op & c & r & Hf & ->)|[_ ->]]; [|done].
    assert (Hr : stands_for x r) by (by exists op, c). pose proof (Hx r Hr) as Ho. rewrite Em in Ho.
    destruct Ho. by apply holds_foreign.
Qed.
Print Assumptions C91_undisturbed.

(** ** Example *)

Definition ex_mine (x : received) : bool := starts_with (B "/photos") (rq_path x.2).
Definition ex_shared : list received := map (pair ex_open_server)
  [HttpRequest (B "PUT") (B "/photos/a/cat.jpg") None [(B "x-amz-meta-owner", B "me")] [FData (B "hel"); FData (B "lo")];
   (* an upload that breaks off, a copy of the tenant's object, a folder, nonsense *)
   HttpRequest (B "PUT") (B "/others/big") None [] [FData (B "part"); FErr];
   HttpRequest (B "PUT") (B "/others/copy") None [(B "x-amz-copy-source", B "photos/a/cat.jpg")] [];
   HttpRequest (B "PUT") (B "/others/f/./g") None [] [FData (B "x")];
   HttpRequest (B "GET") (B "/Others") None [] [];
   HttpRequest (B "GET") (B "/photos/a/cat.jpg") None [] [];
   HttpRequest (B "DELETE") (B "/others") None [] [];
   HttpRequest (B "DELETE") (B "/photos/a/cat.jpg") None [] [];
   HttpRequest (B "GET") (B "/photos/a/cat.jpg") None [] []].
Lemma neighbour (T I : bytes -> Prop) (mine : received -> bool) (x : received) op r : called (front x.1 x.2) = Some (op, r) ->
  (if mine x then own T I r else spares T I r /\ text_req r) -> neighbours T I mine x.
Proof.
  intros Hf Hr r' (op' & c' & Hf'). rewrite Hf' in Hf. by injection Hf as -> ->.
Qed.
Lemma neighbour_refused (T I : bytes -> Prop) mine (x : received) : called (front x.1 x.2) = None -> neighbours T I mine x.
Proof. intros Hf r' (op' & c' & Hf'). by rewrite Hf' in Hf. Qed.
Lemma legal_others : legal_bucket (B "others").
Proof. apply check_bucket_name_spec. by vm_compute. Qed.
Lemma tame_segments segs : segs <> [] -> forallb (fun c => negb (bool_decide ("/"%char ∈ c)) && negb (bool_decide (c = B ".."))) segs = true ->
  starts_with (B "/") (slashed segs) = false -> tame (slashed segs).
Proof.
  intros Hne Hs Hl. rewrite forallb_forall in Hs. exists segs. split; [done|]. split; [|split; [|split; [done|]]].
  - apply Forall_forall. intros c Hc%elem_of_list_In. specialize (Hs c Hc). by case_bool_decide.
  - intros Hc%elem_of_list_In. specialize (Hs _ Hc). by rewrite andb_false_r in Hs.
  - intros r Hr. rewrite Hr in Hl. done.
Qed.
Example C91_ex :
  Forall (neighbours (eq (B "photos")) (fun _ => False) ex_mine) ex_shared /\
  all_well_behaved_received ex_env ex_names nothing_stored (filter (fun x => ex_mine x = true) ex_shared) /\
  length (heard ex_env ex_mine empty_store ex_shared) = 4.
Proof.
  split; [|split].
  - unfold ex_shared. cbn [map].
    assert (Hno : B "photos" <> B "others") by done.
    repeat (apply Forall_cons; split); [..|apply Forall_nil_2].
    all: try (apply neighbour_refused; by vm_compute).
    all: try (eapply neighbour; [vm_compute; reflexivity|]; vm_compute (ex_mine _); cbn [own]; done).
    + eapply neighbour; [vm_compute; reflexivity|]. vm_compute (ex_mine _). split; [|done]. split; [apply legal_others|]. split; [done|].
      apply (tame_segments [B "big"]); done.
    + eapply neighbour; [vm_compute; reflexivity|]. vm_compute (ex_mine _). split; [|done]. split; [apply legal_others|]. split; [done|].
      apply (tame_segments [B "copy"]); done.
    + eapply neighbour; [vm_compute; reflexivity|]. vm_compute (ex_mine _). split; [|done]. split; [apply legal_others|]. split; [done|].
      apply (tame_segments [B "f"; B "."; B "g"]); done.
    + eapply neighbour; [vm_compute; reflexivity|]. vm_compute (ex_mine _). split; [|done]. split; [apply legal_others|done].
  - replace (filter _ ex_shared) with (map (pair ex_open_server)
      [HttpRequest (B "PUT") (B "/photos/a/cat.jpg") None [(B "x-amz-meta-owner", B "me")] [FData (B "hel"); FData (B "lo")];
       HttpRequest (B "GET") (B "/photos/a/cat.jpg") None [] [];
       HttpRequest (B "DELETE") (B "/photos/a/cat.jpg") None [] [];
       HttpRequest (B "GET") (B "/photos/a/cat.jpg") None [] []]) by done.
    cbn [map].
    eapply received_all_next; [vm_compute; reflexivity| | |apply sv_put; left|].
    { split; [split; [done|left]|]. split; [intros m [= <-]; split; compute_done|]. intros fs [= <-]. done. }
    { intros b k c len m body [= <- <- <- <- <- <-] n v [-> ->]%elem_of_list_singleton%pair_equal_spec.
      split; [done|]. split; apply Forall_forall; [compute_done|]. repeat (apply Forall_cons; split); try done; by left. }
    eapply received_all_next; [vm_compute; reflexivity|split; [by split; [done|left]|done]|done|apply sv_get; vm_compute; reflexivity|].
    eapply received_all_next; [vm_compute; reflexivity|by split; [done|left]|done|apply sv_delete; eexists; vm_compute; reflexivity|].
    eapply received_all_next; [vm_compute; reflexivity|split; [by split; [done|left]|done]|done|apply sv_get_none; vm_compute; reflexivity|].
    apply received_all_nil.
  - vm_compute. reflexivity.
Qed.

(* The list of all buckets is the exception: it shows the buckets of everyone. *)
Example C91_ex_bucket_list :
  let list_ := HttpRequest (B "GET") (B "/") None [] [] in
  let others := HttpRequest (B "PUT") (B "/others") None [] [] in
  (exchange ex_env ex_open_server list_ empty_store).2 <>
  (exchange ex_env ex_open_server list_ (exchange ex_env ex_open_server others empty_store).1).2.
Proof. vm_compute. discriminate. Qed.
