(** C94: every request makes a bounded number of file-system calls. *)
From Verif Require Import M_Base M_Path M_Headers M_Chunked M_BytesStream M_Crypto M_Fs M_Json M_Utf8 M_Storage
  S_Path S_Headers S_Chunked S_Storage S_Store
  L_Base L_Path L_Fs L_Storage L_Scope L_Names L_Ops L_Results L_Tidy T_Store T_Listing T_Buckets.

Local Opaque md5 etag_of json_decode json_encode metadata_name part_name.

(** ** What the theorem says *)

(* What is noted of a call: the path it is about, or [None] if it is about an open file.  Not noted is the reading and
   writing of data, as the number of such calls depends on how much data there is; [CCount] and [CBound] are not calls of the
   program, they give the model bounds for its loops. *)
Definition noted_call {R} (c : syscall R) : list (option path) :=
  match c with
  | CExists p | CStat p | COpen p | CCreate p | CMkdir p | CUnlink p | CRmdir p | CReadDir p => [Some p]
  | CLen _ => [None]
  | CRead _ _ | CWrite _ _ _ | CCount | CBound _ => []
  end.
Definition noted {A} (m : prog A) : list (option path) :=
  match m with Ret _ => [] | Do c _ => noted_call c end.

(* Executions of several tasks, calls may fail; the task [i] makes the calls [l]. *)
Inductive progress (e : env) {A} (i : nat) : list (option path) -> fs -> list (prog A) -> fs -> list (prog A) -> Prop :=
| progress_refl s ms : progress e i [] s ms s ms
| progress_own s ms m s1 m1 l s2 ms2 : ms !! i = Some m -> step e s m s1 m1 -> progress e i l s1 (<[i := m1]> ms) s2 ms2 ->
    progress e i (noted m ++ l) s ms s2 ms2
| progress_other s ms j m s1 m1 l s2 ms2 : j <> i -> ms !! j = Some m -> step e s m s1 m1 -> progress e i l s1 (<[j := m1]> ms) s2 ms2 ->
    progress e i l s ms s2 ms2.

Definition slashes (x : bytes) : nat := length (filter (eq "/"%char) x).

(* The number of calls of a request; listings and the deletion of a bucket are not among them. *)
Definition call_bound (r : s_req) : option nat :=
  match r with
  | RCreateBucket _ => Some 2
  | RCopyObject _ _ _ => Some 7
  | RDeleteObject _ _ => Some 2
  | RDeleteObjects _ ks => Some (2 * length ks)
  | RGetBucketLocation _ | RHeadBucket _ => Some 1
  | RGetObject _ _ _ => Some 6
  | RHeadObject _ _ => Some 4
  | RPutObject b k _ _ _ _ => Some (8 + 3 * (slashes b + slashes k))
  | RCreateMultipartUpload _ _ _ => Some 0
  | RUploadPart _ _ _ => Some 1
  | RCompleteMultipartUpload _ _ _ ps => Some (3 + 2 * length (default [] ps))
  | RDeleteBucket _ | RListBuckets | RListObjects _ _ | RListObjectsV2 _ _ => None
  end.

(** ** Bounds for programs *)

Fixpoint within {A} (n : nat) (m : prog A) {struct m} : Prop :=
  match m with
  | Ret _ => True
  | Do c k =>
      match c in syscall R return (R -> prog A) -> Prop with
      | CRead _ _ | CWrite _ _ _ | CCount | CBound _ => fun k => forall r, within n (k r)
      | _ => fun k => match n with O => False | S n' => forall r, within n' (k r) end
      end k
  end.

Lemma within_le {A} (m : prog A) : forall n n', n <= n' -> within n m -> within n' m.
Proof.
  induction m as [a|R c k IH]; intros n n' Hn; [done|].
  destruct c; cbn [within]; try (destruct n as [|n]; [done|]; destruct n' as [|n']; [lia|]); intros H r; (eapply IH; [|apply H]); lia.
Qed.
Lemma within_bind {A C} (m : prog A) (f : A -> prog C) : forall n n', within n m -> (forall a, within n' (f a)) -> within (n + n') (bind m f).
Proof.
  induction m as [a|R c k IH]; intros n n'; cbn [bind].
  - intros _ H. eapply within_le; [|apply H]. lia.
  - destruct c; cbn [within]; try (destruct n as [|n]; [done|]; cbn [Nat.add]); intros Hk Hf r; by apply IH.
Qed.
Lemma within_step e {A} s (m : prog A) s' m' n : step e s m s' m' -> within n m -> length (noted m) <= n /\ within (n - length (noted m)) m'.
Proof.
  destruct m as [a|R c k]; [done|]. intros Hst Hw.
  assert (exists r, m' = k r) as [r ->].
  { cbn [step] in Hst. destruct (exec e c s) as [s1 r]. destruct Hst as [[= _ ->]|[= _ ->]]; eauto. }
  clear Hst. destruct c; cbn [within noted noted_call length] in *; try (destruct n as [|n]; [done|]);
    (split; [lia|]); rewrite ?Nat.sub_0_r; try (replace (S n - 1) with n by lia); apply Hw.
Qed.
Lemma within_progress e {A} i l s (ms : list (prog A)) s' ms' m b : progress e i l s ms s' ms' -> ms !! i = Some m -> within b m -> length l <= b.
Proof.
  intros Hp. revert m b. induction Hp as [|s ms m s1 m1 l s2 ms2 Hm Hst _ IH|s ms j m s1 m1 l s2 ms2 Hj Hm Hst _ IH]; intros m' b Hm' Hb; [cbn; lia| |].
  - assert (m' = m) as -> by congruence. destruct (within_step e s m s1 m1 b Hst Hb) as [H1 H2].
    assert (length l <= b - length (noted m)); [|rewrite app_length; lia]. eapply IH; [|exact H2]. apply list_lookup_insert. by eapply lookup_lt_Some.
  - eapply IH; [|done]. by rewrite list_lookup_insert_ne.
Qed.

Lemma within_try_path {A} n o (k : path -> prog (sres A)) : (forall p, o = Some p -> within n (k p)) -> within n (try_path o k).
Proof. destruct o; [by intros H; apply H|done]. Qed.
Lemma within_try_io {A C} n n' (m : prog (option A)) (k : A -> prog (sres C)) : within n m -> (forall a, within n' (k a)) -> within (n + n') (try_io m k).
Proof. intros Hm Hk. apply within_bind; [done|]. by intros [a|]. Qed.
Lemma within_try_res {A C} n n' (m : prog (sres A)) (k : A -> prog (sres C)) : within n m -> (forall a, within n' (k a)) -> within (n + n') (try_res m k).
Proof. intros Hm Hk. apply within_bind; [done|]. by intros [a|]. Qed.

Lemma within_create_dir_all_rev rp : within (2 + 3 * length rp) (create_dir_all_rev rp).
Proof.
  assert (Hd : forall p, within 1 (bind (call (CStat p)) (fun st => match st with Some (true, _) => Ret (Some tt) | _ => Ret None end))).
  { intros p. cbn. by intros [[[] ?]|]. }
  induction rp as [|c rp IH]; cbn [create_dir_all_rev].
  - apply (within_bind (call _) _ 1 1); [done|]. intros []; [done|done|apply Hd].
  - replace (2 + 3 * length (c :: rp)) with (1 + ((2 + 3 * length rp) + (1 + 1))) by (cbn [length]; lia).
    apply within_bind; [done|]. intros []; [done| |eapply within_le; [|apply Hd]; lia].
    apply within_bind; [done|]. intros [u|]; [|done]. apply within_bind; [done|]. intros []; [done|apply Hd..].
Qed.
Lemma within_create_dir_all p : within (2 + 3 * length p) (create_dir_all p).
Proof. unfold create_dir_all. rewrite <- rev_length. apply within_create_dir_all_rev. Qed.
Lemma within_write_pieces i off ps : within 0 (write_pieces i off ps).
Proof. revert off. induction ps as [|b ps IH]; intros off; cbn; [done|]. intros [u|]; [apply IH|done]. Qed.
Lemma within_copy_bytes e i off body : within 0 (copy_bytes e i off body).
Proof.
  revert off. induction body as [|[b|] body IH]; intros off; cbn [copy_bytes]; [done| |done].
  apply (within_bind _ _ 0 0); [apply within_write_pieces|]. by intros [|].
Qed.
Lemma within_read_rest n : forall h off, within 0 (read_rest n h off).
Proof.
  induction n as [|n IH]; intros h off; cbn [read_rest]; [done|]. apply (within_bind (call _) _ 0 0); [done|]. intros [[|c b]|]; try done.
  apply (within_bind _ _ 0 0); [apply IH|]. by intros [d|].
Qed.
Lemma within_read_file p : within 1 (read_file p).
Proof.
  unfold read_file. apply (within_bind (call _) _ 1 0); [done|]. intros [h|]; [|done].
  apply (within_bind (call _) _ 0 0); [done|]. intros n. apply within_read_rest.
Qed.
Lemma within_transfer e n h i : forall roff woff, within 0 (transfer e n h roff i woff).
Proof.
  induction n as [|n IH]; intros roff woff; cbn [transfer]; [done|]. apply (within_bind (call _) _ 0 0); [done|]. intros [[|c b]|]; try done.
  apply (within_bind _ _ 0 0); [apply within_write_pieces|]. by intros [w|].
Qed.
Lemma within_append_file e p i off : within 1 (append_file e p i off).
Proof.
  unfold append_file. apply (within_bind (call _) _ 1 0); [done|]. intros [h|]; [|done].
  apply (within_bind (call _) _ 0 0); [done|]. intros n. apply within_transfer.
Qed.
Lemma within_write_file e p b : within 1 (write_file e p b).
Proof.
  unfold write_file. apply (within_bind (call _) _ 1 0); [done|]. intros [i|]; [|done].
  apply (within_bind _ _ 0 0); [apply within_write_pieces|]. by intros [|].
Qed.
Lemma within_load_metadata e b k : within 2 (load_metadata e b k).
Proof.
  unfold load_metadata. destruct (get_metadata_path e b k); [|done]. apply (within_bind (call _) _ 1 1); [done|]. intros []; [|done].
  apply (within_bind _ _ 1 0); [apply within_read_file|]. intros [c|]; [|done]. by destruct (json_decode c).
Qed.
Lemma within_save_metadata e b k m : within 1 (save_metadata e b k m).
Proof. unfold save_metadata. destruct (get_metadata_path e b k); [apply within_write_file|done]. Qed.
Lemma within_get_md5_sum e b k : within 1 (get_md5_sum e b k).
Proof.
  unfold get_md5_sum. destruct (get_object_path e b k); [|done]. apply (within_bind _ _ 1 0); [apply within_read_file|]. by intros [|].
Qed.
Lemma within_copy_file e p q : within 2 (copy_file e p q).
Proof.
  unfold copy_file. apply (within_bind (call _) _ 1 1); [done|]. intros [[d|i]|]; [done| |done].
  apply (within_bind (call _) _ 1 0); [done|]. intros [j|]; [|done]. apply (within_bind (call _) _ 0 0); [done|]. intros n.
  apply (within_bind _ _ 0 0); [apply within_transfer|]. by intros [|].
Qed.
Lemma within_existing e b ks : within (length ks) (existing_objects e b ks).
Proof.
  induction ks as [|k ks IH]; cbn [existing_objects length]; [done|]. apply within_try_path. intros p _.
  apply (within_bind (call _) _ 1); [done|]. intros ex. rewrite <- (Nat.add_0_r (length ks)). by apply within_try_res.
Qed.
Lemma within_remove_objects l : within (length l) (remove_objects l).
Proof.
  induction l as [|[p k] l IH]; cbn [remove_objects length]; [done|]. apply (within_try_io 1); [done|]. intros u.
  rewrite <- (Nat.add_0_r (length l)). by apply within_try_res.
Qed.
Lemma within_append_parts e u i ps : forall off cnt, within (2 * length ps) (append_parts e u i off cnt ps).
Proof.
  induction ps as [|[n|] ps IH]; intros off cnt; cbn [append_parts]; [done| |done]. destruct (negb _); [done|].
  apply within_try_path. intros p _. replace (2 * length (Some n :: ps)) with (1 + (1 + 2 * length ps)) by (cbn [length]; lia).
  apply within_try_io; [apply within_append_file|]. intros off'.
  apply within_try_io; [done|]. intros _. apply IH.
Qed.

(** ** Depth of paths *)

Lemma split_all_length x : length (split_all "/" x) = S (slashes x).
Proof.
  unfold slashes. induction x as [|a x IH]; [done|]. cbn [split_all]. rewrite filter_cons. destruct (aeq a "/") eqn:E.
  - apply aeq_true in E as ->. rewrite decide_True by done. cbn [length]. by rewrite IH.
  - rewrite decide_False by (intros <-; by rewrite aeq_refl in E). destruct (split_all "/" x); [done|]. exact IH.
Qed.
Lemma normalize_length x : length (normalize x) <= S (slashes x).
Proof.
  unfold normalize. rewrite <- split_all_length. generalize (split_all "/" x). intros l.
  assert (H : forall acc, length (fold_left push_component l acc) <= length acc + length l); [|apply (H [])].
  induction l as [|c l IH]; intros acc; cbn [fold_left length]; [lia|]. etrans; [apply IH|]. unfold push_component.
  destruct (_ || _); [lia|]. destruct (beq c _); [|rewrite app_length; cbn; lia].
  assert (length (removelast acc) <= length acc); [|lia]. rewrite removelast_firstn_len, firstn_length. lia.
Qed.
Lemma slashes_app x y : slashes (x ++ y) = slashes x + slashes y.
Proof. unfold slashes. by rewrite filter_app, app_length. Qed.
Lemma absolutize_length e x p : absolutize e x = Some p -> length p <= S (slashes x).
Proof.
  unfold absolutize. intros H. etrans; [|apply normalize_length]. destruct (starts_with _ _); [|by injection H as <-].
  apply below_Some in H. rewrite H, app_length. lia.
Qed.
Lemma object_path_length e b k p : get_object_path e b k = Some p -> length p <= 2 + (slashes b + slashes k).
Proof.
  unfold get_object_path, join_path. intros H%absolutize_length. etrans; [done|]. destruct (starts_with _ _); [lia|].
  rewrite !slashes_app. change (slashes (B "/")) with 1. lia.
Qed.

(** ** Bounds for requests *)

(* As [within], with [w a] calls left at the end. *)
Fixpoint spends {A} (w : A -> nat) (n : nat) (m : prog A) {struct m} : Prop :=
  match m with
  | Ret a => w a <= n
  | Do c k =>
      match c in syscall R return (R -> prog A) -> Prop with
      | CRead _ _ | CWrite _ _ _ | CCount | CBound _ => fun k => forall r, spends w n (k r)
      | _ => fun k => match n with O => False | S n' => forall r, spends w n' (k r) end
      end k
  end.
Lemma spends_bind {A C} (w : A -> nat) (m : prog A) (f : A -> prog C) : forall n, spends w n m -> (forall a, within (w a) (f a)) -> within n (bind m f).
Proof.
  induction m as [a|R c k IH]; intros n; cbn [bind].
  - intros H Hf. eapply within_le; [|apply Hf]. done.
  - destruct c; cbn [within spends]; try (destruct n as [|n]; [done|]); intros Hk Hf r; by apply IH.
Qed.
Lemma spends_bind_spends {A C} (w : A -> nat) (w' : C -> nat) (m : prog A) (f : A -> prog C) : forall n n', spends w n m ->
  (forall a n1, w a <= n1 -> spends w' (n1 + n') (f a)) -> spends w' (n + n') (bind m f).
Proof.
  induction m as [a|R c k IH]; intros n n'; cbn [bind].
  - cbn. intros H Hf. by apply Hf.
  - destruct c; cbn [spends]; try (destruct n as [|n]; [done|]; cbn [Nat.add]); intros Hk Hf r; by apply IH.
Qed.
Definition found (r : sres (list (path * bytes))) : nat := match r with Ok l => length l | Err _ => 0 end.
Lemma spends_existing e b ks : spends found (2 * length ks) (existing_objects e b ks).
Proof.
  induction ks as [|k ks IH]; cbn [existing_objects]; [cbn; lia|]. destruct (get_object_path e b k) as [p|]; cbn [try_path]; [|cbn; lia].
  replace (2 * length (k :: ks)) with (S (2 * length ks + 1)) by (cbn [length]; lia). cbn [bind call spends]. intros ex. unfold try_res.
  eapply (spends_bind_spends found); [done|]. intros [l|] n1; cbn [found]; [|cbn; lia]. destruct ex; cbn; lia.
Qed.

Lemma within_storage e r n : call_bound r = Some n -> within n (storage e r).
Proof.
  destruct r; cbn [call_bound storage]; intros [= <-].
  - unfold create_bucket. apply within_try_path. intros p _. apply (within_bind (call _) _ 1 1); [done|]. intros []; [done|].
    apply (within_bind (call _) _ 1 0); [done|]. by intros [].
  - unfold copy_object. destruct (copy_source_from_header_str _) as [[sb sk]|]; [|done].
    apply within_try_path. intros src _. apply within_try_path. intros dst _. apply (within_try_io 1 6); [done|]. intros _.
    apply (within_try_io 2 4); [apply within_copy_file|]. intros _. apply within_try_path. intros md _.
    apply (within_bind (call _) _ 1 3); [done|]. intros ex. apply (within_try_io 2 1).
    + destruct ex; [|done]. destruct (get_metadata_path _ _ _); [apply within_copy_file|done].
    + intros _. apply (within_try_io 1 0); [apply within_get_md5_sum|done].
  - unfold delete_object. apply within_try_path. intros p _. destruct (ends_with_char _ _).
    + apply (within_try_io 1 1); [done|]. intros [|]; [|done]. by apply (within_try_io 1 0).
    + eapply within_le; [|apply (within_try_io 1 0)]; [lia|done|done].
  - unfold delete_objects, try_res at 1. eapply spends_bind; [apply spends_existing|]. intros [l|]; [|done]. cbn [found].
    rewrite <- (Nat.add_0_r (length l)). apply within_try_res; [apply within_remove_objects|done].
  - unfold get_bucket_location. apply within_try_path. intros p _. by apply (within_bind (call _) _ 1 0).
  - unfold get_object. apply within_try_path. intros p _.
    assert (Hgo : forall rg, within 6 (bind (call (COpen p)) (fun o => match o with
        | None => Ret (Err NoSuchKey)
        | Some h =>
            try_io (call (CLen h)) (fun file_len =>
            try_res (get_extent h rg file_len) (fun ol =>
            try_io (load_metadata e bucket key) (fun md =>
            try_io (get_md5_sum e bucket key) (fun tag =>
              if (ol.2 <=? i64_max)%N then Ret (Ok (AGet h ol.1 ol.2 ol.2 md tag)) else Ret (Err InternalError)))))
        end))).
    { intros rg. apply (within_bind (call _) _ 1 5); [done|]. intros [h|]; [|done]. apply (within_try_io 1 4); [done|]. intros len.
      apply (within_try_res 1 3).
      - unfold get_extent. destruct rg as [[f l|l]|]; [by destruct (_ <=? _)%N| |done]. destruct (_ && _); [|done].
        apply (within_try_io 1 0); [done|]. intros x. by destruct (_ <=? _)%N.
      - intros ol. apply (within_try_io 2 1); [apply within_load_metadata|]. intros md. apply (within_try_io 1 0); [apply within_get_md5_sum|].
        intros tag. by destruct (_ <=? _)%N. }
    destruct range as [str|]; [|apply Hgo]. destruct (range_from_header_str str); [apply Hgo|done].
  - unfold head_bucket. apply within_try_path. intros p _. by apply (within_bind (call _) _ 1 0).
  - unfold head_object. apply within_try_path. intros p _. apply (within_bind (call _) _ 1 3); [done|]. intros []; [|done].
    apply (within_try_io 1 2); [done|]. intros st. apply (within_try_io 2 0); [apply within_load_metadata|]. intros md. by destruct (_ <=? _)%N.
  - unfold put_object. destruct (negb _); [done|]. destruct body as [body|]; [|done]. destruct (ends_with_char _ _).
    + destruct (bool_decide _); [|done]. apply within_try_path. intros p Hp%object_path_length.
      eapply within_le; [|apply (within_try_io (2 + 3 * length p) 0); [apply within_create_dir_all|done]]. lia.
    + apply within_try_path. intros p Hp%object_path_length. remember (slashes bucket + slashes key) as n.
      apply (within_le _ ((6 + 3 * n) + 2)); [cbn; lia|]. apply (within_try_io (6 + 3 * n) 2).
      { destruct (parent p) as [[dir c]|] eqn:Epar; [|done]. eapply within_le; [|apply within_create_dir_all].
        apply parent_Some in Epar as ->. rewrite app_length in Hp. cbn in Hp. lia. }
      intros _. apply (within_try_io 1 1); [done|]. intros i. apply (within_try_io 0 1); [apply within_copy_bytes|]. intros _.
      apply (within_try_io 1 0); [|done]. destruct md; [apply within_save_metadata|done].
  - done.
  - unfold upload_part. destruct body as [body|]; [|done]. apply within_try_path. intros p _. apply (within_try_io 1 0); [done|]. intros i.
    apply (within_try_io 0 0); [apply within_copy_bytes|done].
  - unfold complete_multipart_upload. destruct parts as [ps|]; [|done]. cbn [default]. apply within_try_path. intros p _.
    change (id ps) with ps. apply (within_le _ (1 + (2 * length ps + 2))); [cbn; lia|].
    apply (within_try_io 1 (2 * length ps + 2)); [done|]. intros i. apply (within_try_res (2 * length ps) 2); [apply within_append_parts|].
    intros _. apply (within_try_io 1 1); [done|]. intros _. apply (within_try_io 1 0); [apply within_get_md5_sum|done].
Qed.

(** Whatever other tasks do at the same time and whichever calls fail, a request makes no more calls than this. *)
Theorem C94_bounded e (i : nat) l s (ms : list (prog (sres s_ans))) s' ms' r n :
  progress e i l s ms s' ms' -> ms !! i = Some (storage e r) -> call_bound r = Some n -> length l <= n.
Proof. intros Hp Hi Hn. eapply within_progress; [done..|]. by apply within_storage. Qed.
Print Assumptions C94_bounded.

(** ** Listings and the deletion of buckets *)

Definition possible (e : env) {R} (c : syscall R) (r : R) : Prop := (exists s, r = (exec e c s).2) \/ r = fail_of c.

(* The calls a program may have made so far, and those of complete executions. *)
Fixpoint notes (e : env) {A} (m : prog A) (l : list (option path)) {struct m} : Prop :=
  match m with
  | Ret _ => l = []
  | Do c k => l = [] \/ exists r l', possible e c r /\ notes e (k r) l' /\ l = noted_call c ++ l'
  end.
Fixpoint finished (e : env) {A} (m : prog A) (l : list (option path)) (a : A) {struct m} : Prop :=
  match m with
  | Ret a' => l = [] /\ a' = a
  | Do c k => exists r l', possible e c r /\ finished e (k r) l' a /\ l = noted_call c ++ l'
  end.

Lemma notes_nil e {A} (m : prog A) : notes e m [].
Proof. destruct m; [done|by left]. Qed.
Lemma finished_notes e {A} (m : prog A) a : forall l, finished e m l a -> notes e m l.
Proof.
  induction m as [b|R c k IH]; intros l; cbn.
  - by intros [-> _].
  - intros (r & l' & Hr & Hk & ->). right. exists r, l'. auto.
Qed.
Lemma notes_bind e {A C} (m : prog A) (f : A -> prog C) : forall l, notes e (bind m f) l ->
  notes e m l \/ exists l1 l2 a, finished e m l1 a /\ notes e (f a) l2 /\ l = l1 ++ l2.
Proof.
  induction m as [b|R c k IH]; intros l; cbn [bind notes finished].
  - intros H. right. exists [], l, b. done.
  - intros [->|(r & l' & Hr & Hk & ->)]; [by left; left|]. apply IH in Hk as [Hk|(l1 & l2 & a & H1 & H2 & ->)].
    + left. right. eauto.
    + right. exists (noted_call c ++ l1), l2, a. split; [by exists r, l1|]. split; [done|]. by rewrite app_assoc.
Qed.
Lemma finished_bind e {A C} (m : prog A) (f : A -> prog C) x : forall l, finished e (bind m f) l x ->
  exists l1 l2 a, finished e m l1 a /\ finished e (f a) l2 x /\ l = l1 ++ l2.
Proof.
  induction m as [b|R c k IH]; intros l; cbn [bind finished].
  - intros H. exists [], l, b. done.
  - intros (r & l' & Hr & Hk & ->). apply IH in Hk as (l1 & l2 & a & H1 & H2 & ->).
    exists (noted_call c ++ l1), l2, a. split; [by exists r, l1|]. split; [done|]. by rewrite app_assoc.
Qed.
Lemma progress_notes e {A} i l s (ms : list (prog A)) s' ms' m : progress e i l s ms s' ms' -> ms !! i = Some m -> notes e m l.
Proof.
  intros Hp. revert m. induction Hp as [|s ms m s1 m1 l s2 ms2 Hm Hst _ IH|s ms j m s1 m1 l s2 ms2 Hj Hm Hst _ IH]; intros m' Hm'.
  - apply notes_nil.
  - assert (m' = m) as -> by congruence. specialize (IH m1). rewrite list_lookup_insert in IH by by eapply lookup_lt_Some.
    destruct m as [a|R c k]; [done|]. cbn [step] in Hst. right.
    assert (exists r, possible e c r /\ m1 = k r) as (r & Hr & ->).
    { destruct Hst as [Hst|Hst].
      - exists (exec e c s).2. split; [left; by eexists|]. destruct (exec e c s). by injection Hst.
      - exists (fail_of c). split; [by right|]. by injection Hst. }
    exists r, l. split; [done|]. split; [by apply IH|done].
  - eapply IH. by rewrite list_lookup_insert_ne.
Qed.

(* A directory does not have two entries of the same name. *)
Lemma possible_entries e p es : possible e (CReadDir p) (Some es) -> NoDup (map fst es).
Proof.
  intros [[s Hs]|Hs]; [|done]. cbn [exec snd] in Hs. destruct (_ && _); [|done]. cbn [snd] in Hs. injection Hs as ->. rewrite map_map. cbn [fst].
  rewrite map_id, e_order_perm. apply NoDup_child_names.
Qed.

Definition below_any (queue : list path) (o : option path) : Prop := exists p q, o = Some p /\ q ∈ queue /\ q `prefix_of` p.

(* The files of a directory that are looked at, and the directories that are put into the queue. *)
Definition file_names (es : list (bytes * bool)) : list bytes := map fst (filter (fun x => x.2 = false) es).
Definition dir_names (es : list (bytes * bool)) : list bytes := map fst (filter (fun x => x.2 = true) es).
Lemma notes_list_entries e root pf dir es : forall l, notes e (list_entries root pf dir es) l ->
  exists cs, l = map (fun c => Some (dir ++ [c])) cs /\ cs `sublist_of` file_names es.
Proof.
  induction es as [|[c d] es IH]; intros l; cbn [list_entries].
  { intros ->. by exists []. }
  assert (Htail : forall (f : list path * list (bytes * N) -> list path * list (bytes * N)) l', notes e (try_res (list_entries root pf dir es) (fun r => Ret (Ok (f r)))) l' ->
    exists cs, l' = map (fun c => Some (dir ++ [c])) cs /\ cs `sublist_of` file_names es).
  { intros f l' [H|(l1 & l2 & a & H1 & H2 & ->)]%notes_bind; [by apply IH|]. apply finished_notes, IH in H1.
    assert (l2 = []) as -> by by destruct a. by rewrite app_nil_r. }
  unfold file_names. rewrite filter_cons. destruct d.
  - rewrite decide_False by done. apply (Htail (fun r => ((dir ++ [c]) :: r.1, r.2))).
  - rewrite decide_True by done. cbn [map fst]. fold (file_names es). intros H.
    assert (Hskip : forall l', (exists cs, l' = map (fun c => Some (dir ++ [c])) cs /\ cs `sublist_of` file_names es) ->
      exists cs, l' = map (fun c => Some (dir ++ [c])) cs /\ cs `sublist_of` c :: file_names es).
    { intros l' (cs & -> & Hcs). exists cs. split; [done|]. by constructor. }
    destruct (key_text root (dir ++ [c])) as [key|]; [|apply Hskip; cbn in H; subst; exists []; split; [done|apply sublist_nil_l]].
    destruct (match pf with Some x => starts_with x key | None => true end); [|by apply Hskip, IH].
    cbn [try_io bind call notes] in H. destruct H as [->|(r & l' & _ & H & ->)]; [exists []; split; [done|apply sublist_nil_l]|].
    assert (exists cs, l' = map (fun c => Some (dir ++ [c])) cs /\ cs `sublist_of` file_names es) as (cs & -> & Hcs).
    { destruct r as [st|]; [|cbn in H; subst; exists []; split; [done|apply sublist_nil_l]].
      destruct (_ <=? _)%N; [|cbn in H; subst; exists []; split; [done|apply sublist_nil_l]].
      by apply (Htail (fun r => (r.1, (key, st.2) :: r.2))). }
    exists (c :: cs). split; [done|]. by constructor.
Qed.
Lemma finished_list_entries e root pf dir es : forall l ds objs, finished e (list_entries root pf dir es) l (Ok (ds, objs)) ->
  ds = map (fun c => dir ++ [c]) (dir_names es).
Proof.
  induction es as [|[c d] es IH]; intros l ds objs; cbn [list_entries].
  { by intros [_ [= <- _]]. }
  unfold dir_names. rewrite filter_cons. destruct d.
  - rewrite decide_True by done. cbn [map fst]. intros (l1 & l2 & [[ds' objs']|] & H1 & [_ H2] & _)%finished_bind; [|done].
    injection H2 as <- _. cbn [fst]. f_equal. by eapply IH.
  - rewrite decide_False by done. destruct (key_text root (dir ++ [c])) as [key|]; [|by intros [_ ?]].
    destruct (match pf with Some x => starts_with x key | None => true end); [|by apply IH].
    cbn [try_io bind call finished]. intros ([st|] & l' & _ & H & _); [|by destruct H]. destruct (_ <=? _)%N; [|by destruct H].
    apply finished_bind in H as (l1 & l2 & [[ds' objs']|] & H1 & [_ H2] & _); [|done]. injection H2 as <- _. by eapply IH.
Qed.

Lemma elem_file_names c es : c ∈ file_names es <-> (c, false) ∈ es.
Proof.
  unfold file_names. rewrite elem_of_list_fmap. split.
  - intros ([c' d] & -> & [Hd H]%elem_of_list_filter). cbn in *. by subst.
  - intros H. exists (c, false). split; [done|]. by apply elem_of_list_filter.
Qed.
Lemma elem_dir_names c es : c ∈ dir_names es <-> (c, true) ∈ es.
Proof.
  unfold dir_names. rewrite elem_of_list_fmap. split.
  - intros ([c' d] & -> & [Hd H]%elem_of_list_filter). cbn in *. by subst.
  - intros H. exists (c, true). split; [done|]. by apply elem_of_list_filter.
Qed.
Lemma names_apart c es : NoDup (map fst es) -> c ∈ file_names es -> c ∈ dir_names es -> False.
Proof.
  rewrite elem_file_names, elem_dir_names. intros Hnd H1 H2. induction es as [|[c' d] es IH]; [by apply elem_of_nil in H1|].
  cbn in Hnd. apply NoDup_cons in Hnd as [Hc Hnd].
  assert (Hin : forall d', (c', d') ∈ es -> False) by (intros d' H; apply Hc; by apply (elem_of_list_fmap_1 fst) in H).
  apply elem_of_cons in H1 as [H1|H1], H2 as [H2|H2]; [congruence|..].
  - assert (c' = c) as -> by congruence. by eapply Hin.
  - assert (c' = c) as -> by congruence. by eapply Hin.
  - by apply IH.
Qed.
Lemma elem_of_sublist {A} (x : A) l1 l2 : l1 `sublist_of` l2 -> x ∈ l1 -> x ∈ l2.
Proof.
  induction 1 as [|y l1 l2 _ IH|y l1 l2 _ IH]; [done|..].
  - intros [->|Hx]%elem_of_cons; [by left|]. right. by apply IH.
  - intros Hx. right. by apply IH.
Qed.
Lemma sublist_NoDup {A} (l1 l2 : list A) : l1 `sublist_of` l2 -> NoDup l2 -> NoDup l1.
Proof.
  induction 1 as [|y l1 l2 Hl IH|y l1 l2 _ IH]; [done|..]; intros [Hy Hl2]%NoDup_cons; [|by apply IH].
  apply NoDup_cons. split; [|by apply IH]. intros H. apply Hy. by eapply elem_of_sublist.
Qed.
Lemma NoDup_flagged (es : list (bytes * bool)) d : NoDup (map fst es) -> NoDup (map fst (filter (fun x => x.2 = d) es)).
Proof.
  apply sublist_NoDup. induction es as [|x es IH]; [done|]. rewrite filter_cons. destruct (decide _); cbn [map]; by constructor.
Qed.
Lemma NoDup_names es : NoDup (map fst es) -> NoDup (file_names es) /\ NoDup (dir_names es).
Proof.
  intros H. split; by apply NoDup_flagged.
Qed.

Lemma notes_list_queue e root pf fuel : forall queue l, antichain queue -> notes e (list_queue fuel root pf queue) l ->
  NoDup l /\ Forall (below_any queue) l.
Proof.
  induction fuel as [|fuel IH]; intros [|dir queue] l Hac; cbn [list_queue].
  1-3: intros ->; split; constructor.
  cbn [try_io bind call notes noted_call]. intros [->|(r & l' & Hr & H & ->)]; [split; constructor|]. cbn [app].
  assert (Hdir : below_any (dir :: queue) (Some dir)) by (exists dir, dir; split; [done|]; split; [by left|done]).
  destruct r as [es|]; [|cbn in H; subst; split; [apply NoDup_singleton|by constructor]].
  apply possible_entries in Hr. destruct (NoDup_names es Hr) as [Hnf Hnds].
  assert (Hfiles : forall cs, cs `sublist_of` file_names es -> NoDup (Some dir :: map (fun c => Some (dir ++ [c])) cs) /\
    Forall (below_any (dir :: queue)) (Some dir :: map (fun c => Some (dir ++ [c])) cs)).
  { intros cs Hcs. split.
    - apply NoDup_cons. split.
      + intros (c & Hc & _)%elem_of_list_fmap. injection Hc as Hc. apply (f_equal length) in Hc. rewrite app_length in Hc. cbn in Hc. lia.
      + apply NoDup_fmap_2; [|by eapply sublist_NoDup]. intros c c' Hc. injection Hc as Hc. by apply snoc_inj in Hc as [_ ?].
    - constructor; [done|]. apply Forall_forall. intros o (c & -> & _)%elem_of_list_fmap. exists (dir ++ [c]), dir. split; [done|].
      split; [by left|by eexists]. }
  apply notes_bind in H as [H|(l1 & l2 & a & H1 & H2 & ->)].
  { apply notes_list_entries in H as (cs & -> & Hcs). by apply Hfiles. }
  pose proof H1 as Hl1. apply finished_notes, notes_list_entries in Hl1 as (cs & -> & Hcs). destruct (Hfiles cs Hcs) as [Hf1 Hf2].
  destruct a as [[ds objs]|]; [|cbn in H2; subst; by rewrite app_nil_r].
  apply finished_list_entries in H1. cbn [fst snd] in H2.
  assert (Hds : forall q, q ∈ ds <-> exists c, q = dir ++ [c] /\ c ∈ dir_names es).
  { intros q. rewrite H1, elem_of_list_fmap. done. }
  assert (Hndd : NoDup ds) by (rewrite H1; apply NoDup_fmap_2; [by intros c c' [_ ?]%snoc_inj|done]). clear H1.
  destruct Hac as [Hnq Hac]. apply NoDup_cons in Hnq as [Hdq Hnq].
  assert (Hno : forall q, q ∈ queue -> ~ q `prefix_of` dir).
  { intros q Hin Hp. apply Hdq. rewrite <- (Hac q dir); [done|by right|by left|done]. }
  assert (Hno' : forall q, q ∈ queue -> ~ dir `prefix_of` q).
  { intros q Hin Hp. apply Hdq. rewrite (Hac dir q); [done|by left|by right|done]. }
  assert (Hac' : antichain (queue ++ ds)).
  { split.
    - apply NoDup_app. split; [done|]. split; [|done]. intros q Hin (c & -> & _)%Hds. apply (Hno' _ Hin). by eexists.
    - intros q q' [Hin|Hin]%elem_of_app [Hin'|Hin']%elem_of_app Hpre.
      + apply Hac; [by right|by right|done].
      + apply Hds in Hin' as (c & -> & _). exfalso. apply (Hno q Hin).
        apply prefix_snoc in Hpre as [?| ->]; [done|]. destruct (Hno' _ Hin). by eexists.
      + apply Hds in Hin as (c & -> & _). exfalso. apply (Hno' q' Hin'). etrans; [|done]. by eexists.
      + apply Hds in Hin as (c & -> & _), Hin' as (c' & -> & _). apply prefix_app_inv in Hpre. by apply prefix_cons_inv_1 in Hpre as ->. }
  assert (Hrest : NoDup l2 /\ Forall (below_any (queue ++ ds)) l2).
  { apply notes_bind in H2 as [H2|(l3 & l4 & a & H3 & H4 & ->)]; [by eapply IH|].
    assert (l4 = []) as -> by by destruct a. rewrite app_nil_r. apply finished_notes in H3. by eapply IH. }
  destruct Hrest as [Hr1 Hr2]. rewrite app_comm_cons. split.
  - apply NoDup_app. split; [done|]. split; [|done]. intros o Ho Ho2.
    rewrite Forall_forall in Hr2. destruct (Hr2 o Ho2) as (p & q & -> & Hq & Hpre). clear Ho2.
    apply elem_of_cons in Ho as [Ho|Ho].
    + injection Ho as ->. apply elem_of_app in Hq as [Hq|Hq]; [by eapply Hno|]. apply Hds in Hq as (c & -> & _).
      apply prefix_length in Hpre. rewrite app_length in Hpre. cbn in Hpre. lia.
    + apply elem_of_list_fmap in Ho as (c & Ho & Hc). injection Ho as ->. apply elem_of_app in Hq as [Hq|Hq].
      * apply prefix_snoc in Hpre as [Hpre| ->]; [by eapply Hno|]. destruct (Hno' _ Hq). by eexists.
      * apply Hds in Hq as (c' & -> & Hc'). apply prefix_app_inv in Hpre. apply prefix_cons_inv_1 in Hpre as ->.
        eapply (names_apart _ es Hr); [by eapply elem_of_sublist|done].
  - apply Forall_app. split; [done|]. eapply Forall_impl; [exact Hr2|]. intros o (p & q & -> & [Hq|Hq]%elem_of_app & Hpre).
    + exists p, q. split; [done|]. split; [by right|done].
    + apply Hds in Hq as (c & -> & _). exists p, dir. split; [done|]. split; [by left|]. etrans; [|done]. by eexists.
Qed.

(** Whatever happens at the same time, a listing looks at no file and no directory twice, and at nothing outside the bucket. *)
Theorem C94_listing_once e (i : nat) l s (ms : list (prog (sres s_ans))) s' ms' r b pf :
  progress e i l s ms s' ms' -> ms !! i = Some (storage e r) -> legal_bucket b -> r = RListObjects b pf \/ r = RListObjectsV2 b pf ->
  NoDup l /\ forall o, o ∈ l -> exists p, o = Some (b :: p).
Proof.
  intros Hp Hi Hb Hr. pose proof (progress_notes _ _ _ _ _ _ _ _ Hp Hi) as Hn. clear Hp Hi.
  assert (exists v2, storage e r = list_objects e v2 b pf) as [v2 Hs] by (destruct Hr as [-> | ->]; eauto).
  rewrite Hs in Hn. clear Hs Hr. unfold list_objects in Hn. rewrite bucket_path in Hn by by apply legal_bucket_segment.
  cbn [try_path bind call notes noted_call] in Hn. destruct Hn as [->|(n & l' & _ & Hn & ->)].
  { split; [constructor|]. by intros o ?%elem_of_nil. }
  cbn [app]. assert (Hq : notes e (list_queue n [b] pf [[b]]) l').
  { apply notes_bind in Hn as [H|(l1 & l2 & a & H1 & H2 & ->)]; [done|]. assert (l2 = []) as -> by by destruct a.
    rewrite app_nil_r. by apply finished_notes in H1. }
  apply notes_list_queue in Hq as [H1 H2].
  2:{ split; [apply NoDup_singleton|]. by intros q q' ->%elem_of_list_singleton ->%elem_of_list_singleton. }
  split; [done|]. intros o Ho. rewrite Forall_forall in H2. destruct (H2 o Ho) as (p & q & -> & ->%elem_of_list_singleton & [p' ->]).
  by exists p'.
Qed.
Print Assumptions C94_listing_once.

Lemma notes_bucket_entries e es : NoDup (map fst es) -> forall l, notes e (bucket_entries es) l -> exists cs, l = map (fun c => Some [c]) cs /\ cs `sublist_of` map fst es.
Proof.
  induction es as [|[c d] es IH]; intros Hnd l; cbn [bucket_entries map fst].
  { intros ->. by exists []. }
  apply NoDup_cons in Hnd as [_ Hnd]. specialize (IH Hnd). destruct (d && check_bucket_name (utf8_lossy c)).
  - cbn [try_io bind call notes noted_call]. intros [->|(r & l' & _ & H & ->)]; [exists []; split; [done|apply sublist_nil_l]|].
    assert (exists cs, l' = map (fun c => Some [c]) cs /\ cs `sublist_of` map fst es) as (cs & -> & Hcs).
    { destruct r; [|cbn in H; subst; exists []; split; [done|apply sublist_nil_l]].
      apply notes_bind in H as [H|(l1 & l2 & a & H1 & H2 & ->)]; [by apply IH|]. assert (l2 = []) as -> by by destruct a.
      rewrite app_nil_r. by apply finished_notes, IH in H1. }
    exists (c :: cs). split; [done|by constructor].
  - intros (cs & -> & Hcs)%IH. exists cs. split; [done|by constructor].
Qed.

(** The same of the listing of all buckets: it looks at the directory of the buckets and at each of its entries at most once. *)
Theorem C94_buckets_once e (i : nat) l s (ms : list (prog (sres s_ans))) s' ms' :
  progress e i l s ms s' ms' -> ms !! i = Some (storage e RListBuckets) ->
  NoDup l /\ forall o, o ∈ l -> o = Some [] \/ exists c, o = Some [c].
Proof.
  intros Hp Hi. pose proof (progress_notes _ _ _ _ _ _ _ _ Hp Hi) as Hn. clear Hp Hi. cbn [storage] in Hn. unfold list_buckets in Hn.
  cbn [try_io bind call notes noted_call] in Hn. destruct Hn as [->|(r & l' & Hr & Hn & ->)].
  { split; [constructor|]. by intros o ?%elem_of_nil. }
  destruct r as [es|].
  2:{ cbn in Hn. subst. split; [apply NoDup_singleton|]. cbn. intros o ->%elem_of_list_singleton. by left. }
  apply possible_entries in Hr. assert (Hq : notes e (bucket_entries es) l').
  { apply notes_bind in Hn as [H|(l1 & l2 & a & H1 & H2 & ->)]; [done|]. assert (l2 = []) as -> by by destruct a.
    rewrite app_nil_r. by apply finished_notes in H1. }
  apply notes_bucket_entries in Hq as (cs & -> & Hcs); [|done]. cbn [app]. split.
  - apply NoDup_cons. split; [by intros (c & Hc & _)%elem_of_list_fmap|]. apply NoDup_fmap_2; [by intros c c' [= ->]|]. by eapply sublist_NoDup.
  - intros o [->|(c & -> & _)%elem_of_list_fmap]%elem_of_cons; [by left|]. right. by exists c.
Qed.
Print Assumptions C94_buckets_once.

(* How often a path is met. *)
Definition times (p : path) (l : list (option path)) : nat := length (filter (eq (Some p)) l).
Lemma times_app p l1 l2 : times p (l1 ++ l2) = times p l1 + times p l2.
Proof. unfold times. by rewrite filter_app, app_length. Qed.
Lemma times_cons p l : times p (Some p :: l) = S (times p l).
Proof. unfold times. rewrite filter_cons. by rewrite decide_True. Qed.
Lemma times_cons_ne p o l : o <> Some p -> times p (o :: l) = times p l.
Proof. intros H. unfold times. rewrite filter_cons. by rewrite decide_False by congruence. Qed.
Lemma times_0 p l : Some p ∉ l -> times p l = 0.
Proof.
  intros H. unfold times. destruct (filter (eq (Some p)) l) as [|o l'] eqn:E; [done|]. exfalso.
  assert (Ho : o ∈ filter (eq (Some p)) l) by (rewrite E; by left). by apply elem_of_list_filter in Ho as [<- ?].
Qed.

Lemma notes_remove e n : forall p l, notes e (remove_dir_all n p) l -> Forall (below_any [p]) l /\ forall q, times q l <= 2.
Proof.
  induction n as [|n IH]; intros p l; cbn [remove_dir_all].
  { cbn [notes]. intros ->. split; [constructor|]. intros q. rewrite times_0 by apply not_elem_of_nil. lia. }
  cbn [bind call notes noted_call]. intros [->|(r & l' & Hr & H & ->)].
  { split; [constructor|]. intros q. rewrite times_0 by apply not_elem_of_nil. lia. }
  assert (Hp : below_any [p] (Some p)) by (exists p, p; split; [done|]; split; [by apply elem_of_list_singleton|done]).
  assert (Hone : forall q, times q [Some p] <= 1).
  { intros q. destruct (decide (p = q)) as [->|Hne]; [by rewrite times_cons, times_0 by apply not_elem_of_nil|]. rewrite times_cons_ne, times_0 by (congruence || apply not_elem_of_nil). lia. }
  destruct r as [es|].
  2:{ cbn in H. subst. split; [by constructor|]. intros q. cbn [app]. specialize (Hone q). lia. }
  apply possible_entries in Hr.
  assert (Hloop : exists l1 l2, l' = l1 ++ l2 /\ Forall (below_any (map (fun c => p ++ [c]) (map fst es))) l1 /\ (forall q, times q l1 <= 2) /\ (l2 = [] \/ l2 = [Some p])).
  { revert l' H. induction es as [|[c d] es IHes]; intros l' H.
    - exists [], l'. split; [done|]. split; [constructor|]. split; [intros q; rewrite times_0 by apply not_elem_of_nil; lia|]. cbn [call notes noted_call] in H.
      destruct H as [->|(r & l0 & _ & -> & ->)]; auto.
    - cbn [map fst] in Hr. apply NoDup_cons in Hr as [Hc Hr]. specialize (IHes Hr).
      assert (Hent : forall l0, notes e (if d then remove_dir_all n (p ++ [c]) else call (CUnlink (p ++ [c]))) l0 ->
        Forall (below_any [p ++ [c]]) l0 /\ forall q, times q l0 <= 2).
      { destruct d; [apply IH|]. intros l0 [->|(r & l1 & _ & -> & ->)].
        - split; [constructor|]. intros q. rewrite times_0 by apply not_elem_of_nil. lia.
        - cbn [noted_call app]. split; [constructor; [|constructor]; exists (p ++ [c]), (p ++ [c]); split; [done|]; split; [by apply elem_of_list_singleton|done]|].
          intros q. destruct (decide (p ++ [c] = q)) as [->|Hne]; [rewrite times_cons, times_0 by apply not_elem_of_nil; lia|]. rewrite times_cons_ne, times_0 by (congruence || apply not_elem_of_nil). lia. }
      assert (Hw : forall l0, Forall (below_any [p ++ [c]]) l0 -> Forall (below_any (map (fun c => p ++ [c]) (map fst ((c, d) :: es)))) l0).
      { intros l0 Hl0. eapply Forall_impl; [exact Hl0|]. intros o (x & q & -> & ->%elem_of_list_singleton & Hx). exists x, (p ++ [c]). split; [done|]. split; [by left|done]. }
      apply notes_bind in H as [H|(l1 & l2 & a & H1 & H2 & ->)].
      { apply Hent in H as [H1 H2]. exists l', []. rewrite app_nil_r. split; [done|]. split; [by apply Hw|]. auto. }
      apply finished_notes, Hent in H1 as [H1 H1'].
      destruct a as [u|].
      2:{ cbn in H2. subst. exists l1, []. split; [done|]. split; [by apply Hw|]. auto. }
      apply IHes in H2 as (l3 & l4 & -> & H3 & H3' & H4). exists (l1 ++ l3), l4. split; [by rewrite app_assoc|]. split; [|split; [|done]].
      + apply Forall_app. split; [by apply Hw|]. eapply Forall_impl; [exact H3|]. intros o (x & q & -> & Hq & Hx). exists x, q. split; [done|]. split; [by right|done].
      + intros q. rewrite times_app. destruct (decide ((p ++ [c]) `prefix_of` q)) as [Hpre|Hpre].
        * rewrite (times_0 q l3); [specialize (H1' q); lia|]. intros Hin. rewrite Forall_forall in H3.
          destruct (H3 _ Hin) as (x & q' & Hx & Hq' & Hx'). injection Hx as <-. rewrite map_map in Hq'. apply elem_of_list_fmap in Hq' as ([c' d'] & -> & Hin').
          assert (Heq : c = c').
          { destruct Hpre as [r1 ->], Hx' as [r2 Hx']. rewrite <- !app_assoc in Hx'. apply app_inv_head in Hx'. by injection Hx'. }
          subst c'. apply Hc. by apply (elem_of_list_fmap_1 fst) in Hin'.
        * rewrite (times_0 q l1); [apply H3'|]. intros Hin. rewrite Forall_forall in H1.
          destruct (H1 _ Hin) as (x & q' & Hx & ->%elem_of_list_singleton & Hx'). by injection Hx as <-. }
  destruct Hloop as (l1 & l2 & -> & H1 & H2 & H3). cbn [app]. split.
  - constructor; [done|]. apply Forall_app. split.
    + eapply Forall_impl; [exact H1|]. intros o (x & q & -> & Hq & Hx). apply elem_of_list_fmap in Hq as (c & -> & _). exists x, p. split; [done|].
      split; [by apply elem_of_list_singleton|]. etrans; [|done]. by eexists.
    + destruct H3 as [->| ->]; [constructor|by constructor].
  - intros q. destruct (decide (p = q)) as [->|Hne].
    + rewrite times_cons, times_app, (times_0 q l1).
      * destruct H3 as [->| ->]; [rewrite times_0 by apply not_elem_of_nil; lia|]. rewrite times_cons, times_0 by apply not_elem_of_nil. lia.
      * intros Hin. rewrite Forall_forall in H1. destruct (H1 _ Hin) as (x & q' & Hx & Hq' & Hx'). injection Hx as <-.
        apply elem_of_list_fmap in Hq' as (c & -> & _). apply prefix_length in Hx'. rewrite app_length in Hx'. cbn in Hx'. lia.
    + rewrite times_cons_ne by congruence. rewrite times_app. assert (times q l2 = 0) as ->; [|specialize (H2 q); lia].
      destruct H3 as [->| ->]; [by apply times_0, not_elem_of_nil|]. rewrite times_cons_ne by congruence. by apply times_0, not_elem_of_nil.
Qed.

(** Whatever happens at the same time, the deletion of a bucket meets every file and every directory at most twice, and nothing
    outside the bucket. *)
Theorem C94_deletion_twice e (i : nat) l s (ms : list (prog (sres s_ans))) s' ms' b :
  progress e i l s ms s' ms' -> ms !! i = Some (storage e (RDeleteBucket b)) -> legal_bucket b ->
  (forall p, times p l <= 2) /\ forall o, o ∈ l -> exists p, o = Some (b :: p).
Proof.
  intros Hp Hi Hb. pose proof (progress_notes _ _ _ _ _ _ _ _ Hp Hi) as Hn. clear Hp Hi.
  cbn [storage] in Hn. unfold delete_bucket in Hn. rewrite bucket_path in Hn by by apply legal_bucket_segment.
  cbn [try_path bind call notes noted_call] in Hn. destruct Hn as [->|(n & l' & _ & Hn & ->)].
  { split; [intros p; rewrite times_0 by apply not_elem_of_nil; lia|]. by intros o ?%elem_of_nil. }
  cbn [app]. assert (Hq : notes e (remove_dir_all n [b]) l').
  { apply notes_bind in Hn as [H|(l1 & l2 & a & H1 & H2 & ->)]; [done|]. assert (l2 = []) as -> by by destruct a.
    rewrite app_nil_r. by apply finished_notes in H1. }
  apply notes_remove in Hq as [H1 H2]. split; [done|]. intros o Ho. rewrite Forall_forall in H1.
  destruct (H1 o Ho) as (p & q & -> & ->%elem_of_list_singleton & [p' ->]). by exists p'.
Qed.
Print Assumptions C94_deletion_twice.

(** ** Examples *)

Fixpoint follow (e : env) {A} (n : nat) (s : fs) (m : prog A) : fs * prog A * list (option path) :=
  match n, m with
  | S n', Do c k => let '(s1, r) := exec e c s in let '(s2, m2, l) := follow e n' s1 (k r) in (s2, m2, noted_call c ++ l)
  | _, _ => (s, m, [])
  end.
Lemma follow_progress e {A} n : forall s (m : prog A), progress e 0 (follow e n s m).2 s [m] (follow e n s m).1.1 [(follow e n s m).1.2].
Proof.
  induction n as [|n IH]; intros s m; [constructor|]. destruct m as [a|R c k]; [constructor|]. cbn [follow].
  destruct (exec e c s) as [s1 r] eqn:E. specialize (IH s1 (k r)). destruct (follow e n s1 (k r)) as [[s2 m2] l]. cbn [fst snd] in *.
  apply (progress_own e 0 s [Do c k] (Do c k) s1 (k r)); [done| |done]. cbn [step]. left. by rewrite E.
Qed.

Definition ex_work : fs :=
  after_all ex_env [RCreateBucket (B "abc");
                    RPutObject (B "abc") (B "x/y") None None (Some [(B "k", B "v")]) (Some [FData (B "12345")]);
                    RPutObject (B "abc") (B "x/z/w") None None None (Some [FData (B "6")])] empty_store.

(* The bounds are reached: a download of the last bytes of an object with metadata. *)
Example C94_ex_get : let x := follow ex_env 20 ex_work (storage ex_env (RGetObject (B "abc") (B "x/y") (Some (B "bytes=-2")))) in
  length x.2 = 6 /\ exists a, x.1.2 = Ret (Ok a).
Proof. split; [vm_compute; done|]. vm_compute. by eexists. Qed.
Example C94_ex_list : (follow ex_env 20 ex_work (storage ex_env (RListObjects (B "abc") None))).2 =
  [Some [B "abc"]; Some [B "abc"; B "x"]; Some [B "abc"; B "x"; B "y"]; Some [B "abc"; B "x"; B "z"]; Some [B "abc"; B "x"; B "z"; B "w"]].
Proof. vm_compute. done. Qed.
Example C94_ex_delete : let x := follow ex_env 20 ex_work (storage ex_env (RDeleteBucket (B "abc"))) in
  length x.2 = 8 /\ times [B "abc"; B "x"] x.2 = 2 /\ times [B "abc"; B "x"; B "y"] x.2 = 1 /\ exists a, x.1.2 = Ret (Ok a).
Proof. split; [vm_compute; done|]. split; [vm_compute; done|]. split; [vm_compute; done|]. vm_compute. by eexists. Qed.
