(** New directory entries have orderly names. *)
From Verif Require Import M_Base M_Path M_Headers M_Chunked M_BytesStream M_Crypto M_Fs M_Json M_Utf8 M_Storage
  S_Path S_Headers S_Chunked S_Storage S_Store L_Base L_Headers L_Utf8 L_Fs L_Storage L_Scope L_Names L_Results.

Local Opaque md5 etag_of json_decode json_encode.

(* The paths a program may create. *)
Fixpoint creates {A} (C : path -> Prop) (m : prog A) {struct m} : Prop :=
  match m with
  | Ret _ => True
  | Do c k =>
      match c in syscall R return (R -> prog A) -> Prop with
      | CCreate p => fun k => C p /\ forall r, creates C (k r)
      | CMkdir p => fun k => C p /\ forall r, creates C (k r)
      | _ => fun k => forall r, creates C (k r)
      end k
  end.

Lemma creates_cont {A R} (c : syscall R) (k : R -> prog A) C : creates C (Do c k) -> forall r, creates C (k r).
Proof. destruct c; cbn [creates]; by try intros [_ H]. Qed.

Lemma creates_bind {A B} (m : prog A) (f : A -> prog B) C :
  creates C m -> (forall a, creates C (f a)) -> creates C (bind m f).
Proof.
  intros Hm Hf. induction m as [a|R c k IH]; [apply Hf|]. cbn [bind]. pose proof (creates_cont _ _ _ Hm) as Hk.
  destruct c; cbn [creates] in *; try (split; [apply Hm|]); intros r; by apply IH.
Qed.

Lemma scoped_creates {A} (m : prog A) (F D X C : path -> Prop) : (forall p, F p -> C p) -> (forall p, D p -> C p) ->
  forall own, scoped F D X own m -> creates C m.
Proof.
  intros HF HD. induction m as [a|R c k IH]; [done|]. intros own Hm.
  destruct c; cbn [scoped creates] in *; try (intros r; by eapply IH).
  - destruct Hm as [? Hm]. split; [auto|]. intros r. by eapply IH.
  - destruct Hm as [? Hm]. intros r. by eapply IH.
  - destruct Hm as [? Hm]. split; [auto|]. intros r. by eapply IH.
  - destruct Hm as [? Hm]. intros r. by eapply IH.
  - destruct Hm as [? Hm]. intros r. by eapply IH.
Qed.

Lemma exec_new e {R} (c : syscall R) s p : is_Some (fs_nodes (exec e c s).1 !! p) ->
  is_Some (fs_nodes s !! p) \/ (e_os_ok e p = true /\
    match c with CCreate q => p = q | CMkdir q => p = q | _ => False end).
Proof.
  destruct c; cbn [exec]; try (destruct h); auto.
  - destruct (e_os_ok e p0) eqn:Hos; cbn [negb]; [|auto].
    destruct (fs_nodes s !! p0) as [[|i]|]; [auto|auto|].
    destruct (parent p0) as [[q c]|]; [|auto]. destruct (is_dir s q); [|auto]. cbn [fst fs_nodes].
    destruct (decide (p = p0)) as [->|Hne]; [auto|]. rewrite lookup_insert_ne by done. auto.
  - destruct (e_os_ok e p0) eqn:Hos; cbn [negb]; [|auto].
    destruct (fs_nodes s !! p0) as [n|]; [auto|]. destruct (has_parent s p0); [|auto]. cbn [fst fs_nodes set_nodes].
    destruct (decide (p = p0)) as [->|Hne]; [auto|]. rewrite lookup_insert_ne by done. auto.
  - destruct (e_os_ok e p0); [|auto]. destruct (fs_nodes s !! p0) as [[|]|]; [auto| |auto].
    cbn. rewrite lookup_delete_is_Some. intros [_ ?]. auto.
  - destruct (e_os_ok e p0); [|auto]. destruct (fs_nodes s !! p0) as [[|]|]; [|auto|auto].
    case_bool_decide; [|auto]. cbn. rewrite lookup_delete_is_Some. intros [_ ?]. auto.
Qed.

Lemma creates_steps e {A} (m : prog A) C s s' m' : creates C m ->
  steps e s m s' m' -> forall p, is_Some (fs_nodes s' !! p) ->
  is_Some (fs_nodes s !! p) \/ (C p /\ e_os_ok e p = true).
Proof.
  intros Hm Hs. revert Hm. induction Hs as [s m|s m s1 m1 s2 m2 Hstep Hs IH]; [by left|]. intros Hm p Hp.
  destruct m as [a|R c k]; [done|]. pose proof (creates_cont _ _ _ Hm) as Hk.
  destruct Hstep as [Hstep|[= -> ->]]; [|by apply IH].
  destruct (exec e c s) as [s3 r] eqn:E. injection Hstep as -> ->.
  destruct (IH (Hk r) p Hp) as [H|H]; [|by right].
  pose proof (exec_new e c s p) as Hn. rewrite E in Hn. destruct (Hn H) as [?|[Hos Hc]]; [by left|right].
  split; [|done]. destruct c; try done; subst; by destruct Hm.
Qed.

Lemma creates_remove_dir_all C n : forall p, creates C (remove_dir_all n p).
Proof.
  induction n as [|n IH]; intros p; [done|]. cbn [remove_dir_all]. apply creates_bind; [done|].
  intros [es|]; [|done]. induction es as [|[c d] es IHes]; [done|].
  apply creates_bind; [by destruct d|]. by intros [u|].
Qed.

Lemma split_all_text str : utf8_valid str = true -> Forall (fun c => utf8_valid c = true) (split_all "/" str).
Proof.
  intros Hv. rewrite <- (intercalate_split_all "/" str) in Hv.
  pose proof (split_all_nil_not "/" str) as Hne. induction (split_all "/" str) as [|x l IH]; [done|].
  destruct l as [|y l]; [by constructor|]. cbn [intercalate] in Hv. rewrite utf8_valid_cut in Hv by (by vm_compute).
  apply andb_true_iff in Hv as [H1 H2]. constructor; [done|]. by apply IH.
Qed.

Lemma fold_push_text l acc : Forall (fun c => utf8_valid c = true) l -> Forall (fun c => utf8_valid c = true) acc ->
  Forall (fun c => utf8_valid c = true) (fold_left push_component l acc).
Proof.
  intros Hl. revert acc. induction Hl as [|c l Hc Hl IH]; intros acc Hacc; [done|]. cbn [fold_left]. apply IH.
  unfold push_component. destruct (_ || _); [done|]. destruct (beq c _); [by apply removelast_Forall|].
  apply Forall_app. by split; [|constructor].
Qed.

Lemma absolutize_text e str p : utf8_valid str = true -> absolutize e str = Some p ->
  Forall (fun c => utf8_valid c = true) p.
Proof.
  intros Hv. unfold absolutize. assert (Hn : Forall (fun c => utf8_valid c = true) (normalize str)).
  { apply fold_push_text; [by apply split_all_text|done]. }
  destruct (starts_with (B "/") str).
  - intros Hp. apply below_Some in Hp. rewrite Hp in Hn. by apply Forall_app in Hn as [_ ?].
  - by intros [= <-].
Qed.

Lemma text_app x y : Forall (fun a => code a < 128)%N x -> utf8_valid (x ++ y) = utf8_valid y.
Proof. induction 1 as [|a x Ha _ IH]; [done|]. cbn [app utf8_valid]. by rewrite (proj2 (N.ltb_lt _ _)). Qed.

Definition plain_ascii (l : bytes) : bool := forallb (fun a => code a <? 128)%N l.
Lemma plain_ascii_Forall l : plain_ascii l = true -> Forall (fun a => code a < 128)%N l.
Proof. unfold plain_ascii. rewrite forallb_Forall. intros H. eapply Forall_impl; [done|]. intros a. apply N.ltb_lt. Qed.

Lemma url_ascii a : url_char a = true -> (code a < 128)%N.
Proof.
  intros H. apply N.ltb_lt. revert a H.
  assert (Hall : forall a, implb (url_char a) (code a <? 128)%N = true) by (apply ascii_forall; by vm_compute).
  intros a H. specialize (Hall a). by rewrite H in Hall.
Qed.

Lemma metadata_name_ascii b k : Forall (fun a => code a < 128)%N (metadata_name b k).
Proof.
  assert (Hu : forall l, Forall (fun a => code a < 128)%N (b64url l)).
  { intros l. eapply Forall_impl; [apply b64url_chars|]. apply url_ascii. }
  unfold metadata_name. rewrite !Forall_app. split_and!; try apply Hu; by apply plain_ascii_Forall; vm_compute.
Qed.

Lemma pretty_ascii (n : Z) : Forall (fun a => code a < 128)%N (B (pretty n)).
Proof.
  apply Forall_forall. intros a Ha.
  destruct (decide (a = "-"%char)) as [->|Hne]; [by vm_compute|].
  destruct (in_range "0" "9" a) eqn:E.
  - apply in_range_spec in E. change (code "9") with 57%N in E. lia.
  - by apply (pretty_Z_no a n) in E.
Qed.

Lemma part_name_text u n : utf8_valid u = true -> utf8_valid (part_name u n) = true.
Proof.
  intros Hu. unfold part_name. rewrite text_app by (by apply plain_ascii_Forall; vm_compute).
  change (B ".part-" ++ B (pretty n)) with ("."%char :: (B "part-" ++ B (pretty n))).
  rewrite utf8_valid_cut by (by vm_compute). rewrite Hu. cbn [andb].
  apply ascii_valid, Forall_app. split; [by apply plain_ascii_Forall; vm_compute|apply pretty_ascii].
Qed.

Local Opaque metadata_name part_name.

Lemma object_path_text e b k p : utf8_valid b = true -> utf8_valid k = true -> get_object_path e b k = Some p ->
  Forall segment_ok p /\ Forall (fun c => utf8_valid c = true) p.
Proof.
  intros Hb Hk Hp. split; [by eapply absolutize_segments|]. eapply absolutize_text; [|done].
  unfold join_path. destruct (starts_with (B "/") k); [done|].
  change (b ++ B "/" ++ k) with (b ++ "/"%char :: k). rewrite utf8_valid_cut by (by vm_compute).
  by rewrite Hb, Hk.
Qed.
Lemma metadata_path_text e b k p : get_metadata_path e b k = Some p ->
  Forall segment_ok p /\ Forall (fun c => utf8_valid c = true) p.
Proof.
  intros Hp. split; [by eapply absolutize_segments|]. eapply absolutize_text; [|done].
  apply ascii_valid, metadata_name_ascii.
Qed.
Lemma part_path_text e u n p : utf8_valid u = true -> part_path e u n = Some p ->
  Forall segment_ok p /\ Forall (fun c => utf8_valid c = true) p.
Proof.
  intros Hu Hp. split; [by eapply absolutize_segments|]. eapply absolutize_text; [|done]. by apply part_name_text.
Qed.
Lemma bucket_path_text e b p : utf8_valid b = true -> get_bucket_path e b = Some p ->
  Forall segment_ok p /\ Forall (fun c => utf8_valid c = true) p.
Proof. intros Hu Hp. split; [by eapply absolutize_segments|]. by eapply absolutize_text. Qed.

Lemma prefix_Forall {A} (P : A -> Prop) (l k : list A) : l `prefix_of` k -> Forall P k -> Forall P l.
Proof. intros [x ->]. rewrite Forall_app. by intros [? _]. Qed.

(* Every request keeps the store tidy, at every moment. *)
Lemma storage_creates e r : text_req r ->
  creates (fun p => Forall segment_ok p /\ Forall (fun c => utf8_valid c = true) p) (storage e r).
Proof.
  intros Hr. assert (Hd : (exists b, r = RDeleteBucket b) \/ ~ (exists b, r = RDeleteBucket b)).
  { destruct r; try (right; intros [? ?]; done). left. eauto. }
  destruct Hd as [[b ->]|Hnd].
  { cbn [storage]. unfold delete_bucket. destruct (get_bucket_path e b); [|done]. cbn [try_path bind call creates].
    intros n. apply creates_bind; [apply creates_remove_dir_all|]. by intros [u|]. }
  eapply scoped_creates; [| |apply scoped_storage].
  - intros p HF. destruct r; try done; cbn [r_files text_req] in *.
    + destruct Hr as (_ & ? & ?). destruct HF as [HF|HF]; [by eapply object_path_text; [| |exact HF]|by eapply metadata_path_text].
    + destruct Hnd. eauto.
    + destruct Hr. by eapply object_path_text; [| |exact HF].
    + destruct Hr as [? Hks], HF as (k & Hk & HF). rewrite Forall_forall in Hks.
      eapply object_path_text; [| |exact HF]; auto.
    + destruct Hr as (? & ?). destruct HF as [HF|[_ HF]]; [by eapply object_path_text; [| |exact HF]|by eapply metadata_path_text].
    + by eapply part_path_text.
    + destruct Hr as (? & ? & ?). destruct HF as [HF|(l & n & _ & _ & HF)]; [by eapply object_path_text; [| |exact HF]|by eapply part_path_text; [|exact HF]].
  - intros p HD. destruct r; try done; cbn [r_dirs text_req] in *.
    + by eapply bucket_path_text.
    + destruct Hr, HD as (q & Hq & Hpre). eapply object_path_text in Hq as [? ?]; [|done|done].
      split; by eapply prefix_Forall.
Qed.

Lemma tidy_steps e r s s' m' : tidy e s -> text_req r -> steps e s (storage e r) s' m' -> tidy e s'.
Proof.
  intros Ht Hr Hs p Hp.
  destruct (creates_steps e _ _ s s' m' (storage_creates e r Hr) Hs p Hp) as [H|[[? ?] ?]]; [by apply Ht|done].
Qed.
Lemma tidy_after e r s : tidy e s -> text_req r -> tidy e (after e r s).
Proof. intros Ht Hr. eapply tidy_steps; [done..|]. apply run_steps. Qed.
