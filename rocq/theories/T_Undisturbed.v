(** C98: downloads of objects that others remove, but do not overwrite. *)
From Verif Require Import M_Base M_Path M_Headers M_Chunked M_BytesStream M_Crypto M_Fs M_Json M_Utf8 M_Storage M_Download
  S_Path S_Headers S_Chunked S_Storage S_Store
  L_Base L_Path L_Headers L_Fs L_Storage L_Scope L_Names L_Ops L_Results L_Tidy T_Headers T_Store T_Etag T_Copy T_Crash T_Concurrent T_Space T_Origin.

Local Opaque md5 etag_of json_decode json_encode metadata_name part_name.

(** ** What the theorem says *)

(* Does [r] write to the file [p]?  Removing it is no writing. *)
Definition spares_file (e : env) (p : path) (r : s_req) : Prop :=
  match r with
  | RPutObject b k _ _ md _ => get_object_path e b k <> Some p /\ (is_Some md -> get_metadata_path e b k <> Some p)
  | RCopyObject _ b k => get_object_path e b k <> Some p /\ get_metadata_path e b k <> Some p
  | RUploadPart u n _ => part_path e u n <> Some p
  | RCompleteMultipartUpload b k _ _ => get_object_path e b k <> Some p
  | _ => True
  end.

(* [d] is what a request with the Range header [x] asks for of the object [c]. *)
Definition wanted (x : option bytes) (c d : bytes) : Prop :=
  match x with
  | None => d = c
  | Some str => exists r, range_text str r /\ slice r c = Some d
  end.

(** ** Programs that leave the file alone *)

Section calm.
Context (p : path) (c : bytes).

(* [b] is what one read of [c] at [off] may give. *)
Definition read_of (off : nat) (b : bytes) : Prop := exists r, drop off c = b ++ r /\ (b = [] -> r = []).

(* [H] gives the paths under which open files have been opened or created. *)
Fixpoint calm {A} (m : prog A) (H : gmap N path) (Q : A -> gmap N path -> Prop) {struct m} : Prop :=
  match m with
  | Ret a => forall H', H ⊆ H' -> Q a H'
  | Do sc k =>
      match sc in syscall R return (R -> prog A) -> Prop with
      | COpen q => fun k => forall H', H ⊆ H' -> calm (k None) H' Q /\ (forall d, calm (k (Some (HDir d))) H' Q) /\
          forall i, H' !! i = Some q -> calm (k (Some (HFile i))) H' Q
      | CCreate q => fun k => q <> p /\ forall H', H ⊆ H' -> calm (k None) H' Q /\ forall i, H' !! i = Some q -> calm (k (Some i)) H' Q
      | CRead h off => fun k => forall H', H ⊆ H' -> calm (k None) H' Q /\
          forall i b, h = HFile i -> (H' !! i = Some p -> read_of off b) -> calm (k (Some b)) H' Q
      | CLen h => fun k => forall H', H ⊆ H' -> calm (k None) H' Q /\
          forall n, (forall i, h = HFile i -> H' !! i = Some p -> n = N.of_nat (length c)) -> calm (k (Some n)) H' Q
      | CWrite i off b => fun k => (exists q, H !! i = Some q /\ q <> p) /\ forall H' r, H ⊆ H' -> calm (k r) H' Q
      | _ => fun k => forall H' r, H ⊆ H' -> calm (k r) H' Q
      end k
  end.
Lemma calm_mono {A} (m : prog A) Q H H' : H ⊆ H' -> calm m H Q -> calm m H' Q.
Proof.
  revert H H'. induction m as [a|R sc k IH]; intros H H' Hs; cbn [calm].
  - intros Hq H2 Hs2. apply Hq. by etransitivity.
  - destruct sc; try (intros Hq H2 r Hs2; apply Hq; by etransitivity); try (intros Hq H2 Hs2; apply Hq; by etransitivity).
    + intros (Hp & Hq). split; [done|]. intros H2 Hs2. apply Hq. by etransitivity.
    + intros ((q & Hp & Hm) & Hq). split; [exists q; split; [by eapply lookup_weaken|done]|]. intros H2 r Hs2. apply Hq. by etransitivity.
Qed.
Lemma calm_bind {A C} (m : prog A) (f : A -> prog C) Q H : calm m H (fun a H' => calm (f a) H' Q) -> calm (bind m f) H Q.
Proof.
  revert H. induction m as [a|R sc k IH]; intros H; cbn [calm bind].
  - intros Hq. by apply Hq.
  - destruct sc; try (intros Hq H2 r Hs2; by apply IH, Hq).
    + intros Hq H2 Hs2. destruct (Hq H2 Hs2) as (H3 & H4 & H5). split; [by apply IH|]. split; [intros d; by apply IH|]. intros i Hi. by apply IH, H5.
    + intros Hq H2 Hs2. destruct (Hq H2 Hs2) as (H3 & H4). split; [by apply IH|]. intros n Hn. by apply IH, H4.
    + intros Hq H2 Hs2. destruct (Hq H2 Hs2) as (H3 & H4). split; [by apply IH|]. intros i b Hi Hb. apply IH. by eapply H4.
    + intros (Hp & Hq). split; [done|]. intros H2 Hs2. destruct (Hq H2 Hs2) as (H3 & H4). split; [by apply IH|]. intros i Hi. by apply IH, H4.
    + intros (Hp & Hq). split; [done|]. intros H2 r Hs2. by apply IH, Hq.
Qed.
Lemma calm_impl {A} (m : prog A) (Q Q' : A -> gmap N path -> Prop) H : calm m H Q -> (forall a H', H ⊆ H' -> Q a H' -> Q' a H') -> calm m H Q'.
Proof.
  revert H. induction m as [a|R sc k IH]; intros H Hm HQ; cbn [calm] in *.
  - intros H' Hs. apply HQ; [done|]. by apply Hm.
  - assert (Hk : forall r H', H ⊆ H' -> calm (k r) H' Q -> calm (k r) H' Q').
    { intros r H' Hs Hr. apply IH; [done|]. intros a H2 Hs2. apply HQ. by etransitivity. }
    destruct sc; try (intros H2 r Hs2; apply Hk; [done|]; by apply Hm).
    + intros H2 Hs2. destruct (Hm H2 Hs2) as (H3 & H4 & H5). split; [by apply Hk|]. split; [intros d; by apply Hk|]. intros i Hi. apply Hk; [done|]. by apply H5.
    + intros H2 Hs2. destruct (Hm H2 Hs2) as (H3 & H4). split; [by apply Hk|]. intros n Hn. apply Hk; [done|]. by apply H4.
    + intros H2 Hs2. destruct (Hm H2 Hs2) as (H3 & H4). split; [by apply Hk|]. intros i b Hi Hb. apply Hk; [done|]. by eapply H4.
    + destruct Hm as (Hp & Hm). split; [done|]. intros H2 Hs2. destruct (Hm H2 Hs2) as (H3 & H4). split; [by apply Hk|]. intros i Hi. apply Hk; [done|]. by apply H4.
    + destruct Hm as (Hp & Hq). split; [done|]. intros H2 r Hs2. apply Hk; [done|]. by apply Hq.
Qed.
Lemma calm_try_path {A} o (k : path -> prog (sres A)) H (Q : sres A -> gmap N path -> Prop) :
  (forall c H', H ⊆ H' -> Q (Err c) H') -> (forall p, o = Some p -> calm (k p) H Q) -> calm (try_path o k) H Q.
Proof. intros Hq Hk. destruct o; cbn; [by apply Hk|]. intros H' Hs. by apply Hq. Qed.
Lemma calm_try_io {A C} (m : prog (option A)) (k : A -> prog (sres C)) H (Q : sres C -> gmap N path -> Prop) :
  (forall c H', H ⊆ H' -> Q (Err c) H') -> calm m H (fun o H' => forall a, o = Some a -> calm (k a) H' Q) -> calm (try_io m k) H Q.
Proof.
  intros Hq Hm. apply calm_bind. eapply calm_impl; [exact Hm|]. intros [a|] H' Hs Hk; [by apply Hk|].
  intros H2 Hs2. apply Hq. by etransitivity.
Qed.
Lemma calm_try_res {A C} (m : prog (sres A)) (k : A -> prog (sres C)) H (Q : sres C -> gmap N path -> Prop) :
  (forall c H', H ⊆ H' -> Q (Err c) H') -> calm m H (fun o H' => forall a, o = Ok a -> calm (k a) H' Q) -> calm (try_res m k) H Q.
Proof.
  intros Hq Hm. apply calm_bind. eapply calm_impl; [exact Hm|]. intros [a|] H' Hs Hk; [by apply Hk|].
  intros H2 Hs2. apply Hq. by etransitivity.
Qed.

(* Where the file, as long as anyone can read it, has its content. *)
Record undisturbed (H : gmap N path) (s : fs) : Prop := Undisturbed {
  un_wf : wf s;
  un_node : forall q i, fs_nodes s !! q = Some (NFile i) -> H !! i = Some q;
  un_data : forall i, H !! i = Some p -> data_of s i = c;
  un_next : forall i, is_Some (H !! i) -> (i < fs_next s)%N
}.

Lemma calm_exec e {A R} (sc : syscall R) (k : R -> prog A) Q H s s1 r :
  undisturbed H s -> calm (Do sc k) H Q -> exec e sc s = (s1, r) -> exists H', H ⊆ H' /\ undisturbed H' s1 /\ calm (k r) H' Q.
Proof.
  intros Hh Hm E. assert (Hwf1 : wf s1) by (change s1 with ((s1, r).1); rewrite <- E; by apply wf_exec, (un_wf _ _ Hh)).
  assert (Hsub : forall (ns : gmap path node), (forall p i, ns !! p = Some (NFile i) -> fs_nodes s !! p = Some (NFile i)) ->
    wf (set_nodes s ns) -> undisturbed H (set_nodes s ns)).
  { intros ns Hns Hw. split; [done| |apply Hh|apply Hh]. intros q i Hq. by apply (un_node _ _ Hh), Hns. }
  destruct sc; cbn [calm] in Hm.
  all: try (assert (s1 = s) as -> by (cbn [exec] in E; try destruct h; congruence); exists H; split; [done|]; split; [done|]; by apply Hm).
  - (* COpen *) cbn [exec] in E. destruct (Hm H (reflexivity _)) as (H1 & H2 & H3). exists H. split; [done|].
    destruct (negb _); [by injection E as <- <-|]. destruct (fs_nodes s !! p0) as [[|i]|] eqn:Hp; injection E as <- <-; split; try done.
    by apply H3, (un_node _ _ Hh).
  - (* CLen *) cbn [exec] in E. destruct (Hm H (reflexivity _)) as (H1 & H2). exists H. split; [done|].
    destruct h as [d|i]; injection E as <- <-; split; try done; apply H2; [done|]. intros i' [= <-] Hi. by rewrite (un_data _ _ Hh i Hi).
  - (* CRead *) cbn [exec] in E. destruct (Hm H (reflexivity _)) as (H1 & H2). exists H. split; [done|].
    destruct h as [d|i]; injection E as <- <-; split; try done. apply (H2 i); [done|]. intros Hi. rewrite (un_data _ _ Hh i Hi).
    destruct (piece_prefix e (drop off c)) as [x Hx]. exists x. split; [done|]. intros Hn. rewrite Hn in Hx. cbn in Hx. rewrite <- Hx. by apply (piece_nil e).
  - (* CCreate *) cbn [exec] in E. destruct Hm as (Hne & Hm). destruct (Hm H (reflexivity _)) as (H1 & H2).
    assert (Hsame : (s1, r) = (s, None) -> exists H', H ⊆ H' /\ undisturbed H' s1 /\ calm (k r) H' Q) by (intros [= -> ->]; by exists H).
    destruct (negb _); [by apply Hsame|]. destruct (fs_nodes s !! p0) as [[|i]|] eqn:Hp; [by apply Hsame| |].
    + injection E as <- <-. exists H. split; [done|]. split; [|by apply H2, (un_node _ _ Hh)]. split; [done|apply Hh| |apply Hh].
      intros j Hj. unfold data_of. cbn. rewrite lookup_insert_ne; [by apply (un_data _ _ Hh)|]. intros ->. apply (un_node _ _ Hh) in Hp. congruence.
    + destruct (parent p0) as [[q c']|]; [|by apply Hsame]. destruct (is_dir s q); [|by apply Hsame]. injection E as <- <-.
      assert (Hnew : H !! fs_next s = None).
      { destruct (H !! fs_next s) eqn:E1; [|done]. assert (fs_next s < fs_next s)%N by (apply (un_next _ _ Hh); by eexists). lia. }
      exists (<[fs_next s := p0]> H). assert (Hs : H ⊆ <[fs_next s := p0]> H) by by apply insert_subseteq. split; [done|].
      split; [|apply Hm; [done|apply lookup_insert]]. split; [done| | |].
      * cbn. intros q' j Hq'. destruct (decide (p0 = q')) as [<-|Hne'].
        -- rewrite lookup_insert in Hq'. injection Hq' as <-. apply lookup_insert.
        -- rewrite lookup_insert_ne in Hq' by done. eapply lookup_weaken; [|exact Hs]. by apply (un_node _ _ Hh).
      * intros j Hj. unfold data_of. cbn. destruct (decide (fs_next s = j)) as [<-|Hij]; [rewrite lookup_insert in Hj; congruence|].
        rewrite lookup_insert_ne in Hj by done. rewrite lookup_insert_ne by done. by apply (un_data _ _ Hh).
      * cbn. intros i Hi. destruct (decide (fs_next s = i)) as [<-|Hne']; [lia|]. rewrite lookup_insert_ne in Hi by done.
        pose proof (un_next _ _ Hh _ Hi). lia.
  - (* CWrite *) destruct Hm as ((q & Hq & Hne) & Hk). cbn [exec] in E. injection E as <- <-. exists H. split; [done|]. split; [|by apply Hk].
    split; [done|apply Hh| |apply Hh]. intros j Hj. unfold data_of at 1. cbn. rewrite lookup_insert_ne; [by apply (un_data _ _ Hh)|]. intros ->. congruence.
  - (* CMkdir *) exists H. split; [done|]. split; [|by apply Hm]. cbn [exec] in E. destruct (negb _); [by injection E as <- _|].
    destruct (fs_nodes s !! p0) eqn:Hp; [by injection E as <- _|]. destruct (has_parent s p0); [|by injection E as <- _]. injection E as <- _.
    apply Hsub; [|done]. intros q i Hq. destruct (decide (p0 = q)) as [<-|Hne]; [by rewrite lookup_insert in Hq|]. by rewrite lookup_insert_ne in Hq.
  - (* CUnlink *) exists H. split; [done|]. split; [|by apply Hm]. cbn [exec] in E. destruct (e_os_ok e p0); [|by injection E as <- _].
    destruct (fs_nodes s !! p0) as [[|i]|]; [by injection E as <- _| |by injection E as <- _]. injection E as <- _.
    apply Hsub; [|done]. by intros q j [_ Hq]%lookup_delete_Some.
  - (* CRmdir *) exists H. split; [done|]. split; [|by apply Hm]. cbn [exec] in E. destruct (e_os_ok e p0); [|by injection E as <- _].
    destruct (fs_nodes s !! p0) as [[|i]|]; [|by injection E as <- _|by injection E as <- _]. destruct (bool_decide _); [|by injection E as <- _]. injection E as <- _.
    apply Hsub; [|done]. by intros q j [_ Hq]%lookup_delete_Some.
Qed.
Lemma calm_fail {A R} (sc : syscall R) (k : R -> prog A) Q H : calm (Do sc k) H Q -> calm (k (fail_of sc)) H Q.
Proof. destruct sc; cbn [calm fail_of]; intros Hm; by apply Hm. Qed.
Lemma calm_psteps e {A} s (ms : list (prog A)) s' ms' : psteps e s ms s' ms' -> forall H (Qs : list (A -> gmap N path -> Prop)), undisturbed H s ->
  Forall2 (fun m Q => calm m H Q) ms Qs -> exists H', H ⊆ H' /\ undisturbed H' s' /\ Forall2 (fun m Q => calm m H' Q) ms' Qs.
Proof.
  induction 1 as [s ms|s ms i m s1 m1 s2 ms2 Hi Hst Hps IH]; intros H Qs Hh Hf; [by exists H|].
  destruct (Forall2_lookup_l _ _ _ _ _ Hf Hi) as (Q & HQ & Hm).
  assert (Hgo : exists H', H ⊆ H' /\ undisturbed H' s1 /\ calm m1 H' Q).
  { destruct m as [a|R sc k]; [done|]. destruct Hst as [Hst|Hst].
    - destruct (exec e sc s) as [s3 r] eqn:E. injection Hst as -> ->. by eapply calm_exec.
    - injection Hst as -> ->. exists H. split; [done|]. split; [done|]. by apply calm_fail. }
  destruct Hgo as (H1 & Hs1 & Hh1 & Hm1). destruct (IH H1 Qs Hh1) as (H2 & Hs2 & Hh2 & Hf2).
  - rewrite <- (list_insert_id Qs i Q HQ). apply Forall2_insert; [|done]. eapply Forall2_impl; [exact Hf|]. intros m2 Q2. by apply calm_mono.
  - exists H2. split; [by etransitivity|done].
Qed.

(** ** Programs that write nothing *)

Fixpoint mild {A} (m : prog A) : Prop :=
  match m with
  | Ret _ => True
  | Do sc k => match sc in syscall R return (R -> prog A) -> Prop with CWrite _ _ _ => fun _ => False | CCreate _ => fun _ => False | _ => fun k => forall r, mild (k r) end k
  end.
Lemma mild_bind {A C} (m : prog A) (f : A -> prog C) : mild m -> (forall a, mild (f a)) -> mild (bind m f).
Proof. intros Hm Hf. induction m as [a|R sc k IH]; [apply Hf|]. destruct sc; cbn in *; try done; intros r; by apply IH. Qed.
Lemma mild_calm {A} (m : prog A) : mild m -> forall H (Q : A -> gmap N path -> Prop), (forall a H', H ⊆ H' -> Q a H') -> calm m H Q.
Proof.
  induction m as [a|R sc k IH]; intros Hm H Q HQ; cbn [calm]; [intros H' Hs; by apply HQ|].
  assert (Hr : forall r H', (match sc with CWrite _ _ _ => False | CCreate _ => False | _ => True end) -> H ⊆ H' -> calm (k r) H' Q).
  { intros r H' Hc Hs. apply IH; [destruct sc; try done; apply Hm|]. intros a H2 Hs2. apply HQ. by etransitivity. }
  destruct sc; try done; try (intros H' r Hs; by apply Hr); intros H' Hs; repeat split; intros; by apply Hr.
Qed.
End calm.

Ltac mild := repeat first [done | apply mild_bind | progress cbn [mild call] | intros ? | case_match | progress unfold try_path, try_io, try_res].
Lemma mild_read_rest n : forall h off, mild (read_rest n h off).
Proof. induction n as [|n IH]; intros h off; cbn [read_rest]; mild. Qed.
Ltac mild ::= repeat first [done | apply mild_read_rest | apply mild_bind | progress cbn [mild call] | intros ? | case_match | progress unfold try_path, try_io, try_res].
Lemma mild_read_file p : mild (read_file p).
Proof. unfold read_file. mild. Qed.
Lemma mild_create_dir_all p : mild (create_dir_all p).
Proof. unfold create_dir_all. induction (rev p) as [|x rp IH]; cbn [create_dir_all_rev]; mild. Qed.
Lemma mild_load e b k : mild (load_metadata e b k).
Proof. unfold load_metadata. mild; try apply mild_read_file. Qed.
Lemma mild_md5 e b k : mild (get_md5_sum e b k).
Proof. unfold get_md5_sum. mild; try apply mild_read_file. Qed.
Lemma mild_remove n : forall p, mild (remove_dir_all n p).
Proof.
  induction n as [|n IH]; intros p; cbn [remove_dir_all]; [done|]. apply mild_bind; [done|]. intros [es|]; [|done].
  induction es as [|[x d] es IHes]; [done|]. apply mild_bind; [destruct d; [apply IH|done]|]. intros [u|]; [exact IHes|done].
Qed.
Lemma mild_list_entries root x dir es : mild (list_entries root x dir es).
Proof. induction es as [|[y d] es IH]; cbn [list_entries]; mild. Qed.
Lemma mild_list_queue root x : forall n q, mild (list_queue n root x q).
Proof. induction n as [|n IH]; intros [|dir q]; cbn [list_queue]; mild; try apply mild_list_entries. Qed.
Lemma mild_buckets es : mild (bucket_entries es).
Proof. induction es as [|[y d] es IH]; cbn [bucket_entries]; mild. Qed.
Lemma mild_existing e b ks : mild (existing_objects e b ks).
Proof. induction ks as [|k ks IH]; cbn [existing_objects]; mild. Qed.
Lemma mild_remove_objects l : mild (remove_objects l).
Proof. induction l as [|[p k] l IH]; cbn [remove_objects]; mild. Qed.
Lemma mild_stream fuel : forall h off lim, mild (stream_file fuel h off lim).
Proof. induction fuel as [|fuel IH]; intros h off lim; cbn [stream_file]; mild. Qed.

(** ** Every request *)

Section requests.
Context (e : env) (p : path) (c : bytes).

Lemma calm_write (i : N) q ps : q <> p -> forall H off (Q : option nat -> gmap N path -> Prop), H !! i = Some q ->
  (forall o H', H ⊆ H' -> Q o H') -> calm p c (write_pieces i off ps) H Q.
Proof.
  intros Hne. induction ps as [|b ps IH]; intros H off Q Hi HQ; cbn [write_pieces].
  - intros H' Hs. by apply HQ.
  - cbn [call bind calm]. split; [by exists q|]. intros H' [u|] Hs; [|intros H2 Hs2; apply HQ; by etransitivity].
    apply IH; [by eapply lookup_weaken|]. intros o H2 Hs2. apply HQ. by etransitivity.
Qed.
Lemma calm_copy_bytes (i : N) q body : q <> p -> forall H off (Q : option nat -> gmap N path -> Prop), H !! i = Some q ->
  (forall o H', H ⊆ H' -> Q o H') -> calm p c (copy_bytes e i off body) H Q.
Proof.
  intros Hne. induction body as [|[b|] body IH]; intros H off Q Hi HQ; cbn [copy_bytes]; [intros H' Hs; by apply HQ| |intros H' Hs; by apply HQ].
  apply calm_bind, (calm_write i q); [done|done|]. intros [o|] H' Hs; [|intros H2 Hs2; apply HQ; by etransitivity].
  apply IH; [by eapply lookup_weaken|]. intros o' H2 Hs2. apply HQ. by etransitivity.
Qed.
Lemma calm_transfer n h (j : N) q : q <> p -> forall H roff woff (Q : option nat -> gmap N path -> Prop), H !! j = Some q ->
  (forall o H', H ⊆ H' -> Q o H') -> calm p c (transfer e n h roff j woff) H Q.
Proof.
  intros Hne. induction n as [|n IH]; intros H roff woff Q Hj HQ; cbn [transfer]; [intros H' Hs; by apply HQ|].
  cbn [call bind calm]. intros H1 Hs1. split; [intros H2 Hs2; apply HQ; by etransitivity|].
  intros i [|a b] _ _; [intros H2 Hs2; apply HQ; by etransitivity|].
  apply calm_bind, (calm_write j q); [done|by eapply lookup_weaken|].
  intros [o|] H2 Hs2; [|intros H3 Hs3; apply HQ; etransitivity; [exact Hs1|by etransitivity]].
  assert (H ⊆ H2) by by etransitivity. apply IH; [by eapply lookup_weaken|]. intros o' H3 Hs3. apply HQ. by etransitivity.
Qed.
Lemma calm_append p' (j : N) q off H (Q : option nat -> gmap N path -> Prop) : q <> p -> H !! j = Some q ->
  (forall o H', H ⊆ H' -> Q o H') -> calm p c (append_file e p' j off) H Q.
Proof.
  intros Hne Hj HQ. unfold append_file. apply calm_bind, mild_calm; [done|]. intros [h|] H1 Hs1; [|intros H2 Hs2; apply HQ; by etransitivity].
  cbn [call bind calm]. intros H2 n Hs2. assert (H ⊆ H2) by by etransitivity. apply (calm_transfer _ _ _ q); [done|by eapply lookup_weaken|].
  intros o H3 Hs3. apply HQ. by etransitivity.
Qed.
Lemma calm_copy_file p' q H (Q : option unit -> gmap N path -> Prop) : q <> p ->
  (forall o H', H ⊆ H' -> Q o H') -> calm p c (copy_file e p' q) H Q.
Proof.
  intros Hne HQ. unfold copy_file. apply calm_bind, mild_calm; [done|]. intros [[d|i]|] H1 Hs1; try (intros H2 Hs2; apply HQ; by etransitivity).
  cbn [call bind calm]. split; [done|]. intros H2 Hs2. assert (H ⊆ H2) by by etransitivity. split; [intros H3 Hs3; apply HQ; by etransitivity|].
  intros j Hj H3 n Hs3. apply calm_bind, (calm_transfer _ _ _ q); [done|by eapply lookup_weaken|].
  intros [o|] H4 Hs4 H5 Hs5; apply HQ; (do 3 (etransitivity; [eassumption|]); done).
Qed.
Lemma calm_write_file q b H (Q : option unit -> gmap N path -> Prop) : q <> p ->
  (forall o H', H ⊆ H' -> Q o H') -> calm p c (write_file e q b) H Q.
Proof.
  intros Hne HQ. unfold write_file. cbn [call bind calm]. split; [done|]. intros H1 Hs1. split; [intros H2 Hs2; apply HQ; by etransitivity|].
  intros i Hi. apply calm_bind, (calm_write i q); [done|done|]. intros [o|] H2 Hs2 H3 Hs3; apply HQ; (do 2 (etransitivity; [eassumption|]); done).
Qed.
Lemma calm_parts u q ps : q <> p -> forall (j : N) H off cnt (Q : sres nat -> gmap N path -> Prop), H !! j = Some q ->
  (forall o H', H ⊆ H' -> Q o H') -> calm p c (append_parts e u j off cnt ps) H Q.
Proof.
  intros Hne. induction ps as [|[n|] ps IH]; intros j H off cnt Q Hj HQ; cbn [append_parts]; [intros H' Hs; by apply HQ| |intros H' Hs; by apply HQ].
  destruct (negb _); [intros H' Hs; by apply HQ|]. apply calm_try_path; [by intros; apply HQ|]. intros p' Hp. apply calm_try_io; [by intros; apply HQ|].
  apply (calm_append p' j q); [done|done|]. intros o H1 Hs1 off' _. apply calm_try_io; [intros c' H' Hs; apply HQ; by etransitivity|].
  cbn [call calm]. intros H2 v Hs2 H3 Hs3 [] _. assert (H ⊆ H3) by (etransitivity; [exact Hs1|by etransitivity]).
  apply IH; [by eapply lookup_weaken|]. intros o' H4 Hs4. apply HQ. by etransitivity.
Qed.

(* What an answer to a download of [p] says. *)
Definition ready (r : s_req) (a : sres s_ans) (H : gmap N path) : Prop :=
  forall b k x h off lim len md tag, r = RGetObject b k x -> get_object_path e b k = Some p -> a = Ok (AGet h off lim len md tag) ->
  tag = etag_of c /\ len = lim /\ forall i, h = HFile i -> H !! i = Some p /\ exists rg, parse_range x = Some rg /\ extent rg (N.of_nat (length c)) = Ok (off, lim).
Lemma ready_other r a H : (forall b k x, r <> RGetObject b k x) -> ready r a H.
Proof. intros Hr b k x h off lim len md tag E. by destruct (Hr b k x). Qed.

Lemma calm_read_rest n i : forall off H (Q : option bytes -> gmap N path -> Prop), H !! i = Some p ->
  (forall H', H ⊆ H' -> Q None H' /\ Q (Some (drop off c)) H') -> calm p c (read_rest n (HFile i) off) H Q.
Proof.
  induction n as [|n IH]; intros off H Q Hi HQ; cbn [read_rest]; [intros H' Hs; by apply HQ|].
  cbn [call bind calm]. intros H1 Hs1. split; [intros H2 Hs2; apply HQ; by etransitivity|]. intros i' b [= <-] Hb.
  destruct Hb as (r & Hr & Hn); [by eapply lookup_weaken|]. destruct b as [|a b].
  - rewrite (Hn eq_refl) in Hr. cbn in Hr. rewrite Hr in HQ. intros H2 Hs2. apply HQ. by etransitivity.
  - apply calm_bind, IH; [by eapply lookup_weaken|]. intros H2 Hs2. assert (H ⊆ H2) by by etransitivity.
    split; intros H3 Hs3; [apply HQ; by etransitivity|].
    assert ((a :: b) ++ drop (off + length (a :: b)) c = drop off c) as ->; [|apply HQ; by etransitivity].
    rewrite <- drop_drop, Hr. by rewrite drop_app.
Qed.
Lemma calm_md5 b k H (Q : option bytes -> gmap N path -> Prop) : get_object_path e b k = Some p ->
  (forall H', H ⊆ H' -> Q None H' /\ Q (Some (etag_of c)) H') -> calm p c (get_md5_sum e b k) H Q.
Proof.
  intros Hp HQ. unfold get_md5_sum. rewrite Hp. apply calm_bind. unfold read_file. cbn [call bind calm]. intros H1 Hs1.
  assert (HN : forall H', H1 ⊆ H' -> calm p c (Ret None : prog (option bytes)) H' Q).
  { intros H2 Hs2 H3 Hs3. apply HQ. do 2 (etransitivity; [eassumption|]). done. }
  split; [intros H2 Hs2; by apply HN|]. split.
  - intros d H2 n Hs2. destruct n as [|n]; cbn [read_rest call bind calm]; [intros H3 Hs3; apply HN; by etransitivity|].
    intros H3 Hs3. split; [|done]. intros H4 Hs4. apply HN. do 2 (etransitivity; [eassumption|]). done.
  - intros i Hi H2 n Hs2. apply calm_read_rest; [by eapply lookup_weaken|]. intros H3 Hs3. assert (H1 ⊆ H3) by by etransitivity.
    split; [by apply HN|]. rewrite drop_0. intros H4 Hs4. apply HQ. do 2 (etransitivity; [eassumption|]). done.
Qed.
Lemma calm_get b k x H : get_object_path e b k = Some p -> calm p c (get_object e b k x) H (ready (RGetObject b k x)).
Proof.
  intros Hp. assert (Herr : forall c H, ready (RGetObject b k x) (Err c) H) by by intros c' H' ? ? ? ? ? ? ? ? ? ?.
  unfold get_object. rewrite Hp. cbn [try_path].
  assert (Hgo : forall r, parse_range x = Some r -> calm p c (bind (call (COpen p)) (fun o =>
        match o with
        | None => Ret (Err NoSuchKey)
        | Some h =>
            try_io (call (CLen h)) (fun file_len =>
            try_res (get_extent h r file_len) (fun ol =>
            try_io (load_metadata e b k) (fun md =>
            try_io (get_md5_sum e b k) (fun tag =>
              if (ol.2 <=? i64_max)%N then Ret (Ok (AGet h ol.1 ol.2 ol.2 md tag))
              else Ret (Err InternalError)))))
        end)) H (ready (RGetObject b k x))).
  2:{ unfold parse_range in Hgo. destruct x as [str|]; [|by apply Hgo]. destruct (range_from_header_str str) as [r|]; [by apply Hgo|]. intros H' Hs. apply Herr. }
  intros r Hr. cbn [call bind calm]. intros H1 Hs1.
  assert (Hrest : forall h H2, (forall i, h = HFile i -> H2 !! i = Some p) -> calm p c (try_io (call (CLen h)) (fun file_len =>
            try_res (get_extent h r file_len) (fun ol =>
            try_io (load_metadata e b k) (fun md =>
            try_io (get_md5_sum e b k) (fun tag =>
              if (ol.2 <=? i64_max)%N then Ret (Ok (AGet h ol.1 ol.2 ol.2 md tag))
              else Ret (Err InternalError)))))) H2 (ready (RGetObject b k x))).
  { intros h H2 Hh. apply calm_try_io; [done|]. cbn [call calm]. intros H3 Hs3. split; [done|]. intros n Hn H3' Hs3' n' [= <-].
    assert (Hn' : forall i, h = HFile i -> n = N.of_nat (length c)) by (intros i Hi; eapply Hn; [done|]; eapply lookup_weaken; [by apply Hh|done]).
    assert (Hh3 : forall i, h = HFile i -> H3' !! i = Some p).
    { intros i Hi. eapply lookup_weaken; [by apply Hh|by etransitivity]. }
    clear Hh Hn. apply calm_try_res; [done|]. eapply (calm_impl _ _ _ (fun o _ => forall i ol, h = HFile i -> o = Ok ol -> extent r (N.of_nat (length c)) = Ok ol)).
    { unfold get_extent. destruct r as [[f l|l]|].
      - destruct (n <=? f)%N eqn:E; intros H4 Hs4 i ol Hi Ho; [done|]. rewrite <- (Hn' i Hi). unfold extent. by rewrite E.
      - destruct ((l <=? n)%N && (l <=? i64_max)%N) eqn:E; [|by intros H4 Hs4]. apply calm_try_io; [done|]. cbn [call calm]. intros H4 Hs4. split; [done|].
        intros n' Hn4 H5 Hs5 n'' [= <-]. destruct (l <=? n')%N; intros H6 Hs6 i ol Hi Ho; [|done]. injection Ho as <-.
        assert (n' = n) as ->. { rewrite (Hn' i Hi). eapply Hn4; [done|]. eapply lookup_weaken; [by apply Hh3|done]. }
        rewrite <- (Hn' i Hi). unfold extent. by rewrite E.
      - intros H4 Hs4 i ol Hi Ho. injection Ho as <-. by rewrite <- (Hn' i Hi). }
    intros o H4 Hs4 Ho ol ->.
    apply calm_try_io; [done|]. apply mild_calm; [apply mild_load|]. intros o2 H5 Hs5 md _.
    apply calm_try_io; [done|]. apply calm_md5; [done|]. intros H6 Hs6. split; [done|]. intros tag [= <-].
    destruct (_ <=? _)%N; intros H7 Hs7; [|done]. intros b' k' x' h' off lim len' md' tag' [= <- <- <-] Hp' [= -> <- <- <- <- <-].
    split; [done|]. split; [done|]. intros i Hi. split; [|exists r; split; [done|]].
    - assert (H3' ⊆ H7) by (do 3 (etransitivity; [eassumption|]); done). eapply lookup_weaken; [by apply Hh3|done].
    - rewrite (Ho i ol Hi eq_refl). by destruct ol. }
  split; [by intros H2 Hs2|]. split; [intros d; by apply Hrest|]. intros i Hi. apply Hrest. by intros ? [= <-].
Qed.

Lemma calm_storage r H : spares_file e p r -> calm p c (storage e r) H (ready r).
Proof.
  intros Hr. destruct r; cbn [storage spares_file] in *; try (apply mild_calm; [|intros a H' _; by apply ready_other];
    unfold create_bucket, delete_bucket, delete_object, delete_objects, get_bucket_location, get_object, head_bucket, head_object, list_buckets, list_objects, create_multipart_upload; mild;
    auto using mild_read_file, mild_load, mild_md5, mild_remove, mild_list_queue, mild_buckets, mild_existing, mild_remove_objects; fail).
  all: try match goal with |- calm _ _ (get_object _ _ _ _) _ _ => destruct (decide (get_object_path e bucket key = Some p)) as [Hp|Hp]; [by apply calm_get|] end.
  all: match goal with |- calm _ _ _ _ (ready ?r) => eapply (calm_impl _ _ _ (fun _ _ => True)); [|intros a H' _ _; first [by apply ready_other | by intros ? ? ? ? ? ? ? ? ? [= <- <- <-] ?]] end.
  - (* CopyObject *) destruct Hr as [Ho Hm]. unfold copy_object. destruct (copy_source_from_header_str _) as [[sb sk]|] eqn:Hsrc; [|done].
    apply calm_try_path; [done|]. intros p1 Hp1. apply calm_try_path; [done|]. intros q Hq. apply calm_try_io; [done|].
    cbn [call calm]. intros H1 o1 Hs1 H2 Hs2 u1 _. apply calm_try_io; [done|]. apply calm_copy_file; [congruence|].
    intros o2 H3 Hs3 u2 _. apply calm_try_path; [done|]. intros p' Hp'. cbn [call bind calm]. intros H4 ex Hs4.
    assert (Hend : forall H, calm p c (try_io (get_md5_sum e sb sk) (fun tag => Ret (Ok (ACopy tag)))) H (fun _ _ => True)).
    { intros H5. apply mild_calm; [|done]. mild; auto using mild_md5. }
    apply calm_try_io; [done|]. destruct ex; [|intros H5 Hs5 u3 _; apply Hend]. destruct (get_metadata_path e bucket key) as [q'|] eqn:Hq'; [|done].
    apply calm_copy_file; [congruence|intros o5 H5 Hs5 u3 _; apply Hend].
  - (* GetObject *) apply mild_calm; [|done]. unfold get_object. mild; auto using mild_load, mild_md5. all: unfold get_extent; mild.
  - (* PutObject *) destruct Hr as [Ho Hm]. unfold put_object. destruct (negb _); [done|]. destruct body as [body|]; [|done]. destruct (ends_with_char _ _).
    { apply mild_calm; [|done]. mild. apply mild_create_dir_all. }
    apply calm_try_path; [done|]. intros p1 Hp. apply calm_try_io; [done|]. apply mild_calm.
    { destruct (parent p1) as [[q c']|]; [apply mild_create_dir_all|done]. }
    intros o1 H1 Hs1 u1 _. apply calm_try_io; [done|]. cbn [call calm]. split; [congruence|]. intros H2 Hs2. split; [done|]. intros i Hi H3 Hs3 i' [= <-].
    apply calm_try_io; [done|]. apply (calm_copy_bytes i p1); [congruence|by eapply lookup_weaken|].
    intros o4 H4 Hs4 u4 _. apply calm_try_io; [done|]. destruct md as [m|]; [|done]. unfold save_metadata.
    destruct (get_metadata_path e bucket key) as [q|] eqn:Hq; [|done]. apply calm_write_file; [|done]. intros ->. by apply Hm.
  - (* UploadPart *) unfold upload_part. destruct body as [body|]; [|done].
    apply calm_try_path; [done|]. intros p1 Hp. apply calm_try_io; [done|]. cbn [call calm]. split; [congruence|]. intros H2 Hs2. split; [done|]. intros i Hi H3 Hs3 i' [= <-].
    apply calm_try_io; [done|]. apply (calm_copy_bytes i p1); [congruence|by eapply lookup_weaken|done].
  - (* CompleteMultipartUpload *) unfold complete_multipart_upload. destruct parts as [ps|]; [|done].
    apply calm_try_path; [done|]. intros p1 Hp. apply calm_try_io; [done|]. cbn [call calm]. split; [congruence|]. intros H2 Hs2. split; [done|]. intros i Hi H3 Hs3 i' [= <-].
    apply calm_try_res; [done|]. apply (calm_parts upload_id p1); [congruence|by eapply lookup_weaken|].
    intros o4 H4 Hs4 off _. apply mild_calm; [|done]. mild; auto using mild_md5.
Qed.

Lemma calm_stream i fuel : forall off lim H (Q : list frame -> gmap N path -> Prop), lim < fuel -> H !! i = Some p ->
  (forall fs H', H ⊆ H' -> carried fs `prefix_of` take lim (drop off c) -> (broken fs = false -> carried fs = take lim (drop off c)) -> Q fs H') ->
  calm p c (stream_file fuel (HFile i) off lim) H Q.
Proof.
  induction fuel as [|fuel IH]; intros off lim H Q Hlim Hi HQ; [lia|]. cbn [stream_file call bind calm]. intros H1 Hs1. split.
  { intros H2 Hs2. apply HQ; [by etransitivity|apply prefix_nil|done]. }
  intros i' b [= <-] Hb. destruct Hb as (r & Hr & Hn); [by eapply lookup_weaken|].
  remember (length b `min` (lim `min` 4096)) as n eqn:En. destruct n as [|n].
  - intros H2 Hs2. apply HQ; [by etransitivity|apply prefix_nil|]. intros _. rewrite Hr. destruct lim as [|lim]; [done|].
    destruct b as [|a b]; [by rewrite (Hn eq_refl)|cbn in En; lia].
  - apply calm_bind, IH; [lia|by eapply lookup_weaken|]. intros fs H2 Hs2 Hpre Hall H3 Hs3.
    assert (He : take lim (drop off c) = take (S n) b ++ take (lim - S n) (drop (off + S n) c)).
    { rewrite <- drop_drop, Hr. rewrite <- (take_app_le b r (S n)) by lia. rewrite take_take_drop. by replace (S n + (lim - S n)) with lim by lia. }
    apply HQ; [do 2 (etransitivity; [eassumption|]); done| |]; rewrite He; cbn [carried broken].
    + by apply prefix_app.
    + intros Hbr. by rewrite Hall.
Qed.

(* What is sent for a download of [p]. *)
Definition sent_whole (r : s_req) (a : sres s_ans * list frame) : Prop :=
  forall b k x h off lim len md tag, r = RGetObject b k x -> get_object_path e b k = Some p -> a.1 = Ok (AGet h off lim len md tag) ->
  tag = etag_of c /\ len = lim /\ ((exists d, h = HDir d) /\ a.2 = [FErr] \/ exists rg, parse_range x = Some rg /\ extent rg (N.of_nat (length c)) = Ok (off, lim) /\
    carried a.2 `prefix_of` take (N.to_nat lim) (drop (N.to_nat off) c) /\ (broken a.2 = false -> carried a.2 = take (N.to_nat lim) (drop (N.to_nat off) c))).

Lemma calm_deliver r H : spares_file e p r -> calm p c (deliver e r) H (fun a _ => sent_whole r a).
Proof.
  intros Hr. unfold deliver. apply calm_bind. eapply calm_impl; [by apply calm_storage|]. intros a H1 Hs1 Ho.
  assert (Hno : (forall h off lim len md tag, a <> Ok (AGet h off lim len md tag)) -> sent_whole r (a, [])).
  { intros Ha b k x h off lim len md tag _ _ E. by destruct (Ha h off lim len md tag). }
  destruct a as [[| | |h off lim len md tag| | | | | | |]|]; try (intros H2 Hs2; by apply Hno).
  assert (Hc : (exists b k x, r = RGetObject b k x /\ get_object_path e b k = Some p) \/ ~ exists b k x, r = RGetObject b k x /\ get_object_path e b k = Some p).
  { destruct r; try (right; by intros (? & ? & ? & ? & ?)). destruct (decide (get_object_path e bucket key = Some p)); [left; by eexists _, _, _|].
    right. intros (? & ? & ? & [= <- <- <-] & ?). congruence. }
  destruct Hc as [(b & k & x & -> & Hp)|Hn].
  - destruct (Ho b k x h off lim len md tag eq_refl Hp eq_refl) as (-> & -> & Hh). apply calm_bind. destruct h as [d|i].
    + cbn [stream_file call bind calm]. intros H2 Hs2. split; [|done]. intros H3 Hs3 H4 Hs4.
      intros b' k' x' h' off' lim' len' md' tag' [= <- <- <-] _ [= <- <- <- <- <- <-]. split; [done|]. split; [done|]. left. split; [by exists d|done].
    + destruct (Hh i eq_refl) as (Hi & rg & Hrg & Hext). apply calm_stream; [lia|done|]. intros fs H2 Hs2 Hpre Hall H3 Hs3.
      intros b' k' x' h' off' lim' len' md' tag' [= <- <- <-] _ [= <- <- <- <- <- <-]. split; [done|]. split; [done|]. right. by exists rg.
  - apply mild_calm; [apply mild_bind; [apply mild_stream|done]|]. intros fs H2 Hs2 b k x ? ? ? ? ? ? Hr' Hp. exfalso. apply Hn. by exists b, k, x.
Qed.
End requests.

Lemma undisturbed_start s p c : wf s -> content s p = Some c -> exists H, undisturbed p c H s.
Proof.
  intros Hwf Hc. destruct (paths (fs_nodes s) (wf_inj _ Hwf)) as [H HH]. exists H. split; [done|intros q i Hq; by apply HH| |].
  - intros i Hi%HH. unfold content in Hc. rewrite Hi in Hc. by injection Hc.
  - intros i [q Hq%HH]. by eapply wf_next.
Qed.

(** C98: When a download of an object goes on while other requests are handled, in any interleaving, with any failing calls, and none of them
    writes to the object, but any of them may delete it or its bucket: the tag announced is that of the object, and what is
    sent is the wanted part of it, or breaks off. *)
Theorem C98_undisturbed e s rs s' ms' t b k x p c h off lim len md tag fs :
  wf s -> psteps e s (deliver e <$> rs) s' ms' ->
  get_object_path e b k = Some p -> content s p = Some c -> (N.of_nat (length c) <= i64_max)%N ->
  Forall (spares_file e p) rs ->
  rs !! t = Some (RGetObject b k x) -> ms' !! t = Some (Ret (Ok (AGet h off lim len md tag), fs)) ->
  tag = quoted_md5 c /\
  (broken fs = true -> carried fs = [] \/ exists d, wanted x c d /\ carried fs `prefix_of` d) /\
  (broken fs = false -> wanted x c (carried fs)).
Proof.
  intros Hwf Hst Hp Hc Hlen Hsp Hr Ht. destruct (undisturbed_start s p c Hwf Hc) as [H Hh].
  destruct (calm_psteps p c e s _ s' ms' Hst H ((fun r a _ => sent_whole e p c r a) <$> rs) Hh) as (H' & _ & _ & Hf).
  { apply Forall2_fmap, Forall_Forall2_diag. eapply Forall_impl; [exact Hsp|]. intros r Hr'. by apply calm_deliver. }
  apply Forall2_fmap_r in Hf. pose proof (Forall2_lookup_lr _ _ _ _ _ _ Hf Ht Hr) as Hs. cbn [calm] in Hs. specialize (Hs H' (reflexivity _)).
  destruct (Hs b k x h off lim len md tag eq_refl Hp eq_refl) as (-> & -> & Hcase). cbn [fst snd] in Hcase. split; [done|].
  destruct Hcase as [[_ ->]|(rg & Hrg & Hext & Hpre & Hall)]; [split; [by left|done]|].
  assert (Hw : wanted x c (take (N.to_nat lim) (drop (N.to_nat off) c))).
  { unfold parse_range in Hrg. destruct x as [str|]; cbn [wanted].
    - destruct (range_from_header_str str) as [r|] eqn:Er; [|done]. injection Hrg as <-. apply range_spec in Er. exists r. split; [done|].
      pose proof (extent_slice str r c Er Hlen) as Hx. destruct (slice r c) as [d|]; [|congruence]. destruct Hx as (off' & Hx & <-). rewrite Hext in Hx. injection Hx as -> ->. done.
    - injection Hrg as <-. injection Hext as <- <-. rewrite Nat2N.id, drop_0, take_ge; done. }
  split.
  - intros _. right. by eexists.
  - intros Hb. by rewrite (Hall Hb).
Qed.
Print Assumptions C98_undisturbed.

(** ** Examples *)

(* The object is deleted, and its bucket too, before the first byte is sent. *)
Definition ex_deleting : list s_req := [RGetObject (B "photos") (B "y") None; RDeleteObject (B "photos") (B "y"); RDeleteBucket (B "photos")].
Definition ex_deleted := run_sched ex_env (replicate 12 0 ++ replicate 12 1 ++ replicate 40 2 ++ replicate 40 0) ex_old (deliver ex_env <$> ex_deleting).
Example ex_download_deleted : 
  match ex_deleted.2 with [Ret (Ok (AGet h off lim len md tag), fs); Ret (Ok ADone, []); Ret (Ok ADone, [])] => (carried fs, broken fs) | _ => ([], true) end
  = (B "an old object", false) /\ fs_nodes ex_deleted.1 !! [B "photos"] = None /\ Forall (spares_file ex_env [B "photos"; B "y"]) ex_deleting.
Proof. split; [by vm_compute|]. split; [by vm_compute|]. unfold ex_deleting. repeat constructor. Qed.

(** A download of an object that is being deleted may be refused in a way in which it is refused neither before nor after. *)
Theorem C98_answer_refuted :
  exists e s r r' sched s', wf s /\ run_sched e sched s (deliver e <$> [r; r']) = (s', [Ret (Err InternalError, []); Ret (Ok ADone, [])]) /\
    r = RGetObject (B "photos") (B "y") None /\ r' = RDeleteObject (B "photos") (B "y") /\
    (exists h off lim len md tag, answer e r s = Ok (AGet h off lim len md tag)) /\ answer e r s' = Err NoSuchKey.
Proof.
  set (r := RGetObject (B "photos") (B "y") None). set (r' := RDeleteObject (B "photos") (B "y")). set (sched := replicate 3 0 ++ replicate 12 1 ++ replicate 12 0).
  exists ex_env, ex_old, r, r', sched, (run_sched ex_env sched ex_old (deliver ex_env <$> [r; r'])).1.
  split; [apply wf_run, wf_two|]. split; [vm_compute; reflexivity|]. split; [done|]. split; [done|]. split; [|by vm_compute].
  eexists _, _, _, _, _, _. vm_compute. reflexivity.
Qed.
Print Assumptions C98_answer_refuted.
