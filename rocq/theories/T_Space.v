(** C96: the space that requests take. *)
From Verif Require Import M_Base M_Path M_Headers M_Chunked M_BytesStream M_Crypto M_Fs M_Json M_Utf8 M_Storage
  S_Path S_Headers S_Chunked S_Storage S_Store
  L_Base L_Path L_Fs L_Storage L_Scope L_Names L_Ops L_Results L_Tidy T_Store T_Copy.

Local Opaque md5 etag_of json_decode json_encode metadata_name part_name.

(** ** What the theorem says *)

(* The bytes in all files of the store. *)
Definition file_size (s : fs) (n : node) : nat := match n with NFile i => length (data_of s i) | NDir => 0 end.
Definition volume (s : fs) : nat := map_fold (fun _ n v => file_size s n + v) 0 (fs_nodes s).

(* The bytes that come with a request: those of its body as far as it can be read, and its metadata as JSON.  Not said here
   for the requests that store what is already in the store. *)
Definition brought (r : s_req) : option nat :=
  match r with
  | RCopyObject _ _ _ | RCompleteMultipartUpload _ _ _ _ => None
  | RPutObject _ _ _ _ md (Some body) => Some (length (body_data body) + match md with Some m => length (json_encode m) | None => 0 end)
  | RUploadPart _ _ (Some body) => Some (length (body_data body))
  | _ => Some 0
  end.

(** ** Sums over the tree *)

Definition total (f : node -> nat) (m : gmap path node) : nat := map_fold (fun _ n v => f n + v) 0 m.
Lemma volume_total s : volume s = total (file_size s) (fs_nodes s).
Proof. done. Qed.
Lemma total_insert f m p n : m !! p = None -> total f (<[p := n]> m) = f n + total f m.
Proof. intros H. unfold total. rewrite map_fold_insert_L; [done| |done]. intros. lia. Qed.
Lemma total_delete f m p n : m !! p = Some n -> total f m = f n + total f (delete p m).
Proof. intros H. rewrite <- (insert_delete m p n) at 1 by done. apply total_insert, lookup_delete. Qed.
Lemma total_le f g m : (forall p n, m !! p = Some n -> f n <= g n) -> total f m <= total g m.
Proof.
  induction m as [|p n m Hp IH] using map_ind; [intros _; unfold total; by rewrite !map_fold_empty|]. intros H. rewrite !total_insert by done.
  assert (f n <= g n) by (apply (H p), lookup_insert). assert (total f m <= total g m); [|lia]. apply IH. intros q n' Hq. apply (H q).
  rewrite lookup_insert_ne; [done|]. intros ->; congruence.
Qed.
Lemma total_add f g m i d : (forall p q, m !! p = Some (NFile i) -> m !! q = Some (NFile i) -> p = q) ->
  (forall p n, m !! p = Some n -> n <> NFile i -> f n <= g n) -> f (NFile i) <= g (NFile i) + d -> total f m <= total g m + d.
Proof.
  induction m as [|p n m Hp IH] using map_ind; intros Hinj Hne Hi; [unfold total; rewrite !map_fold_empty; lia|]. rewrite !total_insert by done.
  destruct (decide (n = NFile i)) as [->|Hn].
  - assert (total f m <= total g m); [|lia]. apply total_le. intros q n Hq. assert (p <> q) by (intros ->; congruence).
    apply (Hne q); [by rewrite lookup_insert_ne|]. intros ->. assert (p = q); [|done].
    apply Hinj; [apply lookup_insert|by rewrite lookup_insert_ne].
  - assert (f n <= g n) by (apply (Hne p); [apply lookup_insert|done]). assert (total f m <= total g m + d); [|lia]. apply IH.
    + intros q q' H1 H2. apply Hinj; rewrite lookup_insert_ne; try done; by intros ->; congruence.
    + intros q n' H1 H2. apply (Hne q); [|done]. rewrite lookup_insert_ne; [done|]. intros ->. congruence.
    + done.
Qed.

(** ** Programs that write no more than a budget *)

(* [h] counts for every file what has been written to it and what was in it; files never get longer than that. *)
Definition above (h h' : gmap N nat) : Prop := forall i n, h !! i = Some n -> exists n', h' !! i = Some n' /\ n <= n'.
Lemma above_refl h : above h h.
Proof. intros i n Hn. by exists n. Qed.
Lemma above_trans h h1 h2 : above h h1 -> above h1 h2 -> above h h2.
Proof. intros H1 H2 i n Hn. destruct (H1 i n Hn) as (n1 & Hn1 & ?). destruct (H2 i n1 Hn1) as (n2 & ? & ?). exists n2. split; [done|lia]. Qed.

Fixpoint paced {A} (m : prog A) (h : gmap N nat) (n : nat) (Q : A -> gmap N nat -> nat -> Prop) {struct m} : Prop :=
  match m with
  | Ret a => forall h', above h h' -> Q a h' n
  | Do c k =>
      match c in syscall R return (R -> prog A) -> Prop with
      | CWrite i off b => fun k => (exists x, h !! i = Some x /\ off <= x) /\ length b <= n /\
          (forall h' x, above h h' -> h' !! i = Some x -> off + length b <= x -> paced (k (Some tt)) h' (n - length b) Q) /\
          (forall h', above h h' -> paced (k None) h' n Q)
      | CCreate p => fun k => forall h', above h h' -> paced (k None) h' n Q /\ forall i, is_Some (h' !! i) -> paced (k (Some i)) h' n Q
      | _ => fun k => forall h' r, above h h' -> paced (k r) h' n Q
      end k
  end.
Lemma paced_above {A} (m : prog A) Q h h' n : above h h' -> paced m h n Q -> paced m h' n Q.
Proof.
  revert h h' n. induction m as [a|R c k IH]; intros h h' n Hh; cbn [paced].
  - intros H h2 Hh2. apply H. by eapply above_trans.
  - destruct c; try (intros H h2 r Hh2; apply H; by eapply above_trans).
    + intros H h2 Hh2. apply H. by eapply above_trans.
    + intros ((x & Hx & Hoff) & Hb & H1 & H2). split; [|split; [done|split]].
      * destruct (Hh _ _ Hx) as (x' & Hx' & ?). exists x'. split; [done|lia].
      * intros h2 x2 Hh2. apply H1. by eapply above_trans.
      * intros h2 Hh2. apply H2. by eapply above_trans.
Qed.
Lemma paced_bind {A C} (m : prog A) (f : A -> prog C) Q h n : paced m h n (fun a h' n' => paced (f a) h' n' Q) -> paced (bind m f) h n Q.
Proof.
  revert h n. induction m as [a|R c k IH]; intros h n; cbn [paced bind].
  - intros H. apply H, above_refl.
  - destruct c; try (intros H h2 r Hh2; by apply IH, H).
    + intros H h2 Hh2. destruct (H h2 Hh2) as [H1 H2]. split; [by apply IH|]. intros i Hi. by apply IH, H2.
    + intros (Hx & Hb & H1 & H2). split; [done|split; [done|split]].
      * intros h2 x2 Hh2 Hx2 Hle. apply IH. by apply (H1 h2 x2).
      * intros h2 Hh2. by apply IH, H2.
Qed.

(* The files of the store are no longer than [h] says. *)
Record limited (h : gmap N nat) (s : fs) : Prop := Limited {
  lm_wf : wf s;
  lm_size : forall p i, fs_nodes s !! p = Some (NFile i) -> exists x, h !! i = Some x /\ length (data_of s i) <= x;
  lm_next : forall i, is_Some (h !! i) -> (i < fs_next s)%N
}.
Definition limit (h : gmap N nat) (n : node) : nat := match n with NFile i => default 0 (h !! i) | NDir => 0 end.
Lemma limited_volume h s : limited h s -> volume s <= total (limit h) (fs_nodes s).
Proof.
  intros Hl. rewrite volume_total. apply total_le. intros p [|i] Hp; [done|]. cbn. destruct (lm_size _ _ Hl _ _ Hp) as (x & -> & ?). done.
Qed.

Lemma pwrite_length c off b : length (pwrite c off b) <= length c `max` (off + length b).
Proof. unfold pwrite. rewrite !app_length, take_length, replicate_length, drop_length. lia. Qed.

Lemma total_limit_above h h' m : (forall i, h' !! i = h !! i \/ h !! i = None /\ h' !! i = Some 0) -> total (limit h') m = total (limit h) m.
Proof.
  intros H. apply Nat.le_antisymm; apply total_le; intros p [|i] _; cbn; try done; destruct (H i) as [->|[-> ->]]; done.
Qed.

Lemma paced_exec e {A R} (c : syscall R) (k : R -> prog A) Q h n s s1 r :
  limited h s -> paced (Do c k) h n Q -> exec e c s = (s1, r) ->
  exists h' n', above h h' /\ limited h' s1 /\ paced (k r) h' n' Q /\ total (limit h') (fs_nodes s1) + n' <= total (limit h) (fs_nodes s) + n.
Proof.
  intros Hl Hp E. assert (Hwf1 : wf s1) by (change s1 with ((s1, r).1); rewrite <- E; by apply wf_exec, (lm_wf _ _ Hl)).
  destruct c; cbn [paced] in Hp.
  all: try (assert (s1 = s) as -> by (cbn [exec] in E; try destruct h0; congruence); exists h, n; split; [apply above_refl|]; split; [done|]; split; [apply Hp, above_refl|done]).
  - (* CCreate *) cbn [exec] in E. destruct (negb (e_os_ok e p)).
    { injection E as <- <-. exists h, n. split; [apply above_refl|]. split; [done|]. split; [apply Hp, above_refl|done]. }
    destruct (fs_nodes s !! p) as [[|i]|] eqn:Hpn.
    + injection E as <- <-. exists h, n. split; [apply above_refl|]. split; [done|]. split; [apply Hp, above_refl|done].
    + injection E as <- <-. exists h, n. split; [apply above_refl|]. split.
      * split; [done| |by apply Hl]. cbn. intros q j Hq. destruct (lm_size _ _ Hl _ _ Hq) as (x & Hx & ?). exists x. split; [done|].
        unfold data_of. cbn. destruct (decide (i = j)) as [->|Hij]; [rewrite lookup_insert; cbn; lia|]. by rewrite lookup_insert_ne.
      * split; [|done]. apply Hp; [apply above_refl|]. destruct (lm_size _ _ Hl _ _ Hpn) as (x & Hx & ?). by eexists.
    + destruct (parent p) as [[q c]|]; [|injection E as <- <-; exists h, n; split; [apply above_refl|]; split; [done|]; split; [apply Hp, above_refl|done]].
      destruct (is_dir s q); [|injection E as <- <-; exists h, n; split; [apply above_refl|]; split; [done|]; split; [apply Hp, above_refl|done]].
      injection E as <- <-. assert (Hnew : h !! fs_next s = None).
      { destruct (h !! fs_next s) eqn:E1; [|done]. assert (fs_next s < fs_next s)%N by (apply (lm_next _ _ Hl); by eexists). lia. }
      assert (Hab : above h (<[fs_next s := 0]> h)).
      { intros i x Hx. exists x. split; [|done]. rewrite lookup_insert_ne; [done|]. intros <-. congruence. }
      exists (<[fs_next s := 0]> h), n. split; [done|]. split.
      * split; [done| |].
        -- cbn. intros q' j Hq'. destruct (decide (p = q')) as [<-|Hne].
           ++ rewrite lookup_insert in Hq'. injection Hq' as <-. exists 0. rewrite lookup_insert. split; [done|]. unfold data_of. cbn. by rewrite lookup_insert.
           ++ rewrite lookup_insert_ne in Hq' by done. assert (Hj : fs_next s <> j) by (pose proof (wf_next _ (lm_wf _ _ Hl) _ _ Hq'); lia).
              destruct (lm_size _ _ Hl _ _ Hq') as (x & Hx & ?). exists x. rewrite lookup_insert_ne by done. split; [done|].
              unfold data_of. cbn. by rewrite lookup_insert_ne.
        -- cbn. intros i Hi. destruct (decide (fs_next s = i)) as [<-|Hne]; [lia|]. rewrite lookup_insert_ne in Hi by done.
           pose proof (lm_next _ _ Hl _ Hi). lia.
      * split; [apply Hp; [done|]; rewrite lookup_insert; by eexists|]. cbn. rewrite total_insert by done. cbn. rewrite lookup_insert. cbn.
        rewrite (total_limit_above h); [done|]. intros i. destruct (decide (fs_next s = i)) as [<-|Hne]; [right; by rewrite lookup_insert|left; by rewrite lookup_insert_ne].
  - (* CWrite *) destruct Hp as ((x & Hx & Hoff) & Hb & H1 & _). cbn [exec] in E. injection E as <- <-.
    set (h' := <[ino := x + length b]> h).
    assert (Hab : above h h').
    { intros i y Hy. unfold h'. destruct (decide (ino = i)) as [<-|Hne]; [|exists y; by rewrite lookup_insert_ne].
      rewrite lookup_insert. exists (x + length b). split; [done|]. rewrite Hx in Hy. injection Hy as <-. lia. }
    exists h', (n - length b). split; [done|]. split; [split; [done| |]|split].
    + cbn. intros q j Hq. destruct (lm_size _ _ Hl _ _ Hq) as (y & Hy & Hle). unfold h', data_of. cbn. destruct (decide (ino = j)) as [<-|Hne].
      * rewrite !lookup_insert. exists (x + length b). split; [done|]. cbn. etransitivity; [apply pwrite_length|].
        rewrite Hx in Hy. injection Hy as <-. unfold data_of in *. lia.
      * rewrite !lookup_insert_ne by done. by exists y.
    + cbn. intros i Hi. apply (lm_next _ _ Hl). unfold h' in Hi. destruct (decide (ino = i)) as [<-|Hne]; [by eexists|by rewrite lookup_insert_ne in Hi].
    + eapply (H1 h' (x + length b)); [done|apply lookup_insert|lia].
    + cbn. assert (total (limit h') (fs_nodes s) <= total (limit h) (fs_nodes s) + length b); [|lia].
      apply (total_add _ _ _ ino).
      * intros p q. apply (wf_inj _ (lm_wf _ _ Hl)).
      * intros p [|i] Hi Hne; [done|]. cbn. unfold h'. rewrite lookup_insert_ne; [done|]. congruence.
      * cbn. unfold h'. rewrite lookup_insert, Hx. done.
  - (* CMkdir *) cbn [exec] in E.
    assert (Hs1 : s1 = s \/ fs_nodes s !! p = None /\ s1 = set_nodes s (<[p := NDir]> (fs_nodes s))).
    { destruct (negb _); [left; congruence|]. destruct (fs_nodes s !! p); [left; congruence|]. destruct (has_parent s p); [right; split; congruence|left; congruence]. }
    exists h, n. split; [apply above_refl|]. destruct Hs1 as [->|[Hn ->]]; [split; [done|]; split; [apply Hp, above_refl|done]|].
    split; [split; [done| |by apply Hl]|split; [apply Hp, above_refl|]].
    + cbn. intros q i Hq. destruct (decide (p = q)) as [<-|Hne]; [by rewrite lookup_insert in Hq|]. rewrite lookup_insert_ne in Hq by done.
      by apply (lm_size _ _ Hl q).
    + cbn. rewrite total_insert by done. done.
  - (* CUnlink *) cbn [exec] in E.
    assert (Hs1 : s1 = s \/ exists i, fs_nodes s !! p = Some (NFile i) /\ s1 = set_nodes s (delete p (fs_nodes s))).
    { destruct (e_os_ok e p); [|left; congruence]. destruct (fs_nodes s !! p) as [[|i]|]; [left; congruence|right; exists i; split; congruence|left; congruence]. }
    exists h, n. split; [apply above_refl|]. destruct Hs1 as [->|(i & Hn & ->)]; [split; [done|]; split; [apply Hp, above_refl|done]|].
    split; [split; [done| |by apply Hl]|split; [apply Hp, above_refl|]].
    + cbn. intros q j Hq. apply lookup_delete_Some in Hq as [_ Hq]. by apply (lm_size _ _ Hl q).
    + cbn. rewrite (total_delete _ (fs_nodes s) p _ Hn). lia.
  - (* CRmdir *) cbn [exec] in E.
    assert (Hs1 : s1 = s \/ fs_nodes s !! p = Some NDir /\ s1 = set_nodes s (delete p (fs_nodes s))).
    { destruct (e_os_ok e p); [|left; congruence]. destruct (fs_nodes s !! p) as [[|i]|]; [|left; congruence|left; congruence].
      case_bool_decide; [right; split; congruence|left; congruence]. }
    exists h, n. split; [apply above_refl|]. destruct Hs1 as [->|(Hn & ->)]; [split; [done|]; split; [apply Hp, above_refl|done]|].
    split; [split; [done| |by apply Hl]|split; [apply Hp, above_refl|]].
    + cbn. intros q j Hq. apply lookup_delete_Some in Hq as [_ Hq]. by apply (lm_size _ _ Hl q).
    + cbn. rewrite (total_delete _ (fs_nodes s) p _ Hn). lia.
Qed.
Lemma paced_fail {A R} (c : syscall R) (k : R -> prog A) Q h n : paced (Do c k) h n Q -> paced (k (fail_of c)) h n Q.
Proof.
  destruct c; cbn [paced fail_of]; intros Hp; try (apply Hp, above_refl).
Qed.

Lemma paced_psteps e {A} s (ms : list (prog A)) s' ms' : psteps e s ms s' ms' -> forall h ns v, limited h s ->
  Forall2 (fun m n => paced m h n (fun _ _ _ => True)) ms ns -> total (limit h) (fs_nodes s) + sum_list ns <= v -> volume s' <= v.
Proof.
  induction 1 as [s ms|s ms i m s1 m1 s2 ms2 Hi Hst Hps IH]; intros h ns v Hl Hf Hv.
  - apply limited_volume in Hl. lia.
  - destruct (Forall2_lookup_l _ _ _ _ _ Hf Hi) as (n & Hn & Hm).
    assert (Hgo : exists h' n', above h h' /\ limited h' s1 /\ paced m1 h' n' (fun _ _ _ => True) /\
      total (limit h') (fs_nodes s1) + n' <= total (limit h) (fs_nodes s) + n).
    { destruct m as [a|R c k]; [done|]. destruct Hst as [Hst|Hst].
      - destruct (exec e c s) as [s3 r] eqn:E. injection Hst as -> ->. by eapply paced_exec.
      - injection Hst as -> ->. exists h, n. split; [apply above_refl|]. split; [done|]. split; [by apply paced_fail|done]. }
    destruct Hgo as (h' & n' & Hab & Hl' & Hm' & Hle).
    apply (IH h' (<[i := n']> ns) v Hl').
    + apply Forall2_insert; [|done]. eapply Forall2_impl; [exact Hf|]. intros m2 n2. by apply paced_above.
    + assert (sum_list (<[i := n']> ns) + n = sum_list ns + n') as Hsum; [|lia].
      clear -Hn. revert i Hn. induction ns as [|x ns IHn]; intros [|i] Hn; try done; cbn in *.
      * injection Hn as ->. unfold id; lia.
      * specialize (IHn i Hn). rewrite <- !Nat.add_assoc. f_equal. exact IHn.
Qed.

(** ** The requests *)

(* Programs that do not write. *)
Fixpoint quiet {A} (m : prog A) : Prop :=
  match m with
  | Ret _ => True
  | Do c k => match c in syscall R return (R -> prog A) -> Prop with CWrite _ _ _ => fun _ => False | _ => fun k => forall r, quiet (k r) end k
  end.
Lemma quiet_bind {A C} (m : prog A) (f : A -> prog C) : quiet m -> (forall a, quiet (f a)) -> quiet (bind m f).
Proof. intros Hm Hf. induction m as [a|R c k IH]; [apply Hf|]. destruct c; cbn in *; try done; intros r; by apply IH. Qed.
Lemma quiet_paced {A} (m : prog A) : quiet m -> forall h n (Q : A -> gmap N nat -> nat -> Prop), (forall a h', above h h' -> Q a h' n) -> paced m h n Q.
Proof.
  induction m as [a|R c k IH]; intros Hm h n Q HQ; cbn [paced]; [intros h' Hh; by apply HQ|].
  assert (Hr : forall r h', (match c with CWrite _ _ _ => False | _ => True end) -> above h h' -> paced (k r) h' n Q).
  { intros r h' Hc Hh. apply IH; [destruct c; try done; apply Hm|]. intros a h2 Hh2. apply HQ. by eapply above_trans. }
  destruct c; try done; try (intros h' r Hh; by apply Hr). intros h' Hh. split; [by apply Hr|]. intros i _. by apply Hr.
Qed.
Ltac quiet := repeat first [done | apply quiet_bind | progress cbn [quiet call] | intros ? | case_match | progress unfold try_path, try_io, try_res].
Lemma quiet_read_rest n : forall h off, quiet (read_rest n h off).
Proof. induction n as [|n IH]; intros h off; cbn [read_rest]; quiet. Qed.
Lemma quiet_read_file p : quiet (read_file p).
Proof. unfold read_file. quiet. apply quiet_read_rest. Qed.
Ltac quiet ::= repeat first [done | apply quiet_read_rest | apply quiet_bind | progress cbn [quiet call] | intros ? | case_match | progress unfold try_path, try_io, try_res].
Lemma quiet_create_dir_all p : quiet (create_dir_all p).
Proof. unfold create_dir_all. induction (rev p) as [|c rp IH]; cbn [create_dir_all_rev]; quiet. Qed.
Lemma quiet_load e b k : quiet (load_metadata e b k).
Proof. unfold load_metadata. quiet; try apply quiet_read_file. Qed.
Lemma quiet_md5 e b k : quiet (get_md5_sum e b k).
Proof. unfold get_md5_sum. quiet; try apply quiet_read_file. Qed.
Lemma quiet_remove n : forall p, quiet (remove_dir_all n p).
Proof.
  induction n as [|n IH]; intros p; cbn [remove_dir_all]; [done|]. apply quiet_bind; [done|]. intros [es|]; [|done].
  induction es as [|[c d] es IHes]; [done|]. apply quiet_bind; [destruct d; [apply IH|done]|]. intros [u|]; [exact IHes|done].
Qed.
Lemma quiet_list_entries root x dir es : quiet (list_entries root x dir es).
Proof. induction es as [|[c d] es IH]; cbn [list_entries]; quiet. Qed.
Lemma quiet_list_queue root x : forall n q, quiet (list_queue n root x q).
Proof. induction n as [|n IH]; intros [|dir q]; cbn [list_queue]; quiet; try apply quiet_list_entries. Qed.
Lemma quiet_buckets es : quiet (bucket_entries es).
Proof. induction es as [|[c d] es IH]; cbn [bucket_entries]; quiet. Qed.
Lemma quiet_existing e b ks : quiet (existing_objects e b ks).
Proof. induction ks as [|k ks IH]; cbn [existing_objects]; quiet. Qed.
Lemma quiet_remove_objects l : quiet (remove_objects l).
Proof. induction l as [|[p k] l IH]; cbn [remove_objects]; quiet. Qed.

Lemma paced_write (i : N) ps : forall h off n (Q : option nat -> gmap N nat -> nat -> Prop), (exists x, h !! i = Some x /\ off <= x) -> length (concat ps) <= n ->
  (forall h' x, above h h' -> h' !! i = Some x -> off + length (concat ps) <= x -> Q (Some (off + length (concat ps))) h' (n - length (concat ps))) ->
  (forall h' n', above h h' -> Q None h' n') -> paced (write_pieces i off ps) h n Q.
Proof.
  induction ps as [|b ps IH]; intros h off n Q (x & Hx & Hoff) Hn HS HN; cbn [write_pieces].
  - cbn [paced]. cbn in HS. rewrite Nat.add_0_r, Nat.sub_0_r in HS. intros h' Hh. destruct (Hh _ _ Hx) as (y & Hy & ?). apply (HS h' y); [done|done|lia].
  - cbn [concat] in *. rewrite app_length in *. cbn [call bind paced]. split; [by exists x|]. split; [lia|]. split.
    + intros h' y Hh Hy Hle. apply IH; [by exists y|lia| |].
      * intros h2 z Hh2 Hz Hle2. replace (off + length b + length (concat ps)) with (off + (length b + length (concat ps))) by lia.
        replace (n - length b - length (concat ps)) with (n - (length b + length (concat ps))) by lia.
        apply (HS h2 z); [by eapply above_trans|done|lia].
      * intros h2 n2 Hh2. apply HN. by eapply above_trans.
    + intros h' Hh h2 Hh2. apply HN. by eapply above_trans.
Qed.
Lemma paced_copy_bytes e (i : N) body : forall h off n (Q : option nat -> gmap N nat -> nat -> Prop), (exists x, h !! i = Some x /\ off <= x) -> length (body_data body) <= n ->
  (forall h' off', above h h' -> Q (Some off') h' (n - length (body_data body))) ->
  (forall h' n', above h h' -> Q None h' n') -> paced (copy_bytes e i off body) h n Q.
Proof.
  induction body as [|[b|] body IH]; intros h off n Q Hx Hn HS HN; cbn [copy_bytes].
  - cbn [paced]. cbn in HS. rewrite Nat.sub_0_r in HS. intros h' Hh. by apply HS.
  - apply paced_bind. cbn [body_data] in *. rewrite app_length in *. apply paced_write; [done|rewrite e_chop_concat; lia| |].
    + rewrite e_chop_concat. intros h' x Hh Hx' Hle. apply IH; [by exists x|lia| |].
      * intros h2 off' Hh2. replace (n - length b - length (body_data body)) with (n - (length b + length (body_data body))) by lia.
        apply HS. by eapply above_trans.
      * intros h2 n' Hh2. apply HN. by eapply above_trans.
    + intros h' n' Hh h2 Hh2. apply HN. by eapply above_trans.
  - intros h' Hh. by apply HN.
Qed.

Lemma paced_storage e r n : brought r = Some n -> forall h, paced (storage e r) h n (fun _ _ _ => True).
Proof.
  intros Hn h. destruct r; cbn [brought] in Hn; try done; cbn [storage].
  all: try (injection Hn as <-; apply quiet_paced; [|done]).
  all: try (unfold create_bucket, delete_bucket, delete_object, delete_objects, get_bucket_location, get_object, head_bucket, head_object, list_buckets, list_objects, create_multipart_upload; quiet;
    auto using quiet_read_file, quiet_load, quiet_md5, quiet_remove, quiet_list_queue, quiet_buckets, quiet_existing, quiet_remove_objects; fail).
  - (* GetObject *) unfold get_object. quiet; auto using quiet_load, quiet_md5.
    all: unfold get_extent; quiet.
  - (* PutObject *) destruct body as [body|]; unfold put_object; [|destruct (negb _); done]. injection Hn as <-.
    destruct (negb _); [done|]. destruct (ends_with_char _ _).
    { apply quiet_paced; [|done]. quiet. apply quiet_create_dir_all. }
    unfold try_path. destruct (get_object_path e bucket key) as [p|]; [|done]. unfold try_io at 1. apply paced_bind. apply quiet_paced.
    { destruct (parent p) as [[q c]|]; [apply quiet_create_dir_all|done]. }
    intros [u|] h1 _; [|done]. unfold try_io at 1. cbn [bind call paced]. intros h2 _. split; [done|]. intros i [x Hx].
    unfold try_io at 1. apply paced_bind, paced_copy_bytes; [exists x; split; [done|lia]|lia| |done].
    intros h3 off _. destruct md as [m|].
    + unfold try_io, save_metadata. destruct (get_metadata_path e bucket key) as [q|]; [|done]. apply paced_bind. unfold write_file. cbn [bind call paced].
      intros h4 _. split; [done|]. intros j [y Hy]. apply paced_bind, paced_write; [exists y; split; [done|lia]|rewrite e_chop_concat; lia|done|done].
    + done.
  - (* UploadPart *) destruct body as [body|]; unfold upload_part; [|done]. injection Hn as <-.
    unfold try_path. destruct (part_path e upload_id part_number) as [p|]; [|done]. unfold try_io at 1. cbn [bind call paced]. intros h2 _. split; [done|]. intros i [x Hx].
    unfold try_io at 1. apply paced_bind, paced_copy_bytes; [exists x; split; [done|lia]|lia|done|done].
Qed.

Lemma limits (s : fs) (m : gmap path node) : exists h : gmap N nat, (forall (p : path) (i : N), m !! p = Some (NFile i) -> h !! i = Some (length (data_of s i))) /\
  (forall (i : N) x, h !! i = Some x -> x = length (data_of s i) /\ exists p : path, m !! p = Some (NFile i)).
Proof.
  induction m as [|p n m Hp (h & H1 & H2)] using map_ind.
  - exists ∅. split; [intros p i H; by rewrite lookup_empty in H|intros i x H; by rewrite lookup_empty in H].
  - destruct n as [|i].
    + exists h. split.
      * intros q j Hq. destruct (decide (p = q)) as [<-|Hne]; [by rewrite lookup_insert in Hq|]. rewrite lookup_insert_ne in Hq by done. by apply (H1 q).
      * intros j x Hx. destruct (H2 j x Hx) as (? & q & Hq). split; [done|]. exists q. rewrite lookup_insert_ne; [done|]. intros ->. congruence.
    + exists (<[i := length (data_of s i)]> h). split.
      * intros q j Hq. destruct (decide (i = j)) as [<-|Hij]; [apply lookup_insert|]. rewrite lookup_insert_ne by done. apply (H1 q).
        rewrite lookup_insert_ne in Hq; [done|]. intros ->. rewrite lookup_insert in Hq. congruence.
      * intros j x Hx. destruct (decide (i = j)) as [<-|Hij].
        -- rewrite lookup_insert in Hx. split; [congruence|]. exists p. apply lookup_insert.
        -- rewrite lookup_insert_ne in Hx by done. destruct (H2 j x Hx) as (? & q & Hq). split; [done|]. exists q. rewrite lookup_insert_ne; [done|]. intros ->. congruence.
Qed.
Lemma limited_start s : wf s -> exists h, limited h s /\ total (limit h) (fs_nodes s) <= volume s.
Proof.
  intros Hwf. destruct (limits s (fs_nodes s)) as (h & H1 & H2). exists h. split.
  - split; [done| |].
    + intros p i Hp. exists (length (data_of s i)). split; [by apply (H1 p)|done].
    + intros i [x Hx]. destruct (H2 i x Hx) as (_ & p & Hp). by eapply wf_next.
  - rewrite volume_total. apply total_le. intros p [|i] Hp; [done|]. cbn. by rewrite (H1 p i Hp).
Qed.

(** However requests are handled at the same time and whichever calls fail, at every moment the store has grown by at most the
    bytes that came with them. *)
Theorem C96_bounded e rs ns s s' ms' : wf s -> Forall2 (fun r n => brought r = Some n) rs ns ->
  psteps e s (storage e <$> rs) s' ms' -> volume s' <= volume s + sum_list ns.
Proof.
  intros Hwf Hb Hp. destruct (limited_start s Hwf) as (h & Hl & Hv). eapply paced_psteps; [exact Hp|exact Hl| |].
  - apply Forall2_fmap_l. eapply Forall2_impl; [exact Hb|]. intros r n Hr. by apply paced_storage.
  - lia.
Qed.
Print Assumptions C96_bounded.

(** ** Requests that store what is in the store *)

Lemma volume_set_data s i d d' : wf s -> fs_data s !! i = Some d -> volume (set_data s i (d ++ d')) <= volume s + length d'.
Proof.
  intros Hwf Hd. rewrite !volume_total. apply (total_add _ _ _ i).
  - intros p q. apply (wf_inj _ Hwf).
  - intros p [|j] _ Hne; [done|]. cbn. unfold data_of, set_data. cbn. rewrite lookup_insert_ne; [done|]. congruence.
  - cbn. unfold data_of, set_data. cbn. rewrite lookup_insert, Hd. cbn. by rewrite app_length.
Qed.
Lemma volume_create e p s s1 o : wf s -> exec e (CCreate p) s = (s1, o) -> volume s1 <= volume s.
Proof.
  intros Hwf E. cbn [exec] in E. destruct (negb (e_os_ok e p)); [by injection E as <- <-|]. destruct (fs_nodes s !! p) as [[|i]|] eqn:Hp.
  - by injection E as <- <-.
  - injection E as <- <-. rewrite !volume_total. apply total_le. intros q [|j] _; [done|]. cbn. unfold data_of. cbn.
    destruct (decide (i = j)) as [->|Hne]; [rewrite lookup_insert; cbn; lia|by rewrite lookup_insert_ne].
  - destruct (parent p) as [[q c]|]; [|by injection E as <- <-]. destruct (is_dir s q); [|by injection E as <- <-].
    injection E as <- <-. rewrite !volume_total. cbn [fs_nodes]. rewrite total_insert by done. cbn [file_size]. unfold data_of at 1. cbn [fs_data]. rewrite lookup_insert. cbn.
    apply total_le. intros q' [|j] Hq'; [done|]. cbn. unfold data_of. cbn. rewrite lookup_insert_ne; [done|]. pose proof (wf_next _ Hwf _ _ Hq'). lia.
Qed.
Lemma content_create e p s s1 o q : exec e (CCreate p) s = (s1, o) -> q <> p -> wf s -> content s1 q = content s q.
Proof.
  intros E Hne Hwf. cbn [exec] in E. destruct (negb (e_os_ok e p)); [by injection E as <- <-|]. destruct (fs_nodes s !! p) as [[|i]|] eqn:Hp.
  - by injection E as <- <-.
  - injection E as <- <-. apply (content_insert_data s i [] q). intros Hq. apply Hne. by eapply wf_inj.
  - destruct (parent p) as [[q' c]|]; [|by injection E as <- <-]. destruct (is_dir s q'); [|by injection E as <- <-].
    injection E as <- <-. unfold content, data_of. cbn. rewrite lookup_insert_ne by done. destruct (fs_nodes s !! q) as [[|j]|] eqn:Hq; try done.
    rewrite lookup_insert_ne; [done|]. pose proof (wf_next _ Hwf _ _ Hq). lia.
Qed.
Definition held (s : fs) (p : path) : nat := length (default [] (content s p)).
Lemma volume_copy_file e src dst s : wf s -> volume (run e (copy_file e src dst) s).1 <= volume s + held s src /\
  forall q, q <> dst -> content (run e (copy_file e src dst) s).1 q = content s q.
Proof.
  intros Hwf. rewrite run_copy_file. destruct (content s src) as [c|] eqn:Hc; [|split; [cbn; lia|done]].
  destruct (e_os_ok e src); [|split; [cbn; lia|done]]. destruct (exec e (CCreate dst) s) as [s1 [j|]] eqn:E; cbn [fst].
  - assert (Hwf1 : wf s1) by (change s1 with ((s1, Some j).1); rewrite <- E; by apply wf_exec). pose proof (volume_create _ _ _ _ _ Hwf E) as Hv.
    destruct (create_file _ _ _ _ _ E) as (Hn & Hd & _). split.
    + pose proof (volume_set_data s1 j [] (default [] (content s1 src)) Hwf1 Hd) as H. cbn [app] in H. etransitivity; [exact H|].
      assert (length (default [] (content s1 src)) <= held s src); [|lia]. destruct (decide (src = dst)) as [->|Hne].
      * unfold content. rewrite Hn. unfold data_of. rewrite Hd. cbn. lia.
      * unfold held. by rewrite (content_create e dst s s1 (Some j) src).
    + intros q Hq. rewrite content_set_data_ne; [by eapply content_create|]. intros H. apply Hq. by eapply (wf_inj _ Hwf1).
  - split; [pose proof (volume_create _ _ _ _ _ Hwf E); cbn; lia|]. intros q Hq. by eapply content_create.
Qed.

(** A copy takes the space of its source and of the metadata of its source. *)
Theorem C96_copy e s sb sk b k ps pd : wf s -> legal_bucket sb -> resolved sb sk ps -> legal_bucket b -> resolved b k pd ->
  legal_key sk -> LF ∉ sb ++ B "/" ++ sk ->
  volume (after e (RCopyObject (sb ++ B "/" ++ sk) b k) s) <= volume s + held s ps + held s [metadata_name sb sk].
Proof.
  intros Hwf Hsb Hps Hb Hpd Hsk Hlf. unfold after. cbn [storage]. unfold copy_object. rewrite copy_source_text by done.
  rewrite (resolved_path e sb sk ps) by (try done; by apply legal_bucket_segment). rewrite (resolved_path e b k pd) by (try done; by apply legal_bucket_segment).
  cbn [try_path]. rewrite run_try_io. destruct (run e (call (CStat ps)) s) as [s0 o] eqn:E0. assert (s0 = s) as -> by (rewrite run_call in E0; cbn [exec] in E0; congruence).
  destruct o as [st|]; [|cbn; lia]. rewrite run_try_io. destruct (volume_copy_file e ps pd s Hwf) as [Hv Hc].
  pose proof (wf_run e (copy_file e ps pd) s Hwf) as Hwf1. destruct (run e (copy_file e ps pd) s) as [s1 o] eqn:E1. cbn [fst] in *.
  destruct o as [u|]; [|cbn; lia]. rewrite !metadata_path. cbn [try_path]. rewrite run_bind, run_exists.
  assert (Hheld : held s1 [metadata_name sb sk] = held s [metadata_name sb sk]).
  { unfold held. rewrite Hc; [done|]. destruct Hpd as (segs & _ & _ & _ & _ & _ & ->). intros H. apply cons_head in H. symmetry in H. by eapply bucket_not_meta. }
  rewrite run_try_io. destruct (_ && _); cbn [run].
  - destruct (volume_copy_file e [metadata_name sb sk] [metadata_name b k] s1 Hwf1) as [Hv2 _].
    destruct (run e (copy_file e [metadata_name sb sk] [metadata_name b k]) s1) as [s2 [u2|]] eqn:E2; cbn [fst] in *; [|lia].
    rewrite run_try_io. rewrite (run_get_md5 e sb sk ps) by (apply resolved_path; [by apply legal_bucket_segment|done]). case_match; cbn; lia.
  - rewrite run_try_io. rewrite (run_get_md5 e sb sk ps) by (apply resolved_path; [by apply legal_bucket_segment|done]). case_match; cbn; lia.
Qed.
Print Assumptions C96_copy.

Lemma volume_append e u i ps : forall s d cnt, wf s -> fs_data s !! i = Some d ->
  (forall n p, part_path e u n = Some p -> fs_nodes s !! p <> Some (NFile i)) -> volume (run e (append_parts e u i (length d) cnt ps) s).1 <= volume s.
Proof.
  induction ps as [|[n|] ps IH]; intros s d cnt Hwf Hd Hne; cbn [append_parts]; [done| |done].
  destruct (negb _); [done|]. rewrite run_try_path. destruct (part_path e u n) as [p|] eqn:Hpp; [|done]. rewrite run_try_io.
  rewrite (run_append_file e p i s d Hd (Hne n p Hpp)).
  destruct (e_os_ok e p) eqn:Hos; [|done]. destruct (content s p) as [c|] eqn:Hc; [|done].
  rewrite run_try_io, run_call. cbn [exec]. rewrite Hos.
  unfold content in Hc. cbn [set_data fs_nodes]. destruct (fs_nodes s !! p) as [[|j]|] eqn:Hp; try done. injection Hc as <-.
  remember (set_nodes (set_data s i (d ++ data_of s j)) (delete p (fs_nodes s))) as s2 eqn:E2.
  assert (Hs2 : exec e (CUnlink p) (set_data s i (d ++ data_of s j)) = (s2, Some tt)) by (cbn [exec]; rewrite Hos; cbn [set_data fs_nodes]; by rewrite Hp, E2).
  assert (Hwf2 : wf s2) by (change s2 with ((s2, Some tt).1); rewrite <- Hs2; by apply wf_exec, wf_set_data).
  match goal with |- context [run e _ ?x] => replace x with s2 by (by rewrite E2) end.
  etransitivity; [apply IH; [done|rewrite E2; cbn; apply lookup_insert|]|].
  { intros n' p' Hp'. rewrite E2. cbn [set_nodes fs_nodes]. intros [_ Hx]%lookup_delete_Some. by apply (Hne n' p' Hp'). }
  rewrite !volume_total, (total_delete _ (fs_nodes s) p _ Hp), E2. cbn [set_nodes fs_nodes file_size].
  rewrite Nat.add_comm. apply (total_add _ _ _ i).
  - intros q q' H1 H2. apply lookup_delete_Some in H1 as [_ H1], H2 as [_ H2]. by apply (wf_inj _ Hwf q q' i).
  - intros q [|j'] Hq Hnn; [done|]. cbn. unfold data_of. cbn. rewrite lookup_insert_ne; [done|]. congruence.
  - cbn. unfold data_of at 1. cbn. rewrite lookup_insert. cbn. rewrite app_length. by rewrite (data_of_Some _ _ _ Hd).
Qed.

(** The completion of an upload takes no space, whatever its outcome. *)
Theorem C96_completion e s b k u parts pd : wf s -> legal_bucket b -> resolved b k pd -> "/"%char ∉ u ->
  volume (after e (RCompleteMultipartUpload b k u parts) s) <= volume s.
Proof.
  intros Hwf Hb Hl Hu. assert (Hpd : get_object_path e b k = Some pd) by (apply resolved_path; [by apply legal_bucket_segment|done]). unfold after. cbn [storage]. unfold complete_multipart_upload. destruct parts as [ps|]; [|done].
  rewrite run_try_path. destruct (get_object_path e b k) as [p|] eqn:Hp; [|done]. rewrite run_try_io, run_call. destruct (exec e (CCreate p) s) as [s1 [i|]] eqn:E; cbn [fst].
  - assert (Hwf1 : wf s1) by (change s1 with ((s1, Some i).1); rewrite <- E; by apply wf_exec). pose proof (volume_create _ _ _ _ _ Hwf E) as Hv.
    destruct (create_file _ _ _ _ _ E) as (Hn & Hd & _). assert (p = pd) as -> by congruence.
    assert (Hne : forall n q, part_path e u n = Some q -> fs_nodes s1 !! q <> Some (NFile i)).
    { intros n q Hq Hqi. rewrite part_path_eq in Hq by done. injection Hq as <-. pose proof (wf_inj _ Hwf1 _ _ _ Hn Hqi) as ->.
      destruct Hl as (segs & _ & _ & _ & _ & _ & [= Hx _]). by eapply bucket_not_part. }
    pose proof (volume_append e u i ps s1 [] 0 Hwf1 Hd Hne) as Ha. cbn [length] in Ha.
    rewrite run_try_res. destruct (run e (append_parts e u i 0 0 ps) s1) as [s2 [x|]] eqn:E2; cbn [fst] in *; [|lia].
    rewrite run_try_io, run_call. cbn [exec]. match goal with |- context [match ?x with Some _ => _ | None => _ end] => destruct x as [st|] end; [|cbn; lia].
    rewrite run_try_io, (run_get_md5 e b k pd) by done. case_match; cbn; lia.
  - by eapply volume_create.
Qed.
Print Assumptions C96_completion.

(* A file that is appended to itself, starting before its end, grows with every round. *)
Lemma transfer_self e i n : forall s roff d, fs_data s !! i = Some d -> roff < length d ->
  let s' := (run e (transfer e n (HFile i) roff i (length d)) s).1 in
  (run e (transfer e n (HFile i) roff i (length d)) s).2 = None /\ fs_nodes s' = fs_nodes s /\ n + length d <= length (data_of s' i).
Proof.
  induction n as [|n IH]; intros s roff d Hd Hr; cbn [transfer].
  - cbn. by rewrite (data_of_Some _ _ _ Hd).
  - rewrite run_bind, run_call. cbn [exec]. rewrite (data_of_Some _ _ _ Hd). destruct (piece e (drop roff d)) as [|a x] eqn:E.
    + apply piece_nil, (f_equal length) in E. rewrite drop_length in E. cbn in E. lia.
    + rewrite run_bind, (run_write_pieces _ _ _ _ d) by done. rewrite e_chop_concat. rewrite (app_length d).
      specialize (IH (set_data s i (d ++ a :: x)) (roff + length (a :: x)) (d ++ a :: x)). rewrite app_length in IH. cbn [length] in *.
      destruct IH as (H1 & H2 & H3); [apply lookup_insert|lia|]. split; [exact H1|]. split; [exact H2|]. etransitivity; [|exact H3]. lia.
Qed.
Lemma volume_file s p i : fs_nodes s !! p = Some (NFile i) -> length (data_of s i) <= volume s.
Proof. intros Hp. rewrite volume_total, (total_delete _ _ _ _ Hp). cbn. lia. Qed.

(** An upload can be completed into one of its own parts; the server then copies a file to its own end.  As long as a read
    sees what has been written before, this does not come to an end, and two bytes fill the disk. *)
Definition ex_rounds (n : nat) : env := {|
  e_root := e_root ex_env; e_os_ok := e_os_ok ex_env; e_order := e_order ex_env; e_dir_len := e_dir_len ex_env; e_chop := e_chop ex_env; e_rounds := n;
  e_os_prefix := e_os_prefix ex_env; e_order_perm := e_order_perm ex_env; e_chop_concat := e_chop_concat ex_env |}.
Definition ex_parts : fs :=
  after_all ex_env [RCreateBucket (B "abc"); RUploadPart (B "u") 1 (Some [FData (B "x")]); RUploadPart (B "u") 2 (Some [FData (B "y")])] empty_store.
Definition ex_own_part : s_req := RCompleteMultipartUpload (B "abc") (B "../.upload_id-u.part-2") (B "u") (Some [Some 1; Some 2])%Z.
Lemma append_own e u i j a x s : "/"%char ∉ u -> i <> j -> e_os_ok e [part_name u 1] = true -> e_os_ok e [part_name u 2] = true ->
  fs_nodes s !! [part_name u 1] = Some (NFile j) -> fs_nodes s !! [part_name u 2] = Some (NFile i) -> fs_data s !! j = Some (a :: x) -> fs_data s !! i = Some [] ->
  exists c, (run e (append_parts e u i 0 0 [Some 1; Some 2]%Z) s).2 = Err c /\ e_rounds e <= volume (run e (append_parts e u i 0 0 [Some 1; Some 2]%Z) s).1.
Proof.
  intros Hu Hij Ho1 Ho2 H1 H2 Hd1 Hd2. cbn [append_parts]. rewrite !part_path_eq by done. rewrite !bool_decide_eq_true_2 by lia. cbn [negb try_path].
  pose proof (run_append_file e [part_name u 1] i s [] Hd2) as Hr. cbn [length] in Hr. rewrite run_try_io, Hr by congruence. clear Hr.
  rewrite Ho1. unfold content. rewrite H1, (data_of_Some _ _ _ Hd1). cbn [app].
  rewrite run_try_io, run_call. cbn [exec]. rewrite Ho1. cbn [set_data fs_nodes]. rewrite H1. rewrite run_try_io. unfold append_file. rewrite run_bind, run_call. cbn [exec].
  rewrite Ho2. cbn [negb set_nodes fs_nodes]. assert (Hne : [part_name u 1] <> [part_name u 2]) by (intros Hx; apply (f_equal Some), sing_inj, part_name_inj in Hx; lia).
  rewrite lookup_delete_ne, H2 by done. rewrite run_bind, run_call. cbn [exec].
  match goal with |- context [run e (transfer _ _ _ _ _ _) ?t] => remember t as t1 eqn:Et end.
  match goal with |- context [transfer _ ?n _ _ _ _] => remember n as m eqn:Em end.
  destruct (transfer_self e i m t1 0 (a :: x)) as (H3 & H4 & H5); [rewrite Et; cbn; apply lookup_insert|cbn; lia|]. cbn [length] in *.
  destruct (run e (transfer e m (HFile i) 0 i (S (length x))) t1) as [s' o]. cbn [fst snd] in *. subst o. cbn [fst snd]. eexists. split; [reflexivity|]. cbn [fst].
  etransitivity; [|apply (volume_file _ [part_name u 2] i)]; [lia|]. rewrite H4, Et. cbn. by rewrite lookup_delete_ne.
Qed.
Theorem C96_own_part_refuted : wf ex_parts /\ volume ex_parts = 2 /\ forall n, n <= volume (after (ex_rounds n) ex_own_part ex_parts).
Proof.
  split. { unfold ex_parts. cbn [after_all]. unfold after. do 3 apply wf_run. apply wf_empty. }
  split; [vm_compute; reflexivity|]. intros n.
  remember (exec (ex_rounds n) (CCreate [part_name (B "u") 2]) ex_parts) as x eqn:Ex.
  assert (Hx : x.2 = Some 1%N /\ fs_nodes x.1 !! [part_name (B "u") 1] = Some (NFile 0) /\ fs_nodes x.1 !! [part_name (B "u") 2] = Some (NFile 1) /\
    fs_data x.1 !! 0%N = Some (B "x") /\ fs_data x.1 !! 1%N = Some []) by (rewrite Ex; vm_compute; repeat split; reflexivity).
  destruct x as [s1 o]. cbn [fst snd] in Hx. destruct Hx as (-> & H1 & H2 & Hd1 & Hd2).
  assert (Hv : exists c, (run (ex_rounds n) (append_parts (ex_rounds n) (B "u") 1 0 0 [Some 1; Some 2]%Z) s1).2 = Err c /\
    n <= volume (run (ex_rounds n) (append_parts (ex_rounds n) (B "u") 1 0 0 [Some 1; Some 2]%Z) s1).1).
  { clear Ex. refine (append_own (ex_rounds n) (B "u") 1 0 "x"%char [] s1 _ _ _ _ H1 H2 Hd1 Hd2).
    - compute_done.
    - by intros [=].
    - vm_compute. reflexivity.
    - vm_compute. reflexivity. }
  destruct Hv as (c & Hc & Hv).
  unfold after, ex_own_part. cbn [storage]. unfold complete_multipart_upload. rewrite run_try_path.
  assert (get_object_path (ex_rounds n) (B "abc") (B "../.upload_id-u.part-2") = Some [part_name (B "u") 2]) as -> by (vm_compute; reflexivity).
  rewrite run_try_io, run_call, <- Ex. rewrite run_try_res. destruct (run (ex_rounds n) (append_parts (ex_rounds n) (B "u") 1 0 0 [Some 1; Some 2]%Z) s1) as [s' r].
  cbn [fst snd] in *. rewrite Hc. exact Hv.
Qed.
Print Assumptions C96_own_part_refuted.

(** So requests that are handled one after the other, no copies among them, let the store grow by at most the bytes that came
    with them, if no upload is completed into a place outside its bucket. *)
Definition completes_inside (r : s_req) : Prop :=
  match r with RCompleteMultipartUpload b k u _ => legal_bucket b /\ "/"%char ∉ u /\ exists p, resolved b k p | _ => True end.
Definition brought_alone (r : s_req) : option nat :=
  match r with RCompleteMultipartUpload _ _ _ _ => Some 0 | _ => brought r end.
Lemma steps_alone e {A} s (m : prog A) s' m' : steps e s m s' m' -> psteps e s [m] s' [m'].
Proof. induction 1 as [s m|s m s1 m1 s2 m2 Hst _ IH]; [apply psteps_refl|]. apply (psteps_step e s [m] 0 m s1 m1); [done|done|exact IH]. Qed.
Theorem C96_sequence e rs ns : forall s, wf s -> Forall2 (fun r n => brought_alone r = Some n) rs ns -> Forall completes_inside rs ->
  volume (after_all e rs s) <= volume s + sum_list ns.
Proof.
  intros s Hwf Hb Hin. revert s Hwf Hin. induction Hb as [|r n rs ns Hr Hb IH]; intros s Hwf Hin; cbn [after_all]; [cbn; lia|].
  apply Forall_cons in Hin as [Hri Hin].
  assert (Hone : volume (after e r s) <= volume s + n).
  { destruct (brought r) as [n'|] eqn:E.
    - assert (n' = n) as -> by (destruct r; cbn [brought brought_alone] in *; congruence). replace n with (sum_list [n]) by (cbn; unfold id; lia).
      apply (C96_bounded e [r] [n] s (after e r s) [Ret (answer e r s)] Hwf); [by repeat constructor|].
      apply (steps_alone e s (storage e r)), run_steps.
    - destruct r; cbn [brought brought_alone] in *; try done; [by destruct body|by destruct body|]. injection Hr as <-.
      destruct Hri as (Hleg & Hu & p & Hl). pose proof (C96_completion e s bucket key upload_id parts p Hwf Hleg Hl Hu). lia. }
  etransitivity; [apply IH; [by apply wf_run|done]|]. change (sum_list (n :: ns)) with (n + sum_list ns). lia.
Qed.
Print Assumptions C96_sequence.

(** The deletion of an object gives back exactly its bytes. *)
Theorem C96_delete e s b k p a : wf s -> legal_bucket b -> located b k p -> answer e (RDeleteObject b k) s = Ok a ->
  volume s = volume (after e (RDeleteObject b k) s) + held s p.
Proof.
  intros Hwf Hb Hl. assert (Hp : get_object_path e b k = Some p) by (apply located_path; [by apply legal_bucket_segment|done]).
  assert (Hk : ends_with_char "/" k = false) by (apply ordinary_no_slash_end; by eapply located_ordinary).
  unfold after, answer. cbn [storage]. rewrite (run_delete e b k p) by done. cbn [exec]. destruct (e_os_ok e p); [|done].
  destruct (fs_nodes s !! p) as [[|i]|] eqn:Hn; try done. intros _. cbn [fst]. rewrite !volume_total, (total_delete _ (fs_nodes s) p _ Hn), Nat.add_comm.
  unfold held, content. rewrite Hn. done.
Qed.
Print Assumptions C96_delete.

(** ** Examples *)

Definition ex_meta : metadata := [(B "owner", B "me")].
Definition ex_life : list s_req :=
  [RCreateBucket (B "photos");
   RPutObject (B "photos") (B "a/cat") None None (Some ex_meta) (Some [FData (B "hel"); FData (B "lo"); FErr]);
   RPutObject (B "photos") (B "a/cat") None None (Some ex_meta) (Some [FData (B "hel"); FData (B "lo")]);
   RUploadPart (B "u") 1 (Some [FData (B "part")]);
   RCompleteMultipartUpload (B "photos") (B "a/dog") (B "u") (Some [Some 1%Z]);
   RCopyObject (B "photos/a/cat") (B "photos") (B "a/cow");
   RDeleteObject (B "photos") (B "a/cat")].
(* How much is in the store after each of these requests: the metadata takes 14 bytes and stays. *)
Example C96_ex_volumes : map (fun n => volume (after_all ex_env (take n ex_life) empty_store)) [0; 1; 2; 3; 4; 5; 6; 7] = [0; 0; 5; 19; 23; 23; 42; 37].
Proof. vm_compute. reflexivity. Qed.
Example C96_ex_brought : map brought_alone ex_life = [Some 0; Some 19; Some 19; Some 4; Some 0; None; Some 0].
Proof. vm_compute. reflexivity. Qed.

(** After the deletion of all objects and buckets, with all uploads completed, something is left: metadata is never removed. *)
Theorem C96_left_refuted : exists rs, let s := after_all ex_env rs empty_store in
  Forall (fun n => exists r a, rs !! n = Some r /\ answer ex_env r (after_all ex_env (take n rs) empty_store) = Ok a) (seq 0 (length rs)) /\
  answer ex_env RListBuckets s = Ok (ABuckets []) /\ 0 < volume s.
Proof.
  exists [RCreateBucket (B "photos"); RPutObject (B "photos") (B "a") None None (Some ex_meta) (Some [FData (B "hello")]);
    RDeleteObject (B "photos") (B "a"); RDeleteBucket (B "photos")].
  cbn zeta. split; [|split; [vm_compute; reflexivity|apply Nat.ltb_lt; vm_compute; reflexivity]].
  cbn [length seq]. repeat (apply Forall_cons; split); [..|apply Forall_nil_2]; (eexists _, _; split; [reflexivity|vm_compute; reflexivity]).
Qed.
Print Assumptions C96_left_refuted.
