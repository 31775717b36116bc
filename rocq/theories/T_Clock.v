(** C84: the times shown for objects. *)
From Verif Require Import M_Base M_Path M_Headers M_Chunked M_BytesStream M_Crypto M_Fs M_Json M_Utf8 M_Time M_Storage M_Clock
  S_Path S_Headers S_Chunked S_Storage S_Store S_Time L_Base L_Headers L_Utf8 L_Fs L_Storage L_Scope L_Names L_Ops L_Results
  L_Tidy L_Path T_Store T_Copy T_Listing T_Time.

Local Opaque md5 etag_of json_decode json_encode metadata_name part_name.

(** ** The specification *)

(* The file of an object was last written at [t]. *)
Definition dated (b k : bytes) (t : Z) (w : world) : Prop :=
  exists p i, located b k p /\ fs_nodes (w_fs w) !! p = Some (NFile i) /\ mtime_of w i = t.

(* The object has the content [c]. *)
Definition has (b k c : bytes) (w : world) : Prop := exists p, located b k p /\ content (w_fs w) p = Some c.

(* Any calls one after the other, of one task or many, finished or not, failing or not; requests
   begin with an empty log. *)
Inductive tcalls (e : env) (ck : clock) : world -> world -> Prop :=
| tc_refl w : tcalls e ck w w
| tc_call {R} (c : syscall R) w w' : tcalls e ck (texec e ck c w).1 w' -> tcalls e ck w w'
| tc_fail w w' : tcalls e ck (World (w_fs w) (w_mtime w) (S (w_calls w)) (w_seen w)) w' -> tcalls e ck w w'
| tc_log w l w' : tcalls e ck (World (w_fs w) (w_mtime w) (w_calls w) l) w' -> tcalls e ck w w'.

(* The object was written between two moments, at a call of that time. *)
Definition between (ck : clock) (w w' : world) (t : Z) : Prop :=
  exists n, w_calls w <= n < w_calls w' /\ t = ck_now ck n.

(* All times lie before the present. *)
Definition in_past (ck : clock) (w : world) : Prop :=
  forall p i, fs_nodes (w_fs w) !! p = Some (NFile i) -> (mtime_of w i < ck_now ck (w_calls w))%Z.

(** ** Time does not change what is done *)

Lemma trun_run e ck {A} (m : prog A) w : (w_fs (trun e ck m w).1, (trun e ck m w).2) = run e m (w_fs w).
Proof.
  revert w. induction m as [a|R c k IH]; intros w; [done|]. cbn [trun run]. unfold texec.
  destruct (exec e c (w_fs w)) as [s r]. apply IH.
Qed.
Lemma trun_bind e ck {A B} (m : prog A) (f : A -> prog B) w :
  trun e ck (bind m f) w = trun e ck (f (trun e ck m w).2) (trun e ck m w).1.
Proof.
  revert w. induction m as [a|R c k IH]; intros w; [done|]. cbn [trun bind].
  destruct (texec e ck c w) as [w' r]. apply IH.
Qed.
Lemma trun_tcalls e ck {A} (m : prog A) w : tcalls e ck w (trun e ck m w).1.
Proof.
  revert w. induction m as [a|R c k IH]; intros w; [constructor|]. cbn [trun].
  apply (tc_call _ _ c). destruct (texec e ck c w) as [w' r]. apply IH.
Qed.
Lemma tcalls_trans e ck w1 w2 w3 : tcalls e ck w1 w2 -> tcalls e ck w2 w3 -> tcalls e ck w1 w3.
Proof. induction 1; [done|..]; intros ?; [eapply tc_call|eapply tc_fail|eapply tc_log]; eauto. Qed.
Lemma timed_tcalls e ck r w : tcalls e ck w (timed e ck r w).1.
Proof. eapply tc_log. apply trun_tcalls. Qed.

(* Every execution of concurrent tasks, with failures and stops, is such a sequence. *)
Lemma psteps_tcalls e ck {A} s (ms : list (prog A)) s' ms' : psteps e s ms s' ms' ->
  forall w, w_fs w = s -> exists w', w_fs w' = s' /\ tcalls e ck w w'.
Proof.
  induction 1 as [s ms|s ms i m s1 m1 s2 ms2 Hi Hst _ IH]; intros w Hw; [exists w; split; [done|constructor]|].
  destruct m as [a|R c k]; [done|]. cbn [step] in Hst. destruct Hst as [Hst|Hst].
  - destruct (exec e c s) as [s1' r] eqn:E. injection Hst as -> ->.
    destruct (IH (texec e ck c w).1) as (w' & H1 & H2).
    { unfold texec. rewrite Hw, E. done. }
    exists w'. split; [done|]. by eapply tc_call.
  - injection Hst as -> ->. destruct (IH (World (w_fs w) (w_mtime w) (S (w_calls w)) (w_seen w))) as (w' & H1 & H2); [done|].
    exists w'. split; [done|]. by eapply tc_fail.
Qed.

Lemma tcalls_later e ck w w' : tcalls e ck w w' -> w_calls w <= w_calls w'.
Proof.
  induction 1 as [|R c w w' _ IH|w w' _ IH|w l w' _ IH]; cbn [w_calls] in *; try lia.
  unfold texec in IH. destruct (exec e c (w_fs w)) as [s r]. cbn in IH. lia.
Qed.

(** ** Files are as before or have been written since *)

Definition since (ck : clock) (w w' : world) : Prop :=
  forall p i, fs_nodes (w_fs w') !! p = Some (NFile i) ->
    (fs_nodes (w_fs w) !! p = Some (NFile i) /\ data_of (w_fs w') i = data_of (w_fs w) i /\ mtime_of w' i = mtime_of w i) \/
    between ck w w' (mtime_of w' i).

Lemma mtime_insert s m n l i t j : mtime_of (World s (<[i:=t]> m) n l) j = if decide (i = j) then t else mtime_of (World s m n l) j.
Proof. unfold mtime_of. cbn. destruct (decide (i = j)) as [<-|H]; [by rewrite lookup_insert|by rewrite lookup_insert_ne]. Qed.

Lemma since_refl ck w : since ck w w.
Proof. intros p i H. by left. Qed.
Lemma since_trans ck w1 w2 w3 : w_calls w1 <= w_calls w2 -> w_calls w2 <= w_calls w3 ->
  since ck w1 w2 -> since ck w2 w3 -> since ck w1 w3.
Proof.
  intros L1 L2 H1 H2 p i Hp. destruct (H2 p i Hp) as [(Hq & Hd & Ht)|(n & Hn & Ht)].
  - destruct (H1 p i Hq) as [(Hr & Hd' & Ht')|(n & Hn & Ht')].
    + left. split; [done|]. split; congruence.
    + right. exists n. split; [lia|congruence].
  - right. exists n. split; [lia|done].
Qed.

Lemma since_same ck w s m l : fs_nodes s = fs_nodes (w_fs w) -> fs_data s = fs_data (w_fs w) -> m = w_mtime w ->
  since ck w (World s m (S (w_calls w)) l).
Proof.
  intros H1 H2 -> p i Hp. left. cbn in *. rewrite H1 in Hp. split; [done|]. split; [|done].
  unfold data_of. by rewrite H2.
Qed.

Lemma since_stamped ck w s i d l :
  (forall p j, fs_nodes s !! p = Some (NFile j) -> j <> i -> fs_nodes (w_fs w) !! p = Some (NFile j)) ->
  fs_data s = <[i := d]> (fs_data (w_fs w)) ->
  since ck w (World s (<[i := ck_now ck (w_calls w)]> (w_mtime w)) (S (w_calls w)) l).
Proof.
  intros Hn Hd p j Hp. cbn in *. rewrite mtime_insert. destruct (decide (i = j)) as [<-|Hne].
  - right. exists (w_calls w). split; [cbn; lia|done].
  - left. split; [by eapply Hn; [|congruence]|]. split; [|done]. unfold data_of. rewrite Hd.
    by rewrite lookup_insert_ne.
Qed.

Lemma since_call e ck {R} (c : syscall R) w : since ck w (texec e ck c w).1.
Proof.
  unfold texec. destruct (exec e c (w_fs w)) as [s r] eqn:E. cbn [fst].
  destruct c; cbn [exec stamped] in *; try (injection E as <- <-; by apply since_same).
  - destruct h; injection E as <- <-; by apply since_same.
  - destruct h; injection E as <- <-; by apply since_same.
  - destruct (e_os_ok e p); cbn [negb] in E; [|injection E as <- <-; by apply since_same].
    destruct (fs_nodes (w_fs w) !! p) as [[|i]|] eqn:Hp.
    + injection E as <- <-; by apply since_same.
    + injection E as <- <-. by eapply since_stamped.
    + destruct (parent p) as [[q c]|]; [|injection E as <- <-; by apply since_same].
      destruct (is_dir (w_fs w) q); [|injection E as <- <-; by apply since_same].
      injection E as <- <-. eapply since_stamped; [|done]. cbn. intros x j Hx Hj.
      apply lookup_insert_Some in Hx as [[_ [= ?]]|[_ Hx]]; [congruence|done].
  - injection E as <- <-. by eapply since_stamped.
  - (* CMkdir *)
    destruct (e_os_ok e p); cbn [negb] in E; [|injection E as <- <-; by apply since_same].
    destruct (fs_nodes (w_fs w) !! p) as [x|] eqn:Hp; [injection E as <- <-; by apply since_same|].
    destruct (has_parent (w_fs w) p); [|injection E as <- <-; by apply since_same].
    injection E as <- <-. intros x i Hx. cbn in Hx. left. apply lookup_insert_Some in Hx as [[_ [=]]|[_ Hx]]. done.
  - destruct (e_os_ok e p); [|injection E as <- <-; by apply since_same].
    destruct (fs_nodes (w_fs w) !! p) as [[|i]|] eqn:Hp; try (injection E as <- <-; by apply since_same).
    injection E as <- <-. intros x j Hx. cbn in Hx. left. apply lookup_delete_Some in Hx as [_ Hx]. done.
  - destruct (e_os_ok e p); [|injection E as <- <-; by apply since_same].
    destruct (fs_nodes (w_fs w) !! p) as [[|i]|] eqn:Hp; try (injection E as <- <-; by apply since_same).
    case_bool_decide; injection E as <- <-; [|by apply since_same].
    intros x j Hx. cbn in Hx. left. apply lookup_delete_Some in Hx as [_ Hx]. done.
  - destruct h; injection E as <- <-; by apply since_same.
Qed.

Lemma since_tcalls e ck w w' : tcalls e ck w w' -> since ck w w'.
Proof.
  induction 1 as [|R c w w' H IH|w w' H IH|w l w' H IH]; [apply since_refl|..].
  - eapply since_trans; [| |apply since_call|apply IH]; [|by eapply tcalls_later].
    unfold texec. destruct (exec e c (w_fs w)). cbn. lia.
  - eapply since_trans; [| |by apply since_same|apply IH]; [cbn; lia|by eapply tcalls_later in H].
  - intros p i Hp. destruct (IH p i Hp) as [?|(n & Hn & Ht)]; [by left|right]. exists n. done.
Qed.

Lemma located_fun b k p p' : located b k p -> located b k p' -> p = p'.
Proof.
  intros (s1 & H1 & F1 & -> & ->) (s2 & H2 & F2 & E & ->). f_equal. by apply slashed_inj in E.
Qed.
Lemma between_past ck w w' t : (forall n m, (n <= m)%nat -> (ck_now ck n <= ck_now ck m)%Z) ->
  between ck w w' t -> (ck_now ck (w_calls w) <= t)%Z.
Proof. intros Hm (n & Hn & ->). apply Hm. lia. Qed.

(** C84, part 1: times never go back, and a time says which content it is.  Along every execution
    (any tasks, interleaved, failing or stopped), with a clock that does not go back, an object that
    is there at both moments has a later time at the second, or the same time, and with the same
    time the same content, provided it was not being written at the very tick of the first moment. *)
Theorem C84_validator e ck w w' b k t t' c c' :
  (forall n m, n <= m -> (ck_now ck n <= ck_now ck m)%Z) ->
  in_past ck w -> tcalls e ck w w' ->
  dated b k t w -> dated b k t' w' -> has b k c w -> has b k c' w' ->
  (t <= t')%Z /\ (t = t' -> c = c').
Proof.
  intros Hm Hpast Hc (p & i & Hl & Hp & <-) (p' & i' & Hl' & Hp' & <-) (q & Hq & Hcont) (q' & Hq' & Hcont').
  rewrite (located_fun _ _ _ _ Hl' Hl) in *. rewrite (located_fun _ _ _ _ Hq Hl) in *.
  rewrite (located_fun _ _ _ _ Hq' Hl) in *. clear Hl' Hq Hq'.
  assert (E : c = data_of (w_fs w) i /\ c' = data_of (w_fs w') i').
  { unfold content in *. rewrite Hp in Hcont. rewrite Hp' in Hcont'. by injection Hcont; injection Hcont'. }
  destruct E as [-> ->]. pose proof (Hpast p i Hp) as Hlt.
  destruct (since_tcalls _ _ _ _ Hc p i' Hp') as [(H1 & H2 & H3)|H].
  - rewrite Hp in H1. injection H1 as <-. rewrite H2, H3. split; [lia|done].
  - apply between_past in H; [|done]. split; [lia|]. intros E. lia.
Qed.
Print Assumptions C84_validator.

(* Times stay in the past when the clock moves between calls. *)
Lemma C84_past e ck w w' : (forall n, (ck_now ck n < ck_now ck (S n))%Z) -> in_past ck w -> tcalls e ck w w' -> in_past ck w'.
Proof.
  intros Hm Hpast Hc p i Hp.
  assert (Hm' : forall n m, n <= m -> (ck_now ck n <= ck_now ck m)%Z).
  { intros n m H. induction H as [|m H IH]; [lia|]. pose proof (Hm m). lia. }
  assert (Hlt : forall n m, n < m -> (ck_now ck n < ck_now ck m)%Z).
  { intros n m H. pose proof (Hm n). pose proof (Hm' (S n) m H). lia. }
  destruct (since_tcalls _ _ _ _ Hc p i Hp) as [(H1 & _ & ->)|(n & Hn & ->)].
  - pose proof (Hpast p i H1). pose proof (Hm' _ _ (tcalls_later _ _ _ _ Hc)). lia.
  - apply Hlt. lia.
Qed.

(** ** A successful write stamps the object *)

(* Every way to success passes through the creation of [p]. *)
Fixpoint must (p : path) {A} (m : prog (sres A)) : Prop :=
  match m with
  | Ret (Ok _) => False
  | Ret (Err _) => True
  | Do c k =>
      match c in syscall R return (R -> prog (sres A)) -> Prop with
      | CCreate q => fun k => if decide (q = p) then must p (k None) else forall r, must p (k r)
      | _ => fun k => forall r, must p (k r)
      end k
  end.

Lemma must_bind p {A B} (m : prog A) (f : A -> prog (sres B)) : (forall a, must p (f a)) -> must p (bind m f).
Proof.
  intros Hf. induction m as [a|R c k IH]; [apply Hf|]. destruct c; cbn [bind must]; try (intros r; apply IH).
  destruct (decide _); [apply IH|]. intros r. apply IH.
Qed.

Lemma must_trun e ck p {A} (m : prog (sres A)) w a i : must p m -> (trun e ck m w).2 = Ok a ->
  fs_nodes (w_fs (trun e ck m w).1) !! p = Some (NFile i) ->
  between ck w (trun e ck m w).1 (mtime_of (trun e ck m w).1 i).
Proof.
  revert w. induction m as [x|R c k IH]; intros w Hmu Ha Hp.
  - cbn in *. by destruct x.
  - assert (Hgo : forall r w1, w_calls w1 = S (w_calls w) -> must p (k r) ->
      (trun e ck (k r) w1).2 = Ok a -> fs_nodes (w_fs (trun e ck (k r) w1).1) !! p = Some (NFile i) ->
      between ck w (trun e ck (k r) w1).1 (mtime_of (trun e ck (k r) w1).1 i)).
    { intros r w1 E H1 H2 H3. destruct (IH r w1 H1 H2 H3) as (n & Hn & ->). exists n. split; [lia|done]. }
    cbn [trun] in *. destruct (texec e ck c w) as [w1 r] eqn:E.
    assert (Hw1 : w_calls w1 = S (w_calls w)).
    { unfold texec in E. destruct (exec e c (w_fs w)). by injection E as <- <-. }
    destruct c as [q|q|q|h|h off|q|j off d|q|q|q|q| |h]; cbn [must] in Hmu; try (apply Hgo; eauto; fail).
    destruct (decide (q = p)) as [->|Hne]; [|by apply Hgo].
    destruct r as [j|]; [|by apply Hgo].
    (* created here *)
    pose proof (trun_tcalls e ck (k (Some j)) w1) as Ht. pose proof (tcalls_later _ _ _ _ Ht) as Hl.
    destruct (since_tcalls _ _ _ _ Ht p i Hp) as [(H1 & _ & H3)|(n & Hn & H3)].
    + exists (w_calls w). split; [lia|]. rewrite H3.
      unfold texec in E. cbn [exec] in E. destruct (e_os_ok e p); cbn [negb] in E; [|done].
      destruct (fs_nodes (w_fs w) !! p) as [[|i']|] eqn:Hp0; [done|injection E as <- <-|].
      * cbn in H1. rewrite Hp0 in H1. injection H1 as <-. cbn [stamped]. rewrite mtime_insert. by rewrite decide_True.
      * destruct (parent p) as [[q c]|]; [|done]. destruct (is_dir (w_fs w) q); [|done]. injection E as <- <-.
        cbn in H1. rewrite lookup_insert in H1. injection H1 as <-. cbn [stamped]. rewrite mtime_insert. by rewrite decide_True.
    + exists n. split; [lia|done].
Qed.

(* The requests that write an object. *)
Definition writes (r : s_req) (b k : bytes) : Prop :=
  match r with
  | RPutObject b' k' _ _ _ _ | RCopyObject _ b' k' | RCompleteMultipartUpload b' k' _ _ => b' = b /\ k' = k
  | _ => False
  end.

Lemma must_create p {A B} (m : option N -> prog A) (f : A -> prog (sres B)) :
  must p (bind (m None) f) -> must p (bind (Do (CCreate p) m) f).
Proof. intros H. cbn [bind must]. by rewrite decide_True. Qed.

Lemma must_storage e r b k p : writes r b k -> legal_bucket b -> located b k p -> must p (storage e r).
Proof.
  intros Hw Hb Hl. pose proof (located_path e b k p (legal_bucket_segment _ Hb) Hl) as Hp.
  destruct r; cbn [writes storage] in *; try done.
  - destruct Hw as [-> ->]. unfold copy_object. destruct (copy_source_from_header_str copy_source) as [[sb sk]|]; [|done].
    unfold try_path at 1. destruct (get_object_path e sb sk) as [src|]; [|done]. rewrite Hp. cbn [try_path].
    unfold try_io at 1. apply must_bind. intros [st|]; [|done]. unfold try_io at 1, copy_file at 1. cbn [call bind must].
    intros [[|i]|]; [done| |done]. cbn [bind must]. rewrite decide_True by done. done.
  - destruct Hw as [-> ->]. unfold put_object. destruct (storage_class_ok storage_class); [|done]. cbn [negb].
    destruct body as [body|]; [|done].
    destruct (ends_with_char "/" k) eqn:Ek.
    { rewrite ordinary_no_slash_end in Ek; [done|by eapply located_ordinary]. }
    rewrite Hp. cbn [try_path]. unfold try_io at 1. apply must_bind. intros [?|]; [|done].
    unfold try_io at 1. cbn [call bind must]. by rewrite decide_True.
  - destruct Hw as [-> ->]. unfold complete_multipart_upload. destruct parts as [parts|]; [|done]. rewrite Hp. cbn [try_path].
    unfold try_io at 1. cbn [call bind must]. by rewrite decide_True.
Qed.

(** C84, part 2: after a successful PutObject, CopyObject or CompleteMultipartUpload the object's
    time is one at which the request was being executed. *)
Theorem C84_written e ck r w a b k t : legal_bucket b -> writes r b k ->
  (timed e ck r w).2 = Ok a -> dated b k t (timed e ck r w).1 -> between ck w (timed e ck r w).1 t.
Proof.
  intros Hb Hw Ha (p & i & Hl & Hp & <-). unfold timed in *.
  destruct (must_trun e ck p _ _ a i (must_storage e r b k p Hw Hb Hl) Ha Hp) as (n & Hn & ->). by exists n.
Qed.
Print Assumptions C84_written.

(** ** Other requests leave the time alone *)

Lemma scoped_trun e ck {A} (m : prog A) F D X own w p i : wf (w_fs w) -> owns F own (w_fs w) -> scoped F D X own m ->
  ~ F p -> fs_nodes (w_fs w) !! p = Some (NFile i) ->
  fs_nodes (w_fs (trun e ck m w).1) !! p = Some (NFile i) /\ mtime_of (trun e ck m w).1 i = mtime_of w i.
Proof.
  intros Hwf Ho Hs HF. revert own w Hwf Ho Hs. induction m as [a|R c k IH]; intros own w Hwf Ho Hs Hp; [done|].
  pose proof (scoped_exec e c k F D X own (w_fs w) Hwf Ho Hs) as Hx.
  pose proof (wf_exec e c (w_fs w) Hwf) as Hwf'. cbn [trun]. unfold texec.
  destruct (exec e c (w_fs w)) as [s r] eqn:E. destruct Hx as [Hu (own' & _ & Ho' & Hs')]. cbn [fst] in *.
  pose proof (un_file _ _ _ _ _ Hu p i HF Hp) as Hp'.
  match goal with |- context [trun e ck (k r) ?x] => destruct (IH r own' x Hwf' Ho' Hs' Hp') as [H1 ->] end.
  split; [done|].
  destruct c; cbn [stamped]; try done.
  - destruct r as [j|]; [|done]. rewrite mtime_insert. destruct (decide (j = i)) as [->|]; [|done]. exfalso.
    cbn [scoped exec] in Hs, E. destruct Hs as [HFp _]. destruct (e_os_ok e p0); cbn [negb] in E; [|done].
    destruct (fs_nodes (w_fs w) !! p0) as [[|j]|] eqn:Hp0; [done|injection E as <- <-|].
    + by rewrite (wf_inj _ Hwf _ _ _ Hp Hp0) in HF.
    + destruct (parent p0) as [[q c]|]; [|done]. destruct (is_dir (w_fs w) q); [|done]. injection E as <- <-.
      pose proof (wf_next _ Hwf _ _ Hp). lia.
  - rewrite mtime_insert. destruct (decide (ino = i)) as [->|]; [|done]. exfalso.
    cbn [scoped] in Hs. destruct Hs as [Hi _]. apply HF. by eapply Ho.
Qed.

(** C84, part 3: requests that do not affect an object leave its time alone. *)
Theorem C84_kept e ck r w b k t : wf (w_fs w) -> plain_req r -> legal_bucket b -> ~ affects r b k ->
  dated b k t w -> dated b k t (timed e ck r w).1.
Proof.
  intros Hwf Hr Hb Ha (p & i & Hl & Hp & <-). exists p, i. split; [done|]. unfold timed.
  assert (HF : ~ r_files e r p) by (intros HF; apply Ha; by eapply plain_files).
  assert (Ho : owns (r_files e r) no_own (w_fs w)) by by split.
  exact (scoped_trun e ck (storage e r) _ _ _ no_own (World (w_fs w) (w_mtime w) (w_calls w) []) p i
    Hwf Ho (scoped_storage e r) HF Hp).
Qed.
Print Assumptions C84_kept.

(** ** The times in replies *)

Definition nowhere (p : path) : Prop := False.

(* A program that only looks. *)
Lemma looking e ck {A} (m : prog A) w : scoped nowhere nowhere nowhere no_own m ->
  w_fs (trun e ck m w).1 = w_fs w /\ w_mtime (trun e ck m w).1 = w_mtime w /\
  exists l, w_seen (trun e ck m w).1 = w_seen w ++ l /\
    forall q t, (LkPath q, t) ∈ l -> is_Some (fs_nodes (w_fs w) !! q) /\
      forall i, fs_nodes (w_fs w) !! q = Some (NFile i) -> t = mtime_of w i.
Proof.
  revert w. induction m as [a|R c k IH]; intros w Hs.
  { split; [done|]. split; [done|]. exists []. split; [by rewrite app_nil_r|]. intros q t H. by apply elem_of_nil in H. }
  cbn [trun]. destruct (texec e ck c w) as [w1 r] eqn:E.
  assert (H : scoped nowhere nowhere nowhere no_own (k r) /\ w_fs w1 = w_fs w /\ w_mtime w1 = w_mtime w /\
    exists l, w_seen w1 = w_seen w ++ l /\
    forall q t, (LkPath q, t) ∈ l -> is_Some (fs_nodes (w_fs w) !! q) /\
      forall i, fs_nodes (w_fs w) !! q = Some (NFile i) -> t = mtime_of w i).
  { unfold texec in E. destruct c; cbn [exec scoped] in *; try (by destruct Hs as [[] _]).
    all: try (injection E as <- <-; split; [apply Hs|]; split; [done|]; split; [done|]; exists [];
              split; [done|]; intros q t H; by apply elem_of_nil in H).
    - injection E as <- <-. split; [apply Hs|]. split; [done|]. split; [done|]. eexists. split; [done|].
      cbn [seen]. intros q t H. destruct (negb (e_os_ok e p)); [by apply elem_of_nil in H|].
      destruct (fs_nodes (w_fs w) !! p) as [[|j]|] eqn:Hp; [| |by apply elem_of_nil in H].
      + apply elem_of_list_singleton in H as [= -> ->]. rewrite Hp. by split.
      + apply elem_of_list_singleton in H as [= -> ->]. rewrite Hp. split; [done|]. by intros i [= ->].
    - destruct h; injection E as <- <-; (split; [apply Hs|]); (split; [done|]); (split; [done|]); eexists; (split; [done|]);
        cbn [seen]; intros q t H; by apply elem_of_list_singleton in H as [=].
    - destruct h; injection E as <- <-; (split; [apply Hs|]); (split; [done|]); (split; [done|]); eexists; (split; [done|]);
        cbn [seen]; intros q t H; by apply elem_of_nil in H.
    - destruct h; injection E as <- <-; (split; [apply Hs|]); (split; [done|]); (split; [done|]); eexists; (split; [done|]);
        cbn [seen]; intros q t H; by apply elem_of_nil in H. }
  destruct H as (H1 & H2 & H3 & l & H4 & H5). destruct (IH r w1 H1) as (G1 & G2 & l' & G3 & G4).
  split; [congruence|]. split; [congruence|]. exists (l ++ l'). split; [by rewrite G3, H4, app_assoc|].
  intros q t [Hin|Hin]%elem_of_app; [by apply H5|]. destruct (G4 q t Hin) as [K1 K2]. rewrite H2 in *.
  split; [done|]. intros i Hq. rewrite (K2 i Hq). unfold mtime_of. by rewrite H3.
Qed.

Lemma seen_grows e ck {A} (m : prog A) w : exists l, w_seen (trun e ck m w).1 = w_seen w ++ l.
Proof.
  revert w. induction m as [a|R c k IH]; intros w; [exists []; by rewrite app_nil_r|]. cbn [trun]. unfold texec.
  destruct (exec e c (w_fs w)) as [s r].
  match goal with |- context [trun e ck (k r) ?x] => destruct (IH r x) as [l ->] end.
  cbn [w_seen]. eexists. by rewrite <- app_assoc.
Qed.

(* The first look decides. *)
Lemma first_seen e ck {A} (m : prog A) w x : w_seen w = [x] -> exists l, w_seen (trun e ck m w).1 = x :: l.
Proof. intros H. destruct (seen_grows e ck m w) as [l ->]. rewrite H. by exists l. Qed.

(* An open file is asked for its length and time first. *)
Lemma opened_seen e ck p i {A} (c : s3_code) (K : handle -> N -> prog (sres A)) w a : fs_nodes (w_fs w) !! p = Some (NFile i) -> w_seen w = [] ->
  let m := bind (call (COpen p)) (fun o => match o with None => Ret (Err c) | Some h => try_io (call (CLen h)) (K h) end) in
  (trun e ck m w).2 = Ok a -> exists l, w_seen (trun e ck m w).1 = (LkHandle (HFile i), mtime_of w i) :: l.
Proof.
  intros Hp Hn. cbv zeta. cbn [bind call trun]. unfold texec. cbn [exec]. rewrite Hp.
  destruct (negb (e_os_ok e p)); [done|]. cbn [trun try_io bind call]. unfold texec. cbn [exec w_fs].
  intros _. apply first_seen. cbn. by rewrite Hn.
Qed.

(* Every entry of a listing has been looked at. *)
Lemma listed_entries e ck root prefix dir es w ds l : (trun e ck (list_entries root prefix dir es) w).2 = Ok (ds, l) ->
  forall k n, (k, n) ∈ l -> exists q t, key_text root q = Some k /\ (LkPath q, t) ∈ w_seen (trun e ck (list_entries root prefix dir es) w).1.
Proof.
  revert w ds l. induction es as [|[c d] es IH]; intros w ds l; cbn [list_entries].
  { cbn. intros [= <- <-] k n H. by apply elem_of_nil in H. }
  destruct d.
  { unfold try_res. rewrite !trun_bind. destruct (trun e ck (list_entries root prefix dir es) w) as [w' r] eqn:E. cbn [fst snd].
    destruct r as [[ds' l']|]; [|done]. cbn [trun fst snd]. intros [= <- <-]. specialize (IH w ds' l'). rewrite E in IH. by apply IH. }
  destruct (key_text root (dir ++ [c])) as [key|] eqn:Ek; [|done].
  destruct (match prefix with Some x => starts_with x key | None => true end); [|apply IH].
  unfold try_io. rewrite !trun_bind. destruct (trun e ck (call (CStat (dir ++ [c]))) w) as [w1 st] eqn:E1. cbn [fst snd].
  destruct st as [st|]; [|done]. destruct (st.2 <=? i64_max)%N; [|done].
  unfold try_res. rewrite !trun_bind. specialize (IH w1).
  pose proof (seen_grows e ck (list_entries root prefix dir es) w1) as [ll Hll].
  destruct (trun e ck (list_entries root prefix dir es) w1) as [w2 r] eqn:E2. cbn [fst snd] in *.
  destruct r as [[ds' l']|]; [|done]. cbn [trun fst snd]. intros [= <- <-] k n [H|H]%elem_of_cons.
  - injection H as -> ->. exists (dir ++ [c]). rewrite Hll.
    cbn [call trun] in E1. unfold texec in E1. cbn [exec] in E1. injection E1 as <- E1.
    destruct (negb (e_os_ok e (dir ++ [c]))); [done|]. cbn [seen w_seen].
    destruct (fs_nodes (w_fs w) !! (dir ++ [c])) as [[|i]|]; [| |done]; (eexists; split; [done|];
      apply elem_of_app; left; apply elem_of_app; right; by left).
  - by eapply IH.
Qed.

Lemma listed_queue e ck root prefix fuel queue w l : (trun e ck (list_queue fuel root prefix queue) w).2 = Ok l ->
  forall k n, (k, n) ∈ l -> exists q t, key_text root q = Some k /\ (LkPath q, t) ∈ w_seen (trun e ck (list_queue fuel root prefix queue) w).1.
Proof.
  revert queue w l. induction fuel as [|fuel IH]; intros [|dir queue] w l; cbn [list_queue]; try done;
    try (cbn; intros [= <-] k n H; by apply elem_of_nil in H).
  unfold try_io. rewrite !trun_bind. destruct (trun e ck (call (CReadDir dir)) w) as [w1 es] eqn:E1. cbn [fst snd].
  destruct es as [es|]; [|done]. unfold try_res. rewrite !trun_bind.
  pose proof (listed_entries e ck root prefix dir es w1) as Hle.
  destruct (trun e ck (list_entries root prefix dir es) w1) as [w2 r] eqn:E2. cbn [fst snd] in *.
  destruct r as [[ds objs]|]; [|done]. cbn [fst snd]. rewrite !trun_bind.
  pose proof (IH (queue ++ ds) w2) as IH'. pose proof (seen_grows e ck (list_queue fuel root prefix (queue ++ ds)) w2) as [ll Hll].
  destruct (trun e ck (list_queue fuel root prefix (queue ++ ds)) w2) as [w3 r] eqn:E3. cbn [fst snd] in *.
  destruct r as [l'|]; [|done]. cbn [trun fst snd]. intros [= <-] k n [H|H]%elem_of_app.
  - destruct (Hle ds objs eq_refl k n H) as (q & t & H1 & H2). exists q, t. split; [done|]. rewrite Hll. apply elem_of_app. by left.
  - by eapply IH'.
Qed.

(** C84, part 4: what GetObject, HeadObject and the listings show as the time of an object is the
    time of its file; so they agree with one another. *)
Theorem C84_shown e ck w b k p i : legal_bucket b -> located b k p -> fs_nodes (w_fs w) !! p = Some (NFile i) ->
  let t := mtime_of w i in
  (forall rg a, (timed e ck (RGetObject b k rg) w).2 = Ok a -> last_modified e ck (RGetObject b k rg) w = Some t) /\
  (forall a, (timed e ck (RHeadObject b k) w).2 = Ok a -> last_modified e ck (RHeadObject b k) w = Some t) /\
  (forall r x n l c, tidy e (w_fs w) -> r = RListObjects b x \/ r = RListObjectsV2 b x ->
     (timed e ck r w).2 = Ok (AList b l c) -> (k, n) ∈ l -> listed_modified e ck r w p = Some t).
Proof.
  intros Hb Hl Hp t. pose proof (legal_bucket_segment _ Hb) as Hbs. pose proof (located_path e b k p Hbs Hl) as Hg.
  unfold last_modified, listed_modified, timed. set (w0 := World _ _ _ []). split_and!.
  - intros rg a. cbn [storage]. unfold get_object. rewrite Hg. cbn [try_path].
    destruct rg as [str|].
    + destruct (range_from_header_str str) as [r|]; [|done]. intros Ha.
      destruct (opened_seen e ck p i _ _ w0 a Hp eq_refl Ha) as [l Hs].
      match goal with |- context [trun e ck ?m w0] => destruct (trun e ck m w0) as [w' y] end. cbn [fst snd] in *. by rewrite Ha, Hs.
    + intros Ha. destruct (opened_seen e ck p i _ _ w0 a Hp eq_refl Ha) as [l Hs].
      match goal with |- context [trun e ck ?m w0] => destruct (trun e ck m w0) as [w' y] end. cbn [fst snd] in *. by rewrite Ha, Hs.
  - intros a. cbn [storage]. unfold head_object. rewrite Hg. cbn [try_path bind call trun]. unfold texec at 1 2. cbn [exec].
    change (w_fs w0) with (w_fs w). rewrite Hp. rewrite bool_decide_true by by eexists.
    destruct (e_os_ok e p) eqn:Hos; [|done]. cbn [andb trun try_io bind call]. unfold texec. cbn [exec w_fs].
    rewrite Hp, Hos. cbn [negb]. match goal with |- (trun e ck ?m ?x).2 = _ -> _ => destruct (first_seen e ck m x (LkPath p, t)) as [l Hs] end.
    { cbn. by rewrite Hp. }
    match goal with |- context [trun e ck ?m ?x] => destruct (trun e ck m x) as [w' y] end. cbn [fst snd] in *.
    intros ->. by rewrite Hs.
  - intros r x n l c Ht Hr Ha Hin.
    assert (Hs : exists v2, storage e r = list_objects e v2 b x) by (destruct Hr as [-> | ->]; eauto).
    destruct Hs as [v2 Hs]. rewrite Hs in *.
    assert (Hro : scoped nowhere nowhere nowhere no_own (list_objects e v2 b x)).
    { rewrite <- Hs. eapply scoped_weaken; [..|apply scoped_storage]; destruct Hr as [-> | ->]; done. }
    destruct (looking e ck _ w0 Hro) as (_ & _ & ll & Hll & Hlook). change (w_seen w0 ++ ll) with ll in Hll.
    destruct (trun e ck (list_objects e v2 b x) w0) as [w' y] eqn:E. cbn [fst snd] in *. subst y. rewrite Hll.
    assert (Hseen : exists t', (LkPath p, t') ∈ ll).
    { rewrite <- Hll. revert E. unfold list_objects. rewrite bucket_path by done. cbn [try_path]. rewrite trun_bind.
      destruct (trun e ck (call CCount) w0) as [w1 cnt] eqn:E1. cbn [fst snd]. unfold try_res. rewrite trun_bind.
      pose proof (listed_queue e ck [b] x cnt [[b]] w1) as Hq.
      destruct (trun e ck (list_queue cnt [b] x [[b]]) w1) as [w2 r2] eqn:E2. cbn [fst snd] in *.
      destruct r2 as [l'|]; [|done]. cbn [trun]. intros [= <- <- _].
      assert (Hsp : sort_objects l' ≡ₚ l') by apply merge_sort_Permutation. rewrite Hsp in Hin.
      destruct (Hq l' eq_refl k n Hin) as (q & t' & Hk & Hqt). exists t'.
      assert (Hqp : q = p); [|by subst q].
      rewrite Hll in Hqt. destruct (Hlook q t' Hqt) as [Hq1 _].
      destruct (below [b] q) as [segs|] eqn:Eb; [|unfold key_text in Hk; by rewrite Eb in Hk].
      apply below_Some in Eb as ->. rewrite (key_text_eq e (w_fs w) b Ht) in Hk; [|by exists segs|done].
      injection Hk as <-. destruct Hl as (segs' & Hne & Hok & Hks & ->). cbn [app tail] in *. f_equal.
      destruct (Ht _ Hq1) as (Hseg & _). apply Forall_cons in Hseg as [_ Hseg].
      apply slashed_inj; try done. intros ->. destruct segs' as [|x1 [|x2 x3]]; [done|..]; apply Forall_cons in Hok as [[Hx1 _] _]; cbn in Hks; destruct x1; done. }
    destruct Hseen as [t' Hseen].
    match goal with |- context [find ?f ll] => destruct (find f ll) as [[lk t2]|] eqn:Ef end.
    + apply find_some in Ef as [Ein Ef]. cbn in Ef. destruct lk as [q|]; [|done]. case_bool_decide; [|done]. subst q.
      cbn. f_equal. by apply (Hlook p t2); [apply elem_of_list_In|].
    + exfalso. apply elem_of_list_In in Hseen. eapply find_none in Hseen; [|done]. cbn in Hseen. by case_bool_decide.
Qed.
Print Assumptions C84_shown.

(** ** The header *)

(* The whole seconds of a time. *)
Definition seconds (t : Z) : Z := (t / 1000000000)%Z.

(* The header can be formed: an offset of the zone in whole minutes, years of four digits. *)
Definition showable (off t : Z) : Prop :=
  (-86400 < off < 86400)%Z /\ (60 | off)%Z /\ four_digit_years (seconds t + off) /\ four_digit_years (seconds t).

(** C84, part 5: the header Last-Modified denotes the second of the last write, whatever the time
    zone; if that second was over at the first moment, the same header at a later moment of any
    execution means the same content. *)
Theorem C84_header off t : showable off t ->
  exists h, last_modified_header off t = Some h /\ http_date h (seconds t).
Proof. intros (H1 & H2 & H3 & H4). by apply (C69_last_modified (SysTime (seconds t) _)). Qed.
Print Assumptions C84_header.

Theorem C84_header_validator e ck w w' b k t t' c c' off off' h h' :
  (forall n m, n <= m -> (ck_now ck n <= ck_now ck m)%Z) -> tcalls e ck w w' ->
  dated b k t w -> dated b k t' w' -> has b k c w -> has b k c' w' ->
  (seconds t < seconds (ck_now ck (w_calls w)))%Z ->
  showable off t -> showable off' t' ->
  last_modified_header off t = Some h -> last_modified_header off' t' = Some h' ->
  h = h' -> c = c'.
Proof.
  intros Hm Hc Hd Hd' Hh Hh' Hsec Ho Ho' E E' ->.
  destruct (C84_header off t Ho) as (x & Hx & Hx'). rewrite E in Hx. injection Hx as <-.
  destruct (C84_header off' t' Ho') as (x & Hx & Hx''). rewrite E' in Hx. injection Hx as <-.
  pose proof (C69_unambiguous _ _ _ Hx' Hx'') as Hs.
  destruct Hd as (p & i & Hl & Hp & <-), Hd' as (p' & i' & Hl' & Hp' & <-), Hh as (q & Hq & Hcont), Hh' as (q' & Hq' & Hcont').
  rewrite (located_fun _ _ _ _ Hl' Hl) in *. rewrite (located_fun _ _ _ _ Hq Hl) in *.
  rewrite (located_fun _ _ _ _ Hq' Hl) in *. clear Hl' Hq Hq'.
  unfold content in *. rewrite Hp in Hcont. rewrite Hp' in Hcont'. injection Hcont as <-. injection Hcont' as <-.
  destruct (since_tcalls _ _ _ _ Hc p i' Hp') as [(H1 & H2 & H3)|H].
  - rewrite Hp in H1. injection H1 as <-. done.
  - apply between_past in H; [|done]. exfalso. unfold seconds in *.
    pose proof (Z.div_le_mono _ _ 1000000000 ltac:(lia) H). lia.
Qed.
Print Assumptions C84_header_validator.

(** ** Witnesses *)

(* A microsecond passes between calls, from 2021-01-01 on. *)
Definition ex_clock : clock := Clock (fun n => 1609459200000000000 + 1000 * Z.of_nat n)%Z (fun _ _ => 0%Z).
Definition ex_world : world := World empty_store ∅ 0 [].
Definition ex_put (k d : bytes) : s_req := RPutObject (B "bucket") k None None None (Some [FData d]).
Fixpoint timed_all (e : env) (ck : clock) (rs : list s_req) (w : world) : world :=
  match rs with [] => w | r :: rs' => timed_all e ck rs' (timed e ck r w).1 end.

(* CopyObject reports the time of the source, not that of the object it made, and not a time
   during the request (/repo/src/storages/fs.rs:226,247). *)
Theorem C84_copy_refuted : exists e ck w a src b k t,
  (forall n, (ck_now ck n < ck_now ck (S n))%Z) /\ legal_bucket b /\
  (timed e ck (RCopyObject src b k) w).2 = Ok a /\
  dated b k t (timed e ck (RCopyObject src b k) w).1 /\
  last_modified e ck (RCopyObject src b k) w <> Some t /\
  (forall x, last_modified e ck (RCopyObject src b k) w = Some x -> ~ between ck w (timed e ck (RCopyObject src b k) w).1 x).
Proof.
  exists ex_env, ex_clock, (timed_all ex_env ex_clock [RCreateBucket (B "bucket"); ex_put (B "a") (B "one")] ex_world).
  eexists _, (B "bucket/a"), (B "bucket"), (B "b"), _. split_and!.
  - intros n. cbn [ck_now ex_clock]. lia.
  - apply (proj1 (check_bucket_name_spec _)). by vm_compute.
  - vm_compute. reflexivity.
  - exists [B "bucket"; B "b"]. eexists. split_and!; [by exists [B "b"]; split_and!; [done|compute_done|done|done]|vm_compute; reflexivity|vm_compute; reflexivity].
  - by vm_compute.
  - intros x Hx (n & [Hn _] & ->).
    assert (Hc : w_calls (timed_all ex_env ex_clock [RCreateBucket (B "bucket"); ex_put (B "a") (B "one")] ex_world) = 7)
      by (vm_compute; reflexivity).
    pose proof (eq_ind _ (fun x => x <= n) Hn _ Hc) as Hn'. clear Hn Hc. cbn beta in Hn'.
    vm_compute (last_modified _ _ _ _) in Hx. injection Hx as Hx.
    cbn [ck_now ex_clock] in Hx. lia.
Qed.
Print Assumptions C84_copy_refuted.

(* Two uploads within one second have the same header, though their contents differ. *)
Theorem C84_same_second_refuted : exists e ck w w' b k c c' t t' off,
  (forall n, (ck_now ck n < ck_now ck (S n))%Z) /\ in_past ck w /\ tcalls e ck w w' /\ legal_bucket b /\
  dated b k t w /\ dated b k t' w' /\ has b k c w /\ has b k c' w' /\
  showable off t /\ showable off t' /\ last_modified_header off t = last_modified_header off t' /\ c <> c'.
Proof.
  set (w := timed_all ex_env ex_clock [RCreateBucket (B "bucket"); ex_put (B "a") (B "one")] ex_world).
  assert (Hmono : forall n, (ck_now ex_clock n < ck_now ex_clock (S n))%Z) by (intros n; cbn [ck_now ex_clock]; lia).
  assert (Hl : located (B "bucket") (B "a") [B "bucket"; B "a"]) by (exists [B "a"]; split_and!; [done|compute_done|done|done]).
  exists ex_env, ex_clock, w, (timed ex_env ex_clock (ex_put (B "a") (B "two")) w).1, (B "bucket"), (B "a"), (B "one"), (B "two").
  eexists _, _, 3600%Z. split_and!.
  - done.
  - eapply (C84_past ex_env ex_clock ex_world); [done| |].
    + intros p i Hp. cbn in Hp. by apply lookup_singleton_Some in Hp as [_ ?].
    + unfold w. cbn [timed_all]. eapply tcalls_trans; apply timed_tcalls.
  - apply timed_tcalls.
  - apply (proj1 (check_bucket_name_spec _)). by vm_compute.
  - eexists _, _. split_and!; [done|vm_compute; reflexivity|vm_compute; reflexivity].
  - eexists _, _. split_and!; [done|vm_compute; reflexivity|vm_compute; reflexivity].
  - eexists. split; [done|vm_compute; reflexivity].
  - eexists. split; [done|vm_compute; reflexivity].
  - split_and!; try done. by exists 60%Z.
  - split_and!; try done. by exists 60%Z.
  - by vm_compute.
  - done.
Qed.
Print Assumptions C84_same_second_refuted.

(* Two objects are put, one is put again and then read and listed. *)
Definition ex_timed : world := timed_all ex_env ex_clock
  [RCreateBucket (B "bucket"); ex_put (B "a") (B "one"); ex_put (B "d/b") (B "two"); ex_put (B "a") (B "three")] ex_world.
Example ex_times :
  last_modified ex_env ex_clock (RGetObject (B "bucket") (B "a") (Some (B "bytes=0-0"))) ex_timed = Some 1609459200000015000%Z /\
  last_modified ex_env ex_clock (RHeadObject (B "bucket") (B "a")) ex_timed = Some 1609459200000015000%Z /\
  listed_modified ex_env ex_clock (RListObjects (B "bucket") None) ex_timed [B "bucket"; B "a"] = Some 1609459200000015000%Z /\
  last_modified ex_env ex_clock (RHeadObject (B "bucket") (B "d/b")) ex_timed = Some 1609459200000010000%Z /\
  last_modified_header 3600 1609459200000015000 = Some (B "Fri, 01 Jan 2021 00:00:00 GMT").
Proof. split_and!; vm_compute; reflexivity. Qed.
