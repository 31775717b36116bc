(** C95: tenants that work at the same time do not notice each other. *)
From Verif Require Import M_Base M_Path M_Headers M_Chunked M_BytesStream M_Crypto M_Fs M_Json M_Utf8 M_Storage
  S_Path S_Headers S_Chunked S_Storage S_Store
  L_Base L_Path L_Headers L_Fs L_Storage L_Scope L_Names L_Ops L_Results T_Store T_Scope T_Isolation T_Tenants T_Backup.

Local Opaque md5 etag_of json_decode json_encode metadata_name part_name.

(** ** What the theorem says *)

(* Requests about the buckets [T] and the uploads [I] alone.  Listings, ListBuckets and DeleteBucket are not among them. *)
Definition about (T I : bytes -> Prop) (r : s_req) : Prop :=
  match r with
  | RCreateBucket b | RGetBucketLocation b | RHeadBucket b => T b
  | RDeleteObjects b ks => T b /\ Forall tame ks
  | RDeleteObject b k | RGetObject b k _ | RHeadObject b k | RPutObject b k _ _ _ _ => T b /\ tame k
  | RCreateMultipartUpload b _ _ => True
  | RCopyObject src b k => T b /\ tame k /\ forall sb sk, copy_source_from_header_str src = Ok (sb, sk) -> T sb /\ tame sk
  | RUploadPart u _ _ => I u
  | RCompleteMultipartUpload b k u _ => T b /\ tame k /\ I u
  | RDeleteBucket _ | RListBuckets | RListObjects _ _ | RListObjectsV2 _ _ => False
  end.

(* Entries of the root directory that belong to them. *)
Definition entry_of (T I : bytes -> Prop) (x : bytes) : Prop :=
  T x \/ (exists b k, x = metadata_name b k /\ T b) \/ (exists u n, x = part_name u n /\ I u).

(* The same files and directories, with the same bytes, below these entries. *)
Definition same_below (X : bytes -> Prop) (s t : fs) : Prop :=
  forall x p, X x -> is_dir s (x :: p) = is_dir t (x :: p) /\ content s (x :: p) = content t (x :: p).

(** ** The part of a store that belongs to a tenant *)

Section together.
  Context (e : env) (X : bytes -> Prop).

  Definition area (p : path) : Prop := match p with [] => True | x :: _ => X x end.
  Lemma area_up p c : area (p ++ [c]) -> area p.
  Proof. by destruct p. Qed.
  Lemma area_down p q : p <> [] -> area p -> area (p ++ q).
  Proof. by destruct p. Qed.
  Lemma area_prefix p q : p `prefix_of` q -> area q -> area p.
  Proof. intros [r ->]. by destruct p. Qed.

  Record mirrors (W : N -> N -> Prop) (s t : fs) : Prop := {
    ms_node p : area p -> match fs_nodes s !! p, fs_nodes t !! p with
                | None, None | Some NDir, Some NDir => True
                | Some (NFile i), Some (NFile j) => W i j
                | _, _ => False
                end;
    ms_root : fs_nodes s !! [] = Some NDir;
    ms_data i j : W i j -> data_of s i = data_of t j;
    ms_left i j j' : W i j -> W i j' -> j = j';
    ms_right i i' j : W i j -> W i' j -> i = i';
    ms_fresh i j : W i j -> (i < fs_next s)%N /\ (j < fs_next t)%N;
    ms_apart p i j : W i j -> fs_nodes s !! p = Some (NFile i) -> area p;
  }.

  Lemma ms_is_dir W s t p : mirrors W s t -> area p -> is_dir t p = is_dir s p.
  Proof.
    intros Hm Ha. pose proof (ms_node _ _ _ Hm p Ha). unfold is_dir. by destruct (fs_nodes s !! p) as [[|i]|], (fs_nodes t !! p) as [[|j]|].
  Qed.
  Lemma ms_some W s t p : mirrors W s t -> area p -> is_Some (fs_nodes t !! p) <-> is_Some (fs_nodes s !! p).
  Proof.
    intros Hm Ha. pose proof (ms_node _ _ _ Hm p Ha). destruct (fs_nodes s !! p) as [[|i]|], (fs_nodes t !! p) as [[|j]|]; try done.
  Qed.
  Lemma ms_child_names W s t p : mirrors W s t -> area p -> p <> [] -> child_names s p ≡ₚ child_names t p.
  Proof.
    intros Hm Ha Hp. apply NoDup_Permutation; [apply NoDup_child_names..|]. intros c. rewrite !elem_child_names. symmetry.
    eapply ms_some; [done|]. by apply area_down.
  Qed.
  Lemma ms_set W s t p x : mirrors W s t -> p <> [] -> (x = None \/ x = Some NDir) ->
    mirrors W (set_nodes s (partial_alter (fun _ => x) p (fs_nodes s))) (set_nodes t (partial_alter (fun _ => x) p (fs_nodes t))).
  Proof.
    intros Hm Hp Hx. split; try apply Hm; cbn [set_nodes fs_nodes].
    - intros q Ha. destruct (decide (q = p)) as [->|Hn].
      + rewrite !lookup_partial_alter. by destruct Hx as [->| ->].
      + rewrite !lookup_partial_alter_ne by done. by apply Hm.
    - rewrite lookup_partial_alter_ne by done. apply Hm.
    - intros q i j Hw Hq. destruct (decide (q = p)) as [->|Hn].
      + rewrite lookup_partial_alter in Hq. by destruct Hx as [->| ->].
      + rewrite lookup_partial_alter_ne in Hq by done. by eapply (ms_apart _ _ _ Hm).
  Qed.
  Lemma ms_write W s t i j d : mirrors W s t -> W i j ->
    mirrors W (Fs (fs_nodes s) (<[i := d]> (fs_data s)) (fs_next s)) (Fs (fs_nodes t) (<[j := d]> (fs_data t)) (fs_next t)).
  Proof.
    intros Hm Hw. split; try apply Hm. intros i' j' Hw'. unfold data_of. cbn [fs_data].
    destruct (decide (i' = i)) as [->|Hi].
    - assert (j' = j) as -> by by eapply ms_left. by rewrite !lookup_insert.
    - assert (j' <> j) by (intros ->; apply Hi; by eapply ms_right). rewrite !lookup_insert_ne by done. by apply (ms_data _ _ _ Hm).
  Qed.
  Lemma ms_new W s t p : wf s -> mirrors W s t -> area p -> fs_nodes s !! p = None -> fs_nodes t !! p = None ->
    let i := fs_next s in let j := fs_next t in
    mirrors (fun a b => W a b \/ a = i /\ b = j)
      (Fs (<[p := NFile i]> (fs_nodes s)) (<[i := []]> (fs_data s)) (i + 1)%N)
      (Fs (<[p := NFile j]> (fs_nodes t)) (<[j := []]> (fs_data t)) (j + 1)%N).
  Proof.
    intros Hwf Hm Ha Hs Ht. cbn zeta. remember (fs_next s) as i eqn:Ei. remember (fs_next t) as j eqn:Ej.
    assert (Hl : forall a b, W a b -> a <> i /\ b <> j).
    { intros a b Hw. destruct (ms_fresh _ _ _ Hm _ _ Hw). lia. }
    split; cbn [fs_nodes fs_next].
    - intros q Hq. destruct (decide (q = p)) as [->|Hn]; [rewrite !lookup_insert; by right|]. rewrite !lookup_insert_ne by done.
      pose proof (ms_node _ _ _ Hm q Hq). destruct (fs_nodes s !! q) as [[|a]|], (fs_nodes t !! q) as [[|b]|]; try done. by left.
    - rewrite lookup_insert_ne; [apply Hm|]. intros ->. pose proof (ms_root _ _ _ Hm). congruence.
    - intros a b [Hw|[Ea Eb]]; unfold data_of; cbn [fs_data]; [|by rewrite Ea, Eb, !lookup_insert].
      destruct (Hl a b Hw). rewrite !lookup_insert_ne by done. by apply (ms_data _ _ _ Hm).
    - intros a b b' [H1|[Ea Eb]] [H2|[Ea' Eb']]; [by eapply ms_left| | |congruence].
      + by destruct (Hl _ _ H1).
      + by destruct (Hl _ _ H2).
    - intros a a' b [H1|[Ea Eb]] [H2|[Ea' Eb']]; [by eapply ms_right| | |congruence].
      + by destruct (Hl _ _ H1).
      + by destruct (Hl _ _ H2).
    - intros a b [H1|[Ea Eb]]; [destruct (ms_fresh _ _ _ Hm _ _ H1); lia|lia].
    - intros q a b Hw Hq. destruct (decide (q = p)) as [->|Hn]; [done|]. rewrite lookup_insert_ne in Hq by done.
      destruct Hw as [Hw|[Ea Eb]]; [by eapply (ms_apart _ _ _ Hm)|]. exfalso. subst a.
      apply (wf_next _ Hwf) in Hq. lia.
  Qed.

  (** *** A step of a request of the tenant, in both stores *)

  (* Programs that differ in the numbers of files only, use the area only, and whose results are related by [Q]. *)
  Fixpoint psim {A} (Q : (N -> N -> Prop) -> A -> A -> Prop) (W : N -> N -> Prop) (m m' : prog A) {struct m} : Prop :=
    match m with
    | Ret a => match m' with Ret a' => Q W a a' | Do _ _ => False end
    | Do c k =>
        match m' with
        | Ret _ => False
        | Do c' k' =>
            match c in syscall R return (R -> prog A) -> Prop with
            | CExists p => fun k =>
                match c' in syscall R' return (R' -> prog A) -> Prop with
                | CExists q => fun k' => q = p /\ area p /\ forall W' r, grows W W' -> psim Q W' (k r) (k' r)
                | _ => fun _ => False
                end k'
            | CStat p => fun k =>
                match c' in syscall R' return (R' -> prog A) -> Prop with
                | CStat q => fun k' => q = p /\ area p /\ forall W' r, grows W W' -> psim Q W' (k r) (k' r)
                | _ => fun _ => False
                end k'
            | COpen p => fun k =>
                match c' in syscall R' return (R' -> prog A) -> Prop with
                | COpen q => fun k' => q = p /\ area p /\ forall W' r r', grows W W' -> option_Forall2 (handles W') r r' -> psim Q W' (k r) (k' r')
                | _ => fun _ => False
                end k'
            | CLen h => fun k =>
                match c' in syscall R' return (R' -> prog A) -> Prop with
                | CLen h' => fun k' => handles W h h' /\ forall W' r, grows W W' -> psim Q W' (k r) (k' r)
                | _ => fun _ => False
                end k'
            | CRead h off => fun k =>
                match c' in syscall R' return (R' -> prog A) -> Prop with
                | CRead h' off' => fun k' => handles W h h' /\ off' = off /\ forall W' r, grows W W' -> psim Q W' (k r) (k' r)
                | _ => fun _ => False
                end k'
            | CCreate p => fun k =>
                match c' in syscall R' return (R' -> prog A) -> Prop with
                | CCreate q => fun k' => q = p /\ area p /\ forall W' r r', grows W W' -> option_Forall2 W' r r' -> psim Q W' (k r) (k' r')
                | _ => fun _ => False
                end k'
            | CWrite i off b => fun k =>
                match c' in syscall R' return (R' -> prog A) -> Prop with
                | CWrite j off' b' => fun k' => W i j /\ off' = off /\ b' = b /\ forall W' r, grows W W' -> psim Q W' (k r) (k' r)
                | _ => fun _ => False
                end k'
            | CMkdir p => fun k =>
                match c' in syscall R' return (R' -> prog A) -> Prop with
                | CMkdir q => fun k' => q = p /\ area p /\ forall W' r, grows W W' -> psim Q W' (k r) (k' r)
                | _ => fun _ => False
                end k'
            | CUnlink p => fun k =>
                match c' in syscall R' return (R' -> prog A) -> Prop with
                | CUnlink q => fun k' => q = p /\ area p /\ forall W' r, grows W W' -> psim Q W' (k r) (k' r)
                | _ => fun _ => False
                end k'
            | CRmdir p => fun k =>
                match c' in syscall R' return (R' -> prog A) -> Prop with
                | CRmdir q => fun k' => q = p /\ area p /\ p <> [] /\ forall W' r, grows W W' -> psim Q W' (k r) (k' r)
                | _ => fun _ => False
                end k'
            | CReadDir p => fun k =>
                match c' in syscall R' return (R' -> prog A) -> Prop with
                | CReadDir q => fun k' => q = p /\ area p /\ p <> [] /\ forall W' r r', grows W W' -> dirs_alike r r' -> psim Q W' (k r) (k' r')
                | _ => fun _ => False
                end k'
            | CCount => fun _ => False
            | CBound h => fun k =>
                match c' in syscall R' return (R' -> prog A) -> Prop with
                | CBound h' => fun k' => handles W h h' /\ forall W' r, grows W W' -> psim Q W' (k r) (k' r)
                | _ => fun _ => False
                end k'
            end k
        end
    end.

  Lemma grows_refl' W : grows W W.
  Proof. by intros i j. Qed.
  Lemma grows_trans W1 W2 W3 : grows W1 W2 -> grows W2 W3 -> grows W1 W3.
  Proof. intros H1 H2 i j H. by apply H2, H1. Qed.
  Lemma handles_grow W W' h h' : grows W W' -> handles W h h' -> handles W' h h'.
  Proof. intros Hg. destruct h, h'; try done. apply Hg. Qed.
  Local Hint Resolve grows_refl' handles_grow : core.

  Definition lasts {A} (Q : (N -> N -> Prop) -> A -> A -> Prop) : Prop := forall W W' a a', grows W W' -> Q W a a' -> Q W' a a'.

  Lemma psim_grow {A} (Q : (N -> N -> Prop) -> A -> A -> Prop) W W' (m m' : prog A) : lasts Q -> grows W W' -> psim Q W m m' -> psim Q W' m m'.
  Proof.
    intros HQ Hg. destruct m as [a|R c k], m' as [a'|R' c' k']; cbn [psim]; [by apply HQ|done|done|].
    destruct c; destruct c'; try done; intros H.
    all: try (destruct H as (H1 & H2 & H3 & H4); split_and!; [try done; by apply Hg|done|done|]; intros; eapply H4; eauto using grows_trans; fail).
    all: try (destruct H as (H1 & H2 & H3); split_and!; [first [done|by eauto]|done|]; intros; eapply H3; eauto using grows_trans; fail).
    all: destruct H as (H1 & H2); split; [by eauto|]; intros; eapply H2; eauto using grows_trans.
  Qed.

  Lemma psim_exec {A} (Q : (N -> N -> Prop) -> A -> A -> Prop) W s t {R R'} (c : syscall R) (c' : syscall R') (k : R -> prog A) (k' : R' -> prog A) :
    wf s -> mirrors W s t -> psim Q W (Do c k) (Do c' k') ->
    exists W', grows W W' /\ (forall i j, W' i j -> W i j \/ i = fs_next s) /\ (fs_next s <= fs_next (exec e c s).1)%N /\
      mirrors W' (exec e c s).1 (exec e c' t).1 /\ psim Q W' (k (exec e c s).2) (k' (exec e c' t).2).
  Proof.
    intros Hwf Hm.
    assert (Hsame : forall s' t' (P : Prop), mirrors W s' t' -> P -> (fs_next s <= fs_next s')%N -> forall m m', psim Q W m m' ->
      exists W', grows W W' /\ (forall i j, W' i j -> W i j \/ i = fs_next s) /\ (fs_next s <= fs_next s')%N /\ mirrors W' s' t' /\ psim Q W' m m').
    { intros s' t' P Hm' _ Hn m m' H. exists W. split; [done|]. split; [by left|]. done. }
    destruct c; destruct c'; cbn [psim]; try done.
    - intros (-> & Ha & Hk). cbn [exec fst snd]. apply (Hsame _ _ True); [done|done|lia|].
      rewrite (bool_decide_ext _ _ (ms_some _ _ _ _ Hm Ha)). by apply Hk.
    - intros (-> & Ha & Hk). cbn [exec fst snd]. apply (Hsame _ _ True); [done|done|lia|].
      destruct (negb _); [by apply Hk|]. pose proof (ms_node _ _ _ Hm p Ha).
      destruct (fs_nodes s !! p) as [[|i]|], (fs_nodes t !! p) as [[|j]|]; try done; try by apply Hk.
      rewrite (ms_data _ _ _ Hm i j) by done. by apply Hk.
    - intros (-> & Ha & Hk). cbn [exec fst snd]. apply (Hsame _ _ True); [done|done|lia|].
      destruct (negb _); [apply Hk; [done|constructor]|]. pose proof (ms_node _ _ _ Hm p Ha).
      destruct (fs_nodes s !! p) as [[|i]|], (fs_nodes t !! p) as [[|j]|]; try done; apply Hk; try done; by constructor.
    - intros (Hh & Hk). destruct h as [d|i], h0 as [d'|j]; try done; cbn [handles exec fst snd] in *; apply (Hsame _ _ True); try done.
      + subst d'. by apply Hk.
      + rewrite (ms_data _ _ _ Hm i j) by done. by apply Hk.
    - intros (Hh & -> & Hk). destruct h as [d|i], h0 as [d'|j]; try done; cbn [handles exec fst snd] in *; apply (Hsame _ _ True); try done.
      + by apply Hk.
      + rewrite (ms_data _ _ _ Hm i j) by done. by apply Hk.
    - intros (-> & Ha & Hk). cbn [exec]. assert (Hnone : psim Q W (k None) (k' None)) by (apply Hk; [done|constructor]).
      destruct (negb _); [by apply (Hsame _ _ True)|]. pose proof (ms_node _ _ _ Hm p Ha) as Hp.
      destruct (fs_nodes s !! p) as [[|i]|] eqn:E1, (fs_nodes t !! p) as [[|j]|] eqn:E2; try done.
      + by apply (Hsame _ _ True).
      + cbn [fst snd]. apply (Hsame _ _ True); [by apply ms_write|done|cbn; lia|]. apply Hk; [done|by constructor].
      + destruct (parent p) as [[q x]|] eqn:Epar; [|by apply (Hsame _ _ True)]. apply parent_Some in Epar.
        rewrite (ms_is_dir _ _ _ q Hm) by (apply (area_up q x); by rewrite <- Epar). destruct (is_dir s q); [|by apply (Hsame _ _ True)]. cbn [fst snd].
        eexists. split; [|split; [|split; [|split; [by apply ms_new|apply Hk; [|constructor; by right]]]]].
        * intros a b Hw. by left.
        * intros a b [Hw|[Hw _]]; auto.
        * cbn. lia.
        * intros a b Hw. by left.
    - intros (Hw & -> & -> & Hk). cbn [exec fst snd]. apply (Hsame _ _ True); [|done|cbn; lia|by apply Hk].
      rewrite (ms_data _ _ _ Hm _ _ Hw). by apply ms_write.
    - intros (-> & Ha & Hk). cbn [exec]. assert (Hre : forall r, psim Q W (k r) (k' r)) by (intros r; by apply Hk).
      destruct (negb _); [by apply (Hsame _ _ True)|]. pose proof (ms_node _ _ _ Hm p Ha) as Hp.
      assert (Hpar : has_parent t p = has_parent s p).
      { unfold has_parent. destruct (parent p) as [[q x]|] eqn:Epar; [|done]. apply parent_Some in Epar. eapply ms_is_dir; [done|].
        apply (area_up q x). by rewrite <- Epar. }
      rewrite Hpar. destruct (fs_nodes s !! p) as [[|i]|] eqn:E1, (fs_nodes t !! p) as [[|j]|] eqn:E2; try done; try by apply (Hsame _ _ True).
      destruct (has_parent s p); cbn [fst snd].
      + apply (Hsame _ _ True); [|done|cbn; lia|done]. apply ms_set; [done| |by right].
        intros ->. pose proof (ms_root _ _ _ Hm). congruence.
      + apply (Hsame _ _ True); [done|done|cbn; lia|]. destruct (parent p) as [[q x]|] eqn:Epar; [|done]. apply parent_Some in Epar.
        pose proof (ms_node _ _ _ Hm q) as Hq. rewrite Epar in Ha. specialize (Hq (area_up q x Ha)).
        destruct (fs_nodes s !! q) as [[|i]|], (fs_nodes t !! q) as [[|j]|]; done.
    - intros (-> & Ha & Hk). cbn [exec]. assert (Hre : forall r, psim Q W (k r) (k' r)) by (intros r; by apply Hk).
      destruct (e_os_ok e p); [|by apply (Hsame _ _ True)]. pose proof (ms_node _ _ _ Hm p Ha) as Hp.
      destruct (fs_nodes s !! p) as [[|i]|] eqn:E1, (fs_nodes t !! p) as [[|j]|] eqn:E2; try done; try by apply (Hsame _ _ True).
      cbn [fst snd]. apply (Hsame _ _ True); [|done|cbn; lia|done]. apply ms_set; [done| |by left].
      intros ->. pose proof (ms_root _ _ _ Hm). congruence.
    - intros (-> & Ha & Hne & Hk). cbn [exec]. assert (Hre : forall r, psim Q W (k r) (k' r)) by (intros r; by apply Hk).
      destruct (e_os_ok e p); [|by apply (Hsame _ _ True)]. pose proof (ms_node _ _ _ Hm p Ha) as Hp.
      assert (Hc : bool_decide (child_names t p = []) = bool_decide (child_names s p = [])).
      { pose proof (ms_child_names _ _ _ p Hm Ha Hne) as Hc. apply bool_decide_ext. split; intros H; rewrite H in Hc.
        - by apply Permutation_nil_r in Hc.
        - symmetry in Hc. by apply Permutation_nil_r in Hc. }
      rewrite Hc. destruct (fs_nodes s !! p) as [[|i]|] eqn:E1, (fs_nodes t !! p) as [[|j]|] eqn:E2; try done; try by apply (Hsame _ _ True).
      destruct (bool_decide (child_names s p = [])); cbn [fst snd]; [|by apply (Hsame _ _ True)].
      apply (Hsame _ _ True); [|done|cbn; lia|done]. apply ms_set; [done|done|by left].
    - intros (-> & Ha & Hne & Hk). cbn [exec fst snd]. apply (Hsame _ _ True); [done|done|lia|]. apply Hk; [done|].
      rewrite (ms_is_dir _ _ _ p Hm Ha). destruct (_ && _); [|done]. cbn [dirs_alike].
      rewrite !(e_order_perm e), (ms_child_names _ _ _ p Hm Ha Hne).
      apply Permutation_refl'. apply map_ext. intros x. by rewrite (ms_is_dir _ _ _ _ Hm) by by apply area_down.
    - intros (Hh & Hk). destruct h as [d|i], h0 as [d'|j]; try done; cbn [handles exec fst snd] in *; apply (Hsame _ _ True); try done.
      + by apply Hk.
      + rewrite (ms_data _ _ _ Hm i j) by done. by apply Hk.
  Qed.

  Lemma psim_fail {A} (Q : (N -> N -> Prop) -> A -> A -> Prop) W {R R'} (c : syscall R) (c' : syscall R') (k : R -> prog A) (k' : R' -> prog A) :
    psim Q W (Do c k) (Do c' k') -> psim Q W (k (fail_of c)) (k' (fail_of c')).
  Proof.
    destruct c; destruct c'; cbn [psim fail_of]; try done; intros H.
    all: try (destruct H as (_ & _ & _ & H); apply H; done).
    all: try (destruct H as (_ & _ & H); apply H; done).
    all: try (destruct H as (_ & _ & H); apply H; [done|constructor]).
    all: destruct H as (_ & H); apply H; done.
  Qed.

  (** *** A step of somebody else *)

  Lemma other_exec {A} (F D Y : path -> Prop) (own : N -> Prop) W s t {R} (c : syscall R) (k : R -> prog A) :
    (forall p, area p -> ~ F p) -> (forall p, area p -> p <> [] -> ~ D p) -> (forall p, area p -> ~ Y p) ->
    wf s -> mirrors W s t -> (forall i, own i -> (i < fs_next s)%N /\ forall j, ~ W i j) -> scoped F D Y own (Do c k) ->
    mirrors W (exec e c s).1 t /\ (fs_next s <= fs_next (exec e c s).1)%N /\
    exists own' : N -> Prop, (forall i, own' i -> (i < fs_next (exec e c s).1)%N /\ forall j, ~ W i j) /\ scoped F D Y own' (k (exec e c s).2).
  Proof.
    intros HF HD HY Hwf Hm Ho Hs.
    assert (Hset : forall p x, ~ area p -> x <> NFile (fs_next s) -> (forall i, x <> NFile i) -> mirrors W (set_nodes s (<[p := x]> (fs_nodes s))) t).
    { intros p x Hp _ Hx. split; try apply Hm; cbn [set_nodes fs_nodes].
      - intros q Hq. rewrite lookup_insert_ne by by intros ->. by apply Hm.
      - rewrite lookup_insert_ne by by intros ->. apply Hm.
      - intros q i j Hw Hq. destruct (decide (q = p)) as [->|Hn]; [rewrite lookup_insert in Hq; injection Hq as Hq; by destruct (Hx i)|].
        rewrite lookup_insert_ne in Hq by done. by eapply (ms_apart _ _ _ Hm). }
    assert (Hdel : forall p, ~ area p -> mirrors W (set_nodes s (delete p (fs_nodes s))) t).
    { intros p Hp. split; try apply Hm; cbn [set_nodes fs_nodes].
      - intros q Hq. rewrite lookup_delete_ne by by intros ->. by apply Hm.
      - rewrite lookup_delete_ne by by intros ->. apply Hm.
      - intros q i j Hw Hq. destruct (decide (q = p)) as [->|Hn]; [by rewrite lookup_delete in Hq|].
        rewrite lookup_delete_ne in Hq by done. by eapply (ms_apart _ _ _ Hm). }
    assert (Hdat : forall i d, (forall j, ~ W i j) -> mirrors W (Fs (fs_nodes s) (<[i := d]> (fs_data s)) (fs_next s)) t).
    { intros i d Hi. split; try apply Hm. intros a b Hw. unfold data_of at 1. cbn [fs_data]. rewrite lookup_insert_ne; [by apply (ms_data _ _ _ Hm)|].
      intros ->. by eapply Hi. }
    assert (Hsame : forall r, scoped F D Y own (k r) -> mirrors W s t /\ (fs_next s <= fs_next s)%N /\
      exists own' : N -> Prop, (forall i, own' i -> (i < fs_next s)%N /\ forall j, ~ W i j) /\ scoped F D Y own' (k r)).
    { intros r Hr. split; [done|]. split; [lia|]. by exists own. }
    destruct c; cbn [exec scoped fst snd] in *; try (apply Hsame; apply Hs).
    - (* the arguments of a handle *) destruct h; apply Hsame; apply Hs.
    - destruct h; apply Hsame; apply Hs.
    - destruct Hs as [Hp Hs]. assert (Hna : ~ area p) by (intros Ha; by eapply HF).
      assert (Hnone : scoped F D Y own (k None)).
      { eapply scoped_weaken; [..|apply (Hs None)]; [done..|]. by intros i [Hi|Hi]. }
      destruct (negb _); [by apply Hsame|]. destruct (fs_nodes s !! p) as [[|i]|] eqn:E; [by apply Hsame| |].
      + assert (Hi : forall j, ~ W i j) by (intros j Hw; apply Hna; by eapply (ms_apart _ _ _ Hm)).
        cbn [fst snd fs_next]. split; [by apply Hdat|]. split; [lia|]. exists (fun j => own j \/ Some i = Some j). split; [|apply Hs].
        intros j [Hj|[= <-]]; [by apply Ho|]. split; [by eapply (wf_next _ Hwf)|done].
      + destruct (parent p) as [[q x]|]; [|by apply Hsame]. destruct (is_dir s q); [|by apply Hsame]. cbn [fst snd fs_next].
        assert (Hi : forall j, ~ W (fs_next s) j) by (intros j Hw; apply (ms_fresh _ _ _ Hm) in Hw; lia).
        split; [|split; [lia|]].
        * split; cbn [fs_nodes fs_next].
          -- intros y Hy. rewrite lookup_insert_ne by by intros ->. by apply Hm.
          -- rewrite lookup_insert_ne by by intros ->. apply Hm.
          -- intros a b Hw. unfold data_of at 1. cbn [fs_data]. rewrite lookup_insert_ne; [by apply (ms_data _ _ _ Hm)|]. intros <-. by eapply Hi.
          -- apply Hm.
          -- apply Hm.
          -- intros a b Hw. apply (ms_fresh _ _ _ Hm) in Hw. lia.
          -- intros y a b Hw Hy. destruct (decide (y = p)) as [->|Hn].
             ++ rewrite lookup_insert in Hy. injection Hy as <-. by eapply Hi in Hw.
             ++ rewrite lookup_insert_ne in Hy by done. by eapply (ms_apart _ _ _ Hm).
        * exists (fun j => own j \/ Some (fs_next s) = Some j). split; [|apply Hs].
          intros j [Hj|[= <-]]; [destruct (Ho j Hj); split; [lia|done]|]. split; [lia|done].
    - destruct Hs as [Hi Hs]. split; [apply Hdat; by apply Ho|]. split; [cbn; lia|]. by exists own.
    - destruct Hs as [Hp Hs]. destruct (negb _); [by apply Hsame|].
      destruct (fs_nodes s !! p) as [n|] eqn:E; [by apply Hsame|].
      assert (Hna : ~ area p).
      { intros Ha. destruct (decide (p = [])) as [->|Hn]; [|by eapply HD]. pose proof (ms_root _ _ _ Hm). congruence. }
      destruct (has_parent s p); [|by apply Hsame]. cbn [fst snd]. split; [by apply Hset|]. split; [cbn; lia|]. by exists own.
    - destruct Hs as [Hp Hs]. assert (Hna : ~ area p) by (intros Ha; by eapply HF).
      destruct (e_os_ok e p); [|by apply Hsame]. destruct (fs_nodes s !! p) as [[|i]|]; [by apply Hsame| |by apply Hsame].
      cbn [fst snd]. split; [by apply Hdel|]. split; [cbn; lia|]. by exists own.
    - destruct Hs as [Hp Hs]. assert (Hna : ~ area p) by (intros Ha; by eapply HY).
      destruct (e_os_ok e p); [|by apply Hsame]. destruct (fs_nodes s !! p) as [[|i]|]; [|by apply Hsame|by apply Hsame].
      destruct (bool_decide _); [|by apply Hsame]. cbn [fst snd]. split; [by apply Hdel|]. split; [cbn; lia|]. by exists own.
    - destruct h; apply Hsame; apply Hs.
  Qed.

  (** *** Requests of the tenant *)

  Lemma psim_bind {A C} (Q : (N -> N -> Prop) -> A -> A -> Prop) (Q' : (N -> N -> Prop) -> C -> C -> Prop) (m : prog A) : forall W m' (f f' : A -> prog C),
    psim Q W m m' -> (forall W' a a', grows W W' -> Q W' a a' -> psim Q' W' (f a) (f' a')) -> psim Q' W (bind m f) (bind m' f').
  Proof.
    induction m as [a|R c k IH]; intros W [a'|R' c' k'] f f'; cbn [psim bind]; [by auto|done|done|].
    destruct c; destruct c'; try done; intros H Hf.
    all: try (destruct H as (H1 & H2 & H3 & H4); split_and!; [done..|]; intros; eapply IH; [eapply H4; eauto|]; eauto using grows_trans; fail).
    all: try (destruct H as (H1 & H2 & H3); split_and!; [done..|]; intros; eapply IH; [eapply H3; eauto|]; eauto using grows_trans; fail).
    all: destruct H as (H1 & H2); split; [done|]; intros; eapply IH; [eapply H2; eauto|]; eauto using grows_trans.
  Qed.
  Lemma psim_eq {A C} W (Q : (N -> N -> Prop) -> C -> C -> Prop) (m m' : prog A) (f f' : A -> prog C) : psim equal W m m' ->
    (forall W' a, grows W W' -> psim Q W' (f a) (f' a)) -> psim Q W (bind m f) (bind m' f').
  Proof. intros Hm Hf. eapply psim_bind; [done|]. intros W' a a' Hg <-. by apply Hf. Qed.
  Lemma psim_try_path {A} W (R : (N -> N -> Prop) -> A -> A -> Prop) o k k' : (forall p, o = Some p -> psim (res_alike R) W (k p) (k' p)) ->
    psim (res_alike R) W (try_path o k) (try_path o k').
  Proof. intros Hk. destruct o; cbn [try_path]; [by apply Hk|done]. Qed.
  Lemma psim_try_io {A C} W (R : (N -> N -> Prop) -> C -> C -> Prop) (m m' : prog (option A)) k k' : psim equal W m m' ->
    (forall W' a, grows W W' -> psim (res_alike R) W' (k a) (k' a)) -> psim (res_alike R) W (try_io m k) (try_io m' k').
  Proof. intros Hm Hk. apply psim_eq; [done|]. intros W' [a|] Hg; [by apply Hk|done]. Qed.
  Lemma psim_try_io_rel {A C} W (P : (N -> N -> Prop) -> A -> A -> Prop) (R : (N -> N -> Prop) -> C -> C -> Prop) (m m' : prog (option A)) k k' :
    psim (fun W' => option_Forall2 (P W')) W m m' ->
    (forall W' a a', grows W W' -> P W' a a' -> psim (res_alike R) W' (k a) (k' a')) -> psim (res_alike R) W (try_io m k) (try_io m' k').
  Proof.
    intros Hm Hk. eapply psim_bind; [done|]. intros W' a a' Hg Ha. destruct Ha; [by apply Hk|done].
  Qed.
  Lemma psim_try_res {A C} W (R : (N -> N -> Prop) -> C -> C -> Prop) (m m' : prog (sres A)) k k' : psim (res_alike equal) W m m' ->
    (forall W' a, grows W W' -> psim (res_alike R) W' (k a) (k' a)) -> psim (res_alike R) W (try_res m k) (try_res m' k').
  Proof.
    intros Hm Hk. eapply psim_bind; [done|]. intros W' [a|c] [a'|c'] Hg Ha; try done.
    unfold res_alike, equal in Ha. subst a'. by apply Hk.
  Qed.

  Lemma psim_exists W p : area p -> psim equal W (call (CExists p)) (call (CExists p)).
  Proof. intros Ha. cbn. by split_and!. Qed.
  Lemma psim_stat W p : area p -> psim equal W (call (CStat p)) (call (CStat p)).
  Proof. intros Ha. cbn. by split_and!. Qed.
  Lemma psim_mkdir W p : area p -> psim equal W (call (CMkdir p)) (call (CMkdir p)).
  Proof. intros Ha. cbn. by split_and!. Qed.
  Lemma psim_unlink W p : area p -> psim equal W (call (CUnlink p)) (call (CUnlink p)).
  Proof. intros Ha. cbn. by split_and!. Qed.
  Lemma psim_rmdir W p : area p -> p <> [] -> psim equal W (call (CRmdir p)) (call (CRmdir p)).
  Proof. intros Ha Hp. cbn. by split_and!. Qed.
  Lemma psim_readdir W p : area p -> p <> [] -> psim (fun _ => dirs_alike) W (call (CReadDir p)) (call (CReadDir p)).
  Proof. intros Ha Hp. cbn. by split_and!. Qed.
  Lemma psim_open W p : area p -> psim (fun W' => option_Forall2 (handles W')) W (call (COpen p)) (call (COpen p)).
  Proof. intros Ha. cbn. by split_and!. Qed.
  Lemma psim_create W p : area p -> psim (fun W' => option_Forall2 W') W (call (CCreate p)) (call (CCreate p)).
  Proof. intros Ha. cbn. by split_and!. Qed.
  Lemma psim_len (W : N -> N -> Prop) h h' : handles W h h' -> psim equal W (call (CLen h)) (call (CLen h')).
  Proof. intros Ha. by cbn. Qed.
  Lemma psim_read (W : N -> N -> Prop) h h' off : handles W h h' -> psim equal W (call (CRead h off)) (call (CRead h' off)).
  Proof. intros Ha. by cbn. Qed.
  Lemma psim_bound (W : N -> N -> Prop) h h' : handles W h h' -> psim equal W (call (CBound h)) (call (CBound h')).
  Proof. intros Ha. by cbn. Qed.
  Lemma psim_write (W : N -> N -> Prop) i j off b : W i j -> psim equal W (call (CWrite i off b)) (call (CWrite j off b)).
  Proof. intros Ha. cbn. by split_and!. Qed.

  Lemma psim_create_dir_all_rev rp : area (rev rp) -> forall W, psim equal W (create_dir_all_rev rp) (create_dir_all_rev rp).
  Proof.
    induction rp as [|c rp IH]; intros Ha W; cbn [create_dir_all_rev].
    - apply psim_eq; [by apply psim_mkdir|]. intros W1 [] _; [done|done|].
      apply psim_eq; [by apply psim_stat|]. intros W2 [[[] n]|] _; done.
    - assert (Hd : forall W, psim equal W (bind (call (CStat (rev (c :: rp)))) (fun st => match st with Some (true, _) => Ret (Some tt) | _ => Ret None end))
        (bind (call (CStat (rev (c :: rp)))) (fun st => match st with Some (true, _) => Ret (Some tt) | _ => Ret None end))).
      { intros W'. apply psim_eq; [by apply psim_stat|]. intros W2 [[[] n]|] _; done. }
      apply psim_eq; [by apply psim_mkdir|]. intros W1 [] _; [done| |by apply Hd].
      apply psim_eq; [apply IH; by eapply area_up|]. intros W2 [u|] _; [|done].
      apply psim_eq; [by apply psim_mkdir|]. intros W3 [] _; [done|by apply Hd..].
  Qed.
  Lemma psim_create_dir_all W p : area p -> psim equal W (create_dir_all p) (create_dir_all p).
  Proof. intros Ha. apply psim_create_dir_all_rev. by rewrite rev_involutive. Qed.
  Lemma psim_write_pieces (W : N -> N -> Prop) i j off ps : W i j -> psim equal W (write_pieces i off ps) (write_pieces j off ps).
  Proof.
    revert W off. induction ps as [|b ps IH]; intros W off Hw; cbn [write_pieces]; [done|].
    apply psim_eq; [by apply psim_write|]. intros W1 [u|] Hg; [apply IH; by apply Hg|done].
  Qed.
  Lemma psim_copy_bytes (W : N -> N -> Prop) i j off body : W i j -> psim equal W (copy_bytes e i off body) (copy_bytes e j off body).
  Proof.
    revert W off. induction body as [|[b|] body IH]; intros W off Hw; cbn [copy_bytes]; [done| |done].
    apply psim_eq; [by apply psim_write_pieces|]. intros W1 [off'|] Hg; [apply IH; by apply Hg|done].
  Qed.
  Lemma psim_read_rest (W : N -> N -> Prop) n h h' off : handles W h h' -> psim equal W (read_rest n h off) (read_rest n h' off).
  Proof.
    revert W off. induction n as [|n IH]; intros W off Hh; cbn [read_rest]; [done|].
    apply psim_eq; [by apply psim_read|]. intros W1 [[|c b]|] Hg; try done.
    apply psim_eq; [apply IH; by eauto|]. by intros W2 [d|] _.
  Qed.
  Lemma psim_read_file W p : area p -> psim equal W (read_file p) (read_file p).
  Proof.
    intros Ha. eapply psim_bind; [by apply psim_open|]. intros W1 o o' _ Ho. destruct Ho as [h h' Hh|]; [|done].
    apply psim_eq; [by apply psim_bound|]. intros W2 n Hg. apply psim_read_rest. by eauto.
  Qed.
  Lemma psim_transfer (W : N -> N -> Prop) n h h' roff i j woff : handles W h h' -> W i j ->
    psim equal W (transfer e n h roff i woff) (transfer e n h' roff j woff).
  Proof.
    revert W roff woff. induction n as [|n IH]; intros W roff woff Hh Hw; cbn [transfer]; [done|].
    apply psim_eq; [by apply psim_read|]. intros W1 [[|c b]|] Hg; try done.
    apply psim_eq; [apply psim_write_pieces; by apply Hg|]. intros W2 [w|] Hg2; [|done].
    apply IH; [by eauto|by apply Hg2, Hg].
  Qed.
  Lemma psim_append_file (W : N -> N -> Prop) p i j off : area p -> W i j -> psim equal W (append_file e p i off) (append_file e p j off).
  Proof.
    intros Ha Hw. eapply psim_bind; [by apply psim_open|]. intros W1 o o' Hg1 Ho. destruct Ho as [h h' Hh|]; [|done].
    apply psim_eq; [by apply psim_bound|]. intros W2 n Hg. apply psim_transfer; [by eauto|by apply Hg, Hg1].
  Qed.
  Lemma psim_write_file W p b : area p -> psim equal W (write_file e p b) (write_file e p b).
  Proof.
    intros Ha. eapply psim_bind; [by apply psim_create|]. intros W1 o o' _ Ho. destruct Ho as [i j Hw|]; [|done].
    apply psim_eq; [by apply psim_write_pieces|]. intros W2 [?|] _; done.
  Qed.
  Lemma psim_copy_file W p q : area p -> area q -> psim equal W (copy_file e p q) (copy_file e p q).
  Proof.
    intros Hp Hq. eapply psim_bind; [by apply psim_open|]. intros W1 o o' _ Ho. destruct Ho as [h h' Hh|]; [|done].
    destruct h as [d|i], h' as [d'|j]; try done. cbn in Hh.
    eapply psim_bind; [by apply psim_create|]. intros W2 o o' Hg2 Ho. destruct Ho as [i2 j2 Hw|]; [|done].
    apply psim_eq; [apply psim_bound; by apply Hg2|]. intros W3 n Hg3.
    apply psim_eq; [apply psim_transfer; [by apply Hg3, Hg2|by apply Hg3]|]. intros W4 [?|] _; done.
  Qed.

  Inductive said (W : N -> N -> Prop) : s_ans -> s_ans -> Prop :=
  | said_equal a : (forall h off lim len md tag, a <> AGet h off lim len md tag) -> said W a a
  | said_get h h' off lim len md tag : handles W h h' -> said W (AGet h off lim len md tag) (AGet h' off lim len md tag).
  Lemma said_lasts : lasts (res_alike said).
  Proof.
    intros W W' [a|c] [a'|c'] Hg; try done. cbn. intros H. destruct H; constructor; eauto.
  Qed.
  Ltac ret := first [done|by (cbn; constructor)].

  Context (T I : bytes -> Prop) (HT : forall x, T x -> X x) (HM : forall b k, T b -> X (metadata_name b k)) (HI : forall u n, I u -> X (part_name u n)).
  Context (TL : forall b, T b -> legal_bucket b) (IL : forall u, I u -> "/"%char ∉ u).

  Lemma object_area b k p : T b -> tame k -> get_object_path e b k = Some p -> area p /\ p <> [].
  Proof. intros Hb Hk Hp. destruct (tame_path e b k p (TL b Hb) Hk Hp) as [q ->]. split; [by apply HT|done]. Qed.
  Lemma metadata_area b k p : T b -> get_metadata_path e b k = Some p -> area p.
  Proof. intros Hb. rewrite metadata_path. intros [= <-]. by apply HM. Qed.
  Lemma bucket_area b p : T b -> get_bucket_path e b = Some p -> area p.
  Proof. intros Hb. rewrite bucket_path by by apply legal_bucket_segment, TL. intros [= <-]. by apply HT. Qed.
  Lemma part_area u n p : I u -> part_path e u n = Some p -> area p.
  Proof. intros Hu. rewrite part_path_eq by by apply IL. intros [= <-]. by apply HI. Qed.

  Lemma psim_load_metadata W b k : T b -> psim equal W (load_metadata e b k) (load_metadata e b k).
  Proof.
    intros Hb. unfold load_metadata. destruct (get_metadata_path e b k) as [p|] eqn:Ep; [|done]. pose proof (metadata_area b k p Hb Ep) as Ha.
    apply psim_eq; [by apply psim_exists|]. intros W1 [] _; [|done].
    apply psim_eq; [by apply psim_read_file|]. intros W2 [c|] _; [|done]. by destruct (json_decode c).
  Qed.
  Lemma psim_save_metadata W b k m : T b -> psim equal W (save_metadata e b k m) (save_metadata e b k m).
  Proof.
    intros Hb. unfold save_metadata. destruct (get_metadata_path e b k) as [p|] eqn:Ep; [|done]. apply psim_write_file. by eapply metadata_area.
  Qed.
  Lemma psim_get_md5_sum W b k : T b -> tame k -> psim equal W (get_md5_sum e b k) (get_md5_sum e b k).
  Proof.
    intros Hb Hk. unfold get_md5_sum. destruct (get_object_path e b k) as [p|] eqn:Ep; [|done].
    apply psim_eq; [apply psim_read_file; by eapply object_area|]. by intros W2 [c|] _.
  Qed.
  Lemma psim_get_extent (W : N -> N -> Prop) h h' r len : handles W h h' -> psim (res_alike equal) W (get_extent h r len) (get_extent h' r len).
  Proof.
    intros Hh. destruct r as [[f l|l]|]; cbn [get_extent]; [by destruct (_ <=? _)%N| |done].
    destruct (_ && _); [|done]. apply psim_try_io; [by apply psim_len|]. intros W1 a _. by destruct (_ <=? _)%N.
  Qed.
  Definition inside_area (W : N -> N -> Prop) (l l' : list (path * bytes)) : Prop := l = l' /\ Forall (fun x => area x.1) l.
  Lemma psim_existing b ks : T b -> Forall tame ks -> forall W, psim (res_alike inside_area) W (existing_objects e b ks) (existing_objects e b ks).
  Proof.
    intros Hb Hks. induction Hks as [|k ks Hk _ IH]; intros W; cbn [existing_objects]; [by cbn|].
    apply psim_try_path. intros p Hp. destruct (object_area b k p Hb Hk Hp) as [Ha _]. apply psim_eq; [by apply psim_exists|]. intros W1 ex _.
    eapply psim_bind; [apply IH|]. intros W2 [l|c] [l'|c'] _ Hl; try done. destruct Hl as [<- Hl]. cbn. split; [done|].
    destruct ex; [|done]. by constructor.
  Qed.
  Lemma psim_remove_objects l : Forall (fun x => area x.1) l -> forall W, psim (res_alike equal) W (remove_objects l) (remove_objects l).
  Proof.
    intros Hl. induction Hl as [|[p k] l Hp _ IH]; intros W; cbn [remove_objects]; [done|].
    apply psim_try_io; [by apply psim_unlink|]. intros W1 u _. apply psim_try_res; [apply IH|]. done.
  Qed.
  Lemma psim_append_parts u ps : I u -> forall (W : N -> N -> Prop) i j off cnt, W i j ->
    psim (res_alike equal) W (append_parts e u i off cnt ps) (append_parts e u j off cnt ps).
  Proof.
    intros Hu. induction ps as [|[n|] ps IH]; intros W i j off cnt Hw; cbn [append_parts]; [done| |done].
    destruct (negb _); [done|]. apply psim_try_path. intros p Hp. pose proof (part_area u n p Hu Hp) as Ha.
    apply psim_try_io; [by apply psim_append_file|]. intros W1 off' G1.
    apply psim_try_io; [by apply psim_unlink|]. intros W2 _ G2. apply IH. by apply G2, G1.
  Qed.

  Lemma psim_storage W r : about T I r -> psim (res_alike said) W (storage e r) (storage e r).
  Proof.
    intros Hr. destruct r; cbn [about storage] in *; try done.
    - apply psim_try_path. intros p Hp. pose proof (bucket_area _ _ Hr Hp) as Ha. apply psim_eq; [by apply psim_exists|]. intros W1 [] _; [done|].
      apply psim_eq; [by apply psim_mkdir|]. intros W2 [] _; ret.
    - destruct Hr as (Hb & Hk & Hsrc). unfold copy_object. destruct (copy_source_from_header_str _) as [[sb sk]|]; [|done].
      destruct (Hsrc sb sk eq_refl) as [Hsb Hsk].
      apply psim_try_path. intros p Hp. destruct (object_area _ _ _ Hsb Hsk Hp) as [Hpa _].
      apply psim_try_path. intros q Hq. destruct (object_area _ _ _ Hb Hk Hq) as [Hqa _].
      apply psim_try_io; [by apply psim_stat|]. intros W1 st _. apply psim_try_io; [by apply psim_copy_file|]. intros W2 ? _.
      apply psim_try_path. intros sm Hsm. pose proof (metadata_area _ _ _ Hsb Hsm) as Hma. apply psim_eq; [by apply psim_exists|]. intros W3 ex _.
      apply psim_try_io.
      { destruct ex; [|done]. destruct (get_metadata_path e bucket key) as [dm|] eqn:Edm; [|done]. apply psim_copy_file; [done|exact (metadata_area _ _ _ Hb Edm)]. }
      intros W4 ? _. apply psim_try_io; [by apply psim_get_md5_sum|]. intros W5 tag _. ret.
    - destruct Hr as [Hb Hk]. apply psim_try_path. intros p Hp. destruct (object_area _ _ _ Hb Hk Hp) as [Ha Hne]. destruct (ends_with_char _ _).
      + eapply psim_bind; [by apply psim_readdir|]. intros W1 es es' _ Hes. destruct es as [es|], es' as [es'|]; try done. cbn in Hes.
        destruct es as [|x es], es' as [|x' es'].
        * apply psim_try_io; [by apply psim_rmdir|]. intros W2 ? _. ret.
        * by apply Permutation_nil_cons in Hes.
        * symmetry in Hes. by apply Permutation_nil_cons in Hes.
        * ret.
      + apply psim_try_io; [by apply psim_unlink|]. intros W2 ? _. ret.
    - destruct Hr as [Hb Hks]. eapply psim_bind; [by apply psim_existing|]. intros W1 [l|c] [l'|c'] _ Hl; try done. destruct Hl as [<- Hl].
      apply psim_try_res; [by apply psim_remove_objects|]. intros W2 ks _. ret.
    - apply psim_try_path. intros p Hp. pose proof (bucket_area _ _ Hr Hp) as Ha. apply psim_eq; [by apply psim_exists|]. intros W1 [] _; ret.
    - destruct Hr as [Hb Hk]. apply psim_try_path. intros p Hp. destruct (object_area _ _ _ Hb Hk Hp) as [Ha _].
      assert (Hgo : forall r W, psim (res_alike said) W
        (bind (call (COpen p)) (fun o => match o with None => Ret (Err NoSuchKey) | Some h =>
            try_io (call (CLen h)) (fun file_len => try_res (get_extent h r file_len) (fun ol =>
            try_io (load_metadata e bucket key) (fun md => try_io (get_md5_sum e bucket key) (fun tag =>
              if (ol.2 <=? i64_max)%N then Ret (Ok (AGet h ol.1 ol.2 ol.2 md tag)) else Ret (Err InternalError))))) end))
        (bind (call (COpen p)) (fun o => match o with None => Ret (Err NoSuchKey) | Some h =>
            try_io (call (CLen h)) (fun file_len => try_res (get_extent h r file_len) (fun ol =>
            try_io (load_metadata e bucket key) (fun md => try_io (get_md5_sum e bucket key) (fun tag =>
              if (ol.2 <=? i64_max)%N then Ret (Ok (AGet h ol.1 ol.2 ol.2 md tag)) else Ret (Err InternalError))))) end))).
      { intros r W0. eapply psim_bind; [by apply psim_open|]. intros W1 o o' _ Ho. destruct Ho as [h h' Hh|]; [|done].
        apply psim_try_io; [by apply psim_len|]. intros W2 len G2. apply psim_try_res; [apply psim_get_extent; by eauto|]. intros W3 ol G3.
        apply psim_try_io; [by apply psim_load_metadata|]. intros W4 md G4. apply psim_try_io; [by apply psim_get_md5_sum|]. intros W5 tag G5.
        destruct (_ <=? _)%N; [|done]. cbn. constructor. eauto 6. }
      destruct range as [str|]; [|apply Hgo]. destruct (range_from_header_str str); [apply Hgo|done].
    - apply psim_try_path. intros p Hp. pose proof (bucket_area _ _ Hr Hp) as Ha. apply psim_eq; [by apply psim_exists|]. intros W1 [] _; ret.
    - destruct Hr as [Hb Hk]. apply psim_try_path. intros p Hp. destruct (object_area _ _ _ Hb Hk Hp) as [Ha _].
      apply psim_eq; [by apply psim_exists|]. intros W1 [] _; [|done].
      apply psim_try_io; [by apply psim_stat|]. intros W2 st _. apply psim_try_io; [by apply psim_load_metadata|]. intros W3 md _.
      destruct (_ <=? _)%N; ret.
    - destruct Hr as [Hb Hk]. unfold put_object. destruct (negb _); [done|]. destruct body as [body|]; [|done]. destruct (ends_with_char _ _).
      + destruct (bool_decide _); [|done]. apply psim_try_path. intros p Hp. destruct (object_area _ _ _ Hb Hk Hp) as [Ha _].
        apply psim_try_io; [by apply psim_create_dir_all|]. intros W1 ? _. ret.
      + apply psim_try_path. intros p Hp. destruct (object_area _ _ _ Hb Hk Hp) as [Ha _].
        apply psim_try_io.
        { destruct (parent p) as [[d c]|] eqn:Epar; [|done]. apply parent_Some in Epar. apply psim_create_dir_all, (area_up d c). by rewrite <- Epar. }
        intros W1 ? _. eapply psim_try_io_rel; [by apply psim_create|]. intros W2 i j _ Hw.
        apply psim_try_io; [by apply psim_copy_bytes|]. intros W3 ? _.
        apply psim_try_io. { destruct md; [by apply psim_save_metadata|done]. }
        intros W4 ? _. ret.
    - ret.
    - unfold upload_part. destruct body as [body|]; [|done]. apply psim_try_path. intros p Hp. pose proof (part_area _ _ _ Hr Hp) as Ha.
      eapply psim_try_io_rel; [by apply psim_create|]. intros W2 i j _ Hw.
      apply psim_try_io; [by apply psim_copy_bytes|]. intros W3 ? _. ret.
    - destruct Hr as (Hb & Hk & Hu). unfold complete_multipart_upload. destruct parts as [ps|]; [|done].
      apply psim_try_path. intros p Hp. destruct (object_area _ _ _ Hb Hk Hp) as [Ha _].
      eapply psim_try_io_rel; [by apply psim_create|]. intros W2 i j _ Hw.
      apply psim_try_res; [by apply psim_append_parts|]. intros W3 ? _. apply psim_try_io; [by apply psim_stat|]. intros W4 ? _.
      apply psim_try_io; [by apply psim_get_md5_sum|]. intros W5 ? _. ret.
  Qed.
End together.

(** ** Any number of requests *)

Section interleaved.
  Context (e : env) (X : bytes -> Prop).

  Let F (p : path) : Prop := ~ area X p.
  Let D (p : path) : Prop := ~ area X p \/ p = [].
  Definition elsewhere (W : N -> N -> Prop) (s : fs) (m : prog (sres s_ans)) : Prop :=
    exists own : N -> Prop, (forall i, own i -> (i < fs_next s)%N /\ forall j, ~ W i j) /\ scoped F D F own m.

  Lemma elsewhere_grows (W W' : N -> N -> Prop) s s' m : elsewhere W s m -> (fs_next s <= fs_next s')%N -> (forall i j, W' i j -> W i j \/ i = fs_next s) -> elsewhere W' s' m.
  Proof.
    intros (own & Ho & Hs) Hn Hw. exists own. split; [|done]. intros i Hi. destruct (Ho i Hi) as [H1 H2]. split; [lia|].
    intros j [Hj|Hj]%Hw; [by eapply H2|lia].
  Qed.

  Lemma both_steps s ms s' ms' : psteps e s ms s' ms' -> forall W t mine mine' others, ms = mine ++ others -> wf s -> mirrors X W s t ->
    Forall2 (psim X (res_alike said) W) mine mine' -> Forall (elsewhere W s) others ->
    exists W' t' mine1 mine1' others1, ms' = mine1 ++ others1 /\ length mine1 = length mine /\ psteps e t mine' t' mine1' /\ mirrors X W' s' t' /\
      Forall2 (psim X (res_alike said) W') mine1 mine1'.
  Proof.
    induction 1 as [s ms|s ms i m s1 m1 s2 ms2 Hi Hst _ IH]; intros W t mine mine' others -> Hwf Hm Hsim Hoth.
    { exists W, t, mine, mine', others. split; [done|]. split; [done|]. split; [constructor|]. done. }
    pose proof (wf_step _ _ _ _ _ Hst Hwf) as Hwf1. destruct (decide (i < length mine)) as [Hlt|Hge].
    - rewrite lookup_app_l in Hi by done. destruct (Forall2_lookup_l _ _ _ _ _ Hsim Hi) as (m' & Hi' & Hmm).
      assert (Hnext : exists W' t1 m1', grows W W' /\ (forall i j, W' i j -> W i j \/ i = fs_next s) /\ (fs_next s <= fs_next s1)%N /\
        step e t m' t1 m1' /\ mirrors X W' s1 t1 /\ psim X (res_alike said) W' m1 m1').
      { destruct m as [a|R c k]; [done|]. destruct m' as [a'|R' c' k']; [done|]. cbn [step] in *. destruct Hst as [Hst|Hst].
        - pose proof (psim_exec e X (res_alike said) W s t c c' k k' Hwf Hm Hmm) as (W' & Hg & Hf & Hn & Hm' & Hp).
          destruct (exec e c s) as [s1' r]. injection Hst as -> ->. cbn [fst snd] in *.
          exists W', (exec e c' t).1, (k' (exec e c' t).2). split; [done|]. split; [done|]. split; [done|]. split; [|done].
          left. by destruct (exec e c' t).
        - injection Hst as -> ->. exists W, t, (k' (fail_of c')). split; [by intros ? ?|]. split; [by left|]. split; [lia|].
          split; [by right|]. split; [done|]. by apply psim_fail. }
      destruct Hnext as (W' & t1 & m1' & Hg & Hf & Hn & Hst' & Hm1 & Hp1).
      destruct (IH W' t1 (<[i := m1]> mine) (<[i := m1']> mine') others) as (W2 & t2 & mine1 & mine1' & others1 & H1 & H2 & H3 & H4 & H5).
      + by rewrite insert_app_l.
      + done.
      + done.
      + apply Forall2_insert; [|done]. eapply Forall2_impl; [exact Hsim|]. intros x y. apply psim_grow; [apply said_lasts|done].
      + eapply Forall_impl; [exact Hoth|]. intros x Hx. by eapply elsewhere_grows.
      + exists W2, t2, mine1, mine1', others1. split; [done|]. rewrite insert_length in H2. split; [done|]. split; [|done].
        by eapply psteps_step.
    - rewrite lookup_app_r in Hi by lia. pose proof Hoth as Hoth'. rewrite Forall_lookup in Hoth'. destruct (Hoth' _ _ Hi) as (own & Ho & Hs).
      assert (Hnext : mirrors X W s1 t /\ (fs_next s <= fs_next s1)%N /\ elsewhere W s1 m1).
      { destruct m as [a|R c k]; [done|]. cbn [step] in Hst. destruct Hst as [Hst|Hst].
        - destruct (other_exec e X F D F own W s t c k) as (Hm' & Hn & own' & Ho' & Hs'); try done.
          { intros p Ha Hp. by apply Hp. } { intros p Ha Hne [Hp|Hp]; [by apply Hp|done]. } { intros p Ha Hp. by apply Hp. }
          destruct (exec e c s) as [s1' r]. injection Hst as -> ->. split; [done|]. split; [done|]. by exists own'.
        - injection Hst as -> ->. split; [done|]. split; [lia|]. exists own. split; [done|]. by apply scoped_fail. }
      destruct Hnext as (Hm1 & Hn & Hel).
      destruct (IH W t mine mine' (<[i - length mine := m1]> others)) as (W2 & t2 & mine1 & mine1' & others1 & H1 & H2 & H3 & H4 & H5); try done.
      + replace i with (length mine + (i - length mine)) at 1 by lia. by rewrite insert_app_r.
      + apply Forall_insert; [|done]. eapply Forall_impl; [exact Hoth|]. intros x Hx. eapply elsewhere_grows; [done|done|by left].
      + by exists W2, t2, mine1, mine1', others1.
  Qed.
End interleaved.

Lemma others_elsewhere e (T I : bytes -> Prop) r W s : (forall b, T b -> legal_bucket b) -> spares T I r -> elsewhere (entry_of T I) W s (storage e r).
Proof.
  intros TL Hs. exists no_own. split; [done|].
  assert (Hb : forall b q, legal_bucket b -> ~ T b -> ~ area (entry_of T I) (b :: q)).
  { intros b q Hl Hn [H|[(b' & k & H & Hb')|(u & n & H & Hu)]]; [done|..].
    - by eapply (bucket_not_meta b).
    - by eapply (bucket_not_part b). }
  assert (Hm : forall b k, ~ T b -> ~ area (entry_of T I) [metadata_name b k]).
  { intros b k Hn [H|[(b' & k' & H & Hb')|(u & n & H & Hu)]].
    - eapply (bucket_not_meta (metadata_name b k)); [by apply TL|reflexivity].
    - apply metadata_name_inj in H as [-> _]. done.
    - symmetry in H. by apply part_metadata_neq in H. }
  assert (Hu : forall u n, ~ I u -> ~ area (entry_of T I) [part_name u n]).
  { intros u n Hn [H|[(b' & k' & H & Hb')|(u' & n' & H & Hu')]].
    - eapply (bucket_not_part (part_name u n)); [by apply TL|reflexivity].
    - by apply part_metadata_neq in H.
    - apply part_name_inj in H as [-> _]. done. }
  assert (Ho : forall b k p, legal_bucket b -> ~ T b -> tame k -> get_object_path e b k = Some p -> ~ area (entry_of T I) p).
  { intros b k p Hl Hn Hk Hp. destruct (tame_path e b k p Hl Hk Hp) as [q ->]. by apply Hb. }
  assert (Hbp : forall b q p, legal_bucket b -> ~ T b -> get_bucket_path e b = Some q -> q `prefix_of` p -> ~ area (entry_of T I) p).
  { intros b q p Hl Hn Hq [rest ->]. rewrite bucket_path in Hq by by apply legal_bucket_segment. injection Hq as <-. by apply Hb. }
  eapply scoped_weaken; [..|apply scoped_storage]; [| | |done]; intros p; cbn beta.
  - destruct r; cbn [spares r_files] in *; try done.
    + destruct Hs as (Hl & Hn & Hk). rewrite metadata_path. intros [H|[= <-]]; [by eapply Ho|by apply Hm].
    + destruct Hs as [Hl Hn]. intros (q & Hq & Hp). by eapply Hbp.
    + destruct Hs as (Hl & Hn & Hk). by apply Ho.
    + destruct Hs as (Hl & Hn & Hk). intros (k & Hin & Hp). rewrite Forall_forall in Hk. eapply Ho; eauto.
    + destruct Hs as (Hl & Hn & Hk). rewrite metadata_path. intros [H|[_ [= <-]]]; [by eapply Ho|by apply Hm].
    + destruct Hs as [Hn Hsl]. rewrite part_path_eq by done. intros [= <-]. by apply Hu.
    + destruct Hs as (Hl & Hn & Hk & Hi & Hsl). intros [H|(l & n & _ & _ & H)]; [by eapply Ho|].
      rewrite part_path_eq in H by done. injection H as <-. by apply Hu.
  - destruct r; cbn [spares r_dirs] in *; try done.
    + destruct Hs as [Hl Hn]. intros Hp. left. by eapply Hbp.
    + destruct Hs as (Hl & Hn & Hk). intros (q & Hq & Hp). destruct (tame_path e _ _ _ Hl Hk Hq) as [q' ->]. destruct p as [|x p']; [by right|].
      apply prefix_cons_inv_1 in Hp as ->. left. by apply Hb.
  - destruct r; cbn [spares r_rmdirs] in *; try done.
    + destruct Hs as [Hl Hn]. intros (q & Hq & Hp). by eapply Hbp.
    + destruct Hs as (Hl & Hn & Hk). by apply Ho.
Qed.

Lemma below_mirrors X s t : wf s -> wf t -> fs_nodes s !! [] = Some NDir -> fs_nodes t !! [] = Some NDir -> same_below X s t ->
  mirrors X (fun i j => exists p, area X p /\ fs_nodes s !! p = Some (NFile i) /\ fs_nodes t !! p = Some (NFile j)) s t.
Proof.
  intros Hs Ht Hrs Hrt Hst. split.
  - intros [|x p] Ha; [by rewrite Hrs, Hrt|]. destruct (Hst x p Ha) as [Hd Hc]. unfold is_dir, content in *.
    destruct (fs_nodes s !! (x :: p)) as [[|i]|] eqn:E1, (fs_nodes t !! (x :: p)) as [[|j]|] eqn:E2; try done. by exists (x :: p).
  - done.
  - intros i j ([|x p] & Ha & H1 & H2); [congruence|]. destruct (Hst x p Ha) as [_ Hc]. unfold content in Hc. rewrite H1, H2 in Hc. by injection Hc.
  - intros i j j' (p & _ & H1 & H2) (q & _ & H3 & H4). assert (p = q) as -> by by eapply (wf_inj _ Hs). congruence.
  - intros i i' j (p & _ & H1 & H2) (q & _ & H3 & H4). assert (p = q) as -> by by eapply (wf_inj _ Ht). congruence.
  - intros i j (p & _ & H1 & H2). split; [by eapply (wf_next _ Hs)|by eapply (wf_next _ Ht)].
  - intros p i j (q & Ha & H1 & H2) Hp. assert (p = q) as -> by by eapply (wf_inj _ Hs). done.
Qed.
Lemma mirrors_below X W s t : mirrors X W s t -> same_below X s t.
Proof.
  intros Hm x p Hx. pose proof (ms_node _ _ _ _ Hm (x :: p) Hx) as Hp. unfold is_dir, content.
  destruct (fs_nodes s !! (x :: p)) as [[|i]|], (fs_nodes t !! (x :: p)) as [[|j]|]; try done. split; [done|]. f_equal. by eapply ms_data.
Qed.

(** The requests [rs] of a tenant are handled while requests [os] of others are, in any interleaving and with any failures.
    Then the tenant's part of the store becomes what it may become, and the tenant is answered what they may be answered, when
    their requests alone are handled, on any store that has the same part for them. *)
Theorem C95_together e (T I : bytes -> Prop) rs os s t s' ms' :
  (forall b, T b -> legal_bucket b) -> (forall u, I u -> "/"%char ∉ u) ->
  wf s -> wf t -> fs_nodes s !! [] = Some NDir -> fs_nodes t !! [] = Some NDir -> same_below (entry_of T I) s t ->
  Forall (about T I) rs -> Forall (spares T I) os ->
  psteps e s (storage e <$> rs ++ os) s' ms' ->
  exists t' mine, psteps e t (storage e <$> rs) t' mine /\ same_below (entry_of T I) s' t' /\
    forall i r, rs !! i = Some r ->
      (forall a, ms' !! i = Some (Ret a) -> exists a', mine !! i = Some (Ret a') /\ same_answer r s' t' a a') /\
      (forall a', mine !! i = Some (Ret a') -> exists a, ms' !! i = Some (Ret a) /\ same_answer r s' t' a a').
Proof.
  intros TL IL Hs Ht Hrs Hrt Hst Hmine Hoth Hp. pose proof (below_mirrors _ _ _ Hs Ht Hrs Hrt Hst) as Hm.
  remember (fun i j => exists p, area (entry_of T I) p /\ fs_nodes s !! p = Some (NFile i) /\ fs_nodes t !! p = Some (NFile j)) as W eqn:EW. clear EW.
  rewrite fmap_app in Hp.
  destruct (both_steps e (entry_of T I) _ _ _ _ Hp W t (storage e <$> rs) (storage e <$> rs) (storage e <$> os)) as (W' & t' & mine1 & mine1' & others1 & -> & Hl & H3 & H4 & H5); [done|done|done|..].
  - apply Forall2_fmap, Forall_Forall2_diag. eapply Forall_impl; [exact Hmine|]. intros r Hr.
    apply (psim_storage e (entry_of T I) T I); try done.
    + intros x Hx. by left.
    + intros b k Hb. right. left. by exists b, k.
    + intros u n Hu. right. right. by exists u, n.
  - apply Forall_fmap. eapply Forall_impl; [exact Hoth|]. intros r Hr. by apply others_elsewhere.
  - exists t', mine1'. split; [done|]. split; [by eapply mirrors_below|]. intros i r Hi.
    assert (Hlt : i < length mine1) by (rewrite Hl, fmap_length; by eapply lookup_lt_Some).
    rewrite lookup_app_l by done. destruct (lookup_lt_is_Some_2 mine1 i Hlt) as [m Hm1].
    destruct (Forall2_lookup_l _ _ _ _ _ H5 Hm1) as (m' & Hm2 & Hmm). rewrite Hm1, Hm2.
    assert (Hans : forall a a', res_alike said W' a a' -> same_answer r s' t' a a').
    { intros [a|c] [a'|c']; try done; cbn; intros Ha.
      - destruct Ha as [a Ha|h h' off lim len md tag Hh].
        + apply sa_equal. intros h off lim len md tag [= ->]. by eapply Ha.
        + apply sa_get. intros sched. unfold get_body. destruct h as [d|j], h' as [d'|j']; try done. cbn in Hh. by rewrite (ms_data _ _ _ _ H4 _ _ Hh).
      - subst c'. by apply sa_equal. }
    split.
    + intros a [= ->]. destruct m' as [a'|]; [|done]. exists a'. split; [done|]. by apply Hans.
    + intros a' [= ->]. destruct m as [a|]; [|done]. exists a. split; [done|]. by apply Hans.
Qed.
Print Assumptions C95_together.

Lemma psteps_none e A s s' (ms' : list (prog A)) : psteps e s [] s' ms' -> s' = s.
Proof. remember [] as ms eqn:E. intros H. revert E. destruct H as [s0 ms0|s0 ms0 i m s1 m1 s2 ms2 Hi _ _]; intros E; [done|]. rewrite E in Hi. by destruct i. Qed.

(** In particular the requests of others leave everything that belongs to the tenant as it is, at every moment. *)
Corollary C95_untouched e (T I : bytes -> Prop) os s s' ms' :
  (forall b, T b -> legal_bucket b) -> (forall u, I u -> "/"%char ∉ u) -> wf s -> fs_nodes s !! [] = Some NDir ->
  Forall (spares T I) os -> psteps e s (storage e <$> os) s' ms' -> same_below (entry_of T I) s' s.
Proof.
  intros TL IL Hs Hr Hos Hp. destruct (C95_together e T I [] os s s s' ms') as (t' & mine & H1 & H2 & _); try done.
  apply psteps_none in H1. by subst t'.
Qed.
Print Assumptions C95_untouched.

(** ** Example *)

Definition ex_tenant : list s_req :=
  [RPutObject (B "photos") (B "a/cat") None None (Some [(B "owner", B "me")]) (Some [FData (B "hel"); FData (B "lo")]);
   RCopyObject (B "photos/a/dog") (B "photos") (B "a/cow");
   RDeleteObject (B "photos") (B "a/dog")].
Definition ex_others : list s_req :=
  [RPutObject (B "others") (B "x") None None None (Some [FData (B "y"); FErr]);
   RDeleteBucket (B "others");
   RCopyObject (B "photos/a/cat") (B "others") (B "z")].
Definition ex_alone : fs := after_all ex_env
  [RCreateBucket (B "photos"); RPutObject (B "photos") (B "a/dog") None None None (Some [FData (B "bark")])] empty_store.
Definition ex_shared_store : fs := after_all ex_env
  [RCreateBucket (B "others"); RPutObject (B "others") (B "w") None None None (Some [FData (B "1")]);
   RCreateBucket (B "photos"); RPutObject (B "photos") (B "a/dog") None None None (Some [FData (B "bark")])] empty_store.
Definition finished_with (m : option (prog (sres s_ans))) : option (sres s_ans) := match m with Some (Ret a) => Some a | _ => None end.

(* The requests of the example are as the theorem wants them, and are answered the same together and alone. *)
Definition ex_order : list nat := [0; 3; 1; 5] ++ concat (repeat [0; 3; 1; 4; 5] 4) ++ concat (repeat [0; 1; 4] 20) ++ repeat 2 6 ++ concat (repeat [5; 3] 9).
Example C95_ex_requests : Forall (about (eq (B "photos")) (fun _ => False)) ex_tenant /\ Forall (spares (eq (B "photos")) (fun _ => False)) ex_others.
Proof.
  assert (Hno : B "photos" <> B "others") by done. assert (Hleg := legal_others).
  split; unfold ex_tenant, ex_others; repeat (apply Forall_cons; split); try apply Forall_nil_2; cbn [about spares].
  - split; [done|]. by apply (tame_segments [B "a"; B "cat"]).
  - split; [done|]. split; [by apply (tame_segments [B "a"; B "cow"])|]. intros sb sk H. vm_compute in H. injection H as <- <-. split; [done|].
    by apply (tame_segments [B "a"; B "dog"]).
  - split; [done|]. by apply (tame_segments [B "a"; B "dog"]).
  - split; [done|]. split; [done|]. by apply (tame_segments [B "x"]).
  - done.
  - split; [done|]. split; [done|]. by apply (tame_segments [B "z"]).
Qed.
Example C95_ex_answers :
  let x := run_sched ex_env ex_order ex_shared_store (storage ex_env <$> ex_tenant ++ ex_others) in
  let y := run_sched ex_env (filter (fun i => i < 3) ex_order) ex_alone (storage ex_env <$> ex_tenant) in
  map (fun i => finished_with (x.2 !! i)) [0; 1; 2] = map (fun i => finished_with (y.2 !! i)) [0; 1; 2] /\
  forallb (fun i => match finished_with (x.2 !! i) with Some (Ok _) => true | _ => false end) [0; 1; 2; 4] = true.
Proof. vm_compute. split; reflexivity. Qed.
