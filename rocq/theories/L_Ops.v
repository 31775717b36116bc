(** What the operations compute when they run alone. *)
From Verif Require Import M_Base M_Fs M_Storage S_Storage L_Base L_Fs L_Storage L_Scope L_Names.

(** ** Sequencing *)

Lemma run_try_path e {A} o (k : path -> prog (sres A)) s :
  run e (try_path o k) s = match o with Some p => run e (k p) s | None => (s, Err InternalError) end.
Proof. by destruct o. Qed.

Lemma run_try_io e {A C} (m : prog (option A)) (k : A -> prog (sres C)) s :
  run e (try_io m k) s = let '(s', o) := run e m s in
    match o with Some a => run e (k a) s' | None => (s', Err InternalError) end.
Proof. unfold try_io. rewrite run_bind. by destruct (run e m s) as [s' [a|]]. Qed.

Lemma run_try_res e {A C} (m : prog (sres A)) (k : A -> prog (sres C)) s :
  run e (try_res m k) s = let '(s', o) := run e m s in
    match o with Ok a => run e (k a) s' | Err c => (s', Err c) end.
Proof. unfold try_res. rewrite run_bind. by destruct (run e m s) as [s' [a|]]. Qed.

Lemma run_ret e {A} (a : A) s : run e (Ret a) s = (s, a).
Proof. done. Qed.

(** ** Reading *)

Lemma run_exists e p s : run e (call (CExists p)) s = (s, e_os_ok e p && bool_decide (is_Some (fs_nodes s !! p))).
Proof. by rewrite run_call. Qed.

Lemma run_open e p s : run e (call (COpen p)) s =
  (s, if negb (e_os_ok e p) then None
      else match fs_nodes s !! p with
           | Some NDir => Some (HDir p) | Some (NFile i) => Some (HFile i) | None => None end).
Proof. by rewrite run_call. Qed.

(* One read gives a beginning of what is left, and nothing only at the end. *)
Lemma piece_prefix e b : exists r, b = piece e b ++ r.
Proof.
  unfold piece. generalize (e_chop_concat e b). generalize (e_chop e b). intros l <-.
  induction l as [|[|a x] l IH]; [by exists []|exact IH|]. by exists (concat l).
Qed.
Lemma piece_nil e b : piece e b = [] -> b = [].
Proof.
  unfold piece. generalize (e_chop_concat e b). generalize (e_chop e b). intros l <-.
  induction l as [|[|a x] l IH]; [done|exact IH|done].
Qed.
Lemma piece_empty e : piece e [] = [].
Proof. destruct (piece_prefix e []) as [r Hr]. by destruct (piece e []). Qed.
Lemma piece_split e d off : drop off d = piece e (drop off d) ++ drop (off + length (piece e (drop off d))) d.
Proof.
  destruct (piece_prefix e (drop off d)) as [r Hr]. rewrite <- drop_drop. revert Hr. generalize (piece e (drop off d)).
  intros x Hr. by rewrite Hr, drop_app.
Qed.

Lemma run_read_rest e i s : forall n off, length (data_of s i) < n + off ->
  run e (read_rest n (HFile i) off) s = (s, Some (drop off (data_of s i))) \/ n = 0.
Proof.
  induction n as [|n IH]; intros off Hn; [by right|left]. cbn [read_rest]. rewrite run_bind, run_call. cbn [exec].
  destruct (piece e (drop off (data_of s i))) as [|a x] eqn:E.
  - by rewrite (piece_nil _ _ E).
  - pose proof (piece_split e (data_of s i) off) as Hs. rewrite E in Hs. cbv beta iota. rewrite run_bind.
    assert (off < length (data_of s i)).
    { destruct (decide (off < length (data_of s i))); [done|]. rewrite drop_ge in E by lia. by rewrite piece_empty in E. }
    destruct (IH (off + length (a :: x))) as [->| ->]; [cbn; lia| |cbn in *; lia]. cbn [run]. by rewrite <- Hs.
Qed.
Lemma run_read_file e p s : run e (read_file p) s = (s, if e_os_ok e p then content s p else None).
Proof.
  unfold read_file, content. rewrite run_bind, run_call. cbn [exec].
  destruct (e_os_ok e p); cbn [negb]; [|done]. destruct (fs_nodes s !! p) as [[|i]|]; [done| |done].
  rewrite run_bind, run_call. cbn [exec]. destruct (run_read_rest e i s (S (length (data_of s i) + e_rounds e)) 0) as [->|]; [lia|done|lia].
Qed.

(* The metadata found for an object. *)
Definition meta_of (e : env) (s : fs) (b k : bytes) : option (option metadata) :=
  let p := [metadata_name b k] in
  if e_os_ok e p && bool_decide (is_Some (fs_nodes s !! p)) then
    match content s p with
    | Some c => match json_decode c with Some m => Some (Some m) | None => None end
    | None => None
    end
  else Some None.

Lemma run_load_metadata e b k s : run e (load_metadata e b k) s = (s, meta_of e s b k).
Proof.
  unfold load_metadata, meta_of. rewrite metadata_path, run_bind, run_exists.
  destruct (e_os_ok e [metadata_name b k]) eqn:Eos; cbn [andb]; [|done].
  case_bool_decide; [|done]. rewrite run_bind, run_read_file, Eos.
  destruct (content s [metadata_name b k]) as [c|]; [|done]. by destruct (json_decode c).
Qed.

Lemma run_get_md5 e b k p s : get_object_path e b k = Some p ->
  run e (get_md5_sum e b k) s = (s, if e_os_ok e p then etag_of <$> content s p else None).
Proof.
  intros Hp. unfold get_md5_sum. rewrite Hp, run_bind, run_read_file.
  destruct (e_os_ok e p); [|done]. by destruct (content s p).
Qed.

(** ** Writing *)

Definition set_data (s : fs) (i : N) (d : bytes) : fs := Fs (fs_nodes s) (<[i := d]> (fs_data s)) (fs_next s).

Lemma set_data_set s i d d' : set_data (set_data s i d) i d' = set_data s i d'.
Proof. unfold set_data. cbn. by rewrite insert_insert. Qed.
Lemma set_data_id s i d : fs_data s !! i = Some d -> set_data s i d = s.
Proof. intros H. unfold set_data. rewrite insert_id by done. by destruct s. Qed.
Lemma set_data_lookup s i d : fs_data (set_data s i d) !! i = Some d.
Proof. cbn. by rewrite lookup_insert. Qed.
Lemma data_of_Some s i d : fs_data s !! i = Some d -> data_of s i = d.
Proof. unfold data_of. by intros ->. Qed.

Lemma pwrite_append c b : pwrite c (length c) b = c ++ b.
Proof.
  unfold pwrite. rewrite firstn_all, Nat.sub_diag, drop_ge by lia. cbn. by rewrite app_nil_r.
Qed.

Lemma run_write_pieces e i ps s d : fs_data s !! i = Some d ->
  run e (write_pieces i (length d) ps) s = (set_data s i (d ++ concat ps), Some (length (d ++ concat ps))).
Proof.
  revert s d. induction ps as [|b ps IH]; intros s d Hd.
  - cbn. by rewrite app_nil_r, set_data_id.
  - cbn [write_pieces]. rewrite run_bind, run_call. cbn [exec].
    rewrite (data_of_Some _ _ _ Hd), pwrite_append.
    change (Fs (fs_nodes s) (<[i:=d ++ b]> (fs_data s)) (fs_next s)) with (set_data s i (d ++ b)).
    rewrite <- app_length, IH by apply set_data_lookup. rewrite set_data_set. cbn [concat].
    by rewrite <- app_assoc.
Qed.

(* No frame of the body is an error. *)
Definition body_ok (body : list frame) : bool :=
  forallb (fun f => match f with FData _ => true | FErr => false end) body.

Lemma run_copy_bytes e i body s d : fs_data s !! i = Some d ->
  run e (copy_bytes e i (length d) body) s =
  (set_data s i (d ++ body_data body), if body_ok body then Some (length (d ++ body_data body)) else None).
Proof.
  revert s d. induction body as [|[b|] body IH]; intros s d Hd.
  - cbn. by rewrite app_nil_r, set_data_id.
  - cbn [copy_bytes]. rewrite run_bind, (run_write_pieces _ _ _ _ d) by done.
    rewrite e_chop_concat, IH by apply set_data_lookup. rewrite set_data_set.
    cbn [body_data body_ok forallb andb]. by rewrite <- app_assoc.
  - cbn. by rewrite app_nil_r, set_data_id.
Qed.

Lemma run_copy_bytes_0 e i body s : fs_data s !! i = Some [] ->
  run e (copy_bytes e i 0 body) s =
  (set_data s i (body_data body), if body_ok body then Some (length (body_data body)) else None).
Proof. apply (run_copy_bytes e i body s []). Qed.

(* What [File::create] achieves. *)
Lemma create_spec e p s s' o : exec e (CCreate p) s = (s', o) ->
  match o with
  | None => s' = s
  | Some i => fs_nodes s' !! p = Some (NFile i) /\ fs_data s' !! i = Some [] /\ e_os_ok e p = true /\ p <> []
              \/ fs_nodes s' !! p = Some (NFile i) /\ fs_data s' !! i = Some [] /\ e_os_ok e p = true /\ fs_nodes s !! p = Some (NFile i)
  end.
Proof.
  cbn [exec]. destruct (e_os_ok e p); cbn [negb]; [|by intros [= <- <-]].
  destruct (fs_nodes s !! p) as [[|i]|] eqn:Hp.
  - by intros [= <- <-].
  - intros [= <- <-]. right. cbn. by rewrite lookup_insert.
  - destruct (parent p) as [[q c]|] eqn:Epar; [|by intros [= <- <-]].
    destruct (is_dir s q); [|by intros [= <- <-]]. intros [= <- <-]. left. cbn.
    rewrite !lookup_insert. split_and!; try done. intros ->. done.
Qed.

Lemma create_file e p s s' i : exec e (CCreate p) s = (s', Some i) ->
  fs_nodes s' !! p = Some (NFile i) /\ fs_data s' !! i = Some [] /\ e_os_ok e p = true.
Proof. intros H. apply create_spec in H as [(?&?&?&?)|(?&?&?&?)]; done. Qed.

Lemma create_fail e p s s' : exec e (CCreate p) s = (s', None) -> s' = s.
Proof. intros H. by apply create_spec in H. Qed.

Lemma run_write_file e p b s :
  run e (write_file e p b) s =
  let '(s1, o) := exec e (CCreate p) s in
  match o with Some i => (set_data s1 i b, Some tt) | None => (s1, None) end.
Proof.
  unfold write_file. rewrite run_bind, run_call. destruct (exec e (CCreate p) s) as [s1 [i|]] eqn:E; [|done].
  apply create_file in E as (_ & Hd & _). rewrite run_bind.
  change 0%nat with (length (@nil ascii)). rewrite (run_write_pieces _ _ _ _ []) by done.
  by rewrite e_chop_concat.
Qed.

(* Copying from one file to another. *)
Lemma run_transfer e i j : i <> j -> forall n s roff d, fs_data s !! j = Some d -> length (data_of s i) < n + roff -> n <> 0 ->
  run e (transfer e n (HFile i) roff j (length d)) s =
  (set_data s j (d ++ drop roff (data_of s i)), Some (length (d ++ drop roff (data_of s i)))).
Proof.
  intros Hij. induction n as [|n IH]; intros s roff d Hd Hn Hn0; [done|]. cbn [transfer]. rewrite run_bind, run_call. cbn [exec].
  destruct (piece e (drop roff (data_of s i))) as [|a x] eqn:E.
  - rewrite (piece_nil _ _ E). by rewrite app_nil_r, set_data_id.
  - pose proof (piece_split e (data_of s i) roff) as Hs. rewrite E in Hs.
    assert (roff < length (data_of s i)).
    { destruct (decide (roff < length (data_of s i))); [done|]. rewrite drop_ge in E by lia. by rewrite piece_empty in E. }
    cbv beta iota. rewrite run_bind, (run_write_pieces _ _ _ _ d), e_chop_concat by done.
    assert (Hi : data_of (set_data s j (d ++ a :: x)) i = data_of s i) by (unfold data_of; cbn; by rewrite lookup_insert_ne).
    rewrite IH; [|apply set_data_lookup|rewrite Hi; cbn; lia|lia]. rewrite Hi, set_data_set, <- app_assoc.
    by rewrite <- Hs.
Qed.
Lemma run_transfer_0 e n i roff j s : data_of s i = [] -> forall woff, run e (transfer e (S n) (HFile i) roff j woff) s = (s, Some woff).
Proof. intros Hd woff. cbn [transfer]. rewrite run_bind, run_call. cbn [exec]. by rewrite Hd, drop_nil, piece_empty. Qed.
Lemma run_append_file e p j s d : fs_data s !! j = Some d -> fs_nodes s !! p <> Some (NFile j) ->
  run e (append_file e p j (length d)) s =
  match (if e_os_ok e p then content s p else None) with
  | Some c => (set_data s j (d ++ c), Some (length (d ++ c)))
  | None => (s, None)
  end.
Proof.
  intros Hd Hne. unfold append_file, content. rewrite run_bind, run_call. cbn [exec].
  destruct (e_os_ok e p); cbn [negb]; [|done]. destruct (fs_nodes s !! p) as [[|i]|]; [done| |done].
  rewrite run_bind, run_call. cbn [exec]. rewrite run_transfer; [|congruence|done|lia|lia]. done.
Qed.

Lemma content_set_data s i d p : fs_nodes s !! p = Some (NFile i) -> content (set_data s i d) p = Some d.
Proof. intros H. unfold content, set_data. cbn. rewrite H. unfold data_of. cbn. by rewrite lookup_insert. Qed.

Lemma content_set_data_ne s i d p : fs_nodes s !! p <> Some (NFile i) -> content (set_data s i d) p = content s p.
Proof. apply content_insert_data. Qed.

Lemma run_copy_file e src dst s :
  run e (copy_file e src dst) s =
  match content s src with
  | Some _ =>
      if e_os_ok e src then
        let '(s1, o) := exec e (CCreate dst) s in
        match o with
        | Some j => (set_data s1 j (default [] (content s1 src)), Some tt)
        | None => (s1, None)
        end
      else (s, None)
  | None => (s, None)
  end.
Proof.
  unfold copy_file. rewrite run_bind, run_open. unfold content at 1.
  destruct (e_os_ok e src); cbn [negb]; [|by destruct (fs_nodes s !! src) as [[|]|]].
  destruct (fs_nodes s !! src) as [[|i]|] eqn:Hsrc; [done| |done].
  rewrite run_bind, run_call. destruct (exec e (CCreate dst) s) as [s1 [j|]] eqn:E; [|done].
  rewrite run_bind, run_call. cbn [exec].
  assert (Hsrc1 : fs_nodes s1 !! src = Some (NFile i)).
  { cbn [exec] in E. destruct (negb _); [done|]. destruct (fs_nodes s !! dst) as [[|j']|] eqn:Hdst.
    - done.
    - by injection E as <- <-.
    - destruct (parent dst) as [[q c]|]; [|done]. destruct (is_dir s q); [|done]. injection E as <- <-. cbn.
      rewrite lookup_insert_ne; [done|]. intros ->. congruence. }
  apply create_file in E as (_ & Hd & _). rewrite run_bind.
  unfold content. rewrite Hsrc1. cbn [default]. destruct (decide (i = j)) as [->|Hij].
  - assert (Hn : data_of s1 j = []) by (unfold data_of; by rewrite Hd). rewrite run_transfer_0, Hn by done.
    by rewrite set_data_id.
  - change 0%nat with (length (@nil ascii)). rewrite run_transfer; [done|done|done|cbn; lia|lia].
Qed.

(** ** Directories *)

(* All missing directories on the way to [p]. *)
Fixpoint mkdirs_rev (rp : path) (m : gmap path node) : gmap path node :=
  match rp with
  | [] => match m !! [] with None => <[[] := NDir]> m | Some _ => m end
  | _ :: rp' =>
      let m' := mkdirs_rev rp' m in
      match m !! rev rp with None => <[rev rp := NDir]> m' | Some _ => m' end
  end.
Definition mkdirs (p : path) (m : gmap path node) : gmap path node := mkdirs_rev (rev p) m.

Lemma mkdirs_rev_lookup rp m q :
  mkdirs_rev rp m !! q = if decide (q `prefix_of` rev rp /\ m !! q = None) then Some NDir else m !! q.
Proof.
  induction rp as [|c rp IH].
  - cbn [mkdirs_rev rev]. destruct (m !! []) as [n|] eqn:E.
    + destruct (decide _) as [[H1 H2]|]; [|done]. apply prefix_nil_inv in H1 as ->. congruence.
    + destruct (decide (q = [])) as [->|Hq].
      * rewrite lookup_insert. rewrite decide_True; done.
      * rewrite lookup_insert_ne by done. rewrite decide_False; [done|]. intros [H1 _]. by apply prefix_nil_inv in H1.
  - cbn [mkdirs_rev]. 
    assert (Hpre : forall q, q `prefix_of` rev (c :: rp) <-> q `prefix_of` rev rp \/ q = rev (c :: rp)).
    { intros q'. cbn [rev]. split.
      - intros [r Hr]. destruct r as [|x r _] using rev_ind; [right; by rewrite app_nil_r in Hr|].
        rewrite app_assoc in Hr. apply snoc_inj in Hr as [Hr _]. left. by exists r.
      - intros [H| ->]; [by apply prefix_app_r|done]. }
    destruct (m !! rev (c :: rp)) as [n|] eqn:E.
    + rewrite IH. destruct (decide (q `prefix_of` rev rp ∧ m !! q = None)) as [[H1 H2]|H1].
      * rewrite decide_True; [done|]. split; [|done]. apply Hpre. by left.
      * rewrite decide_False; [done|]. intros [[H2| ->]%Hpre H3]; [by apply H1|congruence].
    + destruct (decide (q = rev (c :: rp))) as [->|Hq].
      * rewrite lookup_insert. rewrite decide_True; [done|]. split; [|done]. apply Hpre. by right.
      * rewrite lookup_insert_ne by done. rewrite IH.
        destruct (decide (q `prefix_of` rev rp ∧ m !! q = None)) as [[H1 H2]|H1].
        -- rewrite decide_True; [done|]. split; [|done]. apply Hpre. by left.
        -- rewrite decide_False; [done|]. intros [[H2| ->]%Hpre H3]; [by apply H1|done].
Qed.

Lemma mkdirs_lookup p m q :
  mkdirs p m !! q = if decide (q `prefix_of` p /\ m !! q = None) then Some NDir else m !! q.
Proof. unfold mkdirs. by rewrite mkdirs_rev_lookup, rev_involutive. Qed.

Lemma wf_prefix s p q : wf s -> is_Some (fs_nodes s !! p) -> q `prefix_of` p -> q <> p -> fs_nodes s !! q = Some NDir.
Proof.
  intros Hwf. revert q. induction p as [|c p IH] using rev_ind; intros q Hp Hq Hne.
  - by apply prefix_nil_inv in Hq.
  - destruct Hq as [r Hr]. destruct r as [|x r _] using rev_ind.
    + by rewrite app_nil_r in Hr.
    + rewrite app_assoc in Hr. apply snoc_inj in Hr as [-> ->].
      pose proof (wf_parent _ Hwf _ _ Hp) as Hd.
      destruct (decide (q = q ++ r)) as [Heq|Hn]; [by rewrite <- Heq in Hd|].
      apply IH; [by rewrite Hd|by exists r|done].
Qed.

Lemma set_nodes_set s m m' : set_nodes (set_nodes s m) m' = set_nodes s m'.
Proof. done. Qed.

(* [create_dir_all] creates the missing directories, or changes nothing. *)
Definition no_file_above (s : fs) (p : path) : Prop :=
  forall q i, q `prefix_of` p -> fs_nodes s !! q <> Some (NFile i).

Lemma no_file_above_snoc s p c : no_file_above s (p ++ [c]) <->
  no_file_above s p /\ forall i, fs_nodes s !! (p ++ [c]) <> Some (NFile i).
Proof.
  split.
  - intros H. split; [|intros i; by apply H]. intros q i Hq. apply H. by apply prefix_app_r.
  - intros [H1 H2] q i [r Hr]. destruct r as [|x r _] using rev_ind.
    + rewrite app_nil_r in Hr. subst q. apply H2.
    + rewrite app_assoc in Hr. apply snoc_inj in Hr as [-> ->]. apply H1. by exists r.
Qed.

Lemma run_create_dir_all_rev_ok e rp s : wf s -> e_os_ok e (rev rp) = true -> no_file_above s (rev rp) ->
  run e (create_dir_all_rev rp) s = (set_nodes s (mkdirs_rev rp (fs_nodes s)), Some tt).
Proof.
  intros Hwf. induction rp as [|c rp IH]; intros Hos Hnf.
  - cbn [create_dir_all_rev mkdirs_rev]. rewrite run_bind, run_call. cbn [exec rev]. cbn [rev] in Hos.
    rewrite Hos. cbn [negb]. destruct (fs_nodes s !! []) as [[|i]|] eqn:E.
    + rewrite run_bind, run_call. cbn [exec]. rewrite Hos, E. cbn. by rewrite set_nodes_id.
    + by apply Hnf in E.
    + done.
  - cbn [create_dir_all_rev mkdirs_rev]. rewrite run_bind, run_call. cbn [exec].
    rewrite Hos. cbn [negb]. destruct (fs_nodes s !! rev (c :: rp)) as [[|i]|] eqn:E.
    + rewrite run_bind, run_call. cbn [exec]. rewrite Hos, E. cbn [negb run].
      f_equal. destruct s as [m d n]. unfold set_nodes. cbn [fs_nodes fs_data fs_next] in *. f_equal.
      apply map_eq. intros q. rewrite mkdirs_rev_lookup. destruct (decide _) as [[H1 H2]|]; [|done].
      cbn [rev] in E. pose proof (wf_prefix _ (rev rp ++ [c]) q Hwf) as Hd. cbn in Hd.
      rewrite Hd in H2; [done|by rewrite E|by apply prefix_app_r|].
      intros ->. destruct H1 as [r Hr]. apply (f_equal length) in Hr. rewrite !app_length in Hr. cbn in Hr. lia.
    + exfalso. by eapply Hnf in E.
    + cbn [rev] in *. apply no_file_above_snoc in Hnf as [Hnf _].
      assert (Hos' : e_os_ok e (rev rp) = true) by (by eapply e_os_prefix).
      specialize (IH Hos' Hnf). unfold has_parent. rewrite parent_snoc.
      destruct (is_dir s (rev rp)) eqn:Ed.
      * apply is_dir_true in Ed. cbn [run]. f_equal. unfold set_nodes. f_equal. f_equal.
        apply map_eq. intros q. rewrite mkdirs_rev_lookup. destruct (decide _) as [[H1 H2]|]; [|done].
        destruct (decide (q = rev rp)) as [->|Hn]; [congruence|].
        rewrite (wf_prefix _ (rev rp) q Hwf) in H2; [done|by rewrite Ed|done|done].
      * destruct (fs_nodes s !! rev rp) as [[|i]|] eqn:Ep.
        -- apply is_dir_true in Ep. congruence.
        -- exfalso. by eapply Hnf in Ep.
        -- rewrite run_bind, IH, run_bind, run_call. cbn [exec]. rewrite Hos. cbn [negb fs_nodes set_nodes].
           assert (E' : mkdirs_rev rp (fs_nodes s) !! (rev rp ++ [c]) = None).
           { rewrite mkdirs_rev_lookup. rewrite decide_False; [done|]. intros [[r Hr] _].
             apply (f_equal length) in Hr. rewrite !app_length in Hr. cbn in Hr. lia. }
           rewrite E'. unfold has_parent. rewrite parent_snoc. unfold is_dir. cbn [fs_nodes set_nodes].
           rewrite mkdirs_rev_lookup, decide_True by done. done.
Qed.

Lemma no_file_above_dec s p : no_file_above s p \/ exists q i, q `prefix_of` p /\ fs_nodes s !! q = Some (NFile i).
Proof.
  induction p as [|c p IH] using rev_ind.
  - destruct (fs_nodes s !! []) as [[|i]|] eqn:E.
    + left. intros q i Hq. apply prefix_nil_inv in Hq as ->. congruence.
    + right. by exists [], i.
    + left. intros q i Hq. apply prefix_nil_inv in Hq as ->. congruence.
  - destruct IH as [H|(q & i & H1 & H2)]; [|right; exists q, i; split; [by apply prefix_app_r|done]].
    destruct (fs_nodes s !! (p ++ [c])) as [[|i]|] eqn:E.
    + left. apply no_file_above_snoc. split; [done|]. congruence.
    + right. by exists (p ++ [c]), i.
    + left. apply no_file_above_snoc. split; [done|]. congruence.
Qed.

Lemma run_create_dir_all_rev_fail e rp s : wf s ->
  e_os_ok e (rev rp) = false \/ (exists q i, q `prefix_of` rev rp /\ fs_nodes s !! q = Some (NFile i)) ->
  run e (create_dir_all_rev rp) s = (s, None).
Proof.
  intros Hwf. induction rp as [|c rp IH]; intros Hbad.
  - cbn [create_dir_all_rev]. rewrite run_bind, run_call. cbn [exec rev]. cbn [rev] in Hbad.
    destruct (e_os_ok e []) eqn:Hos; cbn [negb].
    + destruct Hbad as [?|(q & i & Hq & E)]; [done|]. apply prefix_nil_inv in Hq as ->. rewrite E.
      rewrite run_bind, run_call. cbn [exec]. by rewrite Hos, E.
    + rewrite run_bind, run_call. cbn [exec]. by rewrite Hos.
  - cbn [create_dir_all_rev]. rewrite run_bind, run_call. cbn [exec].
    destruct (e_os_ok e (rev (c :: rp))) eqn:Hos; cbn [negb].
    + destruct Hbad as [?|(q & i & Hq & E)]; [done|].
      destruct (fs_nodes s !! rev (c :: rp)) as [n|] eqn:Ep.
      * assert (q = rev (c :: rp)) as ->.
        { destruct (decide (q = rev (c :: rp))) as [?|Hne]; [done|].
          rewrite (wf_prefix _ (rev (c :: rp)) q Hwf) in E; [done|by rewrite Ep|done|done]. }
        rewrite Ep in E. injection E as ->. 
        rewrite run_bind, run_call. cbn [exec]. by rewrite Hos, Ep.
      * cbn [rev] in *.
        assert (Hq' : q `prefix_of` rev rp).
        { destruct Hq as [r Hr]. destruct r as [|x r _] using rev_ind.
          - rewrite app_nil_r in Hr. congruence.
          - rewrite app_assoc in Hr. apply snoc_inj in Hr as [-> _]. by exists r. }
        unfold has_parent. rewrite parent_snoc. destruct (is_dir s (rev rp)) eqn:Ed.
        { apply is_dir_true in Ed. destruct (decide (q = rev rp)) as [->|Hne]; [congruence|].
          rewrite (wf_prefix _ (rev rp) q Hwf) in E; [done|by rewrite Ed|done|done]. }
        destruct (fs_nodes s !! rev rp) as [n|] eqn:En.
        -- rewrite run_bind, run_call. cbn [exec]. by rewrite Hos, Ep.
        -- rewrite run_bind, IH; [done|]. right. by exists q, i.
    + rewrite run_bind, run_call. cbn [exec]. by rewrite Hos.
Qed.

Lemma run_create_dir_all e p s : wf s ->
  (e_os_ok e p = true /\ no_file_above s p /\
     run e (create_dir_all p) s = (set_nodes s (mkdirs p (fs_nodes s)), Some tt)) \/
  (~ (e_os_ok e p = true /\ no_file_above s p) /\ run e (create_dir_all p) s = (s, None)).
Proof.
  intros Hwf. unfold create_dir_all, mkdirs. destruct (e_os_ok e p) eqn:Hos.
  - destruct (no_file_above_dec s p) as [Hnf|Hf].
    + left. split_and!; [done|done|]. apply run_create_dir_all_rev_ok; by rewrite ?rev_involutive.
    + right. split.
      * intros [_ H]. destruct Hf as (q & i & H1 & H2). by eapply H in H2.
      * apply run_create_dir_all_rev_fail; [done|]. right. by rewrite rev_involutive.
  - right. split; [naive_solver|]. apply run_create_dir_all_rev_fail; [done|]. left. by rewrite rev_involutive.
Qed.
