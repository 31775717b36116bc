(** C28: the download body. *)
From Verif Require Import M_Base M_Chunked M_BytesStream S_Chunked L_Base.
Local Open Scope N_scope.

(* The part of the file that has to be delivered. *)
Definition wanted (limit : option N) (content : bytes) : bytes :=
  match limit with
  | Some lim => take (N.to_nat (N.min lim (N.of_nat (length content)))) content
  | None => content
  end.

Lemma take_split {A} (l : list A) n m : take (n + m) l = take n l ++ take m (drop n l).
Proof.
  revert l; induction n as [|n IH]; intros [|a l]; cbn; try done.
  - by rewrite take_nil.
  - by rewrite IH.
Qed.

Lemma loop_spec fuel limit buf_size content sched :
  0 < buf_size -> (length content < fuel)%nat ->
  let fs := bytes_stream_loop fuel limit buf_size content sched in
  carried fs `prefix_of` wanted limit content /\
  (broken fs = false -> carried fs = wanted limit content) /\
  (Forall (fun s => s <> RdErr) sched -> broken fs = false) /\
  (forall b, FData b ∈ fs -> b <> [] /\ N.of_nat (length b) <= buf_size).
Proof.
  intros Hb. revert limit content sched.
  induction fuel as [|fuel IH]; intros limit content sched Hf; [lia|].
  cbn [bytes_stream_loop].
  set (bl := buf_len_of limit buf_size).
  assert (Hstep : forall k,
    let n := read_count k bl (N.of_nat (length content)) in
    let fs := if n =? 0 then []
          else
            let nread := N.min n bl in
            let limit' := match limit with Some lim => Some (lim - nread) | None => None end in
            FData (take (N.to_nat nread) content)
              :: bytes_stream_loop fuel limit' buf_size (drop (N.to_nat n) content) (tail sched) in
    carried fs `prefix_of` wanted limit content /\
    (broken fs = false -> carried fs = wanted limit content) /\
    (Forall (fun s => s <> RdErr) sched -> broken fs = false) /\
    (forall b, FData b ∈ fs -> b <> [] /\ N.of_nat (length b) <= buf_size)).
  { intros k n. cbv zeta. destruct (n =? 0) eqn:En.
    - apply N.eqb_eq in En. split_and!; [apply prefix_nil| |done|].
      + intros _. cbn [carried].
        unfold n, read_count, bl, buf_len_of in En. unfold wanted.
        destruct limit as [lim|]; [|destruct content; [done|simpl in En; lia]].
        replace (N.min lim (N.of_nat (length content))) with 0 by lia. done.
      + intros b Hin. by apply elem_of_nil in Hin.
    - apply N.eqb_neq in En.
      assert (Hn : 0 < n <= N.of_nat (length content) /\ n <= bl /\ bl <= buf_size /\
        match limit with Some lim => bl <= lim | None => True end).
      { unfold n, read_count, bl, buf_len_of in *. destruct limit; lia. }
      replace (N.min n bl) with n by lia.
      set (limit' := match limit with Some lim => Some (lim - n) | None => None end).
      destruct (IH limit' (drop (N.to_nat n) content) (tail sched)) as (H1 & H2 & H3 & H4).
      { rewrite drop_length. lia. }
      assert (Hw : wanted limit content = take (N.to_nat n) content ++
                wanted limit' (drop (N.to_nat n) content)).
      { unfold wanted, limit'. destruct limit as [lim|]; [|by rewrite take_drop].
        rewrite drop_length, <- take_split. f_equal. lia. }
      cbn [carried]. rewrite Hw. split_and!.
      + by apply prefix_app.
      + intros Hbr. f_equal. by apply H2.
      + intros Hs. apply H3. destruct sched; [done|]. by inversion Hs.
      + intros b [Heq|Hin]%elem_of_cons; [|by apply H4]. injection Heq as ->. split.
        * intros H0. apply (f_equal length) in H0. rewrite take_length in H0. simpl in H0. lia.
        * rewrite take_length. lia. }
  destruct sched as [|[k|] sched]; cbn [head].
  - apply Hstep.
  - apply Hstep.
  - split_and!; [apply prefix_nil|done| |].
    + intros Hs. inversion Hs. done.
    + intros b [Heq|Hin]%elem_of_cons; [done|]. by apply elem_of_nil in Hin.
Qed.

(** C28 *)
Theorem C28_body_exact buf_size limit content sched :
  0 < buf_size -> Forall (fun s => s <> RdErr) sched ->
  let fs := bytes_stream buf_size limit content sched in
  carried fs = wanted limit content /\ broken fs = false /\
  (forall b, FData b ∈ fs -> b <> [] /\ N.of_nat (length b) <= buf_size).
Proof.
  intros Hb Hs fs.
  destruct (loop_spec (S (length content)) limit buf_size content sched Hb) as (_ & H2 & H3 & H4); [lia|].
  split_and!; auto.
Qed.
Print Assumptions C28_body_exact.

(** With failing reads: what was delivered is a prefix, and a failure is always reported
    unless the wanted bytes were delivered completely. *)
Theorem C28_failed_reads_reported buf_size limit content sched :
  0 < buf_size ->
  let fs := bytes_stream buf_size limit content sched in
  carried fs `prefix_of` wanted limit content /\
  (broken fs = false -> carried fs = wanted limit content).
Proof.
  intros Hb fs.
  destruct (loop_spec (S (length content)) limit buf_size content sched Hb) as (H1 & H2 & _); [lia|].
  done.
Qed.
Print Assumptions C28_failed_reads_reported.

Example ex_bytes_stream :
  bytes_stream 4 (Some 7) (B "hello world") [RdSome 3; RdSome 1; RdSome 9] =
  [FData (B "hel"); FData (B "l"); FData (B "o w")].
Proof. vm_compute. reflexivity. Qed.
Example ex_bytes_stream_wanted : wanted (Some 7) (B "hello world") = B "hello w".
Proof. vm_compute. reflexivity. Qed.
Example ex_bytes_stream_err :
  bytes_stream 4 None (B "hello world") [RdSome 3; RdErr] = [FData (B "hel"); FErr].
Proof. vm_compute. reflexivity. Qed.
