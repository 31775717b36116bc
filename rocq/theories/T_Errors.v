(** C54: error codes. *)
From Verif Require Import M_Base M_Errors S_Errors L_Base.

Theorem C54_print_parse c : code_parse (code_str c) = Some c.
Proof. by destruct c; vm_compute. Qed.
Print Assumptions C54_print_parse.

Lemma code_arms_print : Forall (fun a => a.1 = code_str a.2) code_arms.
Proof. repeat (constructor; [vm_compute; reflexivity|]). constructor. Qed.

Theorem C54_only_names_parse s c : code_parse s = Some c <-> s = code_str c.
Proof.
  split; [|intros ->; apply C54_print_parse]. unfold code_parse.
  destruct (find _ code_arms) as [[n c']|] eqn:E; [|done]. intros [= <-].
  apply find_some in E as [Hin Hb]. apply beq_true in Hb. cbn in Hb. subst n.
  pose proof code_arms_print as H. rewrite Forall_forall in H.
  apply elem_of_list_In in Hin. apply (H _ Hin).
Qed.
Print Assumptions C54_only_names_parse.

Theorem C54_names_distinct c c' : code_str c = code_str c' -> c = c'.
Proof. intros H. pose proof (C54_print_parse c) as E. rewrite H, C54_print_parse in E. by injection E. Qed.
Print Assumptions C54_names_distinct.

(* Decision procedure for [documented], for the proof only. *)
Lemma documented_dec name status :
  existsb (fun e => (e.1 =? status)%N && existsb (beq name) e.2) documented_status = true ->
  documented name status.
Proof.
  rewrite existsb_exists. intros ([s ns] & Hin & H). apply andb_true_iff in H as [H1 H2].
  apply N.eqb_eq in H1. cbn in H1. subst s. apply existsb_exists in H2 as (n & Hn & Hb).
  apply beq_true in Hb. subst n. by exists ns.
Qed.

(** Every code other than ObjectNotInActiveTierError is answered with its documented status.
    Missing for the full claim: that one code (see the refutation). *)
Theorem C54_status_documented_partial c :
  c <> ObjectNotInActiveTierError -> documented (code_str c) (response_status c).
Proof. intros H. apply documented_dec. by destruct c; try reflexivity; destruct H. Qed.
Print Assumptions C54_status_documented_partial.

(* Each name occurs only once in the table. *)
Lemma documented_fun name s s' : documented name s -> documented name s' -> s = s'.
Proof.
  assert (Hd : NoDup (concat (map (fun e => e.2) documented_status))) by (vm_compute; compute_done).
  unfold documented. revert Hd. generalize documented_status. intros l Hd (n1 & H1 & I1) (n2 & H2 & I2).
  induction l as [|[t ns] l IH]; [done|]. cbn [map concat snd] in Hd.
  apply NoDup_app in Hd as (Hns & Hdis & Hl).
  assert (Hc : forall s n, In (s, n) l -> In name n -> name ∈ concat (map (fun e : N * list bytes => e.2) l)).
  { intros s0 n Hin Hn. apply elem_of_list_In, in_concat. exists n. split; [|done].
    apply in_map_iff. by exists (s0, n). }
  destruct H1 as [[= -> ->]|H1], H2 as [[= -> ->]|H2].
  - done.
  - exfalso. eapply Hdis; [by apply elem_of_list_In|]. by eapply Hc.
  - exfalso. eapply Hdis; [by apply elem_of_list_In|]. by eapply Hc.
  - by apply IH.
Qed.

(** An error code that is answered with a success status, against the documentation. *)
Theorem C54_status_documented_refuted :
  exists c, response_status c = 200%N /\ ~ documented (code_str c) (response_status c).
Proof.
  exists ObjectNotInActiveTierError. split; [done|]. intros H.
  assert (H' : documented (code_str ObjectNotInActiveTierError) 403%N) by by apply documented_dec.
  pose proof (documented_fun _ _ _ H H') as E. discriminate E.
Qed.
Print Assumptions C54_status_documented_refuted.

Theorem C54_other_errors_not_success c :
  c <> ObjectNotInActiveTierError -> (300 <= response_status c)%N.
Proof. intros H. destruct c; try (by vm_compute); destruct H; done. Qed.
Print Assumptions C54_other_errors_not_success.

Example ex_status : response_status NoSuchKey = 404%N /\ response_status NotSupported = 500%N
  /\ code_parse (B "NoSuchKey") = Some NoSuchKey /\ code_parse (B "nosuchkey") = None.
Proof. by vm_compute. Qed.
