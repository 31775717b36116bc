(** C97: where the bytes of objects and downloads come from, whatever happens at the same time. *)
From Verif Require Import M_Base M_Path M_Headers M_Chunked M_BytesStream M_Crypto M_Fs M_Json M_Utf8 M_Storage M_Download
  S_Path S_Headers S_Chunked S_Storage S_Store
  L_Base L_Path L_Fs L_Storage L_Scope L_Names L_Ops L_Results L_Tidy T_Store T_Copy T_Crash T_Concurrent T_Space.

Local Opaque md5 etag_of json_decode json_encode metadata_name part_name.

(** ** What the theorem says *)

(* How the byte [a] can get to the position [i] of the file [p] when the requests [rs] are handled, starting with the store [s]. *)
Inductive origin (e : env) (s : fs) (rs : list s_req) : path -> nat -> ascii -> Prop :=
(* It was there. *)
| og_kept p c i a : content s p = Some c -> c !! i = Some a -> origin e s rs p i a
(* A gap before something written behind the end of the file. *)
| og_gap p i : origin e s rs p i "000"%char
(* It was uploaded as the byte [i] of this object. *)
| og_put b k sc cl md body p i a : RPutObject b k sc cl md (Some body) ∈ rs -> get_object_path e b k = Some p ->
    carried body !! i = Some a -> origin e s rs p i a
(* It was uploaded as the byte [i] of this part. *)
| og_part u n body p i a : RUploadPart u n (Some body) ∈ rs -> part_path e u n = Some p -> carried body !! i = Some a -> origin e s rs p i a
(* It is the byte [i] of the metadata that came with the object. *)
| og_metadata b k sc cl m body p i a : RPutObject b k sc cl (Some m) (Some body) ∈ rs -> get_metadata_path e b k = Some p ->
    json_encode m !! i = Some a -> origin e s rs p i a
(* It is a copy of the byte [i] of the source. *)
| og_copy src b k sb sk p q i a : RCopyObject src b k ∈ rs -> copy_source_from_header_str src = Ok (sb, sk) ->
    get_object_path e sb sk = Some q -> get_object_path e b k = Some p -> origin e s rs q i a -> origin e s rs p i a
| og_copy_metadata src b k sb sk p q i a : RCopyObject src b k ∈ rs -> copy_source_from_header_str src = Ok (sb, sk) ->
    get_metadata_path e sb sk = Some q -> get_metadata_path e b k = Some p -> origin e s rs q i a -> origin e s rs p i a
(* It is a byte of one of the parts of which the object was made. *)
| og_complete b k u ps n p q i j a : RCompleteMultipartUpload b k u (Some ps) ∈ rs -> Some n ∈ ps ->
    part_path e u n = Some q -> get_object_path e b k = Some p -> origin e s rs q i a -> origin e s rs p j a.

(** ** Programs that only write bytes that they may *)

Section honest.
Context (G : path -> nat -> ascii -> Prop) (Hgap : forall p i, G p i "000"%char).

(* The bytes [b] may be at [off] of the file [p]. *)
Definition may (p : path) (off : nat) (b : bytes) : Prop := forall j a, b !! j = Some a -> G p (off + j) a.
Lemma may_nil p off : may p off [].
Proof. by intros j a Hj. Qed.
Lemma may_app p off b c : may p off (b ++ c) <-> may p off b /\ may p (off + length b) c.
Proof.
  split.
  - intros H. split; intros j a Hj.
    + apply H. by apply lookup_app_l_Some.
    + replace (off + length b + j) with (off + (length b + j)) by lia. apply H. rewrite lookup_app_r by lia. by replace (length b + j - length b) with j by lia.
  - intros [H1 H2] j a [Hj|[Hj Hl]]%lookup_app_Some; [by apply H1|]. replace (off + j) with (off + length b + (j - length b)) by lia. by apply H2.
Qed.

(* [H] gives the paths under which open files have been opened or created. *)
Fixpoint honest {A} (m : prog A) (H : gmap N path) (Q : A -> gmap N path -> Prop) {struct m} : Prop :=
  match m with
  | Ret a => forall H', H ⊆ H' -> Q a H'
  | Do c k =>
      match c in syscall R return (R -> prog A) -> Prop with
      | COpen p => fun k => forall H', H ⊆ H' -> honest (k None) H' Q /\ (forall d, honest (k (Some (HDir d))) H' Q) /\
          forall i, H' !! i = Some p -> honest (k (Some (HFile i))) H' Q
      | CCreate p => fun k => forall H', H ⊆ H' -> honest (k None) H' Q /\ forall i, H' !! i = Some p -> honest (k (Some i)) H' Q
      | CRead h off => fun k => forall H', H ⊆ H' -> honest (k None) H' Q /\
          forall i b, h = HFile i -> (forall p, H' !! i = Some p -> may p off b) -> honest (k (Some b)) H' Q
      | CWrite i off b => fun k => (exists p, H !! i = Some p /\ may p off b) /\ forall H' r, H ⊆ H' -> honest (k r) H' Q
      | _ => fun k => forall H' r, H ⊆ H' -> honest (k r) H' Q
      end k
  end.
Lemma honest_mono {A} (m : prog A) Q H H' : H ⊆ H' -> honest m H Q -> honest m H' Q.
Proof.
  revert H H'. induction m as [a|R c k IH]; intros H H' Hs; cbn [honest].
  - intros Hq H2 Hs2. apply Hq. by etransitivity.
  - destruct c; try (intros Hq H2 r Hs2; apply Hq; by etransitivity); try (intros Hq H2 Hs2; apply Hq; by etransitivity).
    intros ((p & Hp & Hm) & Hq). split; [exists p; split; [by eapply lookup_weaken|done]|]. intros H2 r Hs2. apply Hq. by etransitivity.
Qed.
Lemma honest_bind {A C} (m : prog A) (f : A -> prog C) Q H : honest m H (fun a H' => honest (f a) H' Q) -> honest (bind m f) H Q.
Proof.
  revert H. induction m as [a|R c k IH]; intros H; cbn [honest bind].
  - intros Hq. by apply Hq.
  - destruct c; try (intros Hq H2 r Hs2; by apply IH, Hq).
    + intros Hq H2 Hs2. destruct (Hq H2 Hs2) as (H3 & H4 & H5). split; [by apply IH|]. split; [intros d; by apply IH|]. intros i Hi. by apply IH, H5.
    + intros Hq H2 Hs2. destruct (Hq H2 Hs2) as (H3 & H4). split; [by apply IH|]. intros i b Hi Hb. apply IH. by eapply H4.
    + intros Hq H2 Hs2. destruct (Hq H2 Hs2) as (H3 & H4). split; [by apply IH|]. intros i Hi. by apply IH, H4.
    + intros (Hp & Hq). split; [done|]. intros H2 r Hs2. by apply IH, Hq.
Qed.
Lemma honest_impl {A} (m : prog A) (Q Q' : A -> gmap N path -> Prop) H : honest m H Q -> (forall a H', H ⊆ H' -> Q a H' -> Q' a H') -> honest m H Q'.
Proof.
  revert H. induction m as [a|R c k IH]; intros H Hm HQ; cbn [honest] in *.
  - intros H' Hs. apply HQ; [done|]. by apply Hm.
  - assert (Hk : forall r H', H ⊆ H' -> honest (k r) H' Q -> honest (k r) H' Q').
    { intros r H' Hs Hr. apply IH; [done|]. intros a H2 Hs2. apply HQ. by etransitivity. }
    destruct c; try (intros H2 r Hs2; apply Hk; [done|]; by apply Hm).
    + intros H2 Hs2. destruct (Hm H2 Hs2) as (H3 & H4 & H5). split; [by apply Hk|]. split; [intros d; by apply Hk|]. intros i Hi. apply Hk; [done|]. by apply H5.
    + intros H2 Hs2. destruct (Hm H2 Hs2) as (H3 & H4). split; [by apply Hk|]. intros i b Hi Hb. apply Hk; [done|]. by eapply H4.
    + intros H2 Hs2. destruct (Hm H2 Hs2) as (H3 & H4). split; [by apply Hk|]. intros i Hi. apply Hk; [done|]. by apply H4.
    + destruct Hm as (Hp & Hq). split; [done|]. intros H2 r Hs2. apply Hk; [done|]. by apply Hq.
Qed.
Lemma quiet_honest {A} (m : prog A) : quiet m -> forall H (Q : A -> gmap N path -> Prop), (forall a H', H ⊆ H' -> Q a H') -> honest m H Q.
Proof.
  induction m as [a|R c k IH]; intros Hm H Q HQ; cbn [honest]; [intros H' Hs; by apply HQ|].
  assert (Hr : forall r H', (match c with CWrite _ _ _ => False | _ => True end) -> H ⊆ H' -> honest (k r) H' Q).
  { intros r H' Hc Hs. apply IH; [destruct c; try done; apply Hm|]. intros a H2 Hs2. apply HQ. by etransitivity. }
  destruct c; try done; try (intros H' r Hs; by apply Hr); intros H' Hs; repeat split; intros; by apply Hr.
Qed.
Lemma honest_try_path {A} o (k : path -> prog (sres A)) H (Q : sres A -> gmap N path -> Prop) :
  (forall c H', H ⊆ H' -> Q (Err c) H') -> (forall p, o = Some p -> honest (k p) H Q) -> honest (try_path o k) H Q.
Proof. intros Hq Hk. destruct o; cbn; [by apply Hk|]. intros H' Hs. by apply Hq. Qed.
Lemma honest_try_io {A C} (m : prog (option A)) (k : A -> prog (sres C)) H (Q : sres C -> gmap N path -> Prop) :
  (forall c H', H ⊆ H' -> Q (Err c) H') -> honest m H (fun o H' => forall a, o = Some a -> honest (k a) H' Q) -> honest (try_io m k) H Q.
Proof.
  intros Hq Hm. apply honest_bind. eapply honest_impl; [exact Hm|]. intros [a|] H' Hs Hk; [by apply Hk|].
  intros H2 Hs2. apply Hq. by etransitivity.
Qed.
Lemma honest_try_res {A C} (m : prog (sres A)) (k : A -> prog (sres C)) H (Q : sres C -> gmap N path -> Prop) :
  (forall c H', H ⊆ H' -> Q (Err c) H') -> honest m H (fun o H' => forall a, o = Ok a -> honest (k a) H' Q) -> honest (try_res m k) H Q.
Proof.
  intros Hq Hm. apply honest_bind. eapply honest_impl; [exact Hm|]. intros [a|] H' Hs Hk; [by apply Hk|].
  intros H2 Hs2. apply Hq. by etransitivity.
Qed.

(* Where every byte of the store is one that may be there. *)
Record honoured (H : gmap N path) (s : fs) : Prop := Honoured {
  ho_wf : wf s;
  ho_node : forall p i, fs_nodes s !! p = Some (NFile i) -> H !! i = Some p;
  ho_data : forall i p, H !! i = Some p -> may p 0 (data_of s i);
  ho_next : forall i, is_Some (H !! i) -> (i < fs_next s)%N
}.

Lemma may_pwrite p c off b : may p 0 c -> may p off b -> may p 0 (pwrite c off b).
Proof.
  intros Hc Hb. unfold pwrite. rewrite !may_app. assert (Hz : forall n x, may p x (replicate n "000"%char)).
  { intros n x j a [-> _]%lookup_replicate. apply Hgap. }
  split_and!.
  - intros j a Hj. apply lookup_take_Some in Hj as [Hj _]. by apply Hc.
  - apply Hz.
  - destruct (decide (off <= length c)) as [Hl|Hl].
    + rewrite take_length_le, replicate_length by lia. by replace (0 + off + (off - length c)) with off by lia.
    + rewrite take_ge, replicate_length by lia. by replace (0 + length c + (off - length c)) with off by lia.
  - rewrite take_length, replicate_length. intros j a Hj. rewrite lookup_drop in Hj.
    replace (0 + _ `min` _ + _ + _ + j) with (0 + (off + length b + j)); [by apply Hc|]. apply lookup_lt_Some in Hj. lia.
Qed.
Lemma may_piece e p c off : may p 0 c -> may p off (piece e (drop off c)).
Proof.
  intros Hc. destruct (piece_prefix e (drop off c)) as [x Hx]. intros j a Hj.
  assert (drop off c !! j = Some a) as Hd by (rewrite Hx; by apply lookup_app_l_Some). rewrite lookup_drop in Hd. by apply (Hc (off + j)).
Qed.

Lemma honest_exec e {A R} (c : syscall R) (k : R -> prog A) Q H s s1 r :
  honoured H s -> honest (Do c k) H Q -> exec e c s = (s1, r) -> exists H', H ⊆ H' /\ honoured H' s1 /\ honest (k r) H' Q.
Proof.
  intros Hh Hm E. assert (Hwf1 : wf s1) by (change s1 with ((s1, r).1); rewrite <- E; by apply wf_exec, (ho_wf _ _ Hh)).
  assert (Hsub : forall (ns : gmap path node), (forall p i, ns !! p = Some (NFile i) -> fs_nodes s !! p = Some (NFile i)) ->
    wf (set_nodes s ns) -> honoured H (set_nodes s ns)).
  { intros ns Hns Hw. split; [done| |apply Hh|apply Hh]. intros p i Hp. by apply (ho_node _ _ Hh), Hns. }
  destruct c; cbn [honest] in Hm.
  all: try (assert (s1 = s) as -> by (cbn [exec] in E; try destruct h; congruence); exists H; split; [done|]; split; [done|]; by apply Hm).
  - (* COpen *) cbn [exec] in E. destruct (Hm H (reflexivity _)) as (H1 & H2 & H3). exists H. split; [done|].
    destruct (negb _); [by injection E as <- <-|]. destruct (fs_nodes s !! p) as [[|i]|] eqn:Hp; injection E as <- <-; split; try done.
    by apply H3, (ho_node _ _ Hh).
  - (* CRead *) cbn [exec] in E. destruct (Hm H (reflexivity _)) as (H1 & H2). exists H. split; [done|].
    destruct h as [d|i]; injection E as <- <-; split; try done. apply (H2 i); [done|]. intros p Hi. by apply may_piece, (ho_data _ _ Hh).
  - (* CCreate *) cbn [exec] in E. destruct (Hm H (reflexivity _)) as (H1 & H2).
    assert (Hsame : (s1, r) = (s, None) -> exists H', H ⊆ H' /\ honoured H' s1 /\ honest (k r) H' Q) by (intros [= -> ->]; by exists H).
    destruct (negb _); [by apply Hsame|]. destruct (fs_nodes s !! p) as [[|i]|] eqn:Hp; [by apply Hsame| |].
    + injection E as <- <-. exists H. split; [done|]. split; [|by apply H2, (ho_node _ _ Hh)]. split; [done|apply Hh| |apply Hh].
      intros j q Hj. unfold data_of. cbn. destruct (decide (i = j)) as [->|Hij]; [rewrite lookup_insert; apply may_nil|].
      rewrite lookup_insert_ne by done. by apply (ho_data _ _ Hh).
    + destruct (parent p) as [[q c]|]; [|by apply Hsame]. destruct (is_dir s q); [|by apply Hsame]. injection E as <- <-.
      assert (Hnew : H !! fs_next s = None).
      { destruct (H !! fs_next s) eqn:E1; [|done]. assert (fs_next s < fs_next s)%N by (apply (ho_next _ _ Hh); by eexists). lia. }
      exists (<[fs_next s := p]> H). assert (Hs : H ⊆ <[fs_next s := p]> H) by by apply insert_subseteq. split; [done|].
      split; [|apply Hm; [done|apply lookup_insert]]. split; [done| | |].
      * cbn. intros q' j Hq'. destruct (decide (p = q')) as [<-|Hne].
        -- rewrite lookup_insert in Hq'. injection Hq' as <-. apply lookup_insert.
        -- rewrite lookup_insert_ne in Hq' by done. eapply lookup_weaken; [|exact Hs]. by apply (ho_node _ _ Hh).
      * intros j q' Hj. unfold data_of. cbn. destruct (decide (fs_next s = j)) as [<-|Hij]; [rewrite lookup_insert; apply may_nil|].
        rewrite lookup_insert_ne in Hj by done. rewrite lookup_insert_ne by done. by apply (ho_data _ _ Hh).
      * cbn. intros i Hi. destruct (decide (fs_next s = i)) as [<-|Hne]; [lia|]. rewrite lookup_insert_ne in Hi by done.
        pose proof (ho_next _ _ Hh _ Hi). lia.
  - (* CWrite *) destruct Hm as ((p & Hp & Hb) & Hk). cbn [exec] in E. injection E as <- <-. exists H. split; [done|]. split; [|by apply Hk].
    split; [done|apply Hh| |apply Hh]. intros j q Hj. unfold data_of at 1. cbn. destruct (decide (ino = j)) as [<-|Hij].
    + rewrite lookup_insert. cbn. assert (q = p) as -> by congruence. apply may_pwrite; [by apply (ho_data _ _ Hh)|done].
    + rewrite lookup_insert_ne by done. by apply (ho_data _ _ Hh).
  - (* CMkdir *) exists H. split; [done|]. split; [|by apply Hm]. cbn [exec] in E. destruct (negb _); [by injection E as <- _|].
    destruct (fs_nodes s !! p) eqn:Hp; [by injection E as <- _|]. destruct (has_parent s p); [|by injection E as <- _]. injection E as <- _.
    apply Hsub; [|done]. intros q i Hq. destruct (decide (p = q)) as [<-|Hne]; [by rewrite lookup_insert in Hq|]. by rewrite lookup_insert_ne in Hq.
  - (* CUnlink *) exists H. split; [done|]. split; [|by apply Hm]. cbn [exec] in E. destruct (e_os_ok e p); [|by injection E as <- _].
    destruct (fs_nodes s !! p) as [[|i]|]; [by injection E as <- _| |by injection E as <- _]. injection E as <- _.
    apply Hsub; [|done]. by intros q j [_ Hq]%lookup_delete_Some.
  - (* CRmdir *) exists H. split; [done|]. split; [|by apply Hm]. cbn [exec] in E. destruct (e_os_ok e p); [|by injection E as <- _].
    destruct (fs_nodes s !! p) as [[|i]|]; [|by injection E as <- _|by injection E as <- _]. destruct (bool_decide _); [|by injection E as <- _]. injection E as <- _.
    apply Hsub; [|done]. by intros q j [_ Hq]%lookup_delete_Some.
Qed.
Lemma honest_fail {A R} (c : syscall R) (k : R -> prog A) Q H : honest (Do c k) H Q -> honest (k (fail_of c)) H Q.
Proof. destruct c; cbn [honest fail_of]; intros Hm; by apply Hm. Qed.

Lemma honest_psteps e {A} s (ms : list (prog A)) s' ms' : psteps e s ms s' ms' -> forall H (Qs : list (A -> gmap N path -> Prop)), honoured H s ->
  Forall2 (fun m Q => honest m H Q) ms Qs -> exists H', H ⊆ H' /\ honoured H' s' /\ Forall2 (fun m Q => honest m H' Q) ms' Qs.
Proof.
  induction 1 as [s ms|s ms i m s1 m1 s2 ms2 Hi Hst Hps IH]; intros H Qs Hh Hf; [by exists H|].
  destruct (Forall2_lookup_l _ _ _ _ _ Hf Hi) as (Q & HQ & Hm).
  assert (Hgo : exists H', H ⊆ H' /\ honoured H' s1 /\ honest m1 H' Q).
  { destruct m as [a|R c k]; [done|]. destruct Hst as [Hst|Hst].
    - destruct (exec e c s) as [s3 r] eqn:E. injection Hst as -> ->. by eapply honest_exec.
    - injection Hst as -> ->. exists H. split; [done|]. split; [done|]. by apply honest_fail. }
  destruct Hgo as (H1 & Hs1 & Hh1 & Hm1). destruct (IH H1 Qs Hh1) as (H2 & Hs2 & Hh2 & Hf2).
  - rewrite <- (list_insert_id Qs i Q HQ). apply Forall2_insert; [|done]. eapply Forall2_impl; [exact Hf|]. intros m2 Q2. by apply honest_mono.
  - exists H2. split; [by etransitivity|done].
Qed.

(** ** Parts of requests *)

Lemma honest_write (i : N) p ps : forall H off (Q : option nat -> gmap N path -> Prop), H !! i = Some p -> may p off (concat ps) ->
  (forall H', H ⊆ H' -> Q (Some (off + length (concat ps))) H') -> (forall H', H ⊆ H' -> Q None H') -> honest (write_pieces i off ps) H Q.
Proof.
  induction ps as [|b ps IH]; intros H off Q Hi Hb HS HN; cbn [write_pieces].
  - cbn in *. intros H' Hs. rewrite Nat.add_0_r in HS. by apply HS.
  - cbn [concat] in *. rewrite app_length in HS. apply may_app in Hb as [Hb Hb']. cbn [call bind honest]. split; [by exists p|].
    intros H' [u|] Hs; [|intros H2 Hs2; apply HN; by etransitivity]. apply IH; [by eapply lookup_weaken|done| |].
    + intros H2 Hs2. replace (off + length b + length (concat ps)) with (off + (length b + length (concat ps))) by lia. apply HS. by etransitivity.
    + intros H2 Hs2. apply HN. by etransitivity.
Qed.
Lemma honest_copy_bytes e (i : N) p body : forall H off (Q : option nat -> gmap N path -> Prop), H !! i = Some p -> may p off (body_data body) ->
  (forall o H', H ⊆ H' -> Q o H') -> honest (copy_bytes e i off body) H Q.
Proof.
  induction body as [|[b|] body IH]; intros H off Q Hi Hb HQ; cbn [copy_bytes].
  - intros H' Hs. by apply HQ.
  - cbn [body_data] in Hb. apply may_app in Hb as [Hb Hb']. apply honest_bind, (honest_write i p); [done|by rewrite e_chop_concat| |].
    + rewrite e_chop_concat. intros H' Hs. apply IH; [by eapply lookup_weaken|done|]. intros o H2 Hs2. apply HQ. by etransitivity.
    + intros H' Hs H2 Hs2. apply HQ. by etransitivity.
  - intros H' Hs. by apply HQ.
Qed.
Lemma honest_transfer e n i p j q : forall H roff woff (Q : option nat -> gmap N path -> Prop), H !! i = Some p -> H !! j = Some q ->
  (forall x a, G p (roff + x) a -> G q (woff + x) a) -> (forall o H', H ⊆ H' -> Q o H') -> honest (transfer e n (HFile i) roff j woff) H Q.
Proof.
  induction n as [|n IH]; intros H roff woff Q Hi Hj Hg HQ; cbn [transfer]; [intros H' Hs; by apply HQ|].
  cbn [call bind honest]. intros H1 Hs1. split; [intros H2 Hs2; apply HQ; by etransitivity|].
  intros i' [|a b] [= <-] Hb; [intros H2 Hs2; apply HQ; by etransitivity|].
  assert (Hi1 : H1 !! i = Some p) by by eapply lookup_weaken. assert (Hj1 : H1 !! j = Some q) by by eapply lookup_weaken.
  specialize (Hb p Hi1). apply honest_bind, (honest_write j q); [done| | |].
  - rewrite e_chop_concat. intros x c Hx. by apply Hg, Hb.
  - rewrite e_chop_concat. intros H2 Hs2. apply IH; [by eapply lookup_weaken|by eapply lookup_weaken| |].
    + intros x c. rewrite <- !Nat.add_assoc. apply Hg.
    + intros o H3 Hs3. apply HQ. etransitivity; [exact Hs1|]. by etransitivity.
  - intros H2 Hs2 H3 Hs3. apply HQ. etransitivity; [exact Hs1|]. by etransitivity.
Qed.
Lemma honest_transfer_dir e n d j roff woff H (Q : option nat -> gmap N path -> Prop) :
  (forall o H', H ⊆ H' -> Q o H') -> honest (transfer e n (HDir d) roff j woff) H Q.
Proof.
  intros HQ. destruct n as [|n]; cbn [transfer call bind honest]; [intros H' Hs; by apply HQ|].
  intros H1 Hs1. split; [|done]. intros H2 Hs2. apply HQ. by etransitivity.
Qed.
End honest.

(** ** Every request *)

Section requests.
Context (e : env) (s0 : fs) (rs : list s_req).
Notation G := (origin e s0 rs).

Lemma honest_append p q (j : N) H off (Q : option nat -> gmap N path -> Prop) : H !! j = Some q -> (forall x y a, G p x a -> G q y a) ->
  (forall o H', H ⊆ H' -> Q o H') -> honest G (append_file e p j off) H Q.
Proof.
  intros Hj Hg HQ. unfold append_file. cbn [call bind honest]. intros H1 Hs1. assert (HQ1 : forall o H', H1 ⊆ H' -> Q o H').
  { intros o H' Hs. apply HQ. by etransitivity. }
  split; [by apply HQ1|]. split.
  - intros d H2 n Hs2. apply honest_transfer_dir. intros o H3 Hs3. apply HQ1. by etransitivity.
  - intros i Hi H2 n Hs2. assert (Hs12 : H ⊆ H2) by by etransitivity.
    apply (honest_transfer _ e n i p j q); [by eapply lookup_weaken|by eapply lookup_weaken|intros x a; apply Hg|]. intros o H3 Hs3. apply HQ1. by etransitivity.
Qed.
Lemma honest_copy_file p q H (Q : option unit -> gmap N path -> Prop) : (forall x a, G p x a -> G q x a) ->
  (forall o H', H ⊆ H' -> Q o H') -> honest G (copy_file e p q) H Q.
Proof.
  intros Hg HQ. unfold copy_file. cbn [call bind honest]. intros H1 Hs1. assert (HQ1 : forall o H', H1 ⊆ H' -> Q o H').
  { intros o H' Hs. apply HQ. by etransitivity. }
  split; [by apply HQ1|]. split; [intros d; by apply HQ1|]. intros i Hi. intros H2 Hs2. assert (HQ2 : forall o H', H2 ⊆ H' -> Q o H').
  { intros o H' Hs. apply HQ1. by etransitivity. }
  split; [by apply HQ2|]. intros j Hj. intros H3 n Hs3. apply honest_bind. assert (H1 ⊆ H3) by by etransitivity.
  apply (honest_transfer _ e n i p j q); [by eapply lookup_weaken|by eapply lookup_weaken|done|].
  intros [w|] H4 Hs4 H5 Hs5; apply HQ2; (etransitivity; [exact Hs3|by etransitivity]).
Qed.
Lemma honest_write_file q b H (Q : option unit -> gmap N path -> Prop) : may G q 0 b ->
  (forall o H', H ⊆ H' -> Q o H') -> honest G (write_file e q b) H Q.
Proof.
  intros Hb HQ. unfold write_file. cbn [call bind honest]. intros H1 Hs1. assert (HQ1 : forall o H', H1 ⊆ H' -> Q o H').
  { intros o H' Hs. apply HQ. by etransitivity. }
  split; [by apply HQ1|]. intros i Hi. apply honest_bind, (honest_write _ i q); [done|by rewrite e_chop_concat| |]; intros H2 Hs2 H3 Hs3; apply HQ1; by etransitivity.
Qed.

(* What the answer [a] to the request [r] has opened. *)
Definition opened (r : s_req) (a : sres s_ans) (H : gmap N path) : Prop :=
  forall b k x p i off lim len md tag, r = RGetObject b k x -> get_object_path e b k = Some p -> a = Ok (AGet (HFile i) off lim len md tag) -> H !! i = Some p.

Lemma opened_other r a H : (forall b k x, r <> RGetObject b k x) -> opened r a H.
Proof. intros Hr b k x p i off lim len md tag E. by destruct (Hr b k x). Qed.

Lemma honest_parts u b k q ps : RCompleteMultipartUpload b k u (Some ps) ∈ rs -> get_object_path e b k = Some q ->
  forall ps', (forall n, Some n ∈ ps' -> Some n ∈ ps) -> forall (j : N) H off cnt (Q : sres nat -> gmap N path -> Prop), H !! j = Some q ->
  (forall o H', H ⊆ H' -> Q o H') -> honest G (append_parts e u j off cnt ps') H Q.
Proof.
  intros Hr Hq. induction ps' as [|[n|] ps' IH]; intros Hps j H off cnt Q Hj HQ; cbn [append_parts]; [intros H' Hs; by apply HQ| |intros H' Hs; by apply HQ].
  destruct (negb _); [intros H' Hs; by apply HQ|]. apply honest_try_path; [by intros; apply HQ|]. intros p Hp. apply honest_try_io; [by intros; apply HQ|].
  apply (honest_append p q); [done| |].
  { intros x y a Ha. eapply (og_complete e s0 rs b k u ps n q p x y a); try done. apply Hps. by left. }
  intros o H1 Hs1 off' _. apply honest_try_io; [intros c H' Hs; apply HQ; by etransitivity|]. cbn [call honest]. intros H2 v Hs2 H3 Hs3 [] _.
  assert (H ⊆ H3) by (etransitivity; [exact Hs1|by etransitivity]).
  apply IH; [intros m Hm; apply Hps; by right|by eapply lookup_weaken|]. intros o' H4 Hs4. apply HQ. by etransitivity.
Qed.

Lemma honest_get b k x H : honest G (get_object e b k x) H (opened (RGetObject b k x)).
Proof.
  assert (Herr : forall c H, opened (RGetObject b k x) (Err c) H) by by intros c H' ? ? ? ? ? ? ? ? ? ?.
  unfold get_object. apply honest_try_path; [done|]. intros p Hp.
  assert (Hgo : forall r, honest G (bind (call (COpen p)) (fun o =>
        match o with
        | None => Ret (Err NoSuchKey)
        | Some h =>
            try_io (call (CLen h)) (fun file_len =>
            try_res (get_extent h r file_len) (fun ol =>
            try_io (load_metadata e b k) (fun md =>
            try_io (get_md5_sum e b k) (fun tag =>
              if (ol.2 <=? i64_max)%N then Ret (Ok (AGet h ol.1 ol.2 ol.2 md tag))
              else Ret (Err InternalError)))))
        end)) H (opened (RGetObject b k x))); [|destruct x as [str|]; [destruct (range_from_header_str str)|]; try done; apply Hgo].
  intros r. cbn [call bind honest]. intros H1 Hs1.
  assert (Hrest : forall h H2, (forall i, h = HFile i -> H2 !! i = Some p) -> honest G (try_io (call (CLen h)) (fun file_len =>
            try_res (get_extent h r file_len) (fun ol =>
            try_io (load_metadata e b k) (fun md =>
            try_io (get_md5_sum e b k) (fun tag =>
              if (ol.2 <=? i64_max)%N then Ret (Ok (AGet h ol.1 ol.2 ol.2 md tag))
              else Ret (Err InternalError)))))) H2 (opened (RGetObject b k x))).
  { intros h H2 Hh. apply honest_try_io; [done|]. apply quiet_honest; [cbn; done|]. intros o H3 Hs3 len _.
    apply honest_try_res; [done|]. apply quiet_honest; [unfold get_extent; quiet|]. intros o' H4 Hs4 ol _.
    apply honest_try_io; [done|]. apply quiet_honest; [apply quiet_load|]. intros o2 H5 Hs5 md _.
    apply honest_try_io; [done|]. apply quiet_honest; [apply quiet_md5|]. intros o3 H6 Hs6 tag _.
    destruct (_ <=? _)%N; [|done]. intros H7 Hs7 b' k' x' p' i off lim len' md' tag' [= <- <- <-] Hp' [= -> _ _ _ _ _].
    assert (p' = p) as -> by congruence. assert (H2 ⊆ H7) by (do 4 (etransitivity; [eassumption|]); done). eapply lookup_weaken; [by apply Hh|done]. }
  split; [done|]. split; [intros d; by apply Hrest|]. intros i Hi. apply Hrest. by intros ? [= <-].
Qed.

Lemma honest_storage r H : r ∈ rs -> honest G (storage e r) H (opened r).
Proof.
  intros Hr. destruct r; cbn [storage]; try (apply quiet_honest; [|intros a H' _; by apply opened_other];
    unfold create_bucket, delete_bucket, delete_object, delete_objects, get_bucket_location, get_object, head_bucket, head_object, list_buckets, list_objects, create_multipart_upload; quiet;
    auto using quiet_read_file, quiet_load, quiet_md5, quiet_remove, quiet_list_queue, quiet_buckets, quiet_existing, quiet_remove_objects; fail).
  all: try apply honest_get.
  all: match goal with |- honest _ _ _ (opened ?r) => eapply (honest_impl _ _ (fun _ _ => True)); [|intros a H' _ _; by apply opened_other] end.
  - (* CopyObject *) unfold copy_object. destruct (copy_source_from_header_str _) as [[sb sk]|] eqn:Hsrc; [|done].
    apply honest_try_path; [done|]. intros p Hp. apply honest_try_path; [done|]. intros q Hq. apply honest_try_io; [done|].
    cbn [call honest]. intros H1 o1 Hs1 H2 Hs2 u1 _. apply honest_try_io; [done|]. apply honest_copy_file.
    { intros x a Ha. by eapply og_copy. }
    intros o2 H3 Hs3 u2 _. apply honest_try_path; [done|]. intros p' Hp'. cbn [call bind honest]. intros H4 ex Hs4.
    assert (Hend : forall H, honest G (try_io (get_md5_sum e sb sk) (fun tag => Ret (Ok (ACopy tag)))) H (fun _ _ => True)).
    { intros H5. apply quiet_honest; [|done]. quiet; auto using quiet_md5. }
    apply honest_try_io; [done|]. destruct ex; [|intros H5 Hs5 u3 _; apply Hend]. destruct (get_metadata_path e bucket key) as [q'|] eqn:Hq'; [|done].
    apply honest_copy_file; [|intros o5 H5 Hs5 u3 _; apply Hend]. intros x a Ha. by eapply og_copy_metadata.
  - (* PutObject *) unfold put_object. destruct (negb _); [done|]. destruct body as [body|]; [|done]. destruct (ends_with_char _ _).
    { apply quiet_honest; [|done]. quiet. apply quiet_create_dir_all. }
    apply honest_try_path; [done|]. intros p Hp. apply honest_try_io; [done|]. apply quiet_honest.
    { destruct (parent p) as [[q c]|]; [apply quiet_create_dir_all|done]. }
    intros o1 H1 Hs1 u1 _. apply honest_try_io; [done|]. cbn [call honest]. intros H2 Hs2. split; [done|]. intros i Hi H3 Hs3 i' [= <-].
    apply honest_try_io; [done|]. apply (honest_copy_bytes _ e i p); [by eapply lookup_weaken| |].
    { intros j a Hj. rewrite body_data_carried in Hj. by eapply og_put. }
    intros o4 H4 Hs4 u4 _. apply honest_try_io; [done|]. destruct md as [m|]; [|done]. unfold save_metadata.
    destruct (get_metadata_path e bucket key) as [q|] eqn:Hq; [|done]. apply honest_write_file; [|done]. intros j a Hj. by eapply og_metadata.
  - (* UploadPart *) unfold upload_part. destruct body as [body|]; [|done].
    apply honest_try_path; [done|]. intros p Hp. apply honest_try_io; [done|]. cbn [call honest]. intros H2 Hs2. split; [done|]. intros i Hi H3 Hs3 i' [= <-].
    apply honest_try_io; [done|]. apply (honest_copy_bytes _ e i p); [by eapply lookup_weaken| |done].
    intros j a Hj. rewrite body_data_carried in Hj. by eapply og_part.
  - (* CompleteMultipartUpload *) unfold complete_multipart_upload. destruct parts as [ps|]; [|done].
    apply honest_try_path; [done|]. intros p Hp. apply honest_try_io; [done|]. cbn [call honest]. intros H2 Hs2. split; [done|]. intros i Hi H3 Hs3 i' [= <-].
    apply honest_try_res; [done|]. eapply (honest_parts upload_id bucket key p ps); [done|done|done|by eapply lookup_weaken|].
    intros o4 H4 Hs4 off _. apply quiet_honest; [|done]. quiet; auto using quiet_md5.
Qed.

Lemma honest_stream fuel : forall h p off lim H (Q : list frame -> gmap N path -> Prop), (forall i, h = HFile i -> H !! i = Some p) ->
  (forall fs H', H ⊆ H' -> may G p off (carried fs) -> Q fs H') -> honest G (stream_file fuel h off lim) H Q.
Proof.
  induction fuel as [|fuel IH]; intros h p off lim H Q Hh HQ; cbn [stream_file].
  - intros H' Hs. by apply HQ.
  - cbn [call bind honest]. intros H1 Hs1. split; [intros H2 Hs2; apply HQ; [by etransitivity|done]|]. intros i b -> Hb.
    assert (Hi : H1 !! i = Some p) by (eapply lookup_weaken; [by apply Hh|done]). specialize (Hb p Hi).
    remember (length b `min` (lim `min` 4096)) as n eqn:En. destruct n as [|n]; [intros H2 Hs2; apply HQ; [by etransitivity|done]|].
    apply honest_bind, (IH _ p).
    { intros ? [= <-]. done. }
    intros fs H2 Hs2 Hfs H3 Hs3. apply HQ; [etransitivity; [exact Hs1|by etransitivity]|]. cbn [carried]. apply may_app. split.
    + intros j a Hj. apply lookup_take_Some in Hj as [Hj _]. by apply Hb.
    + rewrite take_length. by replace (S n `min` length b) with (S n) by lia.
Qed.

Lemma quiet_stream fuel : forall h off lim, quiet (stream_file fuel h off lim).
Proof. induction fuel as [|fuel IH]; intros h off lim; cbn [stream_file]; quiet. Qed.

(* What may be said about the answer [a] to [r] and the bytes [fs] sent for it. *)
Definition sent (r : s_req) (a : sres s_ans * list frame) : Prop :=
  forall b k x p h off lim len md tag, r = RGetObject b k x -> get_object_path e b k = Some p -> a.1 = Ok (AGet h off lim len md tag) ->
  may G p (N.to_nat off) (carried a.2).

Lemma honest_deliver r H : r ∈ rs -> honest G (deliver e r) H (fun a _ => sent r a).
Proof.
  intros Hr. unfold deliver. apply honest_bind. eapply honest_impl; [by apply honest_storage|]. intros a H1 Hs1 Ho.
  assert (Hno : sent r (a, [])) by (intros b k x p h off lim len md tag _ _ _; apply may_nil).
  destruct a as [[| | |h off lim len md tag| | | | | | |]|]; try done.
  assert (Hc : (exists b k x p, r = RGetObject b k x /\ get_object_path e b k = Some p) \/ ~ exists b k x p, r = RGetObject b k x /\ get_object_path e b k = Some p).
  { destruct r; try (right; by intros (? & ? & ? & ? & ? & ?)). destruct (get_object_path e bucket key) as [p|] eqn:Hp; [left; by eexists _, _, _, p|].
    right. intros (? & ? & ? & ? & [= <- <- <-] & ?). congruence. }
  destruct Hc as [(b & k & x & p & -> & Hp)|Hn].
  - apply honest_bind, (honest_stream _ h p).
    + intros i ->. by eapply Ho.
    + intros fs H2 Hs2 Hfs H3 Hs3 b' k' x' p' h' off' lim' len' md' tag' [= <- <- <-] Hp' [= <- <- _ _ _ _]. assert (p' = p) as -> by congruence. done.
  - apply quiet_honest.
    + apply quiet_bind; [apply quiet_stream|done].
    + intros fs H2 Hs2. intros b k x p ? ? ? ? ? ? Hr' Hp. exfalso. apply Hn. by exists b, k, x, p.
Qed.
End requests.

Lemma paths (m : gmap path node) : (forall p q i, m !! p = Some (NFile i) -> m !! q = Some (NFile i) -> p = q) ->
  exists H : gmap N path, forall (p : path) (i : N), H !! i = Some p <-> m !! p = Some (NFile i).
Proof.
  induction m as [|p n m Hp IH] using map_ind; intros Hinj.
  - exists ∅. intros p i. by rewrite !lookup_empty.
  - destruct IH as [H HH].
    { intros p' q' i Hp' Hq'. apply (Hinj p' q' i); rewrite lookup_insert_ne; try done; intros ->; congruence. }
    destruct n as [|i].
    + exists H. intros q j. rewrite HH. destruct (decide (p = q)) as [<-|Hne].
      * rewrite lookup_insert, Hp. split; congruence.
      * by rewrite lookup_insert_ne.
    + exists (<[i := p]> H). intros q j. destruct (decide (p = q)) as [<-|Hne].
      * rewrite lookup_insert. destruct (decide (i = j)) as [<-|Hij]; [by rewrite lookup_insert|]. rewrite lookup_insert_ne by done. rewrite HH, Hp.
        split; congruence.
      * rewrite (lookup_insert_ne _ p q) by done. destruct (decide (i = j)) as [<-|Hij]; [|rewrite lookup_insert_ne by done; apply HH].
        rewrite lookup_insert. split; [congruence|]. intros Hq. exfalso. apply Hne, (Hinj p q i); [apply lookup_insert|by rewrite lookup_insert_ne].
Qed.
Lemma honoured_start e s rs : wf s -> exists H, honoured (origin e s rs) H s.
Proof.
  intros Hwf. destruct (paths (fs_nodes s) (wf_inj _ Hwf)) as [H HH]. exists H. split; [done|intros p i Hp; by apply HH| |].
  - intros i p Hp%HH j a Hj. apply (og_kept _ _ _ p (data_of s i)); [|done]. unfold content. by rewrite Hp.
  - intros i [p Hp%HH]. by eapply wf_next.
Qed.

Lemma origins e s rs s' ms' : wf s -> psteps e s (deliver e <$> rs) s' ms' ->
  exists H, honoured (origin e s rs) H s' /\ Forall2 (fun m r => honest (origin e s rs) m H (fun a _ => sent e s rs r a)) ms' rs.
Proof.
  intros Hwf Hst. destruct (honoured_start e s rs Hwf) as [H Hh].
  destruct (honest_psteps (origin e s rs) (og_gap e s rs) e s _ s' ms' Hst H ((fun r a _ => sent e s rs r a) <$> rs) Hh) as (H' & _ & Hh' & Hf).
  - apply Forall2_fmap, Forall_Forall2_diag, Forall_forall. intros r Hr. by apply honest_deliver.
  - exists H'. split; [done|]. by apply Forall2_fmap_r in Hf.
Qed.

(** C97: Whatever requests are handled at the same time, however their steps interleave, wherever they stop and whichever calls fail:
    every byte of every file is one that was there, or that a request brought to this position of this file, or a copy, or a zero in a gap, ... *)
Theorem C97_origin e s rs s' ms' p c i a :
  wf s -> psteps e s (deliver e <$> rs) s' ms' -> content s' p = Some c -> c !! i = Some a -> origin e s rs p i a.
Proof.
  intros Hwf Hst Hc Hi. destruct (origins e s rs s' ms' Hwf Hst) as (H & Hh & _). unfold content in Hc.
  destruct (fs_nodes s' !! p) as [[|n]|] eqn:Hp; try done. injection Hc as <-. by apply (ho_data _ _ _ Hh n p (ho_node _ _ _ Hh p n Hp) i a).
Qed.
Print Assumptions C97_origin.

(** ... and so is every byte of every download, at the position where it belongs. *)
Theorem C97_download e s rs s' ms' t b k x p h off lim len md tag fs j a :
  wf s -> psteps e s (deliver e <$> rs) s' ms' ->
  rs !! t = Some (RGetObject b k x) -> get_object_path e b k = Some p ->
  ms' !! t = Some (Ret (Ok (AGet h off lim len md tag), fs)) ->
  carried fs !! j = Some a -> origin e s rs p (N.to_nat off + j) a.
Proof.
  intros Hwf Hst Hr Hp Ht Hj. destruct (origins e s rs s' ms' Hwf Hst) as (H & _ & Hf).
  pose proof (Forall2_lookup_lr _ _ _ _ _ _ Hf Ht Hr) as Hs. cbn [honest] in Hs. specialize (Hs H (reflexivity _)).
  by apply (Hs b k x p h off lim len md tag eq_refl Hp eq_refl).
Qed.
Print Assumptions C97_download.

(** ** Nothing leaks *)

(* What [r] puts into the files of [D] satisfies [P], or is already there. *)
Definition confined (e : env) (D : path -> Prop) (P : ascii -> Prop) (r : s_req) : Prop :=
  match r with
  | RPutObject b k _ _ md (Some body) =>
      (forall p, get_object_path e b k = Some p -> D p -> Forall P (carried body)) /\
      (forall p m, get_metadata_path e b k = Some p -> D p -> md = Some m -> Forall P (json_encode m))
  | RUploadPart u n (Some body) => forall p, part_path e u n = Some p -> D p -> Forall P (carried body)
  | RCopyObject src b k =>
      forall sb sk, copy_source_from_header_str src = Ok (sb, sk) ->
      (forall p q, get_object_path e b k = Some p -> D p -> get_object_path e sb sk = Some q -> D q) /\
      (forall p q, get_metadata_path e b k = Some p -> D p -> get_metadata_path e sb sk = Some q -> D q)
  | RCompleteMultipartUpload b k u (Some ps) => forall p q n, get_object_path e b k = Some p -> D p -> Some n ∈ ps -> part_path e u n = Some q -> D q
  | _ => True
  end.

Lemma origin_confined e s rs (D : path -> Prop) (P : ascii -> Prop) p i a : P "000"%char -> (forall p c, D p -> content s p = Some c -> Forall P c) ->
  Forall (confined e D P) rs -> origin e s rs p i a -> D p -> P a.
Proof.
  intros Hz Hs Hrs. rewrite Forall_forall in Hrs. induction 1 as
    [p c i a Hc Hi|p i|b k sc cl md body p i a Hr Hp Hi|u n body p i a Hr Hp Hi|b k sc cl m body p i a Hr Hp Hi
    |src b k sb sk p q i a Hr Hsrc Hq Hp Ho IH|src b k sb sk p q i a Hr Hsrc Hq Hp Ho IH|b k u ps n p q i j a Hr Hn Hq Hp Ho IH]; intros HD.
  - eapply Forall_lookup_1; [by eapply Hs|done].
  - done.
  - destruct (Hrs _ Hr) as [H1 _]. eapply Forall_lookup_1; [by eapply H1|done].
  - pose proof (Hrs _ Hr) as H1. eapply Forall_lookup_1; [by eapply H1|done].
  - destruct (Hrs _ Hr) as [_ H1]. eapply Forall_lookup_1; [by eapply H1|done].
  - destruct (Hrs _ Hr _ _ Hsrc) as [H1 _]. by eapply IH, H1.
  - destruct (Hrs _ Hr _ _ Hsrc) as [_ H1]. by eapply IH, H1.
  - pose proof (Hrs _ Hr) as H1. by eapply IH, H1.
Qed.

(** A kind of bytes that is neither in the files [D] nor is brought to them by a request never gets there; no download of such a file
    shows it, whatever other files contain and other requests bring. *)
Theorem C97_confined e s rs s' ms' (D : path -> Prop) (P : ascii -> Prop) :
  wf s -> psteps e s (deliver e <$> rs) s' ms' ->
  P "000"%char -> (forall p c, D p -> content s p = Some c -> Forall P c) -> Forall (confined e D P) rs ->
  (forall p c, D p -> content s' p = Some c -> Forall P c) /\
  (forall t b k x p h off lim len md tag fs, rs !! t = Some (RGetObject b k x) -> get_object_path e b k = Some p -> D p ->
    ms' !! t = Some (Ret (Ok (AGet h off lim len md tag), fs)) -> Forall P (carried fs)).
Proof.
  intros Hwf Hst Hz Hs Hrs. split.
  - intros p c HD Hc. apply Forall_lookup. intros i a Hi. eapply origin_confined; [done|exact Hs|exact Hrs| |done]. by eapply C97_origin.
  - intros t b k x p h off lim len md tag fs Hr Hp HD Ht. apply Forall_lookup. intros j a Hj.
    eapply origin_confined; [done|exact Hs|exact Hrs| |done]. by eapply C97_download.
Qed.
Print Assumptions C97_confined.

(** ** Mixtures *)

(* Does [r] write to [p] other than by uploading an object? *)
Definition uploads_only (e : env) (p : path) (r : s_req) : Prop :=
  match r with
  | RPutObject b k _ _ (Some _) _ => get_metadata_path e b k <> Some p
  | RCopyObject _ b k => get_object_path e b k <> Some p /\ get_metadata_path e b k <> Some p
  | RUploadPart u n _ => part_path e u n <> Some p
  | RCompleteMultipartUpload b k _ _ => get_object_path e b k <> Some p
  | _ => True
  end.

(** A download of an object that is being uploaded may be a mixture, but every byte is the byte of the old object or of one of the uploads
    at the same position, or a zero. *)
Theorem C97_mixture e s rs s' ms' t b k x p h off lim len md tag fs j a :
  wf s -> psteps e s (deliver e <$> rs) s' ms' ->
  rs !! t = Some (RGetObject b k x) -> get_object_path e b k = Some p ->
  ms' !! t = Some (Ret (Ok (AGet h off lim len md tag), fs)) ->
  Forall (uploads_only e p) rs -> carried fs !! j = Some a ->
  (exists c, content s p = Some c /\ c !! (N.to_nat off + j) = Some a) \/
  (exists b' k' sc cl md' body, RPutObject b' k' sc cl md' (Some body) ∈ rs /\ get_object_path e b' k' = Some p /\ carried body !! (N.to_nat off + j) = Some a) \/
  a = "000"%char.
Proof.
  intros Hwf Hst Hr Hp Ht Hu Hj. rewrite Forall_forall in Hu. pose proof (C97_download e s rs s' ms' t b k x p h off lim len md tag fs j a Hwf Hst Hr Hp Ht Hj) as Ho.
  remember (N.to_nat off + j) as i eqn:Ei. clear Ei. destruct Ho as [p c i a Hc Hi|p i|b' k' sc cl md' body p i a Hr' Hp' Hi|u n body p i a Hr' Hp' Hi|b' k' sc cl m body p i a Hr' Hp' Hi
    |src b' k' sb sk p q i a Hr' Hsrc Hq Hp' Ho|src b' k' sb sk p q i a Hr' Hsrc Hq Hp' Ho|b' k' u ps n p q i i' a Hr' Hn Hq Hp' Ho].
  - left. by exists c.
  - by right; right.
  - right; left. by exists b', k', sc, cl, md', body.
  - by destruct (Hu _ Hr').
  - by destruct (Hu _ Hr').
  - by destruct (Hu _ Hr').
  - by destruct (Hu _ Hr').
  - by destruct (Hu _ Hr').
Qed.
Print Assumptions C97_mixture.

(** ** Alone *)

Lemma run_stream e s i fuel : forall off lim, lim < fuel ->
  exists fs, run e (stream_file fuel (HFile i) off lim) s = (s, fs) /\ carried fs = take lim (drop off (data_of s i)) /\ broken fs = false.
Proof.
  induction fuel as [|fuel IH]; intros off lim Hlim; [lia|]. cbn [stream_file]. rewrite run_bind, run_call. cbn [exec].
  remember (piece e (drop off (data_of s i))) as b eqn:Eb. remember (length b `min` (lim `min` 4096)) as n eqn:En. cbv beta iota zeta.
  assert (Hb : exists r, drop off (data_of s i) = b ++ r) by (rewrite Eb; apply piece_prefix). destruct Hb as [r Hb].
  destruct n as [|n].
  - exists []. split; [done|]. split; [|done]. cbn [carried]. destruct lim as [|lim]; [done|]. destruct b as [|a b]; [|cbn in En; lia].
    by rewrite (piece_nil e _ (eq_sym Eb)).
  - rewrite run_bind. destruct (IH (off + S n) (lim - S n)) as (fs & -> & Hc & Hbr); [lia|]. cbv beta iota. cbn [run].
    exists (FData (take (S n) b) :: fs). split; [done|]. split; [|done]. cbn [carried]. rewrite Hc, <- drop_drop, Hb.
    rewrite <- (take_app_le b r (S n)) by lia. rewrite take_take_drop. by replace (S n + (lim - S n)) with lim by lia.
Qed.

(** A download while nothing else happens is the announced extent of the file as it is. *)
Theorem C97_alone e s r s1 i off lim len md tag :
  run e (storage e r) s = (s1, Ok (AGet (HFile i) off lim len md tag)) ->
  exists fs, run e (deliver e r) s = (s1, (Ok (AGet (HFile i) off lim len md tag), fs)) /\
    carried fs = take (N.to_nat lim) (drop (N.to_nat off) (data_of s1 i)) /\ broken fs = false.
Proof.
  intros Hr. unfold deliver. rewrite run_bind, Hr. cbv beta iota. rewrite run_bind.
  destruct (run_stream e s1 i (S (N.to_nat lim)) (N.to_nat off) (N.to_nat lim)) as (fs & -> & Hc & Hb); [lia|]. by exists fs.
Qed.
Print Assumptions C97_alone.

(** ** Examples *)

Definition ex_old : fs := (run ex_env (storage ex_env (RPutObject (B "photos") (B "y") None None None (Some [FData (B "an old object")]))) ex_two).1.
Definition ex_mixed : list s_req := [RGetObject (B "photos") (B "y") None; RPutObject (B "photos") (B "y") None None None (Some [FData (B "THE NEW OBJECT")])].
Definition ex_turns : list nat := replicate 13 0 ++ replicate 12 1 ++ replicate 40 0.
Definition ex_got : s_ans * list frame :=
  match (run_sched ex_env ex_turns ex_old (deliver ex_env <$> ex_mixed)).2 with [Ret (Ok a, fs); _] => (a, fs) | _ => (ADone, []) end.

(* A download during which the object is replaced; the bytes are those of the old and of the new object at their places. *)
Example ex_mixture : carried ex_got.2 = B "an oldW OBJEC" /\ get_object_path ex_env (B "photos") (B "y") = Some [B "photos"; B "y"] /\
  content ex_old [B "photos"; B "y"] = Some (B "an old object") /\ Forall (uploads_only ex_env [B "photos"; B "y"]) ex_mixed.
Proof. split; [by vm_compute|]. split; [by vm_compute|]. split; [by vm_compute|]. unfold ex_mixed. repeat constructor. Qed.
Example ex_mixture_use j a : carried ex_got.2 !! j = Some a -> origin ex_env ex_old ex_mixed [B "photos"; B "y"] j a.
Proof.
  assert (Hwf : wf ex_old) by apply wf_run, wf_two.
  remember (run_sched ex_env ex_turns ex_old (deliver ex_env <$> ex_mixed)) as o eqn:Eo. destruct o as [s' ms'].
  assert (Hst : psteps ex_env ex_old (deliver ex_env <$> ex_mixed) s' ms').
  { pose proof (run_sched_psteps ex_env ex_turns ex_old (deliver ex_env <$> ex_mixed)) as H. by rewrite <- Eo in H. }
  assert (Hgot : exists h len md tag, ms' !! 0 = Some (Ret (Ok (AGet h 0 len len md tag), ex_got.2))).
  { change ms' with ((s', ms').2). rewrite Eo. vm_compute. by eexists _, _, _, _. }
  destruct Hgot as (h & len & md & tag & Hgot). clear Eo. intros Hj.
  by eapply (C97_download ex_env ex_old ex_mixed s' ms' 0 (B "photos") (B "y") None [B "photos"; B "y"] h 0 len len md tag).
Qed.
(* The theorem on what does not leak says something: no file and no upload but that of [z] has a digit. *)
Example ex_confined : let rs := [RGetObject (B "photos") (B "y") None; RPutObject (B "photos") (B "z") None None None (Some [FData (B "12345")]);
    RCopyObject (B "photos/y") (B "photos") (B "w")] in
  let D p := p = [B "photos"; B "y"] \/ p = [B "photos"; B "w"] in let P a := is_digit a = false in
  P "000"%char /\ (forall p c, D p -> content ex_old p = Some c -> Forall P c) /\ Forall (confined ex_env D P) rs.
Proof.
  intros rs D P. split; [by vm_compute|]. split.
  - intros p c [-> | ->] Hc; vm_compute in Hc; [injection Hc as <-; unfold P; repeat constructor|done].
  - assert (Hmp : forall b k p, get_metadata_path ex_env b k = Some p -> ~ D p).
    { intros b k p Hp [-> | ->]; by rewrite metadata_path in Hp. }
    apply Forall_cons; split; [done|]. apply Forall_cons; split; [|apply Forall_cons; split; [|done]].
    + split.
      * intros p Hp [-> | ->]; by vm_compute in Hp.
      * intros p m Hp HD. by destruct (Hmp _ _ _ Hp).
    + intros sb sk Hsrc. vm_compute in Hsrc. injection Hsrc as <- <-. split.
      * intros p q Hp HD Hq. left. vm_compute in Hq. by injection Hq as <-.
      * intros p q Hp HD. by destruct (Hmp _ _ _ Hp).
Qed.

(** Without the zeros it is not true: two uploads of one object at the same time, and the object has bytes that neither of them sent. *)
Theorem C97_no_gaps_refuted :
  exists e s rs sched s' a1 a2 p c, wf s /\ run_sched e sched s (deliver e <$> rs) = (s', [Ret (Ok a1, []); Ret (Ok a2, [])]) /\
    content s p = Some (B "two") /\ rs = [RPutObject (B "photos") (B "y") None None None (Some [FData (B "AAAAAA")]);
              RPutObject (B "photos") (B "y") None None None (Some [FData (B "bb")])] /\
    content s' p = Some c /\ c !! 2%nat = Some "000"%char.
Proof.
  set (rs := [RPutObject (B "photos") (B "y") None None None (Some [FData (B "AAAAAA")]);
              RPutObject (B "photos") (B "y") None None None (Some [FData (B "bb")])]).
  set (sched := [0; 0; 0; 0; 1; 1; 1; 1; 1; 0; 0; 1]).
  exists ex_env, ex_two, rs, sched, (run_sched ex_env sched ex_two (deliver ex_env <$> rs)).1.
  eexists _, _, [B "photos"; B "y"], _. split; [apply wf_two|]. split; [vm_compute; reflexivity|]. split; [by vm_compute|]. split; [done|].
  split; [vm_compute; reflexivity|]. by vm_compute.
Qed.
Print Assumptions C97_no_gaps_refuted.
