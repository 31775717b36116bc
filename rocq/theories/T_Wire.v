(** C99: replies that are sent while other HTTP requests are handled. *)
From Verif Require Import M_Base M_Path M_Headers M_Chunked M_BytesStream M_Crypto M_Fs M_Json M_Utf8 M_Storage M_Errors M_Auth M_Ops M_Service M_Download M_Wire
  S_Path S_Headers S_Chunked S_Storage S_Store S_Service S_Dispatch S_Calls S_Http L_Base L_Fs L_Storage L_Names L_Results
  T_Store T_Copy T_Crash T_Auth T_Dispatch T_Calls T_Http T_Ranges T_Concurrent T_Later T_Web T_Origin T_Undisturbed T_Stream.

Local Opaque md5 etag_of json_decode json_encode metadata_name part_name.

(* The requests [xs], all being handled and answered. *)
Definition conversations (e : env) (xs : list (server * http_request)) : list (prog (reply * list frame)) :=
  (fun x => converse e x.1 x.2) <$> xs.

(** ** Programs that make the same calls *)

(* [m1] makes the calls of [m]; [fin] relates the end of [m] to what is left of [m1]. *)
Fixpoint follows {A B} (fin : B -> prog A -> Prop) (m : prog B) (m1 : prog A) : Prop :=
  match m with
  | Ret b => fin b m1
  | Do c k => exists k1, m1 = Do c k1 /\ forall r, follows fin (k r) (k1 r)
  end.
Definition follows_all {A B} (fin : nat -> B -> prog A -> Prop) (ms : list (prog B)) (ms1 : list (prog A)) : Prop :=
  length ms = length ms1 /\ forall i m m1, ms !! i = Some m -> ms1 !! i = Some m1 -> follows (fin i) m m1.
Lemma follows_task {A B} (fin : nat -> B -> prog A -> Prop) ms ms1 i m : follows_all fin ms ms1 -> ms !! i = Some m ->
  exists m1, ms1 !! i = Some m1 /\ follows (fin i) m m1.
Proof.
  intros [Hl H] Hi. destruct (ms1 !! i) as [m1|] eqn:Hi1; [exists m1; by eauto|]. apply lookup_ge_None in Hi1. apply lookup_lt_Some in Hi. lia.
Qed.
Lemma follows_insert {A B} (fin : nat -> B -> prog A -> Prop) ms ms1 i m m1 : follows_all fin ms ms1 -> follows (fin i) m m1 ->
  follows_all fin (<[i := m]> ms) (<[i := m1]> ms1).
Proof.
  intros [Hl H] Hm. split; [by rewrite !insert_length|]. intros j m' m1' Hj Hj1.
  apply list_lookup_insert_Some in Hj as [(<- & <- & Hlt)|[Hne Hj]].
  - rewrite list_lookup_insert in Hj1 by lia. by injection Hj1 as <-.
  - rewrite list_lookup_insert_ne in Hj1 by done. by eapply H.
Qed.
Lemma follows_psteps e {A B} (fin : nat -> B -> prog A -> Prop) s ms s' ms' : psteps e s ms s' ms' ->
  forall ms1, follows_all fin ms ms1 -> exists ms1', psteps e s ms1 s' ms1' /\ follows_all fin ms' ms1'.
Proof.
  induction 1 as [s ms|s ms i m s1 m1 s2 ms2 Hi Hst Hps IH]; intros ns Hf; [exists ns; split; [constructor|done]|].
  destruct (follows_task fin ms ns i m Hf Hi) as (n & Hn & Hm). destruct m as [b|R c k]; [done|].
  cbn [follows] in Hm. destruct Hm as (k1 & -> & Hk).
  assert (Hr : exists r, m1 = k r /\ step e s (Do c k1) s1 (k1 r)).
  { destruct Hst as [E|E].
    - destruct (exec e c s) as [s3 r] eqn:Ex. injection E as -> ->. exists r. split; [done|]. left. by rewrite Ex.
    - injection E as -> ->. exists (fail_of c). split; [done|]. by right. }
  destruct Hr as (r & -> & Hs1). destruct (IH (<[i := k1 r]> ns)) as (ns' & Hps' & Hf'); [by apply follows_insert|].
  exists ns'. split; [|done]. by econstructor.
Qed.
Lemma follows_sched e {A B} (fin : nat -> B -> prog A -> Prop) sched : forall s ms ms1, follows_all fin ms ms1 ->
  exists sched1, (run_sched e sched1 s ms1).1 = (run_sched e sched s ms).1 /\
    follows_all fin (run_sched e sched s ms).2 (run_sched e sched1 s ms1).2.
Proof.
  induction sched as [|i sched IH]; intros s ms ms1 Hf; [by exists []|]. cbn [run_sched].
  destruct (ms !! i) as [m|] eqn:Hi; [|by apply IH]. destruct m as [b|R c k]; [by apply IH|].
  destruct (follows_task fin ms ms1 i _ Hf Hi) as (m1 & Hm1 & Hm). cbn [follows] in Hm. destruct Hm as (k1 & -> & Hk).
  destruct (exec e c s) as [s1 r] eqn:Ex. destruct (IH s1 (<[i := k r]> ms) (<[i := k1 r]> ms1)) as (sched1 & H1 & H2); [by apply follows_insert|].
  exists (i :: sched1). cbn [run_sched]. by rewrite Hm1, Ex.
Qed.
Lemma follows_app {A B} (fin fin' : nat -> B -> prog A -> Prop) ms ms1 ns ns1 : follows_all fin ms ms1 -> follows_all fin' ns ns1 ->
  (forall i, fin' i = fin (length ms + i)) -> follows_all fin (ms ++ ns) (ms1 ++ ns1).
Proof.
  intros [Hl H] [Hl' H'] He. split; [rewrite !app_length; lia|]. intros i m m1 Hm Hm1. destruct (decide (i < length ms)) as [Hlt|Hge].
  - rewrite lookup_app_l in Hm by done. rewrite lookup_app_l in Hm1 by lia. by eapply H.
  - rewrite lookup_app_r in Hm by lia. rewrite lookup_app_r in Hm1 by lia. rewrite <- Hl in Hm1.
    specialize (H' _ _ _ Hm Hm1). rewrite He in H'. by replace (length ms + (i - length ms)) with i in H' by lia.
Qed.

(** ** What is heard is what the storage delivers *)

Definition file_reply (rep : reply) : bool := match rep with Replied (Response _ _ (RbFile _ _ _)) => true | _ => false end.

(* The end of a conversation: the reply is made from the answer [a] of the storage.  When it carries no file, the bytes of an
   answer are not asked for. *)
Definition heard_of (x : server * http_request) (y : reply * list frame) (m1 : prog (sres s_ans * list frame)) : Prop :=
  match front x.1 x.2 with
  | FrErr c => y = (Replied (error_response c), [])
  | FrPanic => y = (Panicked, [])
  | FrCall op c r => exists a, y.1 = reply_of (respond op c a) /\
      (m1 = Ret (a, y.2) /\ (file_reply y.1 = false -> y.2 = []) \/
       file_reply y.1 = false /\ y.2 = [] /\ reading (fun z => z.1 = a) m1 /\ exists h off lim len md tag, a = Ok (AGet h off lim len md tag))
  end.

Lemma respond_file op c h off lim len md tag :
  (exists hs, respond op c (Ok (AGet h off lim len md tag)) = Ok (Response 200 hs (RbFile h off lim))) \/
  file_reply (reply_of (respond op c (Ok (AGet h off lim len md tag)))) = false.
Proof.
  destruct op; try (by right); cbn [respond respond_ok]; unfold wrap; destruct (set_metadata_headers _ _) as [hs|]; try (by right); left; by exists hs.
Qed.
Lemma respond_plain op c a : (forall h off lim len md tag, a <> Ok (AGet h off lim len md tag)) -> file_reply (reply_of (respond op c a)) = false.
Proof.
  intros Ha. destruct a as [a|code]; [|done].
  destruct a as [| | |h off lim len md tag| | | | | | |]; try (exfalso; by eapply Ha); clear Ha;
    destruct op; try done; cbn [respond respond_ok]; unfold wrap, xml_response; try done;
    repeat match goal with |- context [match ?x with _ => _ end] => destruct x end; try done.
Qed.

Lemma follows_same {A B C} (fin : B -> prog A -> Prop) (m0 : prog C) (f : C -> prog B) (g : C -> prog A) :
  (forall c, follows fin (f c) (g c)) -> follows fin (bind m0 f) (bind m0 g).
Proof. intros H. induction m0 as [c|R c k IH]; [apply H|]. cbn [bind follows]. by eexists. Qed.
Lemma follows_bind {A B C D} (fin : B -> prog A -> Prop) (m0 : prog C) (f : C -> prog D) (f' : D -> prog B) (g : C -> prog A) :
  (forall c, follows fin (bind (f c) f') (g c)) -> follows fin (bind (bind m0 f) f') (bind m0 g).
Proof. intros H. induction m0 as [c|R c k IH]; [apply H|]. cbn [bind follows]. by eexists. Qed.
Lemma hearing_plain rep : file_reply rep = false -> hearing rep = Ret (rep, []).
Proof. destruct rep as [[st hs [| |h off lim]]|]; done. Qed.
Lemma converse_follows e sv rq : follows (heard_of (sv, rq)) (converse e sv rq) (deliver e (call_of (sv, rq))).
Proof.
  unfold converse, service, call_of. cbn [fst snd]. destruct (front sv rq) as [code| |op c r] eqn:Hf.
  - cbn. unfold heard_of. cbn [fst snd]. by rewrite Hf.
  - cbn. unfold heard_of. cbn [fst snd]. by rewrite Hf.
  - rewrite deliver_sending. apply follows_bind. intros a. cbn [bind].
    assert (Hd : (exists h off lim len md tag, a = Ok (AGet h off lim len md tag)) \/ forall h off lim len md tag, a <> Ok (AGet h off lim len md tag)).
    { destruct a as [[| | |h off lim len md tag| | | | | | |]|]; try (by right). left. by eexists _, _, _, _, _, _. }
    destruct Hd as [(h & off & lim & len & md & tag & ->)|Hno].
    + cbn [sending]. destruct (respond_file op c h off lim len md tag) as [[hs Hr]|Hno].
      * rewrite Hr. cbn [reply_of hearing]. apply follows_same. intros fs. cbn [follows]. unfold heard_of. cbn [fst snd]. rewrite Hf.
        eexists. rewrite Hr. split; [done|]. left. by split.
      * rewrite hearing_plain by done. cbn [follows]. unfold heard_of. cbn [fst snd]. rewrite Hf. eexists. split; [done|]. right.
        split; [done|]. split; [done|]. split; [|by eexists _, _, _, _, _, _]. apply (reading_sending (Ok (AGet h off lim len md tag))).
    + rewrite hearing_plain by (by apply respond_plain). cbn [follows]. unfold heard_of. cbn [fst snd]. rewrite Hf. eexists. split; [done|]. left. split; [|done].
      destruct a as [[| | |h off lim len md tag| | | | | | |]|]; try done. by destruct (Hno h off lim len md tag).
Qed.
Lemma conversations_follow e xs : follows_all (fun i => match xs !! i with Some x => heard_of x | None => fun _ _ => True end)
  (conversations e xs) (deliver e <$> (call_of <$> xs)).
Proof.
  unfold conversations. split; [by rewrite !fmap_length|]. intros i m m1. rewrite !list_lookup_fmap. destruct (xs !! i) as [[sv rq]|]; [|done].
  intros [= <-] [= <-]. apply converse_follows.
Qed.

(** ** Downloads *)

(* What a request for an object asks of the storage. *)
Lemma get_asked sv rq b k op c r : front sv rq = FrCall op c r -> gets_object rq b k ->
  op = OpGetObject /\ exists x, r = RGetObject b k x /\ given_header rq (B "range") x.
Proof.
  intros Hf (Hm & Hp). pose proof Hf as Hasks%C58_called_as_asked. apply called_entered in Hf as (He & Hd & Hx).
  destruct (entered_object _ _ _ _ _ He Hp) as (Hm' & Hp' & _).
  assert (op = OpGetObject) as ->.
  { unfold dispatch, handlers in Hd. cbn [find] in Hd. unfold is_match in Hd. rewrite Hm', Hm, Hp' in Hd.
    vm_compute in Hd. by injection Hd. }
  split; [done|]. inversion Hasks as [ | | | | | | | |b' k' range Hp2 Hr2| | | | | | | |]; subst.
  pose proof (request_path_fun _ _ _ Hp Hp2) as [= <- <-]. by exists range.
Qed.
Lemma returns_psteps e {A} (S : nat -> A -> Prop) s ms s' ms' : psteps e s ms s' ms' ->
  (forall i m, ms !! i = Some m -> returns (S i) m) -> forall i m, ms' !! i = Some m -> returns (S i) m.
Proof.
  induction 1 as [s ms|s ms i m s1 m1 s2 ms2 Hi Hst Hps IH]; intros Hr; [done|]. apply IH. intros j m' Hj.
  apply list_lookup_insert_Some in Hj as [(<- & <- & _)|[_ Hj]]; [|by apply Hr]. specialize (Hr i m Hi).
  destruct m as [a|R c k]; [done|]. cbn [returns] in Hr. destruct Hst as [E|E].
  - destruct (exec e c s) as [s3 r]. injection E as -> ->. apply Hr.
  - injection E as -> ->. apply Hr.
Qed.
(* Answers of a download. *)
Definition get_answer (z : sres s_ans * list frame) : Prop :=
  (exists h off lim len md tag, z.1 = Ok (AGet h off lim len md tag)) \/ (exists code, z.1 = Err code) /\ z.2 = [].
Lemma returns_reading {A} (S : A -> Prop) (m : prog A) : reading S m -> returns S m.
Proof. intros H. induction m as [a|R c k IH]; [done|]. destruct c; try done. cbn in *. intros r. by apply IH. Qed.
Lemma returns_then {A C} (S : A -> Prop) (T : C -> Prop) (m : prog A) (f : A -> prog C) :
  returns S m -> (forall a, S a -> returns T (f a)) -> returns T (bind m f).
Proof. intros Hm Hf. induction m as [a|R c k IH]; [by apply Hf|]. cbn in *. intros r. by apply IH. Qed.
Lemma returns_impl {A} (S T : A -> Prop) (m : prog A) : returns S m -> (forall a, S a -> T a) -> returns T m.
Proof. intros Hm HT. induction m as [a|R c k IH]; [by apply HT|]. cbn in *. intros r. by apply IH. Qed.
Lemma returns_get e b k x : returns get_answer (deliver e (RGetObject b k x)).
Proof.
  rewrite deliver_sending. eapply (returns_then (fun a => (exists h off lim len md tag, a = Ok (AGet h off lim len md tag)) \/ exists code, a = Err code)).
  - cbn [storage]. unfold get_object, try_path.
    destruct (get_object_path e b k) as [p|]; [|right; by eexists].
    assert (Hgo : forall r, returns (fun a => (exists h off lim len md tag, a = Ok (AGet h off lim len md tag)) \/ exists code, a = Err code)
       (bind (call (COpen p)) (fun o => match o with None => Ret (Err NoSuchKey) | Some h =>
        try_io (call (CLen h)) (fun file_len =>
            try_res (get_extent h r file_len) (fun ol =>
            try_io (load_metadata e b k) (fun md =>
            try_io (get_md5_sum e b k) (fun tag =>
              if (ol.2 <=? i64_max)%N then Ret (Ok (AGet h ol.1 ol.2 ol.2 md tag))
              else Ret (Err InternalError))))) end))).
    { intros r. unfold try_io, try_res. apply returns_bind. intros [h|]; [|right; by eexists].
      repeat (apply returns_bind; intros [?|]; [|right; by eexists]).
      destruct (_ <=? _)%N; [|right; by eexists]. left. by eexists _, _, _, _, _, _. }
    destruct x as [str|]; [|apply Hgo]. destruct (range_from_header_str str) as [r|]; [apply Hgo|right; by eexists].
  - intros a [(h & off & lim & len & md & tag & ->)|[code ->]].
    + eapply returns_impl; [apply returns_reading, reading_sending|]. intros z Hz. left. exists h, off, lim, len, md, tag. exact Hz.
    + right. split; [by eexists|done].
Qed.

(* The end of a download. *)
Lemma download_heard e s xs s' ms' t sv rq b k rep fs :
  psteps e s (conversations e xs) s' ms' -> xs !! t = Some (sv, rq) -> gets_object rq b k -> ms' !! t = Some (Ret (rep, fs)) ->
  fs = [] /\ file_reply rep = false \/
  exists x c h off lim len md tag ms1 hs, call_of (sv, rq) = RGetObject b k x /\ given_header rq (B "range") x /\
    psteps e s (deliver e <$> (call_of <$> xs)) s' ms1 /\ ms1 !! t = Some (Ret (Ok (AGet h off lim len md tag), fs)) /\
    respond OpGetObject c (Ok (AGet h off lim len md tag)) = Ok (Response 200 hs (RbFile h off lim)) /\
    rep = Replied (Response 200 hs (RbFile h off lim)).
Proof.
  intros Hst Ht Hget Hres. destruct (follows_psteps e _ _ _ _ _ Hst _ (conversations_follow e xs)) as (ms1 & Hst1 & Hf).
  destruct (follows_task _ _ _ _ _ Hf Hres) as (m1 & Hm1 & Hh). cbn [follows] in Hh. rewrite Ht in Hh. unfold heard_of in Hh. cbn [fst snd] in Hh.
  destruct (front sv rq) as [code| |op c r] eqn:Hfr.
  - injection Hh as -> ->. by left.
  - injection Hh as -> ->. by left.
  - destruct Hh as (a & -> & Hm). destruct Hm as [[-> Hnf]|(Hno & -> & _)]; [|by left].
    destruct (get_asked sv rq b k op c r Hfr Hget) as (-> & x & -> & Hx).
    assert (Hcall : call_of (sv, rq) = RGetObject b k x) by (unfold call_of; cbn [fst snd]; by rewrite Hfr).
    assert (Hr : get_answer (a, fs)).
    { pose proof (returns_psteps e (fun i z => i = t -> get_answer z) _ _ _ _ Hst1) as Hr. feed specialize Hr.
      { intros i m Hi. rewrite !list_lookup_fmap in Hi. destruct (decide (i = t)) as [->|Hne].
        - rewrite Ht in Hi. cbn in Hi. injection Hi as <-. rewrite Hcall.
          eapply returns_impl; [apply returns_get|done].
        - eapply (returns_impl (fun _ => True)); [|done]. clear. induction m as [a|R c k IH]; [done|]. cbn. intros r. apply IH. }
      specialize (Hr t _ Hm1). by apply Hr. }
    destruct Hr as [(h & off & lim & len & md & tag & Ha)|[[code Ha] Hz]]; cbn [fst snd] in *; subst; [|by left].
    destruct (respond_file OpGetObject c h off lim len md tag) as [[hs Hresp]|Hno].
    + right. exists x, c, h, off, lim, len, md, tag, ms1, hs. rewrite Hresp. done.
    + left. split; [by apply Hnf|done].
Qed.

(** C99: every byte that a client hears of an object, while any requests are handled and answered in any interleaving, with any
    failing calls, has an origin: it was in the object, or one of the requests put it there (C97). *)
Theorem C99_origin e s xs s' ms' t sv rq b k p rep fs j a :
  wf s -> psteps e s (conversations e xs) s' ms' -> xs !! t = Some (sv, rq) -> gets_object rq b k -> get_object_path e b k = Some p ->
  ms' !! t = Some (Ret (rep, fs)) -> carried fs !! j = Some a ->
  exists off, origin e s (call_of <$> xs) p (off + j) a.
Proof.
  intros Hwf Hst Ht Hget Hp Hres Hj.
  destruct (download_heard e s xs s' ms' t sv rq b k rep fs Hst Ht Hget Hres) as [[-> _]|(x & c & h & off & lim & len & md & tag & ms1 & hs & Hcall & _ & Hst1 & Hm1 & _)]; [done|].
  exists (N.to_nat off). eapply (C97_download e s (call_of <$> xs) s' ms1 t b k x p h off lim len md tag fs); try done.
  rewrite list_lookup_fmap, Ht. cbn. by rewrite Hcall.
Qed.
Print Assumptions C99_origin.

Lemma md_insert_keeps n v m x : x ∈ m -> x.1 <> n -> x ∈ md_insert n v m.
Proof.
  intros Hx Hne. induction m as [|[k' v'] m IH]; [by apply elem_of_nil in Hx|]. cbn [md_insert]. destruct (beq k' n) eqn:E.
  - apply beq_true in E as ->. apply elem_of_cons in Hx as [->|Hx]; [done|by right].
  - apply elem_of_cons in Hx as [->|Hx]; [left|right; by apply IH].
Qed.
Lemma set_metadata_keeps md x : forall hs hs', set_metadata_headers md (Some hs) = Some hs' -> x ∈ hs -> head x.1 <> Some "x"%char -> x ∈ hs'.
Proof.
  unfold set_metadata_headers. generalize (default [] md). intros l. induction l as [|[n v] l IH]; intros hs hs' H Hx Hne; cbn [fold_left] in H; [by injection H as <-|].
  assert (Hnone : forall l', fold_left (fun hs p => match hs, header_name_of (B "x-amz-meta-" ++ p.1) with
     | Some hs', Some n => if header_value_ok p.2 then Some (md_insert n p.2 hs') else None | _, _ => None end) l' (@None (list (bytes * bytes))) = None).
  { induction l'; done. }
  cbn [fst snd] in H. destruct (header_name_of (B "x-amz-meta-" ++ n)) as [n'|] eqn:En; [|by rewrite Hnone in H].
  destruct (header_value_ok v); [|by rewrite Hnone in H]. apply (IH _ _ H); [|done]. apply md_insert_keeps; [done|]. intros E. apply Hne. rewrite E.
  unfold header_name_of in En. destruct (_ && _) in En; [|done]. injection En as <-. done.
Qed.

(** A client that hears the body of an object, while none of the other requests writes to it (they may delete it), is told its tag, and
    hears the part of it that it asked for, or is told that the transfer broke off. *)
Theorem C99_undisturbed e s xs s' ms' t sv rq b k p c hs body fs :
  wf s -> psteps e s (conversations e xs) s' ms' ->
  get_object_path e b k = Some p -> content s p = Some c -> (N.of_nat (length c) <= i64_max)%N ->
  Forall (spares_file e p) (call_of <$> xs) ->
  xs !! t = Some (sv, rq) -> gets_object rq b k -> ms' !! t = Some (Ret (Replied (Response 200 hs body), fs)) ->
  body <> RbEmpty -> (forall y, body <> RbXml y) ->
  exists x, given_header rq (B "range") x /\ (B "etag", quoted_md5 c) ∈ hs /\
    (broken fs = true -> carried fs = [] \/ exists d, wanted x c d /\ carried fs `prefix_of` d) /\
    (broken fs = false -> wanted x c (carried fs)).
Proof.
  intros Hwf Hst Hp Hc Hlen Hsp Ht Hget Hres Hb1 Hb2.
  destruct (download_heard e s xs s' ms' t sv rq b k _ fs Hst Ht Hget Hres) as [[_ Hno]|(x & cx & h & off & lim & len & md & tag & ms1 & hs' & Hcall & Hx & Hst1 & Hm1 & Hresp & Hrep)].
  { destruct body as [|y|]; [done|by destruct (Hb2 y)|done]. }
  injection Hrep as <- ->. exists x. split; [done|].
  destruct (C98_undisturbed e s (call_of <$> xs) s' ms1 t b k x p c h off lim len md tag fs) as (-> & H1 & H2); try done.
  { rewrite list_lookup_fmap, Ht. cbn. by rewrite Hcall. }
  split; [|done]. cbn [respond respond_ok] in Hresp. unfold set_header at 2 in Hresp. rewrite num_value_ok in Hresp. unfold set_header in Hresp.
  destruct (header_value_ok (quoted_md5 c)).
  - unfold wrap in Hresp. destruct (set_metadata_headers _ _) as [hs1|] eqn:Em; [|done]. injection Hresp as ->.
    eapply set_metadata_keeps; [exact Em| |done]. apply elem_of_list_further. by left.
  - unfold wrap in Hresp. by rewrite set_metadata_none in Hresp.
Qed.
Print Assumptions C99_undisturbed.

(* A schedule can be continued until one of the requests is finished. *)
Lemma run_sched_finish e {A} sched s (ms : list (prog A)) i m : (run_sched e sched s ms).2 !! i = Some m ->
  exists sched', (run_sched e sched' s ms).2 !! i = Some (Ret (run e m (run_sched e sched s ms).1).2).
Proof.
  intros Hi. destruct (run_sched e sched s ms) as [s1 ms1] eqn:E. cbn [fst snd] in *.
  apply elem_of_list_split_length in Hi as (pre & post & -> & ->).
  destruct (run_sched_one e m s1 pre post) as [sched1 H1]. exists (sched ++ sched1). rewrite run_sched_app, E, H1. cbn [snd].
  by rewrite list_lookup_middle.
Qed.
Lemma reading_run {A} e (S : A -> Prop) (m : prog A) : reading S m -> forall s, S (run e m s).2.
Proof.
  intros H. induction m as [a|R c k IH]; intros s; [done|]. destruct c; try done. cbn in *. destruct h; cbn; by apply IH.
Qed.

(** A download of an existing object among requests that leave it alone is answered and sent as if it were alone. *)
Theorem C99_download_among_others e s xs i sv rq b k p sched s' ms' y :
  wf s -> located b k p -> is_Some (content s p) -> gets_object rq b k ->
  xs !! i = Some (sv, rq) -> others_harmless xs i b k ->
  run_sched e sched s (conversations e xs) = (s', ms') -> ms' !! i = Some (Ret y) ->
  y = (run e (converse e sv rq) s).2.
Proof.
  intros Hwf Hl Hex Hget Hi Ho Hrun Hres. pose proof (object_request _ _ _ (proj2 Hget)) as Hb.
  destruct (follows_sched e _ sched s _ _ (conversations_follow e xs)) as (sched1 & H1 & Hf). rewrite Hrun in H1, Hf. cbn [fst snd] in H1, Hf.
  destruct (follows_task _ _ _ _ _ Hf Hres) as (m1 & Hm1 & Hh). cbn [follows] in Hh. rewrite Hi in Hh. unfold heard_of in Hh. cbn [fst snd] in Hh.
  unfold converse, service. destruct (front sv rq) as [code| |op c r] eqn:Hfr; [by rewrite Hh..|].
  destruct (get_asked sv rq b k op c r Hfr Hget) as (-> & x & -> & Hx).
  assert (Hcall : call_of (sv, rq) = RGetObject b k x) by (unfold call_of; cbn [fst snd]; by rewrite Hfr).
  destruct (others_calls xs i sv rq b k Hi Ho) as [Hrs Ha].
  { rewrite Hcall. assert (ordinary k) by by eapply located_ordinary. done. }
  assert (Hsame : forall sch z, (run_sched e sch s (deliver e <$> (call_of <$> xs))).2 !! i = Some (Ret z) -> z = (run e (deliver e (RGetObject b k x)) s).2).
  { intros sch z Hz. eapply (C48_download_among_others e s (call_of <$> xs) i b k p x sch); [done|done|done|done|done| |done|apply surjective_pairing|exact Hz].
    rewrite list_lookup_fmap, Hi. cbn. by rewrite Hcall. }
  rewrite deliver_sending, run_bind in Hsame. rewrite run_bind, run_bind. destruct (run e (storage e (RGetObject b k x)) s) as [s1 a1]. cbn [run].
  destruct Hh as (a & Hy & Hm). destruct y as [rep fs]. cbn [fst snd] in *. subst rep.
  assert (a = a1) as ->.
  { destruct Hm as [[-> _]|(_ & _ & Hr & _)].
    - specialize (Hsame _ _ Hm1). pose proof (reading_run e _ _ (reading_sending a1) s1) as Hr. by rewrite <- Hsame in Hr.
    - destruct (run_sched_finish e _ _ _ _ _ Hm1) as (sched2 & H2). specialize (Hsame _ _ H2).
      pose proof (reading_run e _ _ Hr (run_sched e sched1 s (deliver e <$> (call_of <$> xs))).1) as Hr'. rewrite Hsame in Hr'.
      pose proof (reading_run e _ _ (reading_sending a1) s1) as Hr1. cbn beta in Hr', Hr1. congruence. }
  destruct (file_reply (reply_of (respond OpGetObject c a1))) eqn:Hfile.
  - destruct Hm as [[-> _]|[? _]]; [|done]. specialize (Hsame _ _ Hm1).
    assert (Hd : exists h off lim len md tag, a1 = Ok (AGet h off lim len md tag)).
    { destruct a1 as [[| | |h off lim len md tag| | | | | | |]|]; try (by rewrite respond_plain in Hfile). by eexists _, _, _, _, _, _. }
    destruct Hd as (h & off & lim & len & md & tag & ->). destruct (respond_file OpGetObject c h off lim len md tag) as [[hs Hr]|Hr]; [|congruence].
    rewrite Hr. cbn [reply_of hearing]. cbn [sending] in Hsame. rewrite run_bind in *. destruct (run e (stream_file _ _ _ _) s1) as [s2 fs2]. cbn in *. by injection Hsame as ->.
  - rewrite hearing_plain by done. cbn. destruct Hm as [[_ Hm]|(_ & -> & _)]; [by rewrite (Hm eq_refl)|done].
Qed.
Print Assumptions C99_download_among_others.

Lemma reading_hearing rep : reading (fun x => x.1 = rep) (hearing rep).
Proof. destruct rep as [[st hs [| |h off lim]]|]; try done. cbn [hearing]. eapply reading_bind; [apply reading_stream|]. done. Qed.
Lemma conversations_serve e xs : Forall2 (sends hearing) (conversations e xs) (serve e xs).
Proof. apply Forall2_fmap, Forall_Forall2_diag, Forall_forall. intros x _. by left. Qed.

(** A download that arrives when an upload has been answered with success: its client hears exactly what was uploaded, with the
    right length, tag and metadata, while earlier and later requests that do not write or delete the object go on. *)
Theorem C99_download_after_upload e s xs i sv rq b k p s1 ms1 resp fs0 ys j sv' rq' sched s2 ms2 rep fs :
  wf s -> located b k p -> e_os_ok e p = true -> e_os_ok e [metadata_name b k] = true ->
  puts_object rq b k -> wire rq ->
  (exists n v, n <> [] /\ (B "x-amz-meta-" ++ n, v) ∈ rq_headers rq) \/ fs_nodes s !! [metadata_name b k] = None ->
  xs !! i = Some (sv, rq) -> others_harmless xs i b k ->
  psteps e s (conversations e xs) s1 ms1 -> ms1 !! i = Some (Ret (Replied resp, fs0)) -> success resp ->
  Forall (harmless b k) ys -> ys !! j = Some (sv', rq') ->
  accepted sv' rq' -> gets_object rq' b k -> ~ has_header rq' (B "range") ->
  run_sched e sched s1 (ms1 ++ conversations e ys) = (s2, ms2) -> ms2 !! (length xs + j) = Some (Ret (rep, fs)) ->
  exists data md, delivers sv rq data /\ sent_metadata rq md /\
    ((N.of_nat (length data) <= i64_max)%N ->
     carried fs = data /\ broken fs = false /\
     exists t hs body, rep = Replied (Response 200 hs body) /\ denotes t (N.of_nat (length data)) /\
       hs ≡ₚ [(B "content-length", t); (B "etag", quoted_md5 data)] ++ metadata_headers md).
Proof.
  intros Hwf Hl Hos Hom Hput Hw Hn Hi Ho Hst Hres Hs Hys Hj Hacc Hget Hrange Hrun Hrep.
  (* the upload *)
  destruct (sends_psteps hearing reading_hearing e s _ s1 ms1 Hst _ (conversations_serve e xs)) as (msv & Hsv & Hfv).
  destruct (Forall2_lookup_l _ _ _ _ _ Hfv Hres) as (m0 & Hm0 & Hs0). apply (sends_ret hearing reading_hearing) in Hs0 as ->.
  destruct (upload_call e s xs i sv rq b k p s1 msv resp) as
    (ms0 & c & class & len & md & _ & _ & Hcall & Hpl & _ & Hd & Hsent & Hne & Hpres & Hr & Hc & Hm); try done.
  exists (carried (cx_body c)), (default [] md). split; [done|]. split; [done|]. intros Hlen.
  assert (Hn' : is_Some md \/ fs_nodes s !! [metadata_name b k] = None).
  { destruct Hn as [(n & v & Hnn & Hin)|Hn]; [|by auto]. left. destruct md as [m|]; [by eexists|].
    exfalso. apply Hnn. by eapply Hsent. }
  (* the storage requests *)
  destruct (get_called sv' rq' b k Hacc Hget Hrange) as (c' & Hf').
  assert (Hcall' : call_of (sv', rq') = RGetObject b k None) by (unfold call_of; cbn [fst snd]; by rewrite Hf').
  pose proof (object_request _ _ _ (proj1 (proj2 Hput))) as Hb.
  assert (Hlxs : i < length xs) by by eapply lookup_lt_Some.
  destruct (others_calls (xs ++ ys) i sv rq b k) as [Hrs Ha]; [by apply lookup_app_l_Some| |done|].
  { intros j' x Hj' Hx. apply lookup_app_Some in Hx as [Hx|[_ Hx]]; [by eapply Ho|].
    rewrite Forall_lookup in Hys. by eapply Hys. }
  destruct (follows_psteps e _ _ _ _ _ Hst _ (conversations_follow e xs)) as (ns & Hst1 & Hf).
  destruct (follows_task _ _ _ _ _ Hf Hres) as (n1 & Hn1 & Hh). cbn [follows] in Hh. rewrite Hi in Hh. unfold heard_of in Hh. cbn [fst snd] in Hh.
  assert (Hput1 : exists a, n1 = Ret (Ok a, fs0)).
  { destruct (front sv rq) as [code| |op cx r] eqn:Hfr.
    - injection Hh as -> ->. by destruct Hs as [_ Hs]; destruct (Hs [XText (B "Code") (code_str code)]).
    - done.
    - destruct (put_called _ _ _ _ _ _ _ Hfr Hput) as (? & ? & ? & -> & _).
      destruct Hh as (a & Hrp & Hm1). destruct a as [a|code].
      2: { assert (Hr' : respond OpPutObject cx (Err code) = Err code) by done. rewrite Hr' in Hrp. injection Hrp as ->.
           by destruct Hs as [_ Hs]; destruct (Hs [XText (B "Code") (code_str code)]). }
      exists a. destruct Hm1 as [[-> _]|(Hno & _ & _ & h & off & lim & len' & md' & tag & [= ->])]; [done|].
      destruct (respond_file OpPutObject cx h off lim len' md' tag) as [[hs Hr']|_]; [rewrite Hrp, Hr' in Hno; done|].
      rewrite Hr in Hrp. cbn [respond respond_ok] in Hrp. unfold wrap in Hrp. by destruct (set_metadata_headers _ _). }
  destruct Hput1 as [a1 ->].
  assert (Hlen0 : length ns = length xs) by (apply psteps_length in Hst1; by rewrite !fmap_length in Hst1).
  pose proof (T_Stream.psteps_more e (deliver e <$> (call_of <$> ys)) _ _ _ _ Hst1) as Hst2. rewrite <- !fmap_app in Hst2.
  assert (Hlen1 : length ms1 = length xs) by by (destruct Hf as [-> _]).
  assert (Hf1 : follows_all (fun i => match (xs ++ ys) !! i with Some x => heard_of x | None => fun _ _ => True end)
    (ms1 ++ conversations e ys) (ns ++ (deliver e <$> (call_of <$> ys)))).
  { eapply follows_app; [|apply (conversations_follow e ys)|].
    - destruct Hf as [Hf1 Hf2]. split; [done|]. intros l m m' Hm1 Hm2. specialize (Hf2 l m m' Hm1 Hm2).
      rewrite lookup_app_l; [done|]. apply lookup_lt_Some in Hm1. lia.
    - intros l. cbn beta. rewrite lookup_app_r by lia. by replace (length ms1 + l - length xs) with l by lia. }
  destruct (follows_sched e _ sched s1 _ _ Hf1) as (sched1 & H1 & Hf2). rewrite Hrun in H1, Hf2. cbn [fst snd] in H1, Hf2.
  destruct (follows_task _ _ _ _ _ Hf2 Hrep) as (m2 & Hm2 & Hh2). cbn [follows] in Hh2.
  assert (Hjx : (xs ++ ys) !! (length xs + j) = Some (sv', rq')).
  { rewrite lookup_app_r by lia. by replace (length xs + j - length xs) with j by lia. }
  rewrite Hjx in Hh2. unfold heard_of in Hh2. cbn [fst snd] in Hh2. rewrite Hf' in Hh2. destruct Hh2 as (a & -> & Hm3).
  (* what the storage delivers *)
  assert (Hq : etag_of (carried (cx_body c)) = quoted_md5 (carried (cx_body c))) by
    (with_strategy transparent [etag_of] unfold etag_of; done).
  assert (Hsame : forall sch ans fs', (run_sched e sch s1 (ns ++ (deliver e <$> (call_of <$> ys)))).2 !! (length xs + j) = Some (Ret (ans, fs')) ->
    carried fs' = carried (cx_body c) /\ broken fs' = false /\
    exists h off lim, ans = Ok (AGet h off lim (N.of_nat (length (carried (cx_body c)))) md (quoted_md5 (carried (cx_body c))))).
  { intros sch ans fs' Hz.
    eapply (C66_download_after_write e s (call_of <$> (xs ++ ys)) i (length xs + j) b k p class len md (cx_body c) s1
      (ns ++ (deliver e <$> (call_of <$> ys))) a1 fs0 sch); try done.
    - rewrite list_lookup_fmap, lookup_app_l by done. rewrite Hi. cbn. by rewrite Hcall.
    - by apply lookup_app_l_Some.
    - rewrite list_lookup_fmap, Hjx. cbn. by rewrite Hcall'.
    - rewrite lookup_app_r by lia. replace (length xs + j - length ns) with j by lia.
      rewrite !list_lookup_fmap, Hj. cbn [fmap option_fmap option_map]. by rewrite Hcall'.
    - apply surjective_pairing. }
  assert (Hresp : forall h off lim, respond OpGetObject c' (Ok (AGet h off lim (N.of_nat (length (carried (cx_body c)))) md (quoted_md5 (carried (cx_body c))))) =
    Ok (Response 200 ([(B "content-length", num (N.of_nat (length (carried (cx_body c))))); (B "etag", quoted_md5 (carried (cx_body c)))] ++ metadata_headers (default [] md)) (RbFile h off lim))).
  { intros h off lim. apply get_response; [done|]. rewrite <- Hq. apply etag_value_ok. }
  destruct Hm3 as [[-> _]|(Hno & _ & Hr3 & h & off & lim & len3 & md3 & tag3 & ->)].
  - destruct (Hsame _ _ _ Hm2) as (H3 & H4 & h & off & lim & ->). split; [done|]. split; [done|].
    exists (num (N.of_nat (length (carried (cx_body c))))). rewrite Hresp. do 2 eexists. split; [done|]. split; [apply num_denotes|done].
  - exfalso. destruct (run_sched_finish e _ _ _ _ _ Hm2) as (sched2 & H2).
    pose proof (reading_run e _ _ Hr3 (run_sched e sched1 s1 (ns ++ (deliver e <$> (call_of <$> ys)))).1) as Hr'. cbn beta in Hr'.
    destruct (run e m2 _).2 as [a3 fs3] in Hr', H2. cbn [fst] in Hr'. subst a3. destruct (Hsame _ _ _ H2) as (_ & _ & h' & off' & lim' & E).
    apply same_get in E as (-> & -> & -> & -> & -> & ->). by rewrite Hresp in Hno.
Qed.
Print Assumptions C99_download_after_upload.

(** Examples: the requests of [ex_web] with the bytes sent; an object that is deleted between the reads of its download. *)
Definition ex_wire_moment := run_sched ex_env ([0; 1; 1] ++ repeat 0 12) empty_store (conversations ex_env ex_web_first).
Definition ex_wire_end := run_sched ex_env (concat (repeat [2; 1] 30)) ex_wire_moment.1
  (ex_wire_moment.2 ++ conversations ex_env [(ex_open_server, ex_get_object (B "/bkt/a%20b"))]).
Example ex_wire :
  ex_wire_moment.2 !! 0 = Some (Ret (Replied (Response 200 [(B "etag", quoted_md5 (B "hello"))] RbEmpty), [])) /\
  match ex_wire_moment.2 !! 1 with Some (Do _ _) => True | _ => False end /\
  exists fs, ex_wire_end.2 !! 2 =
    Some (Ret (Replied (Response 200 [(B "content-length", B "5"); (B "etag", quoted_md5 (B "hello")); (B "x-amz-meta-owner", B "me")] (RbFile (HFile 0) 0 5)), fs)) /\
    carried fs = B "hello" /\ (1 < length fs)%nat.
Proof. split; [by vm_compute|]. split; [by vm_compute|]. eexists. split; [vm_compute; reflexivity|]. split; [by vm_compute|]. vm_compute. lia. Qed.
Definition ex_wire_old : fs := (exchange ex_env ex_open_server (ex_put_object (B "/bkt/a") [] (B "hello")) empty_store).1.
Definition ex_wire_deleting : list (server * http_request) :=
  [(ex_open_server, ex_get_object (B "/bkt/a")); (ex_open_server, HttpRequest (B "DELETE") (B "/bkt/a") None [] [])].
Definition ex_wire_deleted := run_sched ex_env (replicate 12 0 ++ replicate 12 1 ++ replicate 40 0) ex_wire_old (conversations ex_env ex_wire_deleting).
Example ex_wire_undisturbed :
  content ex_wire_old [B "bkt"; B "a"] = Some (B "hello") /\ content ex_wire_deleted.1 [B "bkt"; B "a"] = None /\
  exists fs, ex_wire_deleted.2 = [Ret (Replied (Response 200 [(B "content-length", B "5"); (B "etag", quoted_md5 (B "hello"))] (RbFile (HFile 0) 0 5)), fs);
    Ret (Replied (Response 204 [] RbEmpty), [])] /\ carried fs = B "hello".
Proof. split; [by vm_compute|]. split; [by vm_compute|]. eexists. split; [vm_compute; reflexivity|]. by vm_compute. Qed.
Example ex_wire_spares : Forall (spares_file ex_env [B "bkt"; B "a"]) (call_of <$> ex_wire_deleting).
Proof. repeat constructor. Qed.
