(** C75: which bodies are taken as forms, and what they mean. *)
From Verif Require Import M_Base M_Utf8 M_Chunked M_Multipart S_Chunked S_Multipart S_Form
  L_Base L_Chunked L_Multipart L_Form T_FileStream T_Multipart.

(* A body that comes in one piece is accepted exactly if it has the form of [body_form]. *)
Theorem C75_accepted_exactly boundary t m :
  transform_multipart boundary [FData t] = Some m <->
  exists rest, body_form boundary t (mp_fields m) (mp_file_name m) (mp_content_type m) rest /\
    mp_boundary m = boundary /\ mp_frames m = [] /\ mp_prev m = match rest with [] => None | _ => Some rest end.
Proof.
  unfold transform_multipart. cbn [transform_loop app]. split.
  - destruct (try_parse boundary t) as [| |fields fn ct rest] eqn:E; [done|done|]. intros [= <-].
    exists rest. by apply try_parse_spec in E.
  - intros (rest & Hf & Hb & Hfr & Hp). apply try_parse_spec in Hf. rewrite Hf. destruct m; cbn in *. by subst.
Qed.
Print Assumptions C75_accepted_exactly.

(* A text is the text of one form only. *)
Theorem C75_form_unique boundary t fields fn ct rest fields' fn' ct' rest' :
  body_form boundary t fields fn ct rest -> body_form boundary t fields' fn' ct' rest' ->
  fields = fields' /\ fn = fn' /\ ct = ct' /\ rest = rest'.
Proof. intros H1%try_parse_spec H2%try_parse_spec. rewrite H1 in H2. by injection H2. Qed.
Print Assumptions C75_form_unique.

(* In whatever pieces a body comes: if it is accepted then the whole text has that form, and the
   fields, the file name, the content type and the content of the file are those of the text. *)
Theorem C75_accepted_means boundary fs m : transform_multipart boundary fs = Some m ->
  exists rest, body_form boundary (carried fs) (mp_fields m) (mp_file_name m) (mp_content_type m) rest /\
    (forall content after, first_at (delimiter boundary) rest content after ->
       concat (mp_stream m).1 = content /\ (mp_stream m).2 = FileOk) /\
    (absent (delimiter boundary) rest -> (mp_stream m).2 <> FileOk).
Proof.
  intros H. destruct (transform_loop_sound _ _ _ _ H) as [Hb Hf]. cbn [app] in Hf.
  eexists. split; [exact Hf|]. unfold mp_stream. rewrite Hb. split.
  - intros content after Hc. by eapply C25_file_content_exact.
  - intros Ha. apply C25_no_delimiter_fails in Ha. rewrite Ha. by destruct (broken _).
Qed.
Print Assumptions C75_accepted_means.

(* So two ways of cutting a body into pieces are never understood differently. *)
Theorem C75_pieces_agree boundary fs fs' m m' : carried fs = carried fs' ->
  transform_multipart boundary fs = Some m -> transform_multipart boundary fs' = Some m' ->
  mp_fields m = mp_fields m' /\ mp_file_name m = mp_file_name m' /\ mp_content_type m = mp_content_type m' /\
  ((mp_stream m).2 = FileOk -> concat (mp_stream m).1 = concat (mp_stream m').1 /\ (mp_stream m').2 = FileOk).
Proof.
  intros Hc H H'. destruct (C75_accepted_means _ _ _ H) as (r & Hf & Hs & Hn).
  destruct (C75_accepted_means _ _ _ H') as (r' & Hf' & Hs' & _). rewrite Hc in Hf.
  destruct (C75_form_unique _ _ _ _ _ _ _ _ _ _ Hf Hf') as (-> & -> & -> & ->). split_and!; [done..|].
  intros Hok. destruct (C25_cases_exhaustive (delimiter boundary) r' ltac:(done)) as [Ha|(x & y & Hx)]; [by destruct (Hn Ha)|].
  destruct (Hs x y Hx) as [-> _]. by destruct (Hs' x y Hx) as [-> ->].
Qed.
Print Assumptions C75_pieces_agree.

(* The encodings of RFC 7578 have that form. *)
Theorem C75_encodings lead boundary f trailer : form_ok boundary f -> lead = [] \/ lead = CRLF ->
  exists rest, body_form boundary (lead ++ encode_form boundary f trailer) (f_fields f) (f_filename f) (f_type f) rest /\
    first_at (delimiter boundary) rest (f_content f) trailer.
Proof.
  intros Hok Hl. exists (f_content f ++ delimiter boundary ++ trailer). split.
  - unfold encode_form. apply try_parse_spec. by apply try_parse_done.
  - destruct Hok as (Hb & _ & _ & _ & _ & Hc). by apply content_first.
Qed.
Print Assumptions C75_encodings.

(* Expected but refuted: that a form stays acceptable when a further header, such as RFC 7578
   permits, is added to a part, or when the content type of the file is left out. *)
Definition ex_before : bytes := B "--X" ++ CRLF ++ B "Content-Disposition: form-data; name=""key""" ++ CRLF ++ CRLF ++
  B "cat" ++ CRLF ++ B "--X" ++ CRLF ++ B "Content-Disposition: form-data; name=""file""; filename=""f""" ++ CRLF.
Definition ex_type : bytes := B "Content-Type: text/plain" ++ CRLF.
Definition ex_after : bytes := CRLF ++ B "meow" ++ CRLF ++ B "--X--" ++ CRLF.
Theorem C75_headers_refuted : exists boundary before ct after h hl m,
  transform_multipart boundary [FData (before ++ ct ++ after)] = Some m /\ part_header h hl /\
  transform_multipart boundary [FData (before ++ hl ++ ct ++ after)] = None /\
  transform_multipart boundary [FData (before ++ after)] = None.
Proof.
  exists (B "X"), ex_before, ex_type, ex_after, (B "Content-Language", B "en"), (B "Content-Language: en" ++ CRLF).
  eexists. split_and!; [by vm_compute| |by vm_compute|by vm_compute].
  exists (B " "), [], CRLF. split_and!; try done; [|by repeat constructor|by left|..].
  - apply tokens_spec. done.
  - apply printable_spec. done.
  - intros a [= <-] [?|?]; done.
  - intros a [= <-] [?|?]; done.
Qed.
Print Assumptions C75_headers_refuted.

(* Quirks that [body_form] allows: bare line feeds after headers, blanks around header values, names in
   any case, an empty line at the start. *)
Example ex_form : exists m, transform_multipart (B "X") [FData (CRLF ++ B "--X" ++ CRLF ++
    B "CONTENT-DISPOSITION:form-data; name=""key""  " ++ [LF; LF] ++ B "c--Xat" ++ CRLF ++ B "--X--" ++ CRLF ++ B "--X" ++ CRLF ++
    B "content-type: t" ++ CRLF ++ B "Content-Disposition: form-data; name=""file""; filename=""f""" ++ CRLF ++ ex_after)] = Some m /\
  mp_fields m = [(B "key", B "c--Xat" ++ CRLF ++ B "--X--")] /\ mp_file_name m = B "f" /\ mp_content_type m = B "t" /\
  concat (mp_stream m).1 = B "meow".
Proof. eexists. split; [by vm_compute|]. by vm_compute. Qed.
