(** C01, C02: path-style addressing and bucket names. *)
From Verif Require Import M_Base M_Path S_Path L_Base L_Path.
From Coq Require Import Lia.

(** C01: the parser computes exactly the declarative addressing relation. *)
Theorem C01_path_addressing p r : try_from_path p = r <-> addresses p r.
Proof. exact (try_from_path_spec p r). Qed.
Print Assumptions C01_path_addressing.

(** C01, spelled out for the successful cases: the bucket and key are byte-for-byte the
    ones in the path. *)
Theorem C01_path_object_exact p b k :
  try_from_path p = Ok (PObject b k) <->
  p = B "/" ++ b ++ B "/" ++ k /\ legal_bucket b /\ k <> [] /\ (N.of_nat (length k) <= 1024)%N.
Proof.
  rewrite C01_path_addressing. split.
  - inversion 1; subst; unfold legal_key in *; naive_solver.
  - intros (-> & Hb & Hk & Hl). by constructor.
Qed.
Print Assumptions C01_path_object_exact.

Theorem C01_path_bucket_exact p b :
  try_from_path p = Ok (PBucket b) <->
  (p = B "/" ++ b \/ p = B "/" ++ b ++ B "/") /\ legal_bucket b.
Proof.
  rewrite C01_path_addressing. split.
  - inversion 1; subst; naive_solver.
  - intros [[->| ->] Hb]; by constructor.
Qed.
Print Assumptions C01_path_bucket_exact.

Theorem C01_path_root_exact p : try_from_path p = Ok PRoot <-> p = B "/".
Proof.
  rewrite C01_path_addressing. split; [by inversion 1|intros ->; constructor].
Qed.
Print Assumptions C01_path_root_exact.

(** C02: bucket names. *)
Theorem C02_bucket_names b : check_bucket_name b = true <-> legal_bucket b.
Proof. exact (check_bucket_name_spec b). Qed.
Print Assumptions C02_bucket_names.

Theorem C02_bucket_is_one_component b :
  check_bucket_name b = true ->
  b <> [] /\ b <> B "." /\ b <> B ".." /\ "/"%char ∉ b /\ "000"%char ∉ b /\ head b <> Some "."%char.
Proof.
  intros H. rewrite C02_bucket_names in H. pose proof (legal_bucket_no_slash _ H).
  destruct H as ([Hl _] & Hc & (a & Ha & Hd) & _).
  repeat split; try (intros ->; simpl in *; try lia; done).
  - done.
  - intros Hz. apply Hc, bucket_char_spec in Hz. by vm_compute in Hz.
  - rewrite Ha. intros [= ->]. apply alnum_char_spec in Hd. by vm_compute in Hd.
Qed.
Print Assumptions C02_bucket_is_one_component.

(** Concrete cases. *)
Example ex_object : addresses (B "/my-bucket/a/b.txt") (Ok (PObject (B "my-bucket") (B "a/b.txt"))).
Proof. apply C01_path_addressing. vm_compute. reflexivity. Qed.
Example ex_bucket : addresses (B "/my-bucket/") (Ok (PBucket (B "my-bucket"))).
Proof. apply C01_path_addressing. vm_compute. reflexivity. Qed.
Example ex_ip : addresses (B "/192.168.5.4/x") (Err InvalidBucketName).
Proof. apply C01_path_addressing. vm_compute. reflexivity. Qed.
Example ex_too_long : addresses (B "/my-bucket/" ++ replicate (N.to_nat 1025) "a"%char) (Err KeyTooLong).
Proof. apply C01_path_addressing. vm_compute. reflexivity. Qed.
Example ex_legal : legal_bucket (B "abc.def-1").
Proof. apply C02_bucket_names. vm_compute. reflexivity. Qed.
Example ex_dotted : dotted_quad (B "192.168.5.4").
Proof. exists 192%N, 168%N, 5%N, 4%N. split; [lia|vm_compute; reflexivity]. Qed.
