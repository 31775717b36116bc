(** Output lengths of the hash functions. *)
From Verif Require Import M_Base M_Crypto L_Base L_SigV4.

Lemma be_bytes_length n x : length (be_bytes n x) = n.
Proof. revert x. induction n; intros; cbn; [done|]. by rewrite IHn. Qed.

Lemma sha_round_length st kw : length st = 8%nat -> length (sha_round st kw) = 8%nat.
Proof. intros H. do 9 (destruct st as [|? st]; try discriminate H). reflexivity. Qed.

Lemma sha_rounds_length kws st :
  length st = 8%nat -> length (fold_left sha_round kws st) = 8%nat.
Proof. revert st. induction kws; intros st H; [done|]. by apply IHkws, sha_round_length. Qed.

Lemma sha_block_length st blk : length st = 8%nat -> length (sha_block st blk) = 8%nat.
Proof. intros H. unfold sha_block. rewrite zip_with_length, sha_rounds_length; lia. Qed.

Lemma sha256_length l : length (sha256 l) = 32%nat.
Proof.
  unfold sha256. generalize (chunks_of (length (sha_pad l)) 64 (sha_pad l)). intros blks.
  assert (length (fold_left sha_block blks sha_h0) = 8%nat) as H.
  { assert (length sha_h0 = 8%nat) as H by reflexivity. revert H. generalize sha_h0.
    induction blks as [|b blks IH]; intros st H; [done|]. by apply IH, sha_block_length. }
  revert H. generalize (fold_left sha_block blks sha_h0). intros st H.
  do 9 (destruct st as [|? st]; try discriminate H).
  cbn [flat_map]. rewrite !app_length, !be_bytes_length. reflexivity.
Qed.

Lemma hmac_length k m : length (hmac_sha256 k m) = 32%nat.
Proof. apply sha256_length. Qed.

Lemma to_hex_length l : length (to_hex l) = (2 * length l)%nat.
Proof. induction l as [|a l IH]; [done|]. cbn. unfold to_hex in IH. rewrite IH. lia. Qed.
