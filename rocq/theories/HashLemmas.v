(** Output lengths of the hash functions. *)
From Verif Require Import Outcome Bytes Hash Ripemd.
Open Scope N_scope.

Lemma flat_map_be_bytes_ok w l : bytes_ok (flat_map (be_bytes w) l).
Proof. induction l; cbn; [constructor|]. apply bytes_ok_app. split; [apply be_bytes_ok|assumption]. Qed.
Lemma flat_map_be_bytes_length w l : length (flat_map (be_bytes w) l) = (w * length l)%nat.
Proof. induction l; cbn [flat_map length]; [lia|]. rewrite app_length, be_bytes_length, IHl. lia. Qed.

Lemma sha2_length P m : length (sha2 P m) = (p_wb P * 8)%nat.
Proof.
  unfold sha2, digest_of_st. rewrite flat_map_be_bytes_length. destruct (absorb _ _ _). reflexivity.
Qed.
Lemma sha2_ok P m : bytes_ok (sha2 P m).
Proof. apply flat_map_be_bytes_ok. Qed.
Lemma sha256_length m : length (sha256 m) = 32%nat.
Proof. apply sha2_length. Qed.
Lemma sha512_length m : length (sha512 m) = 64%nat.
Proof. apply sha2_length. Qed.
Lemma sha256_ok m : bytes_ok (sha256 m).
Proof. apply sha2_ok. Qed.
Lemma sha512_ok m : bytes_ok (sha512 m).
Proof. apply sha2_ok. Qed.
Lemma hmac_sha512_length k m : length (hmac_sha512 k m) = 64%nat.
Proof. apply sha512_length. Qed.
Lemma hmac_sha512_ok k m : bytes_ok (hmac_sha512 k m).
Proof. apply sha512_ok. Qed.
Lemma hmac_sha256_length k m : length (hmac_sha256 k m) = 32%nat.
Proof. apply sha256_length. Qed.
Lemma hmac_sha256_ok k m : bytes_ok (hmac_sha256 k m).
Proof. apply sha256_ok. Qed.

Lemma bytes_ok_rev l : bytes_ok l -> bytes_ok (rev l).
Proof. apply Forall_rev. Qed.
Lemma ripemd160_length m : length (ripemd160 m) = 20%nat.
Proof.
  unfold ripemd160. cbv zeta. destruct (fold_left rmd_compress _ _) as [a b c d e].
  cbn [flat_map]. rewrite !app_length, !rev_length, !be_bytes_length. reflexivity.
Qed.
Lemma ripemd160_ok m : bytes_ok (ripemd160 m).
Proof.
  unfold ripemd160. cbv zeta. destruct (fold_left rmd_compress _ _) as [a b c d e].
  cbn [flat_map]. rewrite !bytes_ok_app. repeat split; try (apply bytes_ok_rev, be_bytes_ok). constructor.
Qed.

Lemma sha256_cons m : exists h t, sha256 m = h :: t /\ h < 256.
Proof.
  pose proof (sha256_length m) as Hl. pose proof (sha256_ok m) as Ho.
  destruct (sha256 m) as [|h t]; [discriminate|]. inversion Ho; subst. eauto.
Qed.

Lemma xor_bytes_length a b : length a = length b -> length (xor_bytes a b) = length a.
Proof. intros H. unfold xor_bytes. rewrite map_length, combine_length, H. apply Nat.min_id. Qed.
Lemma pbkdf2_iter_length prf h c u acc : (forall x, length (prf x) = h) -> length acc = h ->
  length (pbkdf2_iter prf c u acc) = h.
Proof.
  intros Hp. revert u acc. induction c as [|c IH]; intros u acc Ha; cbn; [exact Ha|].
  apply IH. rewrite xor_bytes_length by congruence. exact Ha.
Qed.
Lemma lxor_byte a b : a < 256 -> b < 256 -> N.lxor a b < 256.
Proof.
  intros Ha Hb. change 256 with (2 ^ 8) in *.
  destruct (N.eq_dec (N.lxor a b) 0) as [E|E]; [rewrite E; reflexivity|].
  apply N.log2_lt_pow2; [lia|]. eapply N.le_lt_trans; [apply N.log2_lxor|].
  apply N.max_lub_lt.
  - destruct (N.eq_dec a 0) as [->|]; [reflexivity|]. apply N.log2_lt_pow2; lia.
  - destruct (N.eq_dec b 0) as [->|]; [reflexivity|]. apply N.log2_lt_pow2; lia.
Qed.
Lemma xor_bytes_ok a b : bytes_ok a -> bytes_ok b -> bytes_ok (xor_bytes a b).
Proof.
  intros Ha. revert b. induction Ha as [|x a Hx _ IH]; intros b Hb; [constructor|].
  inversion Hb as [|y b' Hy Hb']; subst; [constructor|]. constructor; [apply lxor_byte; assumption|]. apply IH, Hb'.
Qed.
Lemma pbkdf2_iter_ok prf c u acc : (forall x, bytes_ok (prf x)) -> bytes_ok acc -> bytes_ok (pbkdf2_iter prf c u acc).
Proof.
  intros Hp. revert u acc. induction c as [|c IH]; intros u acc Ha; cbn; [exact Ha|].
  apply IH, xor_bytes_ok; auto.
Qed.

Lemma pbkdf2_sha512_length pw salt c : length (pbkdf2 hmac_sha512 64 pw salt c 64) = 64%nat.
Proof.
  unfold pbkdf2. change ((64 + 64 - 1) / 64)%nat with 1%nat. cbn [seq flat_map]. rewrite app_nil_r.
  rewrite firstn_length. unfold pbkdf2_block. rewrite (pbkdf2_iter_length _ 64%nat); [reflexivity| |];
    intros; apply hmac_sha512_length.
Qed.
Lemma pbkdf2_sha512_ok pw salt c : bytes_ok (pbkdf2 hmac_sha512 64 pw salt c 64).
Proof.
  unfold pbkdf2. change ((64 + 64 - 1) / 64)%nat with 1%nat. cbn [seq flat_map]. rewrite app_nil_r.
  apply bytes_ok_firstn. unfold pbkdf2_block. apply pbkdf2_iter_ok; intros; apply hmac_sha512_ok.
Qed.
