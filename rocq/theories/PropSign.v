(** More about signatures C99 - C101.

    Statements only: every theorem is closed by the lemma of the same name (in lower case) in
    SignThms.v.  Generated by tools/gen_prop.py. *)
From Coq Require Import String ZArith.
From Verif Require Import Outcome Bytes Str Secp SpecSecp ModelBip32 SpecBip32 SpecWallet.
From Verif Require SignThms.
Open Scope Z_scope.

(** ** C99. When a signature is not valid.  A signature with recovery id 0 or 1 has a non-zero r and is valid,
    without exception; any signature of ecdsa_sign is valid unless it was made with a nonce t whose point has
    the abscissa n exactly (and then t s is the digest modulo n). Such nonces exist: exactly two, t and n - t,
    the same for every key and every non-zero digest. *)
Theorem C99_low_recovery_ids_are_valid : forall (fuel : nat) (k : Z) (msg sig : bytes) (recid : N) (Q : point),
  (0 < k < secp_n)%Z -> ecdsa_sign fuel k msg = Some (Ok (sig, recid)) -> (recid < 2)%N -> is_public_point k Q ->
  exists r s rb sb, sig = (rb ++ sb)%list /\ is_ser256 r rb /\ is_ser256 s sb /\ (0 < r < secp_n)%Z
    /\ ecdsa_valid Q (digest_val msg) r s /\ ecdsa_recovers recid (digest_val msg) r s Q.
Proof. exact SignThms.c99_low_recovery_ids_are_valid. Qed.
Print Assumptions C99_low_recovery_ids_are_valid.
(** Every signature is valid, except one made with a nonce whose point has the abscissa n, to the unit. *)
Theorem C99_valid_or_abscissa_n : forall (fuel : nat) (k : Z) (msg sig : bytes) (recid : N) (Q : point),
  (0 < k < secp_n)%Z -> ecdsa_sign fuel k msg = Some (Ok (sig, recid)) -> is_public_point k Q ->
  exists r s rb sb, sig = (rb ++ sb)%list /\ is_ser256 r rb /\ is_ser256 s sb
    /\ (ecdsa_valid Q (digest_val msg) r s /\ ecdsa_recovers recid (digest_val msg) r s Q
        \/ r = 0%Z /\ (recid = 2 \/ recid = 3)%N /\ exists t y, (0 < t < secp_n)%Z /\ is_public_point t (Point secp_n y) /\ (secp_n | t * s - digest_val msg)).
Proof. exact SignThms.c99_valid_or_abscissa_n. Qed.
Print Assumptions C99_valid_or_abscissa_n.
(** There are exactly two such nonces, t and n - t, and with them the signing step does return r = 0 for every key
    and every digest other than 0. *)
Theorem C99_two_bad_nonces : exists t0 : Z, (0 < t0 < secp_n)%Z /\ forall k z t : Z, (0 < k < secp_n)%Z -> (0 <= z < secp_n)%Z -> (0 < t < secp_n)%Z ->
  ((exists s recid, sign_raw k z t = Some (0%Z, s, recid)) <-> (t = t0 \/ t = (secp_n - t0)%Z) /\ z <> 0%Z).
Proof. exact SignThms.c99_two_bad_nonces. Qed.
Print Assumptions C99_two_bad_nonces.
(** The nonce 1 gives the abscissa of the generator, an even ordinate and the recovery id 0. The abscissa n does occur on the curve. *)
Example C99_example : sign_raw 1 5 1 = Some (gx, (gx + 5)%Z, 0%N) /\ ecdsa_valid G 5 gx (gx + 5)
  /\ on_curve (Point secp_n 69186903114498750860896505739646488798970448350379198433587849548453839594014).
Proof. exact SignThms.c99_example. Qed.

(** ** C100. Nonces must not repeat.  If the signing step returns the same r and recovery id for two different
    digests, the secret key is w (s z' - s' z) mod n with w the inverse of r (s' - s), which exists; so anyone
    can compute it. *)
Theorem C100_repeated_nonce_reveals_key : forall (k z z' t t' r s s' : Z) (recid : N),
  (0 < k < secp_n)%Z -> (0 < t < secp_n)%Z -> (0 < t' < secp_n)%Z -> (0 <= z < secp_n)%Z -> (0 <= z' < secp_n)%Z -> z <> z' ->
  sign_raw k z t = Some (r, s, recid) -> sign_raw k z' t' = Some (r, s', recid) -> r <> 0%Z ->
  (exists w, (secp_n | w * (r * (s' - s)) - 1)%Z)
  /\ forall w, (secp_n | w * (r * (s' - s)) - 1)%Z -> k = ((w * (s * z' - s' * z)) mod secp_n)%Z.
Proof. exact SignThms.c100_repeated_nonce_reveals_key. Qed.
Print Assumptions C100_repeated_nonce_reveals_key.
(** The secret 1 and the nonce 1 for the digests 5 and 7. *)
Example C100_example : sign_raw 1 5 1 = Some (gx, (gx + 5)%Z, 0%N) /\ sign_raw 1 7 1 = Some (gx, (gx + 7)%Z, 0%N)
  /\ forall w, (secp_n | w * (gx * ((gx + 7) - (gx + 5))) - 1)%Z -> ((w * ((gx + 5) * 7 - (gx + 7) * 5)) mod secp_n = 1)%Z.
Proof. exact SignThms.c100_example. Qed.

(** ** C101. A signature belongs to one digest.  If two calls with the same key return the same signature and
    recovery id, the digests are the same modulo n. *)
Theorem C101_signature_determines_digest : forall (f f' : nat) (k : Z) (msg msg' sig : bytes) (recid : N),
  ecdsa_sign f k msg = Some (Ok (sig, recid)) -> ecdsa_sign f' k msg' = Some (Ok (sig, recid)) ->
  (digest_val msg mod secp_n = digest_val msg' mod secp_n)%Z.
Proof. exact SignThms.c101_signature_determines_digest. Qed.
Print Assumptions C101_signature_determines_digest.
(** Two digests that are the same modulo n: 1 and n + 1. *)
Example C101_example : digest_val (be_bytes 32 1) = 1%Z /\ digest_val (be_bytes 32 (Z.to_N secp_n + 1)) = (secp_n + 1)%Z
  /\ ((secp_n + 1) mod secp_n = 1)%Z.
Proof. exact SignThms.c101_example. Qed.
