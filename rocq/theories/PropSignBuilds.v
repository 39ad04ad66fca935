(** Signing with debug assertions C139.

    Statements only: every theorem is closed by the lemma of the same name (in lower case) in
    SignBuildThms.v.  Generated by tools/gen_prop.py. *)
From Coq Require Import String ZArith.
From Verif Require Import Outcome Bytes Str Secp SpecSecp ModelBip32 SpecBip32 SpecWallet ModelSignBuilds.
From Verif Require SignBuildThms.
Open Scope Z_scope.

(** ** C139. Builds with and without debug assertions sign alike.  ecdsa_sign gives the same result in debug
    and in release builds. FALSE for the signing step: libsecp256k1 asserts that the abscissa of the nonce
    point is below n, and there is a nonce for which it is n, so debug builds panic where release builds sign.
    Otherwise they agree: what a debug build returns is what a release build returns, has recovery id 0 or 1
    and is valid; where a release build returns something else, the debug build panics. *)
(** The assertions fail exactly if the abscissa of the nonce point is at least n; otherwise the step is that of
    the release build. *)
Theorem C139_step : forall k z t : Z, 0 < t < secp_n ->
  (sign_raw_debug k z t = Panic <-> exists x y, is_public_point t (Point x y) /\ secp_n <= x)
  /\ (sign_raw_debug k z t <> Panic -> sign_raw_debug k z t = ok_or (sign_raw k z t) tt).
Proof. exact SignBuildThms.c139_step. Qed.
Print Assumptions C139_step.
(** What a debug build returns is what a release build returns, and it is never one of the invalid
    signatures (C99). *)
Theorem C139_debug_result : forall (fuel : nat) (k : Z) (msg : bytes) (r : res sign_error (bytes * N)),
  ecdsa_sign_debug fuel k msg = Some r -> r <> Panic ->
  ecdsa_sign fuel k msg = Some r /\ forall sig recid, r = Ok (sig, recid) -> (recid < 2)%N.
Proof. exact SignBuildThms.c139_debug_result. Qed.
Print Assumptions C139_debug_result.
Theorem C139_debug_valid : forall (fuel : nat) (k : Z) (msg sig : bytes) (recid : N) (Q : point),
  0 < k < secp_n -> ecdsa_sign_debug fuel k msg = Some (Ok (sig, recid)) -> is_public_point k Q ->
  exists r s rb sb, sig = (rb ++ sb)%list /\ is_ser256 r rb /\ is_ser256 s sb /\ 0 < r < secp_n
    /\ ecdsa_valid Q (digest_val msg) r s /\ ecdsa_recovers recid (digest_val msg) r s Q.
Proof. exact SignBuildThms.c139_debug_valid. Qed.
Print Assumptions C139_debug_valid.
(** If the release build returns something, the debug build returns the same or panics; for a recovery id of 2
    or 3 it panics. *)
Theorem C139_builds_agree_partial : forall (fuel : nat) (k : Z) (msg : bytes) (r : res sign_error (bytes * N)),
  ecdsa_sign fuel k msg = Some r ->
  (ecdsa_sign_debug fuel k msg = Some r \/ ecdsa_sign_debug fuel k msg = Some Panic)
  /\ (forall sig recid, r = Ok (sig, recid) -> (2 <= recid)%N -> ecdsa_sign_debug fuel k msg = Some Panic).
Proof. exact SignBuildThms.c139_builds_agree_partial. Qed.
Print Assumptions C139_builds_agree_partial.
(** C139: false for the signing step; there is a nonce with which it panics for every key and digest in debug
    builds while release builds sign. *)
Theorem C139_builds_agree_refuted : exists t : Z, 0 < t < secp_n /\ forall k z : Z, 0 < k < secp_n -> 0 < z < secp_n ->
  sign_raw_debug k z t = Panic /\ exists r s recid, sign_raw k z t = Some (r, s, recid).
Proof. exact SignBuildThms.c139_builds_agree_refuted. Qed.
Print Assumptions C139_builds_agree_refuted.
(** The nonce 1 signs in both builds. *)
Example C139_example : sign_raw_debug 1 5 1 = Ok (gx, gx + 5, 0%N) /\ sign_raw 1 5 1 = Some (gx, gx + 5, 0%N).
Proof. exact SignBuildThms.c139_example. Qed.
