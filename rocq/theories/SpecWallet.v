(** The way from a phrase to a key, hex text and message digests.
    Shared with the model: the types, and for the wallet the three public functions it calls in turn. *)
From Coq Require Import String.
From Verif Require Import Outcome Bytes Str Hash Nfkd ModelBip39 SpecBip39 Secp SpecSecp ModelBip32 SpecBip32.
Open Scope N_scope.

(** What an application does with a phrase (src/lib.rs:29-50, test_mnemonic): Mnemonic::from_phrase, Seed::new,
    XPrv::new_from_path. *)
Inductive wallet_error := BadPhrase (e : error_kind) | BadKey (e : error).
Definition wallet (phrase : str) (lang : language) (password : str) (p : path) : res wallet_error xprv :=
  let* m := map_err BadPhrase (from_phrase phrase lang) in
  let* seed := map_err BadPhrase (seed_new m password) in
  map_err BadKey (xprv_new_from_path seed p).

(** Lower-case hex of a byte string: two digits per byte. *)
Definition hex_symbols : list N := lit "0123456789abcdef".
Definition is_hex (data : bytes) (s : str) : Prop :=
  exists ds, Forall (fun d => d < 16) ds /\ s = map (fun d => nth (N.to_nat d) hex_symbols 0) ds
    /\ length ds = (2 * length data)%nat /\ digits_val 16 ds = digits_val 256 data.

(** The number a digest stands for. *)
Definition digest_val (msg : bytes) : Z := Z.of_N (digits_val 256 msg).

(** RFC 6979 section 3.2 for secp256k1 and SHA-256: the state (K, V) after steps b-g, and the candidates of
    step h.  [x] is int2octets of the secret, [h] is bits2octets of the digest. *)
Definition rfc6979_start (x h : bytes) (K V : bytes) : Prop :=
  exists V0 K0 K1 V1,
    V0 = repeat 1 32 /\ K0 = repeat 0 32
    /\ K1 = hmac_sha256 K0 (V0 ++ [0] ++ x ++ h) /\ V1 = hmac_sha256 K1 V0
    /\ K = hmac_sha256 K1 (V1 ++ [1] ++ x ++ h) /\ V = hmac_sha256 K V1.
Inductive rfc6979_candidate (x h : bytes) : nat -> bytes -> bytes -> Prop :=
| candidate_first K V : rfc6979_start x h K V -> rfc6979_candidate x h 0 K (hmac_sha256 K V)
| candidate_next i K V K' : rfc6979_candidate x h i K V ->
    K' = hmac_sha256 K (V ++ [0]) -> rfc6979_candidate x h (S i) K' (hmac_sha256 K' (hmac_sha256 K' V)).
(** The (r, s) of SEC 1 section 4.1.3 for the nonce k, secret d and digest z, s not yet normalised. *)
Definition ecdsa_pair (k d z r s : Z) : Prop :=
  exists x y, is_public_point k (Point x y) /\ r = (x mod secp_n)%Z /\ (0 <= s < secp_n)%Z /\ (secp_n | k * s - (z + r * d))%Z.
