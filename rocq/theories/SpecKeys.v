(** What more is said about keys: sums of public tweaks, numbers in byte order, malleable signatures.
    Shared with the model: the types, HMAC-SHA512 and the public functions named in the statements. *)
From Coq Require Import String.
From Verif Require Import Outcome Bytes Str Hash Secp SpecSecp ModelBip32 SpecBip32.
Open Scope N_scope.

(** parse256(I_L) of the hash made for the child c of a public key: anyone who has the key can compute it. *)
Definition pub_tweak (y : xpub) (c : N) (t : Z) : Prop :=
  exists data, pub_data (public_key y) c data /\ t = left_half (hmac_sha512 (chain_code (xpub_attrs y)) data).
(** Their sum along a path, from public keys alone. *)
Inductive pub_tweaks : xpub -> list N -> Z -> Prop :=
| tweaks_nil y : pub_tweaks y [] 0
| tweaks_cons y c z p t ts : pub_tweak y c t -> xpub_derive_child y c = Ok z -> pub_tweaks z p ts -> pub_tweaks y (c :: p) (t + ts).

(** The serialised fields between version and key, as one number. *)
Definition is_attrs_number (a : attrs) (v : N) : Prop :=
  exists cb, is_ser32 (child_number a) cb /\ v = digits_val 256 ([depth a] ++ parent_fingerprint a ++ cb ++ chain_code a).
(** Four letters and a version, as one number. *)
Definition is_prefix_number (p : prefix) (v : N) : Prop :=
  exists vb, is_ser32 (version p) vb /\ v = digits_val 256 (chars p ++ vb).

(** Storing a key as text and reading it back. *)
Definition through_text {K} (write : K -> R32 str) (read : str -> R32 K) (k : K) : R32 K :=
  let* s := write k in read s.
