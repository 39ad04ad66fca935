(** What an implementation of the traits PrivateKey and PublicKey may be expected to satisfy. *)
From Verif Require Import Outcome Bytes Str ModelBip32 SpecBip32 ModelGeneric.
Open Scope N_scope.

(** The return types [u8; 33], [u8; 32] and [u8; 4] of the traits: guaranteed by the compiler. *)
Definition public_typed {P} (T : public_impl P) : Prop :=
  forall k, has_bytes 33 (pub_to_bytes T k) /\ has_bytes 4 (pub_fingerprint T k).
Definition private_typed {K P} (T : private_impl K P) : Prop :=
  (forall k, has_bytes 32 (prv_to_bytes T k)) /\ public_typed (prv_public T).
(** The keys in [good] are closed under derivation, and deriving and taking the public key can be exchanged. *)
Definition derivation_commutes {K P} (T : private_impl K P) (good : K -> Prop) : Prop :=
  forall k t, good k -> has_bytes 32 t ->
    pub_derive_child (prv_public T) (prv_public_key T k) t = res_map (prv_public_key T) (prv_derive_child T k t)
    /\ forall k', prv_derive_child T k t = Ok k' -> good k'.
(** No function of the implementation panics (on arguments of the right size). *)
Definition never_panics {K P} (T : private_impl K P) : Prop :=
  (forall b, has_bytes 32 b -> prv_from_bytes T b <> Panic)
  /\ (forall k t, has_bytes 32 t -> prv_derive_child T k t <> Panic)
  /\ (forall b, has_bytes 33 b -> pub_from_bytes (prv_public T) b <> Panic)
  /\ (forall k t, has_bytes 32 t -> pub_derive_child (prv_public T) k t <> Panic).

(** BIP32, master key generation: "a seed byte sequence S of a chosen length (between 128 and 512 bits)". *)
Definition bip32_seed (seed : bytes) : Prop := 128 <= 8 * len seed <= 512.
