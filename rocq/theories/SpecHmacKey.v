(** The key that HMAC works with (RFC 2104, section 2): keys longer than a block of [B] bytes are hashed, then
    zeros are appended up to a block. *)
From Verif Require Import Outcome Bytes SpecHash.
Open Scope N_scope.

Definition is_hmac_block (is_hash : bytes -> bytes -> Prop) (B : nat) (key block : bytes) : Prop :=
  exists k0 z, ((length key <= B)%nat /\ k0 = key \/ (B < length key)%nat /\ is_hash key k0)
    /\ block = k0 ++ repeat 0 z /\ length block = B.
