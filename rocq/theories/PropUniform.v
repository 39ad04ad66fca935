(** Distribution of keys C156.

    Statements only: every theorem is closed by the lemma of the same name (in lower case) in
    UniformThms.v.  Generated by tools/gen_prop.py. *)
From Verif Require Import Outcome Bytes Secp SpecSecp ModelBip32 SpecBip32.
From Verif Require UniformThms.
Import DeriveThms(ex1_xprv, ex1_child).
Open Scope N_scope.

(** ** C156. Every key is an equally likely child.  With any hash function in the place of HMAC-SHA512: every
    master key and chain code comes from exactly one 64-byte hash value; every private key other than that of
    the parent, with every chain code, is the child for exactly one hash value, and the key of the parent
    itself is never the child; the same holds for public keys. Whatever children with all 2^32 numbers are
    wanted, some hash function gives all of them at once. So with a random hash function all keys are equally
    likely and siblings are independent: the code around the hash adds no bias and no relation between keys.
    *)
(** Every pair of a master key and a chain code comes from exactly one hash value. *)
Theorem C156_master_keys : forall (seed : bytes) (k : Z) (cc : bytes),
  In (length seed) [16; 32; 64; 128]%nat -> (0 < k < secp_n)%Z -> has_bytes 32 cc ->
  exists! I, has_bytes 64 I /\ forall hmac, hmac master_key_text seed = I ->
    xprv_new_with hmac seed = Ok (mkXPrv k (mkAttrs 0 [0; 0; 0; 0] 0 cc)).
Proof. exact UniformThms.c156_master_keys. Qed.
Print Assumptions C156_master_keys.
Theorem C156_private_children : forall (x y : xprv) (c : N) (data : bytes), valid_xprv x -> valid_xprv y -> u32 c ->
  depth (xprv_attrs x) < 255 -> priv_data (private_key x) c data ->
  depth (xprv_attrs y) = depth (xprv_attrs x) + 1 -> parent_fingerprint (xprv_attrs y) = xpub_fingerprint (xprv_public_key x) ->
  child_number (xprv_attrs y) = c -> private_key y <> private_key x ->
  exists! I, has_bytes 64 I /\ forall hmac, hmac (chain_code (xprv_attrs x)) data = I -> xprv_derive_child_with hmac x c = Ok y.
Proof. exact UniformThms.c156_private_children. Qed.
Print Assumptions C156_private_children.
Theorem C156_never_the_parent : forall (hmac : bytes -> bytes -> bytes) (x y : xprv) (c : N), valid_xprv x -> u32 c ->
  (forall k m, has_bytes 64 (hmac k m)) -> xprv_derive_child_with hmac x c = Ok y -> private_key y <> private_key x.
Proof. exact UniformThms.c156_never_the_parent. Qed.
Print Assumptions C156_never_the_parent.
Theorem C156_siblings_unrelated : forall (x : xprv) (want : N -> xprv), valid_xprv x -> depth (xprv_attrs x) < 255 ->
  (forall c, u32 c -> valid_xprv (want c) /\ private_key (want c) <> private_key x
     /\ depth (xprv_attrs (want c)) = depth (xprv_attrs x) + 1
     /\ parent_fingerprint (xprv_attrs (want c)) = xpub_fingerprint (xprv_public_key x) /\ child_number (xprv_attrs (want c)) = c) ->
  exists hmac : bytes -> bytes -> bytes, forall c, u32 c -> xprv_derive_child_with hmac x c = Ok (want c).
Proof. exact UniformThms.c156_siblings_unrelated. Qed.
Print Assumptions C156_siblings_unrelated.
(** The same for public keys. *)
Theorem C156_public_children : forall (y z : xpub) (c : N) (data : bytes), valid_xpub y -> valid_xpub z -> c < 2 ^ 31 ->
  depth (xpub_attrs y) < 255 -> pub_data (public_key y) c data ->
  depth (xpub_attrs z) = depth (xpub_attrs y) + 1 -> parent_fingerprint (xpub_attrs z) = xpub_fingerprint y ->
  child_number (xpub_attrs z) = c -> public_key z <> public_key y ->
  exists! I, has_bytes 64 I /\ forall hmac, hmac (chain_code (xpub_attrs y)) data = I -> xpub_derive_child_with hmac y c = Ok z.
Proof. exact UniformThms.c156_public_children. Qed.
Print Assumptions C156_public_children.
Theorem C156_public_never_the_parent : forall (hmac : bytes -> bytes -> bytes) (y z : xpub) (c : N), valid_xpub y -> u32 c ->
  xpub_derive_child_with hmac y c = Ok z -> public_key z <> public_key y.
Proof. exact UniformThms.c156_public_never_the_parent. Qed.
Print Assumptions C156_public_never_the_parent.
Example C156_example : valid_xprv ex1_xprv /\ valid_xprv ex1_child /\ xprv_derive_child ex1_xprv 0 = Ok ex1_child
  /\ private_key ex1_child <> private_key ex1_xprv /\ depth (xprv_attrs ex1_xprv) < 255.
Proof. exact UniformThms.c156_example. Qed.
