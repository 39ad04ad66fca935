(** Key derivation C49 - C60.

    Statements only: every theorem is closed by the lemma of the same name (in lower case) in
    DeriveThms.v.  Generated by tools/gen_prop.py. *)
From Coq Require Import String.
From Verif Require Import Outcome Bytes Str Hash Secp SpecSecp ModelBip32 SpecBip32.
From Verif Require KeyTextThms DeriveThms.
Import KeyTextThms(ex_attrs, ex_xprv, ex_xpub).
Import DeriveThms(ex_seed, ex1_xprv, ex1_child, ex1_hardened).
Open Scope N_scope.

(** ** C49. Master keys follow BIP32.  XPrv::new(seed) fails with SeedLength unless the seed has 16, 32, 64 or
    128 bytes; otherwise with I = HMAC-SHA512(''Bitcoin seed'', seed) it fails with Crypto if the left half is
    0 or >= n and else returns the key I_L with chain code I_R, depth 0, zero fingerprint and child number 0;
    it never panics. *)
Theorem C49_master_key : forall seed : bytes, bytes_ok seed ->
  let I := hmac_sha512 master_key_text seed in
  (~ In (length seed) [16; 32; 64; 128]%nat -> xprv_new seed = Err ESeedLength)
  /\ (In (length seed) [16; 32; 64; 128]%nat ->
      (usable I -> xprv_new seed = Ok (mkXPrv (left_half I) (mkAttrs 0 [0; 0; 0; 0] 0 (right_half I))))
      /\ (~ usable I -> xprv_new seed = Err ECrypto))
  /\ xprv_new seed <> Panic.
Proof. exact DeriveThms.c49_master_key. Qed.
Print Assumptions C49_master_key.
(** The root of the first BIP32 test vector. *)
Example C49_example : xprv_new ex_seed = Ok ex_xprv /\ usable (hmac_sha512 master_key_text ex_seed) /\ xprv_new [1; 2; 3] = Err ESeedLength.
Proof. exact DeriveThms.c49_example. Qed.

(** ** C50. Private child derivation follows BIP32.  derive_child(i) on a private key returns depth+1, child
    number i, the first 4 bytes of RIPEMD160(SHA256(parent public key)) as fingerprint, I_R as chain code and
    (I_L + k) mod n as key, where I = HMAC-SHA512(chain code, data), data = 00 k i for hardened and the
    compressed public key and i otherwise; it fails with Depth exactly at depth 255 and with Crypto when the
    sum is 0. *)
Theorem C50_private_child : forall (x : xprv) (c : N), valid_xprv x -> u32 c ->
  exists (P : point) (f data I : bytes),
    is_public_point (private_key x) P /\ is_fingerprint P f /\ priv_data (private_key x) c data
    /\ (forall data', priv_data (private_key x) c data' -> data' = data)
    /\ I = hmac_sha512 (chain_code (xprv_attrs x)) data /\ length I = 64%nat
    /\ (depth (xprv_attrs x) = 255 <-> xprv_derive_child x c = Err EDepth)
    /\ (depth (xprv_attrs x) < 255 -> usable I ->
        let k := ((left_half I + private_key x) mod secp_n)%Z in
        (k <> 0%Z -> xprv_derive_child x c = Ok (mkXPrv k (mkAttrs (depth (xprv_attrs x) + 1) f c (right_half I))))
        /\ (k = 0%Z -> xprv_derive_child x c = Err ECrypto)).
Proof. exact DeriveThms.c50_private_child. Qed.
Print Assumptions C50_private_child.
(** Normal and hardened child, and the depth limit. *)
Example C50_example : valid_xprv ex1_xprv /\ xprv_derive_child ex1_xprv 0 = Ok ex1_child /\ xprv_derive_child ex1_xprv (2 ^ 31) = Ok ex1_hardened
  /\ xprv_derive_child (mkXPrv 1 (mkAttrs 255 [0; 0; 0; 0] 0 (repeat 0 32))) 0 = Err EDepth.
Proof. exact DeriveThms.c50_example. Qed.

(** ** C51. Public child derivation follows BIP32.  derive_child(i) on a public key fails with ChildNumber for
    every hardened i, with Depth at depth 255, and otherwise returns the point I_L*G + K with chain code I_R,
    depth+1, child number i and the parent's fingerprint, failing with Crypto when the sum is the point at
    infinity. *)
Theorem C51_public_child : forall (y : xpub) (c : N), valid_xpub y -> u32 c ->
  (2 ^ 31 <= c <-> xpub_derive_child y c = Err EChildNumber)
  /\ (c < 2 ^ 31 -> exists (f data I : bytes),
        is_fingerprint (public_key y) f /\ pub_data (public_key y) c data
        /\ (forall data', pub_data (public_key y) c data' -> data' = data)
        /\ I = hmac_sha512 (chain_code (xpub_attrs y)) data /\ length I = 64%nat
        /\ (depth (xpub_attrs y) = 255 <-> xpub_derive_child y c = Err EDepth)
        /\ (depth (xpub_attrs y) < 255 -> usable I -> exists T S,
              is_public_point (left_half I) T /\ ec_sum T (public_key y) S
              /\ (S <> Infinity -> xpub_derive_child y c = Ok (mkXPub S (mkAttrs (depth (xpub_attrs y) + 1) f c (right_half I))))
              /\ (S = Infinity -> xpub_derive_child y c = Err ECrypto))).
Proof. exact DeriveThms.c51_public_child. Qed.
Print Assumptions C51_public_child.
Example C51_example : valid_xpub (mkXPub G ex_attrs) /\ xpub_derive_child (mkXPub G ex_attrs) 0 = Ok (xprv_public_key ex1_child)
  /\ xpub_derive_child (mkXPub G ex_attrs) (2 ^ 31) = Err EChildNumber.
Proof. exact DeriveThms.c51_example. Qed.

(** ** C52. Public and private derivation agree.  For every extended private key and every non-hardened child
    number, deriving the child and then taking its public key gives the same extended public key as first
    taking the public key and then deriving; each fails exactly when the other does, with the same error. *)
Theorem C52_public_private_agree : forall (x : xprv) (c : N), valid_xprv x -> c < 2 ^ 31 ->
  xpub_derive_child (xprv_public_key x) c = res_map xprv_public_key (xprv_derive_child x c).
Proof. exact DeriveThms.c52_public_private_agree. Qed.
Print Assumptions C52_public_private_agree.
Example C52_example : xpub_derive_child (mkXPub G ex_attrs) 0 = Ok (xprv_public_key ex1_child).
Proof. exact DeriveThms.c52_example. Qed.

(** ** C53. Watch-only wallets see the same tree.  For every extended private key and every path of non-
    hardened child numbers, deriving along the path and taking the public key equals taking the public key and
    deriving along the path. *)
Theorem C53_watch_only : forall (x : xprv) (p : list N), valid_xprv x -> Forall (fun c => c < 2 ^ 31) p ->
  xpub_derive_from_path (xprv_public_key x) p = res_map xprv_public_key (xprv_derive_from_path x p).
Proof. exact DeriveThms.c53_watch_only. Qed.
Print Assumptions C53_watch_only.
Example C53_example : valid_xprv ex1_xprv /\ xpub_derive_from_path (mkXPub G ex_attrs) [0] = Ok (xprv_public_key ex1_child)
  /\ Forall (fun c => c < 2 ^ 31) [44; 0; 0; 7].
Proof. exact DeriveThms.c53_example. Qed.

(** ** C54. Path derivation composes.  derive_from_path(p ++ q) equals derive_from_path(p) followed by
    derive_from_path(q), the empty path is the identity, a one-step path is derive_child, and
    new_from_path(seed, p) is new(seed) followed by derive_from_path(p); the first error met is the error
    returned. *)
Theorem C54_path_composes : forall (x : xprv) (y : xpub) (seed : bytes) (p q : list N) (c : N),
  xprv_derive_from_path x (p ++ q) = bind (xprv_derive_from_path x p) (fun x' => xprv_derive_from_path x' q)
  /\ xpub_derive_from_path y (p ++ q) = bind (xpub_derive_from_path y p) (fun y' => xpub_derive_from_path y' q)
  /\ xprv_derive_from_path x [] = Ok x /\ xpub_derive_from_path y [] = Ok y
  /\ xprv_derive_from_path x [c] = xprv_derive_child x c /\ xpub_derive_from_path y [c] = xpub_derive_child y c
  /\ xprv_new_from_path seed p = bind (xprv_new seed) (fun x' => xprv_derive_from_path x' p).
Proof. exact DeriveThms.c54_path_composes. Qed.
Print Assumptions C54_path_composes.
Theorem C54_first_error : forall (x : xprv) (y : xpub) (seed : bytes) (p q : list N) (e : error),
  (xprv_derive_from_path x p = Err e -> xprv_derive_from_path x (p ++ q) = Err e)
  /\ (xpub_derive_from_path y p = Err e -> xpub_derive_from_path y (p ++ q) = Err e)
  /\ (xprv_new seed = Err e -> xprv_new_from_path seed p = Err e).
Proof. exact DeriveThms.c54_first_error. Qed.
Print Assumptions C54_first_error.
Example C54_example : xprv_derive_from_path ex1_xprv ([] ++ [0]) = Ok ex1_child /\ xprv_new_from_path [1] [0; 0] = Err ESeedLength.
Proof. exact DeriveThms.c54_example. Qed.

(** ** C55. Depth equals the number of derivation steps.  A key obtained from a key of depth d along a path of
    length l has depth d + l and the path's last child number; derivation along a path with d + l > 255 never
    succeeds. *)
Theorem C55_depth_private : forall (x : xprv) (p : list N), valid_attrs (xprv_attrs x) ->
  (forall y, xprv_derive_from_path x p = Ok y ->
     depth (xprv_attrs y) = depth (xprv_attrs x) + len p /\ (p <> [] -> child_number (xprv_attrs y) = last p 0))
  /\ (255 < depth (xprv_attrs x) + len p -> forall y, xprv_derive_from_path x p <> Ok y).
Proof. exact DeriveThms.c55_depth_private. Qed.
Print Assumptions C55_depth_private.
Theorem C55_depth_public : forall (y : xpub) (p : list N), valid_attrs (xpub_attrs y) ->
  (forall z, xpub_derive_from_path y p = Ok z ->
     depth (xpub_attrs z) = depth (xpub_attrs y) + len p /\ (p <> [] -> child_number (xpub_attrs z) = last p 0))
  /\ (255 < depth (xpub_attrs y) + len p -> forall z, xpub_derive_from_path y p <> Ok z).
Proof. exact DeriveThms.c55_depth_public. Qed.
Print Assumptions C55_depth_public.
Theorem C55_depth_from_seed : forall (seed : bytes) (p : list N) (y : xprv), xprv_new_from_path seed p = Ok y ->
  depth (xprv_attrs y) = len p /\ len p <= 255.
Proof. exact DeriveThms.c55_depth_from_seed. Qed.
Print Assumptions C55_depth_from_seed.
Example C55_example : xprv_derive_from_path ex1_xprv [0] = Ok ex1_child /\ depth (xprv_attrs ex1_child) = 1.
Proof. exact DeriveThms.c55_example. Qed.

(** ** C56. Hardened children cannot be derived from public keys.  derive_from_path on an extended public key
    fails for every path that contains a hardened component, and no hardened child is ever returned. *)
Theorem C56_hardened_needs_private : forall (y : xpub) (p : list N),
  Forall u32 p -> Exists (fun c => 2 ^ 31 <= c) p -> forall z, xpub_derive_from_path y p <> Ok z.
Proof. exact DeriveThms.c56_hardened_needs_private. Qed.
Print Assumptions C56_hardened_needs_private.
Theorem C56_error : forall (y y' : xpub) (p q : list N) (c : N), u32 c -> 2 ^ 31 <= c ->
  xpub_derive_from_path y p = Ok y' -> xpub_derive_from_path y (p ++ c :: q) = Err EChildNumber.
Proof. exact DeriveThms.c56_error. Qed.
Print Assumptions C56_error.
Theorem C56_no_hardened_child : forall (y z : xpub) (p : list N), Forall u32 p -> p <> [] ->
  xpub_derive_from_path y p = Ok z -> child_number (xpub_attrs z) < 2 ^ 31.
Proof. exact DeriveThms.c56_no_hardened_child. Qed.
Print Assumptions C56_no_hardened_child.
Example C56_example : xpub_derive_from_path (mkXPub G ex_attrs) [0; 2 ^ 31 + 5; 1] = Err EChildNumber.
Proof. exact DeriveThms.c56_example. Qed.

(** ** C57. Derived keys are valid keys.  Every extended private key that can be built by new, from_str and
    any sequence of derivations holds a scalar in 1..n-1, and its public key, as well as every public key
    derived from it, is a finite curve point. *)
Theorem C57_private_keys_valid : forall x : xprv, built_xprv x ->
  (0 < private_key x < secp_n)%Z /\ valid_attrs (xprv_attrs x)
  /\ is_public_point (private_key x) (public_key (xprv_public_key x))
  /\ public_key (xprv_public_key x) <> Infinity /\ on_curve (public_key (xprv_public_key x)).
Proof. exact DeriveThms.c57_private_keys_valid. Qed.
Print Assumptions C57_private_keys_valid.
Theorem C57_public_keys_valid : forall y : xpub, built_xpub y ->
  public_key y <> Infinity /\ on_curve (public_key y) /\ valid_attrs (xpub_attrs y).
Proof. exact DeriveThms.c57_public_keys_valid. Qed.
Print Assumptions C57_public_keys_valid.
Example C57_example : built_xprv ex_xprv /\ built_xpub ex_xpub.
Proof. exact DeriveThms.c57_example. Qed.

(** ** C58. Parent fingerprint links parent and child.  For every successful derivation, private or public,
    the child's parent_fingerprint equals fingerprint() of the parent's extended public key. *)
Theorem C58_fingerprint_private : forall (x y : xprv) (c : N), valid_xprv x -> xprv_derive_child x c = Ok y ->
  parent_fingerprint (xprv_attrs y) = xpub_fingerprint (xprv_public_key x)
  /\ is_fingerprint (public_key (xprv_public_key x)) (parent_fingerprint (xprv_attrs y)).
Proof. exact DeriveThms.c58_fingerprint_private. Qed.
Print Assumptions C58_fingerprint_private.
Theorem C58_fingerprint_public : forall (y z : xpub) (c : N), valid_xpub y -> xpub_derive_child y c = Ok z ->
  parent_fingerprint (xpub_attrs z) = xpub_fingerprint y /\ is_fingerprint (public_key y) (parent_fingerprint (xpub_attrs z)).
Proof. exact DeriveThms.c58_fingerprint_public. Qed.
Print Assumptions C58_fingerprint_public.
Example C58_example : xprv_derive_child ex1_xprv 0 = Ok ex1_child /\ parent_fingerprint (xprv_attrs ex1_child) = [117; 30; 118; 232].
Proof. exact DeriveThms.c58_example. Qed.

(** ** C59. Derivation reports bad hash output as an error.  As the comment in derive_child says, when the
    left half of the HMAC is zero or not below the group order the derivation returns an error (it does not
    panic). *)
Theorem C59_bad_hash_panics : forall hmac : bytes -> bytes -> bytes,
  (forall (x : xprv) (c : N) (data : bytes), valid_xprv x -> u32 c -> depth (xprv_attrs x) < 255 ->
     priv_data (private_key x) c data -> ~ usable (hmac (chain_code (xprv_attrs x)) data) -> xprv_derive_child_with hmac x c = Panic)
  /\ (forall (y : xpub) (c : N) (data : bytes), valid_xpub y -> c < 2 ^ 31 -> depth (xpub_attrs y) < 255 ->
     pub_data (public_key y) c data -> ~ usable (hmac (chain_code (xpub_attrs y)) data) -> xpub_derive_child_with hmac y c = Panic).
Proof. exact DeriveThms.c59_bad_hash_panics. Qed.
Print Assumptions C59_bad_hash_panics.
Theorem C59_bad_hash_is_error_refuted :
  ~ (forall hmac : bytes -> bytes -> bytes, (forall k m, has_bytes 64 (hmac k m)) ->
       forall (x : xprv) (c : N) (data : bytes), valid_xprv x -> u32 c -> depth (xprv_attrs x) < 255 ->
         priv_data (private_key x) c data -> ~ usable (hmac (chain_code (xprv_attrs x)) data) ->
         exists e, xprv_derive_child_with hmac x c = Err e).
Proof. exact DeriveThms.c59_bad_hash_is_error_refuted. Qed.
Print Assumptions C59_bad_hash_is_error_refuted.
(** Only the master key reports it. *)
Theorem C59_master_key_partial : forall (hmac : bytes -> bytes -> bytes) (seed : bytes), In (length seed) [16; 32; 64; 128]%nat ->
  ~ usable (hmac master_key_text seed) -> xprv_new_with hmac seed = Err ECrypto.
Proof. exact DeriveThms.c59_master_key_partial. Qed.
Print Assumptions C59_master_key_partial.
Example C59_example : ~ usable (repeat 0 64) /\ ~ usable (repeat 255 64) /\ valid_xprv ex1_xprv /\ depth (xprv_attrs ex1_xprv) < 255.
Proof. exact DeriveThms.c59_example. Qed.

(** ** C60. Derivation panics only on bad hash output.  derive_child and derive_from_path (private and public)
    panic only if, for some step, the left half of the HMAC is zero or not below the group order; new,
    to_string, from_str and all other BIP32 entry points never panic. *)
Theorem C60_private_step : forall (x : xprv) (c : N), valid_xprv x -> u32 c ->
  (xprv_derive_child x c = Panic <-> depth (xprv_attrs x) < 255 /\ priv_hash_bad x c).
Proof. exact DeriveThms.c60_private_step. Qed.
Print Assumptions C60_private_step.
Theorem C60_public_step : forall (y : xpub) (c : N), valid_xpub y -> u32 c ->
  (xpub_derive_child y c = Panic <-> c < 2 ^ 31 /\ depth (xpub_attrs y) < 255 /\ pub_hash_bad y c).
Proof. exact DeriveThms.c60_public_step. Qed.
Print Assumptions C60_public_step.
Theorem C60_private_path : forall (x : xprv) (p : list N), valid_xprv x -> Forall u32 p ->
  (xprv_derive_from_path x p = Panic <->
   exists p1 c p2 y, p = p1 ++ c :: p2 /\ xprv_derive_from_path x p1 = Ok y /\ depth (xprv_attrs y) < 255 /\ priv_hash_bad y c).
Proof. exact DeriveThms.c60_private_path. Qed.
Print Assumptions C60_private_path.
Theorem C60_public_path : forall (y : xpub) (p : list N), valid_xpub y -> Forall u32 p ->
  (xpub_derive_from_path y p = Panic <->
   exists p1 c p2 z, p = p1 ++ c :: p2 /\ xpub_derive_from_path y p1 = Ok z /\ c < 2 ^ 31 /\ depth (xpub_attrs z) < 255 /\ pub_hash_bad z c).
Proof. exact DeriveThms.c60_public_path. Qed.
Print Assumptions C60_public_path.
Theorem C60_seed_path : forall (seed : bytes) (p : list N), bytes_ok seed -> Forall u32 p -> xprv_new_from_path seed p = Panic ->
  exists x p1 c p2 y, xprv_new seed = Ok x /\ p = p1 ++ c :: p2 /\ xprv_derive_from_path x p1 = Ok y /\ priv_hash_bad y c.
Proof. exact DeriveThms.c60_seed_path. Qed.
Print Assumptions C60_seed_path.
Theorem C60_other_entry_points : forall (s : str) (b seed : bytes) (v : N) (x : xprv) (y : xpub) (e : extended_key) (p : prefix),
  xprv_new seed <> Panic /\ ek_from_str s <> Panic /\ xprv_from_str s <> Panic /\ xpub_from_str s <> Panic
  /\ (valid_ext e -> ek_to_string e <> Panic /\ xprv_try_from e <> Panic /\ xpub_try_from e <> Panic)
  /\ (valid_prefix p -> prefix_as_str p <> Panic /\ (valid_xprv x -> xprv_to_string x p <> Panic) /\ (valid_xpub y -> xpub_to_string y p <> Panic))
  /\ prefix_from_version v <> Panic /\ prefix_try_from_slice b <> Panic
  /\ child_from_str s <> Panic /\ path_from_str s <> Panic /\ (forall hardened, child_new v hardened <> Panic).
Proof. exact DeriveThms.c60_other_entry_points. Qed.
Print Assumptions C60_other_entry_points.
Example C60_example : ~ priv_hash_bad ex1_xprv 0 /\ xprv_derive_child ex1_xprv 0 = Ok ex1_child.
Proof. exact DeriveThms.c60_example. Qed.
