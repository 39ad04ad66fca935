(** The traits PrivateKey and PublicKey and the extended keys over any types that implement them.

    ExtendedPrivateKey<K> and ExtendedPublicKey<K> are public and generic, so users of the crate can plug in
    their own key types.  An implementation of a trait is a record of its functions.  Simplified: the
    functions of an implementation are functions of their arguments (no hidden state), and [to_bytes],
    [public_key] and [fingerprint] return (they are infallible in the trait); [from_bytes] and [derive_child]
    may return any error or panic.  XPrv and XPub of ModelBip32.v are the case of [libsecp_private] and
    [libsecp_public]. *)
From Coq Require Import String.
From Verif Require Import Outcome Bytes Str Hash Ripemd Secp ModelBip32.
Open Scope N_scope.

(** src/bip32/public_key.rs:18-35, trait PublicKey *)
Record public_impl (P : Type) := mkPublicImpl {
  pub_from_bytes : bytes -> R32 P;
  pub_to_bytes : P -> bytes;
  pub_derive_child : P -> bytes -> R32 P;
  pub_fingerprint : P -> bytes }.
Arguments pub_from_bytes {P}. Arguments pub_to_bytes {P}.
Arguments pub_derive_child {P}. Arguments pub_fingerprint {P}.
(** src/bip32/private_key.rs:12-29, trait PrivateKey *)
Record private_impl (K P : Type) := mkPrivateImpl {
  prv_public : public_impl P;
  prv_from_bytes : bytes -> R32 K;
  prv_to_bytes : K -> bytes;
  prv_derive_child : K -> bytes -> R32 K;
  prv_public_key : K -> P }.
Arguments prv_public {K P}. Arguments prv_from_bytes {K P}. Arguments prv_to_bytes {K P}.
Arguments prv_derive_child {K P}. Arguments prv_public_key {K P}.

(** src/bip32/public_key.rs:31-34, the default fingerprint *)
Definition default_fingerprint {P} (to_bytes : P -> bytes) (k : P) : bytes :=
  firstn 4 (ripemd160 (sha256 (to_bytes k))).

(** src/bip32/public_key.rs:37-56 *)
Definition libsecp_public : public_impl point :=
  mkPublicImpl point public_from_bytes public_to_bytes public_derive_child (default_fingerprint public_to_bytes).
(** src/bip32/private_key.rs:32-58 *)
Definition libsecp_private : private_impl Z point :=
  mkPrivateImpl Z point libsecp_public private_from_bytes private_to_bytes private_derive_child private_public_key.

(** src/bip32/extended_key/extended_private_key.rs:36-42 *)
Record gxprv (K : Type) := mkGXPrv { g_private_key : K; gxprv_attrs : attrs }.
Arguments mkGXPrv {K}. Arguments g_private_key {K}. Arguments gxprv_attrs {K}.
(** src/bip32/extended_key/extended_public_key.rs:24-30 *)
Record gxpub (P : Type) := mkGXPub { g_public_key : P; gxpub_attrs : attrs }.
Arguments mkGXPub {P}. Arguments g_public_key {P}. Arguments gxpub_attrs {P}.

(** src/bip32/extended_key/extended_private_key.rs:63-85, new *)
Definition gxprv_new {K P} (T : private_impl K P) (seed : bytes) : R32 (gxprv K) :=
  if negb (existsb (N.eqb (len seed)) [16; 32; 64; 128]) then Err ESeedLength
  else
    let result := hmac_sha512 bip39_domain_separator seed in
    let* k := prv_from_bytes T (firstn 32 result) in
    Ok (mkGXPrv k (mkAttrs 0 (repeat 0 4) 0 (skipn 32 result))).
(** src/bip32/extended_key/extended_private_key.rs:97-134, derive_child *)
Definition gxprv_derive_child {K P} (T : private_impl K P) (x : gxprv K) (c : N) : R32 (gxprv K) :=
  let* d := ok_or (checked_add 8 (depth (gxprv_attrs x)) 1) EDepth in
  let data := (if child_is_hardened c then [0] ++ prv_to_bytes T (g_private_key x)
               else pub_to_bytes (prv_public T) (prv_public_key T (g_private_key x))) ++ child_to_bytes c in
  let result := hmac_sha512 (chain_code (gxprv_attrs x)) data in
  let* k := prv_derive_child T (g_private_key x) (firstn 32 result) in
  Ok (mkGXPrv k (mkAttrs d (pub_fingerprint (prv_public T) (prv_public_key T (g_private_key x))) c (skipn 32 result))).
(** src/bip32/extended_key/extended_public_key.rs:62-88, derive_child *)
Definition gxpub_derive_child {P} (T : public_impl P) (y : gxpub P) (c : N) : R32 (gxpub P) :=
  if child_is_hardened c then Err EChildNumber
  else
    let* d := ok_or (checked_add 8 (depth (gxpub_attrs y)) 1) EDepth in
    let result := hmac_sha512 (chain_code (gxpub_attrs y)) (pub_to_bytes T (g_public_key y) ++ child_to_bytes c) in
    let* k := pub_derive_child T (g_public_key y) (firstn 32 result) in
    Ok (mkGXPub k (mkAttrs d (pub_fingerprint T (g_public_key y)) c (skipn 32 result))).
(** src/bip32/extended_key/extended_private_key.rs:53-60, new_from_path *)
Definition gxprv_new_from_path {K P} (T : private_impl K P) (seed : bytes) (p : path) : R32 (gxprv K) :=
  fold_left (fun maybe_key c => let* key := maybe_key in gxprv_derive_child T key c) p (gxprv_new T seed).
(** src/bip32/extended_key/extended_private_key.rs:87-94, derive_from_path *)
Definition gxprv_derive_from_path {K P} (T : private_impl K P) (x : gxprv K) (p : path) : R32 (gxprv K) :=
  fold_left (fun maybe_key c => let* key := maybe_key in gxprv_derive_child T key c) p (Ok x).
(** src/bip32/extended_key/extended_public_key.rs:52-59, derive_from_path *)
Definition gxpub_derive_from_path {P} (T : public_impl P) (y : gxpub P) (p : path) : R32 (gxpub P) :=
  fold_left (fun maybe_key c => let* key := maybe_key in gxpub_derive_child T key c) p (Ok y).

(** src/bip32/extended_key/extended_private_key.rs:142-144 with extended_public_key.rs:112-122 *)
Definition gxprv_public_key {K P} (T : private_impl K P) (x : gxprv K) : gxpub P :=
  mkGXPub (prv_public_key T (g_private_key x)) (gxprv_attrs x).
(** src/bip32/extended_key/extended_public_key.rs:48-50, fingerprint *)
Definition gxpub_fingerprint {P} (T : public_impl P) (y : gxpub P) : bytes := pub_fingerprint T (g_public_key y).
(** src/bip32/extended_key/extended_private_key.rs:158-168, to_extended_key *)
Definition gxprv_to_extended_key {K P} (T : private_impl K P) (x : gxprv K) (p : prefix) : extended_key :=
  mkExt p (gxprv_attrs x) (0 :: prv_to_bytes T (g_private_key x)).
(** src/bip32/extended_key/extended_public_key.rs:96-102, to_extended_key *)
Definition gxpub_to_extended_key {P} (T : public_impl P) (y : gxpub P) (p : prefix) : extended_key :=
  mkExt p (gxpub_attrs y) (pub_to_bytes T (g_public_key y)).
(** src/bip32/extended_key/extended_private_key.rs:173-175, extended_public_key.rs:107-109, to_string *)
Definition gxprv_to_string {K P} (T : private_impl K P) (x : gxprv K) (p : prefix) : R32 str :=
  ek_to_string (gxprv_to_extended_key T x p).
Definition gxpub_to_string {P} (T : public_impl P) (y : gxpub P) (p : prefix) : R32 str :=
  ek_to_string (gxpub_to_extended_key T y p).
(** src/bip32/extended_key/extended_private_key.rs:245-254, TryFrom<ExtendedKey> *)
Definition gxprv_try_from {K P} (T : private_impl K P) (e : extended_key) : R32 (gxprv K) :=
  if prefix_is_private (ek_prefix e) then
    let* b := index (key_bytes e) 0 in
    if b =? 0 then
      let* k := prv_from_bytes T (skipn 1 (key_bytes e)) in Ok (mkGXPrv k (ek_attrs e))
    else Err ECrypto
  else Err ECrypto.
(** src/bip32/extended_key/extended_public_key.rs:141-150, TryFrom<ExtendedKey> *)
Definition gxpub_try_from {P} (T : public_impl P) (e : extended_key) : R32 (gxpub P) :=
  if prefix_is_public (ek_prefix e) then
    let* k := pub_from_bytes T (key_bytes e) in Ok (mkGXPub k (ek_attrs e))
  else Err ECrypto.
(** src/bip32/extended_key/extended_private_key.rs:234-236, extended_public_key.rs:130-132, FromStr *)
Definition gxprv_from_str {K P} (T : private_impl K P) (s : str) : R32 (gxprv K) :=
  let* e := ek_from_str s in gxprv_try_from T e.
Definition gxpub_from_str {P} (T : public_impl P) (s : str) : R32 (gxpub P) :=
  let* e := ek_from_str s in gxpub_try_from T e.

(** src/bip32/extended_key/extended_private_key.rs:182-200, ct_eq, and 218-226, PartialEq
    ([key_b] is taken from [self], as in the source) *)
Definition gxprv_eq {K P} (T : private_impl K P) (self other : gxprv K) : bool :=
  let key_a := prv_to_bytes T (g_private_key self) in
  let key_b := prv_to_bytes T (g_private_key self) in
  bytes_eqb key_a key_b
  && (depth (gxprv_attrs self) =? depth (gxprv_attrs other))
  && bytes_eqb (parent_fingerprint (gxprv_attrs self)) (parent_fingerprint (gxprv_attrs other))
  && (child_number (gxprv_attrs self) =? child_number (gxprv_attrs other))
  && bytes_eqb (chain_code (gxprv_attrs self)) (chain_code (gxprv_attrs other)).

(** XPrv as the instance (extended_private_key.rs:29) and XPub (extended_public_key.rs:19) *)
Definition to_generic (x : xprv) : gxprv Z := mkGXPrv (private_key x) (xprv_attrs x).
Definition to_generic_pub (y : xpub) : gxpub point := mkGXPub (public_key y) (xpub_attrs y).

(** A key type for the examples: numbers below 2^256, derivation is addition, the public key is the number
    itself behind the tag 2.  (Not a key type anybody should use.) *)
Definition toy_public : public_impl N :=
  mkPublicImpl N (fun b => match b with 2 :: b' => Ok (be_val b') | _ => Err ECrypto end)
    (fun k => 2 :: be_bytes 32 k) (fun k t => Ok ((k + be_val t) mod 2 ^ 256))
    (default_fingerprint (fun k => 2 :: be_bytes 32 k)).
Definition toy_private : private_impl N N :=
  mkPrivateImpl N N toy_public (fun b => Ok (be_val b)) (fun k => be_bytes 32 k)
    (fun k t => Ok ((k + be_val t) mod 2 ^ 256)) (fun k => k).
