(** Extended keys over any key type C133 - C138.

    Statements only: every theorem is closed by the lemma of the same name (in lower case) in
    GenericThms.v.  Generated by tools/gen_prop.py. *)
From Coq Require Import String.
From Verif Require Import Outcome Bytes Str Hash Secp ModelBip32 SpecSecp SpecBip32 ModelGeneric SpecGeneric.
From Verif Require GenericThms.
Import GenericThms(ex_toy).
Open Scope N_scope.

(** ** C133. Derivation steps and paths work the same for every key type.  For every implementation of the
    traits PrivateKey and PublicKey, derive_child hands the left half of HMAC-SHA512 (of the data BIP32
    prescribes) to the key type and returns exactly its key, error or panic with depth + 1, the parent's
    fingerprint, the child number and the right half, or Depth at depth 255, or ChildNumber for a hardened
    number and a public key; paths compose, depths count steps. XPrv and XPub are the case of libsecp256k1. *)
Theorem C133_private_child : forall (K P : Type) (T : private_impl K P) (x : gxprv K) (c : N) (ib : bytes), u32 c -> is_ser32 c ib ->
  let data := (if 2 ^ 31 <=? c then [0] ++ prv_to_bytes T (g_private_key x)
               else pub_to_bytes (prv_public T) (prv_public_key T (g_private_key x))) ++ ib in
  let I := hmac_sha512 (chain_code (gxprv_attrs x)) data in
  (forall y, gxprv_derive_child T x c = Ok y <->
     depth (gxprv_attrs x) < 255 /\ prv_derive_child T (g_private_key x) (firstn 32 I) = Ok (g_private_key y)
     /\ gxprv_attrs y = mkAttrs (depth (gxprv_attrs x) + 1) (gxpub_fingerprint (prv_public T) (gxprv_public_key T x)) c (right_half I))
  /\ (forall e, gxprv_derive_child T x c = Err e <->
     (255 <= depth (gxprv_attrs x) /\ e = EDepth)
     \/ (depth (gxprv_attrs x) < 255 /\ prv_derive_child T (g_private_key x) (firstn 32 I) = Err e))
  /\ (gxprv_derive_child T x c = Panic <->
     depth (gxprv_attrs x) < 255 /\ prv_derive_child T (g_private_key x) (firstn 32 I) = Panic).
Proof. exact GenericThms.c133_private_child. Qed.
Print Assumptions C133_private_child.
Theorem C133_public_child : forall (P : Type) (T : public_impl P) (x : gxpub P) (c : N) (ib : bytes), u32 c -> is_ser32 c ib ->
  let I := hmac_sha512 (chain_code (gxpub_attrs x)) (pub_to_bytes T (g_public_key x) ++ ib) in
  (forall y, gxpub_derive_child T x c = Ok y <->
     c < 2 ^ 31 /\ depth (gxpub_attrs x) < 255 /\ pub_derive_child T (g_public_key x) (firstn 32 I) = Ok (g_public_key y)
     /\ gxpub_attrs y = mkAttrs (depth (gxpub_attrs x) + 1) (gxpub_fingerprint T x) c (right_half I))
  /\ (forall e, gxpub_derive_child T x c = Err e <->
     (2 ^ 31 <= c /\ e = EChildNumber)
     \/ (c < 2 ^ 31 /\ 255 <= depth (gxpub_attrs x) /\ e = EDepth)
     \/ (c < 2 ^ 31 /\ depth (gxpub_attrs x) < 255 /\ pub_derive_child T (g_public_key x) (firstn 32 I) = Err e))
  /\ (gxpub_derive_child T x c = Panic <->
     c < 2 ^ 31 /\ depth (gxpub_attrs x) < 255 /\ pub_derive_child T (g_public_key x) (firstn 32 I) = Panic).
Proof. exact GenericThms.c133_public_child. Qed.
Print Assumptions C133_public_child.
Theorem C133_paths_compose : forall (K P : Type) (T : private_impl K P) (U : public_impl P) (x : gxprv K) (y : gxpub P) (seed : bytes) (p q : list N) (c : N),
  gxprv_derive_from_path T x (p ++ q) = bind (gxprv_derive_from_path T x p) (fun x' => gxprv_derive_from_path T x' q)
  /\ gxpub_derive_from_path U y (p ++ q) = bind (gxpub_derive_from_path U y p) (fun y' => gxpub_derive_from_path U y' q)
  /\ gxprv_derive_from_path T x [] = Ok x /\ gxpub_derive_from_path U y [] = Ok y
  /\ gxprv_derive_from_path T x [c] = gxprv_derive_child T x c /\ gxpub_derive_from_path U y [c] = gxpub_derive_child U y c
  /\ gxprv_new_from_path T seed p = bind (gxprv_new T seed) (fun x' => gxprv_derive_from_path T x' p).
Proof. exact GenericThms.c133_paths_compose. Qed.
Print Assumptions C133_paths_compose.
(** The depth is the number of steps, at most 255, and the last step gives the child number. *)
Theorem C133_depth : forall (K P : Type) (T : private_impl K P) (U : public_impl P) (x x' : gxprv K) (y y' : gxpub P) (p : list N),
  (gxprv_derive_from_path T x p = Ok x' ->
     depth (gxprv_attrs x') = depth (gxprv_attrs x) + len p
     /\ (p <> [] -> depth (gxprv_attrs x') <= 255 /\ child_number (gxprv_attrs x') = last p 0))
  /\ (gxpub_derive_from_path U y p = Ok y' ->
     depth (gxpub_attrs y') = depth (gxpub_attrs y) + len p
     /\ (p <> [] -> depth (gxpub_attrs y') <= 255 /\ child_number (gxpub_attrs y') = last p 0)).
Proof. exact GenericThms.c133_depth. Qed.
Print Assumptions C133_depth.
(** No public path passes a hardened number, whatever the key type. *)
Theorem C133_hardened : forall (P : Type) (U : public_impl P) (y y' : gxpub P) (p q : list N) (c : N), u32 c -> 2 ^ 31 <= c ->
  gxpub_derive_from_path U y p = Ok y' -> gxpub_derive_from_path U y (p ++ c :: q) = Err EChildNumber.
Proof. exact GenericThms.c133_hardened. Qed.
Print Assumptions C133_hardened.
(** XPrv and XPub are the case of libsecp256k1. *)
Theorem C133_libsecp : forall (x : xprv) (y : xpub) (seed : bytes) (p : list N) (s : str) (q : prefix),
  gxprv_new_from_path libsecp_private seed p = res_map to_generic (xprv_new_from_path seed p)
  /\ gxprv_derive_from_path libsecp_private (to_generic x) p = res_map to_generic (xprv_derive_from_path x p)
  /\ gxpub_derive_from_path libsecp_public (to_generic_pub y) p = res_map to_generic_pub (xpub_derive_from_path y p)
  /\ gxprv_public_key libsecp_private (to_generic x) = to_generic_pub (xprv_public_key x)
  /\ gxpub_fingerprint libsecp_public (to_generic_pub y) = xpub_fingerprint y
  /\ gxprv_from_str libsecp_private s = res_map to_generic (xprv_from_str s)
  /\ gxpub_from_str libsecp_public s = res_map to_generic_pub (xpub_from_str s)
  /\ gxprv_to_string libsecp_private (to_generic x) q = xprv_to_string x q
  /\ gxpub_to_string libsecp_public (to_generic_pub y) q = xpub_to_string y q.
Proof. exact GenericThms.c133_libsecp. Qed.
Print Assumptions C133_libsecp.
Example C133_example : gxprv_derive_from_path toy_private ex_toy [0; 0] = Err EDepth
  /\ match gxprv_derive_child toy_private ex_toy (2 ^ 31) with Ok y => depth (gxprv_attrs y) = 255 | _ => False end.
Proof. exact GenericThms.c133_example. Qed.

(** ** C134. Texts of extended keys over every key type.  For every key type that reads back the keys it
    writes, reading the text of an extended key under the standard prefixes gives the key back; if the key
    type reads only what it writes, every text that is read is what is written again; no text is read both as
    a private and as a public key, even with unrelated key types. *)
Theorem C134_private_round_trip : forall (K P : Type) (T : private_impl K P) (x : gxprv K) (p : prefix),
  private_typed T -> valid_attrs (gxprv_attrs x) -> In p prv_prefixes ->
  exists s, gxprv_to_string T x p = Ok s /\ length s = 111%nat /\ firstn 4 s = chars p
    /\ gxprv_from_str T s = res_map (fun k => mkGXPrv k (gxprv_attrs x)) (prv_from_bytes T (prv_to_bytes T (g_private_key x)))
    /\ (prv_from_bytes T (prv_to_bytes T (g_private_key x)) = Ok (g_private_key x) -> gxprv_from_str T s = Ok x).
Proof. exact GenericThms.c134_private_round_trip. Qed.
Print Assumptions C134_private_round_trip.
Theorem C134_public_round_trip : forall (P : Type) (T : public_impl P) (y : gxpub P) (p : prefix),
  public_typed T -> valid_attrs (gxpub_attrs y) -> In p pub_prefixes ->
  exists s, gxpub_to_string T y p = Ok s /\ length s = 111%nat /\ firstn 4 s = chars p
    /\ gxpub_from_str T s = res_map (fun k => mkGXPub k (gxpub_attrs y)) (pub_from_bytes T (pub_to_bytes T (g_public_key y)))
    /\ (pub_from_bytes T (pub_to_bytes T (g_public_key y)) = Ok (g_public_key y) -> gxpub_from_str T s = Ok y).
Proof. exact GenericThms.c134_public_round_trip. Qed.
Print Assumptions C134_public_round_trip.
(** What is read is what is written again, if the key type reads only what it writes. *)
Theorem C134_strict : forall (K P : Type) (T : private_impl K P) (s : str) (x : gxprv K),
  (forall b k, has_bytes 32 b -> prv_from_bytes T b = Ok k -> prv_to_bytes T k = b) -> gxprv_from_str T s = Ok x ->
  valid_attrs (gxprv_attrs x) /\ exists p, valid_prefix p /\ skipn 1 (chars p) = lit "prv" /\ chars p = firstn 4 s /\ gxprv_to_string T x p = Ok s.
Proof. exact GenericThms.c134_strict. Qed.
Print Assumptions C134_strict.
Theorem C134_strict_public : forall (P : Type) (T : public_impl P) (s : str) (y : gxpub P),
  (forall b k, has_bytes 33 b -> pub_from_bytes T b = Ok k -> pub_to_bytes T k = b) -> gxpub_from_str T s = Ok y ->
  valid_attrs (gxpub_attrs y) /\ exists p, valid_prefix p /\ skipn 1 (chars p) = lit "pub" /\ chars p = firstn 4 s /\ gxpub_to_string T y p = Ok s.
Proof. exact GenericThms.c134_strict_public. Qed.
Print Assumptions C134_strict_public.
(** No text is read both as a private and as a public key, even with unrelated key types. *)
Theorem C134_never_both : forall (K P Q : Type) (T : private_impl K P) (U : public_impl Q) (s : str) (x : gxprv K) (y : gxpub Q),
  gxprv_from_str T s = Ok x -> gxpub_from_str U s = Ok y -> False.
Proof. exact GenericThms.c134_never_both. Qed.
Print Assumptions C134_never_both.
(** Another key type, for which 0 is a key. *)
Example C134_example : private_typed toy_private
  /\ exists s, gxprv_to_string toy_private (mkGXPrv 0 (gxprv_attrs ex_toy)) XPRV = Ok s
     /\ gxprv_from_str toy_private s = Ok (mkGXPrv 0 (gxprv_attrs ex_toy)) /\ xprv_from_str s = Err ECrypto.
Proof. exact GenericThms.c134_example. Qed.

(** ** C135. Watch-only wallets work for every key type whose derivation commutes.  If for a key type deriving
    and then taking the public key is the same as taking the public key and then deriving, the same holds for
    extended keys along every path of non-hardened numbers, errors and panics included. libsecp256k1 keys
    satisfy the condition. *)
Theorem C135_one_step : forall (K P : Type) (T : private_impl K P) (good : K -> Prop) (x : gxprv K) (c : N),
  derivation_commutes T good -> good (g_private_key x) -> c < 2 ^ 31 ->
  gxpub_derive_child (prv_public T) (gxprv_public_key T x) c = res_map (gxprv_public_key T) (gxprv_derive_child T x c).
Proof. exact GenericThms.c135_one_step. Qed.
Print Assumptions C135_one_step.
Theorem C135_paths : forall (K P : Type) (T : private_impl K P) (good : K -> Prop) (x : gxprv K) (p : list N),
  derivation_commutes T good -> good (g_private_key x) -> Forall (fun c => c < 2 ^ 31) p ->
  gxpub_derive_from_path (prv_public T) (gxprv_public_key T x) p = res_map (gxprv_public_key T) (gxprv_derive_from_path T x p).
Proof. exact GenericThms.c135_paths. Qed.
Print Assumptions C135_paths.
(** libsecp256k1 satisfies the condition. *)
Theorem C135_libsecp : derivation_commutes libsecp_private (fun k => (0 < k < secp_n)%Z).
Proof. exact GenericThms.c135_libsecp. Qed.
Print Assumptions C135_libsecp.
Example C135_example : derivation_commutes toy_private (fun _ => True)
  /\ gxpub_derive_from_path toy_public (gxprv_public_key toy_private ex_toy) [7]
     = res_map (gxprv_public_key toy_private) (gxprv_derive_from_path toy_private ex_toy [7]).
Proof. exact GenericThms.c135_example. Qed.

(** ** C136. Equal extended private keys of every key type hold the same key.  For every key type, two
    extended private keys that compare equal with == hold the same private key. FALSE for every key type with
    at least two keys: ct_eq takes both keys from self, so == compares the attributes and nothing else. *)
Theorem C136_equality : forall (K P : Type) (T : private_impl K P) (x y : gxprv K),
  gxprv_eq T x y = true <-> gxprv_attrs x = gxprv_attrs y.
Proof. exact GenericThms.c136_equality. Qed.
Print Assumptions C136_equality.
Theorem C136_same_key_refuted : forall (K P : Type) (T : private_impl K P) (k k' : K), k <> k' ->
  ~ (forall x y : gxprv K, gxprv_eq T x y = true -> g_private_key x = g_private_key y).
Proof. exact GenericThms.c136_same_key_refuted. Qed.
Print Assumptions C136_same_key_refuted.
Example C136_example : gxprv_eq toy_private (mkGXPrv 1 (gxprv_attrs ex_toy)) (mkGXPrv 2 (gxprv_attrs ex_toy)) = true
  /\ gxprv_eq toy_private ex_toy (mkGXPrv 5 (mkAttrs 254 [1; 2; 3; 4] 8 (repeat 9 32))) = false.
Proof. exact GenericThms.c136_example. Qed.

(** ** C137. Extended keys panic only if the key type does.  For every key type whose own functions do not
    panic, no operation on extended keys panics: new, new_from_path, derive_child, derive_from_path, from_str,
    to_string. libsecp256k1's derive_child, as implemented in private_key.rs and public_key.rs, panics exactly
    on the tweak 0 and on tweaks from n on. *)
Theorem C137_no_panics : forall (K P : Type) (T : private_impl K P), private_typed T -> never_panics T ->
  forall (x : gxprv K) (y : gxpub P) (seed : bytes) (p : list N) (s : str) (q : prefix),
  gxprv_new_from_path T seed p <> Panic /\ gxprv_derive_from_path T x p <> Panic /\ gxpub_derive_from_path (prv_public T) y p <> Panic
  /\ gxprv_from_str T s <> Panic /\ gxpub_from_str (prv_public T) s <> Panic
  /\ (valid_prefix q -> valid_attrs (gxprv_attrs x) -> gxprv_to_string T x q <> Panic)
  /\ (valid_prefix q -> valid_attrs (gxpub_attrs y) -> gxpub_to_string (prv_public T) y q <> Panic).
Proof. exact GenericThms.c137_no_panics. Qed.
Print Assumptions C137_no_panics.
(** libsecp256k1's implementation is one that panics: on the tweak 0 and on every tweak from n on. *)
Theorem C137_libsecp_panics : forall (k : Z) (t : bytes), has_bytes 32 t ->
  (prv_derive_child libsecp_private k t = Panic <-> (left_half t = 0 \/ secp_n <= left_half t)%Z).
Proof. exact GenericThms.c137_libsecp_panics. Qed.
Print Assumptions C137_libsecp_panics.
Example C137_example : never_panics toy_private /\ ~ never_panics libsecp_private.
Proof. exact GenericThms.c137_example. Qed.

(** ** C138. XPrv::new accepts exactly the seed lengths of BIP32.  XPrv::new refuses a seed for its length
    exactly if it is shorter than 128 or longer than 512 bits. FALSE: of the lengths allowed only 16, 32 and
    64 bytes are taken, and 128 bytes (1024 bits) are taken although BIP32 does not allow them. *)
Theorem C138_seed_lengths_refuted : ~ (forall seed : bytes, bytes_ok seed -> (xprv_new seed = Err ESeedLength <-> ~ bip32_seed seed)).
Proof. exact GenericThms.c138_seed_lengths_refuted. Qed.
Print Assumptions C138_seed_lengths_refuted.
(** Which lengths are refused: most of those BIP32 allows, and 128 bytes are taken, which it does not allow. *)
Theorem C138_refused_lengths : forall seed : bytes, bytes_ok seed ->
  (xprv_new seed = Err ESeedLength <-> ~ In (len seed) [16; 32; 64; 128]).
Proof. exact GenericThms.c138_refused_lengths. Qed.
Print Assumptions C138_refused_lengths.
(** For the lengths that are not refused wrongly the check does what BIP32 says. *)
Theorem C138_seed_lengths_partial : forall seed : bytes, bytes_ok seed ->
  len seed <= 16 \/ len seed = 32 \/ 64 <= len seed < 128 \/ 128 < len seed ->
  (xprv_new seed = Err ESeedLength <-> ~ bip32_seed seed).
Proof. exact GenericThms.c138_seed_lengths_partial. Qed.
Print Assumptions C138_seed_lengths_partial.
Example C138_example : xprv_new (repeat 0 24) = Err ESeedLength /\ bip32_seed (repeat 0 24)
  /\ ~ bip32_seed (repeat 0 128) /\ xprv_new (repeat 0 128) <> Err ESeedLength.
Proof. exact GenericThms.c138_example. Qed.
