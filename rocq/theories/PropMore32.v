(** Further properties of keys C78 - C89.

    Statements only: every theorem is closed by the lemma of the same name (in lower case) in
    More32Thms.v.  Generated by tools/gen_prop.py. *)
From Coq Require Import String.
From Verif Require Import Outcome Bytes Str Hash Secp SpecSecp ModelBip32 SpecBip32 SpecWallet ModelOrder SpecKeys.
From Verif Require KeyTextThms DeriveThms More32Thms.
Import KeyTextThms(ex_attrs, ex_xprv, ex_xpub).
Import DeriveThms(ex_seed, ex1_xprv, ex1_child, ex1_hardened).
Open Scope N_scope.

(** ** C78. A public parent key and a normal child's private key reveal the parent's private key.  For every
    private key and every path of non-hardened child numbers, the parent's secret equals the descendant's
    secret minus the sum, modulo n, of the left hash halves along the path, all of which are computed from the
    parent's extended public key alone. *)
Theorem C78_child_reveals_parent : forall (x y : xprv) (p : list N), valid_xprv x -> Forall (fun c => c < 2 ^ 31) p ->
  xprv_derive_from_path x p = Ok y ->
  (exists t, pub_tweaks (xprv_public_key x) p t)
  /\ (forall t, pub_tweaks (xprv_public_key x) p t -> private_key x = ((private_key y - t) mod secp_n)%Z).
Proof. exact More32Thms.c78_child_reveals_parent. Qed.
Print Assumptions C78_child_reveals_parent.
(** The secret of the first child (of the key 1) and the tweak of that child, which has to be subtracted. *)
Example C78_example : exists t, pub_tweaks (mkXPub G ex_attrs) [0] t
  /\ t = (private_key ex1_child - 1)%Z /\ ((private_key ex1_child - t) mod secp_n)%Z = private_key ex1_xprv.
Proof. exact More32Thms.c78_example. Qed.

(** ** C79. A public key belongs to one private key.  Two extended private keys with the same extended public
    key are the same, the 33 public key bytes are equal exactly if the secrets are, and so are the texts under
    any prefix. *)
Theorem C79_public_key_identifies : forall x x' : xprv, valid_xprv x -> valid_xprv x' ->
  (xprv_public_key x = xprv_public_key x' <-> x = x')
  /\ (xpub_to_bytes (xprv_public_key x) = xpub_to_bytes (xprv_public_key x') <-> private_key x = private_key x')
  /\ (forall (p : prefix) (s : str), valid_prefix p ->
        xpub_to_string (xprv_public_key x) p = Ok s -> xpub_to_string (xprv_public_key x') p = Ok s -> x = x').
Proof. exact More32Thms.c79_public_key_identifies. Qed.
Print Assumptions C79_public_key_identifies.
Example C79_example : private_key ex1_child <> private_key ex1_hardened
  /\ xpub_to_bytes (xprv_public_key ex1_child) <> xpub_to_bytes (xprv_public_key ex1_hardened).
Proof. exact More32Thms.c79_example. Qed.

(** ** C80. Watch-only wallets verify signatures of derived keys.  A signature made with the key derived
    privately along a non-hardened path verifies under, and recovers to, the key derived publicly along the
    same path. *)
Theorem C80_watch_only_verifies : forall (fuel : nat) (x y : xprv) (p : list N) (msg sig : bytes) (recid : N),
  valid_xprv x -> Forall (fun c => c < 2 ^ 31) p -> xprv_derive_from_path x p = Ok y ->
  ecdsa_sign fuel (secret_of_xprv y) msg = Some (Ok (sig, recid)) ->
  exists z r s rb sb, xpub_derive_from_path (xprv_public_key x) p = Ok z
    /\ sig = rb ++ sb /\ is_ser256 r rb /\ is_ser256 s sb
    /\ (r <> 0%Z -> ecdsa_valid (public_of_xpub z) (digest_val msg) r s
          /\ ecdsa_recovers recid (digest_val msg) r s (public_of_xpub z)).
Proof. exact More32Thms.c80_watch_only_verifies. Qed.
Print Assumptions C80_watch_only_verifies.
Example C80_example : xprv_derive_from_path ex1_xprv [0] = Ok ex1_child
  /\ xpub_derive_from_path (mkXPub G ex_attrs) [0] = Ok (xprv_public_key ex1_child).
Proof. exact More32Thms.c80_example. Qed.

(** ** C81. A signature with recovery id identifies the signer.  For a digest, signature and recovery id there
    is at most one recovered public key; two secrets that return the same signature and recovery id for the
    same digest are equal (unless r is zero). *)
Theorem C81_recovery_is_unique : forall (recid : N) (z r s : Z) (Q Q' : point),
  ecdsa_recovers recid z r s Q -> ecdsa_recovers recid z r s Q' -> Q = Q'.
Proof. exact More32Thms.c81_recovery_is_unique. Qed.
Print Assumptions C81_recovery_is_unique.
Theorem C81_signature_identifies_signer : forall (f f' : nat) (k k' : Z) (msg sig : bytes) (recid : N),
  (0 < k < secp_n)%Z -> (0 < k' < secp_n)%Z ->
  ecdsa_sign f k msg = Some (Ok (sig, recid)) -> ecdsa_sign f' k' msg = Some (Ok (sig, recid)) ->
  firstn 32 sig <> repeat 0 32 -> k = k'.
Proof. exact More32Thms.c81_signature_identifies_signer. Qed.
Print Assumptions C81_signature_identifies_signer.
(** The signature of the digest 5 by the key 1 with the nonce 1 recovers the generator. *)
Example C81_example : ecdsa_recovers 0 5 gx (gx + 5) G /\ forall Q, ecdsa_recovers 0 5 gx (gx + 5) Q -> Q = G.
Proof. exact More32Thms.c81_example. Qed.

(** ** C82. Prefix texts are exact.  Display of a prefix is its four characters; Debug prints them quoted and
    the version as 0x and eight lower-case hex digits, and determines the prefix. *)
Theorem C82_prefix_texts : forall p : prefix, valid_prefix p ->
  prefix_as_str p = Ok (chars p)
  /\ exists vb hex, is_ser32 (version p) vb /\ is_hex vb hex
       /\ prefix_debug p = Ok (lit "Prefix { chars: " ++ quote ++ chars p ++ quote ++ lit ", version: 0x" ++ hex ++ lit " }").
Proof. exact More32Thms.c82_prefix_texts. Qed.
Print Assumptions C82_prefix_texts.
Theorem C82_debug_identifies_prefix : forall p q : prefix, valid_prefix p -> valid_prefix q ->
  prefix_debug p = prefix_debug q -> p = q.
Proof. exact More32Thms.c82_debug_identifies_prefix. Qed.
Print Assumptions C82_debug_identifies_prefix.
Example C82_example : prefix_debug XPUB = Ok (lit "Prefix { chars: " ++ quote ++ lit "xpub" ++ quote ++ lit ", version: 0x0488b21e }").
Proof. exact More32Thms.c82_example. Qed.

(** ** C83. Each BIP32 entry point returns only its own errors.  Error texts are pairwise different; child
    numbers fail only with ChildNumber, paths with Decode or ChildNumber, prefixes with Decode, extended keys
    with Base58 or Decode, typed keys also with Crypto, master keys with SeedLength or Crypto, private
    derivation with Depth or Crypto, public derivation with ChildNumber, Depth or Crypto. Bip39 is never
    returned. *)
Theorem C83_error_texts : forall e e' : error, error_display e = error_display e' -> e = e'.
Proof. exact More32Thms.c83_error_texts. Qed.
Print Assumptions C83_error_texts.
Theorem C83_parsing_errors : forall (s : str) (b : bytes) (v : N) (h : bool) (e : error),
  (child_new v h = Err e -> e = EChildNumber) /\ (child_from_str s = Err e -> e = EChildNumber)
  /\ (path_from_str s = Err e -> e = EDecode \/ e = EChildNumber)
  /\ (prefix_from_version v = Err e -> e = EDecode) /\ (prefix_try_from_slice b = Err e -> e = EDecode)
  /\ (ek_from_str s = Err e -> e = EBase58 \/ e = EDecode)
  /\ (xprv_from_str s = Err e -> e = EBase58 \/ e = EDecode \/ e = ECrypto)
  /\ (xpub_from_str s = Err e -> e = EBase58 \/ e = EDecode \/ e = ECrypto).
Proof. exact More32Thms.c83_parsing_errors. Qed.
Print Assumptions C83_parsing_errors.
Theorem C83_derivation_errors : forall (seed : bytes) (x : xprv) (y : xpub) (c : N) (p : list N) (e : error),
  (xprv_new seed = Err e -> e = ESeedLength \/ e = ECrypto)
  /\ (xprv_derive_child x c = Err e -> e = EDepth \/ e = ECrypto)
  /\ (xprv_derive_from_path x p = Err e -> e = EDepth \/ e = ECrypto)
  /\ (xprv_new_from_path seed p = Err e -> e = ESeedLength \/ e = EDepth \/ e = ECrypto)
  /\ (xpub_derive_child y c = Err e -> e = EChildNumber \/ e = EDepth \/ e = ECrypto)
  /\ (xpub_derive_from_path y p = Err e -> e = EChildNumber \/ e = EDepth \/ e = ECrypto).
Proof. exact More32Thms.c83_derivation_errors. Qed.
Print Assumptions C83_derivation_errors.
(** Each error but Crypto in its place. *)
Example C83_example : child_from_str (lit "2147483648") = Err EChildNumber /\ path_from_str (lit "44/0") = Err EDecode
  /\ path_from_str (lit "m/x") = Err EChildNumber /\ prefix_try_from_slice [1; 2; 3] = Err EDecode
  /\ ek_from_str (lit "xprv0") = Err EBase58 /\ xprv_new [] = Err ESeedLength
  /\ xprv_derive_child (mkXPrv 1 (mkAttrs 255 [0; 0; 0; 0] 0 (repeat 0 32))) 0 = Err EDepth
  /\ error_display ECrypto = lit "cryptographic error".
Proof. exact More32Thms.c83_example. Qed.

(** ** C84. Equal siblings or equal master keys mean a hash collision.  Two different children of a key have
    the same secret exactly if the left halves of two HMAC outputs for different data agree, and the same
    secret and chain code exactly if the outputs agree; two seeds give the same master key exactly if their
    HMAC outputs agree. *)
Theorem C84_siblings_collide : forall (x y1 y2 : xprv) (c1 c2 : N), valid_xprv x -> u32 c1 -> u32 c2 -> c1 <> c2 ->
  xprv_derive_child x c1 = Ok y1 -> xprv_derive_child x c2 = Ok y2 ->
  exists d1 d2, priv_data (private_key x) c1 d1 /\ priv_data (private_key x) c2 d2 /\ d1 <> d2
    /\ (private_key y1 = private_key y2 <->
          left_half (hmac_sha512 (chain_code (xprv_attrs x)) d1) = left_half (hmac_sha512 (chain_code (xprv_attrs x)) d2))
    /\ (private_key y1 = private_key y2 /\ chain_code (xprv_attrs y1) = chain_code (xprv_attrs y2) <->
          hmac_sha512 (chain_code (xprv_attrs x)) d1 = hmac_sha512 (chain_code (xprv_attrs x)) d2).
Proof. exact More32Thms.c84_siblings_collide. Qed.
Print Assumptions C84_siblings_collide.
Theorem C84_seeds_collide : forall (s1 s2 : bytes) (x1 x2 : xprv), bytes_ok s1 -> bytes_ok s2 ->
  xprv_new s1 = Ok x1 -> xprv_new s2 = Ok x2 ->
  (x1 = x2 <-> hmac_sha512 master_key_text s1 = hmac_sha512 master_key_text s2).
Proof. exact More32Thms.c84_seeds_collide. Qed.
Print Assumptions C84_seeds_collide.
Example C84_example : xprv_derive_child ex1_xprv 0 = Ok ex1_child /\ xprv_derive_child ex1_xprv (2 ^ 31) = Ok ex1_hardened
  /\ private_key ex1_child <> private_key ex1_hardened /\ xprv_new ex_seed = Ok ex_xprv.
Proof. exact More32Thms.c84_example. Qed.

(** ** C85. Keys can be stored as text between any two steps.  Deriving along p, writing the key as text under
    any of the standard prefixes, reading it back and deriving along q gives what deriving along p ++ q gives,
    for private and public keys, errors included. *)
Theorem C85_private_keys_travel : forall (x : xprv) (p q : list N) (pre : prefix), valid_xprv x -> Forall u32 p -> In pre prv_prefixes ->
  bind (xprv_derive_from_path x p) (fun y => bind (through_text (fun k => xprv_to_string k pre) xprv_from_str y) (fun z => xprv_derive_from_path z q))
  = xprv_derive_from_path x (p ++ q).
Proof. exact More32Thms.c85_private_keys_travel. Qed.
Print Assumptions C85_private_keys_travel.
Theorem C85_public_keys_travel : forall (x : xpub) (p q : list N) (pre : prefix), valid_xpub x -> Forall u32 p -> In pre pub_prefixes ->
  bind (xpub_derive_from_path x p) (fun y => bind (through_text (fun k => xpub_to_string k pre) xpub_from_str y) (fun z => xpub_derive_from_path z q))
  = xpub_derive_from_path x (p ++ q).
Proof. exact More32Thms.c85_public_keys_travel. Qed.
Print Assumptions C85_public_keys_travel.
Example C85_example : through_text (fun k => xprv_to_string k XPRV) xprv_from_str ex_xprv = Ok ex_xprv /\ valid_xprv ex_xprv.
Proof. exact More32Thms.c85_example. Qed.

(** ** C86. The derived orders are the byte orders.  Child numbers are ordered normal before hardened and then
    by index; attributes are ordered like the number their serialised bytes form; prefixes by characters and
    then version; each order says Equal only for equal values. *)
Theorem C86_child_order : forall c d : N, u32 c -> u32 d ->
  (child_cmp c d = Lt <->
     (child_is_hardened c = false /\ child_is_hardened d = true)
     \/ (child_is_hardened c = child_is_hardened d /\ child_index c < child_index d))
  /\ (child_cmp c d = Eq <-> c = d) /\ child_cmp d c = CompOpp (child_cmp c d).
Proof. exact More32Thms.c86_child_order. Qed.
Print Assumptions C86_child_order.
Theorem C86_attrs_order : forall (a b : attrs) (va vb : N), valid_attrs a -> valid_attrs b ->
  is_attrs_number a va -> is_attrs_number b vb ->
  attrs_cmp a b = (va ?= vb) /\ (attrs_cmp a b = Eq <-> a = b).
Proof. exact More32Thms.c86_attrs_order. Qed.
Print Assumptions C86_attrs_order.
Theorem C86_prefix_order : forall (p q : prefix) (vp vq : N), valid_prefix p -> valid_prefix q ->
  is_prefix_number p vp -> is_prefix_number q vq ->
  prefix_cmp p q = (vp ?= vq) /\ (prefix_cmp p q = Eq <-> p = q).
Proof. exact More32Thms.c86_prefix_order. Qed.
Print Assumptions C86_prefix_order.
(** Child 5 comes before the hardened child 3; tprv before xprv although its version is smaller as well; zpub last. *)
Example C86_example : child_cmp 5 (2 ^ 31 + 3) = Lt /\ prefix_cmp TPRV XPRV = Lt /\ prefix_cmp ZPUB XPUB = Gt
  /\ attrs_cmp (mkAttrs 1 [0; 0; 0; 9] 7 [1]) (mkAttrs 1 [0; 0; 1; 0] 3 [1]) = Lt.
Proof. exact More32Thms.c86_example. Qed.

(** ** C87. Debug of an extended private key shows all attributes.  Two extended private keys have the same
    Debug text exactly if their attributes are the same, which is exactly when == says they are equal. *)
Theorem C87_debug_shows_attributes : forall x y : xprv, valid_xprv x -> valid_xprv y ->
  (xprv_debug x = xprv_debug y <-> xprv_attrs x = xprv_attrs y).
Proof. exact More32Thms.c87_debug_shows_attributes. Qed.
Print Assumptions C87_debug_shows_attributes.
Theorem C87_equality_is_debug_equality : forall x y : xprv, valid_xprv x -> valid_xprv y ->
  (xprv_eq x y = true <-> xprv_debug x = xprv_debug y).
Proof. exact More32Thms.c87_equality_is_debug_equality. Qed.
Print Assumptions C87_equality_is_debug_equality.
Example C87_example : xprv_debug ex1_child <> xprv_debug ex1_hardened /\ xprv_debug ex1_xprv = xprv_debug ex_xprv.
Proof. exact More32Thms.c87_example. Qed.

(** ** C88. Editing a path follows the key tree.  Deriving along push(c) is deriving the child c of the key at
    the path, extend continues the derivation, and the key at a path is the child with the path's last number
    of the key at parent(); parent() is None exactly for the path that derives nothing. *)
Theorem C88_paths_and_keys : forall (x : xprv) (y : xpub) (p l : path) (c : N),
  xprv_derive_from_path x (path_push p c) = bind (xprv_derive_from_path x p) (fun x' => xprv_derive_child x' c)
  /\ xpub_derive_from_path y (path_push p c) = bind (xpub_derive_from_path y p) (fun y' => xpub_derive_child y' c)
  /\ xprv_derive_from_path x (path_extend p l) = bind (xprv_derive_from_path x p) (fun x' => xprv_derive_from_path x' l)
  /\ (forall q, path_parent p = Some q ->
        xprv_derive_from_path x p = bind (xprv_derive_from_path x q) (fun x' => xprv_derive_child x' (last p 0))
        /\ xpub_derive_from_path y p = bind (xpub_derive_from_path y q) (fun y' => xpub_derive_child y' (last p 0)))
  /\ (path_parent p = None -> xprv_derive_from_path x p = Ok x /\ xpub_derive_from_path y p = Ok y).
Proof. exact More32Thms.c88_paths_and_keys. Qed.
Print Assumptions C88_paths_and_keys.
Example C88_example : path_push [44] 60 = [44; 60] /\ path_parent [44; 60; 7] = Some [44; 60]
  /\ xprv_derive_from_path ex1_xprv (path_push [] 0) = Ok ex1_child.
Proof. exact More32Thms.c88_example. Qed.

(** ** C89. The signer returns one of the two forms of a signature.  For every public key (r, s) is valid
    exactly if (r, n - s) is; ecdsa_sign never returns both forms, whatever keys and digests it is given. *)
Theorem C89_signatures_are_malleable : forall (Q : point) (z r s : Z), on_curve Q ->
  (ecdsa_valid Q z r s <-> ecdsa_valid Q z r (secp_n - s)).
Proof. exact More32Thms.c89_signatures_are_malleable. Qed.
Print Assumptions C89_signatures_are_malleable.
Theorem C89_signer_returns_one_form : forall (f f' : nat) (k k' : Z) (msg msg' sig sig' : bytes) (recid recid' : N) (r s : Z) (rb sb sb' : bytes),
  (0 < k < secp_n)%Z -> (0 < k' < secp_n)%Z ->
  ecdsa_sign f k msg = Some (Ok (sig, recid)) -> ecdsa_sign f' k' msg' = Some (Ok (sig', recid')) ->
  is_ser256 r rb -> is_ser256 s sb -> is_ser256 (secp_n - s) sb' ->
  sig = rb ++ sb -> sig' <> rb ++ sb'.
Proof. exact More32Thms.c89_signer_returns_one_form. Qed.
Print Assumptions C89_signer_returns_one_form.
Example C89_example : ecdsa_valid G 5 gx (gx + 5) /\ ecdsa_valid G 5 gx (secp_n - (gx + 5)).
Proof. exact More32Thms.c89_example. Qed.
