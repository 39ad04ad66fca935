(** Equality, debug output, signing, hashing and whole wallets C61 - C68.

    Statements only: every theorem is closed by the lemma of the same name (in lower case) in
    MiscThms.v.  Generated by tools/gen_prop.py. *)
From Coq Require Import String.
From Verif Require Import Outcome Bytes Str Hash Ripemd Nfkd ModelBip39 SpecBip39 Secp SpecSecp ModelBip32 SpecBip32 SpecWallet.
From Verif Require Bip39Thms KeyTextThms DeriveThms MiscThms.
Import Bip39Thms(ex_phrase, ex_mnemonic).
Import KeyTextThms(ex_attrs).
Import DeriveThms(ex1_xprv, ex1_child, ex1_hardened).
Open Scope N_scope.

(** ** C61. Equality of extended private keys is an equivalence.  == on extended private keys is reflexive,
    symmetric and transitive, and unequal keys differ in some serialised field. *)
Theorem C61_equality_is_equivalence :
  (forall x : xprv, xprv_eq x x = true)
  /\ (forall x y : xprv, xprv_eq x y = xprv_eq y x)
  /\ (forall x y z : xprv, xprv_eq x y = true -> xprv_eq y z = true -> xprv_eq x z = true)
  /\ (forall (x y : xprv) (p : prefix) (s : str), valid_xprv x -> valid_xprv y -> valid_prefix p ->
        xprv_eq x y = false -> xprv_to_string x p = Ok s -> xprv_to_string y p <> Ok s).
Proof. exact MiscThms.c61_equality_is_equivalence. Qed.
Print Assumptions C61_equality_is_equivalence.
Example C61_example : xprv_eq ex1_child ex1_hardened = false /\ xprv_eq ex1_child ex1_child = true.
Proof. exact MiscThms.c61_example. Qed.

(** ** C62. Equal extended private keys hold the same secret.  If two extended private keys compare equal with
    ==, their private keys are the same. *)
(** Keys with the same attributes are always equal, whatever their secrets. *)
Theorem C62_equality_ignores_the_secret : forall (k1 k2 : Z) (a : attrs), xprv_eq (mkXPrv k1 a) (mkXPrv k2 a) = true.
Proof. exact MiscThms.c62_equality_ignores_the_secret. Qed.
Print Assumptions C62_equality_ignores_the_secret.
Theorem C62_equal_keys_same_secret_refuted :
  ~ (forall x y : xprv, built_xprv x -> built_xprv y -> xprv_eq x y = true -> private_key x = private_key y).
Proof. exact MiscThms.c62_equal_keys_same_secret_refuted. Qed.
Print Assumptions C62_equal_keys_same_secret_refuted.
(** What does hold: equality implies equal attributes and conversely. *)
Theorem C62_equality_compares_attributes_partial : forall x y : xprv, xprv_eq x y = true <-> xprv_attrs x = xprv_attrs y.
Proof. exact MiscThms.c62_equality_compares_attributes_partial. Qed.
Print Assumptions C62_equality_compares_attributes_partial.
(** Two keys with other public keys that compare equal. *)
Example C62_example : xprv_eq (mkXPrv 1 ex_attrs) (mkXPrv 2 ex_attrs) = true
  /\ xprv_public_key (mkXPrv 1 ex_attrs) <> xprv_public_key (mkXPrv 2 ex_attrs)
  /\ xprv_eq (mkXPrv 1 ex_attrs) (mkXPrv 1 (mkAttrs 4 [1; 2; 3; 4] 5 [6])) = false.
Proof. exact MiscThms.c62_example. Qed.

(** ** C63. Debug output does not leak the private key.  The Debug text of an extended private key is a
    function of its attributes alone: keys that differ only in the secret have the same Debug text. *)
Theorem C63_debug_hides_secret : forall (k1 k2 : Z) (a : attrs), xprv_debug (mkXPrv k1 a) = xprv_debug (mkXPrv k2 a).
Proof. exact MiscThms.c63_debug_hides_secret. Qed.
Print Assumptions C63_debug_hides_secret.
Theorem C63_debug_text : forall x : xprv, exists rest,
  xprv_debug x = lit "ExtendedPrivateKey { private_key: " ++ quote ++ lit "..." ++ quote ++ lit ", attrs: " ++ rest
  /\ (forall y, xprv_attrs y = xprv_attrs x -> xprv_debug y = xprv_debug x).
Proof. exact MiscThms.c63_debug_text. Qed.
Print Assumptions C63_debug_text.
Example C63_example : xprv_debug (mkXPrv 5 (mkAttrs 1 [7; 8; 9; 10] 3 [255])) =
  lit "ExtendedPrivateKey { private_key: " ++ quote ++ lit "..." ++ quote
  ++ lit ", attrs: ExtendedKeyAttrs { depth: 1, parent_fingerprint: [7, 8, 9, 10], child_number: ChildNumber(3), chain_code: [255] } }".
Proof. exact MiscThms.c63_example. Qed.

(** ** C64. Signing produces valid signatures.  For every secret key and every 32-byte digest, the 64-byte
    signature returned by ecdsa_sign verifies under the corresponding public key, its s is at most n/2, and
    the recovery id recovers that public key, unless its r component is zero (which libsecp256k1 does not
    check). *)
Theorem C64_signatures_are_valid : forall (fuel : nat) (k : Z) (msg sig : bytes) (recid : N),
  (0 < k < secp_n)%Z -> ecdsa_sign fuel k msg = Some (Ok (sig, recid)) ->
  exists r s rb sb, sig = rb ++ sb /\ is_ser256 r rb /\ is_ser256 s sb
    /\ (0 < s <= secp_n / 2)%Z /\ (0 <= r < secp_n)%Z /\ recid < 4
    /\ (r <> 0%Z -> forall Q, is_public_point k Q ->
          ecdsa_valid Q (digest_val msg) r s /\ ecdsa_recovers recid (digest_val msg) r s Q).
Proof. exact MiscThms.c64_signatures_are_valid. Qed.
Print Assumptions C64_signatures_are_valid.
(** The nonce 1, whose point is the generator. *)
Example C64_example : sign_raw 1 5 1 = Some (gx, (gx + 5)%Z, 0) /\ ecdsa_valid G 5 gx (gx + 5) /\ ecdsa_recovers 0 5 gx (gx + 5) G.
Proof. exact MiscThms.c64_example. Qed.

(** ** C65. Signing rejects wrong message lengths and is deterministic.  ecdsa_sign fails iff the message is
    not exactly 32 bytes long, with InvalidInputLength; equal inputs give equal outputs, and messages equal
    modulo the group order are signed identically. *)
Theorem C65_only_length_errors : forall (fuel : nat) (k : Z) (msg : bytes),
  (ecdsa_sign fuel k msg = Some (Err InvalidInputLength) <-> length msg <> 32%nat)
  /\ (forall e, ecdsa_sign fuel k msg = Some (Err e) -> e = InvalidInputLength)
  /\ ecdsa_sign fuel k msg <> Some Panic.
Proof. exact MiscThms.c65_only_length_errors. Qed.
Print Assumptions C65_only_length_errors.
Theorem C65_deterministic : forall (fuel1 fuel2 : nat) (k : Z) (msg1 msg2 : bytes) (out1 out2 : res sign_error (bytes * N)),
  length msg1 = length msg2 -> (digest_val msg1 mod secp_n = digest_val msg2 mod secp_n)%Z ->
  ecdsa_sign fuel1 k msg1 = Some out1 -> ecdsa_sign fuel2 k msg2 = Some out2 -> out1 = out2.
Proof. exact MiscThms.c65_deterministic. Qed.
Print Assumptions C65_deterministic.
(** A digest and the digest of the same number plus n. *)
Example C65_example : let m1 := repeat 0 31 ++ [5] in let m2 := be_bytes 32 (Z.to_N (secp_n + 5)) in
  m1 <> m2 /\ length m1 = 32%nat /\ length m2 = 32%nat /\ (digest_val m1 mod secp_n = digest_val m2 mod secp_n)%Z.
Proof. exact MiscThms.c65_example. Qed.

(** ** C66. ripemd returns the hex digest.  crypto::ripemd(msg) is the 40-character lower-case hex of
    RIPEMD-160(msg) for every message. *)
Theorem C66_ripemd_hex : forall msg : bytes, is_hex (ripemd160 msg) (ripemd msg) /\ length (ripemd msg) = 40%nat.
Proof. exact MiscThms.c66_ripemd_hex. Qed.
Print Assumptions C66_ripemd_hex.
(** The published value for the empty message. *)
Example C66_example : ripemd [] = lit "9c1185a5c5e9fc54612808977ee8f548b2258d31".
Proof. exact MiscThms.c66_example. Qed.

(** ** C67. From seed phrase to key is a function of the words, the password and the path.  Two phrases with
    the same words, two passwords with the same NFKD form and the same path always lead to the same extended
    private key (or the same error). *)
Theorem C67_words_and_password_decide : forall (s1 s2 : str) (lang : language) (ws1 ws2 : list str) (pw1 pw2 : str) (p : list N),
  laid_out s1 ws1 -> laid_out s2 ws2 -> map nfkd ws1 = map nfkd ws2 -> nfkd pw1 = nfkd pw2 ->
  wallet s1 lang pw1 p = wallet s2 lang pw2 p.
Proof. exact MiscThms.c67_words_and_password_decide. Qed.
Print Assumptions C67_words_and_password_decide.
(** For English the key is the one the standards prescribe. *)
Theorem C67_english_wallet : forall (s : str) (ws : list str) (pw : str) (p : list N) (ent : bytes),
  laid_out s ws -> bip39_sentence English (map nfkd ws) ent ->
  wallet s English pw p = map_err BadKey (xprv_new_from_path (bip39_seed (spaced (map nfkd ws)) pw) p).
Proof. exact MiscThms.c67_english_wallet. Qed.
Print Assumptions C67_english_wallet.
(** The errors: those of the phrase, and of the derivation; never the seed length. *)
Theorem C67_errors : forall (s : str) (lang : language) (pw : str) (p : list N), Forall u32 p ->
  match wallet s lang pw p with
  | Ok x => valid_xprv x /\ depth (xprv_attrs x) = len p
  | Err (BadPhrase e) => from_phrase s lang = Err e
  | Err (BadKey e) => e <> ESeedLength
  | Panic => exists m seed x p1 c p2 y, from_phrase s lang = Ok m /\ seed_new m pw = Ok seed /\ xprv_new seed = Ok x
      /\ p = p1 ++ c :: p2 /\ xprv_derive_from_path x p1 = Ok y /\ priv_hash_bad y c
  end.
Proof. exact MiscThms.c67_errors. Qed.
Print Assumptions C67_errors.
Example C67_example : laid_out (lit "  zoo 	 abandon") [lit "zoo"; lit "abandon"] /\ laid_out (lit "zoo abandon ") [lit "zoo"; lit "abandon"]
  /\ nfkd [0xE9] = nfkd [0x65; 0x301] /\ bip39_sentence English (map nfkd (split_whitespace ex_phrase)) (m_entropy ex_mnemonic).
Proof. exact MiscThms.c67_example. Qed.

(** ** C68. Signing nonces follow RFC 6979.  The signature returned by ecdsa_sign is the low-s form of the
    ECDSA signature made with the first usable candidate of RFC 6979 (HMAC-SHA256, the secret and the digest
    reduced modulo n): every earlier candidate is out of range or gives s = 0. *)
Theorem C68_nonce_follows_rfc6979 : forall (fuel : nat) (d : Z) (msg sig x h : bytes) (recid : N),
  (0 < d < secp_n)%Z -> is_ser256 d x -> is_ser256 (digest_val msg mod secp_n) h ->
  ecdsa_sign fuel d msg = Some (Ok (sig, recid)) ->
  exists i K V r s0 s rb sb, let nonce := Z.of_N (digits_val 256 V) in
    rfc6979_candidate x h i K V /\ (0 < nonce < secp_n)%Z
    /\ ecdsa_pair nonce d (digest_val msg) r s0 /\ s0 <> 0%Z
    /\ ((s0 <= secp_n / 2 /\ s = s0) \/ (secp_n / 2 < s0 /\ s = secp_n - s0))%Z
    /\ sig = rb ++ sb /\ is_ser256 r rb /\ is_ser256 s sb
    /\ (forall j K' V', (j < i)%nat -> rfc6979_candidate x h j K' V' ->
          ~ (0 < Z.of_N (digits_val 256 V') < secp_n)%Z \/ exists r', ecdsa_pair (Z.of_N (digits_val 256 V')) d (digest_val msg) r' 0).
Proof. exact MiscThms.c68_nonce_follows_rfc6979. Qed.
Print Assumptions C68_nonce_follows_rfc6979.
Example C68_example : exists K V, rfc6979_candidate (be_bytes 32 1) (be_bytes 32 5) 0 K V.
Proof. exact MiscThms.c68_example. Qed.
