(** Whole computations from the bits up C105 - C107.

    Statements only: every theorem is closed by the lemma of the same name (in lower case) in
    ChainThms.v.  Generated by tools/gen_prop.py. *)
From Coq Require Import String.
From Verif Require Import Outcome Bytes Str Nfkd ModelBip39 SpecBip39 Secp SpecSecp ModelBip32 SpecBip32 SpecWallet SpecHash SpecUnicode SpecChain.
From Verif Require Bip39Thms KeyTextThms DeriveThms ChainThms.
Import Bip39Thms(ex_phrase, ex_mnemonic).
Import KeyTextThms(ex_text, ex_xprv).
Import DeriveThms(ex_seed, ex1_xprv, ex1_child, ex1_hardened).
Open Scope N_scope.

(** ** C105. Keys are those of BIP32, from the bits up.  XPrv::new, derive_child of private and public keys,
    derivation along paths, and writing and reading the text of keys return exactly what BIP32 defines with
    HMAC (RFC 2104) over SHA-512 and SHA-256 (FIPS 180-4), RIPEMD-160, the group law of secp256k1 and
    Base58Check: a result exists if and only if the standards give it, and it is the same. *)
Theorem C105_master_key : forall (seed : bytes) (x : xprv), bytes_ok seed ->
  (xprv_new seed = Ok x <-> In (length seed) [16; 32; 64; 128]%nat /\ bip32_master seed x).
Proof. exact ChainThms.c105_master_key. Qed.
Print Assumptions C105_master_key.
Theorem C105_private_child : forall (x y : xprv) (i : N), valid_xprv x -> u32 i -> (xprv_derive_child x i = Ok y <-> bip32_child x i y).
Proof. exact ChainThms.c105_private_child. Qed.
Print Assumptions C105_private_child.
Theorem C105_public_child : forall (x y : xpub) (i : N), valid_xpub x -> u32 i -> (xpub_derive_child x i = Ok y <-> bip32_public_child x i y).
Proof. exact ChainThms.c105_public_child. Qed.
Print Assumptions C105_public_child.
Theorem C105_paths : forall p : list N, Forall u32 p ->
  (forall x z : xprv, valid_xprv x -> (xprv_derive_from_path x p = Ok z <-> descends bip32_child x p z))
  /\ (forall x z : xpub, valid_xpub x -> (xpub_derive_from_path x p = Ok z <-> descends bip32_public_child x p z)).
Proof. exact ChainThms.c105_paths. Qed.
Print Assumptions C105_paths.
Theorem C105_text_written : forall (p : prefix) (s : str), valid_prefix p ->
  (forall x : xprv, valid_xprv x -> (xprv_to_string x p = Ok s <-> private_text (version p) x s))
  /\ (forall x : xpub, valid_xpub x -> (xpub_to_string x p = Ok s <-> public_text (version p) x s)).
Proof. exact ChainThms.c105_text_written. Qed.
Print Assumptions C105_text_written.
Theorem C105_text_read : forall s : str,
  (forall x : xprv, xprv_from_str s = Ok x <->
     (0 < private_key x < secp_n)%Z /\ Forall letter (firstn 4 s) /\ skipn 1 (firstn 4 s) = lit "prv" /\ exists v, private_text v x s)
  /\ (forall x : xpub, xpub_from_str s = Ok x <->
     on_curve (public_key x) /\ Forall letter (firstn 4 s) /\ skipn 1 (firstn 4 s) = lit "pub" /\ exists v, public_text v x s).
Proof. exact ChainThms.c105_text_read. Qed.
Print Assumptions C105_text_read.
(** The example of C50: a normal and a hardened child; the root of the first test vector of BIP32 and its text. *)
Example C105_example : bip32_master ex_seed ex_xprv /\ descends bip32_child ex1_xprv [0] ex1_child /\ bip32_child ex1_xprv (2 ^ 31) ex1_hardened
  /\ private_text 76066276 ex_xprv ex_text.
Proof. exact ChainThms.c105_example. Qed.

(** ** C106. An English wallet is the one of BIP39 and BIP32, from the bits up.  A phrase, a passphrase and
    the text of a path lead to a key if and only if the standards define it, and then to this key: words laid
    out in the phrase, form KD, the word list and the SHA-256 checksum, UTF-8, PBKDF2 with HMAC-SHA512, the
    master key, the children of the path. The key and its texts are unique. *)
(** The whole way from the phrase, the passphrase and the text of the path to the key. *)
Theorem C106_english_wallet_from_standards : forall (s pw ps : str) (x : xprv), Forall is_scalar pw -> len (nfkd pw) < 2 ^ 56 ->
  ((exists p, path_from_str ps = Ok p /\ wallet s English pw p = Ok x) <-> wallet_key s pw ps x).
Proof. exact ChainThms.c106_english_wallet_from_standards. Qed.
Print Assumptions C106_english_wallet_from_standards.
Theorem C106_key_determined : forall (s pw ps : str) (x y : xprv) (v : N), Forall is_scalar pw -> len (nfkd pw) < 2 ^ 56 -> u32 v ->
  wallet_key s pw ps x -> wallet_key s pw ps y ->
  x = y /\ (exists! t, private_text v x t)
  /\ exists P, is_public_point (private_key x) P /\ exists! t, public_text v (mkXPub P (xprv_attrs x)) t.
Proof. exact ChainThms.c106_key_determined. Qed.
Print Assumptions C106_key_determined.
(** The parts of a wallet: words with their entropy and a seed, a path, the root of a test vector. *)
Example C106_example : bip39_words (map nfkd (split_whitespace ex_phrase)) (m_entropy ex_mnemonic)
  /\ (exists seed, bip39_seed_of (map nfkd (split_whitespace ex_phrase)) (lit "TREZOR") seed)
  /\ path_text (lit "m/44'/0'") [2147483692; 2147483648] /\ bip32_master ex_seed ex_xprv.
Proof. exact ChainThms.c106_example. Qed.

(** ** C107. Signatures are those of RFC 6979, from the bits up.  ecdsa_sign returns a signature and recovery
    id if and only if they are the ones that RFC 6979 (with HMAC-SHA256 of RFC 2104 and FIPS 180-4) and SEC 1
    define: made with the first candidate in 1..n-1 that gives s <> 0, s in the lower half, the recovery id
    naming the nonce point. *)
Theorem C107_signatures_from_standards : forall (d : Z) (msg sig : bytes) (recid : N), (0 < d < secp_n)%Z -> has_bytes 32 msg ->
  ((exists tries, ecdsa_sign tries d msg = Some (Ok (sig, recid))) <-> deterministic_signature d msg sig recid).
Proof. exact ChainThms.c107_signatures_from_standards. Qed.
Print Assumptions C107_signatures_from_standards.
(** The signature of the digest 5 with secret 1 and nonce 1; the first candidate for a nonce. *)
Example C107_example : signature_with 1 1 5 gx (gx + 5) 0 /\ exists K T, nonce_candidate (be_bytes 32 1) (be_bytes 32 5) 0 K T.
Proof. exact ChainThms.c107_example. Qed.
