(** Hash functions and seeds against their standards C90 - C93.

    Statements only: every theorem is closed by the lemma of the same name (in lower case) in
    HashThms.v.  Generated by tools/gen_prop.py. *)
From Coq Require Import String.
From Verif Require Import Outcome Bytes Str Hash Ripemd Nfkd ModelBip39 SpecBip39 Secp SpecSecp Base58 ModelBip32 SpecBip32 SpecHash.
From Verif Require Bip39Thms HashThms.
Import Bip39Thms(ex_entropy, ex_phrase, ex_mnemonic).
Open Scope N_scope.

(** ** C90. SHA-256 and SHA-512 are those of FIPS 180-4.  For every message the digest used by the crate is
    the one and only digest that FIPS 180-4 defines: the constants being the fractional bits of the roots of
    the first primes, the padding, schedule, rounds and feed-forward those of the standard. The checksum byte
    of BIP39 and the check bytes of Base58Check are taken from it. *)
Theorem C90_sha2 : forall m d : bytes, bytes_ok m -> len m < 2 ^ 61 ->
  (is_sha2 fips_sha256 m d <-> d = sha256 m) /\ (is_sha2 fips_sha512 m d <-> d = sha512 m).
Proof. exact HashThms.c90_sha2. Qed.
Print Assumptions C90_sha2.
(** The checksum byte of BIP39 and the check bytes of Base58Check are such digests. *)
Theorem C90_uses : forall m : bytes, bytes_ok m -> len m < 2 ^ 61 ->
  (exists d rest, is_sha2 fips_sha256 m (d :: rest) /\ sha256_first_byte m = Ok d)
  /\ (exists d d' rest, is_sha2 fips_sha256 m d /\ is_sha2 fips_sha256 d d' /\ d' = Base58.check_bytes m ++ rest /\ length (Base58.check_bytes m) = 4%nat).
Proof. exact HashThms.c90_uses. Qed.
Print Assumptions C90_uses.
(** FIPS 180-4 example "abc". *)
Example C90_example : is_sha2 fips_sha256 [97; 98; 99]
  [0xba; 0x78; 0x16; 0xbf; 0x8f; 0x01; 0xcf; 0xea; 0x41; 0x41; 0x40; 0xde; 0x5d; 0xae; 0x22; 0x23;
   0xb0; 0x03; 0x61; 0xa3; 0x96; 0x17; 0x7a; 0x9c; 0xb4; 0x10; 0xff; 0x61; 0xf2; 0x00; 0x15; 0xad].
Proof. exact HashThms.c90_example. Qed.

(** ** C91. HMAC is that of RFC 2104.  For every key and message HMAC-SHA512 (key derivation, seeds) and HMAC-
    SHA256 (nonces of signatures) are the one value RFC 2104 defines, for keys shorter than, as long as and
    longer than a block. *)
Theorem C91_hmac : forall key msg mac : bytes, bytes_ok key -> bytes_ok msg -> len key < 2 ^ 60 -> len msg < 2 ^ 60 ->
  (is_hmac (is_sha2 fips_sha512) 128 key msg mac <-> mac = hmac_sha512 key msg)
  /\ (is_hmac (is_sha2 fips_sha256) 64 key msg mac <-> mac = hmac_sha256 key msg).
Proof. exact HashThms.c91_hmac. Qed.
Print Assumptions C91_hmac.
(** RFC 4231, test case 2: key "Jefe", data "what do ya want for nothing?". *)
Example C91_example : is_hmac (is_sha2 fips_sha256) 64 (lit "Jefe") (lit "what do ya want for nothing?")
  [0x5b; 0xdc; 0xc1; 0x46; 0xbf; 0x60; 0x75; 0x4e; 0x6a; 0x04; 0x24; 0x26; 0x08; 0x95; 0x75; 0xc7;
   0x5a; 0x00; 0x3f; 0x08; 0x9d; 0x27; 0x39; 0x83; 0x9d; 0xec; 0x58; 0xb9; 0x64; 0xec; 0x38; 0x43].
Proof. exact HashThms.c91_example. Qed.

(** ** C92. RIPEMD-160 is the published function.  crypto::ripemd returns the lower-case hex digits of the one
    RIPEMD-160 digest of the message; a key fingerprint is the first four bytes of RIPEMD-160 of SHA-256 of
    the compressed key, and nothing else. *)
(** [ripemd] prints the digest in lower-case hex; the fingerprint is the start of RIPEMD-160 of SHA-256 of the key. *)
Theorem C92_ripemd : forall m : bytes, bytes_ok m -> len m < 2 ^ 61 ->
  exists d, (forall d', is_ripemd160 m d' <-> d' = d) /\ ripemd m = flat_map (hex_byte false) d.
Proof. exact HashThms.c92_ripemd. Qed.
Print Assumptions C92_ripemd.
Theorem C92_fingerprint : forall (P : point) (f : bytes), P <> Infinity -> on_curve P ->
  f = public_fingerprint P <->
  exists b h d, is_compressed b P /\ is_sha2 fips_sha256 b h /\ is_ripemd160 h d /\ f = firstn 4 d.
Proof. exact HashThms.c92_fingerprint. Qed.
Print Assumptions C92_fingerprint.
(** The example of the code's comment, "Hello world!" (the digest in the documentation of crate ripemd). *)
Example C92_example : ripemd (lit "Hello world!") = lit "7f772647d88750add82d8e1a7a3e5c0902a346a3"
  /\ is_ripemd160 (lit "Hello world!") [0x7f; 0x77; 0x26; 0x47; 0xd8; 0x87; 0x50; 0xad; 0xd8; 0x2d; 0x8e; 0x1a; 0x7a; 0x3e; 0x5c; 0x09; 0x02; 0xa3; 0x46; 0xa3].
Proof. exact HashThms.c92_example. Qed.

(** ** C93. Seeds are what the standards say, from the bits up.  Seed::new returns exactly the value that
    PBKDF2 (RFC 8018) with HMAC (RFC 2104) over SHA-512 (FIPS 180-4) defines, password the bytes of the
    mnemonic, salt 'mnemonic' and the passphrase in NFKD and UTF-8, 2048 iterations, 64 bytes. *)
Theorem C93_seed_from_standards : forall (m : mnemonic) (g : bytes) (password : str) (seed : bytes),
  constructible m -> mnemonic_as_bytes m = Ok g ->
  Forall (fun c => c < 0x110000) password -> len (nfkd password) < 2 ^ 56 ->
  seed_new m password = Ok seed <->
  is_pbkdf2 (is_hmac (is_sha2 fips_sha512) 128 g) (utf8 (lit "mnemonic") ++ utf8 (nfkd password)) 2048 64 seed.
Proof. exact HashThms.c93_seed_from_standards. Qed.
Print Assumptions C93_seed_from_standards.
Example C93_example : constructible ex_mnemonic /\ mnemonic_as_bytes ex_mnemonic = Ok ex_phrase
  /\ Forall (fun c => c < 0x110000) (lit "TREZOR") /\ len (nfkd (lit "TREZOR")) < 2 ^ 56.
Proof. exact HashThms.c93_example. Qed.
