(** HMAC keys made from phrases C144.

    Statements only: every theorem is closed by the lemma of the same name (in lower case) in
    HmacKeyThms.v.  Generated by tools/gen_prop.py. *)
From Coq Require Import String.
From Verif Require Import Outcome Bytes Str ModelBip39 SpecBip39 SpecHash SpecHmacKey.
From Verif Require Bip39Thms HmacKeyThms.
Import Bip39Thms(ex_mnemonic, ex_phrase, ex_entropy).
Open Scope N_scope.

(** ** C144. Different mnemonics key PBKDF2 differently.  HMAC pads its key with zeros to a block of 128 bytes
    and hashes longer keys, and the seed depends on the phrase through this block alone. Two constructible
    mnemonics that have the same block are the same mnemonic, or their phrases collide in SHA-512, or the
    SHA-512 digest of one phrase is the text of the other followed by zeros. Among phrases of 12 words and
    Chinese phrases of any length the last two cannot happen, so there different mnemonics always have
    different blocks. *)
(** The seed depends on the phrase through this block alone. *)
Theorem C144_block_decides : forall (m m' : mnemonic) (b b' block : bytes) (password : str), constructible m -> constructible m' ->
  mnemonic_as_bytes m = Ok b -> mnemonic_as_bytes m' = Ok b' ->
  is_hmac_block (is_sha2 fips_sha512) 128 b block -> is_hmac_block (is_sha2 fips_sha512) 128 b' block ->
  seed_new m password = seed_new m' password.
Proof. exact HmacKeyThms.c144_block_decides. Qed.
Print Assumptions C144_block_decides.
(** Different mnemonics have different blocks, unless SHA-512 fails: two phrases collide, or the digest of one is
    the text of the other and zeros. *)
Theorem C144_blocks_differ : forall (m m' : mnemonic) (b b' block : bytes), constructible m -> constructible m' ->
  mnemonic_as_bytes m = Ok b -> mnemonic_as_bytes m' = Ok b' ->
  is_hmac_block (is_sha2 fips_sha512) 128 b block -> is_hmac_block (is_sha2 fips_sha512) 128 b' block ->
  m = m'
  \/ (exists d, b <> b' /\ is_sha2 fips_sha512 b d /\ is_sha2 fips_sha512 b' d)
  \/ (exists z, is_sha2 fips_sha512 b' (b ++ repeat 0 z)) \/ (exists z, is_sha2 fips_sha512 b (b' ++ repeat 0 z)).
Proof. exact HmacKeyThms.c144_blocks_differ. Qed.
Print Assumptions C144_blocks_differ.
(** Phrases of 12 words and all Chinese ones are short enough to be keys themselves: among these no two have the
    same block. *)
Theorem C144_short_phrases : forall (m m' : mnemonic) (b b' block : bytes), constructible m -> constructible m' ->
  m_lang m = ChineseSimplified \/ length (m_entropy m) = 16%nat ->
  m_lang m' = ChineseSimplified \/ length (m_entropy m') = 16%nat ->
  mnemonic_as_bytes m = Ok b -> mnemonic_as_bytes m' = Ok b' ->
  is_hmac_block (is_sha2 fips_sha512) 128 b block -> is_hmac_block (is_sha2 fips_sha512) 128 b' block -> m = m'.
Proof. exact HmacKeyThms.c144_short_phrases. Qed.
Print Assumptions C144_short_phrases.
Example C144_example : constructible ex_mnemonic /\ mnemonic_as_bytes ex_mnemonic = Ok (utf8 ex_phrase)
  /\ is_hmac_block (is_sha2 fips_sha512) 128 (utf8 ex_phrase) (utf8 ex_phrase ++ repeat 0 56)
  /\ exists m b, from_entropy (ex_entropy ++ ex_entropy) English = Ok m /\ mnemonic_as_bytes m = Ok b /\ length b = 147%nat.
Proof. exact HmacKeyThms.c144_example. Qed.
