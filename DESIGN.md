# A Rocq (Coq 8.16.1) model of uduncloud/kms

`/repo` is a small Rust crate: BIP39 (mnemonics, seeds), BIP32 (extended keys, derivation paths),
plus `ecdsa_sign` and `crypto::ripemd`. This directory holds a computable Gallina model of it and
machine-checked theorems about that model.

* `properties.jsonl`: the properties (C01..), written by `tools/props.py`.
* `MANIFEST.json`: their status and the exact theorem names, written by `tools/manifest.py`.
* `rocq/theories/Prop*.v`: the theorems, and nothing else. Each is closed by `exact lemma.` and followed by
  `Print Assumptions`. They are generated from the `*Thms.v` proof files by `tools/gen_prop.py`
  (`tools/regen.sh` runs all generators). Beside each theorem an `Example` shows a non-trivial case.
* `seeded/LOG.jsonl`: wrong programs the theorems were tested against.
* `tools/vectors.sh`: runs the model (extracted to OCaml) on published vectors. Tests, not proofs.

## 1. Approach

* Everything is concrete. The model does not abstract SHA-256, SHA-512, RIPEMD-160, HMAC, PBKDF2,
  Base58Check, NFKD, UTF-8, the GB18030 subset that is reachable, or secp256k1: each is an executable
  Gallina function, so the model runs on the crate's own test vectors.
* Rust `Result` is `res E A := Ok | Err | Panic`. Every place where the Rust code can panic (index out of
  bounds, integer overflow with overflow checks on, shift amount too large, `unwrap`, `expect`,
  `debug_assert!`) yields `Panic`; "never panics" is then a theorem. Because the checked arithmetic is shown
  never to overflow, debug and release builds agree with the model (one exception: signing, C139).
* Integers are `N` with an explicit width (`mod 2^w`) where the Rust code can wrap or truncate (shifts, casts).
  Bytes are `N`; a `u8` argument becomes the hypothesis `bytes_ok` (all elements < 256).
* `&str` is the list of its Unicode scalar values; `as_bytes` is UTF-8 encoding.
* Loops become structural recursion, or recursion on fuel with running out of fuel reported as `Panic`
  (and proved unreachable). The one loop without a bound, the nonce search of `sign`, takes the fuel as an
  argument and returns `None` when it runs out; the theorems speak about every fuel.
* Specifications (`Spec*.v`) are written independently of the model's helpers: bit strings as `list bool`,
  positional number values, the BIP texts transcribed, the affine chord-and-tangent law as a relation.
* A property the code violates is kept in the list and settled by a theorem `..._refuted` with a concrete
  witness; where a weaker statement holds it is proved as `..._partial`.

## 2. Properties and proofs

| property | modelled | proof |
|---|---|---|
| C01 C02 C04 C05 C06 C08 C09 | `BitIter`, `BitWriter`, `checksum`, `from_entropy*`, `phrase_to_entropy`, word lists (verbatim text files) | both bit machines refine concatenation/chunking of `list bool` (loop invariants: buffer = pending bits, left aligned); the rest is list algebra |
| C03 C15 C16 | `MnemonicType` | case analysis, arithmetic |
| C07 | `new` with the generator's output as an argument | corollary of C01/C05 |
| C10 C11 C12 C13 | `from_phrase`, `validate`, `split_whitespace`, `split(" ")`, full NFKD | list lemmas; NFKD fixes list words; C12 is false: `_refuted` |
| C14 | all of the above in the `res` type | no `Panic` case reachable |
| C17 C18 C19 C21 | word lists, hash map as association list, `binary_search` of the Rust standard library (C18 and C19 speak about any search that meets the documented contract and about the code of Rust 1.52 - 1.81 and of 1.82 on) | finite facts about the 2048 words by `vm_compute`, lifted; binary search on sorted lists by induction; C19 false: `_refuted`, `_partial` is the sound half |
| C20 | `from_language_code` | case analysis |
| C22 C23 C24 C25 | `Seed::new`, `Mnemonic::as_bytes`, PBKDF2 | unfolding against a transcription of RFC 2898; NFKD distributes over an ASCII prefix; C23 false: `_refuted`, also by computing one seed with SHA-512 on machine integers |
| C26 C27 | formatting | list induction |
| C28 C29 C30 C31 | `ChildNumber`, `u32::from_str`, decimal printing | bit arithmetic; digit-string induction |
| C32 C33 C34 | `DerivationPath` | list induction over split/join |
| C35 - C39, C42 C45 - C48 | `ExtendedKey`, `Prefix`, bs58 encoder/decoder | base conversion is a bijection (positional values); magnitude intervals for the leading characters; C45, C47 false: `_refuted` |
| C40 C41 C43 C44 | `XPrv`/`XPub` conversion, secp256k1 parsing | primality of p (Pocklington certificate), square roots mod p |
| C49 - C58 C60 | `XPrv::new`, `derive_child`, `derive_from_path`, `public_key` | unfolding; induction on paths; C52/C53 need the group law of the curve, proved from scratch |
| C59 | `unwrap` in `derive_child` | false for any HMAC output out of range: `_refuted` against an HMAC oracle |
| C61 C62 C63 | `ct_eq`, `Debug` | C62 false (`key_b` is computed from `self`): `_refuted` |
| C64 C65 | `ecdsa_sign` with RFC 6979 nonces | group law, primality of n |
| C66 C67 | `ripemd`, composition | unfolding |
| C68 | `sign_loop`, `drbg_*` | induction on the number of candidates against a transcription of RFC 6979 |
| C69 C70 C71 | `BitIter::size_hint`, the capacities reserved by `join` and `BitWriter`, growth of a Rust `String` (`ModelBuffers.v`) | invariant of reachable iterator states; word lengths; C69, C71 false: `_refuted`, with the true parts beside them |
| C72 | `from_phrase` | bijection between fillings of the missing entropy bits and accepted last words, by two inclusions of duplicate-free lists |
| C73 C74 C75 | `as_bytes`, `Debug`, `Display` of errors and types | prefix-freeness of GB18030 on the list; digit strings |
| C76 | `from_phrase`, NFKD | NFKD commutes with splitting at white space unless a character hides a space, and then both texts are rejected |
| C77 | `get_words_by_prefix` | finite check of the four-letter rule, C18 |
| C78 C79 C84 | derivation, `public_key` | arithmetic modulo n, injectivity of k -> kG, halves of the hash output |
| C80 C81 C89 | `ecdsa_sign` after derivation, recovery, (r, n - s) | C53 with C64; a point is determined by abscissa and parity; negation of points |
| C82 C83 C85 C87 C88 | `Debug` and `Display`, errors, text between steps, path editing | case analysis; unambiguous decimal and hex texts; C40, C41, C54 |
| C86 | derived `Ord` (`ModelOrder.v`) | lexicographic order of equally long byte strings is the order of their numbers |
| C90 C91 C92 | `Hash.v`, `Ripemd.v` against `SpecHash.v` | existence and uniqueness of the value the relations of the standards define; constants checked as roots of primes |
| C93 | `Seed::new` down to the rounds of SHA-512 | C22, C23 with C90, C91; exclusive or byte by byte |
| C94 C95 | `Nfkd.v`, `utf8` against `SpecUnicode.v` | insertion sort reaches, and is invariant under, exchanges of neighbours; bit patterns form a prefix code |
| C96 C97 C98 | arrays of `from_str`, `write_base58`, `Display` at their return (`ModelMemory.v`) | the decoder with its buffer returns what the decoder returns; C96, C98 false: `_refuted` |
| C99 C100 C101 | `sign_raw`, `ecdsa_sign` | the nonce point behind a signature; abscissa 0 would have order 3; linear equations modulo n |
| C102 C103 C104 | `XPub`, its derived `==` (`ModelOrder.v`), `sign_raw` | every point is a multiple of the generator; C53, C79 |
| C105 C106 C107 | everything from phrase or seed to key text, and `ecdsa_sign` | equivalence with `SpecChain.v`, which uses no executable hash, normalisation or arithmetic; joins C04, C33, C43, C44, C49 - C51, C68, C90 - C95 |
| C108 C109 | all 105 calls of `ModelApi.v` | `obtainable` is closed under calls, `well_formed` and `panicking` are written with the standards' notions; the converse of C108 shows that the description is exact. Not in the machine: derived comparison and cloning, error texts, functions of libsecp256k1 that the crate does not call |
| C110 C111 | `validate`, `from_phrase`, `Seed::new` with the blocks they give back (`ModelFreed.v`) | the model with memory returns what the model returns; growth of `Vec` is that of the Rust standard library; growth of the salt texts and the buffers of the hash functions are not counted. Both false: `_refuted` |
| C112 - C115 | `pad`, `pad_integral`, `PadAdapter` and the debug builders of Rust std, written from their documentation (`ModelFormat.v`) | texts under all flags; injectivity by cutting at characters that no number contains. C113 and C115 false: `_refuted` |
| C116 - C119 | `BitWriter`, `BitIter` generic in the item size (`ModelBits.v`; `push_at_11`, `next_at_8_11` tie them to `ModelBip39.v`) | registers that hold a bit string left aligned; C118 from C02 and C07; C119 by counting (C72) and a witness |
| C120 - C129 | the BIP39 functions with all languages (`ModelLangs.v`), not part of the crate as `Cargo.toml` configures it | a sentence is carried over to English by exchanging words of the same number (`english` in `LangProofs.v`), where the earlier theorems apply; finite checks of the lists in `LangData.v`, `LangData2.v` |
| C130 - C132 | src/bip39 with the width of `usize`, the overflow checks and the limit of `isize::MAX` bytes for buffers as parameters (`ModelBuilds.v`) | every operation agrees as long as nothing overflows; buffers at most double; C131 and C132 false on 32 bits: `_refuted` |
| C133 - C138 | the traits PrivateKey and PublicKey and the extended keys over any implementation (`ModelGeneric.v`), seed lengths of BIP32 | a step is the key type's step; C136 and C138 false: `_refuted` |
| C139 | `ecdsa_sign` in debug builds (`ModelSignBuilds.v`) | exact criterion for the assertions; C139 false for the step: `_refuted` |
| C140 | `get_words_by_prefix` in every language with both search algorithms | exact numbers of words found; exact domain for Chinese |
| C141 | the constants of libsecp256k1 | equal to SEC 2; prime orders; the group is cyclic of order n with cofactor 1 |
| C142 | the two compiled word lists | SHA-256 checksums equal to the published ones |
| C143 | `ConstantTimeEq`, `PartialEq` of extended private keys | same steps for all keys, same value as in C61 - C62, copies wiped |
| C144 | `Seed::new` | different mnemonics give HMAC different key blocks, up to failures of SHA-512 |
| C145 | all eight word lists | SHA-256 checksums equal to the published ones |
| C146 | the Unicode tables in `NfkdData.v` | equal, by checksum, to those of a second implementation |
| C147 C148 | programs of fourteen calls on mnemonics, seeds, texts and keys, with `Clone`, moves and `Drop`, on a memory of blocks (`ModelDrop.v`) | the program runs without touching freed memory, its variables hold the values of the program on values, blocks are owned once; blocks with secrets are zero after the drop, in every continuation |
| C149 | the same | false: `_refuted`; the blocks of `XPrv`, chain codes and plain texts keep their data in every continuation |
| C150 C151 | threads that use the sixteen `Lazy` statics; `once_cell` 1.13.0 step by step (`ModelOnce.v`) | every interleaving: no crash, published tables, each built once; no deadlock, no endless execution |
| C152 | all functions that read texts | no text is read by two of the five kinds of readers |
| C153 | `xprv_to_string`, `ek_from_str`, `xprv_from_str`, `xpub_from_str` | false: `_refuted`; every private key can be written under a public label and read as an `ExtendedKey`; `_partial`: the typed readers follow the label |
| C154 | `ek_to_string`, `ek_from_str` | false: `_refuted`; the exact table of versions per label and length (`SpecLabels.v`), and several texts of a key |
| C155 | `from_phrase_all`, `seed_new_all`, `path_from_str`, `xprv_new_from_path` one after the other (`wallet_all`) | `wallet_key_in`: the standards from the bits up, as in C106, with the word list of the language |
| C156 | `xprv_new_with`, `xprv_derive_child_with`, `xpub_derive_child_with` | exactly one hash value for each result, by `exists!`; all families of siblings are possible |
| C157 | `ek_from_str` with counters (`ModelCost.v`) | same results; steps at most `leading_ones` + 9627; at most 3 blocks |
| C158 | path derivation with counters (`ModelCost.v`) | same results; at most 255 - depth calls of HMAC, for every hash function |
| C159 | `phrase_to_entropy_all`, `from_phrase_all` with counters (`ModelCost39.v`) | false: `_refuted`; the exact number of look-ups, the linear bound and the growth by normalisation |
| C160 | `key_parse`, `key_serialize`, `key_tweak_add` on eight words (`ModelScalar.v`) | integers modulo n; equal to the functions of `Secp.v` that all other theorems use |
| C161 - C163 | `scalar_mul`, `scalar_sqr`, `scalar_inv`, `scalar_neg`, `is_high`, `words_sign_raw`, `words_ecdsa_sign` on eight words (`ModelScalarMul.v`) | integers modulo n, the signature of SEC 1 (`SpecChain.v`), and equal to `ecdsa_sign` on integers |
| C164 C165 | `path_from_str`, `path_display` (`ModelBip32.v`) | spellings, usual texts and allowed characters are written without the parser (`SpecSpelling.v`); C164 false: `_refuted`, with all texts of a path |
| C166 | `xprv_new`, `seed_hex`, `from_entropy` | hexadecimal texts are those that `unhex` of `SpecBip39.v` reads; false: `_refuted`, with the exact lengths |
| C167 | `xprv_new` on `m_phrase` | false: `_refuted`, with the exact lengths, for each number of words too; holds for Chinese: `_partial` |

## 3. Trusted base

1. **Coq's kernel** (8.16.1), including its virtual machine, which `vm_compute` steps use in `coqc`.
   `coqchk` re-checks every compiled file without the virtual machine.
2. **Assumptions.** `Print Assumptions` reports `Closed under the global context` for every theorem in
   `Prop*.v` but `C23_seed_value_refuted` (and the example `C23_vector_example` beside it) and the theorems of C145
   and C146, so no other uses an axiom, not even one of the standard library. Those compute with the machine
   integers of the standard library and list its primitives `PrimInt63.int`, `add`, `sub`, `lsl`, `lsr`, `land`, `lor`, `lxor`, `eqb`, `ltb`, `leb`
   and its axioms about them, `Uint63.add_spec`, `sub_spec`, `lsl_spec`, `lsr_spec`, `land_spec`, `lor_spec`,
   `lxor_spec`, `ltb_spec`, `leb_spec`, `of_to_Z`, `eqb_correct`, `eqb_refl`. No `Admitted`, no disabled checks.
   `coqchk -o` prints a longer list: it names every axiom of every standard library file that is loaded (further
   operations of `PrimInt63` and `Uint63`, and `ssrunder`, loaded through other library files), used or not.
3. **The model.** The theorems are about the Gallina definitions. That these say what the Rust code does
   rests on reading; each definition cites file and lines. The vectors in `Vectors.v` and `tools/vectors.sh`
   (all BIP32 vectors and BIP39 seeds in the crate's tests, FIPS 180-4, RFC 4231, RFC 6979) were run on it.
4. **The specifications** in `Spec*.v`, and the word lists and data tables, which are generated (below).

### Modelled, line by line

| source | model |
|---|---|
| `src/bip39/mnemonic_type.rs`, `util.rs`, `language.rs`, `crypto.rs`, `mnemonic.rs`, `seed.rs`, `error.rs` | `ModelBip39.v`; buffer sizes in `ModelBuffers.v` |
| `src/bip39/langs/english.txt`, `chinese_simplified.txt` | `EnglishTxt.v`, `ChineseTxt.v` (verbatim text) |
| `src/bip32/*.rs`, `src/bip32/extended_key/*.rs`, `src/lib.rs` (`ecdsa_sign`), `src/crypto.rs` | `ModelBip32.v`; derived orders in `ModelOrder.v`; local arrays in `ModelMemory.v` |

### Modelled from knowledge of the dependency (its source is not in /repo)

None of these models was compared with the source of the dependency, which was not available here.  They were written
from memory of the released versions and of the C code or standard they follow.  For the hash functions, NFKD and the curve
the results are tied to published vectors and standards.  For the inner steps nothing ties the model to the crate:
the words, columns, addition chain and debug assertions of libsecp256k1 (C139, C160 - C163), the steps of `subtle`
(C143), `once_cell` (C150, C151), `zeroize` (C147 - C149), the growth of `Vec` and `String`, and the buffer of `bs58`.
What is proved there is that the algorithm as remembered is correct (or is not); that the crate is this algorithm is
an assumption, and anyone with the source should check it first.

| dependency | model | remark |
|---|---|---|
| sha2, hmac, pbkdf2, ripemd | `Hash.v`, `Ripemd.v` | the standards (C90 - C92); checked on published vectors |
| unicode-normalization 0.1.21 | `Nfkd.v`, `NfkdData.v` | NFKD with Unicode 14.0.0 tables (`tools/gen_nfkd.py`), the version this release uses; C94; checked against Perl by `tools/unicode_sums.pl` and C146 |
| encoding 0.2.33 (GB18030) | `gb18030` in `ModelBip39.v`, `Gb18030Data.v` | ASCII and the characters of the word list only; proved to be all that is reached |
| bs58 0.4 | `Base58.v` | the algorithm with its buffer limit; bad characters are looked up before converting (only the error kind, which the caller drops, can differ; C96_same_results proves this against a decoder that works character by character) |
| libsecp256k1 0.7.1, hmac-drbg 0.3 | `Secp.v` | field elements and scalars as integers (for private keys and signing the words of the scalars are modelled too, C160 - C163), complete projective formulas in place of Jacobian coordinates and tables; `==` of public keys compares the coordinates as numbers |
| Rust std: `split_whitespace`, `split`, `str::parse::<u32>`, `binary_search`, formatting | `Str.v`, `ModelBip39.v` | `binary_search` as in Rust 1.52 to 1.81 and as from 1.82 on; growth of `String` as in `RawVec::grow_amortized` |
| subtle 2.4.1 | `ModelConstTime.v` | `ct_eq` of integers and slices and `&`, one step for each word compared; the optimisation barrier is the identity |
| rustc-hash map | association list | only `insert` and `get` matter |

### Not modelled

* Timing other than the steps of comparing private keys (C143; what the compiler and the processor make of them is
  not modelled either) and the amounts of work of C157 - C159, memory wiping (`zeroize`, `Drop`) other than that of
  C96 - C98, C110 - C111 and C147 - C149 (there `zeroize` 1.5.6 overwrites the whole capacity of a `Vec` or `String`,
  and the copies that moving a structure leaves on the stack are not modelled), allocation sizes other than those of
  the phrase buffers (C70, C71).
* Threads are modelled only where the code shares mutable state between them, that is in the `Lazy` statics
  (C150, C151).  The source of `once_cell` is not part of /repo; the steps are those of version 1.13.0 (the one in
  Cargo.lock).  Memory is sequentially consistent there, where the library uses acquire and release operations, and
  `thread::park` returns only after the signal.  Everywhere else a static is its final table.
* The quality of the random generator: it is an arbitrary byte source.
* The `cfg` branches `k256` and wasm, which cannot be compiled in.  (The languages behind cargo features that
  `Cargo.toml` does not declare are modelled apart from the rest, in `ModelLangs.v`.)
* Trait plumbing without logic (`AsRef`, `From`, iterators over paths, derived `Clone`).
* Inputs longer than 2^61 bytes (hypothesis `len < 2 ^ 61`, beyond any address space).  All theorems but C130 - C132 are
  about a `usize` of 64 bits.
* Nothing but C139 is about `sign` in debug builds, where assertions in libsecp256k1 fail when the abscissa of
  the nonce point is at least n; the rest follows the release build.

## 4. Findings

| property | what the code does |
|---|---|
| C12 | `validate` rejects texts with extra spaces that `from_phrase` accepts |
| C19 | prefix search on the unsorted Chinese list misses words: of the 2048 words only 18 (Rust 1.52 - 1.81) or 7 (from 1.82) are found under their own prefix |
| C23 | Chinese seeds are derived from GB18030 bytes, so they differ from those of other wallets |
| C45 | keys of depth 0 with a parent fingerprint or child number are accepted |
| C47 | a prefix from `Prefix::try_from` can produce keys that cannot be read back |
| C59 | `derive_child` panics where its comment promises an error |
| C62 | `==` on extended private keys ignores the secret |
| C30 | child numbers with a leading `+` or leading zeros are accepted (stated as such) |
| C64 | a signature with r = 0 would be returned (libsecp256k1 does not check; exactly two nonces lead there, and nobody knows them: C99) |
| C69 | the upper size hint of `BitIter` is too small by one item in the middle of an iteration (harmless today: only the lower hint is used) |
| C96 | a key text with a typing error is rejected and its decoded bytes stay in memory |
| C110 | `validate` leaves the entropy of an accepted phrase in memory; a phrase with a typing error leaves the bits of the words before it |
| C111 | `Seed::new` leaves the phrase and the passphrase in memory |
| C113 | `format!("{:.20}", mnemonic)` cuts words off, `{:x<99}` glues letters to the last word |
| C115 | Debug of `Seed` and `Mnemonic` prints the secret; Debug of `ExtendedPrivateKey` hides it |
| C119 | for every phrase some wrong last word goes unnoticed (inherent in BIP39) |
| C124 | with features: prefix search misses words in French, Japanese, Spanish and Traditional Chinese |
| C125 | with features: `Language::from_phrase` never returns one of the six languages |
| C126 | with features: longer words than `join` reserves for, the phrase is moved and a copy stays behind |
| C129 | with features: one phrase can be valid in two languages |
| C131 | on 32 bits without overflow checks `validate` accepts a sentence followed by 390451573 more words; with checks it panics |
| C132 | on 32 bits `from_entropy` panics for 2^29 bytes and more, or (without overflow checks) makes a mnemonic of 390451584 words of 2^29 + 16 bytes |
| C136 | `==` of extended private keys ignores the key for every key type, not only for libsecp256k1 (C62) |
| C138 | `XPrv::new` refuses seeds of 24, 40, 48 … bytes, which BIP32 allows, and takes 128 bytes, which it does not allow |
| C139 | debug builds panic for nonces whose point has an abscissa of n or more, where release builds sign; no key and message with such a nonce is known |
| C140 | the prefix search finds only 18 of the 2048 simplified Chinese words (7 from Rust 1.82 on), 16 (6) of the traditional ones, and misses 15 to 25 per cent of the French, Japanese and Spanish words |
| C149 | `XPrv` has no `Drop`: the secret scalar and the chain code stay in memory, and so do plain `String`s |
| C153 | a private key is written under `xpub` without complaint if the caller passes that prefix |
| C154 | unregistered versions are read under the standard labels, so a key has several texts with one label |
| C159 | a phrase of any number of listed words is read to its end and kept in memory before its length is checked |
| C164 | a path has many accepted texts (leading zeros, plus signs), so texts of paths cannot be compared as strings |
| C166 | the hexadecimal text of a seed is accepted as a seed and gives another wallet (the test `test_xprv` in `extended_key/mod.rs` does this) |
| C167 | a phrase of 64 bytes (12 or 15 words) or 128 bytes (15 words or more) is accepted as a seed |
| C98 | the text of a private key stays in the buffer of `Display` |
| C71 | `from_phrase` reserves no memory for the normalised phrase, so partial copies of every accepted phrase are left in freed memory without being wiped |
| C109 | `wordlist().get_word(5000.into())` panics (`Bits11::from` takes any u16); so do `derive_child` of plain keys with a tweak of 0 and `from_parts_unchecked` with other than four letters |

The text quoted in a comment of the test `test_xpub` (src/lib.rs:79) has depth 3 and cannot be the output of
that test, whose path has two components.

## 5. Proof files

| file | content |
|---|---|
| `BitLemmas.v`, `StrLemmas.v`, `HashLemmas.v`, `WordLemmas.v`, `WordData.v`, `NfkdLemmas.v` | bit strings, texts, lengths, facts about the word lists and NFKD |
| `Bip39Proofs.v`, `Bip39Thms.v` | C01 - C27 |
| `Fermat.v`, `Primes.v` | primality of p and n by Pocklington certificates |
| `ECGroup.v`, `SecpField.v`, `SecpGroup.v` | the group law (associativity included) for the affine law, from scratch |
| `OrderData.v`, `SecpOrder.v` | n G is the point at infinity |
| `SecpProofs.v`, `SecpSign.v` | the model's point arithmetic, key parsing and signing against the specification |
| `Base58Proofs.v`, `ExtProofs.v` | base conversion, serialisation |
| `PathThms.v`, `KeyTextThms.v`, `DeriveThms.v`, `MiscThms.v` | C28 - C68 |
| `MoreData.v`, `More39Thms.v` | C69 - C77 |
| `More32Thms.v` | C78 - C89 |
| `HashProofs.v`, `RipemdProofs.v`, `HashThms.v`, `UnicodeThms.v` | C90 - C95 |
| `SecpCount.v` | every point of the curve is a multiple of the generator (counting: at most 2p + 1 < 3n points, and none of order 2) |
| `MemoryThms.v`, `SignThms.v`, `PublicThms.v` | C96 - C104 |
| `SpecChain.v`, `ChainThms.v` | BIP32, the English wallet and RFC 6979 put together from the standards only; C105 - C107 |
| `ModelApi.v`, `SpecApi.v`, `ApiThms.v` | every public function as a call of one machine; what programs can obtain; C108, C109 |
| `ModelFreed.v`, `FreedThms.v` | blocks of memory that bip39 gives back unwiped; C110, C111 |
| `ModelFormat.v`, `FormatThms.v` | every `fmt` of /repo with the flags of its formatter; C112 - C115 |
| `ModelBits.v`, `SpecSentence.v`, `BitsThms.v` | bit packing at every item size, white space, generated phrases, mistakes; C116 - C119 |
| `TraditionalTxt.v` ... `SpanishTxt.v`, `ModelLangs.v`, `SpecLangs.v`, `LangData.v`, `LangData2.v`, `LangProofs.v`, `LangThms.v` | the six languages behind features; the texts are generated by `tools/gen_txt.py`; C120 - C129 |
| `ModelBuilds.v`, `SpecBuilds.v`, `BuildThms.v` | src/bip39 compiled with and without overflow checks for 32 and 64 bits; C130 - C132 |
| `ModelGeneric.v`, `SpecGeneric.v`, `GenericThms.v` | extended keys over any implementation of the key traits; C133 - C138 |
| `ModelSignBuilds.v`, `SignBuildThms.v` | signing with debug assertions; C139 |
| `SpecFind.v`, `FindThms.v` | what the prefix search finds; C140 |
| `SpecConst.v`, `ConstThms.v` | constants of SEC 2 and checksums of the word lists; C141, C142 |
| `ModelConstTime.v`, `ConstTimeThms.v` | comparison in constant time, step by step; C143 |
| `SpecHmacKey.v`, `HmacKeyThms.v` | the key block of HMAC; C144 |
| `FastSha.v`, `FastShaProofs.v`, `ChineseSeedThms.v` | PBKDF2 with SHA-512 on machine integers, proved equal to `Hash.v`; a Chinese seed computed, C23 |
| `FastSha256.v`, `FastSha256Proofs.v` | SHA-256 on machine integers, proved equal to `Hash.v` |
| `SpecConstLangs.v`, `ConstLangsThms.v`, `SpecTables.v`, `TableThms.v` | checksums of all word lists and of the Unicode tables; C145, C146 |
| `ModelDrop.v`, `SpecDrop.v`, `DropThms.v` | programs with secrets in memory; C147 - C149 |
| `ModelOnce.v`, `SpecOnce.v`, `OnceThms.v` | threads and the lazily built word lists; C150 - C151 |
| `SpecKinds.v`, `KindThms.v` | kinds of text; C152 |
| `SpecLabels.v`, `LabelThms.v` | labels of key texts; C153 - C154 |
| `SpecWalletAll.v`, `WalletThms.v` | wallets in all languages; C155 |
| `UniformThms.v` | distribution of derived keys; C156 |
| `ModelCost.v`, `SpecCost.v`, `CostThms.v` | work on long inputs; C157 - C158 |
| `ModelCost39.v`, `Cost39Thms.v` | work on long phrases; C159 |
| `ModelScalar.v`, `SpecScalar.v`, `ScalarThms.v` | words of private keys; C160 |
| `ModelScalarMul.v`, `ScalarSteps.v`, `ScalarMulThms.v` | products, inverses and signatures in words; C161 - C163 |
| `SpecSpelling.v`, `SpellingThms.v` | spellings of derivation paths; C164, C165 |
| `SeedTextThms.v` | hexadecimal texts and phrases in place of seeds; C166, C167 |
| `Vectors.v` | tests |
