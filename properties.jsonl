{"id": "C01", "title": "Entropy survives the trip through a phrase", "statement": "For every language and every entropy that Mnemonic::from_entropy accepts, Mnemonic::from_phrase applied to the resulting phrase succeeds, and the mnemonic it returns has the same entropy, the same phrase and the same language.", "quantifier": "all byte strings of the five legal lengths, both compiled-in languages", "why_tests_cant": "2^128 to 2^256 entropies per length; the packing of 8-bit bytes into 11-bit words crosses byte boundaries at a different offset for every word.", "anchors": ["src/bip39/mnemonic.rs: Mnemonic::from_entropy, Mnemonic::from_phrase, phrase_to_entropy", "src/bip39/util.rs: BitIter, BitWriter"]}
{"id": "C02", "title": "A phrase survives the trip through its entropy", "statement": "Whenever Mnemonic::from_phrase accepts a phrase, rebuilding a mnemonic from the returned entropy and language gives exactly the phrase stored in the accepted mnemonic, so no two different accepted phrases share an entropy.", "quantifier": "all strings, both languages", "why_tests_cant": "The set of accepted phrases is a 2^-4..2^-8 fraction of all word sequences; tests see a few dozen.", "anchors": ["src/bip39/mnemonic.rs: Mnemonic::from_phrase, from_entropy, phrase_to_entropy"]}
{"id": "C03", "title": "from_entropy accepts exactly the five BIP39 sizes", "statement": "Mnemonic::from_entropy returns a mnemonic whose entropy() is the given bytes iff the slice is 16, 20, 24, 28 or 32 bytes long; for every other length it returns InvalidKeysize(8*len) and never panics.", "quantifier": "all byte slices that fit in memory (length below 2^61)", "why_tests_cant": "Rejection must hold for every other length, of which there are unboundedly many.", "anchors": ["src/bip39/mnemonic.rs: from_entropy", "src/bip39/mnemonic_type.rs: for_key_size"]}
{"id": "C04", "title": "from_phrase accepts exactly the BIP39 sentences", "statement": "Mnemonic::from_phrase(s, lang) succeeds iff the NFKD-normalised whitespace-separated words of s are all in the language's list, their number is 12, 15, 18, 21 or 24, and the trailing ENT/32 bits of the concatenated 11-bit indices equal the leading ENT/32 bits of SHA-256 of the leading ENT bits; the entropy returned is those leading ENT bits.", "quantifier": "all strings, both languages", "why_tests_cant": "Soundness and completeness of a validator over an infinite input space with a hash-based checksum.", "anchors": ["src/bip39/mnemonic.rs: from_phrase, phrase_to_entropy", "src/bip39/util.rs: BitWriter, checksum", "src/bip39/crypto.rs: sha256_first_byte"]}
{"id": "C05", "title": "Phrase has the right shape", "statement": "The phrase of every mnemonic built from entropy or generated at random consists of exactly 12/15/18/21/24 words for 16/20/24/28/32 bytes of entropy, every word is in the language's list, and words are separated by single spaces with none at the ends.", "quantifier": "all entropies of legal length, all outputs of the random generator, both languages", "why_tests_cant": "The bit iterator must stop after exactly the right number of 11-bit groups for all contents.", "anchors": ["src/bip39/mnemonic.rs: from_entropy_unchecked, new", "src/bip39/util.rs: BitIter::next, IterExt::join", "src/bip39/language.rs: WordList::get_word"]}
{"id": "C06", "title": "Phrase words are the BIP39 encoding of the entropy", "statement": "Word number i of the phrase is the list entry whose index is the i-th 11-bit group of the bit string (entropy followed by the first ENT/32 bits of its SHA-256).", "quantifier": "all entropies of legal length, both languages, all word positions", "why_tests_cant": "A wrong shift can be visible only on particular byte patterns and positions.", "anchors": ["src/bip39/mnemonic.rs: from_entropy_unchecked", "src/bip39/util.rs: BitIter::next"]}
{"id": "C07", "title": "Generated mnemonics are valid and of the requested strength", "statement": "For every random byte source, Mnemonic::new(t, lang) yields a mnemonic with t.entropy_bits() bits of entropy, equal to the bytes drawn, t.word_count() words, and a phrase that from_phrase and validate accept in that language.", "quantifier": "all mnemonic types, languages and random-generator outputs", "why_tests_cant": "The generator is random; a test sees one draw.", "anchors": ["src/bip39/mnemonic.rs: Mnemonic::new", "src/bip39/crypto.rs: gen_random_bytes"]}
{"id": "C08", "title": "Different entropies never share a phrase", "statement": "Within one language, two different legal entropies (of the same or different length) produce different phrases.", "quantifier": "all pairs of legal entropies", "why_tests_cant": "Injectivity over pairs of 2^256 inputs.", "anchors": ["src/bip39/mnemonic.rs: from_entropy"]}
{"id": "C09", "title": "A wrong checksum is always rejected", "statement": "For every entropy and language, of all the ways to fill the checksum bits of the last word exactly one is accepted by from_phrase; each of the others is rejected with InvalidChecksum.", "quantifier": "all entropies of legal length, all checksum fillings, both languages", "why_tests_cant": "The expected checksum depends on SHA-256 of the entropy.", "anchors": ["src/bip39/mnemonic.rs: phrase_to_entropy", "src/bip39/util.rs: checksum"]}
{"id": "C10", "title": "Phrase parsing ignores spacing", "statement": "Mnemonic::from_phrase depends on its input only through the sequence of whitespace-separated words: adding, removing or replacing runs of (Unicode) white space between or around words never changes the result.", "quantifier": "all strings", "why_tests_cant": "Infinitely many spacings of each phrase.", "anchors": ["src/bip39/mnemonic.rs: from_phrase"]}
{"id": "C11", "title": "validate agrees with from_phrase on stored phrases", "statement": "validate(m.phrase(), m.language()) succeeds for every mnemonic that can be built, and whenever validate accepts a string, from_phrase accepts it too and keeps it unchanged.", "quantifier": "all strings, all constructible mnemonics", "why_tests_cant": "validate skips the normalisation from_phrase performs, so agreement has to be proved for all strings.", "anchors": ["src/bip39/mnemonic.rs: validate, from_phrase"]}
{"id": "C12", "title": "validate accepts whatever from_phrase accepts", "statement": "validate(s, lang) succeeds for every s for which from_phrase(s, lang) succeeds.", "quantifier": "all strings, both languages", "why_tests_cant": "A counterexample lives in the unnormalised inputs tests do not try.", "anchors": ["src/bip39/mnemonic.rs: validate, from_phrase"]}
{"id": "C13", "title": "Phrase errors are reported in a fixed order", "statement": "When from_phrase or validate fails, the error is InvalidWord if some word is not in the list (or, for from_phrase, if there is no word at all), otherwise InvalidWordLength(n) with n the true number of words if n is not a legal count, otherwise InvalidChecksum; no other error and no panic occurs.", "quantifier": "all strings, both languages", "why_tests_cant": "Includes every malformed input, such as the empty string and arbitrarily long ones.", "anchors": ["src/bip39/mnemonic.rs: from_phrase, validate, phrase_to_entropy", "src/bip39/mnemonic_type.rs: for_word_count"]}
{"id": "C14", "title": "BIP39 entry points never panic", "statement": "from_phrase, validate, from_entropy, new, MnemonicType::for_phrase and Language::from_phrase return normally for every input: every index is in bounds, no arithmetic overflows, no shift amount is out of range and every debug assertion holds.", "quantifier": "all inputs", "why_tests_cant": "Absence of panics is a statement about every input.", "anchors": ["src/bip39/mnemonic.rs", "src/bip39/util.rs", "src/bip39/mnemonic_type.rs", "src/bip39/language.rs"]}
{"id": "C15", "title": "The mnemonic type table is coherent", "statement": "For every mnemonic type: total bits = entropy bits + checksum bits = 11 * words, entropy bits = 32 * checksum bits; for_word_count and for_key_size invert word_count and entropy_bits, and fail with InvalidWordLength(n) / InvalidKeysize(n) on every other number.", "quantifier": "all mnemonic types and all usize values", "why_tests_cant": "The failing side ranges over all integers.", "anchors": ["src/bip39/mnemonic_type.rs: MnemonicType"]}
{"id": "C16", "title": "for_phrase classifies by space count", "statement": "MnemonicType::for_phrase(s) returns the type with word_count equal to one plus the number of U+0020 characters in s, and InvalidWordLength otherwise; on the phrase of any constructible mnemonic it returns the type matching its entropy.", "quantifier": "all strings, all constructible mnemonics", "why_tests_cant": "All strings.", "anchors": ["src/bip39/mnemonic_type.rs: for_phrase"]}
{"id": "C17", "title": "Word list and word map are inverse", "statement": "In each language every 11-bit value has its own word, get_word and get_bits are inverse to each other, get_bits rejects every string that is not in the list, and get_word panics for values of 2048 and above.", "quantifier": "all 16-bit values and all strings, both languages", "why_tests_cant": "Rejection ranges over all strings; a single duplicate line in the list would break inversion.", "anchors": ["src/bip39/language.rs: WordList::get_word, WordMap::get_bits, gen_wordlist, gen_wordmap"]}
{"id": "C18", "title": "Prefix search is exact for English", "statement": "wordlist().get_words_by_prefix(p) on the English list returns all the words that start with p and no others, in list order.", "quantifier": "all strings p", "why_tests_cant": "All prefixes, including non-ASCII ones and the empty one.", "anchors": ["src/bip39/language.rs: get_words_by_prefix"]}
{"id": "C19", "title": "Prefix search is exact for Simplified Chinese", "statement": "wordlist().get_words_by_prefix(p) on the Simplified Chinese list returns all the words that start with p and no others.", "quantifier": "all strings p", "why_tests_cant": "The search assumes a sorted list; which prefixes go wrong is not obvious.", "anchors": ["src/bip39/language.rs: get_words_by_prefix"]}
{"id": "C20", "title": "Language codes are recognised regardless of case", "statement": "Language::from_language_code(s) is English iff s equals en up to ASCII case, ChineseSimplified iff s equals zh-cn up to ASCII case, and None otherwise. The default language is English, the one of code en.", "quantifier": "all strings", "why_tests_cant": "All strings.", "anchors": ["src/bip39/language.rs: from_language_code"]}
{"id": "C21", "title": "Language detection recovers the language of a mnemonic", "statement": "Language::from_phrase applied to the phrase of any constructible mnemonic returns that mnemonic's language; it returns None iff the first word is in neither list or there is no word.", "quantifier": "all strings, all constructible mnemonics", "why_tests_cant": "Requires the two word lists to be disjoint and holds for all phrases.", "anchors": ["src/bip39/language.rs: Language::from_phrase"]}
{"id": "C22", "title": "Seeds follow BIP39 for English", "statement": "For an English mnemonic, Seed::new(m, pw).as_bytes() is PBKDF2-HMAC-SHA512 with the UTF-8 phrase as password, the UTF-8 of NFKD(\"mnemonic\" + pw) as salt, 2048 iterations and 64 bytes of output.", "quantifier": "all English mnemonics and passwords", "why_tests_cant": "All passwords, including non-ASCII ones.", "anchors": ["src/bip39/seed.rs: Seed::new", "src/bip39/crypto.rs: pbkdf2", "src/bip39/mnemonic.rs: as_bytes"]}
{"id": "C23", "title": "Seeds follow BIP39 for Simplified Chinese", "statement": "For a Simplified Chinese mnemonic, Seed::new uses the UTF-8 bytes of the NFKD phrase as the PBKDF2 password, as BIP39 requires, so that the seed equals the one other BIP39 wallets compute.", "quantifier": "all Simplified Chinese mnemonics and passwords", "why_tests_cant": "No test covers Chinese seeds.", "anchors": ["src/bip39/seed.rs: Seed::new", "src/bip39/mnemonic.rs: as_bytes"]}
{"id": "C24", "title": "Every seed can start a wallet", "statement": "Every Seed is 64 bytes long, so that XPrv::new never rejects it for its length.", "quantifier": "all mnemonics and passwords", "why_tests_cant": "All mnemonics and passwords.", "anchors": ["src/bip39/seed.rs: Seed::new", "src/bip32/extended_key/extended_private_key.rs: new"]}
{"id": "C25", "title": "Seeds are insensitive to how the password is composed", "statement": "Two passwords with the same NFKD form give the same seed; in particular replacing the password by its NFKD form changes nothing.", "quantifier": "all mnemonics, all pairs of Unicode passwords", "why_tests_cant": "All Unicode strings.", "anchors": ["src/bip39/seed.rs: Seed::new"]}
{"id": "C26", "title": "Hex formatting is faithful", "statement": "{:x} and {:X} of a Mnemonic (its entropy) and of a Seed print exactly two hex digits per byte, lower or upper case, in order, prefixed by 0x exactly when the alternate flag is given; decoding the digits gives the bytes back, and Debug of a Seed is its {:#X}.", "quantifier": "all entropies and seeds", "why_tests_cant": "All byte strings.", "anchors": ["src/bip39/mnemonic.rs: LowerHex, UpperHex", "src/bip39/seed.rs: LowerHex, UpperHex, Debug"]}
{"id": "C27", "title": "Mnemonics keep their phrase", "statement": "phrase(), Display, AsRef<str>, into_phrase() and String::from give the same string; re-parsing the stored phrase gives back an identical mnemonic.", "quantifier": "all constructible mnemonics", "why_tests_cant": "All mnemonics, including those built from unnormalised input.", "anchors": ["src/bip39/mnemonic.rs: phrase, into_phrase, Display"]}
{"id": "C28", "title": "Child numbers keep index and hardened flag", "statement": "ChildNumber::new(i, h) succeeds iff i < 2^31, and then index() = i and is_hardened() = h; conversely every u32 child number is new(index(), is_hardened()).", "quantifier": "all u32 values and both flags", "why_tests_cant": "2^32 values and a boundary at 2^31.", "anchors": ["src/bip32/child_number.rs: ChildNumber::new, index, is_hardened"]}
{"id": "C29", "title": "Child number text round-trips", "statement": "Parsing the Display form of any child number gives it back, and the display form is the canonical decimal index followed by an apostrophe iff hardened.", "quantifier": "all u32 values", "why_tests_cant": "2^32 values.", "anchors": ["src/bip32/child_number.rs: Display, FromStr"]}
{"id": "C30", "title": "Child number parsing accepts exactly its grammar", "statement": "A string parses as a child number iff it is an optional + sign, one or more ASCII digits with value below 2^31 and an optional final apostrophe; everything else fails with Error::ChildNumber.", "quantifier": "all strings", "why_tests_cant": "All strings, including very long digit strings and overflow at every length.", "anchors": ["src/bip32/child_number.rs: FromStr"]}
{"id": "C31", "title": "Child number bytes are big-endian and round-trip", "statement": "from_bytes and to_bytes are inverse on all u32 values and all 4-byte arrays, most significant byte first.", "quantifier": "all u32 values, all 4-byte arrays", "why_tests_cant": "2^32 values.", "anchors": ["src/bip32/child_number.rs: from_bytes, to_bytes"]}
{"id": "C32", "title": "Derivation path text round-trips", "statement": "Parsing the Display form of any derivation path gives back the same path, whatever its length.", "quantifier": "all lists of u32 child numbers", "why_tests_cant": "Unbounded paths.", "anchors": ["src/bip32/derivation_path.rs: Display, FromStr"]}
{"id": "C33", "title": "Derivation path parsing accepts exactly its grammar", "statement": "A string parses as a derivation path iff it is m followed by zero or more /component with each component a parseable child number; a wrong first component gives Error::Decode, otherwise any bad component gives Error::ChildNumber; components are kept in order.", "quantifier": "all strings", "why_tests_cant": "All strings.", "anchors": ["src/bip32/derivation_path.rs: FromStr"]}
{"id": "C34", "title": "push, extend, parent, len, is_empty agree", "statement": "parent(push(p, c)) = p, the root has no parent, len counts pushes, is_empty iff len = 0 iff parent is None, every non-root path is its parent extended by its last component, and extend is repeated push.", "quantifier": "all paths, all sequences of operations", "why_tests_cant": "All histories of push/parent/extend.", "anchors": ["src/bip32/derivation_path.rs: push, extend, parent, len, is_empty"]}
{"id": "C35", "title": "Serialised extended keys always fit", "statement": "ExtendedKey::write_base58 / Display succeeds for every extended key: the text has at most 112 characters, all from the Base58 alphabet.", "quantifier": "all prefixes (any 32-bit version), attributes and key bytes", "why_tests_cant": "2^624 payloads; the length depends on the magnitude and on leading zeros.", "anchors": ["src/bip32/extended_key/mod.rs: write_base58, Display"]}
{"id": "C36", "title": "Extended key text determines the key", "statement": "Parsing the Display form of an extended key returns the same version, depth, fingerprint, child number, chain code and key bytes, and its prefix characters are the first four characters of the text, provided these are ASCII letters.", "quantifier": "all extended keys", "why_tests_cant": "2^624 payloads.", "anchors": ["src/bip32/extended_key/mod.rs: Display, FromStr"]}
{"id": "C37", "title": "Extended key parsing is strict", "statement": "If a string parses as an extended key, displaying the result gives back exactly the same string; hence no two different strings parse to the same key.", "quantifier": "all strings", "why_tests_cant": "All strings (no alternative spellings, padding or extra characters).", "anchors": ["src/bip32/extended_key/mod.rs: FromStr, Display"]}
{"id": "C38", "title": "Extended key parsing checks the checksum", "statement": "A string parses as an extended key iff it is the Base58 form of 78 payload bytes followed by the first four bytes of their double SHA-256 and its first four characters are ASCII letters; otherwise the result is Error::Base58 or Error::Decode and never a panic.", "quantifier": "all strings", "why_tests_cant": "All strings.", "anchors": ["src/bip32/extended_key/mod.rs: FromStr"]}
{"id": "C39", "title": "Standard prefixes are stable", "statement": "For each of the eight standard prefixes (tprv..zpub) the text of every extended key carrying it is exactly 111 characters long and starts with the prefix's own four characters, whatever the other 74 bytes are.", "quantifier": "all attributes and key bytes, eight prefixes", "why_tests_cant": "Depends on carries across a 656-bit number for every payload.", "anchors": ["src/bip32/prefix.rs: constants", "src/bip32/extended_key/mod.rs: write_base58"]}
{"id": "C40", "title": "Extended private keys round-trip", "statement": "For prefixes TPRV, XPRV, YPRV, ZPRV: parsing xprv.to_string(prefix) gives an extended private key with the same private key bytes and attributes, for every key reachable from a seed.", "quantifier": "all extended private keys, four prefixes", "why_tests_cant": "All keys.", "anchors": ["src/bip32/extended_key/extended_private_key.rs: to_string, FromStr, TryFrom<ExtendedKey>"]}
{"id": "C41", "title": "Extended public keys round-trip", "statement": "For prefixes TPUB, XPUB, YPUB, ZPUB: parsing xpub.to_string(prefix) gives back the same extended public key, for every key on the curve.", "quantifier": "all extended public keys, four prefixes", "why_tests_cant": "Point decompression must recover every curve point.", "anchors": ["src/bip32/extended_key/extended_public_key.rs: to_string, FromStr, TryFrom<ExtendedKey>", "src/bip32/public_key.rs: from_bytes, to_bytes"]}
{"id": "C42", "title": "Private and public encodings are never confused", "statement": "No string parses both as an extended private key and as an extended public key; in particular a string serialised with a pub prefix never parses as a private key and vice versa, failing with Error::Crypto.", "quantifier": "all strings, all keys", "why_tests_cant": "All strings.", "anchors": ["src/bip32/extended_key/extended_private_key.rs: TryFrom<ExtendedKey>", "src/bip32/extended_key/extended_public_key.rs: TryFrom<ExtendedKey>", "src/bip32/prefix.rs: is_public, is_private"]}
{"id": "C43", "title": "Only valid private keys are accepted", "statement": "An extended private key string is accepted only if its key material is a zero byte followed by a big-endian integer k with 1 <= k < n; all others give Error::Crypto.", "quantifier": "all extended keys", "why_tests_cant": "Boundary at the 256-bit group order.", "anchors": ["src/bip32/extended_key/extended_private_key.rs: TryFrom<ExtendedKey>", "src/bip32/private_key.rs: from_bytes"]}
{"id": "C44", "title": "Only curve points are accepted", "statement": "An extended public key string is accepted only if its key material is a compressed encoding (02/03) of a point on secp256k1; all others give Error::Crypto.", "quantifier": "all extended keys", "why_tests_cant": "Half of all 2^256 x-coordinates are invalid.", "anchors": ["src/bip32/extended_key/extended_public_key.rs: TryFrom<ExtendedKey>", "src/bip32/public_key.rs: from_bytes"]}
{"id": "C45", "title": "Root keys with inconsistent metadata are rejected", "statement": "As BIP32 requires, a serialised key with depth 0 but a non-zero parent fingerprint or child number is rejected.", "quantifier": "all extended key strings", "why_tests_cant": "Needs a specific malformed input with a valid checksum.", "anchors": ["src/bip32/extended_key/mod.rs: FromStr", "src/bip32/extended_key/extended_private_key.rs: TryFrom<ExtendedKey>"]}
{"id": "C46", "title": "Prefixes obtained from a version number are faithful", "statement": "Prefix::try_from(v) never panics, either fails with Error::Decode or gives a prefix with version v and four ASCII letters; to_bytes/from_bytes and version/try_from are inverse; each standard constant equals try_from of its version, and the constants are the eight versions registered in BIP32 and SLIP-132.", "quantifier": "all 32-bit versions", "why_tests_cant": "2^32 versions.", "anchors": ["src/bip32/prefix.rs: from_version, from_bytes, to_bytes, version"]}
{"id": "C47", "title": "Prefixes obtained from a version number survive serialisation", "statement": "For every prefix obtained with Prefix::try_from(v), parsing the text of a key serialised with it returns the same prefix.", "quantifier": "all 32-bit versions, all keys", "why_tests_cant": "The first four characters can depend on the rest of the payload for some versions only.", "anchors": ["src/bip32/prefix.rs: from_version", "src/bip32/extended_key/mod.rs: Display, FromStr"]}
{"id": "C48", "title": "A prefix is never both public and private", "statement": "is_public and is_private are mutually exclusive, and as_str never panics and returns the four characters given.", "quantifier": "all prefixes that can be constructed", "why_tests_cant": "All strings.", "anchors": ["src/bip32/prefix.rs: is_public, is_private, as_str, from_parts_unchecked"]}
{"id": "C49", "title": "Master keys follow BIP32", "statement": "XPrv::new(seed) fails with SeedLength unless the seed has 16, 32, 64 or 128 bytes; otherwise with I = HMAC-SHA512(\"Bitcoin seed\", seed) it fails with Crypto if the left half is 0 or >= n and else returns the key I_L with chain code I_R, depth 0, zero fingerprint and child number 0; it never panics.", "quantifier": "all seeds", "why_tests_cant": "All byte strings.", "anchors": ["src/bip32/extended_key/extended_private_key.rs: new"]}
{"id": "C50", "title": "Private child derivation follows BIP32", "statement": "derive_child(i) on a private key returns depth+1, child number i, the first 4 bytes of RIPEMD160(SHA256(parent public key)) as fingerprint, I_R as chain code and (I_L + k) mod n as key, where I = HMAC-SHA512(chain code, data), data = 00 k i for hardened and the compressed public key and i otherwise; it fails with Depth exactly at depth 255 and with Crypto when the sum is 0.", "quantifier": "all extended private keys, all child numbers", "why_tests_cant": "All keys and indices.", "anchors": ["src/bip32/extended_key/extended_private_key.rs: derive_child", "src/bip32/private_key.rs: derive_child", "src/bip32/public_key.rs: fingerprint"]}
{"id": "C51", "title": "Public child derivation follows BIP32", "statement": "derive_child(i) on a public key fails with ChildNumber for every hardened i, with Depth at depth 255, and otherwise returns the point I_L*G + K with chain code I_R, depth+1, child number i and the parent's fingerprint, failing with Crypto when the sum is the point at infinity.", "quantifier": "all extended public keys, all child numbers", "why_tests_cant": "All keys and indices.", "anchors": ["src/bip32/extended_key/extended_public_key.rs: derive_child", "src/bip32/public_key.rs: derive_child"]}
{"id": "C52", "title": "Public and private derivation agree", "statement": "For every extended private key and every non-hardened child number, deriving the child and then taking its public key gives the same extended public key as first taking the public key and then deriving; each fails exactly when the other does, with the same error.", "quantifier": "all extended private keys, all non-hardened child numbers", "why_tests_cant": "An algebraic law over the whole elliptic curve group.", "anchors": ["src/bip32/extended_key/extended_private_key.rs: derive_child, public_key", "src/bip32/extended_key/extended_public_key.rs: derive_child, From<&ExtendedPrivateKey>"]}
{"id": "C53", "title": "Watch-only wallets see the same tree", "statement": "For every extended private key and every path of non-hardened child numbers, deriving along the path and taking the public key equals taking the public key and deriving along the path.", "quantifier": "all extended private keys, all non-hardened paths of any length", "why_tests_cant": "Unbounded paths over the elliptic curve group.", "anchors": ["src/bip32/extended_key/extended_private_key.rs: derive_from_path", "src/bip32/extended_key/extended_public_key.rs: derive_from_path"]}
{"id": "C54", "title": "Path derivation composes", "statement": "derive_from_path(p ++ q) equals derive_from_path(p) followed by derive_from_path(q), the empty path is the identity, a one-step path is derive_child, and new_from_path(seed, p) is new(seed) followed by derive_from_path(p); the first error met is the error returned.", "quantifier": "all seeds, keys and paths", "why_tests_cant": "Unbounded paths.", "anchors": ["src/bip32/extended_key/extended_private_key.rs: new_from_path, derive_from_path", "src/bip32/extended_key/extended_public_key.rs: derive_from_path"]}
{"id": "C55", "title": "Depth equals the number of derivation steps", "statement": "A key obtained from a key of depth d along a path of length l has depth d + l and the path's last child number; derivation along a path with d + l > 255 never succeeds.", "quantifier": "all keys and paths", "why_tests_cant": "Unbounded paths; the depth is an 8-bit counter.", "anchors": ["src/bip32/extended_key/extended_private_key.rs: derive_child", "src/bip32/extended_key/extended_public_key.rs: derive_child"]}
{"id": "C56", "title": "Hardened children cannot be derived from public keys", "statement": "derive_from_path on an extended public key fails for every path that contains a hardened component, and no hardened child is ever returned.", "quantifier": "all extended public keys and paths", "why_tests_cant": "Unbounded paths.", "anchors": ["src/bip32/extended_key/extended_public_key.rs: derive_child, derive_from_path"]}
{"id": "C57", "title": "Derived keys are valid keys", "statement": "Every extended private key that can be built by new, from_str and any sequence of derivations holds a scalar in 1..n-1, and its public key, as well as every public key derived from it, is a finite curve point.", "quantifier": "all histories of operations", "why_tests_cant": "All histories.", "anchors": ["src/bip32/extended_key/extended_private_key.rs", "src/bip32/extended_key/extended_public_key.rs", "src/bip32/private_key.rs", "src/bip32/public_key.rs"]}
{"id": "C58", "title": "Parent fingerprint links parent and child", "statement": "For every successful derivation, private or public, the child's parent_fingerprint equals fingerprint() of the parent's extended public key.", "quantifier": "all keys and child numbers", "why_tests_cant": "All keys.", "anchors": ["src/bip32/extended_key/extended_private_key.rs: derive_child", "src/bip32/extended_key/extended_public_key.rs: fingerprint, derive_child"]}
{"id": "C59", "title": "Derivation reports bad hash output as an error", "statement": "As the comment in derive_child says, when the left half of the HMAC is zero or not below the group order the derivation returns an error (it does not panic).", "quantifier": "all keys, child numbers and HMAC outputs", "why_tests_cant": "The event has probability 2^-127, so no test reaches it.", "anchors": ["src/bip32/extended_key/extended_private_key.rs: derive_child", "src/bip32/private_key.rs: derive_child", "src/bip32/public_key.rs: derive_child"]}
{"id": "C60", "title": "Derivation panics only on bad hash output", "statement": "derive_child and derive_from_path (private and public) panic only if, for some step, the left half of the HMAC is zero or not below the group order; new, to_string, from_str and all other BIP32 entry points never panic.", "quantifier": "all keys, paths and strings", "why_tests_cant": "Absence of panics over all inputs.", "anchors": ["src/bip32/extended_key/extended_private_key.rs", "src/bip32/extended_key/extended_public_key.rs", "src/bip32/extended_key/mod.rs", "src/bip32/private_key.rs", "src/bip32/public_key.rs"]}
{"id": "C61", "title": "Equality of extended private keys is an equivalence", "statement": "== on extended private keys is reflexive, symmetric and transitive, and unequal keys differ in some serialised field.", "quantifier": "all triples of keys", "why_tests_cant": "All triples.", "anchors": ["src/bip32/extended_key/extended_private_key.rs: PartialEq, ConstantTimeEq"]}
{"id": "C62", "title": "Equal extended private keys hold the same secret", "statement": "If two extended private keys compare equal with ==, their private keys are the same.", "quantifier": "all pairs of keys", "why_tests_cant": "The unit tests compare keys that should be equal and so pass whatever == ignores.", "anchors": ["src/bip32/extended_key/extended_private_key.rs: ConstantTimeEq::ct_eq, PartialEq"]}
{"id": "C63", "title": "Debug output does not leak the private key", "statement": "The Debug text of an extended private key is a function of its attributes alone: keys that differ only in the secret have the same Debug text.", "quantifier": "all pairs of keys", "why_tests_cant": "Non-interference is a statement about pairs of runs.", "anchors": ["src/bip32/extended_key/extended_private_key.rs: Debug"]}
{"id": "C64", "title": "Signing produces valid signatures", "statement": "For every secret key and every 32-byte digest, the 64-byte signature returned by ecdsa_sign verifies under the corresponding public key, its s is at most n/2, and the recovery id recovers that public key, unless its r component is zero (which libsecp256k1 does not check).", "quantifier": "all secret keys, all 32-byte messages", "why_tests_cant": "Algebraic law over the curve for all keys, messages and nonces.", "anchors": ["src/lib.rs: ecdsa_sign"]}
{"id": "C65", "title": "Signing rejects wrong message lengths and is deterministic", "statement": "ecdsa_sign fails iff the message is not exactly 32 bytes long, with InvalidInputLength; equal inputs give equal outputs, and messages equal modulo the group order are signed identically.", "quantifier": "all byte slices, all keys", "why_tests_cant": "All lengths.", "anchors": ["src/lib.rs: ecdsa_sign"]}
{"id": "C66", "title": "ripemd returns the hex digest", "statement": "crypto::ripemd(msg) is the 40-character lower-case hex of RIPEMD-160(msg) for every message.", "quantifier": "all byte slices", "why_tests_cant": "All messages.", "anchors": ["src/crypto.rs: ripemd"]}
{"id": "C67", "title": "From seed phrase to key is a function of the words, the password and the path", "statement": "Two phrases with the same words, two passwords with the same NFKD form and the same path always lead to the same extended private key (or the same error).", "quantifier": "all phrases, passwords and paths", "why_tests_cant": "End-to-end over all inputs.", "anchors": ["src/bip39/mnemonic.rs", "src/bip39/seed.rs", "src/bip32/extended_key/extended_private_key.rs"]}
{"id": "C68", "title": "Signing nonces follow RFC 6979", "statement": "The signature returned by ecdsa_sign is the low-s form of the ECDSA signature made with the first usable candidate of RFC 6979 (HMAC-SHA256, the secret and the digest reduced modulo n): every earlier candidate is out of range or gives s = 0.", "quantifier": "all secret keys, all messages, any number of retries", "why_tests_cant": "Retries happen with probability 2^-128, so no test ever reaches the second candidate.", "anchors": ["src/lib.rs: ecdsa_sign"]}
{"id": "C69", "title": "Size hints of the bit iterator are correct", "statement": "At every point of an iteration BitIter::size_hint returns a lower bound at most, and an upper bound at least, the number of items still to come.", "quantifier": "all byte sources shorter than 2^61 bytes, all points of the iteration", "why_tests_cant": "The hint ignores the bits already buffered, which matters only for some lengths and positions.", "anchors": ["src/bip39/util.rs: BitIter::size_hint, BitIter::next"]}
{"id": "C70", "title": "Building a phrase from entropy never moves the secret", "statement": "When a mnemonic is built from entropy, the capacity that join reserves is enough for the whole phrase, so the text is never copied to a larger buffer (Zeroizing wipes only the last one); when a phrase is read, the bytes of BitWriter fit its initial capacity for every phrase of up to 24 words.", "quantifier": "all entropies of the five sizes, both languages; all word sequences", "why_tests_cant": "The reservation is an estimate from a size hint and an average word length; whether it suffices depends on the longest words.", "anchors": ["src/bip39/util.rs: IterExt::join, BitIter::size_hint, BitWriter::with_capacity", "src/bip39/mnemonic.rs: from_entropy_unchecked, phrase_to_entropy"]}
{"id": "C71", "title": "Reading a phrase never moves the secret", "statement": "When from_phrase accepts a phrase, its normalised text has been written into one buffer that was never copied to a larger one.", "quantifier": "all accepted phrases", "why_tests_cant": "Copies left behind in freed memory are invisible to tests.", "anchors": ["src/bip39/util.rs: IterExt::join", "src/bip39/mnemonic.rs: from_phrase"]}
{"id": "C72", "title": "Every beginning of a phrase has the right number of last words", "statement": "For any list words w1 .. w(n-1), n being 12, 15, 18, 21 or 24, exactly 2^(11 - n/3) words of the list complete the phrase to one that from_phrase accepts.", "quantifier": "all word sequences one word short of a legal length, both languages", "why_tests_cant": "2048^11 beginnings and more.", "anchors": ["src/bip39/mnemonic.rs: from_phrase, phrase_to_entropy", "src/bip39/util.rs: checksum"]}
{"id": "C73", "title": "Different mnemonics have different PBKDF2 passwords", "statement": "If as_bytes of two mnemonics gives the same bytes, the mnemonics are the same, even across languages (UTF-8 for English, GB18030 for Simplified Chinese).", "quantifier": "all pairs of mnemonics obtained from the constructors", "why_tests_cant": "Injectivity is a statement about pairs; two encodings are mixed.", "anchors": ["src/bip39/mnemonic.rs: as_bytes"]}
{"id": "C74", "title": "Debug of a mnemonic is the quoted phrase", "statement": "{:?} of a mnemonic prints its phrase between quotation marks, with no character escaped.", "quantifier": "all mnemonics obtained from the constructors", "why_tests_cant": "All phrases.", "anchors": ["src/bip39/mnemonic.rs: Debug"]}
{"id": "C75", "title": "Messages identify the error", "statement": "The Display text of an ErrorKind determines the error including its numbers; the texts are the documented ones, numbers being written in canonical decimal, and MnemonicType prints as <words> words (<bits>bits).", "quantifier": "all errors with all numbers", "why_tests_cant": "All numbers.", "anchors": ["src/bip39/error.rs: ErrorKind", "src/bip39/mnemonic_type.rs: Display"]}
{"id": "C76", "title": "Phrases are read the same in every Unicode form", "statement": "from_phrase returns the same result for any two texts with the same NFKD form, in particular for a text and its NFC, NFD, NFKC and NFKD forms, including for texts that are rejected.", "quantifier": "all pairs of strings", "why_tests_cant": "Splitting happens before normalising, and some characters decompose into text with spaces.", "anchors": ["src/bip39/mnemonic.rs: from_phrase"]}
{"id": "C77", "title": "Four letters identify an English word", "statement": "Two English words with the same first four letters are equal, and get_words_by_prefix of any beginning of at least four letters of a word returns exactly that word.", "quantifier": "all English words, all beginnings of at least four letters", "why_tests_cant": "About 10000 beginnings; depends on the binary search landing right.", "anchors": ["src/bip39/language.rs: get_words_by_prefix", "src/bip39/langs/english.txt"]}
{"id": "C78", "title": "A public parent key and a normal child's private key reveal the parent's private key", "statement": "For every private key and every path of non-hardened child numbers, the parent's secret equals the descendant's secret minus the sum, modulo n, of the left hash halves along the path, all of which are computed from the parent's extended public key alone.", "quantifier": "all extended private keys, all non-hardened paths that derive", "why_tests_cant": "Needs the algebra of all keys; documents why an xpub and a leaked child must never meet.", "anchors": ["src/bip32/extended_key/extended_private_key.rs: derive_child", "src/bip32/extended_key/extended_public_key.rs: derive_child", "src/bip32/private_key.rs: derive_child"]}
{"id": "C79", "title": "A public key belongs to one private key", "statement": "Two extended private keys with the same extended public key are the same, the 33 public key bytes are equal exactly if the secrets are, and so are the texts under any prefix.", "quantifier": "all pairs of extended private keys", "why_tests_cant": "Injectivity of scalar multiplication on 2^256 values.", "anchors": ["src/bip32/extended_key/extended_private_key.rs: public_key", "src/bip32/private_key.rs: public_key", "src/bip32/public_key.rs: to_bytes"]}
{"id": "C80", "title": "Watch-only wallets verify signatures of derived keys", "statement": "A signature made with the key derived privately along a non-hardened path verifies under, and recovers to, the key derived publicly along the same path.", "quantifier": "all extended private keys, all non-hardened paths, all 32-byte digests", "why_tests_cant": "Combines derivation, point arithmetic and ECDSA.", "anchors": ["src/lib.rs: ecdsa_sign", "src/bip32/extended_key/extended_private_key.rs: derive_from_path", "src/bip32/extended_key/extended_public_key.rs: derive_from_path"]}
{"id": "C81", "title": "A signature with recovery id identifies the signer", "statement": "For a digest, signature and recovery id there is at most one recovered public key; two secrets that return the same signature and recovery id for the same digest are equal (unless r is zero).", "quantifier": "all digests, signatures, recovery ids and secrets", "why_tests_cant": "Statement about pairs of secrets.", "anchors": ["src/lib.rs: ecdsa_sign"]}
{"id": "C82", "title": "Prefix texts are exact", "statement": "Display of a prefix is its four characters; Debug prints them quoted and the version as 0x and eight lower-case hex digits, and determines the prefix.", "quantifier": "all valid prefixes", "why_tests_cant": "2^32 versions and 52^4 texts.", "anchors": ["src/bip32/prefix.rs: Debug", "src/bip32/prefix.rs: Display", "src/bip32/prefix.rs: DebugVersion"]}
{"id": "C83", "title": "Each BIP32 entry point returns only its own errors", "statement": "Error texts are pairwise different; child numbers fail only with ChildNumber, paths with Decode or ChildNumber, prefixes with Decode, extended keys with Base58 or Decode, typed keys also with Crypto, master keys with SeedLength or Crypto, private derivation with Depth or Crypto, public derivation with ChildNumber, Depth or Crypto. Bip39 is never returned.", "quantifier": "all inputs of all parsing and derivation functions", "why_tests_cant": "Absence of other errors on all inputs.", "anchors": ["src/bip32/error.rs: Error", "src/bip32/child_number.rs: from_str", "src/bip32/derivation_path.rs: from_str", "src/bip32/prefix.rs: try_from", "src/bip32/extended_key/mod.rs: from_str", "src/bip32/extended_key/extended_private_key.rs: derive_child", "src/bip32/extended_key/extended_public_key.rs: derive_child"]}
{"id": "C84", "title": "Equal siblings or equal master keys mean a hash collision", "statement": "Two different children of a key have the same secret exactly if the left halves of two HMAC outputs for different data agree, and the same secret and chain code exactly if the outputs agree; two seeds give the same master key exactly if their HMAC outputs agree.", "quantifier": "all keys, all pairs of child numbers, all pairs of seeds", "why_tests_cant": "No collision is known, so no test can reach the case.", "anchors": ["src/bip32/extended_key/extended_private_key.rs: derive_child", "src/bip32/extended_key/extended_private_key.rs: new"]}
{"id": "C85", "title": "Keys can be stored as text between any two steps", "statement": "Deriving along p, writing the key as text under any of the standard prefixes, reading it back and deriving along q gives what deriving along p ++ q gives, for private and public keys, errors included.", "quantifier": "all keys, all paths p and q, all standard prefixes", "why_tests_cant": "All keys and paths.", "anchors": ["src/bip32/extended_key/extended_private_key.rs: to_string", "src/bip32/extended_key/extended_private_key.rs: from_str", "src/bip32/extended_key/extended_public_key.rs: to_string", "src/bip32/extended_key/extended_public_key.rs: from_str"]}
{"id": "C86", "title": "The derived orders are the byte orders", "statement": "Child numbers are ordered normal before hardened and then by index; attributes are ordered like the number their serialised bytes form; prefixes by characters and then version; each order says Equal only for equal values.", "quantifier": "all pairs of child numbers, attributes and prefixes", "why_tests_cant": "Pairs of 41-byte values.", "anchors": ["src/bip32/child_number.rs: Ord", "src/bip32/extended_key/attrs.rs: Ord", "src/bip32/prefix.rs: Ord"]}
{"id": "C87", "title": "Debug of an extended private key shows all attributes", "statement": "Two extended private keys have the same Debug text exactly if their attributes are the same, which is exactly when == says they are equal.", "quantifier": "all pairs of extended private keys", "why_tests_cant": "Unambiguity of a text format over all values.", "anchors": ["src/bip32/extended_key/extended_private_key.rs: Debug", "src/bip32/extended_key/extended_private_key.rs: PartialEq"]}
{"id": "C88", "title": "Editing a path follows the key tree", "statement": "Deriving along push(c) is deriving the child c of the key at the path, extend continues the derivation, and the key at a path is the child with the path's last number of the key at parent(); parent() is None exactly for the path that derives nothing.", "quantifier": "all keys, all paths, all child numbers", "why_tests_cant": "All keys and paths.", "anchors": ["src/bip32/derivation_path.rs: push", "src/bip32/derivation_path.rs: parent", "src/bip32/derivation_path.rs: extend", "src/bip32/extended_key/extended_private_key.rs: derive_from_path"]}
{"id": "C89", "title": "The signer returns one of the two forms of a signature", "statement": "For every public key (r, s) is valid exactly if (r, n - s) is; ecdsa_sign never returns both forms, whatever keys and digests it is given.", "quantifier": "all keys, digests and signatures", "why_tests_cant": "Statement about all pairs of calls.", "anchors": ["src/lib.rs: ecdsa_sign"]}
{"id": "C90", "title": "SHA-256 and SHA-512 are those of FIPS 180-4", "statement": "For every message the digest used by the crate is the one and only digest that FIPS 180-4 defines: the constants being the fractional bits of the roots of the first primes, the padding, schedule, rounds and feed-forward those of the standard. The checksum byte of BIP39 and the check bytes of Base58Check are taken from it.", "quantifier": "all byte strings shorter than 2^61 bytes", "why_tests_cant": "Hashes are usually tested on a handful of vectors.", "anchors": ["src/bip39/crypto.rs: sha256_first_byte", "src/bip32/extended_key/mod.rs: from_str", "src/bip32/public_key.rs: fingerprint"]}
{"id": "C91", "title": "HMAC is that of RFC 2104", "statement": "For every key and message HMAC-SHA512 (key derivation, seeds) and HMAC-SHA256 (nonces of signatures) are the one value RFC 2104 defines, for keys shorter than, as long as and longer than a block.", "quantifier": "all keys and messages shorter than 2^60 bytes", "why_tests_cant": "Keys of all lengths.", "anchors": ["src/bip32/extended_key/extended_private_key.rs: derive_child", "src/bip32/extended_key/extended_public_key.rs: derive_child", "src/bip39/crypto.rs: pbkdf2"]}
{"id": "C92", "title": "RIPEMD-160 is the published function", "statement": "crypto::ripemd returns the lower-case hex digits of the one RIPEMD-160 digest of the message; a key fingerprint is the first four bytes of RIPEMD-160 of SHA-256 of the compressed key, and nothing else.", "quantifier": "all byte strings shorter than 2^61 bytes, all points of the curve", "why_tests_cant": "Hashes are usually tested on a handful of vectors.", "anchors": ["src/crypto.rs: ripemd", "src/bip32/public_key.rs: fingerprint"]}
{"id": "C93", "title": "Seeds are what the standards say, from the bits up", "statement": "Seed::new returns exactly the value that PBKDF2 (RFC 8018) with HMAC (RFC 2104) over SHA-512 (FIPS 180-4) defines, password the bytes of the mnemonic, salt 'mnemonic' and the passphrase in NFKD and UTF-8, 2048 iterations, 64 bytes.", "quantifier": "all mnemonics that can be built, all passphrases (of fewer than 2^56 characters)", "why_tests_cant": "2048 iterations of a hash on all inputs.", "anchors": ["src/bip39/seed.rs: new", "src/bip39/crypto.rs: pbkdf2"]}
{"id": "C94", "title": "NFKD is normalisation form KD", "statement": "The text handed to the word list and to the salt is the one text that Unicode defines as form KD: every character replaced by its full compatibility decomposition (Hangul syllables by arithmetic), then neighbouring marks exchanged until none is out of order. The result needs no further normalisation.", "quantifier": "all strings", "why_tests_cant": "All strings of all characters.", "anchors": ["src/bip39/mnemonic.rs: from_phrase", "src/bip39/seed.rs: new"]}
{"id": "C95", "title": "UTF-8 is that of RFC 3629 and loses nothing", "statement": "The bytes of a string are those of RFC 3629 and determine it; two passphrases give the same PBKDF2 salt exactly if they have the same form KD.", "quantifier": "all strings of Unicode scalar values, all pairs of passphrases", "why_tests_cant": "Pairs of arbitrary strings.", "anchors": ["src/bip39/seed.rs: new", "src/bip39/mnemonic.rs: as_bytes"]}
{"id": "C96", "title": "Reading an extended key wipes the copy it works on", "statement": "When ExtendedKey::from_str returns, the array that held the decoded 82 bytes, key material included, holds zeros only; decoding character by character into that array gives the same results as the rest of the model.", "quantifier": "all strings", "why_tests_cant": "The content of memory that was released cannot be tested.", "anchors": ["src/bip32/extended_key/mod.rs: from_str"]}
{"id": "C97", "title": "Writing an extended key wipes the copy it works on", "statement": "When write_base58 returns, the array in which it assembled the 78 bytes of the key holds zeros only, and the result is the text of the key.", "quantifier": "all extended keys", "why_tests_cant": "The content of memory that was released cannot be tested.", "anchors": ["src/bip32/extended_key/mod.rs: write_base58"]}
{"id": "C98", "title": "Formatting an extended key leaves no copy behind", "statement": "When Display of ExtendedKey returns, the buffer in which it assembled the text, which contains the key, holds zeros only.", "quantifier": "all extended keys", "why_tests_cant": "The content of memory that was released cannot be tested.", "anchors": ["src/bip32/extended_key/mod.rs: fmt"]}
{"id": "C99", "title": "When a signature is not valid", "statement": "A signature with recovery id 0 or 1 has a non-zero r and is valid, without exception; any signature of ecdsa_sign is valid unless it was made with a nonce t whose point has the abscissa n exactly (and then t s is the digest modulo n). Such nonces exist: exactly two, t and n - t, the same for every key and every non-zero digest.", "quantifier": "all secrets, digests and numbers of tries", "why_tests_cant": "The exception concerns two nonces out of 2^256.", "anchors": ["src/lib.rs: ecdsa_sign"]}
{"id": "C100", "title": "Nonces must not repeat", "statement": "If the signing step returns the same r and recovery id for two different digests, the secret key is w (s z' - s' z) mod n with w the inverse of r (s' - s), which exists; so anyone can compute it.", "quantifier": "all secrets, nonces and digests", "why_tests_cant": "Statement about all pairs of calls.", "anchors": ["src/lib.rs: ecdsa_sign"]}
{"id": "C101", "title": "A signature belongs to one digest", "statement": "If two calls with the same key return the same signature and recovery id, the digests are the same modulo n.", "quantifier": "all secrets and digests", "why_tests_cant": "Statement about all pairs of calls.", "anchors": ["src/lib.rs: ecdsa_sign"]}
{"id": "C102", "title": "Every public key has exactly one private key", "statement": "To every extended public key, in particular to every one that is read from text, there belongs exactly one extended private key with the same attributes; deriving along a path without hardened steps gives corresponding keys and corresponding errors, even though nobody may know that private key. (Every point of the curve is a multiple of the generator.)", "quantifier": "all extended public keys, all paths", "why_tests_cant": "There are 2^256 keys, and no way to compute the secret.", "anchors": ["src/bip32/extended_key/extended_public_key.rs: from_str", "src/bip32/extended_key/extended_public_key.rs: derive_child", "src/bip32/extended_key/extended_private_key.rs: public_key"]}
{"id": "C103", "title": "Equality of extended public keys is equality of keys", "statement": "== of XPub holds exactly if the texts are the same, so the sign of the point and every attribute counts. Comparing public keys is a correct way to compare private keys, whose own == ignores the secret.", "quantifier": "all pairs of extended keys", "why_tests_cant": "Statement about all pairs of values.", "anchors": ["src/bip32/extended_key/extended_public_key.rs: PartialEq", "src/bip32/extended_key/extended_private_key.rs: public_key"]}
{"id": "C104", "title": "The signing step reaches every valid signature", "statement": "A low-s pair (r, s) is a valid signature of a digest under a public key exactly if r is not 0 and the signing step returns it for the secret of that key and some nonce.", "quantifier": "all public keys, digests and pairs", "why_tests_cant": "All signatures, whoever made them.", "anchors": ["src/lib.rs: ecdsa_sign"]}
{"id": "C105", "title": "Keys are those of BIP32, from the bits up", "statement": "XPrv::new, derive_child of private and public keys, derivation along paths, and writing and reading the text of keys return exactly what BIP32 defines with HMAC (RFC 2104) over SHA-512 and SHA-256 (FIPS 180-4), RIPEMD-160, the group law of secp256k1 and Base58Check: a result exists if and only if the standards give it, and it is the same.", "quantifier": "all seeds, keys, child numbers, paths and texts", "why_tests_cant": "An equivalence with the standards over all inputs.", "anchors": ["src/bip32/extended_key/extended_private_key.rs: new", "src/bip32/extended_key/extended_private_key.rs: derive_child", "src/bip32/extended_key/extended_public_key.rs: derive_child", "src/bip32/extended_key/mod.rs: from_str", "src/bip32/extended_key/mod.rs: write_base58"]}
{"id": "C106", "title": "An English wallet is the one of BIP39 and BIP32, from the bits up", "statement": "A phrase, a passphrase and the text of a path lead to a key if and only if the standards define it, and then to this key: words laid out in the phrase, form KD, the word list and the SHA-256 checksum, UTF-8, PBKDF2 with HMAC-SHA512, the master key, the children of the path. The key and its texts are unique.", "quantifier": "all phrases, passphrases (of fewer than 2^56 characters) and paths", "why_tests_cant": "The equivalence joins every part of the crate, for all inputs.", "anchors": ["src/bip39/mnemonic.rs: from_phrase", "src/bip39/seed.rs: new", "src/bip32/derivation_path.rs: from_str", "src/bip32/extended_key/extended_private_key.rs: new_from_path"]}
{"id": "C107", "title": "Signatures are those of RFC 6979, from the bits up", "statement": "ecdsa_sign returns a signature and recovery id if and only if they are the ones that RFC 6979 (with HMAC-SHA256 of RFC 2104 and FIPS 180-4) and SEC 1 define: made with the first candidate in 1..n-1 that gives s <> 0, s in the lower half, the recovery id naming the nonce point.", "quantifier": "all secrets and digests", "why_tests_cant": "The equivalence covers all secrets, digests and numbers of retries.", "anchors": ["src/lib.rs: ecdsa_sign"]}
{"id": "C108", "title": "No sequence of calls leads to an ill-formed value", "statement": "Whatever a safe program does with the public functions and public struct fields, starting from its own texts, bytes and numbers: every mnemonic it holds is a BIP39 sentence with its entropy and language, every private key is in 1..n-1, every public key is a point with a secret, every prefix has four letters, every field is in its range, every seed has 64 bytes and comes from a mnemonic and a passphrase. Conversely all such values can be obtained.", "quantifier": "all programs over the public functions (105 calls): sequences of calls of any length", "why_tests_cant": "The sequences of calls are unlimited.", "anchors": ["src/bip39/mnemonic.rs: Mnemonic", "src/bip39/seed.rs: Seed", "src/bip32/extended_key/extended_private_key.rs: ExtendedPrivateKey", "src/bip32/extended_key/extended_public_key.rs: ExtendedPublicKey", "src/bip32/extended_key/mod.rs: ExtendedKey", "src/bip32/prefix.rs: Prefix", "src/bip32/derivation_path.rs: DerivationPath"]}
{"id": "C109", "title": "The complete list of calls that panic", "statement": "A call that a program can make panics if and only if it is one of these: a word index of 2048 or more; Prefix::from_parts_unchecked with anything but four letters; derive_child of a plain secret or public key with a tweak outside 1..n-1; a derivation that meets a hash half outside 1..n-1 (in a single step, or at some step of a path, below depth 255). Every other public function never panics.", "quantifier": "all calls with all arguments a program can obtain", "why_tests_cant": "It excludes panics for all values of all types.", "anchors": ["src/bip39/language.rs: get_word", "src/bip32/prefix.rs: from_parts_unchecked", "src/bip32/private_key.rs: derive_child", "src/bip32/public_key.rs: derive_child", "src/bip32/extended_key/extended_private_key.rs: derive_child", "src/bip32/extended_key/extended_public_key.rs: derive_child"]}
{"id": "C110", "title": "Reading a phrase leaves no entropy on the heap", "statement": "Mnemonic::validate and Mnemonic::from_phrase give every block of memory that has held entropy back wiped. FALSE: validate leaves the whole entropy of every phrase it accepts, and both leave it when a phrase is rejected: all of it if only the checksum is wrong, and the bits of all words before the first unknown word after a typing error. True only for phrases that from_phrase accepts.", "quantifier": "all phrases, languages, and positions of the error", "why_tests_cant": "Tests look at results, not at memory that has been given back.", "anchors": ["src/bip39/mnemonic.rs: validate", "src/bip39/mnemonic.rs: from_phrase", "src/bip39/mnemonic.rs: phrase_to_entropy", "src/bip39/util.rs: BitWriter"]}
{"id": "C111", "title": "Making a seed leaves no phrase and no passphrase on the heap", "statement": "Seed::new gives back no block of memory with the phrase or the passphrase in it. FALSE: every call leaves both as plain bytes (UTF-8, GB18030 for Chinese), and what is left determines the mnemonic and the passphrase.", "quantifier": "all mnemonics and passphrases", "why_tests_cant": "Tests look at results, not at memory that has been given back.", "anchors": ["src/bip39/seed.rs: Seed::new", "src/bip39/mnemonic.rs: as_bytes"]}
{"id": "C112", "title": "Formatting flags do not disturb texts that are read back", "statement": "Child numbers, paths and extended keys print the same under every width, fill, alignment, precision and other flag, and the text reads back to the same value. Of all flags only # matters for hexadecimal texts, and none for Debug of a seed. Without flags every text is that of the model without flags.", "quantifier": "all values and all formatting flags", "why_tests_cant": "Tests print without flags, or with a few of them.", "anchors": ["src/bip32/child_number.rs: Display", "src/bip32/derivation_path.rs: Display", "src/bip32/extended_key/mod.rs: Display", "src/bip39/mnemonic.rs: LowerHex, UpperHex", "src/bip39/seed.rs: LowerHex, UpperHex, Debug", "src/bip32/prefix.rs: Debug"]}
{"id": "C113", "title": "A printed phrase can be read back whatever the flags", "statement": "Printing a mnemonic with any formatting flags gives text that from_phrase reads back to the same mnemonic. FALSE for a precision smaller than the phrase and for fill characters that are not white space; with white space as fill it reads back exactly when the precision cuts nothing off.", "quantifier": "all mnemonics of both languages and all formatting flags", "why_tests_cant": "There are unboundedly many widths, precisions and fill characters.", "anchors": ["src/bip39/mnemonic.rs: Display", "src/bip39/mnemonic.rs: from_phrase"]}
{"id": "C114", "title": "No formatting flag shows a private key", "statement": "The Debug text of an extended private key is made from its attributes alone under every flag ({:?}, {:#?}, {:x?}, {:10?} ...). If no width is given, two such texts are equal exactly if the attributes are.", "quantifier": "all extended private keys and all formatting flags", "why_tests_cant": "A test compares a few texts under a few flags.", "anchors": ["src/bip32/extended_key/extended_private_key.rs: Debug", "src/bip32/extended_key/attrs.rs: Debug"]}
{"id": "C115", "title": "Debug of a seed or a mnemonic hides it", "statement": "The Debug text of a Seed or a Mnemonic does not tell what it is, as with extended private keys. FALSE: the text determines the seed and the mnemonic, whatever the flags.", "quantifier": "all seeds, mnemonics and formatting flags", "why_tests_cant": "A test cannot show that a text says nothing.", "anchors": ["src/bip39/seed.rs: Debug", "src/bip39/mnemonic.rs: Debug"]}
{"id": "C116", "title": "Bit packing works at every item size", "statement": "BitWriter holds exactly the bits pushed into it, in order and followed by less than eight zeros, for items of 1 to 25 bits in any mixture. BitIter cuts any sequence of items of up to 32 bits into the items of 1 to 16 bits that make up the same bits, leaving out an incomplete last one. What is written in items of 8 to 16 bits is read back. The limits 25 and 16 are sharp.", "quantifier": "all item sizes, item values and numbers of items", "why_tests_cant": "The crate uses two sizes only, and tests see a few values.", "anchors": ["src/bip39/util.rs: BitWriter::push, len, into_bytes", "src/bip39/util.rs: BitIter::next"]}
{"id": "C117", "title": "Phrases are split at Unicode white space", "statement": "from_phrase accepts a text exactly if the longest runs of characters other than the 25 White_Space characters of Unicode, each brought into form NFKD, are the words of a BIP39 sentence. Every text has exactly one such splitting.", "quantifier": "all texts of Unicode characters", "why_tests_cant": "Tests use spaces, perhaps a tab.", "anchors": ["src/bip39/mnemonic.rs: from_phrase"]}
{"id": "C118", "title": "Every mnemonic is equally likely to be generated", "statement": "Mnemonic::new maps the random bytes one to one onto the mnemonics of the requested language and length: every such mnemonic comes from some choice of bytes, and two choices of the bytes read give different mnemonics.", "quantifier": "all mnemonic types, languages and byte sources", "why_tests_cant": "Generation cannot be run 2^128 times.", "anchors": ["src/bip39/mnemonic.rs: Mnemonic::new", "src/bip39/crypto.rs: gen_random_bytes"]}
{"id": "C119", "title": "Every mistake in a phrase is noticed", "statement": "A phrase with a word replaced, with two words exchanged or with a wrong number of words is rejected. FALSE for words of the list: for every phrase there is a wrong last word that goes unnoticed, and exchanging two words of the phrase in the documentation goes unnoticed. True for unknown words and wrong numbers of words.", "quantifier": "all phrases and languages", "why_tests_cant": "Tests try a few mistakes.", "anchors": ["src/bip39/mnemonic.rs: from_phrase", "src/bip39/mnemonic.rs: validate"]}
{"id": "C120", "title": "Phrases are BIP39 sentences in all eight languages", "statement": "With the features of the six further languages switched on: from_entropy and new give the BIP39 sentence of the entropy in the requested language, from_phrase accepts exactly the texts whose NFKD normalised words are a sentence and returns its entropy, all other texts are rejected with InvalidWord, InvalidWordLength or InvalidChecksum in this order, validate does the same for words separated by single spaces, every mnemonic is read back from its phrase, and nothing panics. For English and Simplified Chinese the results are those of the program without features.", "quantifier": "all eight languages, entropies, texts and byte sources", "why_tests_cant": "The six languages are not compiled in, so no test of the crate runs them.", "anchors": ["src/bip39/language.rs: Language::wordlist, wordmap", "src/bip39/mnemonic.rs: from_entropy, from_phrase, validate, new"]}
{"id": "C121", "title": "The eight word lists are sound and translate into each other", "statement": "Each list has 2048 different words, none empty, none with white space, all in form NFKD (so that from_phrase, which normalises, can find them). get_word and get_bits are inverse to each other and follow the order of the file. Two sentences, in whatever languages, have the same entropy exactly if their words have the same numbers.", "quantifier": "all eight languages, words, numbers and sentences", "why_tests_cant": "The six lists are not compiled in.", "anchors": ["src/bip39/language.rs: gen_wordlist, gen_wordmap, get_word, get_bits", "src/bip39/langs/*.txt"]}
{"id": "C122", "title": "Language codes are exact for all eight languages", "statement": "from_language_code gives a language exactly if the text is its code (en, zh-cn, zh-tw, fr, it, ja, ko, es) up to the case of ASCII letters; no two languages share a code.", "quantifier": "all texts", "why_tests_cant": "Tests try a few codes; six of them are not compiled in.", "anchors": ["src/bip39/language.rs: from_language_code"]}
{"id": "C123", "title": "Prefix search is exact for Italian and Korean", "statement": "get_words_by_prefix(p) on the Italian and the Korean list returns all the words that start with p and no others, in list order, with any binary search that keeps the promise of the standard library.", "quantifier": "all prefixes, all conforming searches", "why_tests_cant": "The lists are not compiled in.", "anchors": ["src/bip39/language.rs: get_words_by_prefix", "src/bip39/langs/italian.txt", "src/bip39/langs/korean.txt"]}
{"id": "C124", "title": "Prefix search is exact for French, Japanese, Spanish and Traditional Chinese", "statement": "get_words_by_prefix(p) on these lists returns all the words that start with p and no others. FALSE in each of the four: the lists are not in the order of their code points (accents), binary search misses words, and looking for the whole word finds nothing. What is returned is right in every language.", "quantifier": "all prefixes", "why_tests_cant": "The lists are not compiled in.", "anchors": ["src/bip39/language.rs: get_words_by_prefix", "src/bip39/langs/french.txt", "src/bip39/langs/japanese.txt", "src/bip39/langs/spanish.txt"]}
{"id": "C125", "title": "Language detection recovers the language in all eight languages", "statement": "Language::from_phrase of the phrase of a mnemonic is its language. FALSE with the features on: only English and Simplified Chinese are ever returned, so that no mnemonic of the six other languages is recognised. True for English and Simplified Chinese.", "quantifier": "all mnemonics", "why_tests_cant": "The six languages are not compiled in.", "anchors": ["src/bip39/language.rs: Language::from_phrase"]}
{"id": "C126", "title": "Building a phrase from entropy never moves the secret in all eight languages", "statement": "The capacity that join reserves is enough for the whole phrase. FALSE for French, Italian, Japanese, Korean and Spanish, whose words can be longer in UTF-8 than English ones; every Korean phrase is moved. True for English and both Chinese lists. In general the phrase is not moved exactly if it fits into 11 bytes for each complete group of 11 bits of the entropy without its first byte.", "quantifier": "all eight languages and entropies", "why_tests_cant": "Moves of a buffer are not observable in a test.", "anchors": ["src/bip39/util.rs: IterExt::join", "src/bip39/mnemonic.rs: from_entropy_unchecked"]}
{"id": "C127", "title": "Seeds follow BIP39 in every language but Simplified Chinese", "statement": "For a mnemonic of any language but Simplified Chinese, Seed::new is PBKDF2-HMAC-SHA512 of the NFKD phrase in UTF-8 with the salt mnemonic + NFKD passphrase and 2048 iterations.", "quantifier": "all mnemonics of seven languages, all passphrases", "why_tests_cant": "The languages are not compiled in; no test can try all mnemonics.", "anchors": ["src/bip39/seed.rs: Seed::new", "src/bip39/mnemonic.rs: as_bytes"]}
{"id": "C128", "title": "Four letters identify a word in every language but Korean", "statement": "Two words of one list whose first four letters agree when accents are left out are the same word; in Korean there are two words for which this fails.", "quantifier": "all pairs of words of eight lists", "why_tests_cant": "The lists are not compiled in.", "anchors": ["src/bip39/langs/*.txt"]}
{"id": "C129", "title": "A phrase is valid in one language only", "statement": "from_phrase accepts no text in two different languages. FALSE: some phrases are valid in English and in French (always with different entropies), and some in both Chinese lists (always with the same entropy, but with a different password for PBKDF2). True for all other pairs of languages.", "quantifier": "all texts, all pairs of languages", "why_tests_cant": "The languages are not compiled in, and no test compares languages.", "anchors": ["src/bip39/mnemonic.rs: from_phrase", "src/bip39/mnemonic.rs: as_bytes", "src/bip39/langs/*.txt"]}
{"id": "C130", "title": "Debug and release builds agree on machines of 32 and of 64 bits", "statement": "validate, from_phrase, from_entropy and Mnemonic::new return the same in builds with and without overflow checks and debug assertions, on machines with a usize of 32 and of 64 bits, for inputs (and, for from_phrase, normalised texts) below 2^29 or 2^61 bytes.", "quantifier": "all inputs of less than an eighth of the address space, four kinds of build", "why_tests_cant": "Tests run in one build on one machine.", "anchors": ["src/bip39/util.rs: BitWriter, BitIter, checksum", "src/bip39/mnemonic.rs: from_phrase, validate, from_entropy, new"]}
{"id": "C131", "title": "Only sentences of the five lengths are accepted, in every build", "statement": "A text that validate or from_phrase accepts has 12, 15, 18, 21 or 24 words. FALSE for validate on 32 bits without overflow checks: bits.len() counts bits in a usize and starts again after 2^32, so that a sentence followed by 390451573 further words of the list is accepted (with overflow checks it panics). True for from_phrase, whose buffer cannot hold so many words: it accepts the same texts in all builds.", "quantifier": "all texts of less than half the address space, four kinds of build", "why_tests_cant": "Tests run in one build on one machine and never with texts of a gigabyte.", "anchors": ["src/bip39/util.rs: BitWriter::len", "src/bip39/mnemonic.rs: phrase_to_entropy"]}
{"id": "C132", "title": "Entropy of any other size is refused with an error, in every build", "statement": "from_entropy returns InvalidKeysize for every length other than 16, 20, 24, 28 and 32. FALSE on 32 bits: entropy.len() * 8 overflows from 2^29 bytes on. With overflow checks it panics; without, it looks only at the length modulo 2^29, and every entropy of 2^29 + 16 bytes becomes a Chinese mnemonic of 390451584 words.", "quantifier": "all byte strings, four kinds of build", "why_tests_cant": "Tests run in one build on one machine and never with half a gigabyte of entropy.", "anchors": ["src/bip39/mnemonic.rs: from_entropy, from_entropy_unchecked", "src/bip39/util.rs: BitIter::size_hint, IterExt::join"]}
{"id": "C133", "title": "Derivation steps and paths work the same for every key type", "statement": "For every implementation of the traits PrivateKey and PublicKey, derive_child hands the left half of HMAC-SHA512 (of the data BIP32 prescribes) to the key type and returns exactly its key, error or panic with depth + 1, the parent's fingerprint, the child number and the right half, or Depth at depth 255, or ChildNumber for a hardened number and a public key; paths compose, depths count steps. XPrv and XPub are the case of libsecp256k1.", "quantifier": "all implementations of the two traits, all keys, child numbers and paths", "why_tests_cant": "The crate has one implementation; users may bring any other.", "anchors": ["src/bip32/extended_key/extended_private_key.rs: ExtendedPrivateKey<K>", "src/bip32/extended_key/extended_public_key.rs: ExtendedPublicKey<K>", "src/bip32/private_key.rs: trait PrivateKey", "src/bip32/public_key.rs: trait PublicKey"]}
{"id": "C134", "title": "Texts of extended keys over every key type", "statement": "For every key type that reads back the keys it writes, reading the text of an extended key under the standard prefixes gives the key back; if the key type reads only what it writes, every text that is read is what is written again; no text is read both as a private and as a public key, even with unrelated key types.", "quantifier": "all implementations of the two traits, all keys, all texts", "why_tests_cant": "The crate has one implementation; users may bring any other.", "anchors": ["src/bip32/extended_key/extended_private_key.rs: to_string, FromStr, TryFrom<ExtendedKey>", "src/bip32/extended_key/extended_public_key.rs: to_string, FromStr, TryFrom<ExtendedKey>"]}
{"id": "C135", "title": "Watch-only wallets work for every key type whose derivation commutes", "statement": "If for a key type deriving and then taking the public key is the same as taking the public key and then deriving, the same holds for extended keys along every path of non-hardened numbers, errors and panics included. libsecp256k1 keys satisfy the condition.", "quantifier": "all implementations of the two traits, all keys, all non-hardened paths", "why_tests_cant": "The crate has one implementation; users may bring any other.", "anchors": ["src/bip32/extended_key/extended_private_key.rs: derive_child, public_key", "src/bip32/extended_key/extended_public_key.rs: derive_child"]}
{"id": "C136", "title": "Equal extended private keys of every key type hold the same key", "statement": "For every key type, two extended private keys that compare equal with == hold the same private key. FALSE for every key type with at least two keys: ct_eq takes both keys from self, so == compares the attributes and nothing else.", "quantifier": "all implementations of PrivateKey, all pairs of extended keys", "why_tests_cant": "The crate has one implementation; users may bring any other.", "anchors": ["src/bip32/extended_key/extended_private_key.rs: ct_eq"]}
{"id": "C137", "title": "Extended keys panic only if the key type does", "statement": "For every key type whose own functions do not panic, no operation on extended keys panics: new, new_from_path, derive_child, derive_from_path, from_str, to_string. libsecp256k1's derive_child, as implemented in private_key.rs and public_key.rs, panics exactly on the tweak 0 and on tweaks from n on.", "quantifier": "all implementations of the two traits, all inputs", "why_tests_cant": "The panic needs a hash output nobody can find.", "anchors": ["src/bip32/private_key.rs: derive_child (unwrap)", "src/bip32/public_key.rs: derive_child (unwrap)", "src/bip32/extended_key/extended_private_key.rs: derive_child"]}
{"id": "C138", "title": "XPrv::new accepts exactly the seed lengths of BIP32", "statement": "XPrv::new refuses a seed for its length exactly if it is shorter than 128 or longer than 512 bits. FALSE: of the lengths allowed only 16, 32 and 64 bytes are taken, and 128 bytes (1024 bits) are taken although BIP32 does not allow them.", "quantifier": "all seeds", "why_tests_cant": "Tests use seeds of 64 bytes.", "anchors": ["src/bip32/extended_key/extended_private_key.rs: new"]}
{"id": "C139", "title": "Builds with and without debug assertions sign alike", "statement": "ecdsa_sign gives the same result in debug and in release builds. FALSE for the signing step: libsecp256k1 asserts that the abscissa of the nonce point is below n, and there is a nonce for which it is n, so debug builds panic where release builds sign. Otherwise they agree: what a debug build returns is what a release build returns, has recovery id 0 or 1 and is valid; where a release build returns something else, the debug build panics.", "quantifier": "all keys, messages, nonces and numbers of tries", "why_tests_cant": "The two builds differ only for nonces nobody can find.", "anchors": ["src/lib.rs: ecdsa_sign"]}
{"id": "C140", "title": "How many words the prefix search finds", "statement": "How often get_words_by_prefix finds a word when the whole word is typed, for every list and for both algorithms that binary_search has had (Rust 1.52-1.81 / from 1.82): all 2048 for English, Italian and Korean, but only 18 / 7 of the simplified and 16 / 6 of the traditional Chinese words, 1665 / 1640 French, 1565 / 1540 Japanese and 1732 / 1718 Spanish words. In the Chinese lists the answer is right exactly for what is no word of the list and for these 18 / 7 (16 / 6) words, which are listed.", "quantifier": "all languages, both searches, all words and prefixes", "why_tests_cant": "The numbers depend on the version of the compiler; the tests search English words only.", "anchors": ["src/bip39/language.rs: get_words_by_prefix"]}
{"id": "C141", "title": "The curve is secp256k1 of SEC 2", "statement": "The constants of the curve that the model and the specifications share are the ones of SEC 2, section 2.4.1: the field prime is 2^256-2^32-2^9-2^8-2^7-2^6-2^4-1, the order and the base point in compressed form are the published numbers, both numbers are prime, and the public key of the secret key 1 is written as the base point. The points form a commutative group, every point is k G for exactly one k below n, and k G is infinity exactly for the multiples of n.", "quantifier": "all points of the curve, all scalars", "why_tests_cant": "The size of a group of about 2^256 points cannot be tested by sampling.", "anchors": ["src/bip32/private_key.rs: PrivateKey::public_key", "src/bip32/public_key.rs: PublicKey::to_bytes"]}
{"id": "C142", "title": "The word lists are the published ones", "statement": "For English and ChineseSimplified the SHA-256 checksum of the word list that the code builds from the compiled text file (every word followed by a line feed, in UTF-8) is the published one of BIP39's english.txt and chinese_simplified.txt, so that a list with another word in any place would need a collision of SHA-256. The GB18030 bytes of the Chinese list, from which seeds are made, have the checksum that iconv's conversion of the file has.", "quantifier": "both languages, all lists of words without line feeds", "why_tests_cant": "No test reads the lists as a whole; a changed word keeps every round trip and shows only to other wallets.", "anchors": ["src/bip39/language.rs: Language::wordlist", "src/bip39/langs/english.txt", "src/bip39/langs/chinese_simplified.txt"]}
{"id": "C143", "title": "Comparing private keys takes the same steps for all keys", "statement": "ConstantTimeEq and PartialEq of ExtendedPrivateKey run through the same sequence of steps (word operations, branches with the way taken, bytes wiped) whatever the two keys are, return the value that the other theorems about equality use, never panic, and have wiped both local copies of the secret when they return. The comparison of byte slices underneath returns 1 exactly for equal slices and its steps depend on the lengths alone.", "quantifier": "all pairs of valid extended private keys, all byte slices", "why_tests_cant": "A test sees the result, not the steps; a comparison that stops early returns the same answers.", "anchors": ["src/bip32/extended_key/extended_private_key.rs: ConstantTimeEq for ExtendedPrivateKey", "src/bip32/extended_key/extended_private_key.rs: PartialEq for ExtendedPrivateKey"]}
{"id": "C144", "title": "Different mnemonics key PBKDF2 differently", "statement": "HMAC pads its key with zeros to a block of 128 bytes and hashes longer keys, and the seed depends on the phrase through this block alone. Two constructible mnemonics that have the same block are the same mnemonic, or their phrases collide in SHA-512, or the SHA-512 digest of one phrase is the text of the other followed by zeros. Among phrases of 12 words and Chinese phrases of any length the last two cannot happen, so there different mnemonics always have different blocks.", "quantifier": "all constructible mnemonics, both languages and mixed, all passwords", "why_tests_cant": "Keys that HMAC takes for equal are a corner of the construction that no sample of phrases would meet.", "anchors": ["src/bip39/crypto.rs: pbkdf2", "src/bip39/seed.rs: Seed::new", "src/bip39/mnemonic.rs: Mnemonic::as_bytes"]}
{"id": "C145", "title": "All eight word lists are the published ones", "statement": "For every language, also the six behind cargo features, the SHA-256 checksum of the word list that the code builds from the text file (every word followed by a line feed, in UTF-8) is the one of the file in the repository of BIP39. A list with another word in any place, or the same words in another order or another Unicode form, would need a collision of SHA-256.", "quantifier": "all eight languages, all lists of words without line feeds", "why_tests_cant": "The features are off in the tests, and a changed word keeps every round trip and shows only to other wallets.", "anchors": ["src/bip39/language.rs: Language::wordlist", "src/bip39/langs/french.txt", "src/bip39/langs/japanese.txt", "src/bip39/langs/korean.txt", "src/bip39/langs/spanish.txt", "src/bip39/langs/italian.txt", "src/bip39/langs/chinese_traditional.txt"]}
{"id": "C146", "title": "Passwords are normalised with the tables of Unicode 14.0", "statement": "The compatibility decompositions and canonical combining classes that normalise phrases and passwords are those of Unicode 14.0 for every code point: the text that lists every changed character with its decomposition, in order, and the text that lists every character of non-zero class have the SHA-256 checksums of the texts that a second implementation of Unicode (Perl) gives. Any function with other decompositions or classes would need a collision of SHA-256.", "quantifier": "all code points, all functions from code points", "why_tests_cant": "There are over a million code points, and a wrong entry shows only in a seed computed elsewhere.", "anchors": ["src/bip39/seed.rs: Seed::new", "src/bip39/mnemonic.rs: Mnemonic::from_phrase"]}
{"id": "C147", "title": "Wiping never destroys a secret that is still in use", "statement": "Whatever program creates, parses, clones, derives, prints, converts and drops mnemonics, seeds and keys: no call reads, overwrites or frees memory that has been freed; every variable holds exactly the value it would have if nothing were ever overwritten (a clone is untouched when the original is wiped, and the phrase taken out by into_phrase survives the drop of its mnemonic); no two variables share memory; and the memory in use is exactly that of the variables, so nothing is lost and nothing freed twice.", "quantifier": "all programs of any length over the modelled calls, all arguments and random sources", "why_tests_cant": "The sharing errors such a design can have show only in particular orders of cloning, converting and dropping.", "anchors": ["src/bip39/mnemonic.rs: Mnemonic::into_phrase", "src/bip39/seed.rs: Drop for Seed", "src/bip32/extended_key/mod.rs: Drop for ExtendedKey", "src/bip32/extended_key/extended_private_key.rs: TryFrom<ExtendedKey>"]}
{"id": "C148", "title": "Mnemonics, seeds, key texts and extended keys are wiped when they go away", "statement": "As soon as a variable with a mnemonic, a seed, a text made by XPrv::to_string or an extended key is dropped, or used up by a call, the phrase, the entropy (with the checksum bits behind it), the seed bytes, the text and the key bytes are overwritten with zeros over the whole length of their blocks and stay so in every continuation of the program. The only exception is the phrase that into_phrase hands out.", "quantifier": "all programs, all continuations, all variables and blocks", "why_tests_cant": "The tests cannot look at memory after it has been freed.", "anchors": ["src/bip39/mnemonic.rs: Mnemonic", "src/bip39/seed.rs: Drop for Seed", "src/bip32/extended_key/mod.rs: Drop for ExtendedKey", "src/bip32/extended_key/extended_private_key.rs: XPrv::to_string"]}
{"id": "C149", "title": "Extended private keys are wiped when dropped", "statement": "When an extended private key is dropped, its secret scalar is overwritten. This is false: neither ExtendedPrivateKey nor SecretKey nor ExtendedKeyAttrs overwrites anything, so the scalar and the chain code (also the chain code of an ExtendedKey), and every plain String, stay in memory in every continuation of the program.", "quantifier": "all programs, all continuations, all variables and blocks", "why_tests_cant": "The tests cannot look at memory after it has been freed.", "anchors": ["src/bip32/extended_key/extended_private_key.rs: ExtendedPrivateKey", "src/bip32/extended_key/attrs.rs: ExtendedKeyAttrs"]}
{"id": "C150", "title": "Threads that use the word lists at the same time see complete, published tables", "statement": "However many threads use the lazily built word lists and word maps, in whatever order their atomic steps are interleaved: no step panics, reads a table that is not there or signals a thread that is gone; every access returns the published list, or the map that gives each of its words its number and nothing else; the accesses of a thread happen in its order; and no table is built twice.", "quantifier": "all numbers of threads, all lists of accesses, all interleavings of any length, all languages", "why_tests_cant": "A race shows only under particular interleavings, which a test cannot choose; the tests run single threads on tables that are mostly built already.", "anchors": ["src/bip39/language.rs: WORDLIST_ENGLISH", "src/bip39/language.rs: WORDMAP_ENGLISH", "src/bip39/language.rs: gen_wordmap", "src/bip39/language.rs: gen_wordlist"]}
{"id": "C151", "title": "Threads that use the word lists never wait for each other forever", "statement": "In every interleaving, a state in which no thread can take a step is one in which every thread has made all its accesses (although building a map waits for the list, possibly while another thread builds it); and no interleaving goes on forever, so every thread gets there.", "quantifier": "all numbers of threads, all lists of accesses, all interleavings, also infinite ones", "why_tests_cant": "A deadlock or an endless retry shows only under particular interleavings; a test that hangs proves nothing and one that does not hang proves little.", "anchors": ["src/bip39/language.rs: WORDLIST_ENGLISH", "src/bip39/language.rs: WORDMAP_ENGLISH", "src/bip39/language.rs: gen_wordmap"]}
{"id": "C152", "title": "No text can be mistaken for a text of another kind", "statement": "No text is accepted by the readers of two different kinds of text: mnemonic phrases (from_phrase and validate, in any of the eight languages), extended keys, derivation paths, child numbers and language codes.", "quantifier": "all texts, all languages", "why_tests_cant": "The tests try texts of one kind on the reader of that kind; that no other text passes two readers is about all texts.", "anchors": ["src/bip39/mnemonic.rs: Mnemonic::from_phrase", "src/bip32/extended_key/mod.rs: FromStr for ExtendedKey", "src/bip32/derivation_path.rs: FromStr for DerivationPath", "src/bip32/child_number.rs: FromStr for ChildNumber", "src/bip39/language.rs: Language::from_language_code"]}
{"id": "C153", "title": "The label of a text tells whether it holds a private key", "statement": "A text that XPrv::to_string writes is labelled prv. This is false: to_string takes any prefix, and with each of the four public prefixes it writes every private key under a label like xpub. The text holds the whole private key (ExtendedKey::from_str returns it), while neither XPrv nor XPub can be read from it. Only for reading the label decides: a text is read as a private key only under prv and as a public key only under pub.", "quantifier": "all extended private keys, all public prefixes, all texts", "why_tests_cant": "The tests write keys only under the matching prefix.", "anchors": ["src/bip32/extended_key/extended_private_key.rs: to_extended_key", "src/bip32/extended_key/extended_private_key.rs: to_string", "src/bip32/extended_key/mod.rs: FromStr for ExtendedKey"]}
{"id": "C154", "title": "Only registered versions are read under a standard label", "statement": "A text that starts with one of the eight standard labels is read only if it holds the version registered for that label. This is false: the label is taken from the text and the version from the data, and they are not compared. The exact versions that occur are eight per label in texts of 111 characters and, for tprv and tpub, 406 more in texts of 112 characters. Six of the eight are written and read back for every key, so every private key has several texts under the same label.", "quantifier": "all texts, all labels and lengths, all 32-bit versions, all keys", "why_tests_cant": "The tests use the registered versions only.", "anchors": ["src/bip32/extended_key/mod.rs: FromStr for ExtendedKey", "src/bip32/prefix.rs: Prefix::from_parts_unchecked"]}
{"id": "C155", "title": "A wallet in every language but Simplified Chinese is the one of BIP39 and BIP32, from the bits up", "statement": "In English, French, Italian, Japanese, Korean, Spanish and Traditional Chinese a phrase, a passphrase and the text of a path lead to a key if and only if the standards define it, and then to this key: words laid out in the phrase, form KD, the published word list and the SHA-256 checksum, UTF-8, PBKDF2 with HMAC-SHA512, the master key, the children of the path. (For Simplified Chinese see C23.)", "quantifier": "seven languages, all texts as phrase and path, all passphrases, all keys", "why_tests_cant": "The tests contain one English phrase and no path text; the other languages are not tested at all.", "anchors": ["src/bip39/mnemonic.rs: Mnemonic::from_phrase", "src/bip39/seed.rs: Seed::new", "src/bip39/language.rs: Language", "src/bip32/extended_key/extended_private_key.rs: XPrv::new_from_path"]}
{"id": "C156", "title": "Every key is an equally likely child", "statement": "With any hash function in the place of HMAC-SHA512: every master key and chain code comes from exactly one 64-byte hash value; every private key other than that of the parent, with every chain code, is the child for exactly one hash value, and the key of the parent itself is never the child; the same holds for public keys. Whatever children with all 2^32 numbers are wanted, some hash function gives all of them at once. So with a random hash function all keys are equally likely and siblings are independent: the code around the hash adds no bias and no relation between keys.", "quantifier": "all parents, all child numbers, all wanted keys and chain codes, all hash functions", "why_tests_cant": "A bias or a relation between keys cannot be seen in single derived keys.", "anchors": ["src/bip32/extended_key/extended_private_key.rs: ExtendedPrivateKey::new", "src/bip32/extended_key/extended_private_key.rs: derive_child", "src/bip32/extended_key/extended_public_key.rs: derive_child", "src/bip32/private_key.rs: derive_child", "src/bip32/public_key.rs: derive_child"]}
{"id": "C157", "title": "A hostile key text costs little work", "statement": "However long and whatever the text given to ExtendedKey::from_str is, the loops of the decoder take at most one step for each digit 1 at its beginning and 9627 steps in all else, and at most three blocks are hashed; the work stops when the buffer of 82 bytes is full. In particular the work is linear in the length of the text, although conversion from base 58 is quadratic in general.", "quantifier": "all texts of all lengths", "why_tests_cant": "A test shows the time for one text, not the worst case over all texts.", "anchors": ["src/bip32/extended_key/mod.rs: FromStr for ExtendedKey"]}
{"id": "C158", "title": "A hostile path costs little work", "statement": "However long a derivation path is, deriving along it calls HMAC-SHA512 at most once for each level left up to 255 (256 times with the master key) and multiplies on the curve at most twice as often (once for public keys), whatever the hash values are. A successful derivation calls HMAC exactly once per step.", "quantifier": "all keys, all paths of all lengths, all hash functions", "why_tests_cant": "A test can try one long path; the bound for all is a statement about the fold and the depth limit together.", "anchors": ["src/bip32/extended_key/extended_private_key.rs: new_from_path, derive_from_path, derive_child", "src/bip32/extended_key/extended_public_key.rs: derive_from_path, derive_child"]}
{"id": "C159", "title": "Reading a phrase stops after the 24 words a phrase can have", "statement": "Mnemonic::from_phrase and validate look up at most 24 words, whatever the text is. This is false: the number of words is checked after the loop, so for every n above 24 and every language there is a phrase of which n words are looked up and 11 n / 8 bytes are kept before it is refused. The work is still linear: every word is looked up once, up to and including the first unknown one, at most one block is hashed, and normalising makes a text at most eighteen times as long.", "quantifier": "all texts of all lengths, all eight languages", "why_tests_cant": "Tests of rejected phrases see the error, not the work done before.", "anchors": ["src/bip39/mnemonic.rs: phrase_to_entropy", "src/bip39/mnemonic.rs: from_phrase", "src/bip39/mnemonic_type.rs: for_word_count"]}
{"id": "C160", "title": "Private keys in machine words are integers modulo n", "statement": "libsecp256k1 holds a private key in eight words of 32 bits. Reading 32 bytes accepts exactly the numbers from 1 to n - 1 and the words hold that number; writing gives 32 bytes with the same number; adding a tweak adds modulo n, with all carries between words and the reduction, and fails exactly if the sum is 0 modulo n; its debug assertion never fails. So deriving a child with the words gives the same key as on integers.", "quantifier": "all 32-byte inputs, all pairs of keys", "why_tests_cant": "The inputs that overflow a word or n in one particular place are too rare for random tests.", "anchors": ["src/bip32/private_key.rs: PrivateKey for libsecp256k1::SecretKey (from_bytes, to_bytes, derive_child)"]}
{"id": "C161", "title": "Multiplication of scalars in machine words is exact", "statement": "For any two scalars of eight 32-bit words none of the debug assertions that guard the 96-bit accumulator of libsecp256k1 fails, the 512-bit product is exact, and after the three reductions (512 to 385, 385 to 258, 258 to 256 bits) the result is the product modulo n, below n. Squaring, which has its own code, gives the same.", "quantifier": "all pairs of scalars, including those that are not reduced", "why_tests_cant": "Carry bugs show up for one input in 2^32 or fewer; each column has its own carries.", "anchors": ["src/lib.rs: ecdsa_sign (libsecp256k1::sign, Scalar::mul_in_place, Scalar::sqr_in_place)"]}
{"id": "C162", "title": "Inversion and negation of scalars in machine words", "statement": "The addition chain of Scalar::inv (255 squarings, 44 multiplications) computes the inverse modulo n of every private key, and 0 for 0; is_high is true exactly for the numbers above n / 2; negation gives the number that adds up to 0 modulo n, and 0 for 0.", "quantifier": "all private keys; all scalars below n", "why_tests_cant": "One wrong step in the chain of 299 gives wrong results for all inputs but 0 and 1; comparing with half of n decides between values that random tests never meet.", "anchors": ["src/lib.rs: ecdsa_sign (libsecp256k1::sign, Scalar::inv, is_high, Neg)"]}
{"id": "C163", "title": "Signing in machine words is signing on integers", "statement": "ecdsa_sign computed with scalars of eight 32-bit words (digest, nonce, r, s, recovery id, retry loop and serialization) gives for every key and every message exactly the signature of ecdsa_sign on integers, and for each nonce exactly the signature that SEC 1 defines; no debug assertion of the scalar arithmetic fails.", "quantifier": "all private keys, all messages of any length, all nonces, any number of retries", "why_tests_cant": "A signature depends on hundreds of carries; the rare cases (digest above n, r above n, s in the upper half, retry) must all agree with the mathematics.", "anchors": ["src/lib.rs: ecdsa_sign"]}
{"id": "C164", "title": "Each derivation path has one text", "statement": "Two texts that DerivationPath::from_str reads as the same path are the same text. This is false: m/5, m/05 and m/+05 are one path. The texts of a path are exactly its usual text (as Display writes it) with zeros and then perhaps a plus sign put before its components. The printed text is the shortest and the only one of its length; only the root has a single text, every other path has arbitrarily long ones.", "quantifier": "all texts, all paths", "why_tests_cant": "Tests compare a few texts that people write; that no further spelling exists is a statement about all texts.", "anchors": ["src/bip32/derivation_path.rs: FromStr, Display", "src/bip32/child_number.rs: FromStr, Display"]}
{"id": "C165", "title": "A path never loses a hardened mark", "statement": "In every accepted path a step is hardened exactly if its component ends with an apostrophe. A text with any character other than m, slash, digits, plus sign and apostrophe is refused with an error, so the marks h and H that other wallets use are never read as a normal step.", "quantifier": "all texts", "why_tests_cant": "A test shows that one wrong mark is refused; reading one of them as a normal step would give public derivation where hardened was meant.", "anchors": ["src/bip32/derivation_path.rs: FromStr", "src/bip32/child_number.rs: FromStr"]}
{"id": "C166", "title": "The hexadecimal text of a seed is not taken for a seed", "statement": "XPrv::new refuses the hexadecimal text of a 64-byte seed. This is false: the text has 128 bytes, a length that is accepted, so the text is hashed as if it were a seed and gives another wallet (unless HMAC-SHA512 collides). A test of the crate itself does this. The text of a seed is refused exactly if the seed has none of the lengths 8, 16, 32, 64; what the crate prints for a seed is taken without 0x and refused with 0x. The entropy of a mnemonic is taken as a seed for 12 and 24 words and refused for 15, 18 and 21.", "quantifier": "all seeds, all hexadecimal texts in one case, all mnemonics", "why_tests_cant": "A test that derives a key from the wrong bytes passes like any other.", "anchors": ["src/bip32/extended_key/extended_private_key.rs: new", "src/bip32/extended_key/mod.rs: test_xprv", "src/bip39/seed.rs: LowerHex, UpperHex"]}
{"id": "C167", "title": "A phrase is not taken for a seed", "statement": "XPrv::new, which takes anything that can be read as bytes, refuses the text of a mnemonic phrase. This is false: exactly the phrases of 64 and of 128 bytes are taken as seeds, without Seed::new and the password, and give a wallet that no BIP39 software finds. Phrases in Simplified Chinese are always refused.", "quantifier": "all mnemonics of both languages", "why_tests_cant": "A phrase that a test uses is refused or taken by the chance of its length.", "anchors": ["src/bip32/extended_key/extended_private_key.rs: new", "src/bip39/mnemonic.rs: phrase, AsRef<str>"]}
