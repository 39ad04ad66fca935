#!/usr/bin/env python3
"""Generates /verif/properties.jsonl (kept as a script so that the JSON is always well formed)."""
import json
P=[]
def p(title, statement, quantifier, why, *anchors):
    P.append(dict(id="C%02d"%(len(P)+1), title=title, statement=statement, quantifier=quantifier,
                  why_tests_cant=why, anchors=list(anchors)))
M="src/bip39/mnemonic.rs"; U="src/bip39/util.rs"; L="src/bip39/language.rs"; T="src/bip39/mnemonic_type.rs"
S="src/bip39/seed.rs"; K="src/bip39/crypto.rs"
PX="src/bip32/prefix.rs"; CN="src/bip32/child_number.rs"; DP="src/bip32/derivation_path.rs"
EK="src/bip32/extended_key/mod.rs"; XV="src/bip32/extended_key/extended_private_key.rs"; XB="src/bip32/extended_key/extended_public_key.rs"
SK="src/bip32/private_key.rs"; PK="src/bip32/public_key.rs"

# 1
p("Entropy survives the trip through a phrase",
  "For every language and every entropy that Mnemonic::from_entropy accepts, Mnemonic::from_phrase applied to the resulting phrase succeeds, and the mnemonic it returns has the same entropy, the same phrase and the same language.",
  "all byte strings of the five legal lengths, both compiled-in languages",
  "2^128 to 2^256 entropies per length; the packing of 8-bit bytes into 11-bit words crosses byte boundaries at a different offset for every word.",
  M+": Mnemonic::from_entropy, Mnemonic::from_phrase, phrase_to_entropy", U+": BitIter, BitWriter")
p("A phrase survives the trip through its entropy",
  "Whenever Mnemonic::from_phrase accepts a phrase, rebuilding a mnemonic from the returned entropy and language gives exactly the phrase stored in the accepted mnemonic, so no two different accepted phrases share an entropy.",
  "all strings, both languages",
  "The set of accepted phrases is a 2^-4..2^-8 fraction of all word sequences; tests see a few dozen.",
  M+": Mnemonic::from_phrase, from_entropy, phrase_to_entropy")
p("from_entropy accepts exactly the five BIP39 sizes",
  "Mnemonic::from_entropy returns a mnemonic whose entropy() is the given bytes iff the slice is 16, 20, 24, 28 or 32 bytes long; for every other length it returns InvalidKeysize(8*len) and never panics.",
  "all byte slices that fit in memory (length below 2^61)",
  "Rejection must hold for every other length, of which there are unboundedly many.",
  M+": from_entropy", T+": for_key_size")
p("from_phrase accepts exactly the BIP39 sentences",
  "Mnemonic::from_phrase(s, lang) succeeds iff the NFKD-normalised whitespace-separated words of s are all in the language's list, their number is 12, 15, 18, 21 or 24, and the trailing ENT/32 bits of the concatenated 11-bit indices equal the leading ENT/32 bits of SHA-256 of the leading ENT bits; the entropy returned is those leading ENT bits.",
  "all strings, both languages",
  "Soundness and completeness of a validator over an infinite input space with a hash-based checksum.",
  M+": from_phrase, phrase_to_entropy", U+": BitWriter, checksum", K+": sha256_first_byte")
p("Phrase has the right shape",
  "The phrase of every mnemonic built from entropy or generated at random consists of exactly 12/15/18/21/24 words for 16/20/24/28/32 bytes of entropy, every word is in the language's list, and words are separated by single spaces with none at the ends.",
  "all entropies of legal length, all outputs of the random generator, both languages",
  "The bit iterator must stop after exactly the right number of 11-bit groups for all contents.",
  M+": from_entropy_unchecked, new", U+": BitIter::next, IterExt::join", L+": WordList::get_word")
p("Phrase words are the BIP39 encoding of the entropy",
  "Word number i of the phrase is the list entry whose index is the i-th 11-bit group of the bit string (entropy followed by the first ENT/32 bits of its SHA-256).",
  "all entropies of legal length, both languages, all word positions",
  "A wrong shift can be visible only on particular byte patterns and positions.",
  M+": from_entropy_unchecked", U+": BitIter::next")
p("Generated mnemonics are valid and of the requested strength",
  "For every random byte source, Mnemonic::new(t, lang) yields a mnemonic with t.entropy_bits() bits of entropy, equal to the bytes drawn, t.word_count() words, and a phrase that from_phrase and validate accept in that language.",
  "all mnemonic types, languages and random-generator outputs",
  "The generator is random; a test sees one draw.",
  M+": Mnemonic::new", K+": gen_random_bytes")
p("Different entropies never share a phrase",
  "Within one language, two different legal entropies (of the same or different length) produce different phrases.",
  "all pairs of legal entropies",
  "Injectivity over pairs of 2^256 inputs.",
  M+": from_entropy")
p("A wrong checksum is always rejected",
  "For every entropy and language, of all the ways to fill the checksum bits of the last word exactly one is accepted by from_phrase; each of the others is rejected with InvalidChecksum.",
  "all entropies of legal length, all checksum fillings, both languages",
  "The expected checksum depends on SHA-256 of the entropy.",
  M+": phrase_to_entropy", U+": checksum")
p("Phrase parsing ignores spacing",
  "Mnemonic::from_phrase depends on its input only through the sequence of whitespace-separated words: adding, removing or replacing runs of (Unicode) white space between or around words never changes the result.",
  "all strings",
  "Infinitely many spacings of each phrase.",
  M+": from_phrase")
p("validate agrees with from_phrase on stored phrases",
  "validate(m.phrase(), m.language()) succeeds for every mnemonic that can be built, and whenever validate accepts a string, from_phrase accepts it too and keeps it unchanged.",
  "all strings, all constructible mnemonics",
  "validate skips the normalisation from_phrase performs, so agreement has to be proved for all strings.",
  M+": validate, from_phrase")
p("validate accepts whatever from_phrase accepts",
  "validate(s, lang) succeeds for every s for which from_phrase(s, lang) succeeds.",
  "all strings, both languages",
  "A counterexample lives in the unnormalised inputs tests do not try.",
  M+": validate, from_phrase")
p("Phrase errors are reported in a fixed order",
  "When from_phrase or validate fails, the error is InvalidWord if some word is not in the list (or, for from_phrase, if there is no word at all), otherwise InvalidWordLength(n) with n the true number of words if n is not a legal count, otherwise InvalidChecksum; no other error and no panic occurs.",
  "all strings, both languages",
  "Includes every malformed input, such as the empty string and arbitrarily long ones.",
  M+": from_phrase, validate, phrase_to_entropy", T+": for_word_count")
p("BIP39 entry points never panic",
  "from_phrase, validate, from_entropy, new, MnemonicType::for_phrase and Language::from_phrase return normally for every input: every index is in bounds, no arithmetic overflows, no shift amount is out of range and every debug assertion holds.",
  "all inputs",
  "Absence of panics is a statement about every input.",
  M, U, T, L)
p("The mnemonic type table is coherent",
  "For every mnemonic type: total bits = entropy bits + checksum bits = 11 * words, entropy bits = 32 * checksum bits; for_word_count and for_key_size invert word_count and entropy_bits, and fail with InvalidWordLength(n) / InvalidKeysize(n) on every other number.",
  "all mnemonic types and all usize values",
  "The failing side ranges over all integers.",
  T+": MnemonicType")
p("for_phrase classifies by space count",
  "MnemonicType::for_phrase(s) returns the type with word_count equal to one plus the number of U+0020 characters in s, and InvalidWordLength otherwise; on the phrase of any constructible mnemonic it returns the type matching its entropy.",
  "all strings, all constructible mnemonics",
  "All strings.",
  T+": for_phrase")
p("Word list and word map are inverse",
  "In each language every 11-bit value has its own word, get_word and get_bits are inverse to each other, get_bits rejects every string that is not in the list, and get_word panics for values of 2048 and above.",
  "all 16-bit values and all strings, both languages",
  "Rejection ranges over all strings; a single duplicate line in the list would break inversion.",
  L+": WordList::get_word, WordMap::get_bits, gen_wordlist, gen_wordmap")
p("Prefix search is exact for English",
  "wordlist().get_words_by_prefix(p) on the English list returns all the words that start with p and no others, in list order.",
  "all strings p",
  "All prefixes, including non-ASCII ones and the empty one.",
  L+": get_words_by_prefix")
p("Prefix search is exact for Simplified Chinese",
  "wordlist().get_words_by_prefix(p) on the Simplified Chinese list returns all the words that start with p and no others.",
  "all strings p",
  "The search assumes a sorted list; which prefixes go wrong is not obvious.",
  L+": get_words_by_prefix")
p("Language codes are recognised regardless of case",
  "Language::from_language_code(s) is English iff s equals en up to ASCII case, ChineseSimplified iff s equals zh-cn up to ASCII case, and None otherwise. The default language is English, the one of code en.",
  "all strings",
  "All strings.",
  L+": from_language_code")
p("Language detection recovers the language of a mnemonic",
  "Language::from_phrase applied to the phrase of any constructible mnemonic returns that mnemonic's language; it returns None iff the first word is in neither list or there is no word.",
  "all strings, all constructible mnemonics",
  "Requires the two word lists to be disjoint and holds for all phrases.",
  L+": Language::from_phrase")
p("Seeds follow BIP39 for English",
  "For an English mnemonic, Seed::new(m, pw).as_bytes() is PBKDF2-HMAC-SHA512 with the UTF-8 phrase as password, the UTF-8 of NFKD(\"mnemonic\" + pw) as salt, 2048 iterations and 64 bytes of output.",
  "all English mnemonics and passwords",
  "All passwords, including non-ASCII ones.",
  S+": Seed::new", K+": pbkdf2", M+": as_bytes")
p("Seeds follow BIP39 for Simplified Chinese",
  "For a Simplified Chinese mnemonic, Seed::new uses the UTF-8 bytes of the NFKD phrase as the PBKDF2 password, as BIP39 requires, so that the seed equals the one other BIP39 wallets compute.",
  "all Simplified Chinese mnemonics and passwords",
  "No test covers Chinese seeds.",
  S+": Seed::new", M+": as_bytes")
p("Every seed can start a wallet",
  "Every Seed is 64 bytes long, so that XPrv::new never rejects it for its length.",
  "all mnemonics and passwords",
  "All mnemonics and passwords.",
  S+": Seed::new", XV+": new")
p("Seeds are insensitive to how the password is composed",
  "Two passwords with the same NFKD form give the same seed; in particular replacing the password by its NFKD form changes nothing.",
  "all mnemonics, all pairs of Unicode passwords",
  "All Unicode strings.",
  S+": Seed::new")
p("Hex formatting is faithful",
  "{:x} and {:X} of a Mnemonic (its entropy) and of a Seed print exactly two hex digits per byte, lower or upper case, in order, prefixed by 0x exactly when the alternate flag is given; decoding the digits gives the bytes back, and Debug of a Seed is its {:#X}.",
  "all entropies and seeds",
  "All byte strings.",
  M+": LowerHex, UpperHex", S+": LowerHex, UpperHex, Debug")
p("Mnemonics keep their phrase",
  "phrase(), Display, AsRef<str>, into_phrase() and String::from give the same string; re-parsing the stored phrase gives back an identical mnemonic.",
  "all constructible mnemonics",
  "All mnemonics, including those built from unnormalised input.",
  M+": phrase, into_phrase, Display")
# 28 ..
p("Child numbers keep index and hardened flag",
  "ChildNumber::new(i, h) succeeds iff i < 2^31, and then index() = i and is_hardened() = h; conversely every u32 child number is new(index(), is_hardened()).",
  "all u32 values and both flags",
  "2^32 values and a boundary at 2^31.",
  CN+": ChildNumber::new, index, is_hardened")
p("Child number text round-trips",
  "Parsing the Display form of any child number gives it back, and the display form is the canonical decimal index followed by an apostrophe iff hardened.",
  "all u32 values",
  "2^32 values.",
  CN+": Display, FromStr")
p("Child number parsing accepts exactly its grammar",
  "A string parses as a child number iff it is an optional + sign, one or more ASCII digits with value below 2^31 and an optional final apostrophe; everything else fails with Error::ChildNumber.",
  "all strings",
  "All strings, including very long digit strings and overflow at every length.",
  CN+": FromStr")
p("Child number bytes are big-endian and round-trip",
  "from_bytes and to_bytes are inverse on all u32 values and all 4-byte arrays, most significant byte first.",
  "all u32 values, all 4-byte arrays",
  "2^32 values.",
  CN+": from_bytes, to_bytes")
p("Derivation path text round-trips",
  "Parsing the Display form of any derivation path gives back the same path, whatever its length.",
  "all lists of u32 child numbers",
  "Unbounded paths.",
  DP+": Display, FromStr")
p("Derivation path parsing accepts exactly its grammar",
  "A string parses as a derivation path iff it is m followed by zero or more /component with each component a parseable child number; a wrong first component gives Error::Decode, otherwise any bad component gives Error::ChildNumber; components are kept in order.",
  "all strings",
  "All strings.",
  DP+": FromStr")
p("push, extend, parent, len, is_empty agree",
  "parent(push(p, c)) = p, the root has no parent, len counts pushes, is_empty iff len = 0 iff parent is None, every non-root path is its parent extended by its last component, and extend is repeated push.",
  "all paths, all sequences of operations",
  "All histories of push/parent/extend.",
  DP+": push, extend, parent, len, is_empty")
# extended key
p("Serialised extended keys always fit",
  "ExtendedKey::write_base58 / Display succeeds for every extended key: the text has at most 112 characters, all from the Base58 alphabet.",
  "all prefixes (any 32-bit version), attributes and key bytes",
  "2^624 payloads; the length depends on the magnitude and on leading zeros.",
  EK+": write_base58, Display")
p("Extended key text determines the key",
  "Parsing the Display form of an extended key returns the same version, depth, fingerprint, child number, chain code and key bytes, and its prefix characters are the first four characters of the text, provided these are ASCII letters.",
  "all extended keys",
  "2^624 payloads.",
  EK+": Display, FromStr")
p("Extended key parsing is strict",
  "If a string parses as an extended key, displaying the result gives back exactly the same string; hence no two different strings parse to the same key.",
  "all strings",
  "All strings (no alternative spellings, padding or extra characters).",
  EK+": FromStr, Display")
p("Extended key parsing checks the checksum",
  "A string parses as an extended key iff it is the Base58 form of 78 payload bytes followed by the first four bytes of their double SHA-256 and its first four characters are ASCII letters; otherwise the result is Error::Base58 or Error::Decode and never a panic.",
  "all strings",
  "All strings.",
  EK+": FromStr")
p("Standard prefixes are stable",
  "For each of the eight standard prefixes (tprv..zpub) the text of every extended key carrying it is exactly 111 characters long and starts with the prefix's own four characters, whatever the other 74 bytes are.",
  "all attributes and key bytes, eight prefixes",
  "Depends on carries across a 656-bit number for every payload.",
  PX+": constants", EK+": write_base58")
p("Extended private keys round-trip",
  "For prefixes TPRV, XPRV, YPRV, ZPRV: parsing xprv.to_string(prefix) gives an extended private key with the same private key bytes and attributes, for every key reachable from a seed.",
  "all extended private keys, four prefixes",
  "All keys.",
  XV+": to_string, FromStr, TryFrom<ExtendedKey>")
p("Extended public keys round-trip",
  "For prefixes TPUB, XPUB, YPUB, ZPUB: parsing xpub.to_string(prefix) gives back the same extended public key, for every key on the curve.",
  "all extended public keys, four prefixes",
  "Point decompression must recover every curve point.",
  XB+": to_string, FromStr, TryFrom<ExtendedKey>", PK+": from_bytes, to_bytes")
p("Private and public encodings are never confused",
  "No string parses both as an extended private key and as an extended public key; in particular a string serialised with a pub prefix never parses as a private key and vice versa, failing with Error::Crypto.",
  "all strings, all keys",
  "All strings.",
  XV+": TryFrom<ExtendedKey>", XB+": TryFrom<ExtendedKey>", PX+": is_public, is_private")
p("Only valid private keys are accepted",
  "An extended private key string is accepted only if its key material is a zero byte followed by a big-endian integer k with 1 <= k < n; all others give Error::Crypto.",
  "all extended keys",
  "Boundary at the 256-bit group order.",
  XV+": TryFrom<ExtendedKey>", SK+": from_bytes")
p("Only curve points are accepted",
  "An extended public key string is accepted only if its key material is a compressed encoding (02/03) of a point on secp256k1; all others give Error::Crypto.",
  "all extended keys",
  "Half of all 2^256 x-coordinates are invalid.",
  XB+": TryFrom<ExtendedKey>", PK+": from_bytes")
p("Root keys with inconsistent metadata are rejected",
  "As BIP32 requires, a serialised key with depth 0 but a non-zero parent fingerprint or child number is rejected.",
  "all extended key strings",
  "Needs a specific malformed input with a valid checksum.",
  EK+": FromStr", XV+": TryFrom<ExtendedKey>")
p("Prefixes obtained from a version number are faithful",
  "Prefix::try_from(v) never panics, either fails with Error::Decode or gives a prefix with version v and four ASCII letters; to_bytes/from_bytes and version/try_from are inverse; each standard constant equals try_from of its version, and the constants are the eight versions registered in BIP32 and SLIP-132.",
  "all 32-bit versions",
  "2^32 versions.",
  PX+": from_version, from_bytes, to_bytes, version")
p("Prefixes obtained from a version number survive serialisation",
  "For every prefix obtained with Prefix::try_from(v), parsing the text of a key serialised with it returns the same prefix.",
  "all 32-bit versions, all keys",
  "The first four characters can depend on the rest of the payload for some versions only.",
  PX+": from_version", EK+": Display, FromStr")
p("A prefix is never both public and private",
  "is_public and is_private are mutually exclusive, and as_str never panics and returns the four characters given.",
  "all prefixes that can be constructed",
  "All strings.",
  PX+": is_public, is_private, as_str, from_parts_unchecked")
# derivation
p("Master keys follow BIP32",
  "XPrv::new(seed) fails with SeedLength unless the seed has 16, 32, 64 or 128 bytes; otherwise with I = HMAC-SHA512(\"Bitcoin seed\", seed) it fails with Crypto if the left half is 0 or >= n and else returns the key I_L with chain code I_R, depth 0, zero fingerprint and child number 0; it never panics.",
  "all seeds",
  "All byte strings.",
  XV+": new")
p("Private child derivation follows BIP32",
  "derive_child(i) on a private key returns depth+1, child number i, the first 4 bytes of RIPEMD160(SHA256(parent public key)) as fingerprint, I_R as chain code and (I_L + k) mod n as key, where I = HMAC-SHA512(chain code, data), data = 00 k i for hardened and the compressed public key and i otherwise; it fails with Depth exactly at depth 255 and with Crypto when the sum is 0.",
  "all extended private keys, all child numbers",
  "All keys and indices.",
  XV+": derive_child", SK+": derive_child", PK+": fingerprint")
p("Public child derivation follows BIP32",
  "derive_child(i) on a public key fails with ChildNumber for every hardened i, with Depth at depth 255, and otherwise returns the point I_L*G + K with chain code I_R, depth+1, child number i and the parent's fingerprint, failing with Crypto when the sum is the point at infinity.",
  "all extended public keys, all child numbers",
  "All keys and indices.",
  XB+": derive_child", PK+": derive_child")
p("Public and private derivation agree",
  "For every extended private key and every non-hardened child number, deriving the child and then taking its public key gives the same extended public key as first taking the public key and then deriving; each fails exactly when the other does, with the same error.",
  "all extended private keys, all non-hardened child numbers",
  "An algebraic law over the whole elliptic curve group.",
  XV+": derive_child, public_key", XB+": derive_child, From<&ExtendedPrivateKey>")
p("Watch-only wallets see the same tree",
  "For every extended private key and every path of non-hardened child numbers, deriving along the path and taking the public key equals taking the public key and deriving along the path.",
  "all extended private keys, all non-hardened paths of any length",
  "Unbounded paths over the elliptic curve group.",
  XV+": derive_from_path", XB+": derive_from_path")
p("Path derivation composes",
  "derive_from_path(p ++ q) equals derive_from_path(p) followed by derive_from_path(q), the empty path is the identity, a one-step path is derive_child, and new_from_path(seed, p) is new(seed) followed by derive_from_path(p); the first error met is the error returned.",
  "all seeds, keys and paths",
  "Unbounded paths.",
  XV+": new_from_path, derive_from_path", XB+": derive_from_path")
p("Depth equals the number of derivation steps",
  "A key obtained from a key of depth d along a path of length l has depth d + l and the path's last child number; derivation along a path with d + l > 255 never succeeds.",
  "all keys and paths",
  "Unbounded paths; the depth is an 8-bit counter.",
  XV+": derive_child", XB+": derive_child")
p("Hardened children cannot be derived from public keys",
  "derive_from_path on an extended public key fails for every path that contains a hardened component, and no hardened child is ever returned.",
  "all extended public keys and paths",
  "Unbounded paths.",
  XB+": derive_child, derive_from_path")
p("Derived keys are valid keys",
  "Every extended private key that can be built by new, from_str and any sequence of derivations holds a scalar in 1..n-1, and its public key, as well as every public key derived from it, is a finite curve point.",
  "all histories of operations",
  "All histories.",
  XV, XB, SK, PK)
p("Parent fingerprint links parent and child",
  "For every successful derivation, private or public, the child's parent_fingerprint equals fingerprint() of the parent's extended public key.",
  "all keys and child numbers",
  "All keys.",
  XV+": derive_child", XB+": fingerprint, derive_child")
p("Derivation reports bad hash output as an error",
  "As the comment in derive_child says, when the left half of the HMAC is zero or not below the group order the derivation returns an error (it does not panic).",
  "all keys, child numbers and HMAC outputs",
  "The event has probability 2^-127, so no test reaches it.",
  XV+": derive_child", SK+": derive_child", PK+": derive_child")
p("Derivation panics only on bad hash output",
  "derive_child and derive_from_path (private and public) panic only if, for some step, the left half of the HMAC is zero or not below the group order; new, to_string, from_str and all other BIP32 entry points never panic.",
  "all keys, paths and strings",
  "Absence of panics over all inputs.",
  XV, XB, EK, SK, PK)
p("Equality of extended private keys is an equivalence",
  "== on extended private keys is reflexive, symmetric and transitive, and unequal keys differ in some serialised field.",
  "all triples of keys",
  "All triples.",
  XV+": PartialEq, ConstantTimeEq")
p("Equal extended private keys hold the same secret",
  "If two extended private keys compare equal with ==, their private keys are the same.",
  "all pairs of keys",
  "The unit tests compare keys that should be equal and so pass whatever == ignores.",
  XV+": ConstantTimeEq::ct_eq, PartialEq")
p("Debug output does not leak the private key",
  "The Debug text of an extended private key is a function of its attributes alone: keys that differ only in the secret have the same Debug text.",
  "all pairs of keys",
  "Non-interference is a statement about pairs of runs.",
  XV+": Debug")
p("Signing produces valid signatures",
  "For every secret key and every 32-byte digest, the 64-byte signature returned by ecdsa_sign verifies under the corresponding public key, its s is at most n/2, and the recovery id recovers that public key, unless its r component is zero (which libsecp256k1 does not check).",
  "all secret keys, all 32-byte messages",
  "Algebraic law over the curve for all keys, messages and nonces.",
  "src/lib.rs: ecdsa_sign")
p("Signing rejects wrong message lengths and is deterministic",
  "ecdsa_sign fails iff the message is not exactly 32 bytes long, with InvalidInputLength; equal inputs give equal outputs, and messages equal modulo the group order are signed identically.",
  "all byte slices, all keys",
  "All lengths.",
  "src/lib.rs: ecdsa_sign")
p("ripemd returns the hex digest",
  "crypto::ripemd(msg) is the 40-character lower-case hex of RIPEMD-160(msg) for every message.",
  "all byte slices",
  "All messages.",
  "src/crypto.rs: ripemd")
p("From seed phrase to key is a function of the words, the password and the path",
  "Two phrases with the same words, two passwords with the same NFKD form and the same path always lead to the same extended private key (or the same error).",
  "all phrases, passwords and paths",
  "End-to-end over all inputs.",
  M, S, XV)
p("Signing nonces follow RFC 6979",
  "The signature returned by ecdsa_sign is the low-s form of the ECDSA signature made with the first usable candidate of RFC 6979 (HMAC-SHA256, the secret and the digest reduced modulo n): every earlier candidate is out of range or gives s = 0.",
  "all secret keys, all messages, any number of retries",
  "Retries happen with probability 2^-128, so no test ever reaches the second candidate.",
  "src/lib.rs: ecdsa_sign")
p("Size hints of the bit iterator are correct",
  "At every point of an iteration BitIter::size_hint returns a lower bound at most, and an upper bound at least, the number of items still to come.",
  "all byte sources shorter than 2^61 bytes, all points of the iteration",
  "The hint ignores the bits already buffered, which matters only for some lengths and positions.",
  U+": BitIter::size_hint, BitIter::next")
p("Building a phrase from entropy never moves the secret",
  "When a mnemonic is built from entropy, the capacity that join reserves is enough for the whole phrase, so the text is never copied to a larger buffer (Zeroizing wipes only the last one); when a phrase is read, the bytes of BitWriter fit its initial capacity for every phrase of up to 24 words.",
  "all entropies of the five sizes, both languages; all word sequences",
  "The reservation is an estimate from a size hint and an average word length; whether it suffices depends on the longest words.",
  U+": IterExt::join, BitIter::size_hint, BitWriter::with_capacity", M+": from_entropy_unchecked, phrase_to_entropy")
p("Reading a phrase never moves the secret",
  "When from_phrase accepts a phrase, its normalised text has been written into one buffer that was never copied to a larger one.",
  "all accepted phrases",
  "Copies left behind in freed memory are invisible to tests.",
  U+": IterExt::join", M+": from_phrase")
p("Every beginning of a phrase has the right number of last words",
  "For any list words w1 .. w(n-1), n being 12, 15, 18, 21 or 24, exactly 2^(11 - n/3) words of the list complete the phrase to one that from_phrase accepts.",
  "all word sequences one word short of a legal length, both languages",
  "2048^11 beginnings and more.",
  M+": from_phrase, phrase_to_entropy", U+": checksum")
p("Different mnemonics have different PBKDF2 passwords",
  "If as_bytes of two mnemonics gives the same bytes, the mnemonics are the same, even across languages (UTF-8 for English, GB18030 for Simplified Chinese).",
  "all pairs of mnemonics obtained from the constructors",
  "Injectivity is a statement about pairs; two encodings are mixed.",
  M+": as_bytes")
p("Debug of a mnemonic is the quoted phrase",
  "{:?} of a mnemonic prints its phrase between quotation marks, with no character escaped.",
  "all mnemonics obtained from the constructors",
  "All phrases.",
  M+": Debug")
p("Messages identify the error",
  "The Display text of an ErrorKind determines the error including its numbers; the texts are the documented ones, numbers being written in canonical decimal, and MnemonicType prints as <words> words (<bits>bits).",
  "all errors with all numbers",
  "All numbers.",
  "src/bip39/error.rs: ErrorKind", T+": Display")
p("Phrases are read the same in every Unicode form",
  "from_phrase returns the same result for any two texts with the same NFKD form, in particular for a text and its NFC, NFD, NFKC and NFKD forms, including for texts that are rejected.",
  "all pairs of strings",
  "Splitting happens before normalising, and some characters decompose into text with spaces.",
  M+": from_phrase")
p("Four letters identify an English word",
  "Two English words with the same first four letters are equal, and get_words_by_prefix of any beginning of at least four letters of a word returns exactly that word.",
  "all English words, all beginnings of at least four letters",
  "About 10000 beginnings; depends on the binary search landing right.",
  L+": get_words_by_prefix", "src/bip39/langs/english.txt")
p("A public parent key and a normal child's private key reveal the parent's private key",
  "For every private key and every path of non-hardened child numbers, the parent's secret equals the descendant's secret minus the sum, modulo n, of the left hash halves along the path, all of which are computed from the parent's extended public key alone.",
  "all extended private keys, all non-hardened paths that derive",
  "Needs the algebra of all keys; documents why an xpub and a leaked child must never meet.",
  XV+": derive_child", XB+": derive_child", SK+": derive_child")
p("A public key belongs to one private key",
  "Two extended private keys with the same extended public key are the same, the 33 public key bytes are equal exactly if the secrets are, and so are the texts under any prefix.",
  "all pairs of extended private keys",
  "Injectivity of scalar multiplication on 2^256 values.",
  XV+": public_key", SK+": public_key", PK+": to_bytes")
p("Watch-only wallets verify signatures of derived keys",
  "A signature made with the key derived privately along a non-hardened path verifies under, and recovers to, the key derived publicly along the same path.",
  "all extended private keys, all non-hardened paths, all 32-byte digests",
  "Combines derivation, point arithmetic and ECDSA.",
  "src/lib.rs: ecdsa_sign", XV+": derive_from_path", XB+": derive_from_path")
p("A signature with recovery id identifies the signer",
  "For a digest, signature and recovery id there is at most one recovered public key; two secrets that return the same signature and recovery id for the same digest are equal (unless r is zero).",
  "all digests, signatures, recovery ids and secrets",
  "Statement about pairs of secrets.",
  "src/lib.rs: ecdsa_sign")
p("Prefix texts are exact",
  "Display of a prefix is its four characters; Debug prints them quoted and the version as 0x and eight lower-case hex digits, and determines the prefix.",
  "all valid prefixes",
  "2^32 versions and 52^4 texts.",
  PX+": Debug", PX+": Display", PX+": DebugVersion")
p("Each BIP32 entry point returns only its own errors",
  "Error texts are pairwise different; child numbers fail only with ChildNumber, paths with Decode or ChildNumber, prefixes with Decode, extended keys with Base58 or Decode, typed keys also with Crypto, master keys with SeedLength or Crypto, private derivation with Depth or Crypto, public derivation with ChildNumber, Depth or Crypto. Bip39 is never returned.",
  "all inputs of all parsing and derivation functions",
  "Absence of other errors on all inputs.",
  "src/bip32/error.rs: Error", CN+": from_str", DP+": from_str", PX+": try_from", EK+": from_str", XV+": derive_child", XB+": derive_child")
p("Equal siblings or equal master keys mean a hash collision",
  "Two different children of a key have the same secret exactly if the left halves of two HMAC outputs for different data agree, and the same secret and chain code exactly if the outputs agree; two seeds give the same master key exactly if their HMAC outputs agree.",
  "all keys, all pairs of child numbers, all pairs of seeds",
  "No collision is known, so no test can reach the case.",
  XV+": derive_child", XV+": new")
p("Keys can be stored as text between any two steps",
  "Deriving along p, writing the key as text under any of the standard prefixes, reading it back and deriving along q gives what deriving along p ++ q gives, for private and public keys, errors included.",
  "all keys, all paths p and q, all standard prefixes",
  "All keys and paths.",
  XV+": to_string", XV+": from_str", XB+": to_string", XB+": from_str")
p("The derived orders are the byte orders",
  "Child numbers are ordered normal before hardened and then by index; attributes are ordered like the number their serialised bytes form; prefixes by characters and then version; each order says Equal only for equal values.",
  "all pairs of child numbers, attributes and prefixes",
  "Pairs of 41-byte values.",
  CN+": Ord", "src/bip32/extended_key/attrs.rs: Ord", PX+": Ord")
p("Debug of an extended private key shows all attributes",
  "Two extended private keys have the same Debug text exactly if their attributes are the same, which is exactly when == says they are equal.",
  "all pairs of extended private keys",
  "Unambiguity of a text format over all values.",
  XV+": Debug", XV+": PartialEq")
p("Editing a path follows the key tree",
  "Deriving along push(c) is deriving the child c of the key at the path, extend continues the derivation, and the key at a path is the child with the path's last number of the key at parent(); parent() is None exactly for the path that derives nothing.",
  "all keys, all paths, all child numbers",
  "All keys and paths.",
  DP+": push", DP+": parent", DP+": extend", XV+": derive_from_path")
p("The signer returns one of the two forms of a signature",
  "For every public key (r, s) is valid exactly if (r, n - s) is; ecdsa_sign never returns both forms, whatever keys and digests it is given.",
  "all keys, digests and signatures",
  "Statement about all pairs of calls.",
  "src/lib.rs: ecdsa_sign")
p("SHA-256 and SHA-512 are those of FIPS 180-4",
  "For every message the digest used by the crate is the one and only digest that FIPS 180-4 defines: the constants being the fractional bits of the roots of the first primes, the padding, schedule, rounds and feed-forward those of the standard. The checksum byte of BIP39 and the check bytes of Base58Check are taken from it.",
  "all byte strings shorter than 2^61 bytes",
  "Hashes are usually tested on a handful of vectors.",
  "src/bip39/crypto.rs: sha256_first_byte", EK+": from_str", PK+": fingerprint")
p("HMAC is that of RFC 2104",
  "For every key and message HMAC-SHA512 (key derivation, seeds) and HMAC-SHA256 (nonces of signatures) are the one value RFC 2104 defines, for keys shorter than, as long as and longer than a block.",
  "all keys and messages shorter than 2^60 bytes",
  "Keys of all lengths.",
  XV+": derive_child", XB+": derive_child", "src/bip39/crypto.rs: pbkdf2")
p("RIPEMD-160 is the published function",
  "crypto::ripemd returns the lower-case hex digits of the one RIPEMD-160 digest of the message; a key fingerprint is the first four bytes of RIPEMD-160 of SHA-256 of the compressed key, and nothing else.",
  "all byte strings shorter than 2^61 bytes, all points of the curve",
  "Hashes are usually tested on a handful of vectors.",
  "src/crypto.rs: ripemd", PK+": fingerprint")
p("Seeds are what the standards say, from the bits up",
  "Seed::new returns exactly the value that PBKDF2 (RFC 8018) with HMAC (RFC 2104) over SHA-512 (FIPS 180-4) defines, password the bytes of the mnemonic, salt 'mnemonic' and the passphrase in NFKD and UTF-8, 2048 iterations, 64 bytes.",
  "all mnemonics that can be built, all passphrases (of fewer than 2^56 characters)",
  "2048 iterations of a hash on all inputs.",
  S+": new", "src/bip39/crypto.rs: pbkdf2")
p("NFKD is normalisation form KD",
  "The text handed to the word list and to the salt is the one text that Unicode defines as form KD: every character replaced by its full compatibility decomposition (Hangul syllables by arithmetic), then neighbouring marks exchanged until none is out of order. The result needs no further normalisation.",
  "all strings",
  "All strings of all characters.",
  M+": from_phrase", S+": new")
p("UTF-8 is that of RFC 3629 and loses nothing",
  "The bytes of a string are those of RFC 3629 and determine it; two passphrases give the same PBKDF2 salt exactly if they have the same form KD.",
  "all strings of Unicode scalar values, all pairs of passphrases",
  "Pairs of arbitrary strings.",
  S+": new", M+": as_bytes")
p("Reading an extended key wipes the copy it works on",
  "When ExtendedKey::from_str returns, the array that held the decoded 82 bytes, key material included, holds zeros only; decoding character by character into that array gives the same results as the rest of the model.",
  "all strings",
  "The content of memory that was released cannot be tested.",
  EK+": from_str")
p("Writing an extended key wipes the copy it works on",
  "When write_base58 returns, the array in which it assembled the 78 bytes of the key holds zeros only, and the result is the text of the key.",
  "all extended keys",
  "The content of memory that was released cannot be tested.",
  EK+": write_base58")
p("Formatting an extended key leaves no copy behind",
  "When Display of ExtendedKey returns, the buffer in which it assembled the text, which contains the key, holds zeros only.",
  "all extended keys",
  "The content of memory that was released cannot be tested.",
  EK+": fmt")
p("When a signature is not valid",
  "A signature with recovery id 0 or 1 has a non-zero r and is valid, without exception; any signature of ecdsa_sign is valid unless it was made with a nonce t whose point has the abscissa n exactly (and then t s is the digest modulo n). Such nonces exist: exactly two, t and n - t, the same for every key and every non-zero digest.",
  "all secrets, digests and numbers of tries",
  "The exception concerns two nonces out of 2^256.",
  "src/lib.rs: ecdsa_sign")
p("Nonces must not repeat",
  "If the signing step returns the same r and recovery id for two different digests, the secret key is w (s z' - s' z) mod n with w the inverse of r (s' - s), which exists; so anyone can compute it.",
  "all secrets, nonces and digests",
  "Statement about all pairs of calls.",
  "src/lib.rs: ecdsa_sign")
p("A signature belongs to one digest",
  "If two calls with the same key return the same signature and recovery id, the digests are the same modulo n.",
  "all secrets and digests",
  "Statement about all pairs of calls.",
  "src/lib.rs: ecdsa_sign")
p("Every public key has exactly one private key",
  "To every extended public key, in particular to every one that is read from text, there belongs exactly one extended private key with the same attributes; deriving along a path without hardened steps gives corresponding keys and corresponding errors, even though nobody may know that private key. (Every point of the curve is a multiple of the generator.)",
  "all extended public keys, all paths",
  "There are 2^256 keys, and no way to compute the secret.",
  XB+": from_str", XB+": derive_child", XV+": public_key")
p("Equality of extended public keys is equality of keys",
  "== of XPub holds exactly if the texts are the same, so the sign of the point and every attribute counts. Comparing public keys is a correct way to compare private keys, whose own == ignores the secret.",
  "all pairs of extended keys",
  "Statement about all pairs of values.",
  XB+": PartialEq", XV+": public_key")
p("The signing step reaches every valid signature",
  "A low-s pair (r, s) is a valid signature of a digest under a public key exactly if r is not 0 and the signing step returns it for the secret of that key and some nonce.",
  "all public keys, digests and pairs",
  "All signatures, whoever made them.",
  "src/lib.rs: ecdsa_sign")
p("Keys are those of BIP32, from the bits up",
  "XPrv::new, derive_child of private and public keys, derivation along paths, and writing and reading the text of keys return exactly what BIP32 defines with HMAC (RFC 2104) over SHA-512 and SHA-256 (FIPS 180-4), RIPEMD-160, the group law of secp256k1 and Base58Check: a result exists if and only if the standards give it, and it is the same.",
  "all seeds, keys, child numbers, paths and texts",
  "An equivalence with the standards over all inputs.",
  XV+": new", XV+": derive_child", XB+": derive_child", EK+": from_str", EK+": write_base58")
p("An English wallet is the one of BIP39 and BIP32, from the bits up",
  "A phrase, a passphrase and the text of a path lead to a key if and only if the standards define it, and then to this key: words laid out in the phrase, form KD, the word list and the SHA-256 checksum, UTF-8, PBKDF2 with HMAC-SHA512, the master key, the children of the path. The key and its texts are unique.",
  "all phrases, passphrases (of fewer than 2^56 characters) and paths",
  "The equivalence joins every part of the crate, for all inputs.",
  M+": from_phrase", S+": new", DP+": from_str", XV+": new_from_path")
p("Signatures are those of RFC 6979, from the bits up",
  "ecdsa_sign returns a signature and recovery id if and only if they are the ones that RFC 6979 (with HMAC-SHA256 of RFC 2104 and FIPS 180-4) and SEC 1 define: made with the first candidate in 1..n-1 that gives s <> 0, s in the lower half, the recovery id naming the nonce point.",
  "all secrets and digests",
  "The equivalence covers all secrets, digests and numbers of retries.",
  "src/lib.rs: ecdsa_sign")
p("No sequence of calls leads to an ill-formed value",
  "Whatever a safe program does with the public functions and public struct fields, starting from its own texts, bytes and numbers: every mnemonic it holds is a BIP39 sentence with its entropy and language, every private key is in 1..n-1, every public key is a point with a secret, every prefix has four letters, every field is in its range, every seed has 64 bytes and comes from a mnemonic and a passphrase. Conversely all such values can be obtained.",
  "all programs over the public functions (105 calls): sequences of calls of any length",
  "The sequences of calls are unlimited.",
  M+": Mnemonic", S+": Seed", XV+": ExtendedPrivateKey", XB+": ExtendedPublicKey", EK+": ExtendedKey", PX+": Prefix", DP+": DerivationPath")
p("The complete list of calls that panic",
  "A call that a program can make panics if and only if it is one of these: a word index of 2048 or more; Prefix::from_parts_unchecked with anything but four letters; derive_child of a plain secret or public key with a tweak outside 1..n-1; a derivation that meets a hash half outside 1..n-1 (in a single step, or at some step of a path, below depth 255). Every other public function never panics.",
  "all calls with all arguments a program can obtain",
  "It excludes panics for all values of all types.",
  L+": get_word", PX+": from_parts_unchecked", SK+": derive_child", PK+": derive_child", XV+": derive_child", XB+": derive_child")
p("Reading a phrase leaves no entropy on the heap",
  "Mnemonic::validate and Mnemonic::from_phrase give every block of memory that has held entropy back wiped. FALSE: validate leaves the whole entropy of every phrase it accepts, and both leave it when a phrase is rejected: all of it if only the checksum is wrong, and the bits of all words before the first unknown word after a typing error. True only for phrases that from_phrase accepts.",
  "all phrases, languages, and positions of the error",
  "Tests look at results, not at memory that has been given back.",
  M+": validate", M+": from_phrase", M+": phrase_to_entropy", U+": BitWriter")
p("Making a seed leaves no phrase and no passphrase on the heap",
  "Seed::new gives back no block of memory with the phrase or the passphrase in it. FALSE: every call leaves both as plain bytes (UTF-8, GB18030 for Chinese), and what is left determines the mnemonic and the passphrase.",
  "all mnemonics and passphrases",
  "Tests look at results, not at memory that has been given back.",
  S+": Seed::new", M+": as_bytes")
p("Formatting flags do not disturb texts that are read back",
  "Child numbers, paths and extended keys print the same under every width, fill, alignment, precision and other flag, and the text reads back to the same value. Of all flags only # matters for hexadecimal texts, and none for Debug of a seed. Without flags every text is that of the model without flags.",
  "all values and all formatting flags",
  "Tests print without flags, or with a few of them.",
  CN+": Display", DP+": Display", EK+": Display", M+": LowerHex, UpperHex", S+": LowerHex, UpperHex, Debug", PX+": Debug")
p("A printed phrase can be read back whatever the flags",
  "Printing a mnemonic with any formatting flags gives text that from_phrase reads back to the same mnemonic. FALSE for a precision smaller than the phrase and for fill characters that are not white space; with white space as fill it reads back exactly when the precision cuts nothing off.",
  "all mnemonics of both languages and all formatting flags",
  "There are unboundedly many widths, precisions and fill characters.",
  M+": Display", M+": from_phrase")
p("No formatting flag shows a private key",
  "The Debug text of an extended private key is made from its attributes alone under every flag ({:?}, {:#?}, {:x?}, {:10?} ...). If no width is given, two such texts are equal exactly if the attributes are.",
  "all extended private keys and all formatting flags",
  "A test compares a few texts under a few flags.",
  XV+": Debug", "src/bip32/extended_key/attrs.rs: Debug")
p("Debug of a seed or a mnemonic hides it",
  "The Debug text of a Seed or a Mnemonic does not tell what it is, as with extended private keys. FALSE: the text determines the seed and the mnemonic, whatever the flags.",
  "all seeds, mnemonics and formatting flags",
  "A test cannot show that a text says nothing.",
  S+": Debug", M+": Debug")
p("Bit packing works at every item size",
  "BitWriter holds exactly the bits pushed into it, in order and followed by less than eight zeros, for items of 1 to 25 bits in any mixture. BitIter cuts any sequence of items of up to 32 bits into the items of 1 to 16 bits that make up the same bits, leaving out an incomplete last one. What is written in items of 8 to 16 bits is read back. The limits 25 and 16 are sharp.",
  "all item sizes, item values and numbers of items",
  "The crate uses two sizes only, and tests see a few values.",
  U+": BitWriter::push, len, into_bytes", U+": BitIter::next")
p("Phrases are split at Unicode white space",
  "from_phrase accepts a text exactly if the longest runs of characters other than the 25 White_Space characters of Unicode, each brought into form NFKD, are the words of a BIP39 sentence. Every text has exactly one such splitting.",
  "all texts of Unicode characters",
  "Tests use spaces, perhaps a tab.",
  M+": from_phrase")
p("Every mnemonic is equally likely to be generated",
  "Mnemonic::new maps the random bytes one to one onto the mnemonics of the requested language and length: every such mnemonic comes from some choice of bytes, and two choices of the bytes read give different mnemonics.",
  "all mnemonic types, languages and byte sources",
  "Generation cannot be run 2^128 times.",
  M+": Mnemonic::new", "src/bip39/crypto.rs: gen_random_bytes")
p("Every mistake in a phrase is noticed",
  "A phrase with a word replaced, with two words exchanged or with a wrong number of words is rejected. FALSE for words of the list: for every phrase there is a wrong last word that goes unnoticed, and exchanging two words of the phrase in the documentation goes unnoticed. True for unknown words and wrong numbers of words.",
  "all phrases and languages",
  "Tests try a few mistakes.",
  M+": from_phrase", M+": validate")
p("Phrases are BIP39 sentences in all eight languages",
  "With the features of the six further languages switched on: from_entropy and new give the BIP39 sentence of the entropy in the requested language, from_phrase accepts exactly the texts whose NFKD normalised words are a sentence and returns its entropy, all other texts are rejected with InvalidWord, InvalidWordLength or InvalidChecksum in this order, validate does the same for words separated by single spaces, every mnemonic is read back from its phrase, and nothing panics. For English and Simplified Chinese the results are those of the program without features.",
  "all eight languages, entropies, texts and byte sources",
  "The six languages are not compiled in, so no test of the crate runs them.",
  L+": Language::wordlist, wordmap", M+": from_entropy, from_phrase, validate, new")
p("The eight word lists are sound and translate into each other",
  "Each list has 2048 different words, none empty, none with white space, all in form NFKD (so that from_phrase, which normalises, can find them). get_word and get_bits are inverse to each other and follow the order of the file. Two sentences, in whatever languages, have the same entropy exactly if their words have the same numbers.",
  "all eight languages, words, numbers and sentences",
  "The six lists are not compiled in.",
  L+": gen_wordlist, gen_wordmap, get_word, get_bits", "src/bip39/langs/*.txt")
p("Language codes are exact for all eight languages",
  "from_language_code gives a language exactly if the text is its code (en, zh-cn, zh-tw, fr, it, ja, ko, es) up to the case of ASCII letters; no two languages share a code.",
  "all texts",
  "Tests try a few codes; six of them are not compiled in.",
  L+": from_language_code")
p("Prefix search is exact for Italian and Korean",
  "get_words_by_prefix(p) on the Italian and the Korean list returns all the words that start with p and no others, in list order, with any binary search that keeps the promise of the standard library.",
  "all prefixes, all conforming searches",
  "The lists are not compiled in.",
  L+": get_words_by_prefix", "src/bip39/langs/italian.txt", "src/bip39/langs/korean.txt")
p("Prefix search is exact for French, Japanese, Spanish and Traditional Chinese",
  "get_words_by_prefix(p) on these lists returns all the words that start with p and no others. FALSE in each of the four: the lists are not in the order of their code points (accents), binary search misses words, and looking for the whole word finds nothing. What is returned is right in every language.",
  "all prefixes",
  "The lists are not compiled in.",
  L+": get_words_by_prefix", "src/bip39/langs/french.txt", "src/bip39/langs/japanese.txt", "src/bip39/langs/spanish.txt")
p("Language detection recovers the language in all eight languages",
  "Language::from_phrase of the phrase of a mnemonic is its language. FALSE with the features on: only English and Simplified Chinese are ever returned, so that no mnemonic of the six other languages is recognised. True for English and Simplified Chinese.",
  "all mnemonics",
  "The six languages are not compiled in.",
  L+": Language::from_phrase")
p("Building a phrase from entropy never moves the secret in all eight languages",
  "The capacity that join reserves is enough for the whole phrase. FALSE for French, Italian, Japanese, Korean and Spanish, whose words can be longer in UTF-8 than English ones; every Korean phrase is moved. True for English and both Chinese lists. In general the phrase is not moved exactly if it fits into 11 bytes for each complete group of 11 bits of the entropy without its first byte.",
  "all eight languages and entropies",
  "Moves of a buffer are not observable in a test.",
  "src/bip39/util.rs: IterExt::join", M+": from_entropy_unchecked")
p("Seeds follow BIP39 in every language but Simplified Chinese",
  "For a mnemonic of any language but Simplified Chinese, Seed::new is PBKDF2-HMAC-SHA512 of the NFKD phrase in UTF-8 with the salt mnemonic + NFKD passphrase and 2048 iterations.",
  "all mnemonics of seven languages, all passphrases",
  "The languages are not compiled in; no test can try all mnemonics.",
  "src/bip39/seed.rs: Seed::new", M+": as_bytes")
p("Four letters identify a word in every language but Korean",
  "Two words of one list whose first four letters agree when accents are left out are the same word; in Korean there are two words for which this fails.",
  "all pairs of words of eight lists",
  "The lists are not compiled in.",
  "src/bip39/langs/*.txt")
p("A phrase is valid in one language only",
  "from_phrase accepts no text in two different languages. FALSE: some phrases are valid in English and in French (always with different entropies), and some in both Chinese lists (always with the same entropy, but with a different password for PBKDF2). True for all other pairs of languages.",
  "all texts, all pairs of languages",
  "The languages are not compiled in, and no test compares languages.",
  M+": from_phrase", M+": as_bytes", "src/bip39/langs/*.txt")
p("Debug and release builds agree on machines of 32 and of 64 bits",
  "validate, from_phrase, from_entropy and Mnemonic::new return the same in builds with and without overflow checks and debug assertions, on machines with a usize of 32 and of 64 bits, for inputs (and, for from_phrase, normalised texts) below 2^29 or 2^61 bytes.",
  "all inputs of less than an eighth of the address space, four kinds of build",
  "Tests run in one build on one machine.",
  U+": BitWriter, BitIter, checksum", M+": from_phrase, validate, from_entropy, new")
p("Only sentences of the five lengths are accepted, in every build",
  "A text that validate or from_phrase accepts has 12, 15, 18, 21 or 24 words. FALSE for validate on 32 bits without overflow checks: bits.len() counts bits in a usize and starts again after 2^32, so that a sentence followed by 390451573 further words of the list is accepted (with overflow checks it panics). True for from_phrase, whose buffer cannot hold so many words: it accepts the same texts in all builds.",
  "all texts of less than half the address space, four kinds of build",
  "Tests run in one build on one machine and never with texts of a gigabyte.",
  U+": BitWriter::len", M+": phrase_to_entropy")
p("Entropy of any other size is refused with an error, in every build",
  "from_entropy returns InvalidKeysize for every length other than 16, 20, 24, 28 and 32. FALSE on 32 bits: entropy.len() * 8 overflows from 2^29 bytes on. With overflow checks it panics; without, it looks only at the length modulo 2^29, and every entropy of 2^29 + 16 bytes becomes a Chinese mnemonic of 390451584 words.",
  "all byte strings, four kinds of build",
  "Tests run in one build on one machine and never with half a gigabyte of entropy.",
  M+": from_entropy, from_entropy_unchecked", U+": BitIter::size_hint, IterExt::join")
p("Derivation steps and paths work the same for every key type",
  "For every implementation of the traits PrivateKey and PublicKey, derive_child hands the left half of HMAC-SHA512 (of the data BIP32 prescribes) to the key type and returns exactly its key, error or panic with depth + 1, the parent's fingerprint, the child number and the right half, or Depth at depth 255, or ChildNumber for a hardened number and a public key; paths compose, depths count steps. XPrv and XPub are the case of libsecp256k1.",
  "all implementations of the two traits, all keys, child numbers and paths",
  "The crate has one implementation; users may bring any other.",
  XV+": ExtendedPrivateKey<K>", XB+": ExtendedPublicKey<K>", SK+": trait PrivateKey", PK+": trait PublicKey")
p("Texts of extended keys over every key type",
  "For every key type that reads back the keys it writes, reading the text of an extended key under the standard prefixes gives the key back; if the key type reads only what it writes, every text that is read is what is written again; no text is read both as a private and as a public key, even with unrelated key types.",
  "all implementations of the two traits, all keys, all texts",
  "The crate has one implementation; users may bring any other.",
  XV+": to_string, FromStr, TryFrom<ExtendedKey>", XB+": to_string, FromStr, TryFrom<ExtendedKey>")
p("Watch-only wallets work for every key type whose derivation commutes",
  "If for a key type deriving and then taking the public key is the same as taking the public key and then deriving, the same holds for extended keys along every path of non-hardened numbers, errors and panics included. libsecp256k1 keys satisfy the condition.",
  "all implementations of the two traits, all keys, all non-hardened paths",
  "The crate has one implementation; users may bring any other.",
  XV+": derive_child, public_key", XB+": derive_child")
p("Equal extended private keys of every key type hold the same key",
  "For every key type, two extended private keys that compare equal with == hold the same private key. FALSE for every key type with at least two keys: ct_eq takes both keys from self, so == compares the attributes and nothing else.",
  "all implementations of PrivateKey, all pairs of extended keys",
  "The crate has one implementation; users may bring any other.",
  XV+": ct_eq")
p("Extended keys panic only if the key type does",
  "For every key type whose own functions do not panic, no operation on extended keys panics: new, new_from_path, derive_child, derive_from_path, from_str, to_string. libsecp256k1's derive_child, as implemented in private_key.rs and public_key.rs, panics exactly on the tweak 0 and on tweaks from n on.",
  "all implementations of the two traits, all inputs",
  "The panic needs a hash output nobody can find.",
  SK+": derive_child (unwrap)", PK+": derive_child (unwrap)", XV+": derive_child")
p("XPrv::new accepts exactly the seed lengths of BIP32",
  "XPrv::new refuses a seed for its length exactly if it is shorter than 128 or longer than 512 bits. FALSE: of the lengths allowed only 16, 32 and 64 bytes are taken, and 128 bytes (1024 bits) are taken although BIP32 does not allow them.",
  "all seeds",
  "Tests use seeds of 64 bytes.",
  XV+": new")
p("Builds with and without debug assertions sign alike",
  "ecdsa_sign gives the same result in debug and in release builds. FALSE for the signing step: libsecp256k1 asserts that the abscissa of the nonce point is below n, and there is a nonce for which it is n, so debug builds panic where release builds sign. Otherwise they agree: what a debug build returns is what a release build returns, has recovery id 0 or 1 and is valid; where a release build returns something else, the debug build panics.",
  "all keys, messages, nonces and numbers of tries",
  "The two builds differ only for nonces nobody can find.",
  "src/lib.rs: ecdsa_sign")
p("How many words the prefix search finds",
  "How often get_words_by_prefix finds a word when the whole word is typed, for every list and for both algorithms that binary_search has had (Rust 1.52-1.81 / from 1.82): all 2048 for English, Italian and Korean, but only 18 / 7 of the simplified and 16 / 6 of the traditional Chinese words, 1665 / 1640 French, 1565 / 1540 Japanese and 1732 / 1718 Spanish words. In the Chinese lists the answer is right exactly for what is no word of the list and for these 18 / 7 (16 / 6) words, which are listed.",
  "all languages, both searches, all words and prefixes",
  "The numbers depend on the version of the compiler; the tests search English words only.",
  L+": get_words_by_prefix")
p("The curve is secp256k1 of SEC 2",
  "The constants of the curve that the model and the specifications share are the ones of SEC 2, section 2.4.1: the field prime is 2^256-2^32-2^9-2^8-2^7-2^6-2^4-1, the order and the base point in compressed form are the published numbers, both numbers are prime, and the public key of the secret key 1 is written as the base point. The points form a commutative group, every point is k G for exactly one k below n, and k G is infinity exactly for the multiples of n.",
  "all points of the curve, all scalars",
  "The size of a group of about 2^256 points cannot be tested by sampling.",
  "src/bip32/private_key.rs: PrivateKey::public_key", "src/bip32/public_key.rs: PublicKey::to_bytes")
p("The word lists are the published ones",
  "For English and ChineseSimplified the SHA-256 checksum of the word list that the code builds from the compiled text file (every word followed by a line feed, in UTF-8) is the published one of BIP39's english.txt and chinese_simplified.txt, so that a list with another word in any place would need a collision of SHA-256. The GB18030 bytes of the Chinese list, from which seeds are made, have the checksum that iconv's conversion of the file has.",
  "both languages, all lists of words without line feeds",
  "No test reads the lists as a whole; a changed word keeps every round trip and shows only to other wallets.",
  "src/bip39/language.rs: Language::wordlist", "src/bip39/langs/english.txt", "src/bip39/langs/chinese_simplified.txt")
p("Comparing private keys takes the same steps for all keys",
  "ConstantTimeEq and PartialEq of ExtendedPrivateKey run through the same sequence of steps (word operations, branches with the way taken, bytes wiped) whatever the two keys are, return the value that the other theorems about equality use, never panic, and have wiped both local copies of the secret when they return. The comparison of byte slices underneath returns 1 exactly for equal slices and its steps depend on the lengths alone.",
  "all pairs of valid extended private keys, all byte slices",
  "A test sees the result, not the steps; a comparison that stops early returns the same answers.",
  "src/bip32/extended_key/extended_private_key.rs: ConstantTimeEq for ExtendedPrivateKey", "src/bip32/extended_key/extended_private_key.rs: PartialEq for ExtendedPrivateKey")
p("Different mnemonics key PBKDF2 differently",
  "HMAC pads its key with zeros to a block of 128 bytes and hashes longer keys, and the seed depends on the phrase through this block alone. Two constructible mnemonics that have the same block are the same mnemonic, or their phrases collide in SHA-512, or the SHA-512 digest of one phrase is the text of the other followed by zeros. Among phrases of 12 words and Chinese phrases of any length the last two cannot happen, so there different mnemonics always have different blocks.",
  "all constructible mnemonics, both languages and mixed, all passwords",
  "Keys that HMAC takes for equal are a corner of the construction that no sample of phrases would meet.",
  "src/bip39/crypto.rs: pbkdf2", "src/bip39/seed.rs: Seed::new", "src/bip39/mnemonic.rs: Mnemonic::as_bytes")
p("All eight word lists are the published ones",
  "For every language, also the six behind cargo features, the SHA-256 checksum of the word list that the code builds from the text file (every word followed by a line feed, in UTF-8) is the one of the file in the repository of BIP39. A list with another word in any place, or the same words in another order or another Unicode form, would need a collision of SHA-256.",
  "all eight languages, all lists of words without line feeds",
  "The features are off in the tests, and a changed word keeps every round trip and shows only to other wallets.",
  "src/bip39/language.rs: Language::wordlist", "src/bip39/langs/french.txt", "src/bip39/langs/japanese.txt", "src/bip39/langs/korean.txt", "src/bip39/langs/spanish.txt", "src/bip39/langs/italian.txt", "src/bip39/langs/chinese_traditional.txt")
p("Passwords are normalised with the tables of Unicode 14.0",
  "The compatibility decompositions and canonical combining classes that normalise phrases and passwords are those of Unicode 14.0 for every code point: the text that lists every changed character with its decomposition, in order, and the text that lists every character of non-zero class have the SHA-256 checksums of the texts that a second implementation of Unicode (Perl) gives. Any function with other decompositions or classes would need a collision of SHA-256.",
  "all code points, all functions from code points",
  "There are over a million code points, and a wrong entry shows only in a seed computed elsewhere.",
  "src/bip39/seed.rs: Seed::new", "src/bip39/mnemonic.rs: Mnemonic::from_phrase")
p("Wiping never destroys a secret that is still in use",
  "Whatever program creates, parses, clones, derives, prints, converts and drops mnemonics, seeds and keys: no call reads, overwrites or frees memory that has been freed; every variable holds exactly the value it would have if nothing were ever overwritten (a clone is untouched when the original is wiped, and the phrase taken out by into_phrase survives the drop of its mnemonic); no two variables share memory; and the memory in use is exactly that of the variables, so nothing is lost and nothing freed twice.",
  "all programs of any length over the modelled calls, all arguments and random sources",
  "The sharing errors such a design can have show only in particular orders of cloning, converting and dropping.",
  "src/bip39/mnemonic.rs: Mnemonic::into_phrase", "src/bip39/seed.rs: Drop for Seed", "src/bip32/extended_key/mod.rs: Drop for ExtendedKey", "src/bip32/extended_key/extended_private_key.rs: TryFrom<ExtendedKey>")
p("Mnemonics, seeds, key texts and extended keys are wiped when they go away",
  "As soon as a variable with a mnemonic, a seed, a text made by XPrv::to_string or an extended key is dropped, or used up by a call, the phrase, the entropy (with the checksum bits behind it), the seed bytes, the text and the key bytes are overwritten with zeros over the whole length of their blocks and stay so in every continuation of the program. The only exception is the phrase that into_phrase hands out.",
  "all programs, all continuations, all variables and blocks",
  "The tests cannot look at memory after it has been freed.",
  "src/bip39/mnemonic.rs: Mnemonic", "src/bip39/seed.rs: Drop for Seed", "src/bip32/extended_key/mod.rs: Drop for ExtendedKey", "src/bip32/extended_key/extended_private_key.rs: XPrv::to_string")
p("Extended private keys are wiped when dropped",
  "When an extended private key is dropped, its secret scalar is overwritten. This is false: neither ExtendedPrivateKey nor SecretKey nor ExtendedKeyAttrs overwrites anything, so the scalar and the chain code (also the chain code of an ExtendedKey), and every plain String, stay in memory in every continuation of the program.",
  "all programs, all continuations, all variables and blocks",
  "The tests cannot look at memory after it has been freed.",
  "src/bip32/extended_key/extended_private_key.rs: ExtendedPrivateKey", "src/bip32/extended_key/attrs.rs: ExtendedKeyAttrs")
p("Threads that use the word lists at the same time see complete, published tables",
  "However many threads use the lazily built word lists and word maps, in whatever order their atomic steps are interleaved: no step panics, reads a table that is not there or signals a thread that is gone; every access returns the published list, or the map that gives each of its words its number and nothing else; the accesses of a thread happen in its order; and no table is built twice.",
  "all numbers of threads, all lists of accesses, all interleavings of any length, all languages",
  "A race shows only under particular interleavings, which a test cannot choose; the tests run single threads on tables that are mostly built already.",
  "src/bip39/language.rs: WORDLIST_ENGLISH", "src/bip39/language.rs: WORDMAP_ENGLISH", "src/bip39/language.rs: gen_wordmap", "src/bip39/language.rs: gen_wordlist")
p("Threads that use the word lists never wait for each other forever",
  "In every interleaving, a state in which no thread can take a step is one in which every thread has made all its accesses (although building a map waits for the list, possibly while another thread builds it); and no interleaving goes on forever, so every thread gets there.",
  "all numbers of threads, all lists of accesses, all interleavings, also infinite ones",
  "A deadlock or an endless retry shows only under particular interleavings; a test that hangs proves nothing and one that does not hang proves little.",
  "src/bip39/language.rs: WORDLIST_ENGLISH", "src/bip39/language.rs: WORDMAP_ENGLISH", "src/bip39/language.rs: gen_wordmap")
p("No text can be mistaken for a text of another kind",
  "No text is accepted by the readers of two different kinds of text: mnemonic phrases (from_phrase and validate, in any of the eight languages), extended keys, derivation paths, child numbers and language codes.",
  "all texts, all languages",
  "The tests try texts of one kind on the reader of that kind; that no other text passes two readers is about all texts.",
  "src/bip39/mnemonic.rs: Mnemonic::from_phrase", "src/bip32/extended_key/mod.rs: FromStr for ExtendedKey", "src/bip32/derivation_path.rs: FromStr for DerivationPath", "src/bip32/child_number.rs: FromStr for ChildNumber", "src/bip39/language.rs: Language::from_language_code")
p("The label of a text tells whether it holds a private key",
  "A text that XPrv::to_string writes is labelled prv. This is false: to_string takes any prefix, and with each of the four public prefixes it writes every private key under a label like xpub. The text holds the whole private key (ExtendedKey::from_str returns it), while neither XPrv nor XPub can be read from it. Only for reading the label decides: a text is read as a private key only under prv and as a public key only under pub.",
  "all extended private keys, all public prefixes, all texts",
  "The tests write keys only under the matching prefix.",
  "src/bip32/extended_key/extended_private_key.rs: to_extended_key", "src/bip32/extended_key/extended_private_key.rs: to_string", "src/bip32/extended_key/mod.rs: FromStr for ExtendedKey")
p("Only registered versions are read under a standard label",
  "A text that starts with one of the eight standard labels is read only if it holds the version registered for that label. This is false: the label is taken from the text and the version from the data, and they are not compared. The exact versions that occur are eight per label in texts of 111 characters and, for tprv and tpub, 406 more in texts of 112 characters. Six of the eight are written and read back for every key, so every private key has several texts under the same label.",
  "all texts, all labels and lengths, all 32-bit versions, all keys",
  "The tests use the registered versions only.",
  "src/bip32/extended_key/mod.rs: FromStr for ExtendedKey", "src/bip32/prefix.rs: Prefix::from_parts_unchecked")
p("A wallet in every language but Simplified Chinese is the one of BIP39 and BIP32, from the bits up",
  "In English, French, Italian, Japanese, Korean, Spanish and Traditional Chinese a phrase, a passphrase and the text of a path lead to a key if and only if the standards define it, and then to this key: words laid out in the phrase, form KD, the published word list and the SHA-256 checksum, UTF-8, PBKDF2 with HMAC-SHA512, the master key, the children of the path. (For Simplified Chinese see C23.)",
  "seven languages, all texts as phrase and path, all passphrases, all keys",
  "The tests contain one English phrase and no path text; the other languages are not tested at all.",
  "src/bip39/mnemonic.rs: Mnemonic::from_phrase", "src/bip39/seed.rs: Seed::new", "src/bip39/language.rs: Language", "src/bip32/extended_key/extended_private_key.rs: XPrv::new_from_path")
p("Every key is an equally likely child",
  "With any hash function in the place of HMAC-SHA512: every master key and chain code comes from exactly one 64-byte hash value; every private key other than that of the parent, with every chain code, is the child for exactly one hash value, and the key of the parent itself is never the child; the same holds for public keys. Whatever children with all 2^32 numbers are wanted, some hash function gives all of them at once. So with a random hash function all keys are equally likely and siblings are independent: the code around the hash adds no bias and no relation between keys.",
  "all parents, all child numbers, all wanted keys and chain codes, all hash functions",
  "A bias or a relation between keys cannot be seen in single derived keys.",
  "src/bip32/extended_key/extended_private_key.rs: ExtendedPrivateKey::new", "src/bip32/extended_key/extended_private_key.rs: derive_child", "src/bip32/extended_key/extended_public_key.rs: derive_child", "src/bip32/private_key.rs: derive_child", "src/bip32/public_key.rs: derive_child")
p("A hostile key text costs little work",
  "However long and whatever the text given to ExtendedKey::from_str is, the loops of the decoder take at most one step for each digit 1 at its beginning and 9627 steps in all else, and at most three blocks are hashed; the work stops when the buffer of 82 bytes is full. In particular the work is linear in the length of the text, although conversion from base 58 is quadratic in general.",
  "all texts of all lengths",
  "A test shows the time for one text, not the worst case over all texts.",
  "src/bip32/extended_key/mod.rs: FromStr for ExtendedKey")
p("A hostile path costs little work",
  "However long a derivation path is, deriving along it calls HMAC-SHA512 at most once for each level left up to 255 (256 times with the master key) and multiplies on the curve at most twice as often (once for public keys), whatever the hash values are. A successful derivation calls HMAC exactly once per step.",
  "all keys, all paths of all lengths, all hash functions",
  "A test can try one long path; the bound for all is a statement about the fold and the depth limit together.",
  "src/bip32/extended_key/extended_private_key.rs: new_from_path, derive_from_path, derive_child", "src/bip32/extended_key/extended_public_key.rs: derive_from_path, derive_child")
p("Reading a phrase stops after the 24 words a phrase can have",
  "Mnemonic::from_phrase and validate look up at most 24 words, whatever the text is. This is false: the number of words is checked after the loop, so for every n above 24 and every language there is a phrase of which n words are looked up and 11 n / 8 bytes are kept before it is refused. The work is still linear: every word is looked up once, up to and including the first unknown one, at most one block is hashed, and normalising makes a text at most eighteen times as long.",
  "all texts of all lengths, all eight languages",
  "Tests of rejected phrases see the error, not the work done before.",
  "src/bip39/mnemonic.rs: phrase_to_entropy", "src/bip39/mnemonic.rs: from_phrase", "src/bip39/mnemonic_type.rs: for_word_count")
p("Private keys in machine words are integers modulo n",
  "libsecp256k1 holds a private key in eight words of 32 bits. Reading 32 bytes accepts exactly the numbers from 1 to n - 1 and the words hold that number; writing gives 32 bytes with the same number; adding a tweak adds modulo n, with all carries between words and the reduction, and fails exactly if the sum is 0 modulo n; its debug assertion never fails. So deriving a child with the words gives the same key as on integers.",
  "all 32-byte inputs, all pairs of keys",
  "The inputs that overflow a word or n in one particular place are too rare for random tests.",
  "src/bip32/private_key.rs: PrivateKey for libsecp256k1::SecretKey (from_bytes, to_bytes, derive_child)")
p("Multiplication of scalars in machine words is exact",
  "For any two scalars of eight 32-bit words none of the debug assertions that guard the 96-bit accumulator of libsecp256k1 fails, the 512-bit product is exact, and after the three reductions (512 to 385, 385 to 258, 258 to 256 bits) the result is the product modulo n, below n. Squaring, which has its own code, gives the same.",
  "all pairs of scalars, including those that are not reduced",
  "Carry bugs show up for one input in 2^32 or fewer; each column has its own carries.",
  "src/lib.rs: ecdsa_sign (libsecp256k1::sign, Scalar::mul_in_place, Scalar::sqr_in_place)")
p("Inversion and negation of scalars in machine words",
  "The addition chain of Scalar::inv (255 squarings, 44 multiplications) computes the inverse modulo n of every private key, and 0 for 0; is_high is true exactly for the numbers above n / 2; negation gives the number that adds up to 0 modulo n, and 0 for 0.",
  "all private keys; all scalars below n",
  "One wrong step in the chain of 299 gives wrong results for all inputs but 0 and 1; comparing with half of n decides between values that random tests never meet.",
  "src/lib.rs: ecdsa_sign (libsecp256k1::sign, Scalar::inv, is_high, Neg)")
p("Signing in machine words is signing on integers",
  "ecdsa_sign computed with scalars of eight 32-bit words (digest, nonce, r, s, recovery id, retry loop and serialization) gives for every key and every message exactly the signature of ecdsa_sign on integers, and for each nonce exactly the signature that SEC 1 defines; no debug assertion of the scalar arithmetic fails.",
  "all private keys, all messages of any length, all nonces, any number of retries",
  "A signature depends on hundreds of carries; the rare cases (digest above n, r above n, s in the upper half, retry) must all agree with the mathematics.",
  "src/lib.rs: ecdsa_sign")
p("Each derivation path has one text",
  "Two texts that DerivationPath::from_str reads as the same path are the same text. This is false: m/5, m/05 and m/+05 are one path. The texts of a path are exactly its usual text (as Display writes it) with zeros and then perhaps a plus sign put before its components. The printed text is the shortest and the only one of its length; only the root has a single text, every other path has arbitrarily long ones.",
  "all texts, all paths",
  "Tests compare a few texts that people write; that no further spelling exists is a statement about all texts.",
  "src/bip32/derivation_path.rs: FromStr, Display", "src/bip32/child_number.rs: FromStr, Display")
p("A path never loses a hardened mark",
  "In every accepted path a step is hardened exactly if its component ends with an apostrophe. A text with any character other than m, slash, digits, plus sign and apostrophe is refused with an error, so the marks h and H that other wallets use are never read as a normal step.",
  "all texts",
  "A test shows that one wrong mark is refused; reading one of them as a normal step would give public derivation where hardened was meant.",
  "src/bip32/derivation_path.rs: FromStr", "src/bip32/child_number.rs: FromStr")
p("The hexadecimal text of a seed is not taken for a seed",
  "XPrv::new refuses the hexadecimal text of a 64-byte seed. This is false: the text has 128 bytes, a length that is accepted, so the text is hashed as if it were a seed and gives another wallet (unless HMAC-SHA512 collides). A test of the crate itself does this. The text of a seed is refused exactly if the seed has none of the lengths 8, 16, 32, 64; what the crate prints for a seed is taken without 0x and refused with 0x. The entropy of a mnemonic is taken as a seed for 12 and 24 words and refused for 15, 18 and 21.",
  "all seeds, all hexadecimal texts in one case, all mnemonics",
  "A test that derives a key from the wrong bytes passes like any other.",
  "src/bip32/extended_key/extended_private_key.rs: new", "src/bip32/extended_key/mod.rs: test_xprv", "src/bip39/seed.rs: LowerHex, UpperHex")
p("A phrase is not taken for a seed",
  "XPrv::new, which takes anything that can be read as bytes, refuses the text of a mnemonic phrase. This is false: exactly the phrases of 64 and of 128 bytes are taken as seeds, without Seed::new and the password, and give a wallet that no BIP39 software finds. Phrases in Simplified Chinese are always refused.",
  "all mnemonics of both languages",
  "A phrase that a test uses is refused or taken by the chance of its length.",
  "src/bip32/extended_key/extended_private_key.rs: new", "src/bip39/mnemonic.rs: phrase, AsRef<str>")
with open("/verif/properties.jsonl","w") as f:
    for x in P: f.write(json.dumps(x,ensure_ascii=False)+"\n")
print(len(P)); [print(x["id"],x["title"]) for x in P]
