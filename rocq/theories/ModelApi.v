(** The public interface of the crate as a machine: every public function is a call that takes values and
    gives values, fails or panics.  Every call refers to the model of its function; the line numbers are
    those of the public item.  Not in the machine: Clone, Debug and comparison operators derived by the
    compiler (ModelOrder.v has the comparisons), the texts of errors (ModelBip39.v and ModelBip32.v have
    them) and the functions of libsecp256k1 on the keys that the crate hands out. *)
From Coq Require Import String.
From Verif Require Import Outcome Bytes Str Hash Ripemd Nfkd ModelBip39 Secp Base58 ModelBip32.
Open Scope N_scope.

(** The values of the types that occur in public signatures.  References, [Vec], [Zeroizing] and smart
    pointers are the values they hold; an iterator or slice is the list of its items. *)
Inductive value :=
| VText (s : str)                   (* &str, String *)
| VBytes (b : bytes)                (* &[u8], Vec<u8> *)
| VArray (n : nat) (b : bytes)      (* [u8; n] *)
| VNum (width : N) (n : N)          (* u8, u16, u32, usize *)
| VBool (b : bool)
| VType (t : mnemonic_type)
| VLang (l : language)
| VIndex (i : bits11)
| VMnemonic (m : mnemonic)
| VSeed (b : bytes)
| VChild (c : N)
| VPath (p : path)
| VPrefix (p : prefix)
| VAttrs (a : attrs)
| VExt (e : extended_key)
| VSecret (k : Z)                   (* libsecp256k1::SecretKey *)
| VPublic (P : point)               (* libsecp256k1::PublicKey *)
| VXPrv (x : xprv)
| VXPub (y : xpub).

Inductive call :=
(* src/bip39/mnemonic_type.rs:54, 78, 112, 131, 148, 165, 180, 186, 192 *)
| TypeForWordCount (n : N) | TypeForKeySize (n : N) | TypeForPhrase (s : str)
| TypeTotalBits (t : mnemonic_type) | TypeEntropyBits (t : mnemonic_type) | TypeChecksumBits (t : mnemonic_type)
| TypeWordCount (t : mnemonic_type) | TypeDefault | TypeDisplay (t : mnemonic_type)
(* src/bip39/language.rs:15, 24, 28, 135, 155, 217; a word list or map is named by its language *)
| LangFromCode (s : str) | LangFromPhrase (s : str) | LangDefault
| ListGetWord (l : language) (i : bits11) | ListByPrefix (l : language) (s : str) | MapGetBits (l : language) (s : str)
(* src/bip39/util.rs:91-101, From<u16> for Bits11 and back *)
| IndexFrom (n : N) | IndexInto (i : bits11)
(* src/bip39/mnemonic.rs:66, 87, 143, 177, 224, 229 (and 323), 251, 258, 262, 277-292, 294-320;
   [rng] is what the random generator returns *)
| MnemonicNew (t : mnemonic_type) (l : language) (rng : nat -> N)
| MnemonicFromEntropy (b : bytes) (l : language) | MnemonicFromPhrase (s : str) (l : language)
| MnemonicValidate (s : str) (l : language)
| MnemonicPhrase (m : mnemonic) | MnemonicIntoPhrase (m : mnemonic) | MnemonicEntropy (m : mnemonic)
| MnemonicLanguage (m : mnemonic) | MnemonicAsBytes (m : mnemonic)
| MnemonicDisplay (m : mnemonic) | MnemonicDebug (m : mnemonic) | MnemonicHex (upper alternate : bool) (m : mnemonic)
(* src/bip39/seed.rs:32, 41 (and 47), 53, 58-84 *)
| SeedNew (m : mnemonic) (s : str) | SeedAsBytes (b : bytes) | SeedDebug (b : bytes)
| SeedHex (upper alternate : bool) (b : bytes)
(* src/bip32/child_number.rs:11 and 68, 23, 34, 39, 45, 50, 55, 74, 82 *)
| ChildFrom (n : N) | ChildNew (n : N) (hardened : bool) | ChildFromBytes (b : bytes) | ChildToBytes (c : N)
| ChildIndex (c : N) | ChildIsHardened (c : N) | ChildDisplay (c : N) | ChildInto (c : N) | ChildFromStr (s : str)
(* src/bip32/derivation_path.rs:15 (Default), 22 (and 54, 100), 27, 32, 39, 48, 59, 72, 83 *)
| PathDefault | PathIter (p : path) | PathIsEmpty (p : path) | PathLen (p : path) | PathParent (p : path)
| PathPush (p : path) (c : N) | PathDisplay (p : path) | PathExtend (p : path) (l : list N) | PathFromStr (s : str)
(* src/bip32/prefix.rs:38-59, 71, 82, 103 (and 149, 164), 108, 113, 118 (and 170, 176), 123, 155, 184, 192 *)
| PrefixConstants | PrefixFromParts (s : str) (v : N) | PrefixFromBytes (b : bytes) | PrefixAsStr (p : prefix)
| PrefixIsPublic (p : prefix) | PrefixIsPrivate (p : prefix) | PrefixVersion (p : prefix) | PrefixToBytes (p : prefix)
| PrefixDebug (p : prefix) | PrefixTryVersion (v : N) | PrefixTrySlice (b : bytes)
(* src/bip32/extended_key/attrs.rs:8-20 and mod.rs:16-27: structs with public fields; mod.rs:43, 60, 71 *)
| AttrsMake (d : N) (fp : bytes) (c : N) (cc : bytes) | AttrsFields (a : attrs)
| ExtMake (p : prefix) (a : attrs) (k : bytes) | ExtFields (e : extended_key)
| ExtWrite (e : extended_key) | ExtToString (e : extended_key) | ExtFromStr (s : str)
(* src/bip32/private_key.rs:35, 42, 46, 54, 62; src/bip32/public_key.rs:31, 38, 45, 49, 59 *)
| SecretFromBytes (b : bytes) | SecretToBytes (k : Z) | SecretDerive (k : Z) (b : bytes) | SecretPublic (k : Z)
| SecretOf (x : xprv)
| PublicFromBytes (b : bytes) | PublicToBytes (P : point) | PublicDerive (P : point) (b : bytes)
| PublicFingerprint (P : point) | PublicOf (y : xpub)
(* src/bip32/extended_key/extended_private_key.rs:53, 63, 87, 97, 137, 142, 148, 153, 158, 173, 182 (and 223),
   206, 234, 245 *)
| XPrvNewFromPath (b : bytes) (p : path) | XPrvNew (b : bytes) | XPrvDeriveFromPath (x : xprv) (p : path)
| XPrvDeriveChild (x : xprv) (c : N) | XPrvPrivateKey (x : xprv) | XPrvPublicKey (x : xprv) | XPrvAttrs (x : xprv)
| XPrvToBytes (x : xprv) | XPrvToExt (x : xprv) (p : prefix) | XPrvToString (x : xprv) (p : prefix)
| XPrvEq (x y : xprv) | XPrvDebug (x : xprv) | XPrvFromStr (s : str) | XPrvTryFrom (e : extended_key)
(* src/bip32/extended_key/extended_public_key.rs:37, 43, 48, 52, 62, 91, 96, 107, 130, 141 *)
| XPubPublicKey (y : xpub) | XPubAttrs (y : xpub) | XPubFingerprint (y : xpub) | XPubDeriveFromPath (y : xpub) (p : path)
| XPubDeriveChild (y : xpub) (c : N) | XPubToBytes (y : xpub) | XPubToExt (y : xpub) (p : prefix)
| XPubToString (y : xpub) (p : prefix) | XPubFromStr (s : str) | XPubTryFrom (e : extended_key)
(* src/lib.rs:14, src/crypto.rs:4; [tries] bounds the number of nonces tried *)
| EcdsaSign (tries : nat) (k : Z) (b : bytes) | RipemdHex (b : bytes).

(** The arguments of a call with their types. *)
Definition args (c : call) : list value :=
  match c with
  | TypeForWordCount n | TypeForKeySize n => [VNum 64 n]
  | TypeForPhrase s => [VText s]
  | TypeTotalBits t | TypeEntropyBits t | TypeChecksumBits t | TypeWordCount t | TypeDisplay t => [VType t]
  | TypeDefault | LangDefault | PathDefault | PrefixConstants => []
  | LangFromCode s | LangFromPhrase s => [VText s]
  | ListGetWord l i => [VLang l; VIndex i]
  | ListByPrefix l s | MapGetBits l s => [VLang l; VText s]
  | IndexFrom n => [VNum 16 n]
  | IndexInto i => [VIndex i]
  | MnemonicNew t l _ => [VType t; VLang l]
  | MnemonicFromEntropy b l => [VBytes b; VLang l]
  | MnemonicFromPhrase s l | MnemonicValidate s l => [VText s; VLang l]
  | MnemonicPhrase m | MnemonicIntoPhrase m | MnemonicEntropy m | MnemonicLanguage m | MnemonicAsBytes m
  | MnemonicDisplay m | MnemonicDebug m => [VMnemonic m]
  | MnemonicHex u a m => [VMnemonic m]
  | SeedNew m s => [VMnemonic m; VText s]
  | SeedAsBytes b | SeedDebug b | SeedHex _ _ b => [VSeed b]
  | ChildFrom n => [VNum 32 n]
  | ChildNew n h => [VNum 32 n; VBool h]
  | ChildFromBytes b => [VArray 4 b]
  | ChildToBytes c | ChildIndex c | ChildIsHardened c | ChildDisplay c | ChildInto c => [VChild c]
  | ChildFromStr s | PathFromStr s => [VText s]
  | PathIter p | PathIsEmpty p | PathLen p | PathParent p | PathDisplay p => [VPath p]
  | PathPush p c => [VPath p; VChild c]
  | PathExtend p l => VPath p :: map VChild l
  | PrefixFromParts s v => [VText s; VNum 32 v]
  | PrefixFromBytes b => [VArray 4 b]
  | PrefixAsStr p | PrefixIsPublic p | PrefixIsPrivate p | PrefixVersion p | PrefixToBytes p | PrefixDebug p => [VPrefix p]
  | PrefixTryVersion v => [VNum 32 v]
  | PrefixTrySlice b => [VBytes b]
  | AttrsMake d fp c cc => [VNum 8 d; VArray 4 fp; VChild c; VArray 32 cc]
  | AttrsFields a => [VAttrs a]
  | ExtMake p a k => [VPrefix p; VAttrs a; VArray 33 k]
  | ExtFields e | ExtWrite e | ExtToString e => [VExt e]
  | ExtFromStr s => [VText s]
  | SecretFromBytes b => [VArray 32 b]
  | SecretToBytes k | SecretPublic k => [VSecret k]
  | SecretDerive k b => [VSecret k; VArray 32 b]
  | SecretOf x => [VXPrv x]
  | PublicFromBytes b => [VArray 33 b]
  | PublicToBytes P | PublicFingerprint P => [VPublic P]
  | PublicDerive P b => [VPublic P; VArray 32 b]
  | PublicOf y => [VXPub y]
  | XPrvNewFromPath b p => [VBytes b; VPath p]
  | XPrvNew b => [VBytes b]
  | XPrvDeriveFromPath x p => [VXPrv x; VPath p]
  | XPrvDeriveChild x c => [VXPrv x; VChild c]
  | XPrvPrivateKey x | XPrvPublicKey x | XPrvAttrs x | XPrvToBytes x | XPrvDebug x => [VXPrv x]
  | XPrvToExt x p | XPrvToString x p => [VXPrv x; VPrefix p]
  | XPrvEq x y => [VXPrv x; VXPrv y]
  | XPrvFromStr s | XPubFromStr s => [VText s]
  | XPrvTryFrom e | XPubTryFrom e => [VExt e]
  | XPubPublicKey y | XPubAttrs y | XPubFingerprint y | XPubToBytes y => [VXPub y]
  | XPubDeriveFromPath y p => [VXPub y; VPath p]
  | XPubDeriveChild y c => [VXPub y; VChild c]
  | XPubToExt y p | XPubToString y p => [VXPub y; VPrefix p]
  | EcdsaSign _ k b => [VSecret k; VBytes b]
  | RipemdHex b => [VBytes b]
  end.

(** What a call does.  [Unfinished]: signing needs more tries. *)
Inductive outcome := Returns (vs : list value) | Fails | Panics | Unfinished.
Definition of_res {E A} (f : A -> list value) (m : res E A) : outcome :=
  match m with Ok a => Returns (f a) | Err _ => Fails | Panic => Panics end.
Definition of_option {A} (f : A -> list value) (o : option A) : outcome :=
  match o with Some a => Returns (f a) | None => Fails end.
Definition one {A} (f : A -> value) (a : A) : list value := [f a].

Definition run (c : call) : outcome :=
  match c with
  | TypeForWordCount n => of_res (one VType) (for_word_count n)
  | TypeForKeySize n => of_res (one VType) (for_key_size n)
  | TypeForPhrase s => of_res (one VType) (for_phrase s)
  | TypeTotalBits t => Returns [VNum 64 (total_bits t)]
  | TypeEntropyBits t => Returns [VNum 64 (entropy_bits t)]
  | TypeChecksumBits t => Returns [VNum 8 (checksum_bits t)]
  | TypeWordCount t => Returns [VNum 64 (word_count t)]
  | TypeDefault => Returns [VType mnemonic_type_default]
  | TypeDisplay t => Returns [VText (mnemonic_type_display t)]
  | LangFromCode s => of_option (one VLang) (from_language_code s)
  | LangFromPhrase s => of_option (one VLang) (language_from_phrase s)
  | LangDefault => Returns [VLang language_default]
  | ListGetWord l i => of_res (one VText) (get_word (wordlist l) i)
  | ListByPrefix l s => of_res (map VText) (get_words_by_prefix (wordlist l) s)
  | MapGetBits l s => of_res (one VIndex) (get_bits (wordmap_of l) s)
  | IndexFrom n => Returns [VIndex n]
  | IndexInto i => Returns [VNum 16 i]
  | MnemonicNew t l rng => of_res (one VMnemonic) (mnemonic_new t l rng)
  | MnemonicFromEntropy b l => of_res (one VMnemonic) (from_entropy b l)
  | MnemonicFromPhrase s l => of_res (one VMnemonic) (from_phrase s l)
  | MnemonicValidate s l => of_res (fun _ => []) (validate s l)
  | MnemonicPhrase m => Returns [VText (m_phrase m)]
  | MnemonicIntoPhrase m => Returns [VText (fst (into_phrase m))]
  | MnemonicEntropy m => Returns [VBytes (m_entropy m)]
  | MnemonicLanguage m => Returns [VLang (m_lang m)]
  | MnemonicAsBytes m => of_res (one VBytes) (mnemonic_as_bytes m)
  | MnemonicDisplay m => Returns [VText (mnemonic_display m)]
  | MnemonicDebug m => of_res (one VText) (mnemonic_debug m)
  | MnemonicHex u a m => Returns [VText (mnemonic_hex u a m)]
  | SeedNew m s => of_res (one VSeed) (seed_new m s)
  | SeedAsBytes b => Returns [VBytes b]
  | SeedDebug b => Returns [VText (seed_debug b)]
  | SeedHex u a b => Returns [VText (seed_hex u a b)]
  | ChildFrom n => Returns [VChild n]
  | ChildNew n h => of_res (one VChild) (child_new n h)
  | ChildFromBytes b => Returns [VChild (child_from_bytes b)]
  | ChildToBytes c => Returns [VArray 4 (child_to_bytes c)]
  | ChildIndex c => Returns [VNum 32 (child_index c)]
  | ChildIsHardened c => Returns [VBool (child_is_hardened c)]
  | ChildDisplay c => Returns [VText (child_display c)]
  | ChildInto c => Returns [VNum 32 c]
  | ChildFromStr s => of_res (one VChild) (child_from_str s)
  | PathDefault => Returns [VPath []]
  | PathIter p => Returns (map VChild p)
  | PathIsEmpty p => Returns [VBool (path_is_empty p)]
  | PathLen p => Returns [VNum 64 (path_len p)]
  | PathParent p => of_option (one VPath) (path_parent p)
  | PathPush p c => Returns [VPath (path_push p c)]
  | PathDisplay p => Returns [VText (path_display p)]
  | PathExtend p l => Returns [VPath (path_extend p l)]
  | PathFromStr s => of_res (one VPath) (path_from_str s)
  | PrefixConstants => Returns (map VPrefix [TPRV; TPUB; XPRV; XPUB; YPRV; YPUB; ZPRV; ZPUB])
  | PrefixFromParts s v => of_res (one VPrefix) (from_parts_unchecked (utf8 s) v)
  | PrefixFromBytes b => of_res (one VPrefix) (prefix_from_bytes b)
  | PrefixAsStr p => of_res (one VText) (prefix_as_str p)
  | PrefixIsPublic p => Returns [VBool (prefix_is_public p)]
  | PrefixIsPrivate p => Returns [VBool (prefix_is_private p)]
  | PrefixVersion p => Returns [VNum 32 (version p)]
  | PrefixToBytes p => Returns [VArray 4 (prefix_to_bytes p)]
  | PrefixDebug p => of_res (one VText) (prefix_debug p)
  | PrefixTryVersion v => of_res (one VPrefix) (prefix_from_version v)
  | PrefixTrySlice b => of_res (one VPrefix) (prefix_try_from_slice b)
  | AttrsMake d fp c cc => Returns [VAttrs (mkAttrs d fp c cc)]
  | AttrsFields a => Returns [VNum 8 (depth a); VArray 4 (parent_fingerprint a); VChild (child_number a); VArray 32 (chain_code a)]
  | ExtMake p a k => Returns [VExt (mkExt p a k)]
  | ExtFields e => Returns [VPrefix (ek_prefix e); VAttrs (ek_attrs e); VArray 33 (key_bytes e)]
  | ExtWrite e => of_res (one VText) (write_base58 e)
  | ExtToString e => of_res (one VText) (ek_to_string e)
  | ExtFromStr s => of_res (one VExt) (ek_from_str s)
  | SecretFromBytes b => of_res (one VSecret) (private_from_bytes b)
  | SecretToBytes k => Returns [VArray 32 (private_to_bytes k)]
  | SecretDerive k b => of_res (one VSecret) (private_derive_child k b)
  | SecretPublic k => Returns [VPublic (private_public_key k)]
  | SecretOf x => Returns [VSecret (secret_of_xprv x)]
  | PublicFromBytes b => of_res (one VPublic) (public_from_bytes b)
  | PublicToBytes P => Returns [VArray 33 (public_to_bytes P)]
  | PublicDerive P b => of_res (one VPublic) (public_derive_child P b)
  | PublicFingerprint P => Returns [VArray 4 (public_fingerprint P)]
  | PublicOf y => Returns [VPublic (public_of_xpub y)]
  | XPrvNewFromPath b p => of_res (one VXPrv) (xprv_new_from_path b p)
  | XPrvNew b => of_res (one VXPrv) (xprv_new b)
  | XPrvDeriveFromPath x p => of_res (one VXPrv) (xprv_derive_from_path x p)
  | XPrvDeriveChild x c => of_res (one VXPrv) (xprv_derive_child x c)
  | XPrvPrivateKey x => Returns [VSecret (private_key x)]
  | XPrvPublicKey x => Returns [VXPub (xprv_public_key x)]
  | XPrvAttrs x => Returns [VAttrs (xprv_attrs x)]
  | XPrvToBytes x => Returns [VArray 32 (xprv_to_bytes x)]
  | XPrvToExt x p => Returns [VExt (xprv_to_extended_key x p)]
  | XPrvToString x p => of_res (one VText) (xprv_to_string x p)
  | XPrvEq x y => Returns [VBool (xprv_eq x y)]
  | XPrvDebug x => Returns [VText (xprv_debug x)]
  | XPrvFromStr s => of_res (one VXPrv) (xprv_from_str s)
  | XPrvTryFrom e => of_res (one VXPrv) (xprv_try_from e)
  | XPubPublicKey y => Returns [VPublic (public_key y)]
  | XPubAttrs y => Returns [VAttrs (xpub_attrs y)]
  | XPubFingerprint y => Returns [VArray 4 (xpub_fingerprint y)]
  | XPubDeriveFromPath y p => of_res (one VXPub) (xpub_derive_from_path y p)
  | XPubDeriveChild y c => of_res (one VXPub) (xpub_derive_child y c)
  | XPubToBytes y => Returns [VArray 33 (xpub_to_bytes y)]
  | XPubToExt y p => Returns [VExt (xpub_to_extended_key y p)]
  | XPubToString y p => of_res (one VText) (xpub_to_string y p)
  | XPubFromStr s => of_res (one VXPub) (xpub_from_str s)
  | XPubTryFrom e => of_res (one VXPub) (xpub_try_from e)
  | EcdsaSign tries k b =>
      match ecdsa_sign tries k b with
      | None => Unfinished
      | Some m => of_res (fun out => [VArray 64 (fst out); VNum 8 (snd out)]) m
      end
  | RipemdHex b => Returns [VText (ripemd b)]
  end.
