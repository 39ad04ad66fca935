#!/bin/sh
# Regenerate properties.jsonl, the Prop*.v files and MANIFEST.json.
set -e
cd "$(dirname "$0")/.."
python3 tools/props.py
cd rocq/theories
python3 ../../tools/gen_prop.py Bip39Thms.v PropBip39.v "BIP39 properties C01 - C27" "From Coq Require Import String." "From Verif Require Import Outcome Bytes Str Hash Nfkd ModelBip39 SpecBip39." "From Verif Require Bip39Thms." "Import Bip39Thms(ex_entropy, ex_phrase, ex_mnemonic)." "Open Scope N_scope."
python3 ../../tools/gen_prop.py PathThms.v PropPath.v "Child numbers and derivation paths C28 - C34" "From Coq Require Import String." "From Verif Require Import Outcome Bytes Str ModelBip32 SpecBip32." "From Verif Require PathThms." "Open Scope N_scope."
python3 ../../tools/gen_prop.py KeyTextThms.v PropKeyText.v "Extended keys as text C35 - C48" "From Coq Require Import String." "From Verif Require Import Outcome Bytes Str Secp SpecSecp ModelBip32 SpecBip32." "From Verif Require KeyTextThms." "Import KeyTextThms(ex_text, ex_pub_text, ex_attrs, ex_secret, ex_point, ex_xprv, ex_xpub, ex_ext)." "Open Scope N_scope."
python3 ../../tools/gen_prop.py DeriveThms.v PropDerive.v "Key derivation C49 - C60" "From Coq Require Import String." "From Verif Require Import Outcome Bytes Str Hash Secp SpecSecp ModelBip32 SpecBip32." "From Verif Require KeyTextThms DeriveThms." "Import KeyTextThms(ex_attrs, ex_xprv, ex_xpub)." "Import DeriveThms(ex_seed, ex1_xprv, ex1_child, ex1_hardened)." "Open Scope N_scope."
python3 ../../tools/gen_prop.py MiscThms.v PropMisc.v "Equality, debug output, signing, hashing and whole wallets C61 - C68" "From Coq Require Import String." "From Verif Require Import Outcome Bytes Str Hash Ripemd Nfkd ModelBip39 SpecBip39 Secp SpecSecp ModelBip32 SpecBip32 SpecWallet." "From Verif Require Bip39Thms KeyTextThms DeriveThms MiscThms." "Import Bip39Thms(ex_phrase, ex_mnemonic)." "Import KeyTextThms(ex_attrs)." "Import DeriveThms(ex1_xprv, ex1_child, ex1_hardened)." "Open Scope N_scope."
python3 ../../tools/gen_prop.py More39Thms.v PropMore39.v "Further BIP39 properties C69 - C77" "From Coq Require Import String." "From Verif Require Import Outcome Bytes Str Hash Nfkd ModelBip39 SpecBip39 ModelBuffers SpecMore." "From Verif Require SpecBip32 Bip39Thms More39Thms." "Import Bip39Thms(ex_entropy, ex_phrase, ex_mnemonic)." "Open Scope N_scope."
python3 ../../tools/gen_prop.py More32Thms.v PropMore32.v "Further properties of keys C78 - C89" "From Coq Require Import String." "From Verif Require Import Outcome Bytes Str Hash Secp SpecSecp ModelBip32 SpecBip32 SpecWallet ModelOrder SpecKeys." "From Verif Require KeyTextThms DeriveThms More32Thms." "Import KeyTextThms(ex_attrs, ex_xprv, ex_xpub)." "Import DeriveThms(ex_seed, ex1_xprv, ex1_child, ex1_hardened)." "Open Scope N_scope."
python3 ../../tools/gen_prop.py HashThms.v PropHash.v "Hash functions and seeds against their standards C90 - C93" "From Coq Require Import String." "From Verif Require Import Outcome Bytes Str Hash Ripemd Nfkd ModelBip39 SpecBip39 Secp SpecSecp Base58 ModelBip32 SpecBip32 SpecHash." "From Verif Require Bip39Thms HashThms." "Import Bip39Thms(ex_entropy, ex_phrase, ex_mnemonic)." "Open Scope N_scope."
python3 ../../tools/gen_prop.py UnicodeThms.v PropUnicode.v "Unicode normalisation and UTF-8 C94 - C95" "From Coq Require Import String." "From Verif Require Import Outcome Bytes Str Nfkd SpecUnicode." "From Verif Require UnicodeThms." "Open Scope N_scope."
python3 ../../tools/gen_prop.py MemoryThms.v PropMemory.v "What is left in local buffers C96 - C98" "From Coq Require Import String." "From Verif Require Import Outcome Bytes Str Hash Base58 ModelBip32 ModelMemory SpecBip32." "From Verif Require KeyTextThms MemoryThms." "Import KeyTextThms(ex_text, ex_ext)." "Import MemoryThms(ex_typo)." "Open Scope N_scope."
python3 ../../tools/gen_prop.py SignThms.v PropSign.v "More about signatures C99 - C101" "From Coq Require Import String ZArith." "From Verif Require Import Outcome Bytes Str Secp SpecSecp ModelBip32 SpecBip32 SpecWallet." "From Verif Require SignThms." "Open Scope Z_scope."
python3 ../../tools/gen_prop.py PublicThms.v PropPublic.v "Public keys and their secrets C102 - C104" "From Coq Require Import String." "From Verif Require Import Outcome Bytes Str Secp SpecSecp ModelBip32 SpecBip32 SpecWallet ModelOrder." "From Verif Require KeyTextThms DeriveThms PublicThms." "Import KeyTextThms(ex_attrs, ex_xpub, ex_pub_text)." "Import DeriveThms(ex1_xprv)." "Open Scope N_scope."
python3 ../../tools/gen_prop.py ChainThms.v PropChain.v "Whole computations from the bits up C105 - C107" "From Coq Require Import String." "From Verif Require Import Outcome Bytes Str Nfkd ModelBip39 SpecBip39 Secp SpecSecp ModelBip32 SpecBip32 SpecWallet SpecHash SpecUnicode SpecChain." "From Verif Require Bip39Thms KeyTextThms DeriveThms ChainThms." "Import Bip39Thms(ex_phrase, ex_mnemonic)." "Import KeyTextThms(ex_text, ex_xprv)." "Import DeriveThms(ex_seed, ex1_xprv, ex1_child, ex1_hardened)." "Open Scope N_scope."
python3 ../../tools/gen_prop.py ApiThms.v PropApi.v "The public interface as a whole C108 - C109" "From Coq Require Import String." "From Verif Require Import Outcome Bytes Str ModelBip39 Secp ModelBip32 ModelApi SpecApi." "From Verif Require Bip39Thms DeriveThms ApiThms." "Import Bip39Thms(ex_entropy, ex_mnemonic)." "Import DeriveThms(ex1_xprv)." "Open Scope N_scope."
python3 ../../tools/gen_prop.py FreedThms.v PropFreed.v "Secrets on the heap C110 - C111" "From Coq Require Import String." "From Verif Require Import Outcome Bytes Str ModelBip39 SpecBip39 SpecUnicode ModelFreed." "From Verif Require Bip39Thms FreedThms." "Import Bip39Thms(ex_entropy, ex_phrase, ex_mnemonic)." "Open Scope N_scope."
python3 ../../tools/gen_prop.py FormatThms.v PropFormat.v "Formatting flags C112 - C115" "From Coq Require Import String." "From Verif Require Import Outcome Bytes Str ModelBip39 SpecBip39 Secp ModelBip32 SpecBip32 ModelFormat." "From Verif Require Bip39Thms DeriveThms KeyTextThms FormatThms." "Import Bip39Thms(ex_phrase, ex_mnemonic) DeriveThms(ex1_xprv) KeyTextThms(ex_xprv)." "Open Scope N_scope."
python3 ../../tools/gen_prop.py BitsThms.v PropBits.v "Bits, white space, generated phrases and mistakes C116 - C119" "From Coq Require Import String." "From Verif Require Import Outcome Bytes Str Nfkd ModelBip39 SpecBip39 SpecUnicode SpecSentence ModelBits." "From Verif Require Bip39Thms BitsThms." "Import Bip39Thms(ex_mnemonic)." "Open Scope N_scope."
python3 ../../tools/gen_prop.py LangThms.v PropLangs.v "All eight languages C120 - C129" "From Coq Require Import String." "From Verif Require Import Outcome Bytes Str Nfkd ModelBip39 SpecBip39 ModelBuffers ModelLangs SpecLangs." "From Verif Require LangThms." "Import LangThms(ex_fr, ex_fr_entropy, ex_fr_word, ex_fr_normal, ex_twice, ex_twice_en, ex_twice_fr, ex_chinese, ex_chinese_entropy)." "Open Scope N_scope."
python3 ../../tools/gen_prop.py BuildThms.v PropBuilds.v "Kinds of build C130 - C132" "From Coq Require Import String." "From Verif Require Import Outcome Bytes Str Nfkd ModelBip39 SpecBip39 SpecBuilds ModelBuilds." "From Verif Require BuildThms." "Open Scope N_scope."
python3 ../../tools/gen_prop.py GenericThms.v PropGeneric.v "Extended keys over any key type C133 - C138" "From Coq Require Import String." "From Verif Require Import Outcome Bytes Str Hash Secp ModelBip32 SpecSecp SpecBip32 ModelGeneric SpecGeneric." "From Verif Require GenericThms." "Import GenericThms(ex_toy)." "Open Scope N_scope."
python3 ../../tools/gen_prop.py SignBuildThms.v PropSignBuilds.v "Signing with debug assertions C139" "From Coq Require Import String ZArith." "From Verif Require Import Outcome Bytes Str Secp SpecSecp ModelBip32 SpecBip32 SpecWallet ModelSignBuilds." "From Verif Require SignBuildThms." "Open Scope Z_scope."
python3 ../../tools/gen_prop.py FindThms.v PropFind.v "What the prefix search finds C140" "From Coq Require Import String." "From Verif Require Import Outcome Bytes Str Hash ModelBip39 SpecBip39 ModelLangs SpecLangs SpecFind." "From Verif Require FindThms." "Open Scope N_scope."
python3 ../../tools/gen_prop.py ConstThms.v PropConst.v "Published constants C141 and C142" "From Coq Require Import String ZArith Znumtheory." "From Verif Require Import Outcome Bytes Str Secp ModelBip39 SpecBip39 ModelBip32 SpecBip32 SpecSecp SpecHash SpecUnicode SpecConst." "From Verif Require ConstThms." "Open Scope Z_scope."
python3 ../../tools/gen_prop.py ConstTimeThms.v PropConstTime.v "Comparison in constant time C143" "From Verif Require Import Outcome Bytes Secp SpecSecp ModelBip32 SpecBip32 ModelConstTime." "From Verif Require DeriveThms ConstTimeThms." "Import DeriveThms(ex1_child, ex1_hardened)." "Open Scope N_scope."
python3 ../../tools/gen_prop.py HmacKeyThms.v PropHmacKey.v "HMAC keys made from phrases C144" "From Coq Require Import String." "From Verif Require Import Outcome Bytes Str ModelBip39 SpecBip39 SpecHash SpecHmacKey." "From Verif Require Bip39Thms HmacKeyThms." "Import Bip39Thms(ex_mnemonic, ex_phrase, ex_entropy)." "Open Scope N_scope."
python3 ../../tools/gen_prop.py ChineseSeedThms.v PropChineseSeed.v "The value of a Chinese seed C23" "From Coq Require Import String." "From Verif Require Import Outcome Bytes Str ModelBip39 SpecBip39." "From Verif Require ChineseSeedThms." "Open Scope N_scope."
python3 ../../tools/gen_prop.py ConstLangsThms.v PropConstLangs.v "All word lists are the published ones C145" "From Coq Require Import String." "From Verif Require Import Outcome Bytes Str ModelBip39 ModelLangs SpecLangs SpecHash SpecConst SpecConstLangs." "From Verif Require ConstLangsThms." "Open Scope N_scope."
python3 ../../tools/gen_prop.py TableThms.v PropTables.v "The tables of Unicode C146" "From Coq Require Import String." "From Verif Require Import Outcome Bytes Str Nfkd SpecUnicode SpecHash SpecConst SpecTables." "From Verif Require TableThms." "Open Scope N_scope."
python3 ../../tools/gen_prop.py DropThms.v PropDrop.v "Programs with secrets in memory C147 - C149" "From Coq Require Import String." "From Verif Require Import Outcome Bytes Str Secp ModelBip39 ModelBip32 ModelDrop SpecDrop." "From Verif Require DropThms." "Import Bip39Thms(ex_entropy, ex_phrase)." "Import KeyTextThms(ex_xprv)." "Import DropThms(ex_ops, ex_key_ops, ex_key)." "Open Scope N_scope."
python3 ../../tools/gen_prop.py OnceThms.v PropOnce.v "Threads that use the word lists C150 - C151" "From Verif Require Import Outcome Bytes Str ModelBip39 ModelLangs SpecLangs ModelOnce SpecOnce." "From Verif Require OnceThms." "Import OnceThms(once_ex)." "Open Scope N_scope."
python3 ../../tools/gen_prop.py KindThms.v PropKinds.v "Kinds of text C152" "From Coq Require Import String." "From Verif Require Import Outcome Bytes Str ModelBip39 ModelLangs ModelBip32 SpecKinds." "From Verif Require KindThms." "Import LangThms(ex_fr)." "Import KeyTextThms(ex_text)." "Open Scope N_scope."
python3 ../../tools/gen_prop.py LabelThms.v PropLabels.v "Labels of key texts C153 - C154" "From Coq Require Import String." "From Verif Require Import Outcome Bytes Str Secp SpecSecp ModelBip32 SpecBip32 SpecLabels." "From Verif Require LabelThms." "Import KeyTextThms(ex_xprv, ex_xpub, ex_text, ex_pub_text)." "Open Scope N_scope."
python3 ../../tools/gen_prop.py WalletThms.v PropWallet.v "Wallets in all languages C155" "From Coq Require Import String." "From Verif Require Import Outcome Bytes Str Nfkd ModelBip39 SpecBip39 ModelBip32 SpecBip32 SpecUnicode SpecChain ModelLangs SpecLangs SpecWalletAll." "From Verif Require WalletThms." "Import LangThms(ex_fr_word, ex_fr_normal, ex_fr_entropy)." "Open Scope N_scope."
python3 ../../tools/gen_prop.py UniformThms.v PropUniform.v "Distribution of keys C156" "From Verif Require Import Outcome Bytes Secp SpecSecp ModelBip32 SpecBip32." "From Verif Require UniformThms." "Import DeriveThms(ex1_xprv, ex1_child)." "Open Scope N_scope."
python3 ../../tools/gen_prop.py CostThms.v PropCost.v "Work on texts and paths of any length C157 - C158" "From Verif Require Import Outcome Bytes Str Hash Secp ModelBip32 ModelCost SpecCost." "From Verif Require CostThms." "Import KeyTextThms(ex_text). Import CostThms(ex_deep)." "Open Scope N_scope."
python3 ../../tools/gen_prop.py Cost39Thms.v PropCost39.v "Work on phrases of any length C159" "From Coq Require Import String." "From Verif Require Import Outcome Bytes Str Nfkd ModelBip39 SpecBip39 ModelLangs SpecLangs ModelCost39." "From Verif Require Cost39Thms." "Open Scope N_scope."
python3 ../../tools/gen_prop.py ScalarThms.v PropScalar.v "Private keys in machine words C160" "From Coq Require Import ZArith." "From Verif Require Import Outcome Bytes Secp SpecBip32 ModelBip32 ModelScalar SpecScalar." "From Verif Require ScalarThms." "Import ScalarThms(ex_minus_one, ex_three)." "Open Scope N_scope."
python3 ../../tools/gen_prop.py ScalarMulThms.v PropScalarMul.v "Signing in machine words C161 - C163" "From Coq Require Import ZArith." "From Verif Require Import Outcome Bytes Secp SpecSecp SpecBip32 SpecChain ModelBip32 ModelScalar SpecScalar ModelScalarMul." "From Verif Require ScalarMulThms." "Import ScalarThms(ex_minus_one)." "Import ScalarMulThms(ex_ones, ex_word)." "Open Scope N_scope."
python3 ../../tools/gen_prop.py SpellingThms.v PropSpelling.v "Spellings of derivation paths C164 - C165" "From Coq Require Import String." "From Verif Require Import Outcome Bytes Str ModelBip32 SpecBip32 SpecSpelling." "From Verif Require SpellingThms." "Open Scope N_scope."
python3 ../../tools/gen_prop.py SeedTextThms.v PropSeedText.v "Texts in place of seeds C166 - C167" "From Coq Require Import String." "From Verif Require Import Outcome Bytes Str Hash ModelBip39 SpecBip39 ModelBip32 SpecBip32." "From Verif Require SeedTextThms KeyTextThms DeriveThms." "Import KeyTextThms(ex_xprv)." "Import DeriveThms(ex_seed)." "Import SeedTextThms(ex_64_phrase)." "Open Scope N_scope."
cd ../..
python3 tools/manifest.py
