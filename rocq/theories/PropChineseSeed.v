(** The value of a Chinese seed C23.

    Statements only: every theorem is closed by the lemma of the same name (in lower case) in
    ChineseSeedThms.v.  Generated by tools/gen_prop.py. *)
From Coq Require Import String.
From Verif Require Import Outcome Bytes Str ModelBip39 SpecBip39.
From Verif Require ChineseSeedThms.
Open Scope N_scope.

(** ** C23. Seeds follow BIP39 for Simplified Chinese.  For a Simplified Chinese mnemonic, Seed::new uses the
    UTF-8 bytes of the NFKD phrase as the PBKDF2 password, as BIP39 requires, so that the seed equals the one
    other BIP39 wallets compute. *)
(** The claim itself: the seed is not the one that BIP39 prescribes. *)
Theorem C23_seed_value_refuted : exists (m : mnemonic) (seed standard : bytes),
  from_entropy (repeat 0 16) ChineseSimplified = Ok m
  /\ seed_new m [] = Ok seed /\ bip39_seed (m_phrase m) [] = standard /\ seed <> standard
  /\ unhex false (lit "a1734413cf79f2199fd32949de0020fdfb550ffb5f5d12cc92fd583c5a38fd744fbb13d3d61528b570b4d44a162f7535c8248484e20e8cba6331747c2a76f3a5") = Some seed
  /\ unhex false (lit "c015b86e4b208402bb0bdd0febb746708b869bb6e433cb227fd66d444f3ccdc360fee9ca9271014c2a684df380fcc40bd80a37eaa41a8061a52a18d319cdd899") = Some standard.
Proof. exact ChineseSeedThms.c23_seed_value_refuted. Qed.
Print Assumptions C23_seed_value_refuted.
Example C23_vector_example : exists (m : mnemonic) (seed : bytes),
  from_entropy (repeat 0 16) English = Ok m /\ seed_new m (lit "TREZOR") = Ok seed
  /\ unhex false (lit "c55257c360c07c72029aebc1b53c05ed0362ada38ead3e3e9efa3708e53495531f09a6987599d18264c1e1c92f2cf141630c7a3c4ab7c81b2f001698e7463b04") = Some seed.
Proof. exact ChineseSeedThms.c23_vector_example. Qed.
