(** Wallets in all languages C155.

    Statements only: every theorem is closed by the lemma of the same name (in lower case) in
    WalletThms.v.  Generated by tools/gen_prop.py. *)
From Coq Require Import String.
From Verif Require Import Outcome Bytes Str Nfkd ModelBip39 SpecBip39 ModelBip32 SpecBip32 SpecUnicode SpecChain ModelLangs SpecLangs SpecWalletAll.
From Verif Require WalletThms.
Import LangThms(ex_fr_word, ex_fr_normal, ex_fr_entropy).
Open Scope N_scope.

(** ** C155. A wallet in every language but Simplified Chinese is the one of BIP39 and BIP32, from the bits
    up.  In English, French, Italian, Japanese, Korean, Spanish and Traditional Chinese a phrase, a passphrase
    and the text of a path lead to a key if and only if the standards define it, and then to this key: words
    laid out in the phrase, form KD, the published word list and the SHA-256 checksum, UTF-8, PBKDF2 with
    HMAC-SHA512, the master key, the children of the path. (For Simplified Chinese see C23.) *)
(** The whole way from the phrase, the passphrase and the text of the path to the key. *)
Theorem C155_wallet_from_standards : forall (l : language_all) (s pw ps : str) (x : xprv), l <> Compiled ChineseSimplified ->
  Forall is_scalar pw -> len (nfkd pw) < 2 ^ 56 ->
  ((exists p, path_from_str ps = Ok p /\ wallet_all s l pw p = Ok x) <-> wallet_key_in l s pw ps x).
Proof. exact WalletThms.c155_wallet_from_standards. Qed.
Print Assumptions C155_wallet_from_standards.
(** There is at most one such key. *)
Theorem C155_key_determined : forall (l : language_all) (s pw ps : str) (x y : xprv), l <> Compiled ChineseSimplified ->
  Forall is_scalar pw -> len (nfkd pw) < 2 ^ 56 -> wallet_key_in l s pw ps x -> wallet_key_in l s pw ps y -> x = y.
Proof. exact WalletThms.c155_key_determined. Qed.
Print Assumptions C155_key_determined.
(** Words with their entropy and a seed: twelve French words, with and without composed accents. *)
Example C155_example : Forall2 is_nfkd (repeat ex_fr_word 12) (repeat ex_fr_normal 12)
  /\ words_in French (repeat ex_fr_normal 12) ex_fr_entropy
  /\ exists seed, bip39_seed_of (repeat ex_fr_normal 12) (lit "TREZOR") seed.
Proof. exact WalletThms.c155_example. Qed.
