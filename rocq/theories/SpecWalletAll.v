(** The way from a phrase to a key in all eight languages.
    Shared with the model, for the wallet: the three public functions it calls in turn. *)
From Coq Require Import String.
From Verif Require Import Outcome Bytes Str ModelBip39 SpecBip39 Secp ModelBip32 SpecBip32 SpecWallet SpecHash SpecUnicode SpecChain ModelLangs SpecLangs.
Open Scope N_scope.

(** As [wallet] in SpecWallet.v (src/lib.rs:38-48), with the features of the six further languages. *)
Definition wallet_all (phrase : str) (lang : language_all) (password : str) (p : path) : res wallet_error xprv :=
  let* m := map_err BadPhrase (from_phrase_all phrase lang) in
  let* seed := map_err BadPhrase (seed_new_all m password) in
  map_err BadKey (xprv_new_from_path seed p).

(** The words of a sentence with the entropy [ent] in the language [l]; see [bip39_words]. *)
Definition words_in (l : language_all) (ws : list str) (ent : bytes) : Prop :=
  bytes_ok ent /\ legal_entropy ent
  /\ exists d, is_sha2 fips_sha256 ent d /\ encodes_all l ws (bits_of_bytes ent ++ firstn (cs_bits ent) (bits_of_bytes d)).
(** The key at path [ps] of the wallet with the phrase [s] and the passphrase [password]; see [wallet_key]. *)
Definition wallet_key_in (l : language_all) (s password ps : str) (x : xprv) : Prop :=
  exists ws ws' ent seed m p, laid_out s ws /\ Forall2 is_nfkd ws ws' /\ words_in l ws' ent
    /\ bip39_seed_of ws' password seed /\ bip32_master seed m /\ path_text ps p /\ descends bip32_child m p x.
