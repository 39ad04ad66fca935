(** All word lists are the published ones C145.

    Statements only: every theorem is closed by the lemma of the same name (in lower case) in
    ConstLangsThms.v.  Generated by tools/gen_prop.py. *)
From Coq Require Import String.
From Verif Require Import Outcome Bytes Str ModelBip39 ModelLangs SpecLangs SpecHash SpecConst SpecConstLangs.
From Verif Require ConstLangsThms.
Open Scope N_scope.

(** ** C145. All eight word lists are the published ones.  For every language, also the six behind cargo
    features, the SHA-256 checksum of the word list that the code builds from the text file (every word
    followed by a line feed, in UTF-8) is the one of the file in the repository of BIP39. A list with another
    word in any place, or the same words in another order or another Unicode form, would need a collision of
    SHA-256. *)
Theorem C145_checksums : forall l : language_all,
  has_checksum (wordlist_all l) (list_checksum_all l) /\ has_checksum (published l) (list_checksum_all l).
Proof. exact ConstLangsThms.c145_checksums. Qed.
Print Assumptions C145_checksums.
(** No list with other words has the checksum, unless SHA-256 has a collision. *)
Theorem C145_pins : forall (l : language_all) (ws : list str), has_checksum ws (list_checksum_all l) ->
  Forall (fun w => ~ In 10 w) ws ->
  ws = wordlist_all l \/ exists a b d, a <> b /\ is_sha2 fips_sha256 a d /\ is_sha2 fips_sha256 b d.
Proof. exact ConstLangsThms.c145_pins. Qed.
Print Assumptions C145_pins.
Example C145_example : firstn 2 (wordlist_all French) = [lit "abaisser"; lit "abandon"]
  /\ has_checksum [lit "abaisser"; lit "abandon"] 0xcba719a909862196a99f6e9629b3f9588386cdbf50e390f4cc33f3a8311a6108.
Proof. exact ConstLangsThms.c145_example. Qed.
