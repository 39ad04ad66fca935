(** Work on phrases of any length C159.

    Statements only: every theorem is closed by the lemma of the same name (in lower case) in
    Cost39Thms.v.  Generated by tools/gen_prop.py. *)
From Coq Require Import String.
From Verif Require Import Outcome Bytes Str Nfkd ModelBip39 SpecBip39 ModelLangs SpecLangs ModelCost39.
From Verif Require Cost39Thms.
Open Scope N_scope.

(** ** C159. Reading a phrase stops after the 24 words a phrase can have.  Mnemonic::from_phrase and validate
    look up at most 24 words, whatever the text is. This is false: the number of words is checked after the
    loop, so for every n above 24 and every language there is a phrase of which n words are looked up and 11 n
    / 8 bytes are kept before it is refused. The work is still linear: every word is looked up once, up to and
    including the first unknown one, at most one block is hashed, and normalising makes a text at most
    eighteen times as long. *)
(** The counters change nothing. *)
Theorem C159_same_results : forall (s : str) (l : language_all),
  fst (phrase_to_entropy_count s l) = phrase_to_entropy_all s l /\ fst (from_phrase_count s l) = from_phrase_all s l.
Proof. exact Cost39Thms.c159_same_results. Qed.
Print Assumptions C159_same_results.
(** Exactly: every word is looked up, up to and including the first that is not in the list. *)
Theorem C159_all_words_looked_up : forall (s : str) (l : language_all), Forall (fun w => In w (published l)) (split_char 32 s) ->
  look_ups (snd (phrase_to_entropy_count s l)) = len (split_char 32 s).
Proof. exact Cost39Thms.c159_all_words_looked_up. Qed.
Print Assumptions C159_all_words_looked_up.
Theorem C159_up_to_the_first_unknown : forall (s : str) (l : language_all) (good : list str) (bad : str) (rest : list str),
  split_char 32 s = good ++ bad :: rest -> Forall (fun w => In w (published l)) good -> ~ In bad (published l) ->
  look_ups (snd (phrase_to_entropy_count s l)) = len good + 1 /\ phrase_to_entropy_all s l = Err InvalidWord.
Proof. exact Cost39Thms.c159_up_to_the_first_unknown. Qed.
Print Assumptions C159_up_to_the_first_unknown.
(** For every number above 24 there is a phrase of which so many words are looked up and kept before it is
    refused. *)
Theorem C159_long_phrases_read_in_full : forall (l : language_all) (n : N), 24 < n -> exists s : str,
  fst (from_phrase_count s l) = Err (InvalidWordLength n)
  /\ look_ups (snd (from_phrase_count s l)) = n /\ buffered (snd (from_phrase_count s l)) = 11 * n / 8.
Proof. exact Cost39Thms.c159_long_phrases_read_in_full. Qed.
Print Assumptions C159_long_phrases_read_in_full.
(** The claim that reading stops after the 24 words a phrase can have is false. *)
Theorem C159_stops_after_24_words_refuted : ~ (forall (s : str) (l : language_all), look_ups (snd (from_phrase_count s l)) <= 24).
Proof. exact Cost39Thms.c159_stops_after_24_words_refuted. Qed.
Print Assumptions C159_stops_after_24_words_refuted.
(** What is true: the work is linear, and nothing is hashed but one block. *)
Theorem C159_linear_work : forall (s : str) (l : language_all),
  look_ups (snd (phrase_to_entropy_count s l)) <= len s + 1 /\ blocks (snd (phrase_to_entropy_count s l)) <= 1.
Proof. exact Cost39Thms.c159_linear_work. Qed.
Print Assumptions C159_linear_work.
(** Normalising makes a text at most eighteen times as long. *)
Theorem C159_normalised_length : forall s : str, len (nfkd s) <= 18 * len s.
Proof. exact Cost39Thms.c159_normalised_length. Qed.
Print Assumptions C159_normalised_length.
Example C159_example : len (nfkd [0xFDFA]) = 18
  /\ snd (from_phrase_count (lit "zoo zoo zoo") (Compiled English)) = mkReading 3 4 0
  /\ snd (from_phrase_count (lit "zoo zoo nought zoo") (Compiled English)) = mkReading 3 0 0.
Proof. exact Cost39Thms.c159_example. Qed.
