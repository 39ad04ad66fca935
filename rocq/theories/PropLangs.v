(** All eight languages C120 - C129.

    Statements only: every theorem is closed by the lemma of the same name (in lower case) in
    LangThms.v.  Generated by tools/gen_prop.py. *)
From Coq Require Import String.
From Verif Require Import Outcome Bytes Str Nfkd ModelBip39 SpecBip39 ModelBuffers ModelLangs SpecLangs.
From Verif Require LangThms.
Import LangThms(ex_fr, ex_fr_entropy, ex_fr_word, ex_fr_normal, ex_twice, ex_twice_en, ex_twice_fr, ex_chinese, ex_chinese_entropy).
Open Scope N_scope.

(** ** C120. Phrases are BIP39 sentences in all eight languages.  With the features of the six further
    languages switched on: from_entropy and new give the BIP39 sentence of the entropy in the requested
    language, from_phrase accepts exactly the texts whose NFKD normalised words are a sentence and returns its
    entropy, all other texts are rejected with InvalidWord, InvalidWordLength or InvalidChecksum in this
    order, validate does the same for words separated by single spaces, every mnemonic is read back from its
    phrase, and nothing panics. For English and Simplified Chinese the results are those of the program
    without features. *)
Theorem C120_from_phrase : forall (s : str) (l : language_all),
  let ws := map nfkd (split_whitespace s) in
  match from_phrase_all s l with
  | Ok m => a_phrase m = spaced ws /\ a_lang m = l /\ sentence_all l ws (a_entropy m)
  | Err e => (ws = [] /\ e = InvalidWord) \/ (ws <> [] /\ faulty l ws e)
  | Panic => False
  end.
Proof. exact LangThms.c120_from_phrase. Qed.
Print Assumptions C120_from_phrase.
Theorem C120_validate : forall (s : str) (l : language_all),
  match validate_all s l with
  | Ok _ => exists ent, sentence_all l (split_char 32 s) ent
  | Err e => faulty l (split_char 32 s) e
  | Panic => False
  end.
Proof. exact LangThms.c120_validate. Qed.
Print Assumptions C120_validate.
Theorem C120_from_entropy : forall (ent : bytes) (l : language_all), bytes_ok ent -> len ent < 2 ^ 61 ->
  (legal_entropy ent /\ exists ws, from_entropy_all ent l = Ok (MnemonicAll (spaced ws) l ent) /\ sentence_all l ws ent)
  \/ (~ legal_entropy ent /\ from_entropy_all ent l = Err (InvalidKeysize (8 * len ent))).
Proof. exact LangThms.c120_from_entropy. Qed.
Print Assumptions C120_from_entropy.
Theorem C120_generated : forall (t : mnemonic_type) (l : language_all) (rng : nat -> N), (forall i, rng i < 256) ->
  let ent := map rng (seq 0 (N.to_nat (entropy_bits t / 8))) in
  exists ws, mnemonic_new_all t l rng = Ok (MnemonicAll (spaced ws) l ent) /\ sentence_all l ws ent
    /\ len ws = word_count t.
Proof. exact LangThms.c120_generated. Qed.
Print Assumptions C120_generated.
Theorem C120_round_trip : forall m : mnemonic_all, constructible_all m ->
  from_phrase_all (a_phrase m) (a_lang m) = Ok m /\ validate_all (a_phrase m) (a_lang m) = Ok tt
  /\ from_entropy_all (a_entropy m) (a_lang m) = Ok m.
Proof. exact LangThms.c120_round_trip. Qed.
Print Assumptions C120_round_trip.
(** For the two languages without a feature nothing else is computed. *)
Theorem C120_same_without_features :
  (forall s l, from_phrase_all s (Compiled l) = as_compiled (from_phrase s l))
  /\ (forall s l, validate_all s (Compiled l) = validate s l)
  /\ (forall ent l, from_entropy_all ent (Compiled l) = as_compiled (from_entropy ent l))
  /\ (forall t l rng, mnemonic_new_all t (Compiled l) rng = as_compiled (mnemonic_new t l rng)).
Proof. exact LangThms.c120_same_without_features. Qed.
Print Assumptions C120_same_without_features.
Example C120_example : constructible_all ex_fr /\ from_phrase_all (spaced (repeat ex_fr_word 12)) French = Ok ex_fr.
Proof. exact LangThms.c120_example. Qed.

(** ** C121. The eight word lists are sound and translate into each other.  Each list has 2048 different
    words, none empty, none with white space, all in form NFKD (so that from_phrase, which normalises, can
    find them). get_word and get_bits are inverse to each other and follow the order of the file. Two
    sentences, in whatever languages, have the same entropy exactly if their words have the same numbers. *)
Theorem C121_word_lists : forall l : language_all,
  length (published l) = 2048%nat /\ NoDup (published l)
  /\ (forall w, In w (published l) -> w <> [] /\ nfkd w = w /\ Forall (fun c => is_whitespace c = false) w).
Proof. exact LangThms.c121_word_lists. Qed.
Print Assumptions C121_word_lists.
Theorem C121_list_and_map : forall l : language_all,
  (forall i w, get_word (wordlist_all l) i = Ok w <-> nth_error (published l) (N.to_nat i) = Some w)
  /\ (forall i w, get_bits (wordmap_all l) w = Ok i <-> nth_error (published l) (N.to_nat i) = Some w)
  /\ (forall w, ~ In w (published l) -> get_bits (wordmap_all l) w = Err InvalidWord)
  /\ (forall i, 2048 <= i -> get_word (wordlist_all l) i = Panic).
Proof. exact LangThms.c121_list_and_map. Qed.
Print Assumptions C121_list_and_map.
(** The same entropy in two languages: the same word numbers, and conversely. *)
Theorem C121_translation : forall (l l' : language_all) (ent ent' : bytes) (ws ws' : list str),
  sentence_all l ws ent -> sentence_all l' ws' ent' ->
  (ent = ent' <-> exists idx, Forall2 (is_word_all l) idx ws /\ Forall2 (is_word_all l') idx ws').
Proof. exact LangThms.c121_translation. Qed.
Print Assumptions C121_translation.
Example C121_example : sentence_all French (repeat ex_fr_normal 12) ex_fr_entropy
  /\ exists ws, sentence_all Korean ws ex_fr_entropy.
Proof. exact LangThms.c121_example. Qed.

(** ** C122. Language codes are exact for all eight languages.  from_language_code gives a language exactly if
    the text is its code (en, zh-cn, zh-tw, fr, it, ja, ko, es) up to the case of ASCII letters; no two
    languages share a code. *)
Theorem C122_language_codes : forall (s : str) (l : language_all),
  from_language_code_all s = Some l <-> same_up_to_case s (code_of l).
Proof. exact LangThms.c122_language_codes. Qed.
Print Assumptions C122_language_codes.
Theorem C122_codes_differ : forall l l' : language_all, code_of l = code_of l' -> l = l'.
Proof. exact LangThms.c122_codes_differ. Qed.
Print Assumptions C122_codes_differ.
Example C122_example : from_language_code_all (lit "zH-tw") = Some ChineseTraditional /\ from_language_code_all (lit "pt") = None.
Proof. exact LangThms.c122_example. Qed.

(** ** C123. Prefix search is exact for Italian and Korean.  get_words_by_prefix(p) on the Italian and the
    Korean list returns all the words that start with p and no others, in list order, with any binary search
    that keeps the promise of the standard library. *)
Theorem C123_prefix_search : forall search, std_binary_search search -> forall (l : language_all) (p : str),
  l = Italian \/ l = Korean ->
  exists ws before after, get_words_by_prefix_with search (wordlist_all l) p = Ok ws
    /\ published l = before ++ ws ++ after
    /\ (forall w, In w ws <-> In w (published l) /\ exists t, w = p ++ t).
Proof. exact LangThms.c123_prefix_search. Qed.
Print Assumptions C123_prefix_search.
Example C123_example : get_words_by_prefix (wordlist_all Italian) (lit "zu") = Ok [lit "zucchero"; lit "zufolo"; lit "zulu"; lit "zuppa"].
Proof. exact LangThms.c123_example. Qed.

(** ** C124. Prefix search is exact for French, Japanese, Spanish and Traditional Chinese.
    get_words_by_prefix(p) on these lists returns all the words that start with p and no others. FALSE in each
    of the four: the lists are not in the order of their code points (accents), binary search misses words,
    and looking for the whole word finds nothing. What is returned is right in every language. *)
(** C124: false in each of the four languages. *)
Theorem C124_prefix_search_refuted : forall l : language_all, In l [ChineseTraditional; French; Japanese; Spanish] ->
  exists p : str, In p (published l) /\ get_words_by_prefix (wordlist_all l) p = Ok []
    /\ get_words_by_prefix_with binary_search_new (wordlist_all l) p = Ok [].
Proof. exact LangThms.c124_prefix_search_refuted. Qed.
Print Assumptions C124_prefix_search_refuted.
(** What is returned is at least right in every language.  Missing: that all words with the prefix are
    returned. *)
Theorem C124_prefix_search_partial : forall (search : list str -> str -> R (N + N)) (l : language_all) (p : str) (ws : list str),
  get_words_by_prefix_with search (wordlist_all l) p = Ok ws ->
  exists before after, published l = before ++ ws ++ after /\ forall w, In w ws -> exists t, w = p ++ t.
Proof. exact LangThms.c124_prefix_search_partial. Qed.
Print Assumptions C124_prefix_search_partial.
Example C124_example : get_words_by_prefix (wordlist_all Spanish) (lit "zur") = Ok [lit "zurdo"].
Proof. exact LangThms.c124_example. Qed.

(** ** C125. Language detection recovers the language in all eight languages.  Language::from_phrase of the
    phrase of a mnemonic is its language. FALSE with the features on: only English and Simplified Chinese are
    ever returned, so that no mnemonic of the six other languages is recognised. True for English and
    Simplified Chinese. *)
Theorem C125_what_is_detected : forall (s : str) (l : language_all),
  language_from_phrase_all s = Some l <->
  (l = Compiled English \/ l = Compiled ChineseSimplified)
  /\ exists w rest, laid_out s (w :: rest) /\ In w (published l).
Proof. exact LangThms.c125_what_is_detected. Qed.
Print Assumptions C125_what_is_detected.
(** Right for the languages without a feature.  Missing: the others. *)
Theorem C125_detection_partial : forall m : mnemonic_all, constructible_all m ->
  a_lang m = Compiled English \/ a_lang m = Compiled ChineseSimplified ->
  language_from_phrase_all (a_phrase m) = Some (a_lang m).
Proof. exact LangThms.c125_detection_partial. Qed.
Print Assumptions C125_detection_partial.
(** C125: false.  No mnemonic of the other languages is ever given its language. *)
Theorem C125_never_detected : forall m : mnemonic_all, constructible_all m ->
  a_lang m <> Compiled English -> a_lang m <> Compiled ChineseSimplified ->
  language_from_phrase_all (a_phrase m) <> Some (a_lang m).
Proof. exact LangThms.c125_never_detected. Qed.
Print Assumptions C125_never_detected.
Theorem C125_detection_refuted : exists m : mnemonic_all, constructible_all m /\ a_lang m = French
  /\ language_from_phrase_all (a_phrase m) = None.
Proof. exact LangThms.c125_detection_refuted. Qed.
Print Assumptions C125_detection_refuted.
Example C125_example : laid_out (a_phrase ex_fr) (repeat ex_fr_normal 12).
Proof. exact LangThms.c125_example. Qed.

(** ** C126. Building a phrase from entropy never moves the secret in all eight languages.  The capacity that
    join reserves is enough for the whole phrase. FALSE for French, Italian, Japanese, Korean and Spanish,
    whose words can be longer in UTF-8 than English ones; every Korean phrase is moved. True for English and
    both Chinese lists. In general the phrase is not moved exactly if it fits into 11 bytes for each complete
    group of 11 bits of the entropy without its first byte. *)
Theorem C126_when_it_moves : forall (l : language_all) (ent : bytes) (m : mnemonic_all), bytes_ok ent -> from_entropy_all ent l = Ok m ->
  exists b, from_entropy_buffer_all ent l = Ok b /\ buf_len b = len (utf8 (a_phrase m))
    /\ (buf_moves b = 0 <-> len (utf8 (a_phrase m)) <= reserved ent).
Proof. exact LangThms.c126_when_it_moves. Qed.
Print Assumptions C126_when_it_moves.
(** The languages whose words are short enough. *)
Theorem C126_phrase_buffer_partial : forall (l : language_all) (ent : bytes),
  In l [Compiled English; Compiled ChineseSimplified; ChineseTraditional] -> bytes_ok ent -> legal_entropy ent ->
  exists b, from_entropy_buffer_all ent l = Ok b /\ buf_moves b = 0.
Proof. exact LangThms.c126_phrase_buffer_partial. Qed.
Print Assumptions C126_phrase_buffer_partial.
(** Korean words are so long that every phrase is moved. *)
Theorem C126_korean_always_moves : forall ent : bytes, bytes_ok ent -> legal_entropy ent ->
  exists b, from_entropy_buffer_all ent Korean = Ok b /\ 0 < buf_moves b.
Proof. exact LangThms.c126_korean_always_moves. Qed.
Print Assumptions C126_korean_always_moves.
(** C126: false in each of the other languages. *)
Theorem C126_phrase_buffer_refuted : forall l : language_all, In l [French; Italian; Japanese; Korean; Spanish] ->
  exists (ent : bytes) (m : mnemonic_all) (b : buffer), bytes_ok ent /\ from_entropy_all ent l = Ok m
    /\ from_entropy_buffer_all ent l = Ok b /\ buf_moves b <> 0.
Proof. exact LangThms.c126_phrase_buffer_refuted. Qed.
Print Assumptions C126_phrase_buffer_refuted.
Example C126_example : from_entropy_all ex_fr_entropy French = Ok ex_fr /\ len (utf8 (a_phrase ex_fr)) = 155 /\ reserved ex_fr_entropy = 110.
Proof. exact LangThms.c126_example. Qed.

(** ** C127. Seeds follow BIP39 in every language but Simplified Chinese.  For a mnemonic of any language but
    Simplified Chinese, Seed::new is PBKDF2-HMAC-SHA512 of the NFKD phrase in UTF-8 with the salt mnemonic +
    NFKD passphrase and 2048 iterations. *)
Theorem C127_seeds : forall (m : mnemonic_all) (password : str), constructible_all m -> a_lang m <> Compiled ChineseSimplified ->
  seed_new_all m password = Ok (bip39_seed (a_phrase m) password).
Proof. exact LangThms.c127_seeds. Qed.
Print Assumptions C127_seeds.
Example C127_example : constructible_all ex_fr /\ a_lang ex_fr <> Compiled ChineseSimplified.
Proof. exact LangThms.c127_example. Qed.

(** ** C128. Four letters identify a word in every language but Korean.  Two words of one list whose first
    four letters agree when accents are left out are the same word; in Korean there are two words for which
    this fails. *)
Theorem C128_four_letters_identify : forall (l : language_all) (w w' : str), l <> Korean ->
  In w (published l) -> In w' (published l) ->
  firstn 4 (without_accents w) = firstn 4 (without_accents w') -> w = w'.
Proof. exact LangThms.c128_four_letters_identify. Qed.
Print Assumptions C128_four_letters_identify.
(** Korean words are not told apart by four letters (jamo). *)
Theorem C128_korean_needs_more : exists w w' : str, In w (published Korean) /\ In w' (published Korean) /\ w <> w'
  /\ firstn 4 (without_accents w) = firstn 4 (without_accents w').
Proof. exact LangThms.c128_korean_needs_more. Qed.
Print Assumptions C128_korean_needs_more.
Example C128_example : In ex_fr_normal (published French) /\ firstn 4 (without_accents ex_fr_normal) = lit "bene".
Proof. exact LangThms.c128_example. Qed.

(** ** C129. A phrase is valid in one language only.  from_phrase accepts no text in two different languages.
    FALSE: some phrases are valid in English and in French (always with different entropies), and some in both
    Chinese lists (always with the same entropy, but with a different password for PBKDF2). True for all other
    pairs of languages. *)
(** Right for all other pairs.  Missing: English and French, the two Chinese lists. *)
Theorem C129_one_language_partial : forall (s : str) (l l' : language_all) (m m' : mnemonic_all),
  from_phrase_all s l = Ok m -> from_phrase_all s l' = Ok m' -> related l l'.
Proof. exact LangThms.c129_one_language_partial. Qed.
Print Assumptions C129_one_language_partial.
(** A phrase that is valid in both Chinese lists has the same entropy and text in both, but another password
    for PBKDF2. *)
Theorem C129_chinese : forall (s : str) (m m' : mnemonic_all),
  from_phrase_all s (Compiled ChineseSimplified) = Ok m -> from_phrase_all s ChineseTraditional = Ok m' ->
  a_entropy m = a_entropy m' /\ a_phrase m = a_phrase m'
  /\ mnemonic_as_bytes_all m' = Ok (utf8 (a_phrase m')) /\ mnemonic_as_bytes_all m <> mnemonic_as_bytes_all m'.
Proof. exact LangThms.c129_chinese. Qed.
Print Assumptions C129_chinese.
(** A phrase that is valid in English and in French stands for two different entropies. *)
Theorem C129_english_french : forall (s : str) (m m' : mnemonic_all),
  from_phrase_all s (Compiled English) = Ok m -> from_phrase_all s French = Ok m' -> a_entropy m <> a_entropy m'.
Proof. exact LangThms.c129_english_french. Qed.
Print Assumptions C129_english_french.
(** C129: false. *)
Theorem C129_one_language_refuted :
  (from_phrase_all ex_twice (Compiled English) = Ok (MnemonicAll ex_twice (Compiled English) ex_twice_en)
   /\ from_phrase_all ex_twice French = Ok (MnemonicAll ex_twice French ex_twice_fr))
  /\ (from_phrase_all ex_chinese (Compiled ChineseSimplified) = Ok (MnemonicAll ex_chinese (Compiled ChineseSimplified) ex_chinese_entropy)
      /\ from_phrase_all ex_chinese ChineseTraditional = Ok (MnemonicAll ex_chinese ChineseTraditional ex_chinese_entropy)).
Proof. exact LangThms.c129_one_language_refuted. Qed.
Print Assumptions C129_one_language_refuted.
