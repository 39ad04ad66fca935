(** BIP39 properties C01 - C27.

    Statements only: every theorem is closed by the lemma of the same name (in lower case) in
    Bip39Thms.v.  Generated by tools/gen_prop.py. *)
From Coq Require Import String.
From Verif Require Import Outcome Bytes Str Hash Nfkd ModelBip39 SpecBip39.
From Verif Require Bip39Thms.
Import Bip39Thms(ex_entropy, ex_phrase, ex_mnemonic).
Open Scope N_scope.

(** ** C01. Entropy survives the trip through a phrase.  For every language and every entropy that
    Mnemonic::from_entropy accepts, Mnemonic::from_phrase applied to the resulting phrase succeeds, and the
    mnemonic it returns has the same entropy, the same phrase and the same language. *)
Theorem C01_entropy_phrase_entropy : forall (lang : language) (ent : bytes) (m : mnemonic),
  bytes_ok ent -> from_entropy ent lang = Ok m ->
  from_phrase (m_phrase m) lang = Ok m /\ m_entropy m = ent /\ m_lang m = lang.
Proof. exact Bip39Thms.c01_entropy_phrase_entropy. Qed.
Print Assumptions C01_entropy_phrase_entropy.
Example C01_example : bytes_ok ex_entropy /\ from_entropy ex_entropy English = Ok ex_mnemonic.
Proof. exact Bip39Thms.c01_example. Qed.

(** ** C02. A phrase survives the trip through its entropy.  Whenever Mnemonic::from_phrase accepts a phrase,
    rebuilding a mnemonic from the returned entropy and language gives exactly the phrase stored in the
    accepted mnemonic, so no two different accepted phrases share an entropy. *)
Theorem C02_phrase_entropy_phrase : forall (lang : language) (s : str) (m : mnemonic),
  from_phrase s lang = Ok m ->
  from_entropy (m_entropy m) lang = Ok m
  /\ (forall s' m', from_phrase s' lang = Ok m' -> m_entropy m' = m_entropy m -> m_phrase m' = m_phrase m).
Proof. exact Bip39Thms.c02_phrase_entropy_phrase. Qed.
Print Assumptions C02_phrase_entropy_phrase.
Example C02_example : from_phrase ex_phrase English = Ok ex_mnemonic.
Proof. exact Bip39Thms.c02_example. Qed.

(** ** C03. from_entropy accepts exactly the five BIP39 sizes.  Mnemonic::from_entropy returns a mnemonic
    whose entropy() is the given bytes iff the slice is 16, 20, 24, 28 or 32 bytes long; for every other
    length it returns InvalidKeysize(8*len) and never panics. *)
Theorem C03_from_entropy_sizes : forall (ent : bytes) (lang : language),
  bytes_ok ent -> len ent < 2 ^ 61 ->
  (In (length ent) [16; 20; 24; 28; 32]%nat -> exists m, from_entropy ent lang = Ok m /\ m_entropy m = ent)
  /\ (~ In (length ent) [16; 20; 24; 28; 32]%nat -> from_entropy ent lang = Err (InvalidKeysize (8 * len ent))).
Proof. exact Bip39Thms.c03_from_entropy_sizes. Qed.
Print Assumptions C03_from_entropy_sizes.
Example C03_example : (bytes_ok ex_entropy /\ len ex_entropy < 2 ^ 61 /\ In (length ex_entropy) [16; 20; 24; 28; 32]%nat)
  /\ from_entropy (1 :: ex_entropy) English = Err (InvalidKeysize 136).
Proof. exact Bip39Thms.c03_example. Qed.

(** ** C04. from_phrase accepts exactly the BIP39 sentences.  Mnemonic::from_phrase(s, lang) succeeds iff the
    NFKD-normalised whitespace-separated words of s are all in the language's list, their number is 12, 15,
    18, 21 or 24, and the trailing ENT/32 bits of the concatenated 11-bit indices equal the leading ENT/32
    bits of SHA-256 of the leading ENT bits; the entropy returned is those leading ENT bits. *)
Theorem C04_from_phrase_accepts_sentences : forall (s : str) (lang : language) (m : mnemonic),
  from_phrase s lang = Ok m <->
  bip39_sentence lang (map nfkd (split_whitespace s)) (m_entropy m)
  /\ m_phrase m = spaced (map nfkd (split_whitespace s)) /\ m_lang m = lang.
Proof. exact Bip39Thms.c04_from_phrase_accepts_sentences. Qed.
Print Assumptions C04_from_phrase_accepts_sentences.
Example C04_example : bip39_sentence English (map nfkd (split_whitespace ex_phrase)) (m_entropy ex_mnemonic).
Proof. exact Bip39Thms.c04_example. Qed.

(** ** C05. Phrase has the right shape.  The phrase of every mnemonic built from entropy or generated at
    random consists of exactly 12/15/18/21/24 words for 16/20/24/28/32 bytes of entropy, every word is in the
    language's list, and words are separated by single spaces with none at the ends. *)
Theorem C05_phrase_shape : forall m : mnemonic, constructible m ->
  exists ws, m_phrase m = spaced ws
    /\ Forall (fun w => In w (bip39_list (m_lang m)) /\ w <> [] /\ Forall (fun c => is_whitespace c = false) w) ws
    /\ In (length (m_entropy m), length ws) [(16, 12); (20, 15); (24, 18); (28, 21); (32, 24)]%nat.
Proof. exact Bip39Thms.c05_phrase_shape. Qed.
Print Assumptions C05_phrase_shape.
Example C05_example : constructible ex_mnemonic.
Proof. exact Bip39Thms.c05_example. Qed.

(** ** C06. Phrase words are the BIP39 encoding of the entropy.  Word number i of the phrase is the list entry
    whose index is the i-th 11-bit group of the bit string (entropy followed by the first ENT/32 bits of its
    SHA-256). *)
Theorem C06_words_are_bip39_groups : forall m : mnemonic, constructible m ->
  length (split_char 32 (m_phrase m)) = ms_words (m_entropy m)
  /\ forall i : nat, (i < ms_words (m_entropy m))%nat ->
     exists w, nth_error (split_char 32 (m_phrase m)) i = Some w
       /\ nth_error (bip39_list (m_lang m))
            (N.to_nat (val_of_bits (firstn 11 (skipn (11 * i) (with_checksum (m_entropy m)))))) = Some w.
Proof. exact Bip39Thms.c06_words_are_bip39_groups. Qed.
Print Assumptions C06_words_are_bip39_groups.
Example C06_example : constructible ex_mnemonic /\ (ms_words (m_entropy ex_mnemonic) = 12)%nat
  /\ nth_error (split_char 32 (m_phrase ex_mnemonic)) 3 = Some (lit "insane").
Proof. exact Bip39Thms.c06_example. Qed.

(** ** C07. Generated mnemonics are valid and of the requested strength.  For every random byte source,
    Mnemonic::new(t, lang) yields a mnemonic with t.entropy_bits() bits of entropy, equal to the bytes drawn,
    t.word_count() words, and a phrase that from_phrase and validate accept in that language. *)
Theorem C07_new_is_valid : forall (t : mnemonic_type) (lang : language) (rng : nat -> N),
  (forall i, rng i < 256) ->
  exists m, mnemonic_new t lang rng = Ok m
    /\ m_entropy m = map rng (seq 0 (N.to_nat (entropy_bits t / 8)))
    /\ 8 * len (m_entropy m) = entropy_bits t
    /\ m_lang m = lang
    /\ len (split_char 32 (m_phrase m)) = word_count t
    /\ from_phrase (m_phrase m) lang = Ok m
    /\ validate (m_phrase m) lang = Ok tt.
Proof. exact Bip39Thms.c07_new_is_valid. Qed.
Print Assumptions C07_new_is_valid.
Example C07_example : forall i : nat, nth i ex_entropy 7 < 256.
Proof. exact Bip39Thms.c07_example. Qed.

(** ** C08. Different entropies never share a phrase.  Within one language, two different legal entropies (of
    the same or different length) produce different phrases. *)
Theorem C08_phrases_injective : forall (lang : language) (e1 e2 : bytes) (m1 m2 : mnemonic),
  bytes_ok e1 -> bytes_ok e2 -> from_entropy e1 lang = Ok m1 -> from_entropy e2 lang = Ok m2 ->
  e1 <> e2 -> m_phrase m1 <> m_phrase m2.
Proof. exact Bip39Thms.c08_phrases_injective. Qed.
Print Assumptions C08_phrases_injective.
Example C08_example : exists m1 m2, from_entropy ex_entropy English = Ok m1
  /\ from_entropy (ex_entropy ++ ex_entropy) English = Ok m2 /\ ex_entropy <> ex_entropy ++ ex_entropy.
Proof. exact Bip39Thms.c08_example. Qed.

(** ** C09. A wrong checksum is always rejected.  For every entropy and language, of all the ways to fill the
    checksum bits of the last word exactly one is accepted by from_phrase; each of the others is rejected with
    InvalidChecksum. *)
Theorem C09_wrong_checksum_rejected : forall (lang : language) (ent : bytes) (cs : list bool) (ws : list str),
  bytes_ok ent -> legal_entropy ent -> length cs = cs_bits ent -> encodes lang ws (bits_of_bytes ent ++ cs) ->
  (cs = checksum_of ent -> from_phrase (spaced ws) lang = Ok (Mnemonic (spaced ws) lang ent))
  /\ (cs <> checksum_of ent -> from_phrase (spaced ws) lang = Err InvalidChecksum).
Proof. exact Bip39Thms.c09_wrong_checksum_rejected. Qed.
Print Assumptions C09_wrong_checksum_rejected.
Theorem C09_every_filling_is_a_phrase : forall (lang : language) (ent : bytes) (cs : list bool),
  legal_entropy ent -> length cs = cs_bits ent ->
  exists ws, encodes lang ws (bits_of_bytes ent ++ cs).
Proof. exact Bip39Thms.c09_every_filling_is_a_phrase. Qed.
Print Assumptions C09_every_filling_is_a_phrase.
Example C09_example : legal_entropy ex_entropy /\ length [false; false; true; true] = cs_bits ex_entropy
  /\ [false; false; true; true] <> checksum_of ex_entropy.
Proof. exact Bip39Thms.c09_example. Qed.

(** ** C10. Phrase parsing ignores spacing.  Mnemonic::from_phrase depends on its input only through the
    sequence of whitespace-separated words: adding, removing or replacing runs of (Unicode) white space
    between or around words never changes the result. *)
Theorem C10_spacing_ignored : forall (lang : language) (ws : list str) (s1 s2 : str),
  laid_out s1 ws -> laid_out s2 ws -> from_phrase s1 lang = from_phrase s2 lang.
Proof. exact Bip39Thms.c10_spacing_ignored. Qed.
Print Assumptions C10_spacing_ignored.
Theorem C10_every_text_has_a_layout : forall s : str, exists! ws, laid_out s ws.
Proof. exact Bip39Thms.c10_every_text_has_a_layout. Qed.
Print Assumptions C10_every_text_has_a_layout.
Example C10_example : laid_out (lit "  zoo 	 abandon") [lit "zoo"; lit "abandon"] /\ laid_out (lit "zoo abandon ") [lit "zoo"; lit "abandon"].
Proof. exact Bip39Thms.c10_example. Qed.

(** ** C11. validate agrees with from_phrase on stored phrases.  validate(m.phrase(), m.language()) succeeds
    for every mnemonic that can be built, and whenever validate accepts a string, from_phrase accepts it too
    and keeps it unchanged. *)
Theorem C11_validate_agrees : 
  (forall m : mnemonic, constructible m -> validate (m_phrase m) (m_lang m) = Ok tt)
  /\ (forall (s : str) (lang : language), validate s lang = Ok tt ->
        exists m, from_phrase s lang = Ok m /\ m_phrase m = s).
Proof. exact Bip39Thms.c11_validate_agrees. Qed.
Print Assumptions C11_validate_agrees.
Example C11_example : validate ex_phrase English = Ok tt.
Proof. exact Bip39Thms.c11_example. Qed.

(** ** C12. validate accepts whatever from_phrase accepts.  validate(s, lang) succeeds for every s for which
    from_phrase(s, lang) succeeds. *)
(** C12: false.  A leading space is enough. *)
Theorem C12_validate_accepts_less : forall m : mnemonic, constructible m ->
  from_phrase (32 :: m_phrase m) (m_lang m) = Ok m /\ validate (32 :: m_phrase m) (m_lang m) = Err InvalidWord.
Proof. exact Bip39Thms.c12_validate_accepts_less. Qed.
Print Assumptions C12_validate_accepts_less.
Theorem C12_validate_accepts_all_refuted :
  exists (s : str) (lang : language) (m : mnemonic), from_phrase s lang = Ok m /\ validate s lang <> Ok tt.
Proof. exact Bip39Thms.c12_validate_accepts_all_refuted. Qed.
Print Assumptions C12_validate_accepts_all_refuted.
Example C12_example : from_phrase (32 :: ex_phrase) English = Ok ex_mnemonic /\ validate (32 :: ex_phrase) English = Err InvalidWord.
Proof. exact Bip39Thms.c12_example. Qed.

(** ** C13. Phrase errors are reported in a fixed order.  When from_phrase or validate fails, the error is
    InvalidWord if some word is not in the list (or, for from_phrase, if there is no word at all), otherwise
    InvalidWordLength(n) with n the true number of words if n is not a legal count, otherwise InvalidChecksum;
    no other error and no panic occurs. *)
Theorem C13_error_order_from_phrase : forall (s : str) (lang : language),
  let ws := map nfkd (split_whitespace s) in
  match from_phrase s lang with
  | Ok _ => all_in_list lang ws /\ legal_count (length ws) /\ ~ checksum_mismatch lang ws
  | Err InvalidWord => ws = [] \/ ~ all_in_list lang ws
  | Err (InvalidWordLength n) => all_in_list lang ws /\ n = len ws /\ ~ legal_count (length ws)
  | Err InvalidChecksum => all_in_list lang ws /\ legal_count (length ws) /\ checksum_mismatch lang ws
  | Err (InvalidKeysize _) => False
  | Err (InvalidEntropyLength _ _) => False
  | Panic => False
  end.
Proof. exact Bip39Thms.c13_error_order_from_phrase. Qed.
Print Assumptions C13_error_order_from_phrase.
Theorem C13_error_order_validate : forall (s : str) (lang : language),
  let ws := split_char 32 s in
  match validate s lang with
  | Ok tt => all_in_list lang ws /\ legal_count (length ws) /\ ~ checksum_mismatch lang ws
  | Err InvalidWord => ~ all_in_list lang ws
  | Err (InvalidWordLength n) => all_in_list lang ws /\ n = len ws /\ ~ legal_count (length ws)
  | Err InvalidChecksum => all_in_list lang ws /\ legal_count (length ws) /\ checksum_mismatch lang ws
  | Err (InvalidKeysize _) => False
  | Err (InvalidEntropyLength _ _) => False
  | Panic => False
  end.
Proof. exact Bip39Thms.c13_error_order_validate. Qed.
Print Assumptions C13_error_order_validate.
Example C13_example : from_phrase (lit "zoo zoo") English = Err (InvalidWordLength 2)
  /\ from_phrase (lit "zoo zooo zoo") English = Err InvalidWord /\ from_phrase (lit " ") English = Err InvalidWord.
Proof. exact Bip39Thms.c13_example. Qed.

(** ** C14. BIP39 entry points never panic.  from_phrase, validate, from_entropy, new,
    MnemonicType::for_phrase and Language::from_phrase return normally for every input: every index is in
    bounds, no arithmetic overflows, no shift amount is out of range and every debug assertion holds. *)
Theorem C14_bip39_no_panic : 
  (forall s l, from_phrase s l <> Panic) /\ (forall s l, validate s l <> Panic)
  /\ (forall ent l, bytes_ok ent -> len ent < 2 ^ 61 -> from_entropy ent l <> Panic)
  /\ (forall t l rng, (forall i, rng i < 256) -> mnemonic_new t l rng <> Panic)
  /\ (forall s, for_phrase s <> Panic)
  /\ (forall n, for_word_count n <> Panic) /\ (forall n, for_key_size n <> Panic)
  /\ (forall m pw, constructible m -> seed_new m pw <> Panic)
  /\ (forall l w, get_bits (wordmap_of l) w <> Panic)
  /\ (forall l i, i < 2048 -> get_word (wordlist l) i <> Panic)
  /\ (forall l p, get_words_by_prefix (wordlist l) p <> Panic).
Proof. exact Bip39Thms.c14_bip39_no_panic. Qed.
Print Assumptions C14_bip39_no_panic.
Example C14_example : bytes_ok (repeat 7 1000) /\ len (repeat 7 1000) < 2 ^ 61.
Proof. exact Bip39Thms.c14_example. Qed.

(** ** C15. The mnemonic type table is coherent.  For every mnemonic type: total bits = entropy bits +
    checksum bits = 11 * words, entropy bits = 32 * checksum bits; for_word_count and for_key_size invert
    word_count and entropy_bits, and fail with InvalidWordLength(n) / InvalidKeysize(n) on every other number.
    *)
Theorem C15_type_table : 
  (forall t, total_bits t = entropy_bits t + checksum_bits t /\ total_bits t = 11 * word_count t
             /\ entropy_bits t = 32 * checksum_bits t /\ In (word_count t) [12; 15; 18; 21; 24])
  /\ (forall n t, for_word_count n = Ok t <-> word_count t = n)
  /\ (forall n t, for_key_size n = Ok t <-> entropy_bits t = n)
  /\ (forall n, (forall t, word_count t <> n) -> for_word_count n = Err (InvalidWordLength n))
  /\ (forall n, (forall t, entropy_bits t <> n) -> for_key_size n = Err (InvalidKeysize n))
  /\ map (fun t => (entropy_bits t, checksum_bits t, word_count t)) [Words12; Words15; Words18; Words21; Words24]
     = [(128, 4, 12); (160, 5, 15); (192, 6, 18); (224, 7, 21); (256, 8, 24)]
  /\ mnemonic_type_default = Words12.
Proof. exact Bip39Thms.c15_type_table. Qed.
Print Assumptions C15_type_table.
Example C15_example : forall t, word_count t <> 13.
Proof. exact Bip39Thms.c15_example. Qed.

(** ** C16. for_phrase classifies by space count.  MnemonicType::for_phrase(s) returns the type with
    word_count equal to one plus the number of U+0020 characters in s, and InvalidWordLength otherwise; on the
    phrase of any constructible mnemonic it returns the type matching its entropy. *)
Theorem C16_for_phrase : 
  (forall (s : str) (t : mnemonic_type),
     for_phrase s = Ok t <-> word_count t = 1 + N.of_nat (count_occ N.eq_dec s 32))
  /\ (forall s, (forall t, word_count t <> 1 + N.of_nat (count_occ N.eq_dec s 32)) ->
        for_phrase s = Err (InvalidWordLength (1 + N.of_nat (count_occ N.eq_dec s 32))))
  /\ (forall m, constructible m -> exists t, for_phrase (m_phrase m) = Ok t /\ entropy_bits t = 8 * len (m_entropy m)).
Proof. exact Bip39Thms.c16_for_phrase. Qed.
Print Assumptions C16_for_phrase.
Example C16_example : for_phrase (lit "a  b c d e f g h i j k") = Ok Words12.
Proof. exact Bip39Thms.c16_example. Qed.

(** ** C17. Word list and word map are inverse.  In each language every 11-bit value has its own word,
    get_word and get_bits are inverse to each other, get_bits rejects every string that is not in the list,
    and get_word panics for values of 2048 and above. *)
Theorem C17_wordlist_wordmap_inverse : forall lang : language,
  length (wordlist lang) = 2048%nat
  /\ (forall i, i < 2048 -> exists w, get_word (wordlist lang) i = Ok w /\ get_bits (wordmap_of lang) w = Ok i)
  /\ (forall w i, get_bits (wordmap_of lang) w = Ok i -> i < 2048 /\ get_word (wordlist lang) i = Ok w)
  /\ (forall w, ~ In w (bip39_list lang) -> get_bits (wordmap_of lang) w = Err InvalidWord)
  /\ (forall i, 2048 <= i -> get_word (wordlist lang) i = Panic)
  /\ (forall i w, get_word (wordlist lang) i = Ok w <-> nth_error (bip39_list lang) (N.to_nat i) = Some w).
Proof. exact Bip39Thms.c17_wordlist_wordmap_inverse. Qed.
Print Assumptions C17_wordlist_wordmap_inverse.
Example C17_example : get_word (wordlist English) 2047 = Ok (lit "zoo") /\ get_bits (wordmap_of English) (lit "zoo") = Ok 2047.
Proof. exact Bip39Thms.c17_example. Qed.

(** ** C18. Prefix search is exact for English.  wordlist().get_words_by_prefix(p) on the English list returns
    all the words that start with p and no others, in list order. *)
(** Any search that keeps the promise of the standard library will do, ... *)
Theorem C18_prefix_search_any : forall search, std_binary_search search -> forall p : str,
  exists ws before after, get_words_by_prefix_with search (wordlist English) p = Ok ws
    /\ bip39_list English = before ++ ws ++ after
    /\ (forall w, In w ws <-> In w (bip39_list English) /\ exists t, w = p ++ t).
Proof. exact Bip39Thms.c18_prefix_search_any. Qed.
Print Assumptions C18_prefix_search_any.
(** ... such as the two implementations it has had since Rust 1.52. *)
Theorem C18_searches_conform : std_binary_search binary_search /\ std_binary_search binary_search_new.
Proof. exact Bip39Thms.c18_searches_conform. Qed.
Print Assumptions C18_searches_conform.
Theorem C18_prefix_search_english : forall p : str,
  exists ws before after, get_words_by_prefix (wordlist English) p = Ok ws
    /\ bip39_list English = before ++ ws ++ after
    /\ (forall w, In w ws <-> In w (bip39_list English) /\ exists t, w = p ++ t).
Proof. exact Bip39Thms.c18_prefix_search_english. Qed.
Print Assumptions C18_prefix_search_english.
Example C18_example : get_words_by_prefix (wordlist English) (lit "woo") = Ok [lit "wood"; lit "wool"]
  /\ get_words_by_prefix_with binary_search_new (wordlist English) (lit "woo") = Ok [lit "wood"; lit "wool"].
Proof. exact Bip39Thms.c18_example. Qed.

(** ** C19. Prefix search is exact for Simplified Chinese.  wordlist().get_words_by_prefix(p) on the
    Simplified Chinese list returns all the words that start with p and no others. *)
(** C19: false; for instance the very first word of the list is not found. *)
Theorem C19_prefix_search_chinese_refuted : exists p : str,
  In p (bip39_list ChineseSimplified) /\ get_words_by_prefix (wordlist ChineseSimplified) p = Ok []
  /\ get_words_by_prefix_with binary_search_new (wordlist ChineseSimplified) p = Ok [].
Proof. exact Bip39Thms.c19_prefix_search_chinese_refuted. Qed.
Print Assumptions C19_prefix_search_chinese_refuted.
(** What is returned is at least right: consecutive words of the list, all with the prefix.  Missing: that
    all words with the prefix are returned. *)
Theorem C19_prefix_search_partial : forall (search : list str -> str -> R (N + N)) (lang : language) (p : str) (ws : list str),
  get_words_by_prefix_with search (wordlist lang) p = Ok ws ->
  exists before after, bip39_list lang = before ++ ws ++ after /\ forall w, In w ws -> exists t, w = p ++ t.
Proof. exact Bip39Thms.c19_prefix_search_partial. Qed.
Print Assumptions C19_prefix_search_partial.
Example C19_example : get_words_by_prefix (wordlist ChineseSimplified) [0x719F] = Ok [[0x719F]].
Proof. exact Bip39Thms.c19_example. Qed.

(** ** C20. Language codes are recognised regardless of case.  Language::from_language_code(s) is English iff
    s equals en up to ASCII case, ChineseSimplified iff s equals zh-cn up to ASCII case, and None otherwise.
    The default language is English, the one of code en. *)
Theorem C20_language_codes : forall s : str,
  (from_language_code s = Some English <-> same_up_to_case s (lit "en"))
  /\ (from_language_code s = Some ChineseSimplified <-> same_up_to_case s (lit "zh-cn"))
  /\ (from_language_code s = None <-> ~ same_up_to_case s (lit "en") /\ ~ same_up_to_case s (lit "zh-cn")).
Proof. exact Bip39Thms.c20_language_codes. Qed.
Print Assumptions C20_language_codes.
Theorem C20_default_language : language_default = English /\ forall s, from_language_code s = Some language_default <-> same_up_to_case s (lit "en").
Proof. exact Bip39Thms.c20_default_language. Qed.
Print Assumptions C20_default_language.
Example C20_example : same_up_to_case (lit "Zh-CN") (lit "zh-cn").
Proof. exact Bip39Thms.c20_example. Qed.

(** ** C21. Language detection recovers the language of a mnemonic.  Language::from_phrase applied to the
    phrase of any constructible mnemonic returns that mnemonic's language; it returns None iff the first word
    is in neither list or there is no word. *)
Theorem C21_language_detection :
  (forall m, constructible m -> language_from_phrase (m_phrase m) = Some (m_lang m))
  /\ (forall (s : str) (l : language), language_from_phrase s = Some l <->
        exists w rest, laid_out s (w :: rest) /\ In w (bip39_list l)).
Proof. exact Bip39Thms.c21_language_detection. Qed.
Print Assumptions C21_language_detection.
Example C21_example : laid_out [0x3000; 0x7684; 32; 0x7684] [[0x7684]; [0x7684]].
Proof. exact Bip39Thms.c21_example. Qed.

(** ** C22. Seeds follow BIP39 for English.  For an English mnemonic, Seed::new(m, pw).as_bytes() is
    PBKDF2-HMAC-SHA512 with the UTF-8 phrase as password, the UTF-8 of NFKD(''mnemonic'' + pw) as salt, 2048
    iterations and 64 bytes of output. *)
Theorem C22_seed_english : forall (m : mnemonic) (password : str),
  constructible m -> m_lang m = English -> seed_new m password = Ok (bip39_seed (m_phrase m) password).
Proof. exact Bip39Thms.c22_seed_english. Qed.
Print Assumptions C22_seed_english.
Example C22_example : constructible ex_mnemonic /\ m_lang ex_mnemonic = English.
Proof. exact Bip39Thms.c22_example. Qed.

(** ** C23. Seeds follow BIP39 for Simplified Chinese.  For a Simplified Chinese mnemonic, Seed::new uses the
    UTF-8 bytes of the NFKD phrase as the PBKDF2 password, as BIP39 requires, so that the seed equals the one
    other BIP39 wallets compute. *)
Theorem C23_seed_chinese_partial : forall (m : mnemonic) (password : str),
  constructible m -> m_lang m = ChineseSimplified ->
  exists g, gb18030 (m_phrase m) = Some g
    /\ seed_new m password = Ok (pbkdf2_t1 (hmac_sha512 g) (utf8 (lit "mnemonic") ++ utf8 (nfkd password)) 2048).
Proof. exact Bip39Thms.c23_seed_chinese_partial. Qed.
Print Assumptions C23_seed_chinese_partial.
Theorem C23_kdf_password_differs : forall (m : mnemonic) (g : bytes),
  constructible m -> m_lang m = ChineseSimplified -> mnemonic_as_bytes m = Ok g ->
  g <> utf8 (nfkd (m_phrase m)).
Proof. exact Bip39Thms.c23_kdf_password_differs. Qed.
Print Assumptions C23_kdf_password_differs.
(** Hence whatever key-derivation function is put in the place of PBKDF2, if it separates passwords then
    the seeds of every Chinese mnemonic are wrong. *)
Theorem C23_seed_chinese_refuted : exists m g,
  constructible m /\ m_lang m = ChineseSimplified /\ mnemonic_as_bytes m = Ok g
  /\ (forall password, seed_new m password = Ok (bip39_pbkdf2 g (nfkd (lit "mnemonic" ++ password))))
  /\ g <> utf8 (nfkd (m_phrase m)).
Proof. exact Bip39Thms.c23_seed_chinese_refuted. Qed.
Print Assumptions C23_seed_chinese_refuted.
Example C23_example : exists m, constructible m /\ m_lang m = ChineseSimplified.
Proof. exact Bip39Thms.c23_example. Qed.

(** ** C24. Every seed can start a wallet.  Every Seed is 64 bytes long, so that XPrv::new never rejects it
    for its length. *)
Theorem C24_seed_is_64_bytes : forall (m : mnemonic) (password : str), constructible m ->
  exists seed, seed_new m password = Ok seed /\ length seed = 64%nat /\ bytes_ok seed.
Proof. exact Bip39Thms.c24_seed_is_64_bytes. Qed.
Print Assumptions C24_seed_is_64_bytes.
Example C24_example : constructible ex_mnemonic.
Proof. exact Bip39Thms.c24_example. Qed.

(** ** C25. Seeds are insensitive to how the password is composed.  Two passwords with the same NFKD form give
    the same seed; in particular replacing the password by its NFKD form changes nothing. *)
Theorem C25_password_normalised : forall (m : mnemonic),
  (forall p1 p2 : str, nfkd p1 = nfkd p2 -> seed_new m p1 = seed_new m p2)
  /\ (forall p : str, seed_new m (nfkd p) = seed_new m p).
Proof. exact Bip39Thms.c25_password_normalised. Qed.
Print Assumptions C25_password_normalised.
Example C25_example : nfkd [0xE9] = nfkd [0x65; 0x301] /\ [0xE9] <> [0x65; 0x301].
Proof. exact Bip39Thms.c25_example. Qed.

(** ** C26. Hex formatting is faithful.  {:x} and {:X} of a Mnemonic (its entropy) and of a Seed print exactly
    two hex digits per byte, lower or upper case, in order, prefixed by 0x exactly when the alternate flag is
    given; decoding the digits gives the bytes back, and Debug of a Seed is its {:#X}. *)
Theorem C26_hex_formatting : forall (upper alternate : bool) (m : mnemonic) (seed : bytes),
  bytes_ok (m_entropy m) -> bytes_ok seed ->
  (exists digits, mnemonic_hex upper alternate m = (if alternate then lit "0x" else []) ++ digits
     /\ length digits = (2 * length (m_entropy m))%nat /\ unhex upper digits = Some (m_entropy m))
  /\ (exists digits, seed_hex upper alternate seed = (if alternate then lit "0x" else []) ++ digits
     /\ length digits = (2 * length seed)%nat /\ unhex upper digits = Some seed)
  /\ (exists digits, seed_debug seed = lit "0x" ++ digits
     /\ length digits = (2 * length seed)%nat /\ unhex true digits = Some seed).
Proof. exact Bip39Thms.c26_hex_formatting. Qed.
Print Assumptions C26_hex_formatting.
Example C26_example : mnemonic_hex false true ex_mnemonic = lit "0x33e46bb13a746ea41cdde45c90846a79"
  /\ seed_debug [0x0A; 0xF0] = lit "0x0AF0".
Proof. exact Bip39Thms.c26_example. Qed.

(** ** C27. Mnemonics keep their phrase.  phrase(), Display, AsRef<str>, into_phrase() and String::from give
    the same string; re-parsing the stored phrase gives back an identical mnemonic. *)
Theorem C27_phrase_kept : forall m : mnemonic, constructible m ->
  fst (into_phrase m) = m_phrase m /\ mnemonic_display m = m_phrase m
  /\ from_phrase (m_phrase m) (m_lang m) = Ok m.
Proof. exact Bip39Thms.c27_phrase_kept. Qed.
Print Assumptions C27_phrase_kept.
Example C27_example : constructible ex_mnemonic.
Proof. exact Bip39Thms.c27_example. Qed.
