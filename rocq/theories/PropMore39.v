(** Further BIP39 properties C69 - C77.

    Statements only: every theorem is closed by the lemma of the same name (in lower case) in
    More39Thms.v.  Generated by tools/gen_prop.py. *)
From Coq Require Import String.
From Verif Require Import Outcome Bytes Str Hash Nfkd ModelBip39 SpecBip39 ModelBuffers SpecMore.
From Verif Require SpecBip32 Bip39Thms More39Thms.
Import Bip39Thms(ex_entropy, ex_phrase, ex_mnemonic).
Open Scope N_scope.

(** ** C69. Size hints of the bit iterator are correct.  At every point of an iteration BitIter::size_hint
    returns a lower bound at most, and an upper bound at least, the number of items still to come. *)
Theorem C69_upper_hint_refuted : exists (l : bytes) (it : bit_iter) (lower upper : N) (n : nat),
  bytes_ok l /\ reached l it /\ yields it n /\ bi_size_hint it = Ok (lower, Some upper) /\ upper < N.of_nat n.
Proof. exact More39Thms.c69_upper_hint_refuted. Qed.
Print Assumptions C69_upper_hint_refuted.
(** The lower hint is right, the upper one is short by at most one item, and both are exact before the first
    item.  Missing: the upper bound of the contract of [Iterator::size_hint]. *)
Theorem C69_size_hint_partial : forall (l : bytes) (it : bit_iter) (n : nat),
  bytes_ok l -> len l < 2 ^ 61 -> reached l it -> yields it n ->
  exists k, bi_size_hint it = Ok (k, Some k) /\ k <= N.of_nat n <= k + 1 /\ (it = bi_new l -> k = N.of_nat n).
Proof. exact More39Thms.c69_size_hint_partial. Qed.
Print Assumptions C69_size_hint_partial.
Example C69_example : exists it, reached (repeat 255 17) it /\ bi_source it <> repeat 255 17.
Proof. exact More39Thms.c69_example. Qed.

(** ** C70. Building a phrase from entropy never moves the secret.  When a mnemonic is built from entropy, the
    capacity that join reserves is enough for the whole phrase, so the text is never copied to a larger buffer
    (Zeroizing wipes only the last one); when a phrase is read, the bytes of BitWriter fit its initial
    capacity for every phrase of up to 24 words. *)
Theorem C70_phrase_buffer : forall (lang : language) (ent : bytes), bytes_ok ent -> legal_entropy ent ->
  exists m b, from_entropy ent lang = Ok m /\ from_entropy_buffer ent lang = Ok b
    /\ buf_len b = len (utf8 (m_phrase m)) /\ buf_moves b = 0.
Proof. exact More39Thms.c70_phrase_buffer. Qed.
Print Assumptions C70_phrase_buffer.
(** Reading a phrase: the byte vector of the bit writer fits its initial capacity for up to 24 words. *)
Theorem C70_bit_writer_capacity : forall (lang : language) (ws : list str) (w : bit_writer) (bs : bytes),
  push_words (wordmap_of lang) ws bw_new = Ok w -> bw_into_bytes w = Ok bs ->
  (len bs <= bw_capacity 264 <-> (length ws <= 24)%nat).
Proof. exact More39Thms.c70_bit_writer_capacity. Qed.
Print Assumptions C70_bit_writer_capacity.
(** What the bit writer reserves for a number of bits is the least number of bytes that can hold them. *)
Theorem C70_least_capacity : forall bits bytes : N, bw_capacity bits <= bytes <-> bits <= 8 * bytes.
Proof. exact More39Thms.c70_least_capacity. Qed.
Print Assumptions C70_least_capacity.
Example C70_example : from_entropy_buffer ex_entropy English = Ok (Buffer 110 72 0) /\ legal_entropy ex_entropy.
Proof. exact More39Thms.c70_example. Qed.

(** ** C71. Reading a phrase never moves the secret.  When from_phrase accepts a phrase, its normalised text
    has been written into one buffer that was never copied to a larger one. *)
(** Every phrase that is accepted has been moved at least once while it was put together. *)
Theorem C71_accepted_phrase_moved : forall (s : str) (lang : language) (m : mnemonic),
  from_phrase s lang = Ok m ->
  exists b, from_phrase_buffer s = Ok b /\ buf_len b = len (utf8 (m_phrase m)) /\ 0 < buf_moves b.
Proof. exact More39Thms.c71_accepted_phrase_moved. Qed.
Print Assumptions C71_accepted_phrase_moved.
Theorem C71_phrase_not_moved_refuted : exists (s : str) (lang : language) (m : mnemonic) (b : buffer),
  from_phrase s lang = Ok m /\ from_phrase_buffer s = Ok b /\ buf_moves b <> 0.
Proof. exact More39Thms.c71_phrase_not_moved_refuted. Qed.
Print Assumptions C71_phrase_not_moved_refuted.
Example C71_example : from_phrase_buffer ex_phrase = Ok (Buffer 128 72 4).
Proof. exact More39Thms.c71_example. Qed.

(** ** C72. Every beginning of a phrase has the right number of last words.  For any list words w1 .. w(n-1),
    n being 12, 15, 18, 21 or 24, exactly 2^(11 - n/3) words of the list complete the phrase to one that
    from_phrase accepts. *)
Theorem C72_last_words : forall (lang : language) (ws : list str),
  all_in_list lang ws -> legal_count (length ws + 1) ->
  length (filter (fun w => is_ok (from_phrase (spaced (ws ++ [w])) lang)) (bip39_list lang))
  = (2 ^ (11 - (length ws + 1) / 3))%nat.
Proof. exact More39Thms.c72_last_words. Qed.
Print Assumptions C72_last_words.
Example C72_example : all_in_list English (firstn 11 (split_char 32 ex_phrase))
  /\ legal_count (length (firstn 11 (split_char 32 ex_phrase)) + 1).
Proof. exact More39Thms.c72_example. Qed.

(** ** C73. Different mnemonics have different PBKDF2 passwords.  If as_bytes of two mnemonics gives the same
    bytes, the mnemonics are the same, even across languages (UTF-8 for English, GB18030 for Simplified
    Chinese). *)
Theorem C73_password_bytes_injective : forall (m m' : mnemonic) (b : bytes), constructible m -> constructible m' ->
  mnemonic_as_bytes m = Ok b -> mnemonic_as_bytes m' = Ok b -> m = m'.
Proof. exact More39Thms.c73_password_bytes_injective. Qed.
Print Assumptions C73_password_bytes_injective.
Example C73_example : constructible ex_mnemonic /\ mnemonic_as_bytes ex_mnemonic = Ok ex_phrase.
Proof. exact More39Thms.c73_example. Qed.

(** ** C74. Debug of a mnemonic is the quoted phrase.  {:?} of a mnemonic prints its phrase between quotation
    marks, with no character escaped. *)
Theorem C74_debug_is_quoted_phrase : forall m : mnemonic, constructible m ->
  mnemonic_debug m = Ok ([34] ++ m_phrase m ++ [34]).
Proof. exact More39Thms.c74_debug_is_quoted_phrase. Qed.
Print Assumptions C74_debug_is_quoted_phrase.
Example C74_example : mnemonic_debug ex_mnemonic
  = Ok ([34] ++ lit "crop cash unable insane eight faith inflict route frame loud box vibrant" ++ [34]).
Proof. exact More39Thms.c74_example. Qed.

(** ** C75. Messages identify the error.  The Display text of an ErrorKind determines the error including its
    numbers; the texts are the documented ones, numbers being written in canonical decimal, and MnemonicType
    prints as <words> words (<bits>bits). *)
Theorem C75_error_texts : forall e e' : error_kind, error_kind_display e = error_kind_display e' -> e = e'.
Proof. exact More39Thms.c75_error_texts. Qed.
Print Assumptions C75_error_texts.
Theorem C75_texts_exact : forall (n : N) (t : mnemonic_type),
  error_kind_display InvalidChecksum = lit "invalid checksum"
  /\ error_kind_display InvalidWord = lit "invalid word in phrase"
  /\ (exists d, SpecBip32.canonical_decimal d n /\ error_kind_display (InvalidKeysize n) = lit "invalid keysize: " ++ d
        /\ error_kind_display (InvalidWordLength n) = lit "invalid number of words in phrase: " ++ d
        /\ error_kind_display (InvalidEntropyLength n t) = lit "invalid entropy length " ++ d ++ lit "bits for mnemonic type " ++
             match t with Words12 => lit "Words12" | Words15 => lit "Words15" | Words18 => lit "Words18"
                        | Words21 => lit "Words21" | Words24 => lit "Words24" end)
  /\ mnemonic_type_display t = match t with
       | Words12 => lit "12 words (128bits)" | Words15 => lit "15 words (160bits)" | Words18 => lit "18 words (192bits)"
       | Words21 => lit "21 words (224bits)" | Words24 => lit "24 words (256bits)" end.
Proof. exact More39Thms.c75_texts_exact. Qed.
Print Assumptions C75_texts_exact.
Example C75_example : error_kind_display (InvalidEntropyLength 42 Words12)
  = lit "invalid entropy length 42bits for mnemonic type Words12".
Proof. exact More39Thms.c75_example. Qed.

(** ** C76. Phrases are read the same in every Unicode form.  from_phrase returns the same result for any two
    texts with the same NFKD form, in particular for a text and its NFC, NFD, NFKC and NFKD forms, including
    for texts that are rejected. *)
Theorem C76_unicode_form_ignored : forall (s s' : str) (lang : language),
  nfkd s = nfkd s' -> from_phrase s lang = from_phrase s' lang.
Proof. exact More39Thms.c76_unicode_form_ignored. Qed.
Print Assumptions C76_unicode_form_ignored.
Theorem C76_normalising_first : forall (s : str) (lang : language), from_phrase (nfkd s) lang = from_phrase s lang.
Proof. exact More39Thms.c76_normalising_first. Qed.
Print Assumptions C76_normalising_first.
Example C76_example : nfkd (0xFF43 :: skipn 1 ex_phrase) = nfkd ex_phrase /\ (0xFF43 :: skipn 1 ex_phrase) <> ex_phrase.
Proof. exact More39Thms.c76_example. Qed.

(** ** C77. Four letters identify an English word.  Two English words with the same first four letters are
    equal, and get_words_by_prefix of any beginning of at least four letters of a word returns exactly that
    word. *)
Theorem C77_four_letters_identify : forall w w' : str, In w (bip39_list English) -> In w' (bip39_list English) ->
  firstn 4 w = firstn 4 w' -> w = w'.
Proof. exact More39Thms.c77_four_letters_identify. Qed.
Print Assumptions C77_four_letters_identify.
Theorem C77_prefix_completion : forall w p : str, In w (bip39_list English) -> (4 <= length p)%nat -> (exists t, w = p ++ t) ->
  get_words_by_prefix (wordlist English) p = Ok [w].
Proof. exact More39Thms.c77_prefix_completion. Qed.
Print Assumptions C77_prefix_completion.
Example C77_example : In (lit "abandon") (bip39_list English) /\ (4 <= length (lit "aban"))%nat
  /\ lit "abandon" = lit "aban" ++ lit "don".
Proof. exact More39Thms.c77_example. Qed.
