(** Bits, white space, generated phrases and mistakes C116 - C119.

    Statements only: every theorem is closed by the lemma of the same name (in lower case) in
    BitsThms.v.  Generated by tools/gen_prop.py. *)
From Coq Require Import String.
From Verif Require Import Outcome Bytes Str Nfkd ModelBip39 SpecBip39 SpecUnicode SpecSentence ModelBits.
From Verif Require Bip39Thms BitsThms.
Import Bip39Thms(ex_mnemonic).
Open Scope N_scope.

(** ** C116. Bit packing works at every item size.  BitWriter holds exactly the bits pushed into it, in order
    and followed by less than eight zeros, for items of 1 to 25 bits in any mixture. BitIter cuts any sequence
    of items of up to 32 bits into the items of 1 to 16 bits that make up the same bits, leaving out an
    incomplete last one. What is written in items of 8 to 16 bits is read back. The limits 25 and 16 are
    sharp. *)
Theorem C116_bits_written : forall items : list (N * N), Forall (fun i => 1 <= fst i <= 25) items ->
  exists w l k, push_all bw_new items = Ok w /\ bw_len w = fold_right N.add 0 (map fst items)
    /\ bw_into_bytes w = Ok l /\ bytes_ok l
    /\ bits_of_bytes l = flat_map (fun i => bits_of (N.to_nat (fst i)) (snd i)) items ++ repeat false k /\ (k < 8)%nat.
Proof. exact BitsThms.c116_bits_written. Qed.
Print Assumptions C116_bits_written.
Theorem C116_bits_read : forall (isize osize : N) (source : list N), 1 <= isize <= 32 -> 1 <= osize <= 16 ->
  Forall (fun x => x < 2 ^ isize) source ->
  exists xs rest, (forall ys, runs isize osize (BitIter source 0 0) ys <-> ys = xs) /\ Forall (fun x => x < 2 ^ osize) xs
    /\ flat_map (bits_of (N.to_nat isize)) source = flat_map (bits_of (N.to_nat osize)) xs ++ rest /\ len rest < osize.
Proof. exact BitsThms.c116_bits_read. Qed.
Print Assumptions C116_bits_read.
(** What is written in items of 8 to 16 bits is read back. *)
Theorem C116_round_trip : forall (size : N) (xs : list N), 8 <= size <= 16 -> Forall (fun x => x < 2 ^ size) xs ->
  exists w l, push_all bw_new (map (pair size) xs) = Ok w /\ bw_into_bytes w = Ok l /\ runs 8 size (BitIter l 0 0) xs.
Proof. exact BitsThms.c116_round_trip. Qed.
Print Assumptions C116_round_trip.
(** Both limits are sharp: items of 26 bits lose a bit in the writer, items of 17 bits in the reader. *)
Example C116_example : push_all bw_new [(3, 5); (12, 0xABC)] = Ok (BitWriter 7 0x78000000 [0xB5])
  /\ (exists w, push_all bw_new [(7, 0); (26, 1)] = Ok w /\ bw_into_bytes w = Ok [0; 0; 0; 0; 0])
  /\ (exists it, next 8 17 (BitIter [0x80; 0; 0] 0 0) = Ok (Some (0, it))) /\ 2 ^ 16 < 2 ^ 17.
Proof. exact BitsThms.c116_example. Qed.

(** ** C117. Phrases are split at Unicode white space.  from_phrase accepts a text exactly if the longest runs
    of characters other than the 25 White_Space characters of Unicode, each brought into form NFKD, are the
    words of a BIP39 sentence. Every text has exactly one such splitting. *)
Theorem C117_white_space : forall c : N, is_whitespace c = true <-> In c white_space.
Proof. exact BitsThms.c117_white_space. Qed.
Print Assumptions C117_white_space.
Theorem C117_words : forall s : str, exists! ws, separated s ws.
Proof. exact BitsThms.c117_words. Qed.
Print Assumptions C117_words.
(** What from_phrase accepts, with all notions from the standards. *)
Theorem C117_from_phrase : forall (s : str) (lang : language) (m : mnemonic),
  from_phrase s lang = Ok m <->
  exists ws ws', separated s ws /\ Forall2 is_nfkd ws ws' /\ bip39_sentence lang ws' (m_entropy m)
    /\ m_phrase m = spaced ws' /\ m_lang m = lang.
Proof. exact BitsThms.c117_from_phrase. Qed.
Print Assumptions C117_from_phrase.
Example C117_example : separated (lit "zoo" ++ [0x3000; 0x85] ++ lit "abandon" ++ [0xA0]) [lit "zoo"; lit "abandon"]
  /\ ~ In 0x200B white_space /\ ~ In 0xFEFF white_space.
Proof. exact BitsThms.c117_example. Qed.

(** ** C118. Every mnemonic is equally likely to be generated.  Mnemonic::new maps the random bytes one to one
    onto the mnemonics of the requested language and length: every such mnemonic comes from some choice of
    bytes, and two choices of the bytes read give different mnemonics. *)
(** Every mnemonic of the language and length can be generated, each from one choice of random bytes only. *)
Theorem C118_generation_is_uniform : forall (t : mnemonic_type) (lang : language),
  (forall m : mnemonic, constructible m -> m_lang m = lang -> len (split_char 32 (m_phrase m)) = word_count t ->
     exists rng, (forall i, rng i < 256) /\ mnemonic_new t lang rng = Ok m)
  /\ (forall rng rng' : nat -> N, (forall i, rng i < 256) -> (forall i, rng' i < 256) ->
     (mnemonic_new t lang rng = mnemonic_new t lang rng' <-> forall i, N.of_nat i < entropy_bits t / 8 -> rng i = rng' i)).
Proof. exact BitsThms.c118_generation_is_uniform. Qed.
Print Assumptions C118_generation_is_uniform.
Example C118_example : constructible ex_mnemonic /\ m_lang ex_mnemonic = English /\ len (split_char 32 (m_phrase ex_mnemonic)) = word_count Words12.
Proof. exact BitsThms.c118_example. Qed.

(** ** C119. Every mistake in a phrase is noticed.  A phrase with a word replaced, with two words exchanged or
    with a wrong number of words is rejected. FALSE for words of the list: for every phrase there is a wrong
    last word that goes unnoticed, and exchanging two words of the phrase in the documentation goes unnoticed.
    True for unknown words and wrong numbers of words. *)
(** An unknown word and a wrong number of words are always noticed, by from_phrase and by validate. *)
Theorem C119_noticed_partial : forall (s : str) (lang : language) (m : mnemonic),
  let ws := map nfkd (split_whitespace s) in
  ~ all_in_list lang ws \/ ~ legal_count (length ws) -> from_phrase s lang <> Ok m /\ validate s lang <> Ok tt.
Proof. exact BitsThms.c119_noticed_partial. Qed.
Print Assumptions C119_noticed_partial.
(** For every phrase there is a wrong last word that goes unnoticed. *)
Theorem C119_wrong_last_word : forall m : mnemonic, constructible m ->
  exists ws w w' m', m_phrase m = spaced (ws ++ [w]) /\ w' <> w /\ from_phrase (spaced (ws ++ [w'])) (m_lang m) = Ok m' /\ m' <> m.
Proof. exact BitsThms.c119_wrong_last_word. Qed.
Print Assumptions C119_wrong_last_word.
(** Two words exchanged, in the phrase of the documentation of the crate. *)
Theorem C119_exchanged_words_refuted : exists ws a vs b us m m', a <> b
  /\ from_phrase (spaced (ws ++ [a] ++ vs ++ [b] ++ us)) English = Ok m
  /\ from_phrase (spaced (ws ++ [b] ++ vs ++ [a] ++ us)) English = Ok m' /\ m <> m'.
Proof. exact BitsThms.c119_exchanged_words_refuted. Qed.
Print Assumptions C119_exchanged_words_refuted.
Example C119_example : from_phrase (lit "crop cash unable insane eight faith inflict route frame loud box") English = Err (InvalidWordLength 11)
  /\ from_phrase (lit "crop cash unable insane eight faith inflict route frame loud box vibrent") English = Err InvalidWord
  /\ from_phrase (lit "cash crop unable insane eight faith inflict route frame loud box vibrant") English = Err InvalidChecksum.
Proof. exact BitsThms.c119_example. Qed.
