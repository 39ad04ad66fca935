(** The languages behind cargo features: src/bip39 with the six languages of src/bip39/language.rs that are
    marked [cfg(feature = ...)] switched on.  Cargo.toml declares none of these features, so the crate as it
    stands has only the two languages of ModelBip39.v; the code is compiled when the features are declared or
    passed to the compiler ([--cfg feature="french"] and so on).  All six are switched on here. *)
From Coq Require Import String.
From Verif Require Import Outcome Bytes Str Hash Nfkd ModelBip39 ModelBuffers.
From Verif Require Import TraditionalTxt FrenchTxt ItalianTxt JapaneseTxt KoreanTxt SpanishTxt.
Open Scope N_scope.

(** src/bip39/language.rs:114-130, enum Language; [Compiled] has the variants without a feature.  (The order
    of the variants does not matter, only Debug, Clone, Copy and PartialEq are derived.) *)
Inductive language_all :=
| Compiled (l : language)
| ChineseTraditional
| French
| Italian
| Japanese
| Korean
| Spanish.

(** src/bip39/language.rs:65-86 and 173-190, Language::wordlist *)
Definition wordlist_all (l : language_all) : list str :=
  match l with
  | Compiled l => wordlist l
  | ChineseTraditional => gen_wordlist chinese_traditional_txt
  | French => gen_wordlist french_txt
  | Italian => gen_wordlist italian_txt
  | Japanese => gen_wordlist japanese_txt
  | Korean => gen_wordlist korean_txt
  | Spanish => gen_wordlist spanish_txt
  end.

(** src/bip39/language.rs:88-103 and 196-213, Language::wordmap *)
Definition wordmap_all (l : language_all) : wordmap := gen_wordmap (wordlist_all l).

(** src/bip39/language.rs:135-153, Language::from_language_code *)
Definition from_language_code_all (code : str) : option language_all :=
  let c := to_ascii_lowercase code in
  if str_eqb c (lit "en") then Some (Compiled English)
  else if str_eqb c (lit "zh-cn") then Some (Compiled ChineseSimplified)
  else if str_eqb c (lit "zh-tw") then Some ChineseTraditional
  else if str_eqb c (lit "fr") then Some French
  else if str_eqb c (lit "it") then Some Italian
  else if str_eqb c (lit "ja") then Some Japanese
  else if str_eqb c (lit "ko") then Some Korean
  else if str_eqb c (lit "es") then Some Spanish
  else None.

(** src/bip39/language.rs:155-170, Language::from_phrase: only two languages are looked at, whatever the
    features *)
Definition language_from_phrase_all (phrase : str) : option language_all :=
  match split_whitespace phrase with
  | word :: _ =>
      if is_ok (get_bits (wordmap_all (Compiled English)) word) then Some (Compiled English)
      else if is_ok (get_bits (wordmap_all (Compiled ChineseSimplified)) word) then Some (Compiled ChineseSimplified)
      else None
  | [] => None
  end.

(** src/bip39/language.rs:114, derived PartialEq, as used at src/bip39/mnemonic.rs:264 *)
Definition is_chinese_simplified (l : language_all) : bool :=
  match l with Compiled ChineseSimplified => true | _ => false end.

(** src/bip39/mnemonic.rs:40-44, struct Mnemonic *)
Record mnemonic_all := MnemonicAll { a_phrase : str; a_lang : language_all; a_entropy : bytes }.

(** src/bip39/mnemonic.rs:94-124, Mnemonic::from_entropy_unchecked *)
Definition from_entropy_unchecked_all (entropy : bytes) (lang : language_all) : R mnemonic_all :=
  let wl := wordlist_all lang in
  let* checksum_byte := sha256_first_byte entropy in
  let source := entropy ++ [checksum_byte] in
  let* idx := bi_collect (S (length source)) (bi_new source) in
  let* ws := traverse (get_word wl) idx in
  Ok (MnemonicAll (iter_join (lit " ") ws) lang entropy).

(** src/bip39/mnemonic.rs:87-92, Mnemonic::from_entropy *)
Definition from_entropy_all (entropy : bytes) (lang : language_all) : R mnemonic_all :=
  let* bits := mul_chk 64 (len entropy) 8 in
  let* _ := for_key_size bits in
  from_entropy_unchecked_all entropy lang.

(** src/bip39/mnemonic.rs:66-70, Mnemonic::new *)
Definition mnemonic_new_all (mtype : mnemonic_type) (lang : language_all) (rng : nat -> N) : R mnemonic_all :=
  let entropy := gen_random_bytes rng (entropy_bits mtype / 8) in
  from_entropy_unchecked_all entropy lang.

(** src/bip39/mnemonic.rs:188-221, Mnemonic::phrase_to_entropy *)
Definition phrase_to_entropy_all (phrase : str) (lang : language_all) : R bytes :=
  let* bits := push_words (wordmap_all lang) (split_char 32 phrase) bw_new in
  let* mtype := for_word_count (bw_len bits / 11) in
  let* _ := (if bw_len bits =? total_bits mtype then Ok tt else Panic) in
  let* entropy := bw_into_bytes bits in
  let entropy_bytes := entropy_bits mtype / 8 in
  let* last := index entropy entropy_bytes in
  let* actual_checksum := checksum last (checksum_bits mtype) in
  let entropy := firstn (N.to_nat entropy_bytes) entropy in
  let* checksum_byte := sha256_first_byte entropy in
  let* expected_checksum := checksum checksum_byte (checksum_bits mtype) in
  if actual_checksum =? expected_checksum then Ok entropy else Err InvalidChecksum.

(** src/bip39/mnemonic.rs:143-161, Mnemonic::from_phrase *)
Definition from_phrase_all (phrase : str) (lang : language_all) : R mnemonic_all :=
  let phrase := iter_join (lit " ") (map nfkd (split_whitespace phrase)) in
  let* entropy := phrase_to_entropy_all phrase lang in
  Ok (MnemonicAll phrase lang entropy).

(** src/bip39/mnemonic.rs:177-181, Mnemonic::validate *)
Definition validate_all (phrase : str) (lang : language_all) : R unit :=
  let* _ := phrase_to_entropy_all phrase lang in Ok tt.

(** src/bip39/mnemonic.rs:262-273, Mnemonic::as_bytes (for GB18030 see ModelBip39.v) *)
Definition mnemonic_as_bytes_all (m : mnemonic_all) : R bytes :=
  if is_chinese_simplified (a_lang m) then or_panic (gb18030 (a_phrase m))
  else Ok (utf8 (a_phrase m)).

(** src/bip39/seed.rs:32-38, Seed::new *)
Definition seed_new_all (m : mnemonic_all) (password : str) : R bytes :=
  let salt := lit "mnemonic" ++ password in
  let normalized_salt := nfkd salt in
  let* pw := mnemonic_as_bytes_all m in
  Ok (bip39_pbkdf2 pw normalized_salt).

(** src/bip39/mnemonic.rs:94-124, the buffer of the phrase in Mnemonic::from_entropy_unchecked; see
    [from_entropy_buffer] in ModelBuffers.v *)
Definition from_entropy_buffer_all (entropy : bytes) (lang : language_all) : R buffer :=
  let* checksum_byte := sha256_first_byte entropy in
  let source := entropy ++ [checksum_byte] in
  let* o := bi_next (bi_new source) in
  match o with
  | None => Ok (buf_with_capacity 0)
  | Some (x, it) =>
      let* h := bi_size_hint it in
      let* xs := bi_collect (S (length source)) it in
      let* ws := traverse (get_word (wordlist_all lang)) (x :: xs) in
      join_words_buffer (fst h) (lit " ") ws
  end.
