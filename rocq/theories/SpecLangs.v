(** BIP39 for all the languages in src/bip39/langs, written down independently of the code.  Shared with
    SpecBip39.v: sizes, checksums, layouts. *)
From Coq Require Import String.
From Verif Require Import Outcome Bytes Str Hash Nfkd EnglishTxt ChineseTxt TraditionalTxt FrenchTxt ItalianTxt JapaneseTxt
  KoreanTxt SpanishTxt ModelBip39 SpecBip39 ModelLangs.
Open Scope N_scope.

Definition all_languages : list language_all :=
  [Compiled English; Compiled ChineseSimplified; ChineseTraditional; French; Italian; Japanese; Korean; Spanish].

(** The published list: the lines of the text file. *)
Definition published (l : language_all) : list str :=
  match l with
  | Compiled l => bip39_list l
  | ChineseTraditional => lines (utf8_decode (lit chinese_traditional_txt))
  | French => lines (utf8_decode (lit french_txt))
  | Italian => lines (utf8_decode (lit italian_txt))
  | Japanese => lines (utf8_decode (lit japanese_txt))
  | Korean => lines (utf8_decode (lit korean_txt))
  | Spanish => lines (utf8_decode (lit spanish_txt))
  end.
Definition is_word_all (l : language_all) (i : N) (w : str) : Prop := nth_error (published l) (N.to_nat i) = Some w.

(** [ws] are the words encoding the bit string [b]; [ws] is the sentence of the entropy [ent]. *)
Definition encodes_all (l : language_all) (ws : list str) (b : list bool) : Prop :=
  exists idx : list N, Forall2 (is_word_all l) idx ws /\ Forall (fun i => i < 2048) idx /\ flat_map (bits_of 11) idx = b.
Definition sentence_all (l : language_all) (ws : list str) (ent : bytes) : Prop :=
  bytes_ok ent /\ legal_entropy ent /\ encodes_all l ws (with_checksum ent).

(** Why a sequence of words is no sentence. *)
Inductive faulty (l : language_all) (ws : list str) : error_kind -> Prop :=
| faulty_word w : In w ws -> ~ In w (published l) -> faulty l ws InvalidWord
| faulty_count : (forall w, In w ws -> In w (published l)) -> ~ legal_count (length ws) ->
    faulty l ws (InvalidWordLength (len ws))
| faulty_checksum ent cs : bytes_ok ent -> legal_entropy ent -> length cs = cs_bits ent ->
    encodes_all l ws (bits_of_bytes ent ++ cs) -> cs <> checksum_of ent -> faulty l ws InvalidChecksum.

(** A mnemonic obtained from one of the public constructors. *)
Inductive constructible_all : mnemonic_all -> Prop :=
| all_new t l rng m : (forall i, rng i < 256) -> mnemonic_new_all t l rng = Ok m -> constructible_all m
| all_entropy ent l m : bytes_ok ent -> from_entropy_all ent l = Ok m -> constructible_all m
| all_phrase s l m : from_phrase_all s l = Ok m -> constructible_all m.

(** Accents, as the Unicode standard counts them: the characters of non-zero combining class. *)
Definition without_accents (w : str) : str := filter (fun c => ccc c =? 0) w.

(** The codes. *)
Definition code_of (l : language_all) : str :=
  match l with
  | Compiled English => lit "en"
  | Compiled ChineseSimplified => lit "zh-cn"
  | ChineseTraditional => lit "zh-tw"
  | French => lit "fr"
  | Italian => lit "it"
  | Japanese => lit "ja"
  | Korean => lit "ko"
  | Spanish => lit "es"
  end.

(** The languages that are to have words in common. *)
Definition related (l l' : language_all) : Prop :=
  l = l' \/ (l = Compiled English /\ l' = French) \/ (l = French /\ l' = Compiled English)
  \/ (l = Compiled ChineseSimplified /\ l' = ChineseTraditional) \/ (l = ChineseTraditional /\ l' = Compiled ChineseSimplified).

(** The number of bytes that are reserved for a phrase: eleven for each complete group of 11 bits in the
    entropy without its first byte. *)
Definition reserved (ent : bytes) : N := 11 * (8 * (len ent - 1) / 11).

(** A result of the program without features as one of the program with them. *)
Definition as_compiled (r : R mnemonic) : R mnemonic_all :=
  let* m := r in Ok (MnemonicAll (m_phrase m) (Compiled (m_lang m)) (m_entropy m)).
