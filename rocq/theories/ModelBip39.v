(** The model of src/bip39: mnemonic types, word lists, bit packing, mnemonics, seeds. *)
From Coq Require Import String.
From Verif Require Import Outcome Bytes Str Hash Nfkd Gb18030Data EnglishTxt ChineseTxt.
Open Scope N_scope.

(** ** src/bip39/mnemonic_type.rs *)

(** src/bip39/mnemonic_type.rs:33-40, enum MnemonicType *)
Inductive mnemonic_type := Words12 | Words15 | Words18 | Words21 | Words24.

(** src/bip39/error.rs:4-16, enum ErrorKind.  [anyhow::Error] only wraps it. *)
Inductive error_kind :=
| InvalidChecksum
| InvalidWord
| InvalidKeysize (n : N)
| InvalidWordLength (n : N)
| InvalidEntropyLength (n : N) (t : mnemonic_type).

Definition R (A : Type) := res error_kind A.

(** src/bip39/mnemonic_type.rs:5, ENTROPY_OFFSET *)
Definition entropy_offset : N := 8.

(** src/bip39/mnemonic_type.rs:33-40, the discriminants ([*self as usize]) *)
Definition discriminant (t : mnemonic_type) : N :=
  match t with
  | Words12 => N.lor (N.shiftl 128 entropy_offset) 4
  | Words15 => N.lor (N.shiftl 160 entropy_offset) 5
  | Words18 => N.lor (N.shiftl 192 entropy_offset) 6
  | Words21 => N.lor (N.shiftl 224 entropy_offset) 7
  | Words24 => N.lor (N.shiftl 256 entropy_offset) 8
  end.

(** src/bip39/mnemonic_type.rs:54-65, MnemonicType::for_word_count *)
Definition for_word_count (size : N) : R mnemonic_type :=
  match size with
  | 12 => Ok Words12
  | 15 => Ok Words15
  | 18 => Ok Words18
  | 21 => Ok Words21
  | 24 => Ok Words24
  | _ => Err (InvalidWordLength size)
  end.

(** src/bip39/mnemonic_type.rs:78-89, MnemonicType::for_key_size *)
Definition for_key_size (size : N) : R mnemonic_type :=
  match size with
  | 128 => Ok Words12
  | 160 => Ok Words15
  | 192 => Ok Words18
  | 224 => Ok Words21
  | 256 => Ok Words24
  | _ => Err (InvalidKeysize size)
  end.

(** src/bip39/mnemonic_type.rs:112-116, MnemonicType::for_phrase *)
Definition for_phrase (phrase : str) : R mnemonic_type :=
  for_word_count (len (split_char 32 phrase)).

(** src/bip39/mnemonic_type.rs:148-150, entropy_bits *)
Definition entropy_bits (t : mnemonic_type) : N := N.shiftr (discriminant t) entropy_offset.

(** src/bip39/mnemonic_type.rs:165-167, checksum_bits ([as u8] truncates) *)
Definition checksum_bits (t : mnemonic_type) : N := wrap 8 (discriminant t).

(** src/bip39/mnemonic_type.rs:131-133, total_bits *)
Definition total_bits (t : mnemonic_type) : N := entropy_bits t + checksum_bits t.

(** src/bip39/mnemonic_type.rs:180-182, word_count *)
Definition word_count (t : mnemonic_type) : N := total_bits t / 11.

(** src/bip39/mnemonic_type.rs:185-189, Default *)
Definition mnemonic_type_default : mnemonic_type := Words12.

(** src/bip39/mnemonic_type.rs:191-200, Display *)
Definition mnemonic_type_display (t : mnemonic_type) : str :=
  dec_str (word_count t) ++ lit " words (" ++ dec_str (entropy_bits t) ++ lit "bits)".

(** src/bip39/mnemonic_type.rs:32, derived Debug *)
Definition mnemonic_type_debug (t : mnemonic_type) : str :=
  match t with
  | Words12 => lit "Words12"
  | Words15 => lit "Words15"
  | Words18 => lit "Words18"
  | Words21 => lit "Words21"
  | Words24 => lit "Words24"
  end.

(** src/bip39/error.rs:4-16, Display generated by thiserror from the [#[error]] attributes *)
Definition error_kind_display (e : error_kind) : str :=
  match e with
  | InvalidChecksum => lit "invalid checksum"
  | InvalidWord => lit "invalid word in phrase"
  | InvalidKeysize n => lit "invalid keysize: " ++ dec_str n
  | InvalidWordLength n => lit "invalid number of words in phrase: " ++ dec_str n
  | InvalidEntropyLength n t =>
      lit "invalid entropy length " ++ dec_str n ++ lit "bits for mnemonic type " ++ mnemonic_type_debug t
  end.

(** ** src/bip39/util.rs *)

(** src/bip39/util.rs:80-101, struct Bits11(u16): a number; [Bits::bits] is the value as u32 *)
Notation bits11 := N (only parsing).

(** src/bip39/util.rs:103-107, struct BitWriter *)
Record bit_writer := BitWriter { bw_offset : N; bw_remainder : N; bw_inner : bytes }.

(** src/bip39/util.rs:110-122, BitWriter::with_capacity (the capacity has no influence on the contents; it
    is [bw_capacity] below) *)
Definition bw_new : bit_writer := BitWriter 0 0 [].
(** src/bip39/util.rs:111-115, the number of bytes reserved for a capacity in bits *)
Definition bw_capacity (bits : N) : N := bits / 8 + (if bits mod 8 =? 0 then 0 else 1).

(** src/bip39/util.rs:130-134, the while loop of BitWriter::push.
    Fuel bounds the iterations; running out is [Panic] (never happens, see [bw_push_spec]). *)
Fixpoint bw_drain (fuel : nat) (w : bit_writer) : R bit_writer :=
  if 8 <=? bw_offset w then
    match fuel with
    | O => Panic
    | S fuel' =>
        let* top := shr_chk 32 (bw_remainder w) 24 in
        let* rem := shl_chk 32 (bw_remainder w) 8 in
        let* off := sub_chk (bw_offset w) 8 in
        bw_drain fuel' (BitWriter off rem (bw_inner w ++ [wrap 8 top]))
    end
  else Ok w.

(** src/bip39/util.rs:124-135, BitWriter::push at type Bits11 (SIZE = 11) *)
Definition bw_push (w : bit_writer) (source : bits11) : R bit_writer :=
  let* shift := sub_chk 32 11 in
  let* a := shl_chk 32 source shift in
  let* b := shr_chk 32 a (bw_offset w) in
  let* off := add_chk 64 (bw_offset w) 11 in
  bw_drain (N.to_nat off) (BitWriter off (N.lor (bw_remainder w) b) (bw_inner w)).

(** src/bip39/util.rs:137-139, BitWriter::len *)
Definition bw_len (w : bit_writer) : N := len (bw_inner w) * 8 + bw_offset w.

(** src/bip39/util.rs:141-147, BitWriter::into_bytes *)
Definition bw_into_bytes (w : bit_writer) : R bytes :=
  if bw_offset w =? 0 then Ok (bw_inner w)
  else let* top := shr_chk 32 (bw_remainder w) 24 in Ok (bw_inner w ++ [wrap 8 top]).

(** src/bip39/util.rs:150-155, struct BitIter at In = &u8 (SIZE 8), Out = Bits11 (SIZE 11) *)
Record bit_iter := BitIter { bi_source : bytes; bi_read : N; bi_buffer : N }.

(** src/bip39/util.rs:163-172, BitIter::new *)
Definition bi_new (source : bytes) : bit_iter := BitIter source 0 0.

(** src/bip39/util.rs:184-189, the while loop of BitIter::next; [Ok None] is the early return by [?] *)
Fixpoint bi_fill (source : bytes) (read buffer : N) : R (option bit_iter) :=
  if read <? 11 then
    match source with
    | [] => Ok None
    | b :: source' =>
        let* read' := add_chk 64 read 8 in
        let* k := sub_chk 64 read' in
        let* x := shl_chk 64 b k in
        bi_fill source' read' (N.lor buffer x)
    end
  else Ok (Some (BitIter source read buffer)).

(** src/bip39/util.rs:183-197, BitIter::next *)
Definition bi_next (it : bit_iter) : R (option (bits11 * bit_iter)) :=
  let* o := bi_fill (bi_source it) (bi_read it) (bi_buffer it) in
  match o with
  | None => Ok None
  | Some it' =>
      let* k := sub_chk 64 11 in
      let* r := shr_chk 64 (bi_buffer it') k in
      let* buffer := shl_chk 64 (bi_buffer it') 11 in
      let* read := sub_chk (bi_read it') 11 in
      Ok (Some (wrap 16 r, BitIter (bi_source it') read buffer))
  end.

(** src/bip39/util.rs:199-206, BitIter::size_hint.  The source is [entropy.iter().chain(Some(..))], whose
    size hint is exact. *)
Definition bi_size_hint (it : bit_iter) : R (N * option N) :=
  let n := len (bi_source it) in
  let* bits := mul_chk 64 n 8 in
  Ok (bits / 11, Some (bits / 11)).

(** src/bip39/util.rs:16, the capacity [join] reserves for the phrase, from the lower size hint of what is
    left after the first item *)
Definition join_capacity (lower : N) (glue : str) : R N := mul_chk 64 lower (10 + len (utf8 glue)).

(** Running the iterator until it returns None (the [for] loop inside [join], util.rs:9-23).
    Each step consumes a source byte, so the number of source bytes plus one is enough fuel. *)
Fixpoint bi_collect (fuel : nat) (it : bit_iter) : R (list bits11) :=
  match fuel with
  | O => Panic
  | S fuel' =>
      let* o := bi_next it in
      match o with
      | None => Ok []
      | Some (x, it') => let* xs := bi_collect fuel' it' in Ok (x :: xs)
      end
  end.

(** src/bip39/util.rs:210-214, checksum *)
Definition checksum (source bits : N) : R N :=
  if bits <=? 8 then
    let* k := sub_chk 8 bits in shr_chk 8 source k
  else Panic.

(** ** src/bip39/language.rs *)

(** src/bip39/language.rs:115-130, enum Language.  The other variants are behind cargo features that
    Cargo.toml does not declare, so they cannot be compiled in. *)
Inductive language := English | ChineseSimplified.

(** src/bip39/language.rs:24-26, src/bip39/language.rs:10-12: WordList is a vector of words;
    indexing panics out of range *)
Definition get_word (wl : list str) (b : bits11) : R str := index wl b.

(** src/bip39/language.rs:6-8 and 54-63, WordMap: a hash map from words to indices.  Modelled as an
    association list with the newest binding first; [insert] of an existing key hides the old binding. *)
Definition wordmap := list (str * bits11).
Fixpoint map_get (m : wordmap) (w : str) : option bits11 :=
  match m with
  | [] => None
  | (k, v) :: m' => if str_eqb w k then Some v else map_get m' w
  end.

(** src/bip39/language.rs:15-20, WordMap::get_bits *)
Definition get_bits (m : wordmap) (w : str) : R bits11 :=
  match map_get m w with
  | Some n => Ok n
  | None => Err InvalidWord
  end.

(** src/bip39/language.rs:45-51, gen_wordlist (its debug assertion is [wordlist_length] below) *)
Definition gen_wordlist (txt : string) : list str := split_whitespace (utf8_decode (lit txt)).

(** src/bip39/language.rs:54-63, gen_wordmap: entries inserted in list order, [i as u16] *)
Definition gen_wordmap (wl : list str) : wordmap :=
  fold_left (fun m e => e :: m)
            (combine wl (map (fun i => wrap 16 (N.of_nat i)) (seq 0 (length wl)))) [].

(** src/bip39/language.rs:65-68 and 173-190, Language::wordlist.  [Lazy] initialisation is a pure
    computation done once, so it is modelled by its value. *)
Definition wordlist (l : language) : list str :=
  match l with
  | English => gen_wordlist english_txt
  | ChineseSimplified => gen_wordlist chinese_simplified_txt
  end.

(** src/bip39/language.rs:88-90 and 196-213, Language::wordmap *)
Definition wordmap_of (l : language) : wordmap := gen_wordmap (wordlist l).

(** [slice::binary_search] of the Rust standard library (1.52 to 1.81); not part of /repo.
    The result is [inl i] for Ok(i), [inr i] for Err(i). *)
Fixpoint binary_search_loop (fuel : nat) (l : list str) (x : str) (left right : N) : R (N + N) :=
  if left <? right then
    match fuel with
    | O => Panic
    | S fuel' =>
        let mid := left + (right - left) / 2 in
        let* y := index l mid in
        match str_cmp y x with
        | Lt => binary_search_loop fuel' l x (mid + 1) right
        | Gt => binary_search_loop fuel' l x left mid
        | Eq => Ok (inl mid)
        end
    end
  else Ok (inr left).
Definition binary_search (l : list str) (x : str) : R (N + N) :=
  binary_search_loop (S (length l)) l x 0 (len l).

(** [Iterator::take_while] *)
Fixpoint take_while {A} (p : A -> bool) (l : list A) : list A :=
  match l with
  | [] => []
  | x :: l' => if p x then x :: take_while p l' else []
  end.

(** [slice::binary_search] of the Rust standard library from 1.82 on *)
Fixpoint binary_search_new_loop (fuel : nat) (l : list str) (x : str) (base size : N) : R N :=
  if 1 <? size then
    match fuel with
    | O => Panic
    | S fuel' =>
        let half := size / 2 in
        let mid := base + half in
        let* y := index l mid in
        binary_search_new_loop fuel' l x (match str_cmp y x with Gt => base | _ => mid end) (size - half)
    end
  else Ok base.
Definition binary_search_new (l : list str) (x : str) : R (N + N) :=
  if len l =? 0 then Ok (inr 0)
  else
    let* base := binary_search_new_loop (length l) l x 0 (len l) in
    let* y := index l base in
    match str_cmp y x with
    | Eq => Ok (inl base)
    | Lt => Ok (inr (base + 1))
    | Gt => Ok (inr base)
    end.

(** src/bip39/language.rs:28-37, WordList::get_words_by_prefix, over the binary search of the standard
    library *)
Definition get_words_by_prefix_with (search : list str -> str -> R (N + N)) (wl : list str) (prefix : str)
  : R (list str) :=
  let* r := search wl prefix in
  let start := match r with inl i => i | inr i => i end in
  let* _ := sub_chk (len wl) start in     (* wl[start..] panics unless start <= len *)
  let rest := skipn (N.to_nat start) wl in
  let count := length (take_while (fun w => starts_with w prefix) rest) in
  Ok (firstn count rest).
Definition get_words_by_prefix : list str -> str -> R (list str) := get_words_by_prefix_with binary_search.

(** src/bip39/language.rs:135-153, Language::from_language_code *)
Definition from_language_code (code : str) : option language :=
  let c := to_ascii_lowercase code in
  if str_eqb c (lit "en") then Some English
  else if str_eqb c (lit "zh-cn") then Some ChineseSimplified
  else None.

(** src/bip39/language.rs:155-170, Language::from_phrase *)
Definition language_from_phrase (phrase : str) : option language :=
  match split_whitespace phrase with
  | word :: _ =>
      if is_ok (get_bits (wordmap_of English) word) then Some English
      else if is_ok (get_bits (wordmap_of ChineseSimplified) word) then Some ChineseSimplified
      else None
  | [] => None
  end.

(** src/bip39/language.rs:216-220, Default *)
Definition language_default : language := English.

(** src/bip39/language.rs:114, derived PartialEq *)
Definition language_eqb (a b : language) : bool :=
  match a, b with
  | English, English | ChineseSimplified, ChineseSimplified => true
  | _, _ => false
  end.

(** ** src/bip39/crypto.rs *)

(** src/bip39/crypto.rs:18-20, sha256_first_byte *)
Definition sha256_first_byte (input : bytes) : R N := index (sha256 input) 0.

(** src/bip39/crypto.rs:24-31, gen_random_bytes: the random generator is a source giving byte number i *)
Definition gen_random_bytes (rng : nat -> N) (byte_length : N) : bytes := map rng (seq 0 (N.to_nat byte_length)).

(** src/bip39/crypto.rs:13-14 and 37-43, pbkdf2 *)
Definition pbkdf2_rounds : nat := 2048.
Definition pbkdf2_bytes : nat := 64.
Definition bip39_pbkdf2 (input : bytes) (salt : str) : bytes :=
  pbkdf2 hmac_sha512 64 input (utf8 salt) pbkdf2_rounds pbkdf2_bytes.

(** ** src/bip39/mnemonic.rs *)

(** src/bip39/mnemonic.rs:40-44, struct Mnemonic *)
Record mnemonic := Mnemonic { m_phrase : str; m_lang : language; m_entropy : bytes }.

(** src/bip39/util.rs:4-26, IterExt::join (capacity computation dropped) *)
Definition iter_join (glue : str) (ws : list str) : str :=
  match ws with
  | [] => []
  | first :: rest => fold_left (fun buffer item => buffer ++ glue ++ item) rest first
  end.

(** src/bip39/mnemonic.rs:94-124, Mnemonic::from_entropy_unchecked *)
Definition from_entropy_unchecked (entropy : bytes) (lang : language) : R mnemonic :=
  let wl := wordlist lang in
  let* checksum_byte := sha256_first_byte entropy in
  let source := entropy ++ [checksum_byte] in
  let* idx := bi_collect (S (length source)) (bi_new source) in
  let* ws := traverse (get_word wl) idx in
  Ok (Mnemonic (iter_join (lit " ") ws) lang entropy).

(** src/bip39/mnemonic.rs:87-92, Mnemonic::from_entropy; [entropy.len() * 8] is a usize product *)
Definition from_entropy (entropy : bytes) (lang : language) : R mnemonic :=
  let* bits := mul_chk 64 (len entropy) 8 in
  let* _ := for_key_size bits in
  from_entropy_unchecked entropy lang.

(** src/bip39/mnemonic.rs:66-70, Mnemonic::new *)
Definition mnemonic_new (mtype : mnemonic_type) (lang : language) (rng : nat -> N) : R mnemonic :=
  let entropy := gen_random_bytes rng (entropy_bits mtype / 8) in
  from_entropy_unchecked entropy lang.

(** src/bip39/mnemonic.rs:194-196, the loop of phrase_to_entropy *)
Fixpoint push_words (m : wordmap) (ws : list str) (bits : bit_writer) : R bit_writer :=
  match ws with
  | [] => Ok bits
  | w :: ws' =>
      let* b := get_bits m w in
      let* bits' := bw_push bits b in
      push_words m ws' bits'
  end.

(** src/bip39/mnemonic.rs:188-221, Mnemonic::phrase_to_entropy *)
Definition phrase_to_entropy (phrase : str) (lang : language) : R bytes :=
  let* bits := push_words (wordmap_of lang) (split_char 32 phrase) bw_new in
  let* mtype := for_word_count (bw_len bits / 11) in
  let* _ := (if bw_len bits =? total_bits mtype then Ok tt else Panic) in
  let* entropy := bw_into_bytes bits in
  let entropy_bytes := entropy_bits mtype / 8 in
  let* last := index entropy entropy_bytes in
  let* actual_checksum := checksum last (checksum_bits mtype) in
  let entropy := firstn (N.to_nat entropy_bytes) entropy in
  let* checksum_byte := sha256_first_byte entropy in
  let* expected_checksum := checksum checksum_byte (checksum_bits mtype) in
  if actual_checksum =? expected_checksum then Ok entropy else Err InvalidChecksum.

(** src/bip39/mnemonic.rs:143-161, Mnemonic::from_phrase *)
Definition from_phrase (phrase : str) (lang : language) : R mnemonic :=
  let phrase := iter_join (lit " ") (map nfkd (split_whitespace phrase)) in
  let* entropy := phrase_to_entropy phrase lang in
  Ok (Mnemonic phrase lang entropy).

(** src/bip39/mnemonic.rs:177-181, Mnemonic::validate *)
Definition validate (phrase : str) (lang : language) : R unit :=
  let* _ := phrase_to_entropy phrase lang in Ok tt.

(** src/bip39/mnemonic.rs:229-233 and 322-326, into_phrase and From<Mnemonic> for String:
    the phrase is swapped out of the mnemonic, leaving the empty string behind *)
Definition into_phrase (m : mnemonic) : str * mnemonic :=
  (m_phrase m, Mnemonic [] (m_lang m) (m_entropy m)).

(** src/bip39/mnemonic.rs:276-286, AsRef<str> and Display (without width or fill flags) *)
Definition mnemonic_display (m : mnemonic) : str := m_phrase m.

(** [Debug for str], restricted to ASCII and the ideographs 4E00 - 9FA5 (all printable); [None] outside *)
Definition debug_char (c : N) : option str :=
  if (c =? 34) || (c =? 92) then Some [92; c]          (* the quotation mark, the backslash *)
  else if c =? 9 then Some (lit "\t")
  else if c =? 10 then Some (lit "\n")
  else if c =? 13 then Some (lit "\r")
  else if c =? 0 then Some (lit "\0")
  else if ((32 <=? c) && (c <? 127)) || ((0x4E00 <=? c) && (c <=? 0x9FA5)) then Some [c]
  else None.
Fixpoint debug_chars (s : str) : option str :=
  match s with
  | [] => Some []
  | c :: s' => match debug_char c, debug_chars s' with
               | Some a, Some b => Some (a ++ b)
               | _, _ => None
               end
  end.
Definition debug_str (s : str) : option str :=
  match debug_chars s with Some t => Some ([34] ++ t ++ [34]) | None => None end.

(** src/bip39/mnemonic.rs:288-292, Debug for Mnemonic.  [Panic] stands for "outside the modelled part of
    [Debug for str]" and is proved unreachable for every mnemonic that can be constructed. *)
Definition mnemonic_debug (m : mnemonic) : R str := or_panic (debug_str (m_phrase m)).

(** GB18030 encoder restricted to ASCII and the word-list characters; [None] outside that subset *)
Definition gb18030_char (c : N) : option bytes :=
  if c <? 128 then Some [c]
  else match assocN c gb_table with Some (a, b) => Some [a; b] | None => None end.
Fixpoint gb18030 (s : str) : option bytes :=
  match s with
  | [] => Some []
  | c :: s' => match gb18030_char c, gb18030 s' with
               | Some a, Some b => Some (a ++ b)
               | _, _ => None
               end
  end.

(** src/bip39/mnemonic.rs:262-273, Mnemonic::as_bytes.  [Panic] here stands for "outside the modelled
    part of GB18030" and is proved unreachable for every mnemonic that can be constructed. *)
Definition mnemonic_as_bytes (m : mnemonic) : R bytes :=
  if language_eqb (m_lang m) ChineseSimplified then or_panic (gb18030 (m_phrase m))
  else Ok (utf8 (m_phrase m)).

(** src/bip39/mnemonic.rs:294-320, LowerHex and UpperHex for Mnemonic; src/bip39/seed.rs:58-84 for Seed *)
Definition fmt_hex (upper alternate : bool) (l : bytes) : str :=
  (if alternate then lit "0x" else []) ++ flat_map (hex_byte upper) l.
Definition mnemonic_hex (upper alternate : bool) (m : mnemonic) : str := fmt_hex upper alternate (m_entropy m).

(** ** src/bip39/seed.rs *)

(** src/bip39/seed.rs:24-26 and 32-38, Seed::new; a seed is its bytes *)
Definition seed_new (m : mnemonic) (password : str) : R bytes :=
  let salt := lit "mnemonic" ++ password in
  let normalized_salt := nfkd salt in
  let* pw := mnemonic_as_bytes m in
  Ok (bip39_pbkdf2 pw normalized_salt).

(** src/bip39/seed.rs:52-84, LowerHex, UpperHex and Debug for Seed *)
Definition seed_hex (upper alternate : bool) (seed : bytes) : str := fmt_hex upper alternate seed.
Definition seed_debug (seed : bytes) : str := seed_hex true true seed.
