(** How much work reading a phrase takes: phrase_to_entropy of ModelLangs.v with counters.  That they change no
    result is proved (C159). *)
From Coq Require Import String.
From Verif Require Import Outcome Bytes Str Hash Nfkd ModelBip39 ModelLangs ModelCost.
Open Scope N_scope.

(** Words looked up in the word map, bytes in the buffer of the bit writer when the last word has been read,
    blocks of SHA-256. *)
Record reading := mkReading { look_ups : N; buffered : N; blocks : N }.

(** src/bip39/mnemonic.rs:194-196, the loop of phrase_to_entropy: one look-up per word, the unknown one included *)
Fixpoint push_words_count (m : wordmap) (ws : list str) (bits : bit_writer) : R bit_writer * N :=
  match ws with
  | [] => (Ok bits, 0)
  | w :: ws' =>
      match (let* b := get_bits m w in bw_push bits b) with
      | Ok bits' => let '(r, n) := push_words_count m ws' bits' in (r, 1 + n)
      | Err e => (Err e, 1)
      | Panic => (Panic, 1)
      end
  end.
(** src/bip39/mnemonic.rs:188-221, Mnemonic::phrase_to_entropy: the number of words is checked after the loop *)
Definition phrase_to_entropy_count (phrase : str) (lang : language_all) : R bytes * reading :=
  match push_words_count (wordmap_all lang) (split_char 32 phrase) bw_new with
  | (Ok bits, n) =>
      let stop := mkReading n (len (bw_inner bits)) 0 in
      match (let* mtype := for_word_count (bw_len bits / 11) in
             let* _ := (if bw_len bits =? total_bits mtype then Ok tt else Panic) in
             let* entropy := bw_into_bytes bits in
             let entropy_bytes := entropy_bits mtype / 8 in
             let* last := index entropy entropy_bytes in
             let* actual_checksum := checksum last (checksum_bits mtype) in
             Ok (mtype, actual_checksum, firstn (N.to_nat entropy_bytes) entropy)) with
      | Ok (mtype, actual_checksum, entropy) =>
          (let* checksum_byte := sha256_first_byte entropy in
           let* expected_checksum := checksum checksum_byte (checksum_bits mtype) in
           if actual_checksum =? expected_checksum then Ok entropy else Err InvalidChecksum,
           mkReading n (len (bw_inner bits)) (sha256_blocks entropy))
      | Err e => (Err e, stop)
      | Panic => (Panic, stop)
      end
  | (Err e, n) => (Err e, mkReading n 0 0)
  | (Panic, n) => (Panic, mkReading n 0 0)
  end.
(** src/bip39/mnemonic.rs:143-161, Mnemonic::from_phrase *)
Definition from_phrase_count (phrase : str) (lang : language_all) : R mnemonic_all * reading :=
  let phrase := iter_join (lit " ") (map nfkd (split_whitespace phrase)) in
  let '(r, w) := phrase_to_entropy_count phrase lang in
  (let* entropy := r in Ok (MnemonicAll phrase lang entropy), w).
