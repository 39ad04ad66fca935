(** What the functions of src/bip39 leave on the heap: the contents of the blocks of memory that are given
    back to the allocator without having been overwritten.  [Zeroizing] (src/bip39/mnemonic.rs:98, 112, 144,
    152) overwrites a block before it is given back; a plain [Vec] or [String] does not. *)
From Coq Require Import String.
From Verif Require Import Outcome Bytes Str Hash Nfkd ModelBip39.
Open Scope N_scope.

(** A [Vec<u8>]: its capacity, its contents, and the contents of the blocks it has given back when it grew.
    (The allocator may be able to grow in place; the model counts every request as a move.) *)
Record vec := Vec { v_cap : N; v_data : bytes; v_freed : list bytes }.
Definition vec_with_capacity (c : N) : vec := Vec c [] [].

(** [Vec::push] of the Rust standard library (not part of /repo): a full vector moves to a block of at least
    twice the size and at least 8 bytes. *)
Definition vec_push (v : vec) (b : N) : vec :=
  if len (v_data v) <? v_cap v then Vec (v_cap v) (v_data v ++ [b]) (v_freed v)
  else Vec (N.max 8 (2 * v_cap v)) (v_data v ++ [b])
           (v_freed v ++ (match v_data v with [] => [] | d => [d] end)).

(** The sizes that a growing vector goes through. *)
Fixpoint grown (c : N) (k : nat) : N := match k with O => c | S k' => N.max 8 (2 * grown c k') end.

(** The blocks given back unwiped once the vector itself has been dropped. *)
Definition vec_dropped (v : vec) : list bytes :=
  v_freed v ++ (match v_data v with [] => [] | d => [d] end).

(** src/bip39/util.rs:117-121, 131 and 143: the vector behind a bit writer of the given capacity (in bits)
    once it contains these bytes; the code appends to it byte by byte and does nothing else with it *)
Definition vec_of (capacity : N) (written : bytes) : vec :=
  fold_left vec_push written (vec_with_capacity (bw_capacity capacity)).

(** src/bip39/mnemonic.rs:194-196, the loop over the words, with the bit writer at the moment the loop ends
    or is left by [?] (a panic leaves the writer it started with; there is none, see C14) *)
Fixpoint push_words_mem (m : wordmap) (ws : list str) (bits : bit_writer) : R bit_writer * bit_writer :=
  match ws with
  | [] => (Ok bits, bits)
  | w :: ws' =>
      match get_bits m w with
      | Ok b =>
          match bw_push bits b with
          | Ok bits' => push_words_mem m ws' bits'
          | Err e => (Err e, bits)
          | Panic => (Panic, bits)
          end
      | Err e => (Err e, bits)
      | Panic => (Panic, bits)
      end
  end.

(** src/bip39/mnemonic.rs:188-221, Mnemonic::phrase_to_entropy, with the vector behind the entropy at the
    moment of the return.  [truncate] (line 209) only lowers the length: the block keeps its bytes. *)
Definition phrase_to_entropy_mem (phrase : str) (lang : language) : R bytes * vec :=
  match push_words_mem (wordmap_of lang) (split_char 32 phrase) bw_new with
  | (Ok bits, _) =>
      match for_word_count (bw_len bits / 11) with
      | Ok mtype =>
          if bw_len bits =? total_bits mtype then
            match bw_into_bytes bits with
            | Ok entropy =>
                (let entropy_bytes := entropy_bits mtype / 8 in
                 let* last := index entropy entropy_bytes in
                 let* actual_checksum := checksum last (checksum_bits mtype) in
                 let entropy := firstn (N.to_nat entropy_bytes) entropy in
                 let* checksum_byte := sha256_first_byte entropy in
                 let* expected_checksum := checksum checksum_byte (checksum_bits mtype) in
                 if actual_checksum =? expected_checksum then Ok entropy else Err InvalidChecksum,
                 vec_of 264 entropy)
            | Err e => (Err e, vec_of 264 (bw_inner bits))
            | Panic => (Panic, vec_of 264 (bw_inner bits))
            end
          else (Panic, vec_of 264 (bw_inner bits))
      | Err e => (Err e, vec_of 264 (bw_inner bits))
      | Panic => (Panic, vec_of 264 (bw_inner bits))
      end
  | (Err e, bits) => (Err e, vec_of 264 (bw_inner bits))
  | (Panic, bits) => (Panic, vec_of 264 (bw_inner bits))
  end.

(** src/bip39/mnemonic.rs:177-181, Mnemonic::validate, with the blocks it leaves: the vector is dropped in
    either case *)
Definition validate_mem (phrase : str) (lang : language) : R unit * list bytes :=
  let '(r, v) := phrase_to_entropy_mem phrase lang in
  ((let* _ := r in Ok tt), vec_dropped v).

(** src/bip39/mnemonic.rs:143-161, Mnemonic::from_phrase, with the blocks that the vector of the entropy
    leaves: an accepted entropy is kept in [Zeroizing] (line 152), otherwise [?] drops the plain vector.
    (The normalised phrase and its buffer are the subject of C71.) *)
Definition from_phrase_mem (phrase : str) (lang : language) : R mnemonic * list bytes :=
  let phrase := iter_join (lit " ") (map nfkd (split_whitespace phrase)) in
  let '(r, v) := phrase_to_entropy_mem phrase lang in
  match r with
  | Ok entropy => (Ok (Mnemonic phrase lang entropy), v_freed v)
  | Err e => (Err e, vec_dropped v)
  | Panic => (Panic, vec_dropped v)
  end.

(** src/bip39/seed.rs:32-38, Seed::new, with the final blocks of [normalized_salt], [salt] and of the bytes
    of the phrase (mnemonic.rs:262-273), none of which is wiped.  (Blocks that these texts leave while they
    grow are not counted.) *)
Definition seed_new_mem (m : mnemonic) (password : str) : R bytes * list bytes :=
  let salt := lit "mnemonic" ++ password in
  let normalized_salt := nfkd salt in
  match mnemonic_as_bytes m with
  | Ok pw => (Ok (bip39_pbkdf2 pw normalized_salt), [pw; utf8 normalized_salt; utf8 salt])
  | Err e => (Err e, [utf8 normalized_salt; utf8 salt])
  | Panic => (Panic, [utf8 normalized_salt; utf8 salt])
  end.
