(** How large the buffers for secret text are made, and whether their contents are moved while they are
    filled.  [Zeroizing] (src/bip39/mnemonic.rs:98, 112, 144) wipes only the final buffer, so every move
    leaves a partial copy of the secret behind. *)
From Coq Require Import String.
From Verif Require Import Outcome Bytes Str Hash Nfkd ModelBip39.
Open Scope N_scope.

(** The part of a Rust [String] or [Vec<u8>] that concerns memory: capacity, length, and how often contents
    have been moved to a larger allocation.  (The allocator may be able to grow in place; the model counts
    the requests.) *)
Record buffer := Buffer { buf_cap : N; buf_len : N; buf_moves : N }.
Definition buf_with_capacity (c : N) : buffer := Buffer c 0 0.

(** [RawVec::reserve] and [grow_amortized] of the Rust standard library (not part of /repo): at least
    doubled, at least 8 bytes. *)
Definition buf_reserve (b : buffer) (k : N) : buffer :=
  if buf_cap b - buf_len b <? k then
    Buffer (N.max 8 (N.max (2 * buf_cap b) (buf_len b + k))) (buf_len b)
           (buf_moves b + (if buf_len b =? 0 then 0 else 1))
  else b.
Definition buf_push (b : buffer) (k : N) : buffer :=
  let b' := buf_reserve b k in Buffer (buf_cap b') (buf_len b' + k) (buf_moves b').

(** src/bip39/util.rs:4-26, IterExt::join at [&str] (write_into is push_str, util.rs:43-47); [lower] is the
    lower size hint of the iterator after its first item *)
Definition join_words_buffer (lower : N) (glue : str) (ws : list str) : R buffer :=
  match ws with
  | [] => Ok (buf_with_capacity 0)
  | first :: rest =>
      let* c := join_capacity lower glue in
      Ok (fold_left (fun b w => buf_push (buf_push b (len (utf8 glue))) (len (utf8 w))) rest
                    (buf_push (buf_with_capacity c) (len (utf8 first))))
  end.

(** src/bip39/mnemonic.rs:94-124, the buffer of the phrase in Mnemonic::from_entropy_unchecked *)
Definition from_entropy_buffer (entropy : bytes) (lang : language) : R buffer :=
  let* checksum_byte := sha256_first_byte entropy in
  let source := entropy ++ [checksum_byte] in
  let* o := bi_next (bi_new source) in
  match o with
  | None => Ok (buf_with_capacity 0)
  | Some (x, it) =>
      let* h := bi_size_hint it in
      let* xs := bi_collect (S (length source)) it in
      let* ws := traverse (get_word (wordlist lang)) (x :: xs) in
      join_words_buffer (fst h) (lit " ") ws
  end.

(** src/bip39/util.rs:49-54, write_into for Decompositions: [String::extend] reserves the lower size hint,
    a quarter of the bytes of the original word, and pushes the characters one by one *)
Definition extend_nfkd (b : buffer) (w : str) : buffer :=
  fold_left (fun b c => buf_push b (len (utf8_char c))) (nfkd w) (buf_reserve b ((len (utf8 w) + 3) / 4)).

(** src/bip39/mnemonic.rs:143-147, the buffer of the phrase in Mnemonic::from_phrase.  The lower size hint of
    [SplitWhitespace] is 0, so [join] (util.rs:14-16) reserves nothing. *)
Definition from_phrase_buffer (phrase : str) : R buffer :=
  match split_whitespace phrase with
  | [] => Ok (buf_with_capacity 0)
  | first :: rest =>
      let* c := join_capacity 0 (lit " ") in
      Ok (fold_left (fun b w => extend_nfkd (buf_push b (len (utf8 (lit " ")))) w) rest
                    (extend_nfkd (buf_with_capacity c) first))
  end.
