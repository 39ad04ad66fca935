(** src/bip39 as compiled in different ways.  ModelBip39.v is the crate on a 64-bit machine with overflow
    checks and debug assertions (a debug build).  Here the width of [usize] and the checks are parameters: a
    release build has neither, sums wrap around and shift amounts are reduced; wasm32 and other small
    machines have a [usize] of 32 bits.  Nothing else in src/bip39 or src/bip32 computes with [usize] or can
    overflow.  No buffer can be larger than [isize::MAX] bytes.  (The memory of the machine may run out before;
    that is not modelled.) *)
From Coq Require Import String.
From Verif Require Import Outcome Bytes Str Hash Nfkd ModelBip39 ModelBuffers.
Open Scope N_scope.

(** Width of [usize]; whether overflow checks and debug assertions are compiled in. *)
Record build := Build { usize : N; checks : bool }.
Definition build_ok (b : build) : Prop := usize b = 32 \/ usize b = 64.
(** The Rust semantics of arithmetic on unsigned numbers of width [w] *)
Definition add_in (b : build) (w x y : N) : R N := if checks b then add_chk w x y else Ok (wrap w (x + y)).
Definition mul_in (b : build) (w x y : N) : R N := if checks b then mul_chk w x y else Ok (wrap w (x * y)).
Definition sub_in (b : build) (w x y : N) : R N := if checks b then sub_chk x y else Ok (wrap w (2 ^ w + x - y)).
Definition shl_in (b : build) (w x k : N) : R N :=
  if checks b then shl_chk w x k else Ok (wrap w (N.shiftl x (k mod w))).
Definition shr_in (b : build) (w x k : N) : R N :=
  if checks b then shr_chk w x k else Ok (N.shiftr x (k mod w)).
(** [debug_assert!] *)
Definition debug_assert (b : build) (condition : bool) : R unit :=
  if checks b && negb condition then Panic else Ok tt.
(** The Rust standard library panics when a [String] or a [Vec<u8>] would need more than [isize::MAX] bytes.
    Capacities never become smaller, so it is enough to look at the last one. *)
Definition fits (b : build) (buf : buffer) : R unit := if buf_cap buf <? 2 ^ (usize b - 1) then Ok tt else Panic.
(** src/bip39/util.rs:117-121, 131 and 143: the vector behind the bit writer after these bytes *)
Definition writer_buffer (written : bytes) : buffer :=
  fold_left (fun buf _ => buf_push buf 1) written (buf_with_capacity (bw_capacity 264)).

(** src/bip39/util.rs:130-134, the while loop of BitWriter::push *)
Fixpoint drain_in (b : build) (fuel : nat) (w : bit_writer) : R bit_writer :=
  if 8 <=? bw_offset w then
    match fuel with
    | O => Panic
    | S fuel' =>
        let* top := shr_in b 32 (bw_remainder w) 24 in
        let* rem := shl_in b 32 (bw_remainder w) 8 in
        let* off := sub_in b (usize b) (bw_offset w) 8 in
        drain_in b fuel' (BitWriter off rem (bw_inner w ++ [wrap 8 top]))
    end
  else Ok w.
(** src/bip39/util.rs:124-135, BitWriter::push at type Bits11 *)
Definition push_in (b : build) (w : bit_writer) (source : bits11) : R bit_writer :=
  let* shift := sub_in b (usize b) 32 11 in
  let* x := shl_in b 32 source shift in
  let* y := shr_in b 32 x (bw_offset w) in
  let* off := add_in b (usize b) (bw_offset w) 11 in
  drain_in b (N.to_nat off) (BitWriter off (N.lor (bw_remainder w) y) (bw_inner w)).
(** src/bip39/util.rs:137-139, BitWriter::len *)
Definition len_in (b : build) (w : bit_writer) : R N :=
  let* n := mul_in b (usize b) (len (bw_inner w)) 8 in add_in b (usize b) n (bw_offset w).
(** src/bip39/util.rs:141-147, BitWriter::into_bytes *)
Definition into_bytes_in (b : build) (w : bit_writer) : R bytes :=
  if bw_offset w =? 0 then Ok (bw_inner w)
  else let* top := shr_in b 32 (bw_remainder w) 24 in Ok (bw_inner w ++ [wrap 8 top]).

(** src/bip39/util.rs:184-189, the while loop of BitIter::next *)
Fixpoint fill_in (b : build) (source : bytes) (read buffer : N) : R (option bit_iter) :=
  if read <? 11 then
    match source with
    | [] => Ok None
    | x :: source' =>
        let* read' := add_in b (usize b) read 8 in
        let* k := sub_in b (usize b) 64 read' in
        let* y := shl_in b 64 x k in
        fill_in b source' read' (N.lor buffer y)
    end
  else Ok (Some (BitIter source read buffer)).
(** src/bip39/util.rs:183-197, BitIter::next *)
Definition next_in (b : build) (it : bit_iter) : R (option (bits11 * bit_iter)) :=
  let* o := fill_in b (bi_source it) (bi_read it) (bi_buffer it) in
  match o with
  | None => Ok None
  | Some it' =>
      let* k := sub_in b (usize b) 64 11 in
      let* r := shr_in b 64 (bi_buffer it') k in
      let* buffer := shl_in b 64 (bi_buffer it') 11 in
      let* read := sub_in b (usize b) (bi_read it') 11 in
      Ok (Some (wrap 16 r, BitIter (bi_source it') read buffer))
  end.
(** The [for] loop inside [join], util.rs:20-23 *)
Fixpoint collect_in (b : build) (fuel : nat) (it : bit_iter) : R (list bits11) :=
  match fuel with
  | O => Panic
  | S fuel' =>
      let* o := next_in b it in
      match o with
      | None => Ok []
      | Some (x, it') => let* xs := collect_in b fuel' it' in Ok (x :: xs)
      end
  end.
(** src/bip39/util.rs:199-206 and 14-16: the lower size hint of what is left after the first item, and the
    capacity that [join] asks for *)
Definition reserve_in (b : build) (it : bit_iter) : R N :=
  let* bits := mul_in b (usize b) (len (bi_source it)) 8 in
  let* glue := add_in b (usize b) 10 (len (utf8 (lit " "))) in
  mul_in b (usize b) (bits / 11) glue.
(** src/bip39/util.rs:16-23, the buffer that [join] makes and fills *)
Definition joined (capacity : N) (ws : list str) : buffer :=
  match ws with
  | [] => buf_with_capacity capacity
  | first :: rest =>
      fold_left (fun buf w => buf_push (buf_push buf (len (utf8 (lit " ")))) (len (utf8 w))) rest
                (buf_push (buf_with_capacity capacity) (len (utf8 first)))
  end.

(** src/bip39/util.rs:210-214, checksum *)
Definition checksum_in (b : build) (source bits : N) : R N :=
  let* _ := debug_assert b (bits <=? 8) in
  let* k := sub_in b 8 8 bits in
  shr_in b 8 source k.

(** src/bip39/mnemonic.rs:194-196, the loop of phrase_to_entropy *)
Fixpoint write_words_in (b : build) (m : wordmap) (ws : list str) (bits : bit_writer) : R bit_writer :=
  match ws with
  | [] => Ok bits
  | w :: ws' =>
      let* x := get_bits m w in
      let* bits' := push_in b bits x in
      let* _ := fits b (writer_buffer (bw_inner bits')) in
      write_words_in b m ws' bits'
  end.
(** src/bip39/mnemonic.rs:188-221, Mnemonic::phrase_to_entropy *)
Definition phrase_to_entropy_in (b : build) (phrase : str) (lang : language) : R bytes :=
  let* bits := write_words_in b (wordmap_of lang) (split_char 32 phrase) bw_new in
  let* n := len_in b bits in
  let* mtype := for_word_count (n / 11) in
  let* _ := debug_assert b (n =? total_bits mtype) in
  let* entropy := into_bytes_in b bits in
  let* _ := fits b (writer_buffer entropy) in
  let entropy_bytes := entropy_bits mtype / 8 in
  let* last := index entropy entropy_bytes in
  let* actual_checksum := checksum_in b last (checksum_bits mtype) in
  let entropy := firstn (N.to_nat entropy_bytes) entropy in
  let* checksum_byte := sha256_first_byte entropy in
  let* expected_checksum := checksum_in b checksum_byte (checksum_bits mtype) in
  if actual_checksum =? expected_checksum then Ok entropy else Err InvalidChecksum.

(** src/bip39/mnemonic.rs:177-181, Mnemonic::validate *)
Definition validate_in (b : build) (phrase : str) (lang : language) : R unit :=
  let* _ := phrase_to_entropy_in b phrase lang in Ok tt.
(** src/bip39/mnemonic.rs:143-161, Mnemonic::from_phrase *)
Definition from_phrase_in (b : build) (phrase : str) (lang : language) : R mnemonic :=
  let* buf := from_phrase_buffer phrase in
  let* _ := fits b buf in
  let phrase := iter_join (lit " ") (map nfkd (split_whitespace phrase)) in
  let* entropy := phrase_to_entropy_in b phrase lang in
  Ok (Mnemonic phrase lang entropy).
(** src/bip39/mnemonic.rs:94-124, Mnemonic::from_entropy_unchecked *)
Definition from_entropy_unchecked_in (b : build) (entropy : bytes) (lang : language) : R mnemonic :=
  let* checksum_byte := sha256_first_byte entropy in
  let source := entropy ++ [checksum_byte] in
  let* o := next_in b (bi_new source) in
  match o with
  | None => Ok (Mnemonic [] lang entropy)
  | Some (x, it) =>
      let* capacity := reserve_in b it in
      let* xs := collect_in b (S (length source)) it in
      let* ws := traverse (get_word (wordlist lang)) (x :: xs) in
      let* _ := fits b (joined capacity ws) in
      Ok (Mnemonic (iter_join (lit " ") ws) lang entropy)
  end.
(** src/bip39/mnemonic.rs:87-92, Mnemonic::from_entropy *)
Definition from_entropy_in (b : build) (entropy : bytes) (lang : language) : R mnemonic :=
  let* bits := mul_in b (usize b) (len entropy) 8 in
  let* _ := for_key_size bits in
  from_entropy_unchecked_in b entropy lang.
(** src/bip39/mnemonic.rs:66-70, Mnemonic::new *)
Definition mnemonic_new_in (b : build) (mtype : mnemonic_type) (lang : language) (rng : nat -> N) : R mnemonic :=
  from_entropy_unchecked_in b (gen_random_bytes rng (entropy_bits mtype / 8)) lang.
