(** Kinds of build C130 - C132.

    Statements only: every theorem is closed by the lemma of the same name (in lower case) in
    BuildThms.v.  Generated by tools/gen_prop.py. *)
From Coq Require Import String.
From Verif Require Import Outcome Bytes Str Nfkd ModelBip39 SpecBip39 SpecBuilds ModelBuilds.
From Verif Require BuildThms.
Open Scope N_scope.

(** ** C130. Debug and release builds agree on machines of 32 and of 64 bits.  validate, from_phrase,
    from_entropy and Mnemonic::new return the same in builds with and without overflow checks and debug
    assertions, on machines with a usize of 32 and of 64 bits, for inputs (and, for from_phrase, normalised
    texts) below 2^29 or 2^61 bytes. *)
(** Debug and release builds on machines of 32 and of 64 bits do the same with inputs below 2^29 or 2^61
    bytes. *)
Theorem C130_builds_agree : forall b : build, build_ok b ->
  (forall (s : str) (l : language), len (utf8 s) < 2 ^ (usize b - 3) ->
     validate_in b s l = validate s l
     /\ (len (utf8 (spaced (map nfkd (split_whitespace s)))) < 2 ^ (usize b - 3) -> from_phrase_in b s l = from_phrase s l))
  /\ (forall (ent : bytes) (l : language), bytes_ok ent -> len ent < 2 ^ (usize b - 3) ->
        from_entropy_in b ent l = from_entropy ent l)
  /\ (forall (t : mnemonic_type) (l : language) (rng : nat -> N), (forall i, rng i < 256) ->
        mnemonic_new_in b t l rng = mnemonic_new t l rng).
Proof. exact BuildThms.c130_builds_agree. Qed.
Print Assumptions C130_builds_agree.
Example C130_example : build_ok (Build 32 false)
  /\ is_ok (validate_in (Build 32 false) (lit "abandon abandon abandon abandon abandon abandon abandon abandon abandon abandon abandon about") English) = true.
Proof. exact BuildThms.c130_example. Qed.

(** ** C131. Only sentences of the five lengths are accepted, in every build.  A text that validate or
    from_phrase accepts has 12, 15, 18, 21 or 24 words. FALSE for validate on 32 bits without overflow checks:
    bits.len() counts bits in a usize and starts again after 2^32, so that a sentence followed by 390451573
    further words of the list is accepted (with overflow checks it panics). True for from_phrase, whose buffer
    cannot hold so many words: it accepts the same texts in all builds. *)
(** A build without overflow checks accepts a text if all its words are in the list and the words that the
    counter sees are a sentence. *)
Theorem C131_without_checks : forall (width : N) (s : str) (l : language), build_ok (Build width false) ->
  len (utf8 s) < 2 ^ (width - 1) ->
  (validate_in (Build width false) s l = Ok tt
   <-> all_in_list l (split_char 32 s)
       /\ exists ent, bip39_sentence l (firstn (words_seen width (length (split_char 32 s))) (split_char 32 s)) ent).
Proof. exact BuildThms.c131_without_checks. Qed.
Print Assumptions C131_without_checks.
(** A build with overflow checks does what the model of the debug build on 64 bits does, or panics: exactly
    when all words are in the list and the number of their bits is too large. *)
Theorem C131_with_checks : forall (width : N) (s : str) (l : language), build_ok (Build width true) ->
  len (utf8 s) < 2 ^ (width - 1) ->
  (all_in_list l (split_char 32 s) /\ 2 ^ width <= 11 * len (split_char 32 s)
     -> validate_in (Build width true) s l = Panic)
  /\ (~ (all_in_list l (split_char 32 s) /\ 2 ^ width <= 11 * len (split_char 32 s))
     -> validate_in (Build width true) s l = validate s l).
Proof. exact BuildThms.c131_with_checks. Qed.
Print Assumptions C131_with_checks.
Theorem C131_appended_words : forall (l : language) (ws more : list str) (ent : bytes),
  bip39_sentence l ws ent -> all_in_list l more -> len more = one_lap -> len (utf8 (spaced (ws ++ more))) < 2 ^ 31 ->
  validate_in (Build 32 false) (spaced (ws ++ more)) l = Ok tt
  /\ validate_in (Build 32 true) (spaced (ws ++ more)) l = Panic.
Proof. exact BuildThms.c131_appended_words. Qed.
Print Assumptions C131_appended_words.
(** A text of less than 2^31 bytes with more than 24 words that is accepted. *)
Theorem C131_length_checked_refuted : exists (b : build) (s : str) (l : language),
  build_ok b /\ len (utf8 s) < 2 ^ (usize b - 1) /\ validate_in b s l = Ok tt
  /\ (24 < length (split_char 32 s))%nat.
Proof. exact BuildThms.c131_length_checked_refuted. Qed.
Print Assumptions C131_length_checked_refuted.
(** The buffer of [from_phrase] cannot hold so many words: it accepts the same texts in all builds. *)
Theorem C131_from_phrase : forall (b : build) (s : str) (l : language) (m : mnemonic), build_ok b ->
  (from_phrase_in b s l = Ok m <-> from_phrase s l = Ok m).
Proof. exact BuildThms.c131_from_phrase. Qed.
Print Assumptions C131_from_phrase.
Example C131_example : words_seen 32 (12 + N.to_nat one_lap) = 12%nat /\ words_seen 64 (12 + N.to_nat one_lap) = (12 + N.to_nat one_lap)%nat.
Proof. exact BuildThms.c131_example. Qed.

(** ** C132. Entropy of any other size is refused with an error, in every build.  from_entropy returns
    InvalidKeysize for every length other than 16, 20, 24, 28 and 32. FALSE on 32 bits: entropy.len() * 8
    overflows from 2^29 bytes on. With overflow checks it panics; without, it looks only at the length modulo
    2^29, and every entropy of 2^29 + 16 bytes becomes a Chinese mnemonic of 390451584 words. *)
(** A build without overflow checks looks only at the remainder of the length modulo 2^29 or 2^61: if that is
    one of the five sizes, it goes on to make a phrase of all the bytes.  Only a phrase of more than a quarter of
    the address space can fail. *)
Theorem C132_without_checks : forall (width : N) (ent : bytes) (l : language), build_ok (Build width false) -> bytes_ok ent ->
  (In (len ent mod 2 ^ (width - 3)) [16; 20; 24; 28; 32] ->
     exists ws, length ws = ((8 * (length ent + 1)) / 11)%nat /\ all_in_list l ws
             /\ (from_entropy_in (Build width false) ent l = Ok (Mnemonic (spaced ws) l ent)
                 \/ (from_entropy_in (Build width false) ent l = Panic /\ 2 ^ (width - 2) <= len (utf8 (spaced ws)) + 1)))
  /\ (~ In (len ent mod 2 ^ (width - 3)) [16; 20; 24; 28; 32] ->
     from_entropy_in (Build width false) ent l = Err (InvalidKeysize (8 * (len ent mod 2 ^ (width - 3))))).
Proof. exact BuildThms.c132_without_checks. Qed.
Print Assumptions C132_without_checks.
(** A build with overflow checks panics from 2^29 or 2^61 bytes on. *)
Theorem C132_with_checks : forall (width : N) (ent : bytes) (l : language), build_ok (Build width true) ->
  2 ^ (width - 3) <= len ent -> from_entropy_in (Build width true) ent l = Panic.
Proof. exact BuildThms.c132_with_checks. Qed.
Print Assumptions C132_with_checks.
(** Every entropy of 2^29 + 16 bytes is made into a Chinese phrase. *)
Theorem C132_long_chinese : forall ent : bytes, bytes_ok ent -> len ent = 2 ^ 29 + 16 ->
  exists ws, length ws = ((8 * (length ent + 1)) / 11)%nat /\ all_in_list ChineseSimplified ws
          /\ from_entropy_in (Build 32 false) ent ChineseSimplified = Ok (Mnemonic (spaced ws) ChineseSimplified ent).
Proof. exact BuildThms.c132_long_chinese. Qed.
Print Assumptions C132_long_chinese.
(** On 32 bits there are entropies of illegal size, of less than 2^31 bytes, that no build refuses with an
    error: one panics, the other makes a phrase. *)
Theorem C132_refused_refuted : exists (ent : bytes) (l : language),
  bytes_ok ent /\ len ent < 2 ^ 31 /\ ~ legal_entropy ent
  /\ from_entropy_in (Build 32 true) ent l = Panic
  /\ exists m, from_entropy_in (Build 32 false) ent l = Ok m.
Proof. exact BuildThms.c132_refused_refuted. Qed.
Print Assumptions C132_refused_refuted.
Example C132_example : 536870928 mod 2 ^ (32 - 3) = 16 /\ from_entropy_in (Build 32 false) [] English = Err (InvalidKeysize 0).
Proof. exact BuildThms.c132_example. Qed.
