(** Secrets on the heap C110 - C111.

    Statements only: every theorem is closed by the lemma of the same name (in lower case) in
    FreedThms.v.  Generated by tools/gen_prop.py. *)
From Coq Require Import String.
From Verif Require Import Outcome Bytes Str ModelBip39 SpecBip39 SpecUnicode ModelFreed.
From Verif Require Bip39Thms FreedThms.
Import Bip39Thms(ex_entropy, ex_phrase, ex_mnemonic).
Open Scope N_scope.

(** ** C110. Reading a phrase leaves no entropy on the heap.  Mnemonic::validate and Mnemonic::from_phrase
    give every block of memory that has held entropy back wiped. FALSE: validate leaves the whole entropy of
    every phrase it accepts, and both leave it when a phrase is rejected: all of it if only the checksum is
    wrong, and the bits of all words before the first unknown word after a typing error. True only for phrases
    that from_phrase accepts. *)
(** The model with memory returns what the functions return. *)
Theorem C110_same_results : forall (s : str) (l : language),
  fst (validate_mem s l) = validate s l /\ fst (from_phrase_mem s l) = from_phrase s l.
Proof. exact FreedThms.c110_same_results. Qed.
Print Assumptions C110_same_results.
(** A phrase that is accepted by [from_phrase] leaves nothing. *)
Theorem C110_accepted_partial : forall (s : str) (l : language) (m : mnemonic),
  from_phrase s l = Ok m -> snd (from_phrase_mem s l) = [].
Proof. exact FreedThms.c110_accepted_partial. Qed.
Print Assumptions C110_accepted_partial.
(** [validate] leaves the entropy of every phrase that it accepts, and both leave that of every phrase that
    fails only by its checksum. *)
Theorem C110_entropy_left : forall (l : language) (ws : list str) (ent : bytes) (cs : list bool),
  bytes_ok ent -> legal_entropy ent -> length cs = cs_bits ent -> encodes l ws (bits_of_bytes ent ++ cs) ->
  exists x, snd (validate_mem (spaced ws) l) = [ent ++ [x]]
    /\ (cs <> checksum_of ent -> from_phrase (spaced ws) l = Err InvalidChecksum
                                 /\ snd (from_phrase_mem (spaced ws) l) = [ent ++ [x]]).
Proof. exact FreedThms.c110_entropy_left. Qed.
Print Assumptions C110_entropy_left.
(** A word that is not in the list (a typing error) leaves the bits of all words before it, up to the last
    whole byte; so does a phrase that is too short or too long. *)
Theorem C110_typing_error : forall (l : language) (good : list str) (bad : str) (rest : list str) (bits : list bool),
  good <> [] -> encodes l good bits -> ~ In bad (bip39_list l) ->
  Forall (fun w => In w (bip39_list l) \/ w <> [] /\ Forall (fun c => 33 <= c <= 126) w) (bad :: rest) ->
  let s := spaced (good ++ bad :: rest) in
  from_phrase s l = Err InvalidWord /\ validate s l = Err InvalidWord
  /\ exists b tail, bits = bits_of_bytes b ++ tail /\ (length tail < 8)%nat
       /\ In b (snd (from_phrase_mem s l)) /\ In b (snd (validate_mem s l)).
Proof. exact FreedThms.c110_typing_error. Qed.
Print Assumptions C110_typing_error.
Theorem C110_wrong_count : forall (l : language) (ws : list str) (bits : list bool),
  ws <> [] -> encodes l ws bits -> ~ legal_count (length ws) ->
  from_phrase (spaced ws) l = Err (InvalidWordLength (len ws))
  /\ exists b tail, bits = bits_of_bytes b ++ tail /\ (length tail < 8)%nat
       /\ In b (snd (from_phrase_mem (spaced ws) l)) /\ In b (snd (validate_mem (spaced ws) l)).
Proof. exact FreedThms.c110_wrong_count. Qed.
Print Assumptions C110_wrong_count.
Theorem C110_nothing_left_refuted :
  ~ (forall (s : str) (l : language), validate s l = Ok tt -> snd (validate_mem s l) = [])
  /\ ~ (forall (s : str) (l : language), snd (from_phrase_mem s l) = []).
Proof. exact FreedThms.c110_nothing_left_refuted. Qed.
Print Assumptions C110_nothing_left_refuted.
(** The vector behind a bit writer leaves a copy of its beginning at each size that it outgrows, and nothing
    else. *)
Theorem C110_growth : forall (capacity : N) (d b : bytes),
  In b (v_freed (vec_of capacity d)) <->
  exists k, 0 < grown (bw_capacity capacity) k < len d /\ b = firstn (N.to_nat (grown (bw_capacity capacity) k)) d.
Proof. exact FreedThms.c110_growth. Qed.
Print Assumptions C110_growth.
(** For entropy with its checksum (17 to 33 bytes) nothing is left while it is read exactly if all of it has
    been reserved. *)
Theorem C110_reserve : forall (capacity : N) (d : bytes), 17 <= len d <= 33 ->
  (v_freed (vec_of capacity d) = [] <-> len d <= bw_capacity capacity).
Proof. exact FreedThms.c110_reserve. Qed.
Print Assumptions C110_reserve.
(** The phrase of the tests with an error in its last word leaves 15 of its 16 bytes; [validate] of the
    correct phrase leaves them all. *)
Example C110_example : exists x,
  snd (validate_mem (lit "crop cash unable insane eight faith inflict route frame loud box vibrant") English) = [ex_entropy ++ [x]]
  /\ snd (from_phrase_mem (lit "crop cash unable insane eight faith inflict route frame loud box vibrent") English) = [firstn 15 ex_entropy].
Proof. exact FreedThms.c110_example. Qed.

(** ** C111. Making a seed leaves no phrase and no passphrase on the heap.  Seed::new gives back no block of
    memory with the phrase or the passphrase in it. FALSE: every call leaves both as plain bytes (UTF-8,
    GB18030 for Chinese), and what is left determines the mnemonic and the passphrase. *)
(** The model with memory returns what [Seed::new] returns. *)
Theorem C111_same_results : forall (m : mnemonic) (pw : str), fst (seed_new_mem m pw) = seed_new m pw.
Proof. exact FreedThms.c111_same_results. Qed.
Print Assumptions C111_same_results.
(** Every call leaves the passphrase and, for English, the phrase as plain text. *)
Theorem C111_plain_text : forall (m : mnemonic) (pw : str), constructible m -> Forall is_scalar pw ->
  (exists b, In b (snd (seed_new_mem m pw)) /\ is_utf8 (lit "mnemonic" ++ pw) b)
  /\ (m_lang m = English -> exists b, In b (snd (seed_new_mem m pw)) /\ is_utf8 (m_phrase m) b).
Proof. exact FreedThms.c111_plain_text. Qed.
Print Assumptions C111_plain_text.
(** What is left determines the mnemonic (in either language) and the passphrase. *)
Theorem C111_everything_left : forall (m m' : mnemonic) (pw pw' : str),
  constructible m -> constructible m' -> Forall is_scalar pw -> Forall is_scalar pw' ->
  snd (seed_new_mem m pw) = snd (seed_new_mem m' pw') -> m = m' /\ pw = pw'.
Proof. exact FreedThms.c111_everything_left. Qed.
Print Assumptions C111_everything_left.
(** So it is false that [Seed::new] leaves nothing. *)
Theorem C111_nothing_left_refuted : ~ (forall (m : mnemonic) (pw : str), constructible m -> snd (seed_new_mem m pw) = []).
Proof. exact FreedThms.c111_nothing_left_refuted. Qed.
Print Assumptions C111_nothing_left_refuted.
Example C111_example : snd (seed_new_mem ex_mnemonic (lit "TREZOR")) = [ex_phrase; lit "mnemonicTREZOR"; lit "mnemonicTREZOR"].
Proof. exact FreedThms.c111_example. Qed.
