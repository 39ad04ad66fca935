(** What is left in local buffers C96 - C98.

    Statements only: every theorem is closed by the lemma of the same name (in lower case) in
    MemoryThms.v.  Generated by tools/gen_prop.py. *)
From Coq Require Import String.
From Verif Require Import Outcome Bytes Str Hash Base58 ModelBip32 ModelMemory SpecBip32.
From Verif Require KeyTextThms MemoryThms.
Import KeyTextThms(ex_text, ex_ext).
Import MemoryThms(ex_typo).
Open Scope N_scope.

(** ** C96. Reading an extended key wipes the copy it works on.  When ExtendedKey::from_str returns, the array
    that held the decoded 82 bytes, key material included, holds zeros only; decoding character by character
    into that array gives the same results as the rest of the model. *)
(** C96.  The model with the buffer gives the results of the model used everywhere else. *)
Theorem C96_same_results : forall s : str, fst (ek_from_str_mem s) = ek_from_str s.
Proof. exact MemoryThms.c96_same_results. Qed.
Print Assumptions C96_same_results.
(** What holds: the copy is wiped when the text is accepted.  Missing: the same for rejected texts. *)
Theorem C96_wiped_partial : forall (s : str) (e : extended_key), ek_from_str s = Ok e ->
  snd (ek_from_str_mem s) = repeat 0 82.
Proof. exact MemoryThms.c96_wiped_partial. Qed.
Print Assumptions C96_wiped_partial.
(** What fails: every text of 78 bytes with a wrong checksum is rejected and leaves the 78 bytes behind. *)
Theorem C96_wrong_checksum_leaves_key : forall (payload sum : bytes) (s : str),
  has_bytes 78 payload -> has_bytes 4 sum -> sum <> firstn 4 (sha256 (sha256 payload)) -> is_base58 (payload ++ sum) s ->
  ek_from_str s = Err EBase58 /\ snd (ek_from_str_mem s) = payload ++ sum.
Proof. exact MemoryThms.c96_wrong_checksum_leaves_key. Qed.
Print Assumptions C96_wrong_checksum_leaves_key.
(** A text that is rejected because of a character leaves everything before that character behind: the number
    that it denotes, least significant byte first. *)
Theorem C96_bad_character_leaves_prefix : forall (ds : list N) (c : N) (rest : str),
  Forall (fun d => d < 58) ds -> digits_val 58 ds < 256 ^ 82 -> ~ In c base58_symbols ->
  let s := map (fun d => nth (N.to_nat d) base58_symbols 0) ds ++ c :: rest in
  ek_from_str s = Err EBase58
  /\ length (snd (ek_from_str_mem s)) = 82%nat /\ digits_val 256 (rev (snd (ek_from_str_mem s))) = digits_val 58 ds.
Proof. exact MemoryThms.c96_bad_character_leaves_prefix. Qed.
Print Assumptions C96_bad_character_leaves_prefix.
(** A text with a right checksum for too few bytes is rejected and leaves them behind. *)
Theorem C96_wrong_length_leaves_payload : forall (payload : bytes) (s : str), bytes_ok payload -> len payload < 78 -> base58check payload s ->
  ek_from_str s = Err EDecode
  /\ snd (ek_from_str_mem s) = payload ++ firstn 4 (sha256 (sha256 payload)) ++ repeat 0 (78 - length payload).
Proof. exact MemoryThms.c96_wrong_length_leaves_payload. Qed.
Print Assumptions C96_wrong_length_leaves_payload.
Theorem C96_always_wiped_refuted : ~ forall s : str, snd (ek_from_str_mem s) = repeat 0 82.
Proof. exact MemoryThms.c96_always_wiped_refuted. Qed.
Print Assumptions C96_always_wiped_refuted.
Example C96_example : ek_from_str ex_text = Ok ex_ext /\ snd (ek_from_str_mem ex_text) = repeat 0 82
  /\ ek_from_str ex_typo = Err EBase58 /\ slice 45 78 (snd (ek_from_str_mem ex_typo)) = key_bytes ex_ext
  /\ digits_val 256 (rev (snd (ek_from_str_mem (removelast ex_text ++ lit "0")))) = digits_val 256 (snd (ek_from_str_mem ex_typo)) / 58.
Proof. exact MemoryThms.c96_example. Qed.

(** ** C97. Writing an extended key wipes the copy it works on.  When write_base58 returns, the array in which
    it assembled the 78 bytes of the key holds zeros only, and the result is the text of the key. *)
Theorem C97_writer_wipes : forall e : extended_key, valid_ext e ->
  fst (write_base58_mem e) = write_base58 e /\ fst (snd (write_base58_mem e)) = repeat 0 78.
Proof. exact MemoryThms.c97_writer_wipes. Qed.
Print Assumptions C97_writer_wipes.
Example C97_example : valid_ext ex_ext /\ fst (write_base58_mem ex_ext) = Ok ex_text.
Proof. exact MemoryThms.c97_example. Qed.

(** ** C98. Formatting an extended key leaves no copy behind.  When Display of ExtendedKey returns, the buffer
    in which it assembled the text, which contains the key, holds zeros only. *)
(** C98: formatting leaves the whole text behind, which is the key. *)
Theorem C98_display_leaves_text : forall (e : extended_key) (s : str), valid_ext e -> ek_to_string e = Ok s ->
  fst (ek_display_mem e) = Ok s /\ snd (ek_display_mem e) = s ++ repeat 0 (112 - length s).
Proof. exact MemoryThms.c98_display_leaves_text. Qed.
Print Assumptions C98_display_leaves_text.
Theorem C98_display_wipes_refuted : ~ forall e : extended_key, valid_ext e -> snd (ek_display_mem e) = repeat 0 112.
Proof. exact MemoryThms.c98_display_wipes_refuted. Qed.
Print Assumptions C98_display_wipes_refuted.
Example C98_example : ek_to_string ex_ext = Ok ex_text /\ firstn 111 (snd (ek_display_mem ex_ext)) = ex_text
  /\ ek_from_str ex_text = Ok ex_ext.
Proof. exact MemoryThms.c98_example. Qed.
