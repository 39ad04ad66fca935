(** What BIP39 says, written down independently of the code: bit groups, word lists, sentences.
    (https://github.com/bitcoin/bips/blob/master/bip-0039.mediawiki)
    Shared with the model: the byte/bit vocabulary of Bytes.v, SHA-256, NFKD, the Rust [str] functions of
    Str.v, and the type [language]. *)
From Coq Require Import String.
From Verif Require Import Outcome Bytes Str Hash Nfkd EnglishTxt ChineseTxt ModelBip39.
Open Scope N_scope.

(** The published word list: the lines of the text file. *)
Definition lines (s : str) : list str :=
  filter (fun w => match w with [] => false | _ => true end) (split_char 10 s).
Definition bip39_list (l : language) : list str :=
  lines (utf8_decode (lit (match l with English => english_txt | ChineseSimplified => chinese_simplified_txt end))).

(** [w] is word number [i] of the list. *)
Definition is_word (l : language) (i : N) (w : str) : Prop := nth_error (bip39_list l) (N.to_nat i) = Some w.

(** The [i]-th group of 11 bits of a bit string, and all complete groups in order. *)
Definition group (i : nat) (b : list bool) : list bool := firstn 11 (skipn (11 * i) b).
Definition groups (b : list bool) : list (list bool) := map (fun i => group i b) (seq 0 (length b / 11)).

(** Legal entropy sizes in bytes; number of checksum bits ENT/32; number of words (ENT + ENT/32) / 11. *)
Definition legal_entropy (ent : bytes) : Prop := In (length ent) [16; 20; 24; 28; 32]%nat.
Definition legal_count (n : nat) : Prop := In n [12; 15; 18; 21; 24]%nat.
Definition cs_bits (ent : bytes) : nat := (8 * length ent / 32)%nat.
Definition ms_words (ent : bytes) : nat := ((8 * length ent + cs_bits ent) / 11)%nat.

(** The checksum bits of an entropy, and entropy with checksum appended. *)
Definition checksum_of (ent : bytes) : list bool := firstn (cs_bits ent) (bits_of_bytes (sha256 ent)).
Definition with_checksum (ent : bytes) : list bool := bits_of_bytes ent ++ checksum_of ent.

(** [ws] are the words encoding the bit string [b] in language [l]. *)
Definition encodes (l : language) (ws : list str) (b : list bool) : Prop :=
  exists idx : list N, Forall2 (is_word l) idx ws /\ Forall (fun i => i < 2048) idx /\ flat_map (bits_of 11) idx = b.

(** [ws] is the BIP39 sentence for the entropy [ent] in language [l]. *)
Definition bip39_sentence (l : language) (ws : list str) (ent : bytes) : Prop :=
  bytes_ok ent /\ legal_entropy ent /\ encodes l ws (with_checksum ent).

(** Text layout: words separated by single spaces. *)
Fixpoint spaced (ws : list str) : str :=
  match ws with
  | [] => []
  | [w] => w
  | w :: ws' => w ++ [32] ++ spaced ws'
  end.

(** General layout: optional white space, then each word followed by its own run of white space
    (the runs between words must be non-empty). *)
Fixpoint laid_out (s : str) (ws : list str) : Prop :=
  match ws with
  | [] => forallb is_whitespace s = true
  | w :: ws' =>
      exists pre rest, s = pre ++ w ++ rest /\ forallb is_whitespace pre = true
        /\ w <> [] /\ forallb (fun c => negb (is_whitespace c)) w = true
        /\ (rest = [] \/ exists c r, rest = c :: r /\ is_whitespace c = true)
        /\ laid_out rest ws'
  end.

(** The outcome BIP39 prescribes for a sequence of (normalised) words: the first applicable case. *)
Inductive spec_outcome (l : language) (ws : list str) : res error_kind bytes -> Prop :=
| spec_bad_word w : In w ws -> ~ In w (bip39_list l) -> spec_outcome l ws (Err InvalidWord)
| spec_bad_count : (forall w, In w ws -> In w (bip39_list l)) -> ~ legal_count (length ws) ->
    spec_outcome l ws (Err (InvalidWordLength (len ws)))
| spec_bad_checksum ent cs : bytes_ok ent -> legal_entropy ent -> length cs = cs_bits ent ->
    encodes l ws (bits_of_bytes ent ++ cs) -> cs <> checksum_of ent -> spec_outcome l ws (Err InvalidChecksum)
| spec_good ent : bip39_sentence l ws ent -> spec_outcome l ws (Ok ent).

(** A mnemonic obtained from one of the public constructors.  [ent], [rng] range over bytes. *)
Inductive constructible : mnemonic -> Prop :=
| built_new t l rng m : (forall i, rng i < 256) -> mnemonic_new t l rng = Ok m -> constructible m
| built_entropy ent l m : bytes_ok ent -> from_entropy ent l = Ok m -> constructible m
| built_phrase s l m : from_phrase s l = Ok m -> constructible m.

(** Equal up to ASCII case, the second string being lower case. *)
Definition same_up_to_case (s lower : str) : Prop :=
  Forall2 (fun c d => c = d \/ (65 <= c <= 90 /\ d = c + 32)) s lower.

(** PBKDF2 (RFC 8018, 5.2) with one output block: the exclusive or of U_1 .. U_c. *)
Fixpoint pbkdf2_u (prf : bytes -> bytes) (salt : bytes) (i : nat) : bytes :=
  match i with
  | O => prf (salt ++ [0; 0; 0; 1])
  | S i' => prf (pbkdf2_u prf salt i')
  end.
Definition pbkdf2_t1 (prf : bytes -> bytes) (salt : bytes) (c : nat) : bytes :=
  fold_left xor_bytes (map (pbkdf2_u prf salt) (seq 1 (c - 1))) (pbkdf2_u prf salt 0).

(** The seed BIP39 prescribes for a sentence and a passphrase. *)
Definition bip39_seed (sentence password : str) : bytes :=
  pbkdf2_t1 (hmac_sha512 (utf8 (nfkd sentence))) (utf8 (lit "mnemonic") ++ utf8 (nfkd password)) 2048.

(** Reading hex digits. *)
Definition unhex_digit (upper : bool) (c : N) : option N :=
  if (48 <=? c) && (c <=? 57) then Some (c - 48)
  else if upper then (if (65 <=? c) && (c <=? 70) then Some (c - 55) else None)
  else (if (97 <=? c) && (c <=? 102) then Some (c - 87) else None).
Fixpoint unhex (upper : bool) (s : str) : option bytes :=
  match s with
  | [] => Some []
  | a :: b :: s' =>
      match unhex_digit upper a, unhex_digit upper b, unhex upper s' with
      | Some x, Some y, Some l => Some (16 * x + y :: l)
      | _, _, _ => None
      end
  | _ => None
  end.

(** The words are all in the list. *)
Definition all_in_list (lang : language) (ws : list str) : Prop := forall w, In w ws -> In w (bip39_list lang).
(** The words spell an entropy and checksum bits that do not belong to it. *)
Definition checksum_mismatch (lang : language) (ws : list str) : Prop :=
  exists ent cs, bytes_ok ent /\ legal_entropy ent /\ length cs = cs_bits ent
    /\ encodes lang ws (bits_of_bytes ent ++ cs) /\ cs <> checksum_of ent.

(** Alphabetical order of texts: at the first difference the smaller character comes first, and a beginning
    comes before its continuations. *)
Definition alphabetical (a b : str) : Prop :=
  exists p, (a = p /\ exists c r, b = p ++ c :: r) \/ (exists c d r r', a = p ++ c :: r /\ b = p ++ d :: r' /\ c < d).
Definition in_alphabetical_order (l : list str) : Prop :=
  forall i j a b, (i < j)%nat -> nth_error l i = Some a -> nth_error l j = Some b -> alphabetical a b.
(** What the Rust documentation promises about [slice::binary_search]: for a sorted slice, Ok(i) is the
    position of the value and Err(i) the position where it could be inserted keeping the order. *)
Definition std_binary_search (search : list str -> str -> res error_kind (N + N)) : Prop :=
  forall l x, in_alphabetical_order l ->
    match search l x with
    | Ok (inl i) => nth_error l (N.to_nat i) = Some x
    | Ok (inr i) => ~ In x l /\ in_alphabetical_order (firstn (N.to_nat i) l ++ x :: skipn (N.to_nat i) l)
                    /\ (N.to_nat i <= length l)%nat
    | _ => False
    end.
