(** Texts in place of seeds C166 - C167.

    Statements only: every theorem is closed by the lemma of the same name (in lower case) in
    SeedTextThms.v.  Generated by tools/gen_prop.py. *)
From Coq Require Import String.
From Verif Require Import Outcome Bytes Str Hash ModelBip39 SpecBip39 ModelBip32 SpecBip32.
From Verif Require SeedTextThms KeyTextThms DeriveThms.
Import KeyTextThms(ex_xprv).
Import DeriveThms(ex_seed).
Import SeedTextThms(ex_64_phrase).
Open Scope N_scope.

(** ** C166. The hexadecimal text of a seed is not taken for a seed.  XPrv::new refuses the hexadecimal text
    of a 64-byte seed. This is false: the text has 128 bytes, a length that is accepted, so the text is hashed
    as if it were a seed and gives another wallet (unless HMAC-SHA512 collides). A test of the crate itself
    does this. The text of a seed is refused exactly if the seed has none of the lengths 8, 16, 32, 64; what
    the crate prints for a seed is taken without 0x and refused with 0x. The entropy of a mnemonic is taken as
    a seed for 12 and 24 words and refused for 15, 18 and 21. *)
Theorem C166_refused_refuted :
  ~ (forall (upper : bool) (seed : bytes) (text : str), bytes_ok seed -> length seed = 64%nat -> unhex upper text = Some seed ->
       xprv_new (utf8 text) = Err ESeedLength).
Proof. exact SeedTextThms.c166_refused_refuted. Qed.
Print Assumptions C166_refused_refuted.
(** Which hexadecimal texts are refused for their length: those of a seed of 64 bytes never are. *)
Theorem C166_when_refused : forall (upper : bool) (seed : bytes) (text : str), unhex upper text = Some seed ->
  (xprv_new (utf8 text) = Err ESeedLength <-> ~ In (len seed) [8; 16; 32; 64]).
Proof. exact SeedTextThms.c166_when_refused. Qed.
Print Assumptions C166_when_refused.
(** What the crate itself prints for a seed is taken as a seed without 0x and refused with 0x. *)
Theorem C166_printed_seed : forall (upper : bool) (seed : bytes), bytes_ok seed -> length seed = 64%nat ->
  xprv_new (utf8 (seed_hex upper false seed)) <> Err ESeedLength
  /\ xprv_new (utf8 (seed_hex upper true seed)) = Err ESeedLength.
Proof. exact SeedTextThms.c166_printed_seed. Qed.
Print Assumptions C166_printed_seed.
(** The wallet of the text is another one, unless HMAC-SHA512 collides. *)
Theorem C166_another_wallet : forall (upper : bool) (seed : bytes) (text : str) (x1 x2 : xprv), bytes_ok seed ->
  unhex upper text = Some seed -> xprv_new seed = Ok x1 -> xprv_new (utf8 text) = Ok x2 ->
  utf8 text <> seed /\ (x1 = x2 <-> hmac_sha512 master_key_text seed = hmac_sha512 master_key_text (utf8 text)).
Proof. exact SeedTextThms.c166_another_wallet. Qed.
Print Assumptions C166_another_wallet.
(** The entropy of a mnemonic is taken as a seed for 12 and 24 words only. *)
Theorem C166_entropy : forall (ent : bytes) (lang : language) (m : mnemonic), bytes_ok ent -> len ent < 2 ^ 61 ->
  from_entropy ent lang = Ok m -> (xprv_new ent = Err ESeedLength <-> In (len ent) [20; 24; 28]).
Proof. exact SeedTextThms.c166_entropy. Qed.
Print Assumptions C166_entropy.
(** The seed of the first BIP32 test vector, and its hexadecimal text. *)
Example C166_example : unhex false (lit "000102030405060708090a0b0c0d0e0f") = Some ex_seed /\ xprv_new ex_seed = Ok ex_xprv
  /\ seed_hex false false ex_seed = lit "000102030405060708090a0b0c0d0e0f"
  /\ (exists x, xprv_new (utf8 (lit "000102030405060708090a0b0c0d0e0f")) = Ok x /\ x <> ex_xprv
        /\ private_key x = 98130954148263214405318643788956452769976173643842014209268040970971077802867%Z).
Proof. exact SeedTextThms.c166_example. Qed.

(** ** C167. A phrase is not taken for a seed.  XPrv::new, which takes anything that can be read as bytes,
    refuses the text of a mnemonic phrase. This is false: exactly the phrases of 64 and of 128 bytes are taken
    as seeds, without Seed::new and the password, and give a wallet that no BIP39 software finds. Phrases in
    Simplified Chinese are always refused. *)
Theorem C167_refused_refuted : ~ (forall m : mnemonic, constructible m -> xprv_new (utf8 (m_phrase m)) = Err ESeedLength).
Proof. exact SeedTextThms.c167_refused_refuted. Qed.
Print Assumptions C167_refused_refuted.
(** Exactly the phrases of 64 and of 128 bytes are taken as seeds. *)
Theorem C167_when_refused : forall m : mnemonic, constructible m ->
  (xprv_new (utf8 (m_phrase m)) = Err ESeedLength <-> len (utf8 (m_phrase m)) <> 64 /\ len (utf8 (m_phrase m)) <> 128).
Proof. exact SeedTextThms.c167_when_refused. Qed.
Print Assumptions C167_when_refused.
(** By the number of words: for 12 words only the length 64 matters, for 18 and more only the length 128. *)
Theorem C167_by_number_of_words : forall m : mnemonic, constructible m ->
  (length (m_entropy m) = 16%nat -> (xprv_new (utf8 (m_phrase m)) = Err ESeedLength <-> len (utf8 (m_phrase m)) <> 64))
  /\ (In (length (m_entropy m)) [24; 28; 32]%nat ->
        (xprv_new (utf8 (m_phrase m)) = Err ESeedLength <-> len (utf8 (m_phrase m)) <> 128)).
Proof. exact SeedTextThms.c167_by_number_of_words. Qed.
Print Assumptions C167_by_number_of_words.
(** Phrases that are taken as seeds exist for every number of words, and for 15 words with both lengths. *)
Theorem C167_taken_for_every_number_of_words : forall (n : nat) (t : N),
  In (n, t) [(16%nat, 64); (20%nat, 64); (20%nat, 128); (24%nat, 128); (28%nat, 128); (32%nat, 128)] ->
  exists m : mnemonic, constructible m /\ length (m_entropy m) = n /\ len (utf8 (m_phrase m)) = t
    /\ xprv_new (utf8 (m_phrase m)) <> Err ESeedLength.
Proof. exact SeedTextThms.c167_taken_for_every_number_of_words. Qed.
Print Assumptions C167_taken_for_every_number_of_words.
(** Chinese phrases are always refused. *)
Theorem C167_chinese_partial : forall m : mnemonic, constructible m -> m_lang m = ChineseSimplified ->
  xprv_new (utf8 (m_phrase m)) = Err ESeedLength.
Proof. exact SeedTextThms.c167_chinese_partial. Qed.
Print Assumptions C167_chinese_partial.
Example C167_example : from_entropy (repeat 100 16) English = Ok (Mnemonic ex_64_phrase English (repeat 100 16))
  /\ len (utf8 ex_64_phrase) = 64 /\ xprv_new (utf8 (lit "legal winner thank year wave sausage worth useful legal winner thank yellow")) = Err ESeedLength.
Proof. exact SeedTextThms.c167_example. Qed.
