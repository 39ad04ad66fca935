(** Formatting flags C112 - C115.

    Statements only: every theorem is closed by the lemma of the same name (in lower case) in
    FormatThms.v.  Generated by tools/gen_prop.py. *)
From Coq Require Import String.
From Verif Require Import Outcome Bytes Str ModelBip39 SpecBip39 Secp ModelBip32 SpecBip32 ModelFormat.
From Verif Require Bip39Thms DeriveThms KeyTextThms FormatThms.
Import Bip39Thms(ex_phrase, ex_mnemonic) DeriveThms(ex1_xprv) KeyTextThms(ex_xprv).
Open Scope N_scope.

(** ** C112. Formatting flags do not disturb texts that are read back.  Child numbers, paths and extended keys
    print the same under every width, fill, alignment, precision and other flag, and the text reads back to
    the same value. Of all flags only # matters for hexadecimal texts, and none for Debug of a seed. Without
    flags every text is that of the model without flags. *)
(** Child numbers, paths and extended keys print the same text under every flag, and the text reads back. *)
Theorem C112_texts_read_back : forall (f : flags),
  (forall c : N, u32 c -> child_from_str (fmt_child_display f c) = Ok c)
  /\ (forall p : path, Forall u32 p -> path_from_str (fmt_path_display f p) = Ok p)
  /\ (forall (x : xprv) (q : prefix), valid_xprv x -> In q prv_prefixes ->
        exists s, fmt_ek_display f (xprv_to_extended_key x q) = Ok s /\ xprv_from_str s = Ok x /\ len s = 111)
  /\ (forall (x : xpub) (q : prefix), valid_xpub x -> In q pub_prefixes ->
        exists s, fmt_ek_display f (xpub_to_extended_key x q) = Ok s /\ xpub_from_str s = Ok x /\ len s = 111).
Proof. exact FormatThms.c112_texts_read_back. Qed.
Print Assumptions C112_texts_read_back.
(** Of all flags, only [#] matters for the hexadecimal texts; the Debug text of a seed ignores even that. *)
Theorem C112_hex_texts : forall (upper : bool) (f : flags) (m : mnemonic) (seed : bytes), bytes_ok (m_entropy m) -> bytes_ok seed ->
  fmt_mnemonic_hex upper f m = mnemonic_hex upper (f_alternate f) m
  /\ fmt_seed_hex upper f seed = seed_hex upper (f_alternate f) seed
  /\ fmt_seed_debug f seed = seed_debug seed.
Proof. exact FormatThms.c112_hex_texts. Qed.
Print Assumptions C112_hex_texts.
(** Without flags the texts are those of the model without flags. *)
Theorem C112_plain_texts : forall (m : mnemonic) (x : xprv) (q : prefix) (e : error_kind) (t : mnemonic_type), u32 (version q) ->
  fmt_mnemonic_display plain_flags m = mnemonic_display m
  /\ fmt_mnemonic_debug plain_flags m = mnemonic_debug m
  /\ fmt_xprv_debug plain_flags x = xprv_debug x
  /\ fmt_prefix_debug plain_flags q = prefix_debug q
  /\ fmt_error_kind_display plain_flags e = error_kind_display e
  /\ fmt_mnemonic_type_display plain_flags t = mnemonic_type_display t.
Proof. exact FormatThms.c112_plain_texts. Qed.
Print Assumptions C112_plain_texts.
(** Numbers of words, errors and prefixes print the same text under every flag. *)
Theorem C112_flags_ignored : forall (f : flags) (t : mnemonic_type) (k : error_kind) (e : error) (q : prefix),
  fmt_mnemonic_type_display f t = mnemonic_type_display t /\ fmt_error_kind_display f k = error_kind_display k
  /\ fmt_error_display f e = error_display e /\ fmt_prefix_display f q = prefix_as_str q.
Proof. exact FormatThms.c112_flags_ignored. Qed.
Print Assumptions C112_flags_ignored.
(** The derived Debug texts of child numbers, paths and errors. *)
Theorem C112_debug_texts : forall (c : N) (p : path),
  fmt_dbg plain_flags (child_dbg c) = lit "ChildNumber(" ++ dec_str c ++ lit ")"
  /\ fmt_dbg plain_flags (path_dbg p)
     = lit "DerivationPath { path: [" ++ join (lit ", ") (map (fun d => lit "ChildNumber(" ++ dec_str d ++ lit ")") p) ++ lit "] }"
  /\ (forall n t, map (fun k => fmt_dbg plain_flags (error_kind_dbg k))
        [InvalidChecksum; InvalidWord; InvalidKeysize n; InvalidWordLength n; InvalidEntropyLength n t]
      = [lit "InvalidChecksum"; lit "InvalidWord"; lit "InvalidKeysize(" ++ dec_str n ++ lit ")"; lit "InvalidWordLength(" ++ dec_str n ++ lit ")";
         lit "InvalidEntropyLength(" ++ dec_str n ++ lit ", " ++ mnemonic_type_debug t ++ lit ")"])
  /\ map (fun e => fmt_dbg plain_flags (error_dbg e)) [EBase58; EBip39; EChildNumber; ECrypto; EDecode; EDepth; ESeedLength]
     = [lit "Base58"; lit "Bip39"; lit "ChildNumber"; lit "Crypto"; lit "Decode"; lit "Depth"; lit "SeedLength"]
  /\ map (fun l => fmt_dbg plain_flags (language_dbg l)) [English; ChineseSimplified] = [lit "English"; lit "ChineseSimplified"]
  /\ map (fun t => fmt_dbg plain_flags (mnemonic_type_dbg t)) [Words12; Words15; Words18; Words21; Words24]
     = [lit "Words12"; lit "Words15"; lit "Words18"; lit "Words21"; lit "Words24"].
Proof. exact FormatThms.c112_debug_texts. Qed.
Print Assumptions C112_debug_texts.
Example C112_example : fmt_path_display (Flags 42 (Some ACenter) (Some 30) (Some 2) true true true None) [0x8000002C; 7] = lit "m/44'/7"
  /\ fmt_seed_hex false (Flags 42 (Some ARight) (Some 9) (Some 2) false true false None) [0x0A; 0xF0] = lit "0x0af0"
  /\ fmt_dec (Flags 42 (Some ARight) (Some 5) (Some 2) true false false None) 17 = lit "**+17"
  /\ fmt_dbg (Flags 32 None None None false true false (Some true)) (child_dbg 255) = lit "ChildNumber(" ++ [10] ++ lit "    0xFF," ++ [10] ++ lit ")".
Proof. exact FormatThms.c112_example. Qed.

(** ** C113. A printed phrase can be read back whatever the flags.  Printing a mnemonic with any formatting
    flags gives text that from_phrase reads back to the same mnemonic. FALSE for a precision smaller than the
    phrase and for fill characters that are not white space; with white space as fill it reads back exactly
    when the precision cuts nothing off. *)
(** With white space as fill character, a printed phrase reads back exactly when the precision cuts nothing off. *)
Theorem C113_padded_reads_back_partial : forall (f : flags) (m : mnemonic), constructible m -> is_whitespace (f_fill f) = true ->
  (from_phrase (fmt_mnemonic_display f m) (m_lang m) = Ok m <-> forall k, f_precision f = Some k -> len (m_phrase m) <= k).
Proof. exact FormatThms.c113_padded_reads_back_partial. Qed.
Print Assumptions C113_padded_reads_back_partial.
Theorem C113_width : forall (f : flags) (m : mnemonic) (w : N), f_width f = Some w -> w <= len (fmt_mnemonic_display f m).
Proof. exact FormatThms.c113_width. Qed.
Print Assumptions C113_width.
(** A precision, or a letter as fill character, can make a printed phrase unreadable. *)
Theorem C113_reads_back_refuted : 
  (~ forall (f : flags) (m : mnemonic), constructible m -> f_fill f = 32 -> from_phrase (fmt_mnemonic_display f m) (m_lang m) = Ok m)
  /\ (~ forall (f : flags) (m : mnemonic), constructible m -> f_precision f = None -> from_phrase (fmt_mnemonic_display f m) (m_lang m) = Ok m).
Proof. exact FormatThms.c113_reads_back_refuted. Qed.
Print Assumptions C113_reads_back_refuted.
Example C113_example : len ex_phrase = 72
  /\ fmt_mnemonic_display (Flags 32 (Some ARight) (Some 75) None false false false None) ex_mnemonic = lit "   " ++ ex_phrase
  /\ fmt_mnemonic_display (Flags 32 None (Some 7) (Some 6) false false false None) ex_mnemonic = lit "crop c "
  /\ fmt_mnemonic_display (Flags 42 (Some ACenter) (Some 7) (Some 4) false false false None) ex_mnemonic = lit "*crop**".
Proof. exact FormatThms.c113_example. Qed.

(** ** C114. No formatting flag shows a private key.  The Debug text of an extended private key is made from
    its attributes alone under every flag ({:?}, {:#?}, {:x?}, {:10?} ...). If no width is given, two such
    texts are equal exactly if the attributes are. *)
(** No flag shows anything of the private key: the text is made from the attributes alone. *)
Theorem C114_no_flag_shows_the_key : forall (f : flags) (x y : xprv), xprv_attrs x = xprv_attrs y -> fmt_xprv_debug f x = fmt_xprv_debug f y.
Proof. exact FormatThms.c114_no_flag_shows_the_key. Qed.
Print Assumptions C114_no_flag_shows_the_key.
(** Without a width (so with [{:?}], [{:#?}], [{:x?}], [{:#X?}] ...) the text shows all attributes. *)
Theorem C114_attributes_shown : forall (f : flags) (x y : xprv), f_width f = None -> valid_xprv x -> valid_xprv y ->
  (fmt_xprv_debug f x = fmt_xprv_debug f y <-> xprv_attrs x = xprv_attrs y).
Proof. exact FormatThms.c114_attributes_shown. Qed.
Print Assumptions C114_attributes_shown.
Example C114_example : fmt_xprv_debug (Flags 32 None None None false true false (Some false)) ex1_xprv = fmt_xprv_debug (Flags 32 None None None false true false (Some false)) ex_xprv
  /\ fmt_dbg (Flags 32 None None None false true false (Some false)) (DStruct (lit "A") [(lit "d", DNum 1); (lit "c", bytes_dbg [10; 200])])
     = lit "A {" ++ [10] ++ lit "    d: 0x1," ++ [10] ++ lit "    c: [" ++ [10] ++ lit "        0xa," ++ [10] ++ lit "        0xc8," ++ [10] ++ lit "    ]," ++ [10] ++ lit "}"
  /\ fmt_dec (Flags 49 None (Some 3) None false false false None) 1 = fmt_dec (Flags 49 None (Some 3) None false false false None) 11.
Proof. exact FormatThms.c114_example. Qed.

(** ** C115. Debug of a seed or a mnemonic hides it.  The Debug text of a Seed or a Mnemonic does not tell
    what it is, as with extended private keys. FALSE: the text determines the seed and the mnemonic, whatever
    the flags. *)
(** The Debug text of a seed, and of a mnemonic, determines it; no flag changes that. *)
Theorem C115_debug_shows_everything : forall (f g : flags) (s s' : bytes) (m m' : mnemonic), 
  (bytes_ok s -> bytes_ok s' -> fmt_seed_debug f s = fmt_seed_debug g s' -> s = s')
  /\ (constructible m -> constructible m' -> m_lang m = m_lang m' -> fmt_mnemonic_debug f m = fmt_mnemonic_debug g m' -> m = m').
Proof. exact FormatThms.c115_debug_shows_everything. Qed.
Print Assumptions C115_debug_shows_everything.
(** So the Debug texts do not hide the secrets, though that of an extended private key does. *)
Theorem C115_debug_hides_refuted :
  (~ forall (f : flags) (s s' : bytes), bytes_ok s -> bytes_ok s' -> len s = 64 -> len s' = 64 -> fmt_seed_debug f s = fmt_seed_debug f s')
  /\ (~ forall (f : flags) (m m' : mnemonic), constructible m -> constructible m' -> fmt_mnemonic_debug f m = fmt_mnemonic_debug f m').
Proof. exact FormatThms.c115_debug_hides_refuted. Qed.
Print Assumptions C115_debug_hides_refuted.
Example C115_example : fmt_seed_debug (Flags 42 (Some ACenter) (Some 3) (Some 1) true false true None) [0x0A; 0xF0] = lit "0x0AF0"
  /\ fmt_mnemonic_debug (Flags 42 (Some ACenter) (Some 99) (Some 1) true false true None) ex_mnemonic = Ok ([34] ++ ex_phrase ++ [34]).
Proof. exact FormatThms.c115_example. Qed.
