(** Texts made with formatting flags ([{:>30}], [{:#?}], [{:.5}], [{:02x?}] ...).  ModelBip39.v and
    ModelBip32.v have the texts without flags; here every [fmt] of /repo takes the flags of its formatter. *)
From Coq Require Import String.
From Verif Require Import Outcome Bytes Str Hash ModelBip39 Secp Base58 ModelBip32.
Open Scope N_scope.

(** ** The formatter of the Rust standard library (not part of /repo) *)
Inductive alignment := ALeft | ACenter | ARight.
(** [f_hex] is [Some false] for [{:x?}], [Some true] for [{:X?}]. *)
Record flags := Flags { f_fill : N; f_align : option alignment; f_width : option N; f_precision : option N;
                        f_plus : bool; f_alternate : bool; f_zero : bool; f_hex : option bool }.
(** [{}] and [{:?}] *)
Definition plain_flags : flags := Flags 32 None None None false false false None.
(** [{:02x}] and [{:02X}] *)
Definition flags_02 : flags := Flags 32 None (Some 2) None false false true None.
(** [{:#010x}] *)
Definition flags_alt_010 : flags := Flags 32 None (Some 10) None false true true None.
(** [{:#X}] *)
Definition flags_alt : flags := Flags 32 None None None false true false None.

Definition fill_text (f : flags) (k : N) : str := repeat (f_fill f) (N.to_nat k).
(** [Formatter::padding]: what goes before and after *)
Definition padding (f : flags) (k : N) (default : alignment) : str * str :=
  match match f_align f with Some a => a | None => default end with
  | ALeft => ([], fill_text f k)
  | ARight => (fill_text f k, [])
  | ACenter => (fill_text f (k / 2), fill_text f ((k + 1) / 2))
  end.
(** [Formatter::pad], which is [Display for str]: the precision cuts, the width fills; both count characters *)
Definition pad (f : flags) (s : str) : str :=
  let s := match f_precision f with Some k => firstn (N.to_nat k) s | None => s end in
  match f_width f with
  | None => s
  | Some w => if w <=? len s then s
              else let '(a, b) := padding f (w - len s) ALeft in a ++ s ++ b
  end.
(** [Formatter::pad_integral] for numbers that are not negative *)
Definition pad_integral (f : flags) (prefix digits : str) : str :=
  let pre := (if f_plus f then lit "+" else []) ++ (if f_alternate f then prefix else []) in
  let used := len pre + len digits in
  match f_width f with
  | None => pre ++ digits
  | Some w => if w <=? used then pre ++ digits
              else if f_zero f then pre ++ repeat 48 (N.to_nat (w - used)) ++ digits
              else let '(a, b) := padding f (w - used) ARight in a ++ pre ++ digits ++ b
  end.
(** Hexadecimal digits of a number, without leading zeros. *)
Fixpoint hex_digits (fuel : nat) (n : N) : list N :=
  match fuel with
  | O => []
  | S k => if n <? 16 then [n] else hex_digits k (n / 16) ++ [n mod 16]
  end.
Definition hex_str (upper : bool) (n : N) : str := map (hex_digit upper) (hex_digits (S (N.size_nat n)) n).
(** [Display], [LowerHex], [UpperHex] and [Debug] of u8, u32, usize *)
Definition fmt_dec (f : flags) (n : N) : str := pad_integral f [] (dec_str n).
Definition fmt_hexnum (upper : bool) (f : flags) (n : N) : str := pad_integral f (lit "0x") (hex_str upper n).
Definition fmt_num_debug (f : flags) (n : N) : str :=
  match f_hex f with Some upper => fmt_hexnum upper f n | None => fmt_dec f n end.

(** [PadAdapter]: four spaces at the beginning of every line *)
Fixpoint indent (on_newline : bool) (s : str) : str :=
  match s with
  | [] => []
  | c :: s' => (if on_newline then lit "    " else []) ++ c :: indent (c =? 10) s'
  end.
(** What a Debug implementation asks of the formatter: a number, a text that ignores flags, or one of the
    builders [debug_struct], [debug_tuple], [debug_list] *)
Inductive dbg :=
| DNum (n : N)
| DText (s : str)
| DStruct (name : str) (fields : list (str * dbg))
| DTuple (name : str) (fields : list dbg)
| DList (entries : list dbg).
Definition newline : str := [10].
(** [DebugStruct::field], [DebugTuple::field], [DebugInner::entry] one after the other; the builder writes
    [open] before the first and [", "] before the others, or every one indented on lines of its own *)
Definition entries (pretty : bool) (open close : str) (close_pretty : str) (es : list str) : str :=
  match es with
  | [] => []
  | _ => if pretty then open ++ newline ++ flat_map (fun e => indent true (e ++ lit "," ++ newline)) es ++ close_pretty
         else open ++ join (lit ", ") es ++ close
  end.
Fixpoint fmt_dbg (f : flags) (d : dbg) : str :=
  match d with
  | DNum n => fmt_num_debug f n
  | DText s => s
  | DStruct name fields =>
      let es := map (fun nf => fst nf ++ lit ": " ++ fmt_dbg f (snd nf)) fields in
      name ++ (if f_alternate f then entries true (lit " {") [] (lit "}") es else entries false (lit " { ") (lit " }") [] es)
  | DTuple name fields =>
      name ++ entries (f_alternate f) (lit "(") (lit ")") (lit ")") (map (fmt_dbg f) fields)
  | DList es =>
      match es with
      | [] => lit "[]"
      | _ => entries (f_alternate f) (lit "[") (lit "]") (lit "]") (map (fmt_dbg f) es)
      end
  end.

(** ** src/bip39 *)
(** src/bip39/mnemonic.rs:282-286, Display for Mnemonic: the formatter is handed on *)
Definition fmt_mnemonic_display (f : flags) (m : mnemonic) : str := pad f (m_phrase m).
(** src/bip39/mnemonic.rs:288-292, Debug for Mnemonic; [Debug for str] ignores the flags *)
Definition fmt_mnemonic_debug (f : flags) (m : mnemonic) : R str := or_panic (debug_str (m_phrase m)).
(** src/bip39/mnemonic.rs:294-320 and src/bip39/seed.rs:58-84: [if f.alternate()], then [{:02x}] or [{:02X}] *)
Definition fmt_hex_flags (upper : bool) (f : flags) (l : bytes) : str :=
  (if f_alternate f then lit "0x" else []) ++ flat_map (fmt_hexnum upper flags_02) l.
Definition fmt_mnemonic_hex (upper : bool) (f : flags) (m : mnemonic) : str := fmt_hex_flags upper f (m_entropy m).
Definition fmt_seed_hex (upper : bool) (f : flags) (seed : bytes) : str := fmt_hex_flags upper f seed.
(** src/bip39/seed.rs:52-56, Debug for Seed: [{:#X}] *)
Definition fmt_seed_debug (f : flags) (seed : bytes) : str := fmt_seed_hex true flags_alt seed.
(** src/bip39/mnemonic_type.rs:191-200, Display; line 32, derived Debug *)
Definition fmt_mnemonic_type_display (f : flags) (t : mnemonic_type) : str :=
  fmt_dec plain_flags (word_count t) ++ lit " words (" ++ fmt_dec plain_flags (entropy_bits t) ++ lit "bits)".
Definition mnemonic_type_dbg (t : mnemonic_type) : dbg := DText (mnemonic_type_debug t).
(** src/bip39/language.rs:114, derived Debug *)
Definition language_dbg (l : language) : dbg :=
  DText (match l with English => lit "English" | ChineseSimplified => lit "ChineseSimplified" end).
(** src/bip39/error.rs:4-16, Display generated by thiserror, and derived Debug *)
Definition fmt_error_kind_display (f : flags) (e : error_kind) : str :=
  match e with
  | InvalidChecksum => lit "invalid checksum"
  | InvalidWord => lit "invalid word in phrase"
  | InvalidKeysize n => lit "invalid keysize: " ++ fmt_dec plain_flags n
  | InvalidWordLength n => lit "invalid number of words in phrase: " ++ fmt_dec plain_flags n
  | InvalidEntropyLength n t =>
      lit "invalid entropy length " ++ fmt_dec plain_flags n ++ lit "bits for mnemonic type "
      ++ fmt_dbg plain_flags (mnemonic_type_dbg t)
  end.
Definition error_kind_dbg (e : error_kind) : dbg :=
  match e with
  | InvalidChecksum => DText (lit "InvalidChecksum")
  | InvalidWord => DText (lit "InvalidWord")
  | InvalidKeysize n => DTuple (lit "InvalidKeysize") [DNum n]
  | InvalidWordLength n => DTuple (lit "InvalidWordLength") [DNum n]
  | InvalidEntropyLength n t => DTuple (lit "InvalidEntropyLength") [DNum n; mnemonic_type_dbg t]
  end.

(** ** src/bip32 *)
(** src/bip32/error.rs:36-48, Display, and line 11, derived Debug *)
Definition fmt_error_display (f : flags) (e : error) : str := error_display e.
Definition error_dbg (e : error) : dbg :=
  DText (match e with EBase58 => lit "Base58" | EBip39 => lit "Bip39" | EChildNumber => lit "ChildNumber"
         | ECrypto => lit "Crypto" | EDecode => lit "Decode" | EDepth => lit "Depth" | ESeedLength => lit "SeedLength" end).
(** src/bip32/child_number.rs:55-65, Display, and line 10, derived Debug *)
Definition fmt_child_display (f : flags) (c : N) : str :=
  fmt_dec plain_flags (child_index c) ++ (if child_is_hardened c then lit "'" else []).
Definition child_dbg (c : N) : dbg := DTuple (lit "ChildNumber") [DNum c].
(** src/bip32/derivation_path.rs:59-69, Display, and line 15, derived Debug *)
Definition fmt_path_display (f : flags) (p : path) : str :=
  fold_left (fun acc c => acc ++ lit "/" ++ fmt_child_display plain_flags c) p (lit "m").
Definition path_dbg (p : path) : dbg := DStruct (lit "DerivationPath") [(lit "path", DList (map child_dbg p))].
(** src/bip32/prefix.rs:154-167 and 199-205, Display, Debug and DebugVersion *)
Definition fmt_prefix_display (f : flags) (p : prefix) : R32 str := prefix_as_str p.
Definition fmt_prefix_debug (f : flags) (p : prefix) : R32 str :=
  let* s := prefix_as_str p in
  Ok (fmt_dbg f (DStruct (lit "Prefix") [(lit "chars", DText ([34] ++ s ++ [34]));
                                         (lit "version", DText (fmt_hexnum false flags_alt_010 (version p)))])).
(** src/bip32/extended_key/mod.rs:59-66, Display *)
Definition fmt_ek_display (f : flags) (e : extended_key) : R32 str := write_base58 e.
(** src/bip32/extended_key/attrs.rs:7, derived Debug *)
Definition bytes_dbg (b : bytes) : dbg := DList (map DNum b).
Definition attrs_dbg (a : attrs) : dbg :=
  DStruct (lit "ExtendedKeyAttrs")
    [(lit "depth", DNum (depth a)); (lit "parent_fingerprint", bytes_dbg (parent_fingerprint a));
     (lit "child_number", child_dbg (child_number a)); (lit "chain_code", bytes_dbg (chain_code a))].
(** src/bip32/extended_key/extended_private_key.rs:202-213, Debug *)
Definition fmt_xprv_debug (f : flags) (x : xprv) : str :=
  fmt_dbg f (DStruct (lit "ExtendedPrivateKey")
    [(lit "private_key", DText ([34] ++ lit "..." ++ [34])); (lit "attrs", attrs_dbg (xprv_attrs x))]).
