(** Normalisation form KD and UTF-8, written down from the Unicode standard.  Shared with the model: the tables of
    NfkdData.v (decomposition mappings and combining classes, data of the standard) and the lookup [ccc]. *)
From Coq Require Import Relations.
From Verif Require Import Outcome Bytes Str NfkdData Nfkd.
Open Scope N_scope.

(** Unicode scalar values (the values of a Rust [char]), and code points in general. *)
Definition is_scalar (c : N) : Prop := c < 0xD800 \/ 0xE000 <= c < 0x110000.

(** ** The Unicode Standard, section 3.12: decomposition of Hangul syllables, l, v, t being the numbers of the jamo *)
Definition is_syllable (c l v t : N) : Prop := l < 19 /\ v < 21 /\ t < 28 /\ c = 0xAC00 + (l * 21 + v) * 28 + t.
(** The full compatibility decomposition of a character. *)
Inductive char_decomp (c : N) : str -> Prop :=
| cd_syllable_lv l v : is_syllable c l v 0 -> char_decomp c [0x1100 + l; 0x1161 + v]
| cd_syllable_lvt l v t : is_syllable c l v t -> t <> 0 -> char_decomp c [0x1100 + l; 0x1161 + v; 0x11A7 + t]
| cd_table d : In (c, d) decomp_table -> char_decomp c d
| cd_self : (forall l v t, ~ is_syllable c l v t) -> (forall d, ~ In (c, d) decomp_table) -> char_decomp c [c].

(** ** Section 3.11, D108 and D109: canonical ordering *)
Definition reorderable (a b : N) : Prop := ccc a > ccc b /\ ccc b > 0.
Definition exchange (s t : str) : Prop := exists l a b r, s = l ++ a :: b :: r /\ t = l ++ b :: a :: r /\ reorderable a b.
Definition in_canonical_order (s : str) : Prop := forall l a b r, s = l ++ a :: b :: r -> ~ reorderable a b.
(** Decompose every character, then exchange reorderable neighbours until there are none. *)
Definition is_nfkd (s t : str) : Prop :=
  exists parts, Forall2 char_decomp s parts /\ clos_refl_trans _ exchange (concat parts) t /\ in_canonical_order t.

(** ** RFC 3629, section 3: the bits of the code point, in order, fill the x of the patterns
    0xxxxxxx, 110xxxxx 10xxxxxx, 1110xxxx 10xxxxxx 10xxxxxx, 11110xxx 10xxxxxx 10xxxxxx 10xxxxxx. *)
Definition cont (x : N) : list bool := [true; false] ++ bits_of 6 x.
Inductive is_utf8_char (c : N) : list bool -> Prop :=
| u1 : c < 0x80 -> is_utf8_char c (false :: bits_of 7 c)
| u2 x y : 0x80 <= c < 0x800 -> bits_of 5 x ++ bits_of 6 y = bits_of 11 c ->
    is_utf8_char c ([true; true; false] ++ bits_of 5 x ++ cont y)
| u3 x y z : 0x800 <= c < 0x10000 -> bits_of 4 x ++ bits_of 6 y ++ bits_of 6 z = bits_of 16 c ->
    is_utf8_char c ([true; true; true; false] ++ bits_of 4 x ++ cont y ++ cont z)
| u4 x y z w : 0x10000 <= c < 0x110000 -> bits_of 3 x ++ bits_of 6 y ++ bits_of 6 z ++ bits_of 6 w = bits_of 21 c ->
    is_utf8_char c ([true; true; true; true; false] ++ bits_of 3 x ++ cont y ++ cont z ++ cont w).
Definition is_utf8 (s : str) (b : bytes) : Prop :=
  bytes_ok b /\ exists parts, Forall2 is_utf8_char s parts /\ bits_of_bytes b = concat parts.
