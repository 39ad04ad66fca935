(** Reference notions for the properties of BitsThms.v, written without the definitions of the model. *)
From Verif Require Import Outcome Bytes Str.
Open Scope N_scope.

(** The characters with the property White_Space in PropList.txt of the Unicode Character Database (from
    Unicode 6.3 to this day): TAB, LF, VT, FF, CR, SPACE, NEL, NO-BREAK SPACE, OGHAM SPACE MARK, EN QUAD,
    EM QUAD, EN SPACE, EM SPACE, THREE-PER-EM SPACE, FOUR-PER-EM SPACE, SIX-PER-EM SPACE, FIGURE SPACE,
    PUNCTUATION SPACE, THIN SPACE, HAIR SPACE, LINE SEPARATOR, PARAGRAPH SEPARATOR, NARROW NO-BREAK SPACE,
    MEDIUM MATHEMATICAL SPACE, IDEOGRAPHIC SPACE *)
Definition white_space : list N :=
  [0x9; 0xA; 0xB; 0xC; 0xD; 0x20; 0x85; 0xA0; 0x1680; 0x2000; 0x2001; 0x2002; 0x2003; 0x2004; 0x2005; 0x2006;
   0x2007; 0x2008; 0x2009; 0x200A; 0x2028; 0x2029; 0x202F; 0x205F; 0x3000].
(** [separated s ws]: the words ws are the longest runs of characters other than white space in s, in order. *)
Inductive separated : str -> list str -> Prop :=
| sep_nil : separated [] []
| sep_white c s ws : In c white_space -> separated s ws -> separated (c :: s) ws
| sep_word w s ws : w <> [] -> (forall c, In c w -> ~ In c white_space) ->
    (s = [] \/ exists c s', s = c :: s' /\ In c white_space) -> separated s ws -> separated (w ++ s) (w :: ws).
