(** The decompositions and combining classes of Unicode 14.0 by checksums, computed from the Unicode data of Perl
    5.38 (tools/unicode_sums.pl); the tables of the model come from Python 3.11 (tools/gen_nfkd.py). *)
From Coq Require Import Sorted.
From Verif Require Import Outcome Bytes Str SpecConst SpecUnicode.
Open Scope N_scope.

(** The text has a line for each character that [f] changes, Hangul syllables excepted, in increasing order: the
    character and its decomposition. *)
Definition has_decompositions (f : N -> str) (d : N) : Prop :=
  exists cs, StronglySorted N.lt cs
    /\ (forall c, In c cs <-> f c <> [c] /\ forall l v t, ~ is_syllable c l v t)
    /\ (forall c, In c cs -> ~ In 10 (c :: f c))
    /\ has_checksum (map (fun c => c :: f c) cs) d.
(** The text has a line for each character of non-zero class: the character and the one with the number of the
    class plus 256. *)
Definition has_classes (f : N -> N) (d : N) : Prop :=
  exists cs, StronglySorted N.lt cs /\ (forall c, In c cs <-> f c <> 0) /\ ~ In 10 cs
    /\ has_checksum (map (fun c => [c; 256 + f c]) cs) d.

Definition decompositions_checksum : N := 0x23a6c54bb5cf68570f79a8b69aa1209ef18ae0706451974128b7577373d3ca86.
Definition classes_checksum : N := 0xa02d4b4e3258b466c72815ceee9497f02ad5c2ea8fa3d6ce84f8500e1bac4d80.
