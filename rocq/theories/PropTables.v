(** The tables of Unicode C146.

    Statements only: every theorem is closed by the lemma of the same name (in lower case) in
    TableThms.v.  Generated by tools/gen_prop.py. *)
From Coq Require Import String.
From Verif Require Import Outcome Bytes Str Nfkd SpecUnicode SpecHash SpecConst SpecTables.
From Verif Require TableThms.
Open Scope N_scope.

(** ** C146. Passwords are normalised with the tables of Unicode 14.0.  The compatibility decompositions and
    canonical combining classes that normalise phrases and passwords are those of Unicode 14.0 for every code
    point: the text that lists every changed character with its decomposition, in order, and the text that
    lists every character of non-zero class have the SHA-256 checksums of the texts that a second
    implementation of Unicode (Perl) gives. Any function with other decompositions or classes would need a
    collision of SHA-256. *)
Theorem C146_decompositions : has_decompositions decompose_char decompositions_checksum.
Proof. exact TableThms.c146_decompositions. Qed.
Print Assumptions C146_decompositions.
Theorem C146_classes : has_classes ccc classes_checksum.
Proof. exact TableThms.c146_classes. Qed.
Print Assumptions C146_classes.
(** No other decompositions or classes have the checksums, unless SHA-256 has a collision. *)
Theorem C146_pins_decompositions : forall f : N -> str, has_decompositions f decompositions_checksum ->
  (forall c, (forall l v t, ~ is_syllable c l v t) -> f c = decompose_char c)
  \/ exists a b d, a <> b /\ is_sha2 fips_sha256 a d /\ is_sha2 fips_sha256 b d.
Proof. exact TableThms.c146_pins_decompositions. Qed.
Print Assumptions C146_pins_decompositions.
Theorem C146_pins_classes : forall f : N -> N, has_classes f classes_checksum -> (forall c, f c = ccc c)
  \/ exists a b d, a <> b /\ is_sha2 fips_sha256 a d /\ is_sha2 fips_sha256 b d.
Proof. exact TableThms.c146_pins_classes. Qed.
Print Assumptions C146_pins_classes.
(** The ligature fi, the full-width A and the circumflex below are among the lines of the texts. *)
Example C146_example : decompose_char 0xFB01 = lit "fi" /\ decompose_char 0xFF21 = lit "A" /\ decompose_char 0xAC01 = [0x1100; 0x1161; 0x11A8]
  /\ ccc 0x301 = 230 /\ ccc 0x323 = 220 /\ ccc 65 = 0 /\ ~ has_classes (fun _ => 1) classes_checksum.
Proof. exact TableThms.c146_example. Qed.
