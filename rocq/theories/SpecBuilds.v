(** Vocabulary for statements about builds: how many words a counter of bits sees. *)
From Verif Require Import Outcome Bytes.
Open Scope N_scope.

(** A number of words of 11 bits each, counted in bits by a register of the given width. *)
Definition words_seen (width : N) (count : nat) : nat := N.to_nat ((11 * N.of_nat count) mod 2 ^ width / 11).
(** So many words more, and a register of 32 bits sees the same number: the smallest number of words that have
    2^32 bits. *)
Definition one_lap : N := 390451573.
