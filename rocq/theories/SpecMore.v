(** Notions used by the properties from C69 on, independent of the proofs. *)
From Verif Require Import Outcome Bytes Str ModelBip39 SpecBip39.
Open Scope N_scope.

(** The bit iterator returns exactly [n] more items. *)
Inductive yields : bit_iter -> nat -> Prop :=
| yields_end it : bi_next it = Ok None -> yields it 0
| yields_item it x it' n : bi_next it = Ok (Some (x, it')) -> yields it' n -> yields it (S n).

(** The states an iterator over the bytes [l] can be in. *)
Inductive reached (l : bytes) : bit_iter -> Prop :=
| reached_new : reached l (bi_new l)
| reached_next it x it' : reached l it -> bi_next it = Ok (Some (x, it')) -> reached l it'.
