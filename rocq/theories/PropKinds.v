(** Kinds of text C152.

    Statements only: every theorem is closed by the lemma of the same name (in lower case) in
    KindThms.v.  Generated by tools/gen_prop.py. *)
From Coq Require Import String.
From Verif Require Import Outcome Bytes Str ModelBip39 ModelLangs ModelBip32 SpecKinds.
From Verif Require KindThms.
Import LangThms(ex_fr).
Import KeyTextThms(ex_text).
Open Scope N_scope.

(** ** C152. No text can be mistaken for a text of another kind.  No text is accepted by the readers of two
    different kinds of text: mnemonic phrases (from_phrase and validate, in any of the eight languages),
    extended keys, derivation paths, child numbers and language codes. *)
Theorem C152_kinds_do_not_overlap : forall (s : str) (k k' : kind), reads s k -> reads s k' -> k = k'.
Proof. exact KindThms.c152_kinds_do_not_overlap. Qed.
Print Assumptions C152_kinds_do_not_overlap.
Example C152_example : reads (a_phrase ex_fr) KPhrase /\ reads ex_text KKey /\ reads (lit "m/0'") KPath /\ reads (lit "0'") KChild
  /\ reads (lit "ZH-cn") KCode.
Proof. exact KindThms.c152_example. Qed.
