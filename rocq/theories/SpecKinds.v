(** The kinds of text that the library reads. *)
From Verif Require Import Outcome Bytes Str ModelBip39 ModelLangs ModelBip32.

Inductive kind := KPhrase | KKey | KPath | KChild | KCode.
(** [reads s k]: some function that reads texts of the kind [k] accepts [s]. *)
Definition reads (s : str) (k : kind) : Prop :=
  match k with
  | KPhrase => exists l : language_all, (exists m, from_phrase_all s l = Ok m) \/ validate_all s l = Ok tt
  | KKey => exists e, ek_from_str s = Ok e
  | KPath => exists p, path_from_str s = Ok p
  | KChild => exists c, child_from_str s = Ok c
  | KCode => exists l : language_all, from_language_code_all s = Some l
  end.
