(** What bounds the work on a text: the ones (the digit zero) it begins with. *)
From Coq Require Import String.
From Verif Require Import Outcome Bytes Str.
Open Scope N_scope.
Fixpoint leading_ones (s : str) : N :=
  match s with
  | c :: s' => if c =? 49 then 1 + leading_ones s' else 0
  | [] => 0
  end.
