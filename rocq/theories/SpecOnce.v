(** What threads that use the word lists and maps may see. *)
From Verif Require Import Outcome Bytes Str ModelBip39 ModelLangs SpecLangs ModelOnce.
Open Scope N_scope.

(** The list is the published one; the map gives each word of it its number and nothing else. *)
Definition table_ok (c : static) (t : table) : Prop :=
  match c, t with
  | SList l, TList ws => ws = published l
  | SMap l, TMap m => forall w i, map_get m w = Some i <-> nth_error (published l) (N.to_nat i) = Some w
  | _, _ => False
  end.
Definition finished (t : thread) : Prop := t_todo t = [] /\ t_stack t = [].
