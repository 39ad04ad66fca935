(** How a derivation path can be spelled, without reference to the functions of the model. *)
From Coq Require Import String.
From Verif Require Import Outcome Bytes Str SpecBip32.
Open Scope N_scope.

(** The usual text of a child number: its index in decimal, and an apostrophe if it is hardened. *)
Definition usual_child (c : N) (t : str) : Prop :=
  exists ds, canonical_decimal ds (c mod 2 ^ 31) /\ t = ds ++ (if 2 ^ 31 <=? c then [apostrophe] else []).
(** [spelling s t]: s is t with zeros put before it, and perhaps a plus sign before these. *)
Definition spelling (s t : str) : Prop :=
  exists sign k, (sign = [] \/ sign = [plus_sign]) /\ s = sign ++ repeat 48 k ++ t.
(** The components of a path, each after a slash. *)
Definition path_of (comps : list str) : str := 109 :: flat_map (fun t => slash :: t) comps.
(** The usual text of a path. *)
Definition usual_path (p : list N) (t : str) : Prop := exists ts, t = path_of ts /\ Forall2 usual_child p ts.
(** The characters that may occur in a path: m, slash, digits, plus sign, apostrophe. *)
Definition path_char (c : N) : Prop :=
  c = 109 \/ c = slash \/ digit_char c \/ c = plus_sign \/ c = apostrophe.
