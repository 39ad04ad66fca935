(** The number that eight words of 32 bits stand for. *)
From Coq Require Import ZArith.
From Verif Require Import Outcome Bytes Secp ModelScalar.
Open Scope N_scope.

Fixpoint words_val (s : scalar) : N :=
  match s with
  | [] => 0
  | w :: s' => w + 2 ^ 32 * words_val s'
  end.
Definition is_scalar (s : scalar) : Prop := length s = 8%nat /\ Forall (fun w => w < 2 ^ 32) s.
(** A private key: between 1 and n - 1. *)
Definition is_key (s : scalar) : Prop := is_scalar s /\ 0 < words_val s /\ (Z.of_N (words_val s) < secp_n)%Z.
Definition key_number (s : scalar) : Z := Z.of_N (words_val s).
