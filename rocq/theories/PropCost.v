(** Work on texts and paths of any length C157 - C158.

    Statements only: every theorem is closed by the lemma of the same name (in lower case) in
    CostThms.v.  Generated by tools/gen_prop.py. *)
From Verif Require Import Outcome Bytes Str Hash Secp ModelBip32 ModelCost SpecCost.
From Verif Require CostThms.
Import KeyTextThms(ex_text). Import CostThms(ex_deep).
Open Scope N_scope.

(** ** C157. A hostile key text costs little work.  However long and whatever the text given to
    ExtendedKey::from_str is, the loops of the decoder take at most one step for each digit 1 at its beginning
    and 9627 steps in all else, and at most three blocks are hashed; the work stops when the buffer of 82
    bytes is full. In particular the work is linear in the length of the text, although conversion from base
    58 is quadratic in general. *)
(** The counter changes nothing. *)
Theorem C157_same_results : forall s : str, fst (ek_from_str_cost s) = ek_from_str s.
Proof. exact CostThms.c157_same_results. Qed.
Print Assumptions C157_same_results.
(** However long the text is, the decoder stops after its buffer is full: only ones at its beginning cost a step
    each, all else is bounded. *)
Theorem C157_bounded_work : forall s : str,
  loop_steps (snd (ek_from_str_cost s)) <= leading_ones s + 9627 /\ hash_blocks (snd (ek_from_str_cost s)) <= 3.
Proof. exact CostThms.c157_bounded_work. Qed.
Print Assumptions C157_bounded_work.
Theorem C157_linear_work : forall s : str, loop_steps (snd (ek_from_str_cost s)) <= len s + 9627.
Proof. exact CostThms.c157_linear_work. Qed.
Print Assumptions C157_linear_work.
Example C157_example : snd (ek_from_str_cost ex_text) = mkWork 4882 3
  /\ ek_from_str_cost (repeat 49 1000) = (Err EBase58, mkWork 1083 0)
  /\ ek_from_str_cost (repeat 122 1000) = (Err EBase58, mkWork 4802 0).
Proof. exact CostThms.c157_example. Qed.

(** ** C158. A hostile path costs little work.  However long a derivation path is, deriving along it calls
    HMAC-SHA512 at most once for each level left up to 255 (256 times with the master key) and multiplies on
    the curve at most twice as often (once for public keys), whatever the hash values are. A successful
    derivation calls HMAC exactly once per step. *)
Theorem C158_same_results :
  (forall x p, fst (xprv_derive_from_path_count hmac_sha512 x p) = xprv_derive_from_path x p)
  /\ (forall x p, fst (xpub_derive_from_path_count hmac_sha512 x p) = xpub_derive_from_path x p)
  /\ (forall seed p, fst (xprv_new_from_path_count hmac_sha512 seed p) = xprv_new_from_path seed p).
Proof. exact CostThms.c158_same_results. Qed.
Print Assumptions C158_same_results.
(** However long the path is, at most one hash per level that is left, and two multiplications. *)
Theorem C158_private_paths : forall (hmac : bytes -> bytes -> bytes) (x : xprv) (p : path), depth (xprv_attrs x) <= 255 ->
  let '(r, w) := xprv_derive_from_path_count hmac x p in
  hmac_calls w <= 255 - depth (xprv_attrs x) /\ curve_calls w <= 2 * (255 - depth (xprv_attrs x))
  /\ forall y, r = Ok y -> hmac_calls w = len p.
Proof. exact CostThms.c158_private_paths. Qed.
Print Assumptions C158_private_paths.
Theorem C158_public_paths : forall (hmac : bytes -> bytes -> bytes) (x : xpub) (p : path), depth (xpub_attrs x) <= 255 ->
  let '(r, w) := xpub_derive_from_path_count hmac x p in
  hmac_calls w <= 255 - depth (xpub_attrs x) /\ curve_calls w <= 255 - depth (xpub_attrs x)
  /\ forall y, r = Ok y -> hmac_calls w = len p.
Proof. exact CostThms.c158_public_paths. Qed.
Print Assumptions C158_public_paths.
Theorem C158_from_seed : forall (hmac : bytes -> bytes -> bytes) (seed : bytes) (p : path),
  let '(r, w) := xprv_new_from_path_count hmac seed p in
  hmac_calls w <= 256 /\ curve_calls w <= 510 /\ forall y, r = Ok y -> hmac_calls w = 1 + len p.
Proof. exact CostThms.c158_from_seed. Qed.
Print Assumptions C158_from_seed.
Example C158_example : depth (xprv_attrs ex_deep) <= 255
  /\ snd (xprv_derive_from_path_count (fun _ _ => repeat 1 64) ex_deep (repeat 0 300)) = mkCalls 2 4
  /\ fst (xprv_derive_from_path_count (fun _ _ => repeat 1 64) ex_deep (repeat 0 300)) = Err EDepth.
Proof. exact CostThms.c158_example. Qed.
