(** Comparison in constant time: [ConstantTimeEq for ExtendedPrivateKey] of
    src/bip32/extended_key/extended_private_key.rs:176-200 over the crate subtle 2.4.1 (a dependency, whose source
    was not at hand; the steps are as remembered), step by step.

    An execution is a result together with the steps that an observer of its duration can tell apart: operations
    on words of a given width, branches with the way taken, and wiping of a number of bytes. *)
From Verif Require Import Outcome Bytes ModelBip32.
Open Scope N_scope.

Inductive step := Word (w : N) | Branch (taken : bool) | Wipe (n : N).
Definition watched (A : Type) : Type := R32 A * list step.
Definition w_ret {A} (a : A) : watched A := (Ok a, []).
Definition w_step {A} (s : step) (m : R32 A) : watched A := (m, [s]).
Definition w_bind {A B} (m : watched A) (f : A -> watched B) : watched B :=
  match m with
  | (Ok a, t) => let '(r, t') := f a in (r, t ++ t')
  | (Err e, t) => (Err e, t)
  | (Panic, t) => (Panic, t)
  end.
Notation "'watch' x ':=' m 'in' k" := (w_bind m (fun x => k))
  (at level 61, x pattern, m at next level, k at next level, right associativity).

(** Choice::from(u8): a debug assertion allows 0 and 1 only *)
Definition choice_from (x : N) : R32 N := if (x =? 0) || (x =? 1) then Ok x else Panic.
(** u8::wrapping_neg, u32::wrapping_neg *)
Definition wrapping_neg (w x : N) : N := wrap w (2 ^ w - x).
(** ct_eq of unsigned integers of [w] bits: the highest bit of x | -x is set unless x = 0 *)
Definition ct_eq_uint (w a b : N) : watched N :=
  let x := N.lxor a b in
  let y := N.shiftr (N.lor x (wrapping_neg w x)) (w - 1) in
  w_step (Word w) (choice_from (wrap 8 (N.lxor y 1))).
(** The loop of ct_eq for slices of bytes: [x &= ai.ct_eq(bi).unwrap_u8()] *)
Fixpoint ct_eq_loop (x : N) (a b : bytes) : watched N :=
  match a, b with
  | ai :: a', bi :: b' => watch c := ct_eq_uint 8 ai bi in ct_eq_loop (N.land x c) a' b'
  | _, _ => (choice_from x, [])
  end.
(** ct_eq for slices: it returns at once when the lengths differ *)
Definition ct_eq_slice (a b : bytes) : watched N :=
  if len a =? len b then watch _ := w_step (Branch false) (Ok tt) in ct_eq_loop 1 a b
  else w_step (Branch true) (choice_from 0).
(** Choice & Choice *)
Definition choice_and (a b : N) : watched N := w_step (Word 8) (choice_from (N.land a b)).
(** [zeroize] of an array *)
Definition wipe (b : bytes) : watched bytes := w_step (Wipe (len b)) (Ok (repeat 0 (length b))).

(** src/bip32/extended_key/extended_private_key.rs:182-200, ct_eq: the choice, and the arrays key_a and key_b at
    the return.  [&] is evaluated from the left and never skips an operand. *)
Definition xprv_ct_eq (self other : xprv) : watched (N * (bytes * bytes)) :=
  let key_a := xprv_to_bytes self in
  let key_b := xprv_to_bytes self in
  watch c1 := ct_eq_slice key_a key_b in
  watch c2 := ct_eq_uint 8 (depth (xprv_attrs self)) (depth (xprv_attrs other)) in
  watch c12 := choice_and c1 c2 in
  watch c3 := ct_eq_slice (parent_fingerprint (xprv_attrs self)) (parent_fingerprint (xprv_attrs other)) in
  watch c123 := choice_and c12 c3 in
  watch c4 := ct_eq_uint 32 (child_number (xprv_attrs self)) (child_number (xprv_attrs other)) in
  watch c1234 := choice_and c123 c4 in
  watch c5 := ct_eq_slice (chain_code (xprv_attrs self)) (chain_code (xprv_attrs other)) in
  watch result := choice_and c1234 c5 in
  watch key_a := wipe key_a in
  watch key_b := wipe key_b in
  w_ret (result, (key_a, key_b)).
(** src/bip32/extended_key/extended_private_key.rs:223-225, PartialEq: bool::from(Choice) is [!= 0], with a debug
    assertion *)
Definition xprv_partial_eq (self other : xprv) : watched bool :=
  watch (c, _) := xprv_ct_eq self other in (let* c := choice_from c in Ok (negb (c =? 0)), []).

(** For comparison, equality of slices as [derive(PartialEq)] has it (src/bip32/extended_key/attrs.rs:7): it may
    stop at the first difference *)
Fixpoint plain_eq (a b : bytes) : watched bool :=
  match a, b with
  | [], [] => w_ret true
  | ai :: a', bi :: b' =>
      if ai =? bi then watch _ := w_step (Branch true) (Ok tt) in plain_eq a' b' else w_step (Branch false) (Ok false)
  | _, _ => w_ret false
  end.
