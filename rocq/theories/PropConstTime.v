(** Comparison in constant time C143.

    Statements only: every theorem is closed by the lemma of the same name (in lower case) in
    ConstTimeThms.v.  Generated by tools/gen_prop.py. *)
From Verif Require Import Outcome Bytes Secp SpecSecp ModelBip32 SpecBip32 ModelConstTime.
From Verif Require DeriveThms ConstTimeThms.
Import DeriveThms(ex1_child, ex1_hardened).
Open Scope N_scope.

(** ** C143. Comparing private keys takes the same steps for all keys.  ConstantTimeEq and PartialEq of
    ExtendedPrivateKey run through the same sequence of steps (word operations, branches with the way taken,
    bytes wiped) whatever the two keys are, return the value that the other theorems about equality use, never
    panic, and have wiped both local copies of the secret when they return. The comparison of byte slices
    underneath returns 1 exactly for equal slices and its steps depend on the lengths alone. *)
Theorem C143_slices : forall a b : bytes, bytes_ok a -> bytes_ok b ->
  (fst (ct_eq_slice a b) = Ok 1 <-> a = b) /\ (fst (ct_eq_slice a b) = Ok 0 <-> a <> b)
  /\ (forall a' b' : bytes, bytes_ok a' -> bytes_ok b' -> length a' = length a -> length b' = length b ->
        snd (ct_eq_slice a' b') = snd (ct_eq_slice a b)).
Proof. exact ConstTimeThms.c143_slices. Qed.
Print Assumptions C143_slices.
Theorem C143_comparison : forall x y : xprv, valid_xprv x -> valid_xprv y ->
  exists c, fst (xprv_ct_eq x y) = Ok (c, (repeat 0 32, repeat 0 32))
    /\ (c = 1 <-> xprv_attrs x = xprv_attrs y) /\ (c = 0 <-> xprv_attrs x <> xprv_attrs y)
    /\ fst (xprv_partial_eq x y) = Ok (xprv_eq x y).
Proof. exact ConstTimeThms.c143_comparison. Qed.
Print Assumptions C143_comparison.
(** The steps are the same for all keys: neither the secrets nor where the keys differ can be seen. *)
Theorem C143_same_steps : forall x y x' y' : xprv, valid_xprv x -> valid_xprv y -> valid_xprv x' -> valid_xprv y' ->
  snd (xprv_ct_eq x y) = snd (xprv_ct_eq x' y') /\ snd (xprv_partial_eq x y) = snd (xprv_partial_eq x' y').
Proof. exact ConstTimeThms.c143_same_steps. Qed.
Print Assumptions C143_same_steps.
(** The plain comparison gives the same answers in steps that tell where the first difference is. *)
Example C143_example : ct_eq_slice [1; 2; 3] [1; 2; 3] = (Ok 1, [Branch false; Word 8; Word 8; Word 8])
  /\ ct_eq_slice [1; 2; 3] [9; 2; 3] = (Ok 0, [Branch false; Word 8; Word 8; Word 8])
  /\ snd (plain_eq [1; 2; 3] [9; 2; 3]) <> snd (plain_eq [1; 2; 3] [1; 2; 9])
  /\ fst (xprv_partial_eq ex1_child ex1_hardened) = Ok false /\ length (snd (xprv_partial_eq ex1_child ex1_hardened)) = 79%nat.
Proof. exact ConstTimeThms.c143_example. Qed.
