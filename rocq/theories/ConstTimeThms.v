(** Proofs about the comparison in constant time (restated in PropConstTime.v). *)
From Coq Require Import ZifyBool ZifyNat ZifyN.
From Verif Require Import Outcome Bytes HashLemmas Secp SpecSecp ModelBip32 SpecBip32 ExtProofs DeriveThms MiscThms ModelConstTime.
Open Scope N_scope.

Lemma neg_high w x : 0 < w -> 0 < x < 2 ^ w -> N.shiftr (N.lor x (wrapping_neg w x)) (w - 1) = 1.
Proof.
  intros Hw Hx. unfold wrapping_neg, wrap. assert (E : 2 ^ w = 2 * 2 ^ (w - 1)).
  { rewrite <- N.pow_succ_r'. f_equal. lia. }
  rewrite N.mod_small by lia. rewrite N.shiftr_lor, !N.shiftr_div_pow2.
  assert (P : 0 < 2 ^ (w - 1)) by (apply N.neq_0_lt_0, N.pow_nonzero; discriminate).
  assert (B : forall y, y < 2 ^ w -> y / 2 ^ (w - 1) = if 2 ^ (w - 1) <=? y then 1 else 0).
  { intros y Hy. destruct (N.leb_spec (2 ^ (w - 1)) y).
    - symmetry. apply (N.div_unique y (2 ^ (w - 1)) 1 (y - 2 ^ (w - 1))); lia.
    - apply N.div_small. assumption. }
  rewrite !B by lia.
  destruct (N.leb_spec (2 ^ (w - 1)) x), (N.leb_spec (2 ^ (w - 1)) (2 ^ w - x)); try reflexivity. lia.
Qed.
Lemma lxor_lt_pow2 w a b : a < 2 ^ w -> b < 2 ^ w -> N.lxor a b < 2 ^ w.
Proof.
  intros Ha Hb. destruct (N.eq_dec (N.lxor a b) 0) as [->|E]; [apply N.neq_0_lt_0, N.pow_nonzero; discriminate|].
  apply N.log2_lt_pow2; [lia|]. eapply N.le_lt_trans; [apply N.log2_lxor|].
  destruct (N.eq_dec w 0) as [->|W]; [change (2 ^ 0) with 1 in *; assert (a = 0) by lia; assert (b = 0) by lia; subst; destruct E; reflexivity|].
  assert (L : forall x, x < 2 ^ w -> N.log2 x < w).
  { intros x Hx. destruct (N.eq_dec x 0) as [->|Ex]; [cbn; lia|]. apply N.log2_lt_pow2; lia. }
  apply N.max_lub_lt; apply L; assumption.
Qed.
Lemma ct_uint w a b : 0 < w -> a < 2 ^ w -> b < 2 ^ w ->
  ct_eq_uint w a b = (Ok (if a =? b then 1 else 0), [Word w]).
Proof.
  intros Hw Ha Hb. unfold ct_eq_uint, w_step. destruct (N.eqb_spec a b) as [->|D].
  - rewrite N.lxor_nilpotent. unfold wrapping_neg, wrap. rewrite N.sub_0_r, N.mod_same by (apply N.pow_nonzero; discriminate).
    rewrite N.lor_0_l, N.shiftr_0_l. reflexivity.
  - rewrite (neg_high w (N.lxor a b)); [reflexivity|exact Hw|]. split.
    + apply N.neq_0_lt_0. intros E. apply D. apply N.lxor_eq, E.
    + apply lxor_lt_pow2; assumption.
Qed.

Lemma ct_loop a : forall b x, length a = length b -> bytes_ok a -> bytes_ok b -> x = 0 \/ x = 1 ->
  ct_eq_loop x a b = (Ok (if bytes_eqb a b then x else 0), repeat (Word 8) (length a)).
Proof.
  induction a as [|c a IH]; intros [|d b] x L Ha Hb Hx; try discriminate L.
  - cbn [ct_eq_loop bytes_eqb]. unfold choice_from. destruct Hx as [-> | ->]; reflexivity.
  - injection L as L. apply Forall_cons_iff in Ha. apply Forall_cons_iff in Hb. cbn [ct_eq_loop bytes_eqb length repeat].
    rewrite (ct_uint 8) by (reflexivity || apply Ha || apply Hb). cbn [w_bind].
    rewrite IH; [|exact L|apply Ha|apply Hb|destruct (c =? d), Hx as [-> | ->]; auto].
    destruct (c =? d); cbn [andb].
    + replace (N.land x 1) with x by (destruct Hx as [-> | ->]; reflexivity). reflexivity.
    + rewrite N.land_0_r. destruct (bytes_eqb a b); reflexivity.
Qed.
Lemma ct_slice a b : length a = length b -> bytes_ok a -> bytes_ok b ->
  ct_eq_slice a b = (Ok (if bytes_eqb a b then 1 else 0), Branch false :: repeat (Word 8) (length a)).
Proof.
  intros L Ha Hb. unfold ct_eq_slice, len. rewrite L, N.eqb_refl. unfold w_step. cbn [w_bind].
  rewrite (ct_loop a b 1 L Ha Hb (or_intror eq_refl)). rewrite L. reflexivity.
Qed.
Lemma ct_and (a b : bool) : choice_and (if a then 1 else 0) (if b then 1 else 0) = (Ok (if a && b then 1 else 0), [Word 8]).
Proof. destruct a, b; reflexivity. Qed.

(** C143 *)
Definition xprv_trace : list step :=
  (Branch false :: repeat (Word 8) 32) ++ [Word 8; Word 8] ++ (Branch false :: repeat (Word 8) 4) ++ [Word 8; Word 32; Word 8]
  ++ (Branch false :: repeat (Word 8) 32) ++ [Word 8; Wipe 32; Wipe 32].
Lemma ct_eq_run x y : valid_xprv x -> valid_xprv y ->
  xprv_ct_eq x y = (Ok (if xprv_eq x y then 1 else 0, (repeat 0 32, repeat 0 32)), xprv_trace).
Proof.
  intros (_ & D & [Fl Fb] & C & [Cl Cb]) (_ & D' & [Fl' Fb'] & C' & [Cl' Cb']). unfold xprv_ct_eq, xprv_eq.
  assert (K : length (xprv_to_bytes x) = 32%nat /\ bytes_ok (xprv_to_bytes x)) by (split; [apply be_bytes_length|apply be_bytes_ok]).
  destruct K as [Kl Kb]. revert Kl Kb. generalize (xprv_to_bytes x). intros k Kl Kb.
  rewrite (ct_slice k k) by (reflexivity || assumption). rewrite (ct_uint 8) by (reflexivity || assumption).
  rewrite (ct_slice (parent_fingerprint _)) by (assumption || congruence).
  rewrite (ct_uint 32) by (reflexivity || assumption).
  rewrite (ct_slice (chain_code _)) by (assumption || congruence).
  rewrite Kl, Fl, Cl. cbn [w_bind]. rewrite ct_and. cbn [w_bind]. rewrite ct_and. cbn [w_bind]. rewrite ct_and. cbn [w_bind].
  rewrite ct_and. unfold wipe, w_step, w_ret, len. rewrite Kl. cbn [w_bind]. reflexivity.
Qed.
Lemma c143_slices : forall a b : bytes, bytes_ok a -> bytes_ok b ->
  (fst (ct_eq_slice a b) = Ok 1 <-> a = b) /\ (fst (ct_eq_slice a b) = Ok 0 <-> a <> b)
  /\ (forall a' b' : bytes, bytes_ok a' -> bytes_ok b' -> length a' = length a -> length b' = length b ->
        snd (ct_eq_slice a' b') = snd (ct_eq_slice a b)).
Proof.
  intros a b Ha Hb. destruct (Nat.eq_dec (length a) (length b)) as [L|L].
  - rewrite (ct_slice a b L Ha Hb). cbn [fst snd]. split; [|split].
    + destruct (bytes_eqb a b) eqn:E; [apply bytes_eqb_spec in E; split; auto|].
      split; [discriminate|intros ->; rewrite bytes_eqb_refl in E; discriminate E].
    + destruct (bytes_eqb a b) eqn:E; [apply bytes_eqb_spec in E; split; [discriminate|intros N; destruct (N E)]|].
      split; [intros _ ->; rewrite bytes_eqb_refl in E; discriminate E|auto].
    + intros a' b' Ha' Hb' L1 L2. rewrite (ct_slice a' b') by (assumption || congruence). rewrite L1. reflexivity.
  - assert (F : forall a' b' : bytes, length a' = length a -> length b' = length b -> ct_eq_slice a' b' = (Ok 0, [Branch true])).
    { intros a' b' L1 L2. unfold ct_eq_slice, len. rewrite L1, L2. destruct (N.eqb_spec (N.of_nat (length a)) (N.of_nat (length b))) as [E|E]; [lia|reflexivity]. }
    rewrite (F a b eq_refl eq_refl). cbn [fst snd]. split; [split; [discriminate|intros ->; destruct (L eq_refl)]|].
    split; [split; [intros _ ->; destruct (L eq_refl)|reflexivity]|]. intros a' b' _ _ L1 L2. rewrite F by assumption. reflexivity.
Qed.
Lemma c143_comparison : forall x y : xprv, valid_xprv x -> valid_xprv y ->
  exists c, fst (xprv_ct_eq x y) = Ok (c, (repeat 0 32, repeat 0 32))
    /\ (c = 1 <-> xprv_attrs x = xprv_attrs y) /\ (c = 0 <-> xprv_attrs x <> xprv_attrs y)
    /\ fst (xprv_partial_eq x y) = Ok (xprv_eq x y).
Proof.
  intros x y Hx Hy. unfold xprv_partial_eq. rewrite (ct_eq_run x y Hx Hy). eexists. split; [reflexivity|]. rewrite <- xprv_eq_iff.
  destruct (xprv_eq x y); (split; [split; congruence|split; [split; congruence|reflexivity]]).
Qed.
(** The steps are the same for all keys: neither the secrets nor where the keys differ can be seen. *)
Lemma c143_same_steps : forall x y x' y' : xprv, valid_xprv x -> valid_xprv y -> valid_xprv x' -> valid_xprv y' ->
  snd (xprv_ct_eq x y) = snd (xprv_ct_eq x' y') /\ snd (xprv_partial_eq x y) = snd (xprv_partial_eq x' y').
Proof.
  intros x y x' y' Hx Hy Hx' Hy'. unfold xprv_partial_eq. rewrite (ct_eq_run x y Hx Hy), (ct_eq_run x' y' Hx' Hy').
  split; reflexivity.
Qed.
(** The plain comparison gives the same answers in steps that tell where the first difference is. *)
Example c143_example : ct_eq_slice [1; 2; 3] [1; 2; 3] = (Ok 1, [Branch false; Word 8; Word 8; Word 8])
  /\ ct_eq_slice [1; 2; 3] [9; 2; 3] = (Ok 0, [Branch false; Word 8; Word 8; Word 8])
  /\ snd (plain_eq [1; 2; 3] [9; 2; 3]) <> snd (plain_eq [1; 2; 3] [1; 2; 9])
  /\ fst (xprv_partial_eq ex1_child ex1_hardened) = Ok false /\ length (snd (xprv_partial_eq ex1_child ex1_hardened)) = 79%nat.
Proof.
  split; [reflexivity|]. split; [reflexivity|]. split; [discriminate|]. split; vm_compute; reflexivity.
Qed.
