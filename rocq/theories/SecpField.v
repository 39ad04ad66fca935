(** The integers modulo the field prime as a Coq field, and facts about the curve over it. *)
From Coq Require Import ZArith Znumtheory Zpow_facts Lia Bool Eqdep_dec Ring Field.
From Verif Require Import Fermat Primes Secp ECGroup.
Open Scope Z_scope.

Notation p := secp_p.
Notation n := secp_n.

Lemma p_prime : prime p.
Proof. exact prime_p. Qed.
Lemma n_prime : prime n.
Proof. exact prime_n. Qed.
Lemma p_pos : 0 < p.
Proof. reflexivity. Qed.
Lemma p_gt : 1000 < p.
Proof. reflexivity. Qed.
Lemma n_pos : 0 < n.
Proof. reflexivity. Qed.
Lemma n_lt_p : n < p.
Proof. reflexivity. Qed.
Lemma p_nz : p <> 0.
Proof. discriminate. Qed.
Lemma p_lt_256 : p < 256 ^ 32.
Proof. reflexivity. Qed.
Lemma n_lt_256 : n < 256 ^ 32.
Proof. reflexivity. Qed.

Lemma p_2_nonneg : 0 <= p - 2.
Proof. vm_compute. discriminate. Qed.
Lemma quarter_nonneg : 0 <= (p + 1) / 4.
Proof. vm_compute. discriminate. Qed.
Lemma quarter_pos : 0 <= (p + 1) / 4 - 1.
Proof. vm_compute. discriminate. Qed.
Lemma quarter_twice : (p + 1) / 4 + (p + 1) / 4 = Z.succ ((p - 1) / 2).
Proof. vm_compute. reflexivity. Qed.
Lemma half_nonneg : 0 <= (p - 1) / 2.
Proof. vm_compute. discriminate. Qed.
Lemma half_twice : 2 * ((p - 1) / 2) = p - 1.
Proof. vm_compute. reflexivity. Qed.
Lemma third_nonneg : 0 <= (p - 1) / 3.
Proof. vm_compute. discriminate. Qed.
Lemma third_thrice : 3 * ((p - 1) / 3) = p - 1.
Proof. vm_compute. reflexivity. Qed.

(** ** The type of residues *)
Record Fp := mkFp { fv : Z; fv_ok : (fv =? fv mod p) = true }.
Lemma Fp_eq (a b : Fp) : fv a = fv b -> a = b.
Proof.
  destruct a as [a Ha], b as [b Hb]. cbn. intros <-. f_equal. apply UIP_dec. apply bool_dec.
Qed.
Lemma fv_range a : 0 <= fv a < p.
Proof.
  pose proof (fv_ok a) as H. apply Z.eqb_eq in H. rewrite H. apply Z.mod_pos_bound. exact p_pos.
Qed.
Lemma of_ok z : (z mod p =? (z mod p) mod p) = true.
Proof. apply Z.eqb_eq. symmetry. apply Z.mod_mod. exact p_nz. Qed.
Definition of (z : Z) : Fp := mkFp (z mod p) (of_ok z).
Lemma fv_of z : fv (of z) = z mod p.
Proof. reflexivity. Qed.
Lemma fv_of_small z : 0 <= z < p -> fv (of z) = z.
Proof. intros H. rewrite fv_of. apply Z.mod_small. exact H. Qed.
Lemma of_fv a : of (fv a) = a.
Proof. apply Fp_eq. rewrite fv_of. apply Z.mod_small, fv_range. Qed.
Lemma of_eq x y : of x = of y <-> (p | x - y).
Proof.
  rewrite <- (mod_eq_divide p x y p_nz). split; intros H.
  - apply (f_equal fv) in H. exact H.
  - apply Fp_eq. exact H.
Qed.
Lemma of_eq_mod x y : of x = of y <-> x mod p = y mod p.
Proof. rewrite of_eq. symmetry. apply mod_eq_divide. exact p_nz. Qed.

Definition Fadd a b := of (fv a + fv b).
Definition Fsub a b := of (fv a - fv b).
Definition Fmul a b := of (fv a * fv b).
Definition Fopp a := of (- fv a).
Definition Finv a := of (fv a ^ (p - 2)).
Definition Fdiv a b := Fmul a (Finv b).
Definition F0 := of 0.
Definition F1 := of 1.

Lemma of_add x y : of (x + y) = Fadd (of x) (of y).
Proof. apply of_eq_mod. rewrite !fv_of. apply Z.add_mod. exact p_nz. Qed.
Lemma of_sub x y : of (x - y) = Fsub (of x) (of y).
Proof. apply of_eq_mod. rewrite !fv_of. apply Zminus_mod. Qed.
Lemma of_mul x y : of (x * y) = Fmul (of x) (of y).
Proof. apply of_eq_mod. rewrite !fv_of. apply Z.mul_mod. exact p_nz. Qed.
Lemma of_opp x : of (- x) = Fopp (of x).
Proof.
  apply of_eq_mod. rewrite !fv_of. apply mod_eq_divide; [exact p_nz|].
  exists (- (x / p)). rewrite (Z.div_mod x p p_nz) at 1. ring.
Qed.

Lemma Fp_ind (P : Fp -> Prop) : (forall z, P (of z)) -> forall a, P a.
Proof. intros H a. rewrite <- (of_fv a). apply H. Qed.

Lemma Fp_inv_l a : a <> F0 -> Fmul (Finv a) a = F1.
Proof.
  intros Ha. unfold Fmul, Finv, F1. apply of_eq_mod. rewrite fv_of.
  rewrite Z.mul_mod_idemp_l by exact p_nz.
  replace (fv a ^ (p - 2) * fv a) with (fv a ^ (p - 1)).
  - rewrite fermat_unit; [reflexivity|exact p_prime|]. intros H. apply Ha. rewrite <- (of_fv a).
    apply of_eq. rewrite Z.sub_0_r. exact H.
  - replace (p - 1) with (Z.succ (p - 2)) by ring. rewrite (Z.pow_succ_r _ _ p_2_nonneg). apply Z.mul_comm.
Qed.

Lemma Fp_field : field_theory F0 F1 Fadd Fmul Fsub Fopp Fdiv Finv eq.
Proof.
  constructor.
  - constructor; unfold F0, F1.
    + intros a. rewrite <- (of_fv a), <- of_add. f_equal.
    + intros a b. rewrite <- (of_fv a), <- (of_fv b), <- !of_add. f_equal. ring.
    + intros a b c. rewrite <- (of_fv a), <- (of_fv b), <- (of_fv c), <- !of_add. f_equal. ring.
    + intros a. rewrite <- (of_fv a), <- of_mul. f_equal. ring.
    + intros a b. rewrite <- (of_fv a), <- (of_fv b), <- !of_mul. f_equal. ring.
    + intros a b c. rewrite <- (of_fv a), <- (of_fv b), <- (of_fv c), <- !of_mul. f_equal. ring.
    + intros a b c. rewrite <- (of_fv a), <- (of_fv b), <- (of_fv c), <- !of_add, <- !of_mul, <- !of_add. f_equal. ring.
    + intros a b. rewrite <- (of_fv a), <- (of_fv b), <- of_opp, <- of_sub, <- of_add. f_equal.
    + intros a. rewrite <- (of_fv a), <- of_opp, <- of_add. f_equal. ring.
  - unfold F0, F1. intros H. apply (f_equal fv) in H. discriminate.
  - reflexivity.
  - exact Fp_inv_l.
Qed.

Lemma Fp_dec (a b : Fp) : {a = b} + {a <> b}.
Proof.
  destruct (Z.eq_dec (fv a) (fv b)) as [E|E]; [left; apply Fp_eq, E|right; congruence].
Defined.

Lemma Fp_two : Fadd F1 F1 <> F0.
Proof. unfold F0, F1. rewrite <- of_add. intros H. apply (f_equal fv) in H. discriminate. Qed.

(** ** There is no point of order two: -7 is not a cube modulo p *)
Definition red_p (x : Z) : Z := fold_red 256 4294968273 (fold_red 256 4294968273 x).
Lemma red_p_keeps : keeps p red_p.
Proof.
  assert (K : keeps p (fold_red 256 4294968273)) by (apply fold_red_ok; [discriminate|reflexivity|exact p_nz]).
  exact (keeps_comp _ _ _ K K).
Qed.
Lemma minus7_not_cube_pow : (-7) ^ ((p - 1) / 3) mod p <> 1.
Proof.
  rewrite <- (powz_ok p red_p (-7) _ p_nz red_p_keeps third_nonneg).
  assert (H : (powz red_p (-7) ((p - 1) / 3) mod p =? 1) = false) by (vm_compute; reflexivity).
  intros E. rewrite E in H. discriminate H.
Qed.
Lemma no_root_Z x : ~ (p | x * x * x + 7).
Proof.
  intros H. apply minus7_not_cube_pow.
  assert (E : (-7) mod p = (x ^ 3) mod p).
  { apply mod_eq_divide; [exact p_nz|]. destruct H as (k & Hk). exists (- k).
    replace (x ^ 3) with (x * x * x) by ring. lia. }
  rewrite Zpower_mod by exact p_pos. rewrite E. rewrite <- Zpower_mod by exact p_pos.
  rewrite <- (Z.pow_mul_r _ _ _ (Zle_0_pos 3) third_nonneg), third_thrice.
  apply fermat_unit; [exact p_prime|]. intros (k & ->).
  assert (D : (p | 7)).
  { destruct H as (j & Hj). exists (j - k * (k * p) * (k * p)). rewrite Z.mul_sub_distr_r, <- Hj. ring. }
  apply Z.divide_pos_le in D; [|reflexivity]. pose proof p_gt. lia.
Qed.
Lemma no_root x : Fadd (Fmul (Fmul x x) x) (of 7) <> F0.
Proof.
  rewrite <- (of_fv x), <- !of_mul, <- of_add. unfold F0. intros H. apply of_eq in H.
  rewrite Z.sub_0_r in H. exact (no_root_Z _ H).
Qed.

(** ** Squares *)
Lemma square_root_Z a y : (p | y * y - a) -> (p | a ^ ((p + 1) / 4) * a ^ ((p + 1) / 4) - a).
Proof.
  intros H. destruct (Zdivide_dec p a) as [D|D].
  - apply Z.divide_sub_r; [|exact D]. apply Z.divide_mul_l. replace ((p + 1) / 4) with (Z.succ ((p + 1) / 4 - 1)) by ring.
    rewrite (Z.pow_succ_r _ _ quarter_pos). apply Z.divide_mul_l. exact D.
  - rewrite <- (Z.pow_add_r _ _ _ quarter_nonneg quarter_nonneg), quarter_twice.
    rewrite (Z.pow_succ_r _ _ half_nonneg). replace (a * a ^ ((p - 1) / 2) - a) with (a * (a ^ ((p - 1) / 2) - 1)) by ring.
    apply Z.divide_mul_r. apply mod_eq_divide; [exact p_nz|].
    assert (E : a mod p = (y ^ 2) mod p).
    { symmetry. apply mod_eq_divide; [exact p_nz|]. rewrite Z.pow_2_r. exact H. }
    rewrite Zpower_mod by exact p_pos. rewrite E, <- Zpower_mod by exact p_pos.
    rewrite <- (Z.pow_mul_r _ _ _ (Zle_0_pos 2) half_nonneg), half_twice.
    rewrite fermat_unit; [reflexivity|exact p_prime|]. intros Dy. apply D.
    assert (D2 : (p | y * y - (y * y - a))). { apply Z.divide_sub_r; [apply Z.divide_mul_l, Dy|exact H]. }
    replace (y * y - (y * y - a)) with a in D2 by ring. exact D2.
Qed.
