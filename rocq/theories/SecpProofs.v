(** The model of libsecp256k1 computes on the curve as SpecSecp.v says. *)
From Coq Require Import ZArith NArith Znumtheory Zpow_facts Lia Bool List Ring Field.
From Verif Require Import Outcome Bytes Fermat Primes Secp SpecSecp SecpField ECGroup SecpGroup SecpOrder.
Open Scope Z_scope.

Add Field Fp_fld' : Fp_field.

(** ** Field operations *)
Lemma of_fadd a b : of (fadd a b) = Fadd (of a) (of b).
Proof. unfold fadd. rewrite of_pmod. apply of_add. Qed.
Lemma of_p : of p = F0.
Proof. apply of_eq. rewrite Z.sub_0_r. apply Z.divide_refl. Qed.
Lemma of_fsub a b : of (fsub a b) = Fsub (of a) (of b).
Proof. unfold fsub. rewrite of_pmod, of_sub, of_add, of_p. ring. Qed.
Lemma of_fmul a b : of (fmul a b) = Fmul (of a) (of b).
Proof. unfold fmul. rewrite of_pmod. apply of_mul. Qed.
Lemma of_fpow a e : of (fpow a e) = of (a ^ Zpos e).
Proof.
  induction e as [e IH|e IH|]; cbn [fpow]; cbv zeta.
  - rewrite !of_fmul, IH, <- !of_mul. f_equal. rewrite Pos2Z.inj_xI, Z.pow_add_r, Z.pow_1_r by lia.
    f_equal. rewrite Z.pow_twice_r. reflexivity.
  - rewrite of_fmul, IH, <- of_mul. f_equal. rewrite Pos2Z.inj_xO, Z.pow_twice_r. reflexivity.
  - rewrite Z.pow_1_r. reflexivity.
Qed.
Lemma fpow_range a e : e <> 1%positive -> 0 <= fpow a e < p.
Proof. intros H. destruct e; cbn [fpow]; [apply pmod_range..|congruence]. Qed.
Lemma p_2_pos : 0 < p - 2.
Proof. reflexivity. Qed.
Lemma p_2_not_1 : Z.to_pos (p - 2) <> 1%positive.
Proof. vm_compute. discriminate. Qed.
Lemma quarter_gt : 0 < (p + 1) / 4.
Proof. vm_compute. reflexivity. Qed.
Lemma quarter_not_1 : Z.to_pos ((p + 1) / 4) <> 1%positive.
Proof. vm_compute. discriminate. Qed.
Lemma of_finv a : of (finv a) = Finv (of a).
Proof.
  unfold finv, Finv. rewrite of_fpow, Z2Pos.id by exact p_2_pos. apply of_eq_mod.
  rewrite fv_of. apply Zpower_mod. exact p_pos.
Qed.
Lemma fsqrt_range a : 0 <= fsqrt a < p.
Proof. apply fpow_range. exact quarter_not_1. Qed.
Lemma fsqrt_square a y : modp_eq (y * y) a -> modp_eq (fsqrt a * fsqrt a) a.
Proof.
  intros H. apply square_root_Z in H. apply of_eq in H. apply of_eq.
  rewrite of_mul. unfold fsqrt. rewrite of_fpow, Z2Pos.id by exact quarter_gt. rewrite <- of_mul. exact H.
Qed.
Global Opaque pmod finv fsqrt.

(** ** Projective points *)
Definition tri (t : proj) : Fp * Fp * Fp := let '(X, Y, Zc) := t in (of X, of Y, of Zc).
Definition red (t : proj) : Prop := let '(X, Y, Zc) := t in 0 <= X < p /\ 0 <= Y < p /\ 0 <= Zc < p.
Definition stands (t : proj) (P : point) : Prop :=
  red t /\ on_curve P /\ sim Fp F0 F1 Fmul (tri t) (lift P).

Lemma tri_proj_add t u :
  tri (proj_add t u) = padd Fp F1 Fadd Fmul Fsub (of 7) (tri t) (tri u).
Proof.
  destruct t as [[X1 Y1] Z1], u as [[X2 Y2] Z2]. unfold proj_add, tri, padd, pX, pY, pZ, b3. cbv zeta.
  repeat first [rewrite of_fadd|rewrite of_fsub|rewrite of_fmul].
  assert (E21 : of 21 = Fmul (Fadd F1 (Fadd F1 F1)) (of 7)).
  { unfold F1. rewrite <- !of_add, <- of_mul. reflexivity. }
  assert (E3 : of 3 = Fadd F1 (Fadd F1 F1)). { unfold F1. rewrite <- !of_add. reflexivity. }
  rewrite E21, E3. f_equal; [f_equal|]; ring.
Qed.
Lemma red_proj_add t u : red (proj_add t u).
Proof.
  destruct t as [[X1 Y1] Z1], u as [[X2 Y2] Z2]. unfold proj_add, red. cbv zeta.
  split; [apply pmod_range|]. split; apply pmod_range.
Qed.
Lemma stands_add t u P Q : stands t P -> stands u Q -> stands (proj_add t u) (ec_add P Q).
Proof.
  intros (_ & OP & SP) (_ & OQ & SQ). split; [apply red_proj_add|]. split; [apply ec_add_on; assumption|].
  rewrite tri_proj_add. unfold ec_add. rewrite lift_emb.
  apply (padd_sim Fp F0 F1 Fadd Fmul Fsub Fopp Fdiv Finv Fp_field Fp_dec (of 7) Fp_two no_root);
    [apply lift_on, OP|apply lift_on, OQ|exact SP|exact SQ].
Qed.
Lemma one_lt_p : 0 <= 1 < p.
Proof. split; [discriminate|reflexivity]. Qed.
Lemma zero_lt_p : 0 <= 0 < p.
Proof. split; [discriminate|reflexivity]. Qed.
Lemma F1_nz : F1 <> F0.
Proof. exact (F_1_neq_0 Fp_field). Qed.
Lemma F1_mul a : Fmul F1 a = a.
Proof. ring. Qed.
Lemma stands_of P : on_curve P -> stands (proj_of P) P.
Proof.
  intros H. split; [|split; [exact H|]].
  - destruct P as [|x y]; cbn [proj_of proj_inf red].
    + split; [exact zero_lt_p|]. split; [exact one_lt_p|exact zero_lt_p].
    + destruct H as (Hx & Hy & _). split; [exact Hx|]. split; [exact Hy|exact one_lt_p].
  - exists F1. split; [exact F1_nz|]. destruct P as [|x y]; cbn [proj_of proj_inf tri lift rep scale]; unfold proj_inf, tri; fold F0 F1.
    + rewrite !F1_mul. reflexivity.
    + rewrite !F1_mul. reflexivity.
Qed.
Lemma stands_inf : stands proj_inf Infinity.
Proof. exact (stands_of Infinity I). Qed.
Lemma of_small_zero x : 0 <= x < p -> of x = F0 -> x = 0.
Proof. intros H E. apply (of_small_inj x 0 H zero_lt_p). exact E. Qed.
Lemma triple_eq (a b c a' b' c' : Fp) : (a, b, c) = (a', b', c') -> a = a' /\ b = b' /\ c = c'.
Proof. intros H. split; [exact (f_equal (fun t => fst (fst t)) H)|]. split; [exact (f_equal (fun t => snd (fst t)) H)|exact (f_equal snd H)]. Qed.
Lemma stands_affine t P : stands t P -> to_affine t = P.
Proof.
  destruct t as [[X Y] Zc]. intros ((RX & RY & RZ) & O & m & Hm & E). cbn [tri] in E. unfold to_affine.
  destruct P as [|x y]; cbn [lift rep scale] in E; apply triple_eq in E; destruct E as (EX & EY & EZ).
  - assert (Hz : Zc = 0). { apply of_small_zero; [exact RZ|]. rewrite EZ. ring. }
    rewrite Hz. reflexivity.
  - assert (EZ' : of Zc = m). { rewrite EZ. ring. }
    destruct (Zc =? 0) eqn:Ez.
    + apply Z.eqb_eq in Ez. exfalso. apply Hm. rewrite <- EZ', Ez. reflexivity.
    + destruct O as (Bx & By & _). cbv zeta. f_equal.
      * apply of_small_inj; [apply pmod_range|exact Bx|]. rewrite of_fmul, of_finv, EZ', EX. field. exact Hm.
      * apply of_small_inj; [apply pmod_range|exact By|]. rewrite of_fmul, of_finv, EZ', EY. field. exact Hm.
Qed.
Lemma stands_mul k t P : stands t P -> stands (proj_mul k t) (smul (Npos k) P).
Proof.
  intros H. pose proof H as (_ & O & _). induction k as [k IH|k IH|]; cbn [proj_mul]; cbv zeta.
  - replace (Npos k~1) with ((Npos k + Npos k) + 1)%N by lia. rewrite !smul_add, smul_1 by exact O.
    apply stands_add; [apply stands_add; exact IH|exact H].
  - replace (Npos k~0) with (Npos k + Npos k)%N by lia. rewrite smul_add by exact O. apply stands_add; exact IH.
  - rewrite smul_1 by exact O. exact H.
Qed.

(** ** Multiples of the generator *)
Definition kG (k : Z) : point := smul (Z.to_N k) G.
Lemma kG_on k : on_curve (kG k).
Proof. apply smul_on, G_on. Qed.
Lemma kG_add a b : 0 <= a -> 0 <= b -> kG (a + b) = ec_add (kG a) (kG b).
Proof. intros Ha Hb. unfold kG. rewrite Z2N.inj_add by assumption. apply smul_add, G_on. Qed.
Lemma kG_mul a b : 0 <= a -> 0 <= b -> kG (a * b) = smul (Z.to_N a) (kG b).
Proof. intros Ha Hb. unfold kG. rewrite Z2N.inj_mul by assumption. apply smul_mul, G_on. Qed.
Lemma kG_0 : kG 0 = Infinity.
Proof. reflexivity. Qed.
Lemma kG_n : kG n = Infinity.
Proof. exact order_G. Qed.
Lemma kG_mult q : 0 <= q -> kG (q * n) = Infinity.
Proof.
  intros Hq. rewrite kG_mul; [|exact Hq|apply Z.lt_le_incl, n_pos]. rewrite kG_n. apply smul_inf.
Qed.
Lemma n_nz : n <> 0.
Proof. exact (Z.neq_sym _ _ (Z.lt_neq _ _ n_pos)). Qed.
Lemma kG_mod k : 0 <= k -> kG (k mod n) = kG k.
Proof.
  intros Hk. rewrite (Z.div_mod k n n_nz) at 2.
  pose proof (Z.mod_pos_bound k n n_pos) as [Hm _]. pose proof (Z.div_pos k n Hk n_pos) as Hq.
  rewrite (Z.mul_comm n), kG_add, kG_mult, ec_add_inf_l;
    [reflexivity|apply kG_on|exact Hq|apply Z.mul_nonneg_nonneg; [exact Hq|apply Z.lt_le_incl, n_pos]|exact Hm].
Qed.
Lemma kG_cong a b : 0 <= a -> 0 <= b -> a mod n = b mod n -> kG a = kG b.
Proof. intros Ha Hb E. rewrite <- (kG_mod a Ha), <- (kG_mod b Hb), E. reflexivity. Qed.
Lemma kG_1 : kG 1 = G.
Proof. apply smul_1, G_on. Qed.

(** Inverses modulo n. *)
Lemma inverse_exists k : ~ (n | k) -> exists w, 0 <= w < n /\ (n | w * k - 1).
Proof.
  intros H. assert (R : rel_prime k n). { apply rel_prime_sym, prime_rel_prime; [exact n_prime|exact H]. }
  apply rel_prime_bezout in R. destruct R as [u v E]. exists (u mod n). split; [apply Z.mod_pos_bound, n_pos|].
  exists (- v - (u / n) * k). rewrite (Z.mod_eq u n n_nz). rewrite <- E. ring.
Qed.
Lemma kG_inf k : 0 <= k -> kG k = Infinity -> (n | k).
Proof.
  intros Hk E. destruct (Zdivide_dec n k) as [D|D]; [exact D|exfalso].
  destruct (inverse_exists k D) as (w & [Hw _] & Dw).
  assert (E1 : kG (w * k) = kG 1).
  { apply kG_cong; [apply Z.mul_nonneg_nonneg; assumption|discriminate|]. apply mod_eq_divide; [exact n_nz|exact Dw]. }
  rewrite (kG_mul _ _ Hw Hk), E, smul_inf, kG_1 in E1. discriminate E1.
Qed.
Lemma kG_finite k : 0 < k < n -> exists x y, kG k = Point x y.
Proof.
  intros Hk. destruct (kG k) as [|x y] eqn:E; [exfalso|eauto].
  apply kG_inf in E; [|apply Z.lt_le_incl, Hk]. apply Z.divide_pos_le in E; [|apply Hk].
  destruct Hk as [_ Hk]. apply (Z.lt_irrefl k). eapply Z.lt_le_trans; eassumption.
Qed.
Lemma kG_inj a b : 0 <= a < n -> 0 <= b < n -> kG a = kG b -> a = b.
Proof.
  enough (H : forall a b, 0 <= a <= b -> b < n -> kG a = kG b -> a = b).
  { intros Ha Hb E. destruct (Z.le_ge_cases a b).
    - apply H; [split; [apply Ha|assumption]|apply Hb|exact E].
    - symmetry. apply H; [split; [apply Hb|assumption]|apply Ha|symmetry; exact E]. }
  clear. intros a b [Ha Hab] Hb E. assert (Hd : 0 <= b - a) by lia.
  assert (E1 : kG b = ec_add (kG a) (kG (b - a))). { rewrite <- kG_add by assumption. f_equal. lia. }
  assert (E2 : Infinity = kG (b - a)).
  { apply (ec_add_cancel (kG a)); [apply kG_on|exact I|apply kG_on|]. rewrite ec_add_inf_r by apply kG_on. congruence. }
  symmetry in E2. apply kG_inf in E2; [|exact Hd].
  destruct (Z.eq_dec (b - a) 0) as [Z0|NZ]; [lia|]. apply Z.divide_pos_le in E2; lia.
Qed.
Lemma kG_neg k : 0 <= k <= n -> kG (n - k) = ec_neg (kG k).
Proof.
  intros Hk. apply (ec_add_cancel (kG k)); [apply kG_on|apply kG_on|apply ec_neg_on, kG_on|].
  rewrite ec_add_neg by apply kG_on. rewrite <- kG_add by lia. replace (k + (n - k)) with n by ring. exact kG_n.
Qed.

Lemma ecmult_gen_ok k : ecmult_gen k = kG k.
Proof.
  destruct k as [|k|k]; [reflexivity| |reflexivity]. unfold ecmult_gen, kG.
  apply stands_affine. apply (stands_mul k _ G). apply stands_of, G_on.
Qed.
Lemma is_public_point_iff k P : is_public_point k P <-> 0 <= k /\ P = kG k.
Proof.
  unfold is_public_point. rewrite ec_multiple_iff by exact G_on. unfold kG.
  rewrite Z_nat_N. reflexivity.
Qed.
Lemma public_of_secret_ok k : 0 <= k -> is_public_point k (public_of_secret k).
Proof. intros H. apply is_public_point_iff. split; [exact H|apply ecmult_gen_ok]. Qed.
Lemma public_tweak_ok P t : on_curve P ->
  public_tweak_add P t = match ec_add P (kG t) with Infinity => None | Q => Some Q end.
Proof.
  intros O. unfold public_tweak_add.
  rewrite (stands_affine _ (ec_add P (kG t))); [reflexivity|].
  apply stands_add; [apply stands_of, O|].
  destruct t as [|t|t]; [exact stands_inf| |exact stands_inf]. apply (stands_mul t _ G). apply stands_of, G_on.
Qed.

(** ** Encoding of points *)
Lemma p_odd : Z.odd p = true.
Proof. vm_compute. reflexivity. Qed.
Lemma sub_p_parity y : Z.odd (p - y) = negb (Z.odd y).
Proof. rewrite Z.odd_sub, p_odd. reflexivity. Qed.
Lemma fsub_0 y : 0 < y < p -> fsub 0 y = p - y.
Proof. intros H. unfold fsub. rewrite pmod_spec. apply Z.mod_small. lia. Qed.
Lemma curve_y_nz x y : 0 <= y < p -> modp_eq (y * y) (x * x * x + 7) -> 0 < y.
Proof.
  intros Hy H. destruct (Z.eq_dec y 0) as [->|N]; [exfalso|lia].
  apply (no_root_Z x). unfold modp_eq in H. apply Z.divide_opp_r in H.
  replace (- (0 * 0 - (x * x * x + 7))) with (x * x * x + 7) in H by ring. exact H.
Qed.
Lemma curve_rhs x : modp_eq (fadd (fmul (fmul x x) x) 7) (x * x * x + 7).
Proof. apply of_eq. rewrite of_fadd, !of_fmul, of_add, !of_mul. reflexivity. Qed.
Lemma modp_refl a : modp_eq a a.
Proof. apply of_eq. reflexivity. Qed.
Lemma same_square a b : 0 < a < p -> 0 < b < p -> modp_eq (a * a) (b * b) -> b = a \/ b = p - a.
Proof.
  intros Ha Hb H. apply of_eq in H. rewrite !of_mul in H.
  apply (sq_eq Fp F0 F1 Fadd Fmul Fsub Fopp Fdiv Finv Fp_field Fp_dec) in H. destruct H as [H|H].
  - left. symmetry. apply of_small_inj; [lia|lia|exact H].
  - right. apply of_small_inj; [lia|lia|]. rewrite of_sub, of_p, H. ring.
Qed.

Lemma public_parse_sound b P : bytes_ok b -> length b = 33%nat -> public_parse b = Some P ->
  on_curve P /\ is_compressed b P.
Proof.
  intros Hb Hl H. destruct b as [|tag xb]; [discriminate H|]. unfold public_parse in H.
  destruct (((tag =? 2)%N || (tag =? 3)%N)) eqn:Et; [|discriminate H]. cbv zeta in H.
  set (x := Z.of_N (be_val xb)) in *.
  destruct (x <? p) eqn:Ex; [|discriminate H]. apply Z.ltb_lt in Ex.
  pose proof (curve_rhs x) as HR. set (rhs := fadd (fmul (fmul x x) x) 7) in *.
  pose proof (fsqrt_range rhs) as Hy0. set (y0 := fsqrt rhs) in *. clearbody y0.
  set (y := if Bool.eqb (Z.odd y0) (tag =? 3)%N then y0 else fsub 0 y0) in *.
  destruct (fmul y y =? rhs) eqn:Ey; [|discriminate H]. injection H as <-. apply Z.eqb_eq in Ey.
  assert (Hx0 : 0 <= x) by (unfold x; lia).
  assert (Hy : 0 <= y < p). { unfold y. destruct (Bool.eqb _ _); [exact Hy0|apply pmod_range]. }
  assert (Hc : modp_eq (y * y) (x * x * x + 7)).
  { apply of_eq. rewrite of_mul, <- of_fmul, Ey. apply of_eq in HR. exact HR. }
  split; [split; [split; assumption|split; assumption]|].
  pose proof (curve_y_nz x y Hy Hc) as Hpos.
  exists x, y, tag, xb. split; [reflexivity|]. split; [reflexivity|]. split; [cbn in Hl; congruence|].
  split; [inversion Hb; assumption|]. split; [reflexivity|].
  assert (Ho : Z.odd y = (tag =? 3)%N).
  { unfold y. destruct (Bool.eqb (Z.odd y0) (tag =? 3)%N) eqn:E; [apply Bool.eqb_prop, E|].
    assert (0 < y0).
    { destruct (Z.eq_dec y0 0) as [Z0|]; [exfalso|lia]. unfold y in Hpos. rewrite Z0 in Hpos.
      assert (F : fsub 0 0 = 0).
      { unfold fsub. rewrite pmod_spec. rewrite Z.sub_0_r, Z.add_0_l. apply Z_mod_same_full. }
      rewrite F in Hpos. apply (Z.lt_irrefl 0 Hpos). }
    rewrite fsub_0, sub_p_parity by lia. apply eqb_false_iff in E. destruct (Z.odd y0), (tag =? 3)%N; cbn [negb]; congruence. }
  rewrite <- Z.negb_odd, Ho. apply orb_true_iff in Et. destruct Et as [Et|Et]; apply N.eqb_eq in Et; subst tag; reflexivity.
Qed.

Lemma public_parse_complete b P : on_curve P -> is_compressed b P -> public_parse b = Some P.
Proof.
  intros O (x & y & tag & xb & -> & -> & Hl & Hb & Hx & Ht). destruct O as (Bx & By & Hc).
  pose proof (curve_y_nz x y By Hc) as Hpos. unfold public_parse.
  assert (Et : ((tag =? 2)%N || (tag =? 3)%N) = true). { subst tag. destruct (Z.even y); reflexivity. }
  rewrite Et, Hx. cbv zeta. destruct (x <? p) eqn:Ex; [|apply Z.ltb_ge in Ex; lia].
  pose proof (curve_rhs x) as HR.
  assert (RR : 0 <= fadd (fmul (fmul x x) x) 7 < p) by apply pmod_range.
  set (rhs := fadd (fmul (fmul x x) x) 7) in *.
  assert (Hq : modp_eq (y * y) rhs). { apply of_eq. apply of_eq in HR, Hc. congruence. }
  pose proof (fsqrt_square rhs y Hq) as HS. pose proof (fsqrt_range rhs) as Hy0.
  set (y0 := fsqrt rhs) in *. clearbody y0.
  assert (H0 : 0 < y0).
  { apply (curve_y_nz x y0 Hy0). apply of_eq. apply of_eq in HR, HS. congruence. }
  assert (Ey : (if Bool.eqb (Z.odd y0) (tag =? 3)%N then y0 else fsub 0 y0) = y).
  { assert (Ho : (tag =? 3)%N = Z.odd y). { rewrite <- Z.negb_even. subst tag. destruct (Z.even y); reflexivity. }
    rewrite Ho. destruct (same_square y0 y) as [E|E]; [lia|lia| | |].
    - apply of_eq. apply of_eq in HS, Hq. congruence.
    - rewrite E, Bool.eqb_reflx. reflexivity.
    - rewrite E, sub_p_parity. rewrite fsub_0 by lia. destruct (Z.odd y0); reflexivity. }
  rewrite Ey. destruct (fmul y y =? rhs) eqn:Er; [reflexivity|]. apply Z.eqb_neq in Er. exfalso. apply Er.
  apply of_small_inj; [apply pmod_range|exact RR|]. rewrite of_fmul, <- of_mul. apply of_eq. exact Hq.
Qed.

Lemma p_lt_256N : (Z.to_N p < 256 ^ N.of_nat 32)%N.
Proof. vm_compute. reflexivity. Qed.
Lemma coord_bytes x : 0 <= x < p -> Z.of_N (be_val (be_bytes 32 (Z.to_N x))) = x.
Proof.
  intros H. rewrite be_val_be_bytes, N.mod_small; [apply Z2N.id, H|].
  pose proof p_lt_256N as L. pose proof (Z2N.inj_lt x p) as I. assert (Z.to_N x < Z.to_N p)%N by (apply I; lia). lia.
Qed.
Lemma serialize_compressed x y : on_curve (Point x y) -> is_compressed (public_serialize (Point x y)) (Point x y).
Proof.
  intros (Bx & By & _). exists x, y, (if Z.odd y then 3%N else 2%N), (be_bytes 32 (Z.to_N x)).
  split; [reflexivity|]. split; [reflexivity|]. split; [apply be_bytes_length|]. split; [apply be_bytes_ok|].
  split; [apply coord_bytes, Bx|]. rewrite <- Z.negb_odd. destruct (Z.odd y); reflexivity.
Qed.
Lemma parse_serialize x y : on_curve (Point x y) -> public_parse (public_serialize (Point x y)) = Some (Point x y).
Proof. intros O. apply public_parse_complete; [exact O|apply serialize_compressed, O]. Qed.
Lemma compressed_unique b c P : is_compressed b P -> is_compressed c P -> b = c.
Proof.
  intros (x & y & t & xb & EP & -> & Hl & Hb & Hx & ->) (x' & y' & t' & xb' & EP' & -> & Hl' & Hb' & Hx' & ->).
  rewrite EP in EP'. injection EP' as <- <-. f_equal. apply be_val_inj; [assumption..|congruence|].
  apply N2Z.inj. congruence.
Qed.
Lemma serialize_parse b P : bytes_ok b -> length b = 33%nat -> public_parse b = Some P -> public_serialize P = b.
Proof.
  intros Hb Hl H. destruct (public_parse_sound b P Hb Hl H) as (O & C).
  assert (exists x y, P = Point x y) as (x & y & ->). { destruct C as (x & y & _ & _ & E & _). eauto. }
  apply (compressed_unique _ _ (Point x y)); [apply serialize_compressed, O|exact C].
Qed.
Lemma public_serialize_length P : length (public_serialize P) = 33%nat.
Proof. destruct P; cbn [public_serialize length]; rewrite be_bytes_length; reflexivity. Qed.
Lemma public_serialize_ok P : bytes_ok (public_serialize P).
Proof.
  destruct P as [|x y]; cbn [public_serialize]; (constructor; [|apply be_bytes_ok]); [|destruct (Z.odd y)]; unfold byte_ok; lia.
Qed.

(** ** Secret keys *)
Lemma n_lt_256N : (Z.to_N n < 256 ^ N.of_nat 32)%N.
Proof. vm_compute. reflexivity. Qed.
Lemma scalar_bytes k : 0 <= k < n -> Z.of_N (be_val (be_bytes 32 (Z.to_N k))) = k.
Proof.
  intros H. rewrite be_val_be_bytes, N.mod_small; [apply Z2N.id, H|].
  pose proof n_lt_256N as L. pose proof (Z2N.inj_lt k n) as I. assert (Z.to_N k < Z.to_N n)%N by (apply I; lia). lia.
Qed.
Lemma secret_parse_iff b k : secret_parse b = Some k <-> k = Z.of_N (be_val b) /\ 0 < k < n.
Proof.
  unfold secret_parse. cbv zeta. destruct ((0 <? _) && _) eqn:E.
  - apply andb_true_iff in E. destruct E as [E1 E2]. apply Z.ltb_lt in E1, E2.
    split; [intros H; injection H as <-; auto|]. intros [-> _]. reflexivity.
  - split; [intros H; discriminate H|]. intros (-> & H1 & H2). apply Z.ltb_lt in H1, H2. rewrite H1, H2 in E. discriminate E.
Qed.
Lemma secret_parse_serialize k : 0 < k < n -> secret_parse (secret_serialize k) = Some k.
Proof. intros H. apply secret_parse_iff. unfold secret_serialize. rewrite scalar_bytes by lia. auto. Qed.
Lemma secret_serialize_parse b k : bytes_ok b -> length b = 32%nat -> secret_parse b = Some k -> secret_serialize k = b.
Proof.
  intros Hb Hl H. apply secret_parse_iff in H. destruct H as [-> H]. unfold secret_serialize.
  rewrite N2Z.id, <- Hl. apply be_bytes_be_val, Hb.
Qed.
Lemma secret_tweak_add_iff k t v : secret_tweak_add k t = Some v <-> v = (k + t) mod n /\ v <> 0.
Proof.
  unfold secret_tweak_add. cbv zeta. destruct (_ =? 0) eqn:E.
  - apply Z.eqb_eq in E. split; [intros H; discriminate H|]. intros [-> H]. contradiction.
  - apply Z.eqb_neq in E. split; [intros H; injection H as <-; auto|]. intros [-> H]. reflexivity.
Qed.
Lemma secret_tweak_range k t v : secret_tweak_add k t = Some v -> 0 < v < n.
Proof.
  intros H. apply secret_tweak_add_iff in H. destruct H as [-> H].
  pose proof (Z.mod_pos_bound (k + t) n n_pos). lia.
Qed.

(** The homomorphism behind C52: tweaking the secret and tweaking its public point agree. *)
Lemma tweak_agree k t : 0 <= k -> 0 <= t ->
  public_tweak_add (kG k) t = option_map kG (secret_tweak_add k t).
Proof.
  intros Hk Ht. rewrite public_tweak_ok by apply kG_on. rewrite <- kG_add by assumption.
  rewrite <- kG_mod by lia. unfold secret_tweak_add. cbv zeta.
  pose proof (Z.mod_pos_bound (k + t) n n_pos) as B. set (v := (k + t) mod n) in *. clearbody v.
  destruct (v =? 0) eqn:E.
  - apply Z.eqb_eq in E. subst v. rewrite kG_0. reflexivity.
  - apply Z.eqb_neq in E. cbn [option_map]. destruct (kG_finite v) as (x & y & Ep); [lia|]. rewrite Ep. reflexivity.
Qed.
