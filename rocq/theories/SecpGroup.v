(** The points of secp256k1 form a group under the chord-and-tangent law of SpecSecp.v. *)
From Coq Require Import ZArith NArith Znumtheory Lia Bool List Ring Field.
From Verif Require Import Outcome Bytes Fermat Secp SpecSecp SecpField ECGroup.
Open Scope Z_scope.

Add Field Fp_fld : Fp_field.

Notation Fpt := (pt Fp).
Definition Fon : Fpt -> Prop := on Fp Fadd Fmul (of 7).
Definition Fplus : Fpt -> Fpt -> Fpt := add Fp F0 F1 Fadd Fmul Fsub Fdiv Fp_dec.
Definition Fneg : Fpt -> Fpt := neg Fp Fopp.

Definition emb (P : Fpt) : point := match P with Inf _ => Infinity | Aff _ x y => Point (fv x) (fv y) end.
Definition lift (P : point) : Fpt := match P with Infinity => Inf Fp | Point x y => Aff Fp (of x) (of y) end.

Lemma emb_on P : Fon P -> on_curve (emb P).
Proof.
  destruct P as [|x y]; cbn; [auto|]. intros H. split; [apply fv_range|]. split; [apply fv_range|].
  unfold modp_eq. apply of_eq. rewrite of_add, !of_mul, !of_fv. exact H.
Qed.
Lemma lift_on P : on_curve P -> Fon (lift P).
Proof.
  destruct P as [|x y]; cbn; [auto|]. intros (Hx & Hy & H). unfold modp_eq in H. apply of_eq in H.
  rewrite of_add, !of_mul in H. exact H.
Qed.
Lemma emb_lift P : on_curve P -> emb (lift P) = P.
Proof.
  destruct P as [|x y]; [reflexivity|]. intros (Hx & Hy & _). cbn [lift emb].
  now rewrite !fv_of_small by assumption.
Qed.
Lemma lift_emb P : lift (emb P) = P.
Proof. destruct P as [|x y]; [reflexivity|]. cbn [emb lift]. now rewrite !of_fv. Qed.

Definition ec_add (P Q : point) : point := emb (Fplus (lift P) (lift Q)).
Definition ec_neg (P : point) : point := emb (Fneg (lift P)).

Lemma ec_add_on P Q : on_curve P -> on_curve Q -> on_curve (ec_add P Q).
Proof.
  intros HP HQ. apply emb_on. apply (add_on Fp F0 F1 Fadd Fmul Fsub Fopp Fdiv Finv Fp_field Fp_dec (of 7) Fp_two no_root);
    apply lift_on; assumption.
Qed.
Lemma ec_neg_on P : on_curve P -> on_curve (ec_neg P).
Proof.
  intros HP. apply emb_on. apply (neg_on Fp F0 F1 Fadd Fmul Fsub Fopp Fdiv Finv Fp_field (of 7)). apply lift_on, HP.
Qed.
Lemma ec_add_inf_l P : on_curve P -> ec_add Infinity P = P.
Proof. intros H. unfold ec_add. cbn. apply emb_lift, H. Qed.
Lemma ec_add_inf_r P : on_curve P -> ec_add P Infinity = P.
Proof. intros H. unfold ec_add, Fplus. cbn [lift]. rewrite add_inf_r. apply emb_lift, H. Qed.
Lemma ec_add_comm P Q : on_curve P -> on_curve Q -> ec_add P Q = ec_add Q P.
Proof.
  intros HP HQ. unfold ec_add. f_equal.
  apply (add_comm Fp F0 F1 Fadd Fmul Fsub Fopp Fdiv Finv Fp_field Fp_dec (of 7)); apply lift_on; assumption.
Qed.
Lemma ec_add_assoc P Q R : on_curve P -> on_curve Q -> on_curve R -> ec_add (ec_add P Q) R = ec_add P (ec_add Q R).
Proof.
  intros HP HQ HR. unfold ec_add. rewrite !lift_emb. f_equal.
  apply (add_assoc Fp F0 F1 Fadd Fmul Fsub Fopp Fdiv Finv Fp_field Fp_dec (of 7) Fp_two no_root); apply lift_on; assumption.
Qed.
Lemma ec_add_neg P : on_curve P -> ec_add P (ec_neg P) = Infinity.
Proof.
  intros HP. unfold ec_add, ec_neg. rewrite lift_emb.
  unfold Fplus, Fneg. rewrite (add_neg Fp F0 F1 Fadd Fmul Fsub Fopp Fdiv Finv Fp_field Fp_dec (of 7) Fp_two no_root);
    [reflexivity|apply lift_on, HP].
Qed.
Lemma ec_add_cancel P Q R : on_curve P -> on_curve Q -> on_curve R -> ec_add P Q = ec_add P R -> Q = R.
Proof.
  intros HP HQ HR E. apply (f_equal (ec_add (ec_neg P))) in E.
  pose proof (ec_neg_on P HP) as HN.
  rewrite <- !ec_add_assoc, (ec_add_comm _ P), ec_add_neg, !ec_add_inf_l in E by assumption. exact E.
Qed.

(** ** The relation [ec_sum] is the graph of [ec_add] *)
Lemma of_small_inj x y : 0 <= x < p -> 0 <= y < p -> of x = of y -> x = y.
Proof. intros Hx Hy E. apply (f_equal fv) in E. rewrite !fv_of_small in E by assumption. exact E. Qed.

Lemma slope_unique a b l : b <> F0 -> Fmul l b = a -> l = Fdiv a b.
Proof. intros Hb <-. field. exact Hb. Qed.

Lemma ec_sum_add P Q R : on_curve P -> on_curve Q -> ec_sum P Q R -> R = ec_add P Q.
Proof.
  intros HP HQ H. destruct H as [Q|P|x y1 y2 H|x y l x3 y3 Hy Hl Bx Hx By Hy3|x1 y1 x2 y2 l x3 y3 Hne Hl Bx Hx By Hy3].
  - symmetry. apply ec_add_inf_l, HQ.
  - symmetry. apply ec_add_inf_r, HP.
  - unfold ec_add, Fplus. cbn [lift add]. destruct (Fp_dec (of x) (of x)) as [_|N]; [|congruence].
    unfold modp_eq in H. apply of_eq in H. rewrite of_add in H.
    assert (Ny : of y1 <> F0).
    { apply (y_nz Fp F0 F1 Fadd Fmul Fsub Fopp Fdiv Finv Fp_field (of 7) no_root (of x)). exact (lift_on _ HP). }
    destruct (Fp_dec (of y1) (of y2)) as [E|_]; [exfalso|reflexivity].
    rewrite <- E in H. apply Ny. apply (opp_self Fp F0 F1 Fadd Fmul Fsub Fopp Fdiv Finv Fp_field Fp_dec Fp_two).
    transitivity (Fsub (Fadd (of y1) (of y1)) (of y1)); [ring|]. rewrite H. fold F0. ring.
  - unfold ec_add, Fplus. cbn [lift add]. destruct (Fp_dec (of x) (of x)) as [_|N]; [|congruence].
    destruct (Fp_dec (of y) (of y)) as [_|N]; [|congruence].
    assert (Ny : of y <> F0).
    { intros E. apply Hy. apply of_eq. rewrite of_add, E. unfold F0. rewrite <- of_add. reflexivity. }
    destruct (Fp_dec (of y) F0) as [E|_]; [contradiction|].
    assert (N2 : Fmul (Fadd F1 F1) (of y) <> F0).
    { apply (mul_nz Fp F0 F1 Fadd Fmul Fsub Fopp Fdiv Finv Fp_field Fp_dec); [exact Fp_two|exact Ny]. }
    assert (El : of l = Fdiv (Fmul (Fmul (Fadd F1 (Fadd F1 F1)) (of x)) (of x)) (Fmul (Fadd F1 F1) (of y))).
    { apply slope_unique; [exact N2|]. unfold F1. rewrite <- !of_add, <- !of_mul. apply of_eq. exact Hl. }
    unfold with_slope. rewrite <- El. cbn [emb].
    apply of_eq in Hx, Hy3. rewrite !of_sub, of_mul in Hx. rewrite of_sub, of_mul, of_sub in Hy3.
    rewrite <- Hx, <- Hy3. rewrite !fv_of_small by assumption. reflexivity.
  - unfold ec_add, Fplus. cbn [lift add]. destruct HP as (Bx1 & By1 & _), HQ as (Bx2 & By2 & _).
    destruct (Fp_dec (of x1) (of x2)) as [E|N]; [apply of_small_inj in E; [contradiction|assumption..]|].
    assert (N2 : Fsub (of x2) (of x1) <> F0).
    { apply (sub_nz Fp F0 F1 Fadd Fmul Fsub Fopp Fdiv Finv Fp_field). congruence. }
    assert (El : of l = Fdiv (Fsub (of y2) (of y1)) (Fsub (of x2) (of x1))).
    { apply slope_unique; [exact N2|]. rewrite <- !of_sub, <- !of_mul. apply of_eq. exact Hl. }
    unfold with_slope. rewrite <- El. cbn [emb].
    apply of_eq in Hx, Hy3. rewrite !of_sub, of_mul in Hx. rewrite of_sub, of_mul, of_sub in Hy3.
    rewrite <- Hx, <- Hy3. rewrite !fv_of_small by assumption. reflexivity.
Qed.

Lemma ec_add_sum P Q : on_curve P -> on_curve Q -> ec_sum P Q (ec_add P Q).
Proof.
  intros HP HQ.
  destruct P as [|x1 y1]; [rewrite ec_add_inf_l by exact HQ; constructor|].
  destruct Q as [|x2 y2]; [rewrite ec_add_inf_r by exact HP; constructor|].
  pose proof (lift_on _ HP) as LP. pose proof (lift_on _ HQ) as LQ.
  pose proof HP as (Bx1 & By1 & E1). pose proof HQ as (Bx2 & By2 & E2).
  pose proof (y_nz Fp F0 F1 Fadd Fmul Fsub Fopp Fdiv Finv Fp_field (of 7) no_root _ _ LP) as Ny.
  unfold ec_add, Fplus. cbn [lift add].
  destruct (Fp_dec (of x1) (of x2)) as [Ex|Nx].
  - apply of_small_inj in Ex; [|assumption..]. subst x2.
    destruct (Fp_dec (of y1) (of y2)) as [Ey|Ney].
    + apply of_small_inj in Ey; [|assumption..]. subst y2.
      destruct (Fp_dec (of y1) F0) as [E|_]; [contradiction|].
      assert (N2 : Fmul (Fadd F1 F1) (of y1) <> F0).
      { apply (mul_nz Fp F0 F1 Fadd Fmul Fsub Fopp Fdiv Finv Fp_field Fp_dec); [exact Fp_two|exact Ny]. }
      set (l := Fdiv (Fmul (Fmul (Fadd F1 (Fadd F1 F1)) (of x1)) (of x1)) (Fmul (Fadd F1 F1) (of y1))).
      unfold with_slope. cbn [emb]. apply (sum_tangent x1 y1 (fv l)); try apply fv_range.
      * intros H. apply N2. apply of_eq in H. rewrite of_add in H. transitivity (Fadd (of y1) (of y1)); [ring|exact H].
      * apply of_eq. rewrite !of_mul, of_fv. change 2 with (1 + 1). change 3 with (1 + (1 + 1)). rewrite !of_add.
        fold F1. unfold l. field. split; [exact Ny|exact Fp_two].
      * apply of_eq. rewrite !of_sub, of_mul, !of_fv. reflexivity.
      * apply of_eq. rewrite !of_sub, of_mul, !of_sub, !of_fv. reflexivity.
    + apply sum_opp. apply of_eq. rewrite of_add.
      destruct (sq_eq Fp F0 F1 Fadd Fmul Fsub Fopp Fdiv Finv Fp_field Fp_dec (of y1) (of y2)) as [E|E].
      * cbn in LP, LQ. congruence.
      * contradiction.
      * rewrite E. fold F0. ring.
  - assert (N2 : Fsub (of x2) (of x1) <> F0).
    { apply (sub_nz Fp F0 F1 Fadd Fmul Fsub Fopp Fdiv Finv Fp_field). congruence. }
    set (l := Fdiv (Fsub (of y2) (of y1)) (Fsub (of x2) (of x1))).
    unfold with_slope. cbn [emb]. apply (sum_chord x1 y1 x2 y2 (fv l)); try apply fv_range.
    + congruence.
    + apply of_eq. rewrite of_mul, !of_sub, of_fv. unfold l. field. exact N2.
    + apply of_eq. rewrite !of_sub, of_mul, !of_fv. reflexivity.
    + apply of_eq. rewrite !of_sub, of_mul, !of_sub, !of_fv. reflexivity.
Qed.

Lemma ec_sum_iff P Q R : on_curve P -> on_curve Q -> ec_sum P Q R <-> R = ec_add P Q.
Proof.
  intros HP HQ. split; [apply ec_sum_add; assumption|]. intros ->. apply ec_add_sum; assumption.
Qed.

(** ** Multiples *)
Definition smul (k : N) (P : point) : point := N.iter k (ec_add P) Infinity.
Lemma smul_0 P : smul 0 P = Infinity.
Proof. reflexivity. Qed.
Lemma smul_succ k P : smul (N.succ k) P = ec_add P (smul k P).
Proof. unfold smul. apply N.iter_succ. Qed.
Lemma smul_on k P : on_curve P -> on_curve (smul k P).
Proof.
  intros HP. induction k as [|k IH] using N.peano_ind; [exact I|]. rewrite smul_succ. apply ec_add_on; assumption.
Qed.
Lemma smul_1 P : on_curve P -> smul 1 P = P.
Proof. intros H. change 1%N with (N.succ 0). rewrite smul_succ, smul_0. apply ec_add_inf_r, H. Qed.
Lemma smul_add a b P : on_curve P -> smul (a + b) P = ec_add (smul a P) (smul b P).
Proof.
  intros HP. induction a as [|a IH] using N.peano_ind.
  - rewrite N.add_0_l, smul_0, ec_add_inf_l; [reflexivity|apply smul_on, HP].
  - rewrite N.add_succ_l, !smul_succ, IH, ec_add_assoc; [reflexivity|exact HP|apply smul_on, HP..].
Qed.
Lemma smul_inf k : smul k Infinity = Infinity.
Proof. induction k as [|k IH] using N.peano_ind; [reflexivity|]. rewrite smul_succ, IH. reflexivity. Qed.
Lemma smul_mul a b P : on_curve P -> smul (a * b) P = smul a (smul b P).
Proof.
  intros HP. induction a as [|a IH] using N.peano_ind; [reflexivity|].
  rewrite N.mul_succ_l, N.add_comm, smul_add, smul_succ, IH by exact HP. reflexivity.
Qed.
Lemma smul_dist k P Q : on_curve P -> on_curve Q -> smul k (ec_add P Q) = ec_add (smul k P) (smul k Q).
Proof.
  intros HP HQ. induction k as [|k IH] using N.peano_ind; [reflexivity|]. rewrite !smul_succ, IH.
  pose proof (smul_on k P HP). pose proof (smul_on k Q HQ).
  rewrite !ec_add_assoc by (assumption || (apply ec_add_on; assumption)). f_equal.
  rewrite <- !ec_add_assoc by assumption. f_equal. apply ec_add_comm; assumption.
Qed.
Lemma ec_multiple_iff P k R : on_curve P -> ec_multiple P k R <-> R = smul (N.of_nat k) P.
Proof.
  intros HP. split.
  - induction 1 as [|k R S HM IH HS]; [reflexivity|]. rewrite Nat2N.inj_succ, smul_succ.
    subst R. apply ec_sum_add; [exact HP|apply smul_on, HP|exact HS].
  - revert R. induction k as [|k IH]; intros R ->; [constructor|].
    rewrite Nat2N.inj_succ, smul_succ. econstructor; [apply IH; reflexivity|].
    apply ec_add_sum; [exact HP|apply smul_on, HP].
Qed.
Global Opaque smul.
