(** The chord-and-tangent group law on y^2 = x^3 + b over an arbitrary field in which 2 is invertible and
    x^3 + b has no root (so there is no point of order two).

    Associativity is reduced to one polynomial identity by comparing the affine law with the complete
    addition law for curves with a = 0 (Renes, Costello, Batina, "Complete addition formulas for prime order
    elliptic curves", algorithm 7), which has no exceptional cases here. *)
From Coq Require Import Ring Field.

Section Curve.
Variable F : Type.
Variables (f0 f1 : F) (fa fm fs : F -> F -> F) (fo : F -> F) (fd : F -> F -> F) (fi : F -> F).
Hypothesis FT : field_theory f0 f1 fa fm fs fo fd fi (@eq F).
Hypothesis dec : forall x y : F, {x = y} + {x <> y}.
Add Field F_field : FT.
Declare Scope f_scope.
Local Notation "x + y" := (fa x y) : f_scope.
Local Notation "x * y" := (fm x y) : f_scope.
Local Notation "x - y" := (fs x y) : f_scope.
Local Notation "- x" := (fo x) : f_scope.
Local Notation "x / y" := (fd x y) : f_scope.
Local Notation "0" := f0 : f_scope.
Local Notation "1" := f1 : f_scope.
Local Notation "2" := (fa f1 f1) : f_scope.
Local Notation "3" := (fa f1 (fa f1 f1)) : f_scope.
Local Open Scope f_scope.

Variable b : F.
Hypothesis two : 2 <> 0.
Hypothesis no_root : forall x, x * x * x + b <> 0.

Inductive pt := Inf | Aff (x y : F).
Definition on (P : pt) : Prop := match P with Inf => True | Aff x y => y * y = x * x * x + b end.
Definition neg (P : pt) : pt := match P with Inf => Inf | Aff x y => Aff x (- y) end.
Definition with_slope (l x1 y1 x2 : F) : pt :=
  let x3 := l * l - x1 - x2 in Aff x3 (l * (x1 - x3) - y1).
Definition add (P Q : pt) : pt :=
  match P, Q with
  | Inf, _ => Q
  | _, Inf => P
  | Aff x1 y1, Aff x2 y2 =>
      if dec x1 x2 then
        if dec y1 y2 then
          if dec y1 0 then Inf else with_slope (3 * x1 * x1 / (2 * y1)) x1 y1 x1
        else Inf
      else with_slope ((y2 - y1) / (x2 - x1)) x1 y1 x2
  end.

(** ** Field facts *)
Lemma mul_zero x y : x * y = 0 -> x = 0 \/ y = 0.
Proof.
  intros H. destruct (dec x 0) as [E|E]; [auto|]. right.
  transitivity ((x * y) / x); [field; exact E|]. rewrite H. field. exact E.
Qed.
Lemma mul_nz x y : x <> 0 -> y <> 0 -> x * y <> 0.
Proof. intros Hx Hy H. destruct (mul_zero _ _ H); auto. Qed.
Lemma one_nz : 1 <> 0.
Proof. exact (F_1_neq_0 FT). Qed.
Lemma sub_nz x y : x <> y -> x - y <> 0.
Proof. intros H E. apply H. transitivity (x - y + y); [ring|]. rewrite E. ring. Qed.
Lemma sub_eq x y : x - y = 0 -> x = y.
Proof. intros E. transitivity (x - y + y); [ring|]. rewrite E. ring. Qed.
Lemma sq_eq x y : x * x = y * y -> x = y \/ x = - y.
Proof.
  intros H. assert (E : (x - y) * (x + y) = 0).
  { transitivity (x * x - y * y); [ring|]. rewrite H. ring. }
  apply mul_zero in E. destruct E as [E|E]; [left; apply sub_eq, E|right].
  apply sub_eq. rewrite <- E. ring.
Qed.
Lemma y_nz x y : on (Aff x y) -> y <> 0.
Proof. intros H ->. cbn in H. apply (no_root x). rewrite <- H. ring. Qed.
Lemma opp_self y : y = - y -> y = 0.
Proof.
  intros H. assert (E : 2 * y = 0). { transitivity (y + y); [ring|]. rewrite H at 2. ring. }
  apply mul_zero in E. destruct E; [contradiction|assumption].
Qed.

(** ** The complete addition law *)
Definition b3 := 3 * b.
Definition pX X1 Y1 Z1 X2 Y2 Z2 :=
  (X1 * Y2 + X2 * Y1) * (Y1 * Y2 - b3 * Z1 * Z2) - b3 * (Y1 * Z2 + Y2 * Z1) * (X1 * Z2 + X2 * Z1).
Definition pY X1 Y1 Z1 X2 Y2 Z2 :=
  (Y1 * Y2 + b3 * Z1 * Z2) * (Y1 * Y2 - b3 * Z1 * Z2) + 3 * b3 * X1 * X2 * (X1 * Z2 + X2 * Z1).
Definition pZ X1 Y1 Z1 X2 Y2 Z2 :=
  (Y1 * Z2 + Y2 * Z1) * (Y1 * Y2 + b3 * Z1 * Z2) + 3 * X1 * X2 * (X1 * Y2 + X2 * Y1).

Definition triple : Type := (F * F * F)%type.
Definition padd (t u : triple) : triple :=
  let '(X1, Y1, Z1) := t in let '(X2, Y2, Z2) := u in
  (pX X1 Y1 Z1 X2 Y2 Z2, pY X1 Y1 Z1 X2 Y2 Z2, pZ X1 Y1 Z1 X2 Y2 Z2).
Definition rep (P : pt) : triple := match P with Inf => (0, 1, 0) | Aff x y => (x, y, 1) end.
Definition scale (m : F) (t : triple) : triple := let '(X, Y, Z) := t in (m * X, m * Y, m * Z).
Definition sim (t : triple) (P : pt) : Prop := exists m, m <> 0 /\ t = scale m (rep P).

Lemma padd_scale m k t u : padd (scale m t) (scale k u) = scale (m * m * (k * k)) (padd t u).
Proof.
  destruct t as [[X1 Y1] Z1], u as [[X2 Y2] Z2]. cbn. unfold pX, pY, pZ, b3.
  f_equal; [f_equal|]; ring.
Qed.
Lemma scale_scale m k t : scale m (scale k t) = scale (m * k) t.
Proof. destruct t as [[X Y] Z]. cbn. f_equal; [f_equal|]; ring. Qed.

(** The result of the complete law is a non-zero multiple of the affine sum. *)
Lemma padd_rep P Q : on P -> on Q -> sim (padd (rep P) (rep Q)) (add P Q).
Proof.
  intros HP HQ. destruct P as [|x1 y1], Q as [|x2 y2].
  - exists 1. split; [exact one_nz|]. cbn. unfold pX, pY, pZ, b3. f_equal; [f_equal|]; ring.
  - exists y2. split; [eapply y_nz, HQ|].
    cbn. unfold pX, pY, pZ, b3. f_equal; [f_equal|]; ring.
  - exists y1. split; [eapply y_nz, HP|].
    cbn. unfold pX, pY, pZ, b3. f_equal; [f_equal|]; ring.
  - pose proof (y_nz _ _ HP) as N1. pose proof (y_nz _ _ HQ) as N2. cbn in HP, HQ.
    unfold add. destruct (dec x1 x2) as [->|Hx].
    + destruct (dec y1 y2) as [->|Hy].
      * (* doubling *)
        destruct (dec y2 0) as [E|_]; [contradiction|].
        exists (2 * 2 * 2 * (y2 * y2 * y2)). split; [repeat apply mul_nz; assumption|].
        cbn. unfold pX, pY, pZ, b3. f_equal; [f_equal|].
        -- field_simplify_eq; [ring [HQ]|split; assumption].
        -- field_simplify_eq; [ring [HQ]|split; assumption].
        -- ring [HQ].
      * (* opposite points *)
        assert (E : y1 = - y2). { destruct (sq_eq y1 y2) as [E|E]; [congruence|contradiction|exact E]. }
        subst y1.
        set (m := y2 * y2 * y2 * y2 + (3 * 3 * 2) * b * (y2 * y2) - (3 * 3 * 3) * (b * b)).
        assert (Hm : m <> 0).
        { (* m is 8 y^3 times the ordinate of 2(x2, y2), which is not zero *)
          set (l := 3 * x2 * x2 / (2 * y2)). set (x := l * l - x2 - x2).
          set (y := l * (x2 - x) - y2).
          assert (Hon : y * y = x * x * x + b).
          { unfold y, x, l. field_simplify_eq; [ring [HQ]|split; assumption]. }
          assert (Hmy : m = 2 * 2 * 2 * (y2 * y2 * y2) * y).
          { unfold m, y, x, l. field_simplify_eq; [ring [HQ]|split; assumption]. }
          rewrite Hmy. apply mul_nz; [repeat apply mul_nz; assumption|]. exact (y_nz x y Hon). }
        exists m. split; [exact Hm|]. cbn. unfold pX, pY, pZ, b3, m. f_equal; [f_equal|]; ring [HQ].
    + (* chord: the factor is, up to a cube, the ordinate of P - Q *)
      assert (Hd : x2 - x1 <> 0) by (apply sub_nz; congruence).
      set (m := pZ x1 y1 1 x2 y2 1).
      assert (Hm : m <> 0).
      { set (l := (- y2 - y1) / (x2 - x1)). set (x := l * l - x1 - x2).
        set (y := l * (x1 - x) - y1).
        assert (Hon : y * y = x * x * x + b).
        { unfold y, x, l. field_simplify_eq; [ring [HP HQ]|assumption]. }
        assert (Hmy : m = (x1 - x2) * (x1 - x2) * (x1 - x2) * y \/ m = (x2 - x1) * (x2 - x1) * (x2 - x1) * y).
        { first [left; unfold m, pZ, b3, y, x, l; field_simplify_eq; [ring [HP HQ]|assumption]
                |right; unfold m, pZ, b3, y, x, l; field_simplify_eq; [ring [HP HQ]|assumption]]. }
        assert (Hd' : x1 - x2 <> 0) by (apply sub_nz; congruence).
        destruct Hmy as [-> | ->]; (apply mul_nz; [repeat apply mul_nz; assumption|exact (y_nz x y Hon)]). }
      exists m. split; [exact Hm|]. cbn. unfold m, pX, pY, pZ, b3. f_equal; [f_equal|].
      * field_simplify_eq; [ring [HP HQ]|assumption].
      * field_simplify_eq; [ring [HP HQ]|assumption].
      * ring.
Qed.

Lemma padd_sim t u P Q : on P -> on Q -> sim t P -> sim u Q -> sim (padd t u) (add P Q).
Proof.
  intros HP HQ (m & Hm & ->) (k & Hk & ->). rewrite padd_scale.
  destruct (padd_rep P Q HP HQ) as (j & Hj & ->). exists (m * m * (k * k) * j).
  split; [repeat apply mul_nz; assumption|]. apply scale_scale.
Qed.

(** ** Closure *)
Lemma neg_on P : on P -> on (neg P).
Proof. destruct P as [|x y]; cbn; [auto|]. intros H. rewrite <- H. ring. Qed.
Lemma add_on P Q : on P -> on Q -> on (add P Q).
Proof.
  intros HP HQ. destruct P as [|x1 y1], Q as [|x2 y2]; cbn [add]; auto.
  pose proof (y_nz _ _ HP) as N1. cbn in HP, HQ. destruct (dec x1 x2) as [->|Hx].
  - destruct (dec y1 y2) as [->|Hy]; [|exact I]. destruct (dec y2 0) as [E|_]; [exact I|].
    cbn. field_simplify_eq; [ring [HQ]|split; assumption].
  - assert (Hd : x2 - x1 <> 0) by (apply sub_nz; congruence).
    cbn. field_simplify_eq; [ring [HP HQ]|assumption].
Qed.

(** ** The group laws *)
Lemma add_inf_l P : add Inf P = P.
Proof. reflexivity. Qed.
Lemma add_inf_r P : add P Inf = P.
Proof. destruct P; reflexivity. Qed.
Lemma neg_neg P : neg (neg P) = P.
Proof. destruct P as [|x y]; cbn; [reflexivity|]. f_equal. ring. Qed.
Lemma add_neg P : on P -> add P (neg P) = Inf.
Proof.
  destruct P as [|x y]; [reflexivity|]. intros H. pose proof (y_nz _ _ H) as N. cbn.
  destruct (dec x x) as [_|E]; [|congruence]. destruct (dec y (- y)) as [E|_]; [|reflexivity].
  apply opp_self in E. contradiction.
Qed.
Lemma add_comm P Q : on P -> on Q -> add P Q = add Q P.
Proof.
  intros HP HQ. destruct P as [|x1 y1], Q as [|x2 y2]; cbn [add]; auto.
  destruct (dec x1 x2) as [->|Hx].
  - destruct (dec x2 x2) as [_|E]; [|congruence]. destruct (dec y1 y2) as [->|Hy].
    + destruct (dec y2 y2) as [_|E]; [reflexivity|congruence].
    + destruct (dec y2 y1) as [E|_]; [congruence|reflexivity].
  - destruct (dec x2 x1) as [E|_]; [congruence|].
    assert (Hd : x2 - x1 <> 0) by (apply sub_nz; congruence).
    assert (Hd' : x1 - x2 <> 0) by (apply sub_nz; congruence).
    unfold with_slope. f_equal; field; split; assumption.
Qed.

Lemma sim_cross t u P Q : sim t P -> sim u Q ->
  fst (fst t) * snd u = snd t * fst (fst u) -> snd (fst t) * snd u = snd t * snd (fst u) ->
  fst (fst t) * snd (fst u) = snd (fst t) * fst (fst u) -> P = Q.
Proof.
  intros (m & Hm & ->) (k & Hk & ->) E1 E2 E3.
  assert (Hmk : m * k <> 0) by (apply mul_nz; assumption).
  destruct P as [|x1 y1], Q as [|x2 y2]; cbn in E1, E2, E3.
  - reflexivity.
  - exfalso. apply Hmk. transitivity (m * 1 * (k * 1)); [ring|]. rewrite E2. ring.
  - exfalso. apply Hmk. transitivity (m * 1 * (k * 1)); [ring|]. rewrite <- E2. ring.
  - f_equal.
    + apply sub_eq. destruct (mul_zero (m * k) (x1 - x2)) as [E|E]; [|contradiction|exact E].
      transitivity (m * x1 * (k * 1) - m * 1 * (k * x2)); [ring|]. rewrite E1. ring.
    + apply sub_eq. destruct (mul_zero (m * k) (y1 - y2)) as [E|E]; [|contradiction|exact E].
      transitivity (m * y1 * (k * 1) - m * 1 * (k * y2)); [ring|]. rewrite E2. ring.
Qed.

Lemma add_assoc P Q R : on P -> on Q -> on R -> add (add P Q) R = add P (add Q R).
Proof.
  intros HP HQ HR.
  destruct P as [|x1 y1]; [rewrite !add_inf_l; reflexivity|].
  destruct Q as [|x2 y2]; [rewrite add_inf_l, add_inf_r; reflexivity|].
  destruct R as [|x3 y3]; [rewrite !add_inf_r; reflexivity|].
  assert (S1 : sim (padd (padd (rep (Aff x1 y1)) (rep (Aff x2 y2))) (rep (Aff x3 y3)))
                   (add (add (Aff x1 y1) (Aff x2 y2)) (Aff x3 y3))).
  { apply padd_sim; [apply add_on; assumption|assumption|apply padd_rep; assumption|].
    exists 1. split; [exact one_nz|]. cbn. f_equal; [f_equal|]; ring. }
  assert (S2 : sim (padd (rep (Aff x1 y1)) (padd (rep (Aff x2 y2)) (rep (Aff x3 y3))))
                   (add (Aff x1 y1) (add (Aff x2 y2) (Aff x3 y3)))).
  { apply padd_sim; [assumption|apply add_on; assumption| |apply padd_rep; assumption].
    exists 1. split; [exact one_nz|]. cbn. f_equal; [f_equal|]; ring. }
  cbn in HP, HQ, HR.
  apply (sim_cross _ _ _ _ S1 S2); cbn [padd rep fst snd]; unfold pX, pY, pZ, b3; ring [HP HQ HR].
Qed.
End Curve.
