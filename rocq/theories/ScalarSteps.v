(** The accumulator of the multiplication of scalars: every line of the code adds what it says. *)
From Coq Require Import ZArith ZifyBool ZifyNat ZifyN.
From Verif Require Import Outcome Bytes ModelScalar ModelScalarMul.
Open Scope N_scope.

(** ** One step *)
Definition acc_ok (c : acc) : Prop := c0 c < 4294967296 /\ c1 c < 4294967296 /\ c2 c < 4294967296.
Definition acc_val (c : acc) : N := c0 c + 4294967296 * (c1 c + 4294967296 * c2 c).
Definition op_val (o : op) : N :=
  match o with Mul a b | MulFast a b => a * b | Mul2 a b => 2 * (a * b) | Add a | AddFast a => a end.
Definition op_ok (o : op) : Prop :=
  match o with Mul a b | MulFast a b | Mul2 a b => a < 4294967296 /\ b < 4294967296 | Add a | AddFast a => a < 4294967296 end.
Definition op_limit (o : op) : N :=
  match o with Mul _ _ | Mul2 _ _ | Add _ => 79228162514264337593543950336 | MulFast _ _ | AddFast _ => 18446744073709551616 end.
Lemma wrap_cases x y : x < 4294967296 -> y < 4294967296 ->
  (wrap (x + y) = x + y /\ (wrap (x + y) <? y) = false \/ wrap (x + y) + 4294967296 = x + y /\ (wrap (x + y) <? y) = true) /\ wrap (x + y) < 4294967296.
Proof.
  intros Hx Hy. unfold wrap. change (2 ^ 32) with 4294967296. destruct (N.lt_ge_cases (x + y) 4294967296) as [H|H].
  - rewrite N.mod_small by exact H. lia.
  - assert (E : (x + y) mod 4294967296 = x + y - 4294967296).
    { replace (x + y) with (x + y - 4294967296 + 1 * 4294967296) at 1 by lia. rewrite N.mod_add by discriminate. apply N.mod_small. lia. }
    rewrite E. lia.
Qed.
Lemma product_words a b : a < 4294967296 -> b < 4294967296 -> exists h l, N.shiftr (a * b) 32 = h /\ wrap (a * b) = l
  /\ a * b = l + 4294967296 * h /\ l < 4294967296 /\ h < 4294967295.
Proof.
  intros Ha Hb. exists (N.shiftr (a * b) 32), (wrap (a * b)). rewrite N.shiftr_div_pow2. unfold wrap. change (2 ^ 32) with 4294967296.
  split; [reflexivity|]. split; [reflexivity|]. split; [rewrite N.add_comm; apply N.div_mod; discriminate|]. split; [apply N.mod_lt; discriminate|].
  apply N.div_lt_upper_bound; [discriminate|]. nia.
Qed.
Ltac wraps :=
  repeat match goal with
  | |- context [wrap (?x + ?y)] =>
      let w := fresh "w" in let E := fresh "E" in let B := fresh "B" in
      destruct (wrap_cases x y ltac:(unfold bit in *; lia) ltac:(unfold bit in *; lia)) as [[[E B]|[E B]] ?];
      rewrite ?B; generalize dependent (wrap (x + y)); intros w; intros; cbn [bit]
  end.
Ltac wr x y w :=
  let E := fresh "E" in let B := fresh "B" in let C := fresh "C" in
  destruct (wrap_cases x y ltac:(cbn [bit]; lia) ltac:(cbn [bit]; lia)) as [C ?];
  set (w := wrap (x + y)) in *; clearbody w; destruct C as [[E B]|[E B]]; rewrite ?B; cbn [bit andb] in *.
Ltac wrb t w := match goal with |- context [wrap (t + ?y)] => wr t y w end.
Ltac zero t := match goal with |- context [bit (t =? 0)] => destruct (N.eqb_spec t 0) | _ => idtac end; cbn [bit] in *.
Lemma step_ok o c : acc_ok c -> op_ok o -> acc_val c + op_val o < op_limit o ->
  exists c', step o c = Some c' /\ acc_ok c' /\ acc_val c' = acc_val c + op_val o.
Proof.
  destruct c as [x0 x1 x2]. unfold acc_ok, acc_val. cbn [c0 c1 c2]. intros (H0 & H1 & H2).
  destruct o as [a b|a b|a b|a|a]; cbn [op_ok op_val op_limit step c0 c1 c2]; cbv zeta.
  - intros [Ha Hb] L. destruct (product_words a b Ha Hb) as (h & l & -> & -> & E & Hl & Hh). rewrite E in *. clear E Ha Hb a b.
    wraps; unfold assert; match goal with |- context [if ?b then _ else _] => assert (X : b = true) by lia; rewrite X end;
      eexists; (split; [reflexivity|]); cbn [c0 c1 c2]; lia.
  - intros [Ha Hb] L. destruct (product_words a b Ha Hb) as (h & l & -> & -> & E & Hl & Hh). rewrite E in *. clear E Ha Hb a b.
    wraps; unfold assert; match goal with |- context [if ?b then _ else _] => assert (X : b = true) by lia; rewrite X end;
      eexists; (split; [reflexivity|]); cbn [c0 c1 c2]; lia.
  - intros [Ha Hb] L. destruct (product_words a b Ha Hb) as (h & l & -> & -> & E & Hl & Hh). rewrite E in *. clear E Ha Hb a b.
    wr h h th2.
    all: wr l l tl2.
    all: wrb th2 th3.
    all: wr x0 tl2 y0.
    all: wrb th3 th4; try (exfalso; lia).
    all: wrb x2 y2; try (exfalso; lia).
    all: zero th4; try (exfalso; lia).
    all: wrb y2 y3; try (exfalso; lia).
    all: wr x1 th4 y1.
    all: wrb y3 y4; try (exfalso; lia).
    all: unfold assert; match goal with |- context [if ?b then _ else _] => assert (X : b = true) by lia; rewrite X end;
      eexists; (split; [reflexivity|]); cbn [c0 c1 c2]; lia.
  - intros Ha L. wraps; eexists; (split; [reflexivity|]); cbn [c0 c1 c2]; lia.
  - intros Ha L. wraps; unfold assert; match goal with |- context [if ?b then _ else _] => assert (X : b = true) by lia; rewrite X end;
      eexists; (split; [reflexivity|]); cbn [c0 c1 c2]; lia.
Qed.
