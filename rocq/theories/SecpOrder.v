(** The generator of secp256k1 has order n. *)
From Coq Require Import ZArith NArith Znumtheory Lia Bool List Ring Field.
From Verif Require Import Outcome Bytes Fermat Primes Secp SpecSecp SecpField ECGroup SecpGroup OrderData.
Open Scope Z_scope.

Lemma pmod_spec x : pmod x = x mod p.
Proof.
  unfold pmod. fold (red_p x). assert (K : red_p x mod p = x mod p) by apply red_p_keeps.
  set (t := red_p x) in *. clearbody t. cbv zeta.
  destruct (t <? 0) eqn:E0; [exact K|]. apply Z.ltb_ge in E0.
  destruct (t <? p) eqn:E1.
  - apply Z.ltb_lt in E1. rewrite <- K. symmetry. apply Z.mod_small. lia.
  - apply Z.ltb_ge in E1. destruct (t - p <? p) eqn:E2; [|exact K]. apply Z.ltb_lt in E2.
    rewrite <- K. transitivity ((t - p) mod p); [symmetry; apply Z.mod_small; lia|].
    replace (t - p) with (t + (-1) * p) by ring. apply Z.mod_add. exact p_nz.
Qed.
Lemma pmod_range x : 0 <= pmod x < p.
Proof. rewrite pmod_spec. apply Z.mod_pos_bound. exact p_pos. Qed.
Lemma of_pmod x : of (pmod x) = of x.
Proof. apply of_eq_mod. rewrite pmod_spec. apply Z.mod_mod. exact p_nz. Qed.
Lemma pmod_modp x : modp_eq (pmod x) x.
Proof. apply of_eq. apply of_pmod. Qed.
Lemma pmod_zero x : pmod x = 0 -> modp_eq x 0.
Proof. intros H. apply of_eq. rewrite <- of_pmod, H. reflexivity. Qed.

Definition Z_dec_range x : {0 <= x < p} + {~ 0 <= x < p}.
Proof. destruct (Z_le_dec 0 x), (Z_lt_dec x p); try (left; lia); right; lia. Defined.

(** One doubling and one addition with a given slope. *)
Definition use_slope (l : Z) (a b : Z * Z) : Z * Z :=
  let x3 := pmod (l * l - fst a - fst b) in (x3, pmod (l * (fst a - x3) - snd a)).
Definition dbl_with (l : Z) (a : Z * Z) : option (Z * Z) :=
  if pmod (l * (2 * snd a) - 3 * fst a * fst a) =? 0 then Some (use_slope l a a) else None.
Definition add_with (l : Z) (a b : Z * Z) : option (Z * Z) :=
  if (pmod (l * (fst b - fst a) - (snd b - snd a)) =? 0) && negb (fst a =? fst b) then Some (use_slope l a b) else None.
Fixpoint run (l : list (Z * option Z)) (s : Z * Z) (acc : option (Z * Z)) : option ((Z * Z) * option (Z * Z)) :=
  match l with
  | [] => Some (s, acc)
  | (lam, mu) :: l' =>
      match (match mu with
             | None => Some acc
             | Some m => match acc with
                         | None => Some (Some s)
                         | Some a => match add_with m a s with Some a' => Some (Some a') | None => None end
                         end
             end), dbl_with lam s with
      | Some acc', Some s' => run l' s' acc'
      | _, _ => None
      end
  end.
Fixpoint weights (l : list (Z * option Z)) (k a : N) : N * N :=
  match l with
  | [] => (k, a)
  | (_, mu) :: l' => weights l' (k + k)%N (match mu with None => a | Some _ => a + k end)%N
  end.

Definition pt_of (a : Z * Z) : point := Point (fst a) (snd a).
Definition pt_of_opt (a : option (Z * Z)) : point := match a with None => Infinity | Some a => pt_of a end.

Lemma G_on : on_curve G.
Proof.
  split; [split; [discriminate|reflexivity]|]. split; [split; [discriminate|reflexivity]|].
  apply Z.mod_divide; [exact p_nz|]. vm_compute. reflexivity.
Qed.

Lemma dbl_with_ok l a b : on_curve (pt_of a) -> dbl_with l a = Some b -> pt_of b = ec_add (pt_of a) (pt_of a).
Proof.
  destruct a as [x y]. unfold dbl_with. cbn [fst snd]. intros H E.
  destruct (pmod _ =? 0) eqn:Z0; [|discriminate]. injection E as <-. apply Z.eqb_eq in Z0. apply pmod_zero in Z0.
  apply ec_sum_add; [exact H..|]. unfold pt_of, use_slope. cbn [fst snd].
  apply (sum_tangent x y l); try apply pmod_range.
  - pose proof (y_nz Fp F0 F1 Fadd Fmul Fsub Fopp Fdiv Finv Fp_field (of 7) no_root _ _ (lift_on _ H)) as Ny.
    change (of y <> F0) in Ny. intros D. apply Ny. apply of_eq in D. rewrite of_add in D.
    apply (opp_self Fp F0 F1 Fadd Fmul Fsub Fopp Fdiv Finv Fp_field Fp_dec Fp_two).
    transitivity (Fsub (Fadd (of y) (of y)) (of y)); [ring|]. rewrite D. fold F0. ring.
  - unfold modp_eq in *. rewrite Z.sub_0_r in Z0. exact Z0.
  - apply pmod_modp.
  - apply pmod_modp.
Qed.
Lemma add_with_ok l a b c : on_curve (pt_of a) -> on_curve (pt_of b) -> add_with l a b = Some c ->
  pt_of c = ec_add (pt_of a) (pt_of b).
Proof.
  destruct a as [x1 y1], b as [x2 y2]. unfold add_with. cbn [fst snd]. intros H1 H2 E.
  destruct (pmod _ =? 0) eqn:Z0; [|discriminate]. destruct (x1 =? x2) eqn:X; [discriminate|]. injection E as <-.
  apply Z.eqb_eq in Z0. apply pmod_zero in Z0. apply Z.eqb_neq in X.
  apply ec_sum_add; [exact H1|exact H2|]. unfold pt_of, use_slope. cbn [fst snd].
  apply (sum_chord x1 y1 x2 y2 l); try apply pmod_range; [exact X| |apply pmod_modp..].
  unfold modp_eq in *. rewrite Z.sub_0_r in Z0. exact Z0.
Qed.

Lemma run_ok l : forall s acc k a s' acc',
  pt_of s = smul k G -> pt_of_opt acc = smul a G -> run l s acc = Some (s', acc') ->
  pt_of s' = smul (fst (weights l k a)) G /\ pt_of_opt acc' = smul (snd (weights l k a)) G.
Proof.
  induction l as [|[lam mu] l IH]; intros s acc k a s' acc' Hs Ha H; cbn [run weights] in *.
  - injection H as <- <-. auto.
  - assert (Os : on_curve (pt_of s)) by (rewrite Hs; apply smul_on, G_on).
    destruct (match mu with None => _ | Some m => _ end) as [acc1|] eqn:E1; [|discriminate].
    destruct (dbl_with lam s) as [s1|] eqn:E2; [|discriminate].
    apply (IH s1 acc1); [|clear H|exact H].
    + rewrite (dbl_with_ok _ _ _ Os E2), Hs, smul_add by exact G_on. reflexivity.
    + destruct mu as [m|]; [|injection E1 as <-; exact Ha]. rewrite smul_add by exact G_on. rewrite <- Hs, <- Ha.
      destruct acc as [ac|].
      * destruct (add_with m ac s) as [a1|] eqn:E3; [|discriminate]. injection E1 as <-. cbn [pt_of_opt].
        apply (add_with_ok m); [|exact Os|exact E3]. cbn [pt_of_opt] in Ha. rewrite Ha. apply smul_on, G_on.
      * injection E1 as <-. cbn [pt_of_opt]. symmetry. apply ec_add_inf_l, Os.
Qed.

(** The check: the doubled point and the accumulated point coincide at the end. *)
Definition agree (o : option ((Z * Z) * option (Z * Z))) : bool :=
  match o with
  | Some (s, Some a) => (fst s =? fst a) && (snd s =? snd a)
  | _ => false
  end.
Lemma agree_ok l : agree (run l (gx, gy) None) = true ->
  smul (fst (weights l 1 0)) G = smul (snd (weights l 1 0)) G.
Proof.
  intros H. destruct (run l (gx, gy) None) as [[s acc]|] eqn:E; [|discriminate H].
  destruct s as [x y], acc as [[x' y']|]; [|discriminate H].
  apply andb_true_iff in H. cbn [fst snd] in H. destruct H as [Ex Ey]. apply Z.eqb_eq in Ex, Ey. subst x' y'.
  destruct (run_ok l (gx, gy) None 1 0 _ _ (eq_sym (smul_1 G G_on)) eq_refl E) as [H1 H2].
  rewrite <- H1, <- H2. reflexivity.
Qed.
Lemma order_check_ok : agree (run order_chain (gx, gy) None) = true.
Proof. vm_compute. reflexivity. Qed.

Definition nN : N := Z.to_N n.
Lemma weights_ok : weights order_chain 1 0 = (nN + (2 ^ 256 - nN), 2 ^ 256 - nN)%N.
Proof. vm_compute. reflexivity. Qed.

Theorem order_G : smul nN G = Infinity.
Proof.
  pose proof (agree_ok order_chain order_check_ok) as H. rewrite weights_ok in H. cbn [fst snd] in H.
  revert H. generalize (2 ^ 256 - nN)%N as c. generalize nN as m. intros m c H.
  rewrite (smul_add m c G G_on) in H.
  pose proof (smul_on c G G_on) as Oc. pose proof (smul_on m G G_on) as Om.
  apply (ec_add_cancel (smul c G)); [exact Oc|exact Om|exact I|].
  rewrite (ec_add_inf_r _ Oc), (ec_add_comm _ _ Oc Om). exact H.
Qed.
