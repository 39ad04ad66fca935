(** Signatures made by the model of libsecp256k1 verify and recover the public key. *)
From Coq Require Import ZArith NArith Znumtheory Zpow_facts Lia Bool List.
From Verif Require Import Outcome Bytes Fermat Primes Secp SpecSecp SecpField ECGroup SecpGroup SecpOrder SecpProofs.
Open Scope Z_scope.

Lemma npow_ok a e : npow a e = a ^ Zpos e mod n.
Proof.
  induction e as [e IH|e IH|]; cbn [npow]; cbv zeta.
  - rewrite IH. rewrite <- Z.mul_mod by exact n_nz. rewrite Z.mul_mod_idemp_l by exact n_nz. f_equal.
    rewrite Pos2Z.inj_xI, Z.pow_add_r, Z.pow_1_r, Z.pow_twice_r by lia. reflexivity.
  - rewrite IH. rewrite <- Z.mul_mod by exact n_nz. f_equal. rewrite Pos2Z.inj_xO, Z.pow_twice_r. reflexivity.
  - rewrite Z.pow_1_r. reflexivity.
Qed.
Lemma n_2_pos : 0 < n - 2.
Proof. reflexivity. Qed.
Lemma ninv_ok a : ~ (n | a) -> (n | ninv a * a - 1).
Proof.
  intros H. apply mod_eq_divide; [exact n_nz|]. unfold ninv. rewrite npow_ok, Z2Pos.id by exact n_2_pos.
  rewrite Z.mul_mod_idemp_l by exact n_nz.
  replace (a ^ (n - 2) * a) with (a ^ (n - 1)).
  - apply fermat_unit; [exact n_prime|exact H].
  - replace (n - 1) with (Z.succ (n - 2)) by ring. rewrite Z.pow_succ_r by exact (Z.lt_le_incl _ _ n_2_pos). apply Z.mul_comm.
Qed.
Global Opaque ninv.
Lemma p_lt_2n : p < n + n.
Proof. reflexivity. Qed.
Lemma small_not_divide k : 0 < k < n -> ~ (n | k).
Proof. intros Hk D. apply Z.divide_pos_le in D; lia. Qed.

(** A nonce [k], its point and an [s] with k s = z + r d give a valid, recoverable signature. *)
Lemma sign_core k d z s x y : 0 < k < n -> 0 < d < n -> 0 <= z -> 0 < s < n -> kG k = Point x y ->
  (n | k * s - (x mod n * d + z)) -> x mod n <> 0 ->
  ecdsa_valid (kG d) z (x mod n) s /\
  forall recid, N.testbit recid 1 = (n <=? x) -> N.testbit recid 0 = Z.odd y ->
    ecdsa_recovers recid z (x mod n) s (kG d).
Proof.
  intros Hk Hd Hz Hs Ek D Hr. pose proof (Z.mod_pos_bound x n n_pos) as Br. set (r := x mod n) in *.
  assert (Br' : 0 < r < n) by lia.
  assert (Ok : on_curve (Point x y)) by (rewrite <- Ek; apply kG_on).
  split.
  - split; [exact Br'|]. split; [exact Hs|].
    destruct (inverse_exists s (small_not_divide s Hs)) as (w & Hw & Dw).
    exists w, (kG ((w * z) mod n)), (smul (Z.to_N ((w * r) mod n)) (kG d)), x, y.
    pose proof (Z.mod_pos_bound (w * z) n n_pos) as B1. pose proof (Z.mod_pos_bound (w * r) n n_pos) as B2.
    split; [exact Dw|]. split; [apply ec_multiple_iff; [exact G_on|]; unfold kG; rewrite Z_nat_N; reflexivity|].
    split; [apply ec_multiple_iff; [apply kG_on|]; rewrite Z_nat_N; reflexivity|].
    split; [|reflexivity].
    apply ec_sum_iff; [apply kG_on|apply smul_on, kG_on|].
    rewrite <- kG_mul by lia. assert (0 <= (w * r) mod n * d) by (apply Z.mul_nonneg_nonneg; lia).
    rewrite <- kG_add by lia. rewrite <- Ek. apply kG_cong; [lia|lia|]. symmetry.
    apply mod_eq_divide; [exact n_nz|]. rewrite (Z.mod_eq (w * z) n n_nz), (Z.mod_eq (w * r) n n_nz).
    set (q1 := w * z / n). set (q2 := w * r / n).
    replace (w * z - n * q1 + (w * r - n * q2) * d - k)
      with (k * (w * s - 1) - w * (k * s - (r * d + z)) - n * (q1 + q2 * d)) by ring.
    apply Z.divide_sub_r; [apply Z.divide_sub_r|]; [apply Z.divide_mul_r, Dw|apply Z.divide_mul_r, D|apply Z.divide_factor_l].
  - intros recid T1 T0.
    destruct (inverse_exists r (small_not_divide r Br')) as (w & Hw & Dw).
    exists x, y, w, (smul (Z.to_N ((w * s) mod n)) (kG k)), (kG ((w * - z) mod n)).
    pose proof (Z.mod_pos_bound (w * s) n n_pos) as B1. pose proof (Z.mod_pos_bound (w * - z) n n_pos) as B2.
    split; [exact Ok|]. split.
    { rewrite T1. destruct Ok as (Bx & _). destruct (n <=? x) eqn:E.
      - apply Z.leb_le in E. unfold r. pose proof p_lt_2n. rewrite (Z.mod_eq x n n_nz).
        assert (x / n = 1). { symmetry. apply (Z.div_unique x n 1 (x - n)); lia. } lia.
      - apply Z.leb_gt in E. unfold r. rewrite Z.mod_small by lia. ring. }
    split; [symmetry; exact T0|]. split; [exact Dw|].
    split; [apply ec_multiple_iff; [exact Ok|]; rewrite Z_nat_N, Ek; reflexivity|].
    split; [apply ec_multiple_iff; [exact G_on|]; unfold kG; rewrite Z_nat_N; reflexivity|].
    apply ec_sum_iff; [apply smul_on, kG_on|apply kG_on|].
    rewrite <- kG_mul by lia. assert (0 <= (w * s) mod n * k) by (apply Z.mul_nonneg_nonneg; lia).
    rewrite <- kG_add by lia. apply kG_cong; [lia|lia|]. symmetry.
    apply mod_eq_divide; [exact n_nz|]. rewrite (Z.mod_eq (w * s) n n_nz), (Z.mod_eq (w * - z) n n_nz).
    set (q1 := w * s / n). set (q2 := w * - z / n).
    replace ((w * s - n * q1) * k + (w * - z - n * q2) - d)
      with (w * (k * s - (r * d + z)) + d * (w * r - 1) - n * (q1 * k + q2)) by ring.
    apply Z.divide_sub_r; [apply Z.divide_add_r|]; [apply Z.divide_mul_r, D|apply Z.divide_mul_r, Dw|apply Z.divide_factor_l].
Qed.

Lemma half_n : n / 2 + n / 2 + 1 = n.
Proof. vm_compute. reflexivity. Qed.
Lemma half_n_lt : n / 2 < n.
Proof. vm_compute. reflexivity. Qed.
Lemma neg_coords x y : on_curve (Point x y) -> ec_neg (Point x y) = Point x (p - y).
Proof.
  intros O. pose proof O as (Bx & By & Hc). pose proof (curve_y_nz x y By Hc).
  unfold ec_neg, Fneg. cbn [lift neg emb]. rewrite fv_of_small by exact Bx. f_equal.
  rewrite <- of_opp. replace (of (- y)) with (of (p - y)); [apply fv_of_small; lia|].
  apply of_eq. replace (p - y - - y) with p by ring. apply Z.divide_refl.
Qed.

Lemma recid_bits a b : N.testbit (N.lor (if a : bool then 2 else 0) (if b : bool then 1 else 0)) 1 = a
  /\ N.testbit (N.lor (if a then 2 else 0) (if b then 1 else 0)) 0 = b.
Proof. destruct a, b; split; reflexivity. Qed.
Lemma recid_flip c : N.testbit (N.lxor c 1) 1 = N.testbit c 1 /\ N.testbit (N.lxor c 1) 0 = negb (N.testbit c 0).
Proof. rewrite !N.lxor_spec. change (N.testbit 1 1) with false. change (N.testbit 1 0) with true. now destruct (N.testbit c 1), (N.testbit c 0). Qed.
Lemma recid_lt a b : (N.lor (if a : bool then 2 else 0) (if b : bool then 1 else 0) < 4)%N
  /\ (N.lxor (N.lor (if a then 2 else 0) (if b then 1 else 0)) 1 < 4)%N.
Proof. destruct a, b; split; reflexivity. Qed.

Lemma some_triple {A B C} (a a' : A) (b b' : B) (c c' : C) : Some (a, b, c) = Some (a', b', c') -> a = a' /\ b = b' /\ c = c'.
Proof. intros H. injection H. auto. Qed.

Lemma sign_raw_ok d z k r s recid : 0 < d < n -> 0 <= z -> 0 < k < n -> sign_raw d z k = Some (r, s, recid) ->
  0 < s <= n / 2 /\ 0 <= r < n /\ (recid < 4)%N /\ (r <> 0 -> ecdsa_valid (kG d) z r s /\ ecdsa_recovers recid z r s (kG d)).
Proof.
  intros Hd Hz Hk H. unfold sign_raw in H. rewrite ecmult_gen_ok in H.
  destruct (kG_finite k Hk) as (x & y & Ek). rewrite Ek in H. cbv zeta beta iota in H.
  pose proof (kG_on k) as O. rewrite Ek in O.
  destruct (recid_bits (n <=? x) (Z.odd y)) as [T1 T0]. destruct (recid_lt (n <=? x) (Z.odd y)) as [L1 L2].
  set (rc := N.lor _ _) in *. clearbody rc.
  pose proof (Z.mod_pos_bound x n n_pos) as Br.
  set (s0 := (ninv k * ((x mod n * d) mod n + z)) mod n) in *.
  pose proof (Z.mod_pos_bound (ninv k * ((x mod n * d) mod n + z)) n n_pos) as Bs. fold s0 in Bs.
  destruct (s0 =? 0) eqn:E0; [discriminate H|]. apply Z.eqb_neq in E0.
  assert (D : (n | k * s0 - (x mod n * d + z))).
  { unfold s0. rewrite (Z.mod_eq (ninv k * _) n n_nz), (Z.mod_eq (x mod n * d) n n_nz).
    set (q1 := x mod n * d / n). set (e := x mod n * d). set (q2 := _ / n).
    replace (k * (ninv k * (e - n * q1 + z) - n * q2) - (e + z))
      with ((e + z) * (ninv k * k - 1) - n * (k * ninv k * q1 + k * q2)) by ring.
    apply Z.divide_sub_r; [apply Z.divide_mul_r, ninv_ok, small_not_divide, Hk|apply Z.divide_factor_l]. }
  pose proof half_n as HN. pose proof half_n_lt as HL. clearbody s0.
  destruct (n / 2 <? s0) eqn:Eh.
  - apply Z.ltb_lt in Eh. apply some_triple in H; destruct H as (<- & <- & <-). split; [lia|]. split; [exact Br|]. split; [exact L2|]. intros Hr.
    assert (Ek' : kG (n - k) = Point x (p - y)). { rewrite kG_neg, Ek by lia. apply neg_coords, O. }
    destruct (recid_flip rc) as [F1 F0].
    destruct (sign_core (n - k) d z (n - s0) x (p - y)) as [V R]; try lia; try assumption.
    + replace ((n - k) * (n - s0) - (x mod n * d + z)) with (k * s0 - (x mod n * d + z) + n * (n - s0 - k)) by ring.
      apply Z.divide_add_r; [exact D|apply Z.divide_factor_l].
    + split; [exact V|]. apply R; [rewrite F1; exact T1|]. rewrite F0, T0. symmetry. apply sub_p_parity.
  - apply Z.ltb_ge in Eh. apply some_triple in H; destruct H as (<- & <- & <-). split; [lia|]. split; [exact Br|]. split; [exact L1|]. intros Hr.
    destruct (sign_core k d z s0 x y) as [V R]; try lia; try assumption.
    split; [exact V|]. apply R; assumption.
Qed.

Lemma sign_loop_ok fuel d z kv r s recid : 0 < d < n -> 0 <= z -> sign_loop fuel d z kv = Some (r, s, recid) ->
  0 < s <= n / 2 /\ 0 <= r < n /\ (recid < 4)%N /\ (r <> 0 -> ecdsa_valid (kG d) z r s /\ ecdsa_recovers recid z r s (kG d)).
Proof.
  intros Hd Hz. revert kv. induction fuel as [|f IH]; intros kv H; cbn [sign_loop] in H; [discriminate H|].
  destruct (drbg_generate kv) as [gen kv']. cbv zeta in H.
  set (k := Z.of_N (be_val gen)) in *.
  destruct ((k <? n) && negb (k =? 0)) eqn:E; [|exact (IH _ H)].
  apply andb_true_iff in E. destruct E as [E1 E2]. apply Z.ltb_lt in E1. apply negb_true_iff, Z.eqb_neq in E2.
  destruct (sign_raw d z k) as [[[r' s'] rc']|] eqn:ES; [|exact (IH _ H)].
  apply some_triple in H; destruct H as (-> & -> & ->). apply (sign_raw_ok d z k); [exact Hd|exact Hz|unfold k in *; lia|exact ES].
Qed.
