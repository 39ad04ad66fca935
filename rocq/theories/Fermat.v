(** Elementary number theory over [Z] from the standard library: Fermat's little theorem, prime divisors,
    Pocklington's primality criterion and a checker for Pocklington certificates. *)
From Coq Require Import ZArith Znumtheory Zpow_facts Lia List Permutation Bool.
Import ListNotations.
Open Scope Z_scope.

(** ** Fermat's little theorem *)
Definition residues (p : Z) : list Z := map Z.of_nat (seq 1 (Z.to_nat p - 1)).
Lemma in_residues p x : 1 < p -> In x (residues p) <-> 0 < x < p.
Proof.
  intros Hp. unfold residues. rewrite in_map_iff. split.
  - intros (n & <- & Hn). apply in_seq in Hn. lia.
  - intros Hx. exists (Z.to_nat x). split; [lia|]. apply in_seq. lia.
Qed.
Lemma nodup_residues p : NoDup (residues p).
Proof. apply FinFun.Injective_map_NoDup; [intros x y; lia|apply seq_NoDup]. Qed.
Lemma length_residues p : 1 < p -> Z.of_nat (length (residues p)) = p - 1.
Proof. intros H. unfold residues. rewrite map_length, seq_length. lia. Qed.

Definition prod (l : list Z) : Z := fold_right Z.mul 1 l.
Lemma prod_perm l m : Permutation l m -> prod l = prod m.
Proof. induction 1; cbn; [reflexivity|f_equal; exact IHPermutation|ring|congruence]. Qed.
Lemma prod_map_mod p a l : p <> 0 -> prod (map (fun x => (a * x) mod p) l) mod p = (a ^ Z.of_nat (length l) * prod l) mod p.
Proof.
  intros Hp. induction l as [|x l IH]; [reflexivity|].
  cbn [map prod fold_right length]. change (fold_right Z.mul 1) with prod.
  rewrite Z.mul_mod, IH, <- Z.mul_mod by assumption.
  rewrite Z.mul_mod, Z.mod_mod, <- Z.mul_mod by assumption.
  rewrite Nat2Z.inj_succ, Z.pow_succ_r by lia. f_equal. ring.
Qed.
Lemma prime_not_div_prod p l : prime p -> (forall x, In x l -> ~ (p | x)) -> ~ (p | prod l).
Proof.
  intros Hp. induction l as [|x l IH]; intros H Hd; cbn in Hd.
  - apply Z.divide_1_r in Hd. destruct Hp. lia.
  - apply prime_mult in Hd; [|exact Hp]. destruct Hd as [Hd|Hd].
    + exact (H x (or_introl eq_refl) Hd).
    + apply IH; [|exact Hd]. intros y Hy. apply H. right. exact Hy.
Qed.

Lemma mod_eq_divide p a b : p <> 0 -> a mod p = b mod p <-> (p | a - b).
Proof.
  intros Hp. split; intros H.
  - exists (a / p - b / p). rewrite (Z.div_mod a p Hp) at 1. rewrite (Z.div_mod b p Hp) at 1. rewrite H. ring.
  - destruct H as (k & Hk). replace a with (b + k * p) by lia. apply Z.mod_add. exact Hp.
Qed.
Lemma small_not_div p x : 0 < x < p -> ~ (p | x).
Proof. intros H Hd. apply Z.divide_pos_le in Hd; lia. Qed.

Theorem fermat_unit p a : prime p -> ~ (p | a) -> a ^ (p - 1) mod p = 1.
Proof.
  intros Hp Ha. assert (Hp1 : 1 < p) by (destruct Hp; assumption). assert (Hp0 : p <> 0) by lia.
  set (L := residues p). set (f := fun x => (a * x) mod p).
  assert (Hrange : forall x, In x L -> 0 < f x < p).
  { intros x Hx. apply in_residues in Hx; [|exact Hp1]. unfold f.
    pose proof (Z.mod_pos_bound (a * x) p ltac:(lia)) as B.
    assert (a * x mod p <> 0); [|lia]. intros E. apply Z.mod_divide in E; [|exact Hp0].
    apply prime_mult in E; [|exact Hp]. destruct E as [E|E]; [contradiction|]. apply small_not_div in E; lia. }
  assert (Hinj : forall x y, In x L -> In y L -> f x = f y -> x = y).
  { intros x y Hx Hy E. apply in_residues in Hx; [|exact Hp1]. apply in_residues in Hy; [|exact Hp1].
    unfold f in E. apply mod_eq_divide in E; [|exact Hp0]. rewrite <- Z.mul_sub_distr_l in E.
    apply prime_mult in E; [|exact Hp]. destruct E as [E|E]; [contradiction|].
    destruct (Z.lt_trichotomy x y) as [H|[H|H]]; [|exact H|].
    - apply Z.divide_opp_r in E. apply small_not_div in E; lia.
    - apply small_not_div in E; lia. }
  assert (Hperm : Permutation (map f L) L).
  { apply NoDup_Permutation_bis.
    - assert (HN : forall l, NoDup l -> (forall x, In x l -> In x L) -> NoDup (map f l)).
      { induction l as [|x l IH]; intros Hn Hl; cbn; constructor.
        - inversion Hn as [|? ? Hx Hn']; subst. rewrite in_map_iff. intros (y & Ey & Hy).
          apply Hinj in Ey; [subst; contradiction|apply Hl; right; exact Hy|apply Hl; left; reflexivity].
        - inversion Hn; subst. apply IH; [assumption|]. intros y Hy. apply Hl. right. exact Hy. }
      apply HN; [apply nodup_residues|auto].
    - rewrite map_length. apply le_n.
    - intros y Hy. apply in_map_iff in Hy. destruct Hy as (x & <- & Hx). apply in_residues; [exact Hp1|]. auto. }
  apply prod_perm in Hperm. pose proof (prod_map_mod p a L Hp0) as HM. fold f in HM.
  rewrite Hperm in HM. unfold L in HM. rewrite length_residues in HM by exact Hp1. fold L in HM.
  symmetry in HM. apply mod_eq_divide in HM; [|exact Hp0].
  replace (a ^ (p - 1) * prod L - prod L) with ((a ^ (p - 1) - 1) * prod L) in HM by ring.
  apply prime_mult in HM; [|exact Hp]. destruct HM as [HM|HM].
  - apply mod_eq_divide in HM; [|exact Hp0]. rewrite HM. apply Z.mod_1_l. exact Hp1.
  - exfalso. revert HM. apply prime_not_div_prod; [exact Hp|].
    intros x Hx. apply in_residues in Hx; [|exact Hp1]. apply small_not_div. exact Hx.
Qed.

(** ** Prime divisors *)
Lemma prime_divisor n : 1 < n -> exists d, prime d /\ (d | n).
Proof.
  intros Hn. assert (H0 : 0 <= n) by lia. revert Hn. revert n H0. apply (Z_lt_induction (fun n => 1 < n -> exists d, prime d /\ (d | n))).
  intros n IH Hn. destruct (prime_dec n) as [Hp|Hp].
  - exists n. split; [exact Hp|apply Z.divide_refl].
  - apply not_prime_divide in Hp; [|exact Hn]. destruct Hp as (k & Hk & Hd).
    destruct (IH k ltac:(lia) ltac:(lia)) as (d & Hd1 & Hd2). exists d. split; [exact Hd1|].
    apply Z.divide_trans with k; assumption.
Qed.
Lemma prime_by_divisors n : 1 < n -> (forall d, prime d -> (d | n) -> n < d * d) -> prime n.
Proof.
  intros Hn H. destruct (prime_dec n) as [Hp|Hp]; [exact Hp|exfalso].
  apply not_prime_divide in Hp; [|exact Hn]. destruct Hp as (k & Hk & Hd). destruct Hd as (j & Hj).
  assert (1 < j < n) by nia.
  destruct (prime_divisor k ltac:(lia)) as (d & Pd & Dd). destruct (prime_divisor j ltac:(lia)) as (e & Pe & De).
  assert (d <= k) by (apply Z.divide_pos_le; [lia|exact Dd]).
  assert (e <= j) by (apply Z.divide_pos_le; [lia|exact De]).
  assert (n < d * d). { apply H; [exact Pd|]. rewrite Hj. apply Z.divide_mul_r. exact Dd. }
  assert (n < e * e). { apply H; [exact Pe|]. rewrite Hj. apply Z.divide_mul_l. exact De. }
  assert (0 < d) by (destruct Pd; lia). assert (0 < e) by (destruct Pe; lia).
  assert (n < k * k) by nia. assert (n < j * j) by nia. nia.
Qed.

(** ** Pocklington's criterion *)
Lemma pow_mod_one d a x k : 1 < d -> 0 <= x -> 0 <= k -> a ^ x mod d = 1 -> a ^ (x * k) mod d = 1.
Proof.
  intros Hd Hx Hk H. rewrite Z.pow_mul_r by assumption. rewrite Zpow_facts.Zpower_mod, H, Z.pow_1_l by lia.
  apply Z.mod_1_l. exact Hd.
Qed.
Lemma pow_mod_gcd d a x y : prime d -> ~ (d | a) -> 0 < x -> 0 < y ->
  a ^ x mod d = 1 -> a ^ y mod d = 1 -> a ^ Z.gcd x y mod d = 1.
Proof.
  intros Hd Ha Hx Hy H1 H2. assert (Hd1 : 1 < d) by (destruct Hd; assumption).
  destruct (Z.gcd_bezout x y (Z.gcd x y) eq_refl) as (u & v & E).
  (* choose a multiple of y that makes the coefficient of x positive *)
  set (t := Z.abs u + Z.abs v).
  assert (E' : (u + t * y) * x = Z.gcd x y + (t * x - v) * y) by (rewrite <- E; ring).
  assert (Hu : 0 <= u + t * y) by (unfold t; nia). assert (Hv : 0 <= t * x - v) by (unfold t; nia).
  assert (Hg : 0 <= Z.gcd x y) by apply Z.gcd_nonneg.
  assert (A : a ^ (Z.gcd x y + (t * x - v) * y) mod d = 1).
  { rewrite <- E', Z.mul_comm. apply pow_mod_one; auto; lia. }
  rewrite Z.pow_add_r, Z.mul_mod in A by nia.
  rewrite (Z.mul_comm (t * x - v)), (pow_mod_one d a y (t * x - v)) in A by (auto; lia).
  rewrite Z.mul_1_r, Z.mod_mod in A by lia. exact A.
Qed.

Lemma pocklington_step n a q d :
  prime q -> (q | n - 1) -> 1 < n -> a ^ (n - 1) mod n = 1 ->
  Z.gcd (a ^ ((n - 1) / q) - 1) n = 1 -> prime d -> (d | n) -> (q | d - 1).
Proof.
  intros Hq Hqn Hn H1 Hg Hd Hdn.
  assert (Hd1 : 1 < d) by (destruct Hd; assumption). assert (Hq1 : 1 < q) by (destruct Hq; assumption).
  assert (H1d : a ^ (n - 1) mod d = 1).
  { assert (E : a ^ (n - 1) mod d = 1 mod d); [|rewrite E; apply Z.mod_1_l; exact Hd1].
    apply mod_eq_divide; [lia|]. apply Z.divide_trans with n; [exact Hdn|].
    apply mod_eq_divide; [lia|]. rewrite H1. symmetry. apply Z.mod_1_l. exact Hn. }
  assert (Ha : ~ (d | a)).
  { intros (k & ->). rewrite Z.pow_mul_l in H1d. replace (n - 1) with (Z.succ (n - 2)) in H1d at 2 by lia.
    rewrite (Z.pow_succ_r d) in H1d by (destruct (Z.eq_dec n 2); lia).
    rewrite (Z.mul_comm d), Z.mul_assoc, Z.mod_mul in H1d by lia. discriminate. }
  destruct (Znumtheory.Zdivide_dec q (d - 1)) as [Y|Nd]; [exact Y|exfalso].
  destruct Hqn as (m & Hm). assert (Em : (n - 1) / q = m) by (rewrite Hm; apply Z.div_mul; lia).
  rewrite Em in Hg. assert (0 < m) by nia.
  pose proof (fermat_unit d a Hd Ha) as Hf.
  pose proof (pow_mod_gcd d a (n - 1) (d - 1) Hd Ha ltac:(lia) ltac:(lia) H1d Hf) as HG.
  set (g := Z.gcd (n - 1) (d - 1)) in *.
  assert (Hg1 : (g | m)).
  { apply (Gauss g q m).
    - rewrite Z.mul_comm, <- Hm. apply Z.gcd_divide_l.
    - apply rel_prime_sym. apply prime_rel_prime; [exact Hq|]. intros D. apply Nd.
      apply Z.divide_trans with g; [exact D|apply Z.gcd_divide_r]. }
  destruct Hg1 as (k & Hk). assert (0 <= g) by apply Z.gcd_nonneg. assert (0 <= k) by nia.
  assert (HM : a ^ m mod d = 1). { rewrite Hk, Z.mul_comm. apply pow_mod_one; auto. }
  assert (D : (d | Z.gcd (a ^ m - 1) n)).
  { apply Z.gcd_greatest; [|exact Hdn]. apply mod_eq_divide; [lia|]. rewrite HM. symmetry. apply Z.mod_1_l. lia. }
  rewrite Hg in D. apply Z.divide_1_r in D. lia.
Qed.

Lemma distinct_primes_prod l m : (forall q, In q l -> prime q) -> NoDup l -> (forall q, In q l -> (q | m)) -> (prod l | m).
Proof.
  revert m. induction l as [|q l IH]; intros m Hp Hn Hd; cbn.
  - apply Z.divide_1_l.
  - inversion Hn as [|? ? Hq Hn']; subst.
    destruct (Hd q (or_introl eq_refl)) as (k & ->). rewrite Z.mul_comm. apply Z.mul_divide_mono_r.
    apply IH; [intros; apply Hp; now right|exact Hn'|].
    intros r Hr. specialize (Hd r (or_intror Hr)). apply prime_mult in Hd; [|apply Hp; now right].
    destruct Hd as [Hd|Hd]; [exact Hd|exfalso].
    assert (r = q). { apply prime_div_prime; [apply Hp; now right|apply Hp; now left|exact Hd]. }
    subst. contradiction.
Qed.

Theorem pocklington n a l :
  1 < n -> a ^ (n - 1) mod n = 1 -> n <= prod l * prod l -> NoDup l ->
  (forall q, In q l -> prime q /\ (q | n - 1) /\ Z.gcd (a ^ ((n - 1) / q) - 1) n = 1) -> prime n.
Proof.
  intros Hn H1 Hs Hnd Hl. apply prime_by_divisors; [exact Hn|]. intros d Hd Hdn.
  assert (D : (prod l | d - 1)).
  { apply distinct_primes_prod; [intros q Hq; apply (Hl q Hq)|exact Hnd|].
    intros q Hq. destruct (Hl q Hq) as (A & B & C). apply (pocklington_step n a q d); assumption. }
  assert (1 < d) by (destruct Hd; assumption).
  assert (0 <= prod l).
  { clear -Hl. induction l as [|q l IH]; cbn; [lia|]. assert (Pq : prime q) by (apply Hl; now left).
    assert (0 <= prod l) by (apply IH; intros; apply Hl; now right). destruct Pq. change (fold_right Z.mul 1 l) with (prod l). nia. }
  apply Z.divide_pos_le in D; [|lia]. nia.
Qed.

(** ** Checking certificates
    Exponentiation modulo [n] with a reduction [red] that only has to preserve the residue class.  The base
    is multiplied in before reducing, so a small base costs nothing. *)
Fixpoint powmod (red : Z -> Z) (a : Z) (e : positive) : Z :=
  match e with
  | xH => a
  | xO e' => let r := powmod red a e' in red (r * r)
  | xI e' => let r := powmod red a e' in red (r * r * a)
  end.
Definition keeps (n : Z) (red : Z -> Z) : Prop := forall x, red x mod n = x mod n.
Lemma powmod_ok n red a e : n <> 0 -> keeps n red -> powmod red a e mod n = a ^ Z.pos e mod n.
Proof.
  intros Hn K. induction e as [e IH|e IH|]; cbn [powmod].
  - rewrite K, Z.mul_mod, (Z.mul_mod (powmod _ _ _)), IH, <- (Z.mul_mod (a ^ _)), <- Z.mul_mod by assumption.
    rewrite Pos2Z.inj_xI, Z.pow_add_r, Z.pow_1_r, Z.pow_twice_r by lia. reflexivity.
  - rewrite K, Z.mul_mod, IH, <- Z.mul_mod by assumption.
    rewrite Pos2Z.inj_xO, Z.pow_twice_r. reflexivity.
  - rewrite Z.pow_1_r. reflexivity.
Qed.

(** Barrett reduction: the estimate of the quotient need not be proved. *)
Definition barrett (n mu k j x : Z) : Z := x - Z.shiftr (Z.shiftr x k * mu) j * n.
Lemma barrett_ok n mu k j : n <> 0 -> keeps n (barrett n mu k j).
Proof.
  intros Hn x. unfold barrett. set (q := Z.shiftr _ _).
  replace (x - q * n) with (x + (- q) * n) by ring. apply Z.mod_add. exact Hn.
Qed.
(** Folding for [n = 2 ^ k - c]: the part above [2 ^ k] is worth [c] times as much. *)
Definition fold_red (k c x : Z) : Z := Z.shiftr x k * c + Z.land x (Z.ones k).
Lemma fold_red_ok n k c : 0 <= k -> n = 2 ^ k - c -> n <> 0 -> keeps n (fold_red k c).
Proof.
  intros Hk E Hn x. unfold fold_red. rewrite Z.shiftr_div_pow2, Z.land_ones by assumption.
  assert (P : 0 < 2 ^ k) by (apply Z.pow_pos_nonneg; lia).
  pose proof (Z.div_mod x (2 ^ k) ltac:(lia)) as D.
  set (h := x / 2 ^ k) in *. set (m := x mod 2 ^ k) in *.
  assert (F : h * c + m = x + (- h) * n) by (rewrite E, D; ring). rewrite F. apply Z.mod_add. exact Hn.
Qed.
Lemma keeps_comp n f g : keeps n f -> keeps n g -> keeps n (fun x => f (g x)).
Proof. intros F G x. rewrite F. apply G. Qed.

(** A certificate: the base and, for each prime [q], an inverse of a^((n-1)/q) - 1 modulo n. *)
Fixpoint distinct (l : list Z) : bool :=
  match l with [] => true | x :: l' => negb (existsb (Z.eqb x) l') && distinct l' end.
Definition powz (red : Z -> Z) (a e : Z) : Z := match e with Zpos e' => powmod red a e' | _ => 1 end.
Lemma powz_ok n red a e : n <> 0 -> keeps n red -> 0 <= e -> powz red a e mod n = a ^ e mod n.
Proof. intros Hn K He. destruct e as [|e|e]; [reflexivity|apply powmod_ok; assumption|lia]. Qed.
Definition check_cert (red : Z -> Z) (n a : Z) (l : list (Z * Z)) : bool :=
  (1 <? n) && (n <=? prod (map fst l) * prod (map fst l)) && distinct (map fst l)
  && (powz red a (n - 1) mod n =? 1)
  && forallb (fun qi => ((n - 1) mod fst qi =? 0)
        && ((powz red a ((n - 1) / fst qi) - 1) * snd qi mod n =? 1)) l.
Lemma distinct_ok l : distinct l = true -> NoDup l.
Proof.
  induction l as [|x l IH]; cbn; intros H; constructor; apply andb_true_iff in H; destruct H as [H1 H2]; auto.
  intros Hx. apply negb_true_iff in H1. assert (E : existsb (Z.eqb x) l = true); [|congruence].
  apply existsb_exists. exists x. split; [exact Hx|apply Z.eqb_refl].
Qed.
Theorem check_cert_ok red n a l :
  (n <> 0 -> keeps n red) -> (forall q, In q (map fst l) -> prime q) -> check_cert red n a l = true -> prime n.
Proof.
  unfold check_cert. intros K Hp H. apply andb_true_iff in H. destruct H as [H Htl].
  apply andb_true_iff in H. destruct H as [H Hpow]. apply andb_true_iff in H. destruct H as [H Hdis].
  apply andb_true_iff in H. destruct H as [Hn Hsq]. apply Z.ltb_lt in Hn. specialize (K ltac:(lia)).
  apply Z.eqb_eq in Hpow.
  apply (pocklington n a (map fst l)).
  - exact Hn.
  - rewrite powz_ok in Hpow by (assumption || lia). exact Hpow.
  - apply Z.leb_le. assumption.
  - apply distinct_ok. assumption.
  - intros q Hq. apply in_map_iff in Hq. destruct Hq as ((q', i) & <- & Hq). cbn [fst].
    assert (Pq : prime q') by (apply Hp; apply in_map_iff; now exists (q', i)).
    assert (Hq2 : 1 < q') by (destruct Pq; assumption).
    rewrite forallb_forall in Htl. specialize (Htl _ Hq). cbn [fst snd] in Htl.
    apply andb_true_iff in Htl. destruct Htl as [Ha Hb]. apply Z.eqb_eq in Ha, Hb.
    split; [exact Pq|]. split; [apply Z.mod_divide; [lia|exact Ha]|].
    set (w := a ^ ((n - 1) / q') - 1).
    assert (E : (w * i) mod n = 1).
    { rewrite <- Hb. rewrite <- Z.mul_mod_idemp_l by lia. rewrite <- (Z.mul_mod_idemp_l (_ - 1)) by lia.
      f_equal. f_equal. unfold w. rewrite Zminus_mod, <- (powz_ok n red), <- Zminus_mod; [reflexivity|lia|exact K|].
      apply Z.div_pos; lia. }
    pose proof (Z.div_mod (w * i) n ltac:(lia)) as D. rewrite E in D.
    apply Z.bezout_1_gcd. exists i, (- (w * i / n)). lia.
Qed.

(** Small primes by trial division. *)
Definition small_prime (n : Z) : bool :=
  (1 <? n) && forallb (fun k => negb (n mod Z.of_nat k =? 0)) (seq 2 (Z.to_nat (Z.sqrt n) - 1)).
Lemma small_prime_ok n : small_prime n = true -> prime n.
Proof.
  unfold small_prime. intros H. apply andb_true_iff in H. destruct H as [Hn H]. apply Z.ltb_lt in Hn.
  apply prime_by_divisors; [exact Hn|]. intros d Hd Hdn. assert (1 < d) by (destruct Hd; assumption).
  destruct (Z.lt_ge_cases n (d * d)) as [L|L]; [exact L|exfalso].
  rewrite forallb_forall in H. specialize (H (Z.to_nat d)).
  assert (I : In (Z.to_nat d) (seq 2 (Z.to_nat (Z.sqrt n) - 1))).
  { apply in_seq. apply Z.sqrt_le_mono in L. rewrite Z.sqrt_square in L by lia. lia. }
  specialize (H I). apply negb_true_iff in H. apply Z.eqb_neq in H. apply H. rewrite Z2Nat.id by lia.
  apply Z.mod_divide; [lia|exact Hdn].
Qed.
