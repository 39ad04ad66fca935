(** Every point of the curve is a multiple of G.  No point counting is needed: there are at most 2 p + 1 points,
    and if P were not a multiple of G, the multiples of G, these plus P and these minus P would be 3 n points. *)
From Coq Require Import ZArith List Lia Znumtheory ZifyBool ZifyNat ZifyN.
From Verif Require Import Bytes Secp SpecSecp SecpField SecpGroup SecpOrder SecpProofs SecpSign.
Import ListNotations.
Open Scope Z_scope.

(** ** Counting *)
Definition interval (m : Z) : list Z := map Z.of_nat (seq 0 (Z.to_nat m)).
Lemma interval_in m i : In i (interval m) <-> 0 <= i < m.
Proof.
  unfold interval. rewrite in_map_iff. split.
  - intros (k & <- & H). apply in_seq in H. lia.
  - intros H. exists (Z.to_nat i). split; [lia|]. apply in_seq. lia.
Qed.
Lemma interval_length m : length (interval m) = Z.to_nat m.
Proof. unfold interval. rewrite map_length, seq_length. reflexivity. Qed.
Lemma NoDup_map_on {A B} (f : A -> B) l : NoDup l -> (forall x y, In x l -> In y l -> f x = f y -> x = y) -> NoDup (map f l).
Proof.
  induction l as [|a l IH]; intros ND H; cbn [map]; [constructor|]. inversion ND as [|? ? Ha ND']; subst. constructor.
  - intros I. apply in_map_iff in I. destruct I as (b & E & I). apply Ha.
    rewrite <- (H b a); [exact I|right; exact I|left; reflexivity|exact E].
  - apply IH; [exact ND'|]. intros x y X Y. apply H; right; assumption.
Qed.
Lemma pigeon (m q : Z) (f : Z -> Z) : 0 <= q < m -> (forall i, 0 <= i < m -> 0 <= f i < q) ->
  (forall i j, 0 <= i < m -> 0 <= j < m -> f i = f j -> i = j) -> False.
Proof.
  intros Hq R I. assert (L : (length (map f (interval m)) <= length (interval q))%nat).
  { apply NoDup_incl_length.
    - apply NoDup_map_on.
      + apply (NoDup_map_inv Z.to_nat). unfold interval. rewrite map_map.
        rewrite (map_ext (fun x => Z.to_nat (Z.of_nat x)) (fun x => x)) by (intros; lia). rewrite map_id. apply seq_NoDup.
      + intros x y X Y. apply interval_in in X, Y. apply I; assumption.
    - intros v V. apply in_map_iff in V. destruct V as (i & <- & V). apply interval_in in V. apply interval_in, R, V. }
  rewrite map_length, !interval_length in L. lia.
Qed.
Lemma point_dec (P Q : point) : {P = Q} + {P <> Q}.
Proof. decide equality; apply Z.eq_dec. Defined.
Lemma search (f : Z -> point) (P : point) m : (exists i, 0 <= i < m /\ P = f i) \/ (forall i, 0 <= i < m -> P <> f i).
Proof.
  destruct (in_dec point_dec P (map f (interval m))) as [I|I].
  - left. apply in_map_iff in I. destruct I as (i & <- & H). exists i. split; [apply interval_in, H|reflexivity].
  - right. intros i H E. apply I, in_map_iff. exists i. split; [symmetry; exact E|apply interval_in, H].
Qed.

(** ** At most 2 p + 1 points *)
Definition code (P : point) : Z := match P with Infinity => 0 | Point x y => 1 + 2 * x + (if Z.odd y then 1 else 0) end.
Lemma code_range P : on_curve P -> 0 <= code P < 2 * p + 1.
Proof. destruct P as [|x y]; intros O; cbn [code]; [pose proof p_pos; lia|]. destruct O as (Bx & _). destruct (Z.odd y); lia. Qed.
Lemma code_inj P Q : on_curve P -> on_curve Q -> code P = code Q -> P = Q.
Proof.
  destruct P as [|x y], Q as [|x' y']; intros O O' E; cbn [code] in E; [reflexivity|exfalso..|].
  - destruct O' as (B & _). destruct (Z.odd y'); lia.
  - destruct O as (B & _). destruct (Z.odd y); lia.
  - assert (x = x' /\ Z.odd y = Z.odd y') as [<- Ho] by (destruct (Z.odd y), (Z.odd y'); split; try reflexivity; lia).
    destruct O as (_ & By & Hc), O' as (_ & By' & Hc').
    pose proof (curve_y_nz _ _ By Hc). pose proof (curve_y_nz _ _ By' Hc').
    destruct (same_square y y') as [->| ->]; [lia..| |reflexivity|].
    + unfold modp_eq in *. replace (y * y - y' * y') with (y * y - (x * x * x + 7) - (y' * y' - (x * x * x + 7))) by ring.
      apply Z.divide_sub_r; assumption.
    + rewrite sub_p_parity in Ho. destruct (Z.odd y); discriminate Ho.
Qed.

(** ** Three cosets would not fit *)
Lemma ec_shift P a b : on_curve P -> 0 <= a <= n -> 0 <= b -> ec_add P (kG a) = kG b -> P = kG (b + (n - a)).
Proof.
  intros O Ha Hb E. rewrite kG_add by lia. rewrite <- E, ec_add_assoc by (try exact O; apply kG_on).
  rewrite <- kG_add by lia. replace (a + (n - a)) with n by ring. rewrite kG_n. symmetry. apply ec_add_inf_r, O.
Qed.
Lemma ec_neg_neg P : on_curve P -> ec_neg (ec_neg P) = P.
Proof.
  intros O. pose proof (ec_neg_on P O) as O'. apply (ec_add_cancel (ec_neg P)); [exact O'|apply ec_neg_on, O'|exact O|].
  rewrite ec_add_neg by exact O'. rewrite ec_add_comm by assumption. symmetry. apply ec_add_neg, O.
Qed.
Lemma no_involution P : on_curve P -> ec_add P P = Infinity -> P = Infinity.
Proof.
  intros O E. rewrite <- (ec_add_neg P O) in E. apply ec_add_cancel in E; [|exact O|exact O|apply ec_neg_on, O].
  destruct P as [|x y]; [reflexivity|exfalso]. rewrite (neg_coords x y O) in E.
  assert (Ey : y = p - y) by congruence. pose proof (sub_p_parity y) as S. rewrite <- Ey in S. destruct (Z.odd y); discriminate S.
Qed.
Lemma halve P c : on_curve P -> 0 <= c -> ec_add P P = kG c -> exists h, 0 <= h /\ P = kG h.
Proof.
  intros O Hc E. pose proof half_n as Hn. pose proof n_pos as Np. assert (0 <= n / 2) by (apply Z.div_pos; lia).
  set (h := (n / 2 + 1) * c). exists h. assert (Hh : 0 <= h) by (unfold h; apply Z.mul_nonneg_nonneg; lia). split; [exact Hh|].
  assert (EQ : ec_add (kG h) (kG h) = ec_add P P).
  { rewrite <- kG_add by exact Hh. rewrite E. apply kG_cong; [lia|exact Hc|].
    replace (h + h) with (c + c * n); [apply Z.mod_add; lia|]. unfold h. rewrite <- Hn at 1. ring. }
  set (Q := kG h) in *. assert (OQ : on_curve Q) by apply kG_on. clearbody Q.
  set (R := ec_add P (ec_neg Q)). assert (OR : on_curve R) by (apply ec_add_on; [exact O|apply ec_neg_on, OQ]).
  assert (ER : R = Infinity).
  { apply no_involution; [exact OR|]. unfold R. pose proof (ec_neg_on Q OQ) as ON.
    rewrite ec_add_assoc by (try apply ec_add_on; assumption). rewrite <- (ec_add_assoc (ec_neg Q)) by assumption.
    rewrite (ec_add_comm (ec_neg Q) P) by assumption. rewrite ec_add_assoc by assumption.
    rewrite <- ec_add_assoc by (try apply ec_add_on; assumption). rewrite <- EQ.
    rewrite ec_add_assoc by (try apply ec_add_on; assumption). rewrite <- (ec_add_assoc Q (ec_neg Q)) by assumption.
    rewrite ec_add_neg by exact OQ. rewrite ec_add_inf_l by exact ON. apply ec_add_neg, OQ. }
  unfold R in ER. rewrite <- (ec_add_neg Q OQ), (ec_add_comm P), (ec_add_comm Q) in ER by (try assumption; apply ec_neg_on, OQ).
  apply ec_add_cancel in ER; [exact ER|apply ec_neg_on, OQ|exact O|exact OQ].
Qed.
Lemma three_n : 2 * p + 1 < 3 * n.
Proof. vm_compute. reflexivity. Qed.
Definition coset (P : point) (i : Z) : point :=
  if i <? n then kG i else if i <? 2 * n then ec_add P (kG (i - n)) else ec_add (ec_neg P) (kG (i - 2 * n)).
Theorem every_point P : on_curve P -> exists k, 0 <= k < n /\ P = kG k.
Proof.
  intros O. destruct (search kG P n) as [H|H]; [exact H|exfalso]. pose proof n_pos as Np. pose proof (ec_neg_on P O) as ON.
  assert (NG : forall k, 0 <= k -> P <> kG k).
  { intros k Hk E. rewrite <- kG_mod in E by exact Hk. exact (H _ (Z.mod_pos_bound k n Np) E). }
  assert (NG' : forall k, 0 <= k -> ec_neg P <> kG k).
  { intros k Hk E. rewrite <- kG_mod in E by exact Hk. pose proof (Z.mod_pos_bound k n Np) as B.
    apply (NG (n - k mod n)); [lia|]. rewrite kG_neg by lia. rewrite <- E. symmetry. apply ec_neg_neg, O. }
  assert (S1 : forall a b, 0 <= a < n -> 0 <= b < n -> ec_add P (kG a) <> kG b).
  { intros a b Ha Hb E. apply ec_shift in E; [|exact O|lia|lia]. exact (NG (b + (n - a)) ltac:(lia) E). }
  assert (S2 : forall a b, 0 <= a < n -> 0 <= b < n -> ec_add (ec_neg P) (kG a) <> kG b).
  { intros a b Ha Hb E. apply ec_shift in E; [|exact ON|lia|lia]. exact (NG' (b + (n - a)) ltac:(lia) E). }
  assert (S3 : forall a b, 0 <= a < n -> 0 <= b < n -> ec_add P (kG a) <> ec_add (ec_neg P) (kG b)).
  { intros a b Ha Hb E. apply (f_equal (ec_add P)) in E. rewrite <- !ec_add_assoc in E by (try assumption; apply kG_on).
    rewrite ec_add_neg, ec_add_inf_l in E by (try exact O; apply kG_on).
    apply ec_shift in E; [|apply ec_add_on; exact O|lia|lia]. apply halve in E; [|exact O|lia].
    destruct E as (h & Hh & E). exact (NG h Hh E). }
  assert (On : forall i, on_curve (coset P i)).
  { intros i. unfold coset. destruct (i <? n); [apply kG_on|]. destruct (i <? 2 * n); apply ec_add_on; try assumption; apply kG_on. }
  apply (pigeon (3 * n) (2 * p + 1) (fun i => code (coset P i))).
  - pose proof three_n. pose proof p_pos. lia.
  - intros i _. apply code_range, On.
  - intros i j Hi Hj E. apply code_inj in E; [|apply On..]. unfold coset in E.
    destruct (Z.ltb_spec i n) as [A|A], (Z.ltb_spec j n) as [B|B].
    + apply kG_inj in E; [exact E|lia|lia].
    + exfalso. symmetry in E. destruct (Z.ltb_spec j (2 * n)); [eapply S1|eapply S2]; try exact E; lia.
    + exfalso. destruct (Z.ltb_spec i (2 * n)); [eapply S1|eapply S2]; try exact E; lia.
    + destruct (Z.ltb_spec i (2 * n)), (Z.ltb_spec j (2 * n)).
      * apply ec_add_cancel in E; [|exact O|apply kG_on..]. apply kG_inj in E; lia.
      * exfalso. eapply S3; try exact E; lia.
      * exfalso. symmetry in E. eapply S3; try exact E; lia.
      * apply ec_add_cancel in E; [|exact ON|apply kG_on..]. apply kG_inj in E; lia.
Qed.
