(** Proofs of more properties of signatures (restated in PropSign.v). *)
From Coq Require Import String Znumtheory ZifyBool ZifyNat ZifyN.
From Verif Require Import Outcome Bytes Str Hash HashLemmas Secp SpecSecp SecpField SecpGroup SecpProofs SecpSign SecpCount.
From Verif Require Import ModelBip32 SpecBip32 SpecWallet.
From Verif Require Import Fermat Primes SecpOrder Base58Proofs ExtProofs DeriveThms MiscThms More32Thms.
Open Scope Z_scope.

(** ** The nonce behind a signature, after normalisation *)
Definition nonce_of (d z : Z) (r s : Z) (recid : N) (k x y : Z) : Prop :=
  0 < k < n /\ kG k = Point x y /\ r = x mod n /\ N.testbit recid 1 = (n <=? x) /\ N.testbit recid 0 = Z.odd y
  /\ (n | k * s - (r * d + z)).
Lemma sign_raw_nonce d z k r s recid : 0 < k < n -> sign_raw d z k = Some (r, s, recid) ->
  (recid < 4)%N /\ 0 < s < n /\ exists k' x y, nonce_of d z r s recid k' x y.
Proof.
  intros Hk H. unfold sign_raw in H. rewrite ecmult_gen_ok in H.
  destruct (kG_finite k Hk) as (x & y & Ek). rewrite Ek in H. cbv zeta beta iota in H.
  pose proof (kG_on k) as O. rewrite Ek in O.
  destruct (recid_bits (n <=? x) (Z.odd y)) as [T1 T0]. destruct (recid_lt (n <=? x) (Z.odd y)) as [L1 L2].
  set (rc := N.lor _ _) in *. clearbody rc.
  set (s0 := (ninv k * ((x mod n * d) mod n + z)) mod n) in *.
  pose proof (Z.mod_pos_bound (ninv k * ((x mod n * d) mod n + z)) n n_pos) as Bs. fold s0 in Bs.
  destruct (s0 =? 0) eqn:E0; [discriminate H|]. apply Z.eqb_neq in E0.
  assert (D : (n | k * s0 - (x mod n * d + z))).
  { unfold s0. rewrite (Z.mod_eq (ninv k * _) n n_nz), (Z.mod_eq (x mod n * d) n n_nz).
    set (q1 := x mod n * d / n). set (e := x mod n * d). set (q2 := _ / n).
    replace (k * (ninv k * (e - n * q1 + z) - n * q2) - (e + z))
      with ((e + z) * (ninv k * k - 1) - n * (k * ninv k * q1 + k * q2)) by ring.
    apply Z.divide_sub_r; [apply Z.divide_mul_r, ninv_ok, small_not_divide, Hk|apply Z.divide_factor_l]. }
  pose proof half_n as HN. pose proof half_n_lt as HL. clearbody s0.
  destruct (n / 2 <? s0) eqn:Eh.
  - apply Z.ltb_lt in Eh. apply some_triple in H; destruct H as (<- & <- & <-). split; [exact L2|]. split; [lia|].
    destruct (recid_flip rc) as [F1 F0]. exists (n - k), x, (p - y). split; [lia|].
    split; [rewrite kG_neg, Ek by lia; apply neg_coords, O|]. split; [reflexivity|]. split; [rewrite F1; exact T1|].
    split; [rewrite F0, T0; symmetry; apply sub_p_parity|].
    replace ((n - k) * (n - s0) - (x mod n * d + z)) with (k * s0 - (x mod n * d + z) + n * (n - s0 - k)) by ring.
    apply Z.divide_add_r; [exact D|apply Z.divide_factor_l].
  - apply Z.ltb_ge in Eh. apply some_triple in H; destruct H as (<- & <- & <-). split; [exact L1|]. split; [lia|].
    exists k, x, y. split; [exact Hk|]. split; [exact Ek|]. split; [reflexivity|]. split; [exact T1|]. split; [exact T0|exact D].
Qed.
Lemma sign_loop_nonce fuel d z : forall kv r s recid, sign_loop fuel d z kv = Some (r, s, recid) ->
  (recid < 4)%N /\ 0 < s < n /\ exists k x y, nonce_of d z r s recid k x y.
Proof.
  induction fuel as [|f IH]; intros kv r s recid H; cbn [sign_loop] in H; [discriminate H|].
  destruct (drbg_generate kv) as [gen kv']. cbv zeta in H. set (k := Z.of_N (be_val gen)) in *.
  destruct ((k <? n) && negb (k =? 0))%bool eqn:E; [|exact (IH _ _ _ _ H)].
  apply andb_prop in E. destruct E as [E1 E2]. apply Z.ltb_lt in E1. apply Bool.negb_true_iff, Z.eqb_neq in E2.
  destruct (sign_raw d z k) as [[[r' s'] rc']|] eqn:ES; [|exact (IH _ _ _ _ H)].
  apply some_triple in H; destruct H as (-> & -> & ->). apply (sign_raw_nonce d z k); [unfold k in *; lia|exact ES].
Qed.
Lemma sign_nonce fuel d msg sig recid : ecdsa_sign fuel d msg = Some (Ok (sig, recid)) ->
  exists r s rb sb k x y, sig = (rb ++ sb)%list /\ is_ser256 r rb /\ is_ser256 s sb /\ (recid < 4)%N /\ 0 < s < n /\ 0 <= r < n
    /\ nonce_of d (digest_val msg) r s recid k x y.
Proof.
  unfold ecdsa_sign. intros H. destruct (message_parse_slice msg) as [z|] eqn:M; [|discriminate H].
  apply message_parse in M. destruct M as [_ ->]. destruct (sign fuel _ d) as [[[r s] c]|] eqn:S; [|discriminate H].
  assert (E : sig = signature_serialize r s /\ recid = c) by (split; congruence). clear H. destruct E as [-> ->].
  unfold sign in S. apply sign_loop_nonce in S. destruct S as (Bc & Bs & k & x & y & Hk & Ek & Er & T1 & T0 & D).
  pose proof (Z.mod_pos_bound x n n_pos) as Br. rewrite <- Er in Br.
  exists r, s, (be_bytes 32 (Z.to_N r)), (be_bytes 32 (Z.to_N s)), k, x, y. split; [reflexivity|].
  split; [apply be_ser256, Br|]. split; [apply be_ser256; lia|]. split; [exact Bc|]. split; [exact Bs|]. split; [exact Br|].
  split; [exact Hk|]. split; [exact Ek|]. split; [exact Er|]. split; [exact T1|]. split; [exact T0|].
  set (m := digest_val msg) in *. replace (k * s - (r * d + m)) with (k * s - (r * d + m mod n) - n * (m / n)).
  - apply Z.divide_sub_r; [exact D|apply Z.divide_factor_l].
  - rewrite (Z.mod_eq m n n_nz). ring.
Qed.

(** ** No multiple of G has abscissa 0: such a point is doubled to its negative, so it would have order 3 *)
Lemma abscissa_nz k x y : 0 < k < n -> kG k = Point x y -> x <> 0.
Proof.
  intros Hk E ->. pose proof (kG_on k) as O. rewrite E in O. pose proof O as (_ & By & Hc).
  pose proof (curve_y_nz 0 y By Hc) as Hy.
  assert (S : ec_sum (Point 0 y) (Point 0 y) (Point 0 (p - y))).
  { apply (sum_tangent 0 y 0).
    - intros D. unfold modp_eq in D. rewrite Z.sub_0_r in D. replace (y + y) with (2 * y) in D by ring.
      apply prime_mult in D; [|exact p_prime]. destruct D as [D|D]; apply Z.divide_pos_le in D; try lia.
      apply Z.le_ngt in D. apply D. reflexivity.
    - unfold modp_eq. replace (0 * (2 * y) - 3 * 0 * 0) with 0 by ring. apply Z.divide_0_r.
    - split; [lia|reflexivity].
    - unfold modp_eq. apply Z.divide_0_r.
    - lia.
    - unfold modp_eq. replace (p - y - (0 * (0 - 0) - y)) with p by ring. apply Z.divide_refl. }
  apply ec_sum_iff in S; [|exact O|exact O]. rewrite <- (neg_coords 0 y O), <- E in S.
  rewrite <- kG_neg, <- kG_add in S by lia.
  assert (D : (n | 3 * k)).
  { apply kG_inf; [lia|]. replace (3 * k) with (k + k + k) by ring. rewrite kG_add, <- S, <- kG_add by lia.
    replace (n - k + k) with n by ring. exact kG_n. }
  apply prime_mult in D; [|exact n_prime]. destruct D as [D|D]; [|exact (small_not_divide k Hk D)].
  apply Z.divide_pos_le in D; [|lia]. apply Z.le_ngt in D. apply D. reflexivity.
Qed.
Lemma abscissa_zero k x y : 0 < k < n -> kG k = Point x y -> x mod n = 0 -> x = n.
Proof.
  intros Hk Ek E0. pose proof (abscissa_nz k x y Hk Ek) as Nx. pose proof (kG_on k) as O. rewrite Ek in O.
  destruct O as (Bx & _). pose proof p_lt_2n as L. pose proof (Z.div_mod x n n_nz) as D. rewrite E0 in D.
  assert (x / n = 1); [|lia]. assert (0 < x / n < 2); [|lia]. split.
  - destruct (Z.le_gt_cases (x / n) 0) as [B|B]; [exfalso|exact B]. assert (n * (x / n) <= 0) by (apply Z.mul_nonneg_nonpos; [apply Z.lt_le_incl, n_pos|exact B]). lia.
  - apply Z.div_lt_upper_bound; [exact n_pos|lia].
Qed.
Lemma nonce_r_zero d z r s recid k x y : nonce_of d z r s recid k x y -> r = 0 -> x = n.
Proof. intros (Hk & Ek & Er & _) E0. rewrite Er in E0. exact (abscissa_zero k x y Hk Ek E0). Qed.
Lemma same_abscissa t t' x y y' : 0 < t < n -> 0 < t' < n -> Point x y = kG t -> kG t' = Point x y' -> t' = t \/ t' = n - t.
Proof.
  intros Ht Ht' E E'. pose proof (kG_on t) as O. rewrite <- E in O. pose proof (kG_on t') as O'. rewrite E' in O'.
  pose proof O as (_ & By & Hc). pose proof O' as (_ & By' & Hc').
  pose proof (curve_y_nz _ _ By Hc). pose proof (curve_y_nz _ _ By' Hc').
  destruct (same_square y y') as [->| ->]; [lia..| | |].
  - unfold modp_eq in *. replace (y * y - y' * y') with (y * y - (x * x * x + 7) - (y' * y' - (x * x * x + 7))) by ring.
    apply Z.divide_sub_r; assumption.
  - left. apply kG_inj; [lia|lia|congruence].
  - right. apply kG_inj; [lia|lia|]. rewrite kG_neg, <- E by lia. rewrite (neg_coords _ _ O). exact E'.
Qed.
(** The abscissa n occurs on the curve. *)
Lemma n_abscissa : on_curve (Point n 69186903114498750860896505739646488798970448350379198433587849548453839594014).
Proof.
  split; [split; [discriminate|reflexivity]|]. split; [split; [discriminate|reflexivity]|].
  unfold modp_eq. apply Z.mod_divide; [discriminate|vm_compute; reflexivity].
Qed.

(** C99 *)
Lemma c99_low_recovery_ids_are_valid : forall (fuel : nat) (k : Z) (msg sig : bytes) (recid : N) (Q : point),
  (0 < k < secp_n)%Z -> ecdsa_sign fuel k msg = Some (Ok (sig, recid)) -> (recid < 2)%N -> is_public_point k Q ->
  exists r s rb sb, sig = (rb ++ sb)%list /\ is_ser256 r rb /\ is_ser256 s sb /\ (0 < r < secp_n)%Z
    /\ ecdsa_valid Q (digest_val msg) r s /\ ecdsa_recovers recid (digest_val msg) r s Q.
Proof.
  intros fuel k msg sig recid Q Hk H L HQ.
  destruct (c64_signatures_are_valid _ _ _ _ _ Hk H) as (r & s & rb & sb & E & Rr & Rs & _ & Br & _ & V).
  destruct (sign_nonce _ _ _ _ _ H) as (r' & s' & rb' & sb' & t & x & y & E' & Rr' & _ & _ & _ & _ & Nn).
  rewrite E in E'. apply split_signature in E'; [|apply Rr|apply Rr']. destruct E' as [<- _].
  pose proof (ser256_inj _ _ _ Rr' Rr) as ->.
  assert (Hr : r <> 0).
  { intros H0. pose proof (nonce_r_zero _ _ _ _ _ _ _ _ Nn H0) as ->. destruct Nn as (_ & _ & _ & T & _).
    rewrite Z.leb_refl in T. destruct recid as [|[b|b|]]; try discriminate T; lia. }
  exists r, s, rb, sb. split; [exact E|]. split; [exact Rr|]. split; [exact Rs|]. split; [lia|]. exact (V Hr Q HQ).
Qed.
(** Every signature is valid, except one made with a nonce whose point has the abscissa n, to the unit. *)
Lemma c99_valid_or_abscissa_n : forall (fuel : nat) (k : Z) (msg sig : bytes) (recid : N) (Q : point),
  (0 < k < secp_n)%Z -> ecdsa_sign fuel k msg = Some (Ok (sig, recid)) -> is_public_point k Q ->
  exists r s rb sb, sig = (rb ++ sb)%list /\ is_ser256 r rb /\ is_ser256 s sb
    /\ (ecdsa_valid Q (digest_val msg) r s /\ ecdsa_recovers recid (digest_val msg) r s Q
        \/ r = 0%Z /\ (recid = 2 \/ recid = 3)%N /\ exists t y, (0 < t < secp_n)%Z /\ is_public_point t (Point secp_n y) /\ (secp_n | t * s - digest_val msg)).
Proof.
  intros fuel k msg sig recid Q Hk H HQ.
  destruct (c64_signatures_are_valid _ _ _ _ _ Hk H) as (r & s & rb & sb & E & Rr & Rs & _ & Br & _ & V).
  destruct (sign_nonce _ _ _ _ _ H) as (r' & s' & rb' & sb' & t & x & y & E' & Rr' & Rs' & B & _ & _ & Nn).
  rewrite E in E'. apply split_signature in E'; [|apply Rr|apply Rr']. destruct E' as [<- <-].
  pose proof (ser256_inj _ _ _ Rr' Rr) as ->. pose proof (ser256_inj _ _ _ Rs' Rs) as ->.
  exists r, s, rb, sb. split; [exact E|]. split; [exact Rr|]. split; [exact Rs|].
  destruct (Z.eq_dec r 0) as [H0|H0]; [right|left; exact (V H0 Q HQ)].
  pose proof (nonce_r_zero _ _ _ _ _ _ _ _ Nn H0) as ->. destruct Nn as (Ht & Et & _ & T & _ & D). split; [exact H0|].
  split; [|exists t, y; split; [exact Ht|split; [apply is_public_point_iff; split; [lia|symmetry; exact Et]|rewrite H0 in D; exact D]]].
  rewrite Z.leb_refl in T. destruct recid as [|[[b|b|]|[b|b|]|]]; try discriminate T; try lia; auto.
Qed.
(** There are exactly two such nonces, t and n - t, and with them the signing step does return r = 0 for every key
    and every digest other than 0. *)
Lemma c99_two_bad_nonces : exists t0 : Z, (0 < t0 < secp_n)%Z /\ forall k z t : Z, (0 < k < secp_n)%Z -> (0 <= z < secp_n)%Z -> (0 < t < secp_n)%Z ->
  ((exists s recid, sign_raw k z t = Some (0%Z, s, recid)) <-> (t = t0 \/ t = (secp_n - t0)%Z) /\ z <> 0%Z).
Proof.
  destruct (every_point _ n_abscissa) as (t0 & B0 & E0).
  assert (B : 0 < t0 < n). { destruct (Z.eq_dec t0 0) as [->|]; [rewrite kG_0 in E0; discriminate E0|lia]. }
  exists t0. split; [exact B|]. intros k z t Hk Hz Ht.
  assert (S : forall x y, kG t = Point x y -> x mod n = 0 -> exists c1 c2 : N, sign_raw k z t = if (ninv t * z) mod n =? 0 then None else
     if n / 2 <? (ninv t * z) mod n then Some (0, n - (ninv t * z) mod n, c1) else Some (0, (ninv t * z) mod n, c2)).
  { intros x y E M. unfold sign_raw. rewrite ecmult_gen_ok, E. cbv beta iota zeta. rewrite M. rewrite Z.mul_0_l, Z.mod_0_l by exact n_nz. eauto. }
  assert (Z0 : (ninv t * z) mod n = 0 <-> z = 0).
  { split; [|intros ->; rewrite Z.mul_0_r; apply Z.mod_0_l, n_nz]. intros M. apply Z.mod_divide in M; [|exact n_nz].
    apply prime_mult in M; [|exact n_prime]. destruct M as [M|M].
    - exfalso. pose proof (ninv_ok t (small_not_divide t Ht)) as I. assert (D : (n | 1)).
      { replace 1 with (ninv t * t - (ninv t * t - 1)) by ring. apply Z.divide_sub_r; [apply Z.divide_mul_l, M|exact I]. }
      apply Z.divide_pos_le in D; [|reflexivity]. apply Z.le_ngt in D. apply D. reflexivity.
    - destruct (Z.eq_dec z 0) as [->|Nz]; [reflexivity|exfalso]. apply (small_not_divide z); [lia|exact M]. }
  destruct (kG_finite t Ht) as (x & y & E). pose proof (kG_on t) as O. rewrite E in O. split.
  - intros (s & recid & H). assert (M : x mod n = 0).
    { unfold sign_raw in H. rewrite ecmult_gen_ok, E in H. cbv beta iota zeta in H.
      destruct (_ =? 0) in H; [discriminate H|]. destruct (_ <? _) in H; apply some_triple in H; apply H. }
    destruct (S x y E M) as (c1 & c2 & S'). rewrite S' in H. split.
    + pose proof (abscissa_zero t x y Ht E M) as ->. exact (same_abscissa _ _ _ _ _ B Ht E0 E).
    + intros ->. rewrite (proj2 Z0 eq_refl) in H. discriminate H.
  - intros [Et Nz]. assert (Ex : x = n).
    { destruct Et as [->| ->]; [congruence|]. rewrite kG_neg in E by lia. rewrite <- E0 in E.
      rewrite (neg_coords _ _ n_abscissa) in E. congruence. }
    subst x. destruct (S n y E (Z.mod_same n n_nz)) as (c1 & c2 & S'). rewrite S'. destruct (Z.eqb_spec ((ninv t * z) mod n) 0) as [M|M]; [destruct (Nz (proj1 Z0 M))|].
    destruct (_ <? _); eauto.
Qed.
(** The nonce 1 gives the abscissa of the generator, an even ordinate and the recovery id 0. The abscissa n does occur on the curve. *)
Example c99_example : sign_raw 1 5 1 = Some (gx, (gx + 5)%Z, 0%N) /\ ecdsa_valid G 5 gx (gx + 5)
  /\ on_curve (Point secp_n 69186903114498750860896505739646488798970448350379198433587849548453839594014).
Proof.
  split; [apply c64_example|]. split; [apply c64_example|].
  exact n_abscissa.
Qed.

(** ** Equal r and recovery id: equal nonces *)
Lemma same_nonce d z s k x y d' z' s' k' x' y' r recid : nonce_of d z r s recid k x y -> nonce_of d' z' r s' recid k' x' y' -> k = k'.
Proof.
  intros (Hk & Ek & Er & T1 & T0 & _) (Hk' & Ek' & Er' & T1' & T0' & _). rewrite T1 in T1'. rewrite T0 in T0'. rewrite Er in Er'.
  pose proof (kG_on k) as O. rewrite Ek in O. pose proof (kG_on k') as O'. rewrite Ek' in O'.
  assert (x = x').
  { pose proof p_lt_2n as L. destruct O as (Bx & _), O' as (Bx' & _).
    destruct (n <=? x) eqn:E; symmetry in T1'.
    - apply Z.leb_le in E, T1'. assert (F : forall v, n <= v -> v < p -> v mod n = v - n).
      { intros v A B. symmetry. apply (Z.mod_unique v n 1 (v - n)); lia. }
      rewrite !F in Er' by lia. lia.
    - apply Z.leb_gt in E, T1'. rewrite !Z.mod_small in Er' by lia. exact Er'. }
  subst x'. pose proof (curve_point_unique x y y' O O' T0') as <-. apply kG_inj; [lia|lia|congruence].
Qed.
(** C100 *)
Lemma c100_repeated_nonce_reveals_key : forall (k z z' t t' r s s' : Z) (recid : N),
  (0 < k < secp_n)%Z -> (0 < t < secp_n)%Z -> (0 < t' < secp_n)%Z -> (0 <= z < secp_n)%Z -> (0 <= z' < secp_n)%Z -> z <> z' ->
  sign_raw k z t = Some (r, s, recid) -> sign_raw k z' t' = Some (r, s', recid) -> r <> 0%Z ->
  (exists w, (secp_n | w * (r * (s' - s)) - 1)%Z)
  /\ forall w, (secp_n | w * (r * (s' - s)) - 1)%Z -> k = ((w * (s * z' - s' * z)) mod secp_n)%Z.
Proof.
  intros k z z' t0 t0' r s s' recid Hk Ht Ht' Bz Bz' Nz H H' Hr.
  destruct (sign_raw_nonce _ _ _ _ _ _ Ht H) as (_ & Bs & t & x & y & Nn).
  destruct (sign_raw_nonce _ _ _ _ _ _ Ht' H') as (_ & Bs' & t' & x' & y' & Nn'). clear H H'.
  pose proof (same_nonce _ _ _ _ _ _ _ _ _ _ _ _ _ _ Nn Nn') as <-.
  destruct Nn as (_ & _ & Er & _ & _ & D), Nn' as (_ & _ & _ & _ & _ & D').
  pose proof (Z.mod_pos_bound x n n_pos) as Br. rewrite <- Er in Br.
  assert (Hz : z mod n <> z' mod n) by (rewrite !Z.mod_small by lia; exact Nz).
  assert (C : (n | k * (r * (s' - s)) - (s * z' - s' * z))).
  { replace (k * (r * (s' - s)) - (s * z' - s' * z)) with (s * (t * s' - (r * k + z')) - s' * (t * s - (r * k + z))) by ring.
    apply Z.divide_sub_r; apply Z.divide_mul_r; assumption. }
  assert (I : ~ (n | r * (s' - s))).
  { intros I. apply prime_mult in I; [|exact n_prime]. destruct I as [I|I].
    - apply Z.divide_pos_le in I; lia.
    - apply Hz. apply mod_eq_divide; [exact n_nz|].
      replace (z - z') with (t * s' - (r * k + z') - (t * s - (r * k + z)) - t * (s' - s)) by ring.
      apply Z.divide_sub_r; [apply Z.divide_sub_r; assumption|apply Z.divide_mul_r, I]. }
  split; [destruct (inverse_exists _ I) as (w & _ & Dw); exists w; exact Dw|].
  intros w Dw. rewrite <- (Z.mod_small k n) at 1 by lia. apply mod_eq_divide; [exact n_nz|].
  replace (k - w * (s * z' - s' * z)) with (w * (k * (r * (s' - s)) - (s * z' - s' * z)) - k * (w * (r * (s' - s)) - 1)) by ring.
  apply Z.divide_sub_r; apply Z.divide_mul_r; assumption.
Qed.
(** The secret 1 and the nonce 1 for the digests 5 and 7. *)
Example c100_example : sign_raw 1 5 1 = Some (gx, (gx + 5)%Z, 0%N) /\ sign_raw 1 7 1 = Some (gx, (gx + 7)%Z, 0%N)
  /\ forall w, (secp_n | w * (gx * ((gx + 7) - (gx + 5))) - 1)%Z -> ((w * ((gx + 5) * 7 - (gx + 7) * 5)) mod secp_n = 1)%Z.
Proof.
  split; [apply c64_example|]. split.
  - assert (I : ninv 1 = 1%Z). { with_strategy transparent [ninv] unfold ninv. rewrite npow_ok, Z.pow_1_l by (vm_compute; discriminate). reflexivity. }
    unfold sign_raw. rewrite ecmult_gen_ok, kG_1, I. vm_compute. reflexivity.
  - intros w D. change 1 with (1 mod n) at 1. apply mod_eq_divide; [exact n_nz|].
    replace (w * ((gx + 5) * 7 - (gx + 7) * 5) - 1) with (w * (gx * (gx + 7 - (gx + 5))) - 1) by ring. exact D.
Qed.

(** C101 *)
Lemma c101_signature_determines_digest : forall (f f' : nat) (k : Z) (msg msg' sig : bytes) (recid : N),
  ecdsa_sign f k msg = Some (Ok (sig, recid)) -> ecdsa_sign f' k msg' = Some (Ok (sig, recid)) ->
  (digest_val msg mod secp_n = digest_val msg' mod secp_n)%Z.
Proof.
  intros f f' k msg msg' sig recid H H'.
  destruct (sign_nonce _ _ _ _ _ H) as (r1 & s1 & rb1 & sb1 & t & x & y & E1 & Rr1 & Rs1 & _ & _ & _ & Nn).
  destruct (sign_nonce _ _ _ _ _ H') as (r2 & s2 & rb2 & sb2 & t' & x' & y' & E2 & Rr2 & Rs2 & _ & _ & _ & Nn'). clear H H'.
  rewrite E1 in E2. apply split_signature in E2; [|apply Rr1|apply Rr2]. destruct E2 as [<- <-].
  pose proof (ser256_inj _ _ _ Rr2 Rr1) as ->. pose proof (ser256_inj _ _ _ Rs2 Rs1) as ->.
  pose proof (same_nonce _ _ _ _ _ _ _ _ _ _ _ _ _ _ Nn Nn') as <-.
  destruct Nn as (_ & _ & _ & _ & _ & D), Nn' as (_ & _ & _ & _ & _ & D'). apply mod_eq_divide; [exact n_nz|].
  replace (digest_val msg - digest_val msg') with (t * s1 - (r1 * k + digest_val msg') - (t * s1 - (r1 * k + digest_val msg))) by ring.
  apply Z.divide_sub_r; assumption.
Qed.
(** Two digests that are the same modulo n: 1 and n + 1. *)
Example c101_example : digest_val (be_bytes 32 1) = 1%Z /\ digest_val (be_bytes 32 (Z.to_N secp_n + 1)) = (secp_n + 1)%Z
  /\ ((secp_n + 1) mod secp_n = 1)%Z.
Proof.
  split; [|split]; vm_compute; reflexivity.
Qed.
