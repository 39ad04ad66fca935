(** Proofs of properties of public keys and of all signatures (restated in PropPublic.v). *)
From Coq Require Import String Znumtheory ZifyBool ZifyNat ZifyN.
From Verif Require Import Outcome Bytes Str Hash HashLemmas Secp SpecSecp SecpField SecpGroup SecpProofs SecpSign SecpCount.
From Verif Require Import ModelBip32 SpecBip32 SpecWallet ModelOrder.
From Verif Require Import Fermat Primes SecpOrder Base58Proofs ExtProofs KeyTextThms DeriveThms MiscThms More32Thms SignThms.
Open Scope N_scope.

(** C102 *)
Lemma c102_every_public_key_has_one_secret : forall y : xpub, valid_xpub y ->
  exists x : xprv, valid_xprv x /\ xprv_public_key x = y
    /\ (forall x', valid_xprv x' -> xprv_public_key x' = y -> x' = x)
    /\ (forall p : list N, Forall (fun c => c < 2 ^ 31) p ->
          xpub_derive_from_path y p = res_map xprv_public_key (xprv_derive_from_path x p)).
Proof.
  intros [P a] (F & O & Va). cbn [public_key xpub_attrs] in *. destruct (every_point P O) as (k & Hk & ->).
  assert (Hk' : (0 < k < secp_n)%Z).
  { destruct (Z.eq_dec k 0) as [->|]; [exfalso; apply F, kG_0|lia]. }
  assert (V : valid_xprv (mkXPrv k a)) by (split; [exact Hk'|exact Va]).
  assert (E : xprv_public_key (mkXPrv k a) = mkXPub (kG k) a).
  { unfold xprv_public_key. cbn [private_key xprv_attrs]. rewrite private_public by lia. reflexivity. }
  exists (mkXPrv k a). split; [exact V|]. split; [exact E|]. split.
  - intros x' V' E'. rewrite <- E in E'. apply (c79_public_key_identifies x' (mkXPrv k a) V' V), E'.
  - intros p Hp. rewrite <- E. apply c53_watch_only; assumption.
Qed.
(** In particular for everything XPub::from_str accepts. *)
Lemma c102_accepted_texts : forall (s : str) (y : xpub), xpub_from_str s = Ok y ->
  exists x : xprv, valid_xprv x /\ xprv_public_key x = y /\ (forall x', valid_xprv x' -> xprv_public_key x' = y -> x' = x).
Proof.
  intros s y H. pose proof (xpub_from_str_valid _ _ H) as V. destruct (c102_every_public_key_has_one_secret y V) as (x & A & B & C & _).
  exists x. auto.
Qed.
Example c102_example : xpub_from_str ex_pub_text = Ok ex_xpub /\ valid_xpub ex_xpub /\ xprv_public_key ex1_xprv = mkXPub G ex_attrs.
Proof.
  split; [apply c44_example|]. split; [apply ex_xpub_valid|]. unfold xprv_public_key. cbn [ex1_xprv private_key xprv_attrs].
  rewrite ex1_public. reflexivity.
Qed.

(** C103 *)
Lemma attrs_eqb_iff a b : attrs_eqb a b = true <-> a = b.
Proof.
  unfold attrs_eqb. rewrite !andb_true_iff, !N.eqb_eq, !bytes_eqb_spec. destruct a as [a1 a2 a3 a4], b as [b1 b2 b3 b4].
  cbn [depth parent_fingerprint child_number chain_code]. split; [intros [[[-> ->] ->] ->]; reflexivity|]. intros H.
  injection H as -> -> -> ->. auto.
Qed.
Lemma point_eqb_iff P Q : point_eqb P Q = true <-> P = Q.
Proof.
  destruct P as [|x y], Q as [|x' y']; cbn [point_eqb]; try (split; intros H; [discriminate H|discriminate H]).
  - split; reflexivity.
  - rewrite andb_true_iff, !Z.eqb_eq. split; [intros [-> ->]; reflexivity|]. intros H. injection H as -> ->. auto.
Qed.
Lemma xpub_eqb_iff y z : xpub_eqb y z = true <-> y = z.
Proof.
  unfold xpub_eqb. rewrite andb_true_iff, point_eqb_iff, attrs_eqb_iff. destruct y as [P a], z as [Q b]. cbn [public_key xpub_attrs].
  split; [intros [-> ->]; reflexivity|]. intros H. injection H as -> ->. auto.
Qed.
Lemma c103_equal_public_keys : forall (y z : xpub) (p : prefix), valid_xpub y -> valid_xpub z -> valid_prefix p ->
  (xpub_eqb y z = true <-> xpub_to_string y p = xpub_to_string z p).
Proof.
  intros y z p Vy Vz Hp. rewrite xpub_eqb_iff. split; [intros ->; reflexivity|]. intros E.
  destruct (xpub_to_string y p) as [s|e|] eqn:Ey.
  - symmetry in E. eapply xpub_text_inj; eassumption.
  - exfalso. destruct (c35_text_fits (xpub_to_extended_key y p) (xpub_ext_valid _ _ Vy Hp)) as (s & Es & _). unfold xpub_to_string, ek_to_string in Ey. rewrite Es in Ey. discriminate Ey.
  - exfalso. destruct (c35_text_fits (xpub_to_extended_key y p) (xpub_ext_valid _ _ Vy Hp)) as (s & Es & _). unfold xpub_to_string, ek_to_string in Ey. rewrite Es in Ey. discriminate Ey.
Qed.
(** Comparing the public keys is the way to compare private keys (whose own == ignores the secret: C62). *)
Lemma c103_compare_private_keys : forall x x' : xprv, valid_xprv x -> valid_xprv x' ->
  (xpub_eqb (xprv_public_key x) (xprv_public_key x') = true <-> x = x').
Proof.
  intros x x' V V'. rewrite xpub_eqb_iff. apply c79_public_key_identifies; assumption.
Qed.
(** The two points with the abscissa of the generator; two private keys that differ in the secret only. *)
Example c103_example : xpub_eqb (mkXPub G ex_attrs) (mkXPub (Point gx (secp_p - gy)) ex_attrs) = false
  /\ valid_xpub (mkXPub (Point gx (secp_p - gy)) ex_attrs)
  /\ xprv_eq (mkXPrv 1 ex_attrs) (mkXPrv 2 ex_attrs) = true
  /\ xpub_eqb (xprv_public_key (mkXPrv 1 ex_attrs)) (xprv_public_key (mkXPrv 2 ex_attrs)) = false.
Proof.
  split; [vm_compute; reflexivity|]. split.
  - split; cbn [public_key xpub_attrs]; [discriminate|]. split; [|apply ex1_valid].
    pose proof (ec_neg_on G G_on) as O. unfold G in O at 1. rewrite (neg_coords _ _ G_on) in O. exact O.
  - split; [apply xprv_eq_iff; reflexivity|].
    assert (V : forall k, (0 < k < secp_n)%Z -> valid_xprv (mkXPrv k ex_attrs)) by (intros k Hk; split; [exact Hk|apply ex1_valid]).
    destruct (xpub_eqb _ _) eqn:E; [exfalso|reflexivity].
    apply c103_compare_private_keys in E; [|apply V; split; reflexivity..].
    apply (f_equal private_key) in E. cbn [private_key] in E. discriminate E.
Qed.

(** C104 *)
Lemma sign_raw_low d z t x y s : (0 < t < n)%Z -> kG t = Point x y -> (0 < s <= n / 2)%Z -> (n | t * s - (x mod n * d + z))%Z ->
  exists recid, sign_raw d z t = Some ((x mod n)%Z, s, recid).
Proof.
  intros Ht E Bs D. unfold sign_raw. rewrite ecmult_gen_ok, E. cbv beta iota zeta.
  assert (S : ((ninv t * ((x mod n * d) mod n + z)) mod n = s)%Z).
  { rewrite <- (Z.mod_small s n) by (pose proof half_n_lt; lia). apply mod_eq_divide; [exact n_nz|].
    pose proof (ninv_ok t (small_not_divide t Ht)) as I. rewrite (Z.mod_eq (x mod n * d) n n_nz). set (q := (x mod n * d / n)%Z).
    replace (ninv t * (x mod n * d - n * q + z) - s)%Z
      with ((ninv t * t - 1) * s - ninv t * (t * s - (x mod n * d + z)) - n * (ninv t * q))%Z by ring.
    apply Z.divide_sub_r; [apply Z.divide_sub_r; [apply Z.divide_mul_l, I|apply Z.divide_mul_r, D]|apply Z.divide_factor_l]. }
  rewrite S. destruct (Z.eqb_spec s 0) as [H0|_]; [lia|]. destruct (Z.ltb_spec (n / 2) s) as [H0|_]; [lia|]. eauto.
Qed.
Lemma c104_all_valid_signatures : forall (Q : point) (z r s : Z), Q <> Infinity -> on_curve Q -> (0 <= z < secp_n)%Z -> (0 < s <= secp_n / 2)%Z ->
  (ecdsa_valid Q z r s <->
   r <> 0%Z /\ exists k t recid, (0 < k < secp_n)%Z /\ is_public_point k Q /\ (0 < t < secp_n)%Z /\ sign_raw k z t = Some (r, s, recid)).
Proof.
  intros Q z r s F O Hz Hs. destruct (every_point Q O) as (k & Bk & ->).
  assert (Hk : (0 < k < n)%Z) by (destruct (Z.eq_dec k 0) as [->|]; [exfalso; apply F, kG_0|lia]).
  split.
  - intros V. apply valid_kG in V; [|lia]. destruct V as (Br & _ & w & x & y & D & E & <-). split; [lia|].
    set (e := ((w * z) mod secp_n + (w * (x mod secp_n)) mod secp_n * k)%Z) in *.
    assert (He : (0 <= e)%Z).
    { apply Z.add_nonneg_nonneg; [apply Z.mod_pos_bound, n_pos|]. apply Z.mul_nonneg_nonneg; [apply Z.mod_pos_bound, n_pos|lia]. }
    pose proof (Z.mod_pos_bound e n n_pos) as Be. rewrite <- kG_mod in E by exact He.
    assert (Ht : (0 < e mod n < n)%Z).
    { destruct (Z.eq_dec (e mod n) 0) as [Ez|]; [rewrite Ez, kG_0 in E; discriminate E|lia]. }
    destruct (sign_raw_low k z (e mod n) x y s Ht E Hs) as (recid & S).
    { rewrite (Z.mod_eq e n n_nz). unfold e. rewrite (Z.mod_eq (w * z) n n_nz), (Z.mod_eq (w * (x mod n)) n n_nz).
      set (q1 := (w * z / n)%Z). set (q2 := (w * (x mod n) / n)%Z). set (q3 := (_ / n)%Z). set (r := (x mod n)%Z) in *.
      replace ((w * z - n * q1 + (w * r - n * q2) * k - n * q3) * s - (r * k + z))%Z
        with ((w * s - 1) * (r * k + z) - n * ((q1 + q2 * k + q3) * s))%Z by ring.
      apply Z.divide_sub_r; [apply Z.divide_mul_l, D|apply Z.divide_factor_l]. }
    exists k, (e mod n)%Z, recid. split; [exact Hk|]. split; [apply is_public_point_iff; split; [lia|reflexivity]|]. split; [exact Ht|exact S].
  - intros (Hr & k' & t & recid & Hk' & P & Ht & S). apply is_public_point_iff in P. destruct P as [_ P].
    apply kG_inj in P; [|lia|lia]. subst k'. apply sign_raw_ok in S; [|exact Hk|lia|exact Ht].
    destruct S as (_ & _ & _ & S). apply (S Hr).
Qed.
Example c104_example : ecdsa_valid G 5 gx (gx + 5) /\ sign_raw 1 5 1 = Some (gx, (gx + 5)%Z, 0) /\ (0 < gx + 5 <= secp_n / 2)%Z.
Proof.
  split; [apply c64_example|]. split; [apply c64_example|]. vm_compute. split; [reflexivity|discriminate].
Qed.
