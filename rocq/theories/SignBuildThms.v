(** Proofs about signing with debug assertions (restated in PropSignBuilds.v). *)
From Coq Require Import String Znumtheory ZifyBool ZifyNat ZifyN.
From Verif Require Import Outcome Bytes Str Hash HashLemmas Secp SpecSecp SecpField SecpGroup SecpProofs SecpSign SecpCount.
From Verif Require Import ModelBip32 SpecBip32 SpecWallet.
From Verif Require Import Fermat Primes SecpOrder Base58Proofs ExtProofs DeriveThms MiscThms More32Thms SignThms ModelSignBuilds.
Open Scope Z_scope.

(** ** C139 *)
(** The assertions fail exactly if the abscissa of the nonce point is at least n; otherwise the step is that of
    the release build. *)
Lemma c139_step : forall k z t : Z, 0 < t < secp_n ->
  (sign_raw_debug k z t = Panic <-> exists x y, is_public_point t (Point x y) /\ secp_n <= x)
  /\ (sign_raw_debug k z t <> Panic -> sign_raw_debug k z t = ok_or (sign_raw k z t) tt).
Proof.
  intros k z t Ht. unfold sign_raw_debug. rewrite ecmult_gen_ok. destruct (kG_finite t Ht) as (x & y & E). rewrite E. cbv zeta.
  assert (Q : forall x' y', is_public_point t (Point x' y') -> x' = x).
  { intros x' y' H. apply is_public_point_iff in H. destruct H as [_ H]. rewrite E in H. injection H as H _. exact H. }
  assert (PP : is_public_point t (Point x y)) by (apply is_public_point_iff; split; [lia|symmetry; exact E]).
  generalize (sign_raw k z t). intros o. destruct (Z.eqb_spec (x mod n) 0) as [E0|E0].
  - split; [|intros H; destruct (H eq_refl)]. split; [|reflexivity]. intros _. exists x, y. split; [exact PP|].
    rewrite (abscissa_zero t x y Ht E E0). apply Z.le_refl.
  - destruct (Z.leb_spec n x) as [L|L].
    + split; [|intros H; destruct (H eq_refl)]. split; [|reflexivity]. intros _. exists x, y. split; [exact PP|exact L].
    + split; [|reflexivity]. split; [intros H; destruct o; discriminate H|]. intros (x' & y' & H & L'). apply Q in H. subst x'. lia.
Qed.
Lemma sign_raw_low k z t r s recid : 0 < t < n -> sign_raw k z t = Some (r, s, recid) ->
  ((recid < 2)%N <-> forall x y, kG t = Point x y -> x < n).
Proof.
  intros Ht H. destruct (kG_finite t Ht) as (x & y & E). unfold sign_raw in H. rewrite ecmult_gen_ok, E in H. cbv zeta beta iota in H.
  destruct (recid_bits (n <=? x) (Z.odd y)) as [T1 T0]. destruct (recid_lt (n <=? x) (Z.odd y)) as [L1 L2].
  set (rc := N.lor _ _) in *. clearbody rc. destruct (recid_flip rc) as [F1 F0].
  assert (B : forall c : N, (c < 4)%N -> ((c < 2)%N <-> N.testbit c 1 = false)).
  { intros c Hc. assert (C : (c = 0 \/ c = 1 \/ c = 2 \/ c = 3)%N) by lia. destruct C as [->|[->|[->| ->]]]; cbn; split; intros X; try reflexivity; try discriminate X; lia. }
  assert (X : N.testbit recid 1 = (n <=? x) /\ (recid < 4)%N).
  { destruct (_ =? 0); [discriminate H|]. destruct (n / 2 <? _).
    - apply some_triple in H. destruct H as (_ & _ & <-). split; [rewrite F1; exact T1|exact L2].
    - apply some_triple in H. destruct H as (_ & _ & <-). split; [exact T1|exact L1]. }
  destruct X as [X1 X2]. rewrite (B recid X2), X1. split.
  - intros L x' y' E'. rewrite E in E'. injection E' as <- _. apply Z.leb_gt, L.
  - intros L. apply Z.leb_gt, (L x y E).
Qed.
Lemma loop_debug fuel k z : forall kv,
  match sign_loop_debug fuel k z kv with
  | None => sign_loop fuel k z kv = None
  | Some (Ok (r, s, recid)) => sign_loop fuel k z kv = Some (r, s, recid) /\ (recid < 2)%N
  | Some (Err _) => False
  | Some Panic => True
  end.
Proof.
  induction fuel as [|f IH]; intros kv; cbn [sign_loop_debug sign_loop]; [reflexivity|].
  destruct (drbg_generate kv) as [gen kv']. cbv zeta. set (t := Z.of_N (be_val gen)) in *.
  destruct ((t <? n) && negb (t =? 0))%bool eqn:E; [|apply IH].
  apply andb_prop in E. destruct E as [E1 E2]. apply Z.ltb_lt in E1. apply Bool.negb_true_iff, Z.eqb_neq in E2.
  assert (Ht : 0 < t < n) by (unfold t in *; lia). clearbody t. destruct (c139_step k z t Ht) as [S1 S2].
  destruct (sign_raw_debug k z t) as [sig|e|] eqn:ED; [| |exact I].
  - assert (S3 : sign_raw k z t = Some sig). { specialize (S2 ltac:(discriminate)). destruct (sign_raw k z t); [injection S2 as ->; reflexivity|discriminate S2]. }
    rewrite S3. destruct sig as [[r s] recid]. split; [reflexivity|]. apply (sign_raw_low k z t r s recid Ht S3). intros x y Exy.
    destruct (Z.lt_ge_cases x n) as [L|L]; [exact L|exfalso]. assert (Y : Ok (r, s, recid) = Panic :> res unit (Z * Z * N)); [|discriminate Y].
    apply S1. exists x, y. split; [apply is_public_point_iff; split; [lia|symmetry; exact Exy]|exact L].
  - assert (S3 : sign_raw k z t = None). { specialize (S2 ltac:(discriminate)). destruct (sign_raw k z t); [discriminate S2|reflexivity]. }
    rewrite S3. apply IH.
Qed.
(** What a debug build returns is what a release build returns, and it is never one of the invalid
    signatures (C99). *)
Lemma c139_debug_result : forall (fuel : nat) (k : Z) (msg : bytes) (r : res sign_error (bytes * N)),
  ecdsa_sign_debug fuel k msg = Some r -> r <> Panic ->
  ecdsa_sign fuel k msg = Some r /\ forall sig recid, r = Ok (sig, recid) -> (recid < 2)%N.
Proof.
  intros fuel k msg r H N. unfold ecdsa_sign_debug in H. unfold ecdsa_sign, sign. destruct (message_parse_slice msg) as [z|].
  - pose proof (loop_debug fuel k z (drbg_new (be_bytes 32 (Z.to_N k)) (be_bytes 32 (Z.to_N z)))) as L. revert L H.
    generalize (drbg_new (be_bytes 32 (Z.to_N k)) (be_bytes 32 (Z.to_N z))). intros kv L H.
    destruct (sign_loop_debug fuel k z kv) as [[[[a b] c]|e|]|]; [|destruct L| |discriminate H].
    + destruct L as [-> L]. cbn [bind] in H. split; [exact H|]. intros sig recid E. rewrite E in H.
      apply (f_equal (fun o => match o with Some (Ok (_, i)) => i | _ => recid end)) in H. rewrite <- H. exact L.
    + cbn [bind] in H. injection H as <-. destruct (N eq_refl).
  - split; [exact H|]. intros sig recid E. rewrite E in H. discriminate H.
Qed.
Lemma c139_debug_valid : forall (fuel : nat) (k : Z) (msg sig : bytes) (recid : N) (Q : point),
  0 < k < secp_n -> ecdsa_sign_debug fuel k msg = Some (Ok (sig, recid)) -> is_public_point k Q ->
  exists r s rb sb, sig = (rb ++ sb)%list /\ is_ser256 r rb /\ is_ser256 s sb /\ 0 < r < secp_n
    /\ ecdsa_valid Q (digest_val msg) r s /\ ecdsa_recovers recid (digest_val msg) r s Q.
Proof.
  intros fuel k msg sig recid Q Hk H HQ. apply c139_debug_result in H; [|discriminate]. destruct H as [H L].
  exact (c99_low_recovery_ids_are_valid fuel k msg sig recid Q Hk H (L sig recid eq_refl) HQ).
Qed.
(** If the release build returns something, the debug build returns the same or panics; for a recovery id of 2
    or 3 it panics. *)
Lemma c139_builds_agree_partial : forall (fuel : nat) (k : Z) (msg : bytes) (r : res sign_error (bytes * N)),
  ecdsa_sign fuel k msg = Some r ->
  (ecdsa_sign_debug fuel k msg = Some r \/ ecdsa_sign_debug fuel k msg = Some Panic)
  /\ (forall sig recid, r = Ok (sig, recid) -> (2 <= recid)%N -> ecdsa_sign_debug fuel k msg = Some Panic).
Proof.
  intros fuel k msg r H.
  assert (A : ecdsa_sign_debug fuel k msg = Some r \/ ecdsa_sign_debug fuel k msg = Some Panic).
  { unfold ecdsa_sign_debug. unfold ecdsa_sign, sign in H. destruct (message_parse_slice msg) as [z|]; [|left; exact H].
    pose proof (loop_debug fuel k z (drbg_new (be_bytes 32 (Z.to_N k)) (be_bytes 32 (Z.to_N z)))) as L. revert L H.
    generalize (drbg_new (be_bytes 32 (Z.to_N k)) (be_bytes 32 (Z.to_N z))). intros kv L H.
    destruct (sign_loop_debug fuel k z kv) as [[[[a b] c]|e|]|]; [|destruct L| |].
    - destruct L as [L _]. rewrite L in H. left. cbn [bind]. exact H.
    - right. reflexivity.
    - rewrite L in H. discriminate H. }
  split; [exact A|]. intros sig recid E L. destruct A as [A|A]; [exfalso|exact A].
  assert (NP : r <> Panic) by (rewrite E; discriminate). pose proof (proj2 (c139_debug_result fuel k msg r A NP) sig recid E). lia.
Qed.
(** C139: false for the signing step; there is a nonce with which it panics for every key and digest in debug
    builds while release builds sign. *)
Lemma c139_builds_agree_refuted : exists t : Z, 0 < t < secp_n /\ forall k z : Z, 0 < k < secp_n -> 0 < z < secp_n ->
  sign_raw_debug k z t = Panic /\ exists r s recid, sign_raw k z t = Some (r, s, recid).
Proof.
  destruct c99_two_bad_nonces as (t0 & H0 & H). exists t0. split; [exact H0|]. intros k z Hk Hz.
  assert (X : exists s recid, sign_raw k z t0 = Some (0, s, recid)) by (apply H; [exact Hk|lia|exact H0|split; [left; reflexivity|lia]]).
  destruct X as (s & recid & X). split; [|exists 0, s, recid; exact X]. apply c139_step; [exact H0|].
  destruct (sign_raw_nonce k z t0 0 s recid H0 X) as (_ & _ & t' & x & y & Nn). pose proof (nonce_r_zero _ _ _ _ _ _ _ _ Nn eq_refl) as Ex. subst x.
  destruct (kG_finite t0 H0) as (x & y0 & E). exists x, y0. split; [apply is_public_point_iff; split; [lia|symmetry; exact E]|].
  assert (E0 : x mod n = 0).
  { unfold sign_raw in X. rewrite ecmult_gen_ok, E in X. cbv zeta beta iota in X. destruct (_ =? 0); [discriminate X|].
    destruct (n / 2 <? _); apply some_triple in X; destruct X as (X & _); exact X. }
  rewrite (abscissa_zero t0 x y0 H0 E E0). apply Z.le_refl.
Qed.
(** The nonce 1 signs in both builds. *)
Example c139_example : sign_raw_debug 1 5 1 = Ok (gx, gx + 5, 0%N) /\ sign_raw 1 5 1 = Some (gx, gx + 5, 0%N).
Proof.
  destruct c100_example as (E & _). split; [|exact E]. assert (H1 : 0 < 1 < n) by (split; reflexivity). destruct (c139_step 1 5 1 H1) as [S1 S2].
  rewrite S2, E; [reflexivity|]. intros H. apply S1 in H. destruct H as (x & y & H & L). apply is_public_point_iff in H. destruct H as [_ H].
  rewrite kG_1 in H. assert (Ex : x = gx) by (unfold G in H; congruence). subst x. apply Z.le_ngt in L. apply L. reflexivity.
Qed.
