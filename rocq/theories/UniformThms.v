(** Proofs that every key is an equally likely child (restated in PropUniform.v). *)
From Coq Require Import String Znumtheory ZifyBool ZifyNat ZifyN.
From Verif Require Import Outcome Bytes Str Hash HashLemmas Secp SpecSecp SecpField SecpGroup SecpProofs SecpSign SecpCount.
From Verif Require Import ModelBip32 SpecBip32 SpecWallet Fermat Primes SecpOrder StrLemmas Base58Proofs ExtProofs KeyTextThms DeriveThms MiscThms More32Thms SignThms PublicThms ChainThms.
Open Scope N_scope.

(** The tweak that leads from k to k'. *)
Definition tweak (k k' : Z) : bytes := secret_serialize ((k' - k) mod secp_n)%Z.
Lemma tweak_range k k' : (0 < k < secp_n)%Z -> (0 < k' < secp_n)%Z -> k' <> k -> (0 < (k' - k) mod secp_n < secp_n)%Z.
Proof.
  intros H H' N. assert (R := Z.mod_pos_bound (k' - k) secp_n ltac:(reflexivity)). split; [|apply R].
  destruct (Z.eq_dec ((k' - k) mod secp_n) 0) as [E|E]; [|lia]. exfalso. apply N.
  apply Z.mod_divide in E; [|discriminate]. destruct E as [q E]. assert (q = 0)%Z by nia. lia.
Qed.
Lemma tweak_parse k k' : (0 < k < secp_n)%Z -> (0 < k' < secp_n)%Z -> k' <> k -> secret_parse (tweak k k') = Some ((k' - k) mod secp_n)%Z.
Proof. intros. apply secret_parse_serialize, tweak_range; assumption. Qed.
Lemma tweak_adds k k' t : (0 < k < secp_n)%Z -> (0 < t < secp_n)%Z -> (0 < k' < secp_n)%Z ->
  secret_tweak_add k t = Some k' <-> k' <> k /\ t = ((k' - k) mod secp_n)%Z.
Proof.
  intros Hk Ht Hk'. rewrite secret_tweak_add_iff. split.
  - intros [E _]. assert (D : (secp_n | (k + t) - k')%Z).
    { rewrite E. exists ((k + t) / secp_n)%Z. rewrite (Z_div_mod_eq_full (k + t) secp_n) at 1. ring. }
    destruct D as [q D]. split.
    + intros ->. assert (q = 0 \/ q <= -1 \/ 1 <= q)%Z as [->|[X|X]] by lia; nia.
    + apply (Z.mod_unique_pos _ _ (- q)); [lia|]. lia.
  - intros [N ->]. split; [|lia]. rewrite Z.add_mod_idemp_r by discriminate. replace (k + (k' - k))%Z with k' by ring.
    symmetry. apply Z.mod_small. lia.
Qed.
Lemma tweak_unique k k' b : (0 < k < secp_n)%Z -> (0 < k' < secp_n)%Z -> has_bytes 32 b ->
  (exists t, secret_parse b = Some t /\ secret_tweak_add k t = Some k') <-> k' <> k /\ b = tweak k k'.
Proof.
  intros Hk Hk' [Lb Bb]. split.
  - intros (t & P & A). pose proof P as P'. apply secret_parse_iff in P. destruct P as [_ Rt].
    apply (tweak_adds k k' t Hk Rt Hk') in A. destruct A as [N ->]. split; [exact N|].
    symmetry. apply secret_serialize_parse; assumption.
  - intros [N ->]. exists ((k' - k) mod secp_n)%Z. split; [apply tweak_parse; assumption|].
    apply tweak_adds; [exact Hk|apply tweak_range; assumption|exact Hk'|]. auto.
Qed.
Lemma halves_split b c : length b = 32%nat -> firstn 32 (b ++ c) = b /\ right_half (b ++ c) = c.
Proof.
  intros L. unfold right_half. rewrite firstn_app, skipn_app, L, Nat.sub_diag, firstn_O, app_nil_r, skipn_O.
  rewrite firstn_all2, skipn_all2 by (rewrite L; apply Nat.le_refl). split; reflexivity.
Qed.
Lemma halves_join I : I = firstn 32 I ++ right_half I.
Proof. symmetry. apply firstn_skipn. Qed.
Lemma half_bytes I : has_bytes 64 I -> has_bytes 32 (firstn 32 I) /\ has_bytes 32 (right_half I).
Proof.
  intros [L B]. rewrite (halves_join I) in B. apply bytes_ok_app in B. destruct B as [B1 B2]. unfold right_half in *.
  split; (split; [|assumption]); [rewrite firstn_length, L|rewrite skipn_length, L]; reflexivity.
Qed.
Lemma tweak_bytes k k' : has_bytes 32 (tweak k k').
Proof. apply has_bytes_be. Qed.

(** C156 *)
(** Every pair of a master key and a chain code comes from exactly one hash value. *)
Lemma c156_master_keys : forall (seed : bytes) (k : Z) (cc : bytes),
  In (length seed) [16; 32; 64; 128]%nat -> (0 < k < secp_n)%Z -> has_bytes 32 cc ->
  exists! I, has_bytes 64 I /\ forall hmac, hmac master_key_text seed = I ->
    xprv_new_with hmac seed = Ok (mkXPrv k (mkAttrs 0 [0; 0; 0; 0] 0 cc)).
Proof.
  intros seed k cc L Hk Hc. apply seed_length_iff in L.
  assert (E : forall hmac, xprv_new_with hmac seed = match secret_parse (firstn 32 (hmac master_key_text seed)) with
    Some t => Ok (mkXPrv t (mkAttrs 0 [0; 0; 0; 0] 0 (right_half (hmac master_key_text seed)))) | None => Err ECrypto end).
  { intros hmac. unfold xprv_new_with. rewrite separator_text, L. cbn [negb]. cbv zeta. unfold private_from_bytes.
    destruct (secret_parse _); reflexivity. }
  exists (secret_serialize k ++ cc). pose proof (proj2 (secret_bytes k Hk)) as Bs. split; [split|].
  - apply (has_bytes_app 32 32); assumption.
  - intros hmac H. rewrite E, H. destruct (halves_split (secret_serialize k) cc (proj1 Bs)) as [-> ->].
    rewrite secret_parse_serialize by exact Hk. reflexivity.
  - intros I [BI HI]. specialize (HI (fun _ _ => I) eq_refl). rewrite E in HI. destruct (half_bytes I BI) as [[L1 B1] B2].
    destruct (secret_parse (firstn 32 I)) as [t|] eqn:P; [|discriminate HI]. apply ok_inj in HI.
    assert (Et : t = k) by exact (f_equal private_key HI).
    assert (Ec : right_half I = cc) by exact (f_equal (fun x => chain_code (xprv_attrs x)) HI). subst t.
    rewrite (secret_serialize_parse _ _ B1 L1 P), <- Ec. symmetry. apply halves_join.
Qed.
(** Every pair of a key other than the parent's and a chain code is the child for exactly one hash value; no
    other pair is a child. *)
Lemma private_child_of hmac x c y data : valid_xprv x -> u32 c -> depth (xprv_attrs x) < 255 -> priv_data (private_key x) c data ->
  has_bytes 64 (hmac (chain_code (xprv_attrs x)) data) ->
  (0 < private_key y < secp_n)%Z ->
  (xprv_derive_child_with hmac x c = Ok y <->
   private_key y <> private_key x /\ hmac (chain_code (xprv_attrs x)) data = tweak (private_key x) (private_key y) ++ chain_code (xprv_attrs y)
   /\ xprv_attrs y = mkAttrs (depth (xprv_attrs x) + 1) (xpub_fingerprint (xprv_public_key x)) c (chain_code (xprv_attrs y))).
Proof.
  intros [Hk _] Hc Hd Hdata HI Hy. apply priv_data_iff in Hdata; [|exact Hk|exact Hc]. subst data. rewrite xprv_step.
  destruct (N.ltb_spec (depth (xprv_attrs x)) 255) as [_|X]; [|lia].
  revert HI. generalize (hmac (chain_code (xprv_attrs x)) (priv_input (private_key x) c)). intros I HI. destruct (half_bytes I HI) as [B1 B2].
  pose proof (tweak_unique (private_key x) (private_key y) (firstn 32 I) Hk Hy B1) as U.
  change (xpub_fingerprint (xprv_public_key x)) with (public_fingerprint (private_public_key (private_key x))). split.
  - intros H. destruct (secret_parse (firstn 32 I)) as [t|] eqn:P; [|discriminate H].
    destruct (secret_tweak_add (private_key x) t) as [k|] eqn:A; [|discriminate H]. apply ok_inj in H.
    assert (Ek : private_key y = k) by (rewrite <- H; reflexivity). assert (Ea := f_equal xprv_attrs H). cbn [xprv_attrs] in Ea. clear H.
    destruct U as [U _]. rewrite <- Ek in A. destruct U as [N E]; [exists t; split; [reflexivity|exact A]|]. split; [exact N|].
    split; [|rewrite <- Ea; reflexivity]. rewrite <- Ea. cbn [chain_code]. rewrite <- E. apply halves_join.
  - intros (N & E & Ea). destruct (halves_split (tweak (private_key x) (private_key y)) (chain_code (xprv_attrs y)) (proj1 (tweak_bytes _ _))) as [E1 E2].
    rewrite <- E in E1, E2. destruct U as [_ U]. destruct (U (conj N E1)) as (t & P & A). rewrite P, A, E2. destruct y as [ky ay].
    cbn [private_key xprv_attrs] in *. rewrite <- Ea. reflexivity.
Qed.
Lemma c156_private_children : forall (x y : xprv) (c : N) (data : bytes), valid_xprv x -> valid_xprv y -> u32 c ->
  depth (xprv_attrs x) < 255 -> priv_data (private_key x) c data ->
  depth (xprv_attrs y) = depth (xprv_attrs x) + 1 -> parent_fingerprint (xprv_attrs y) = xpub_fingerprint (xprv_public_key x) ->
  child_number (xprv_attrs y) = c -> private_key y <> private_key x ->
  exists! I, has_bytes 64 I /\ forall hmac, hmac (chain_code (xprv_attrs x)) data = I -> xprv_derive_child_with hmac x c = Ok y.
Proof.
  intros x y c data Vx Vy Hc Hd Hdata E1 E2 E3 N. pose proof Vy as [Hy (_ & _ & _ & Hcc)].
  assert (Ea : xprv_attrs y = mkAttrs (depth (xprv_attrs x) + 1) (xpub_fingerprint (xprv_public_key x)) c (chain_code (xprv_attrs y))).
  { rewrite <- E1, <- E2, <- E3. destruct (xprv_attrs y); reflexivity. }
  assert (B : has_bytes 64 (tweak (private_key x) (private_key y) ++ chain_code (xprv_attrs y))).
  { apply (has_bytes_app 32 32); [apply tweak_bytes|exact Hcc]. }
  eexists. split; [split; [exact B|]|].
  - intros hmac H. apply (private_child_of hmac x c y data); try assumption; [rewrite H; exact B|]. auto.
  - intros I [BI HI]. specialize (HI (fun _ _ => I) eq_refl). apply (private_child_of (fun _ _ => I) x c y data) in HI; try assumption.
    destruct HI as (_ & HI & _). symmetry. exact HI.
Qed.
Lemma c156_never_the_parent : forall (hmac : bytes -> bytes -> bytes) (x y : xprv) (c : N), valid_xprv x -> u32 c ->
  (forall k m, has_bytes 64 (hmac k m)) -> xprv_derive_child_with hmac x c = Ok y -> private_key y <> private_key x.
Proof.
  intros hmac x y c Vx Hc HI H. pose proof H as H'. rewrite xprv_step in H'. destruct (N.ltb_spec (depth (xprv_attrs x)) 255) as [Hd|_]; [|discriminate H'].
  assert (Hy : (0 < private_key y < secp_n)%Z).
  { destruct (secret_parse _) as [t|]; [|discriminate H']. destruct (secret_tweak_add _ t) as [k|] eqn:A; [|discriminate H']. apply ok_inj in H'.
    rewrite <- H'. cbn [private_key]. exact (secret_tweak_range _ _ _ A). }
  apply (private_child_of hmac x c y (priv_input (private_key x) c)) in H; try assumption; [apply H| |apply HI].
  apply priv_data_iff; [apply Vx|exact Hc|reflexivity].
Qed.
(** Siblings are unrelated: whatever children are wanted, some hash function gives all of them at once. *)
Definition wanted (x : xprv) (want : N -> xprv) (data : bytes) : bytes :=
  let y := want (be_val (skipn (length data - 4) data)) in tweak (private_key x) (private_key y) ++ chain_code (xprv_attrs y).
Lemma c156_siblings_unrelated : forall (x : xprv) (want : N -> xprv), valid_xprv x -> depth (xprv_attrs x) < 255 ->
  (forall c, u32 c -> valid_xprv (want c) /\ private_key (want c) <> private_key x
     /\ depth (xprv_attrs (want c)) = depth (xprv_attrs x) + 1
     /\ parent_fingerprint (xprv_attrs (want c)) = xpub_fingerprint (xprv_public_key x) /\ child_number (xprv_attrs (want c)) = c) ->
  exists hmac : bytes -> bytes -> bytes, forall c, u32 c -> xprv_derive_child_with hmac x c = Ok (want c).
Proof.
  intros x want Vx Hd W. exists (fun _ data => wanted x want data). intros c Hc. destruct (W c Hc) as (Vy & N & E1 & E2 & E3). pose proof Vy as [Hy (_ & _ & _ & Hcc)].
  assert (D : priv_data (private_key x) c (priv_input (private_key x) c)) by (apply priv_data_iff; [apply Vx|exact Hc|reflexivity]).
  assert (Ew : wanted x want (priv_input (private_key x) c) = tweak (private_key x) (private_key (want c)) ++ chain_code (xprv_attrs (want c))).
  { unfold wanted. assert (El : be_val (skipn (length (priv_input (private_key x) c) - 4) (priv_input (private_key x) c)) = c); [|rewrite El; reflexivity].
    unfold priv_input. rewrite app_length. unfold child_to_bytes. rewrite be_bytes_length, Nat.add_sub, skipn_app, Nat.sub_diag, skipn_all, skipn_O. cbn [app].
    rewrite be_val_be_bytes. apply N.mod_small, Hc. }
  apply (private_child_of (fun _ data => wanted x want data) x c (want c) (priv_input (private_key x) c)); try assumption.
  - rewrite Ew. apply (has_bytes_app 32 32); [apply tweak_bytes|exact Hcc].
  - split; [exact N|]. split; [exact Ew|]. rewrite <- E1, <- E2. clear - E3. destruct (xprv_attrs (want c)) as [d f n cc]. cbn [depth parent_fingerprint child_number chain_code] in *. rewrite E3. reflexivity.
Qed.
(** The same for public keys. *)
Lemma c156_public_children : forall (y z : xpub) (c : N) (data : bytes), valid_xpub y -> valid_xpub z -> c < 2 ^ 31 ->
  depth (xpub_attrs y) < 255 -> pub_data (public_key y) c data ->
  depth (xpub_attrs z) = depth (xpub_attrs y) + 1 -> parent_fingerprint (xpub_attrs z) = xpub_fingerprint y ->
  child_number (xpub_attrs z) = c -> public_key z <> public_key y ->
  exists! I, has_bytes 64 I /\ forall hmac, hmac (chain_code (xpub_attrs y)) data = I -> xpub_derive_child_with hmac y c = Ok z.
Proof.
  intros [P a] [Q b] c data (FP & OP & Va) (FQ & OQ & Vb) Hc Hd Hdata E1 E2 E3 N. cbn [public_key xpub_attrs] in *.
  assert (Uc : u32 c) by (unfold u32; change (2 ^ 32) with (2 ^ 31 + 2 ^ 31); lia).
  apply pub_data_iff in Hdata; [|assumption..]. subst data.
  destruct (every_point P OP) as (k & Hk0 & ->). destruct (every_point Q OQ) as (k' & Hk0' & ->).
  assert (Hk : (0 < k < secp_n)%Z) by (destruct (Z.eq_dec k 0) as [->|]; [exfalso; apply FP, kG_0|lia]).
  assert (Hk' : (0 < k' < secp_n)%Z) by (destruct (Z.eq_dec k' 0) as [->|]; [exfalso; apply FQ, kG_0|lia]).
  assert (Nk : k' <> k) by (intros ->; apply N; reflexivity).
  assert (Ea : b = mkAttrs (depth a + 1) (public_fingerprint (kG k)) c (chain_code b)).
  { change (public_fingerprint (kG k)) with (xpub_fingerprint (mkXPub (kG k) a)). rewrite <- E1, <- E2, <- E3. destruct b; reflexivity. }
  assert (Hh : child_is_hardened c = false) by (rewrite hardened_iff by exact Uc; apply N.leb_gt; exact Hc).
  assert (S : forall hmac, xpub_derive_child_with hmac (mkXPub (kG k) a) c =
    let I := hmac (chain_code a) (public_to_bytes (kG k) ++ child_to_bytes c) in
    match secret_parse (firstn 32 I) with None => Panic | Some t => match secret_tweak_add k t with None => Err ECrypto
      | Some k'' => Ok (mkXPub (kG k'') (mkAttrs (depth a + 1) (public_fingerprint (kG k)) c (right_half I))) end end).
  { intros hmac. rewrite xpub_step, Hh. cbn [public_key xpub_attrs]. destruct (N.ltb_spec (depth a) 255) as [_|X]; [|lia]. cbv zeta.
    destruct (secret_parse _) as [t|] eqn:P; [|reflexivity]. apply secret_parse_iff in P. destruct P as [_ Rt].
    rewrite tweak_agree by lia. destruct (secret_tweak_add k t); reflexivity. }
  pose proof Vb as (_ & _ & _ & Hcc). exists (tweak k k' ++ chain_code b). split; [split|].
  - apply (has_bytes_app 32 32); [apply tweak_bytes|exact Hcc].
  - intros hmac H. rewrite S. cbv zeta. rewrite H. destruct (halves_split (tweak k k') (chain_code b) (proj1 (tweak_bytes _ _))) as [-> ->].
    destruct (proj2 (tweak_unique k k' (tweak k k') Hk Hk' (tweak_bytes _ _)) (conj Nk eq_refl)) as (t & -> & ->). rewrite <- Ea. reflexivity.
  - intros I [BI HI]. specialize (HI (fun _ _ => I) eq_refl). rewrite S in HI. cbv zeta in HI. destruct (half_bytes I BI) as [B1 B2].
    destruct (secret_parse (firstn 32 I)) as [t|] eqn:P; [|discriminate HI].
    destruct (secret_tweak_add k t) as [k''|] eqn:A; [|discriminate HI]. apply ok_inj in HI.
    assert (Ek : kG k'' = kG k') by exact (f_equal public_key HI).
    assert (Ec : right_half I = chain_code b) by exact (f_equal (fun y => chain_code (xpub_attrs y)) HI).
    pose proof (secret_tweak_range _ _ _ A) as R. apply kG_inj in Ek; [|lia..]. subst k''.
    destruct (proj1 (tweak_unique k k' (firstn 32 I) Hk Hk' B1) (ex_intro _ t (conj P A))) as [_ E]. rewrite <- E, <- Ec. symmetry. apply halves_join.
Qed.
Lemma c156_public_never_the_parent : forall (hmac : bytes -> bytes -> bytes) (y z : xpub) (c : N), valid_xpub y -> u32 c ->
  xpub_derive_child_with hmac y c = Ok z -> public_key z <> public_key y.
Proof.
  intros hmac [P a] z c (FP & OP & _) Uc H E. cbn [public_key] in *. rewrite xpub_step in H. cbn [public_key xpub_attrs] in H.
  destruct (child_is_hardened c); [discriminate H|]. destruct (depth a <? 255); [|discriminate H]. cbv zeta in H.
  destruct (secret_parse _) as [t|] eqn:Pt in H; [|discriminate H]. apply secret_parse_iff in Pt. destruct Pt as [_ Rt].
  destruct (every_point P OP) as (k & Hk0 & ->).
  assert (Hk : (0 < k < secp_n)%Z) by (destruct (Z.eq_dec k 0) as [->|]; [exfalso; apply FP, kG_0|lia]).
  rewrite tweak_agree in H by lia. destruct (secret_tweak_add k t) as [k'|] eqn:A; [|discriminate H]. apply ok_inj in H.
  rewrite <- H in E. cbn [public_key] in E. pose proof (secret_tweak_range _ _ _ A) as R. apply kG_inj in E; [|lia..]. subst k'.
  apply (tweak_adds k k t Hk Rt Hk) in A. destruct A as [A _]. apply A. reflexivity.
Qed.
Lemma child_not_parent x y c : valid_xprv x -> u32 c -> xprv_derive_child x c = Ok y -> private_key y <> private_key x.
Proof.
  intros V Hc H. apply (c156_never_the_parent hmac_sha512 x y c V Hc); [|exact H]. intros k m. split; [apply hmac_sha512_length|apply hmac_sha512_ok].
Qed.
Lemma u32_0 : u32 0.
Proof. reflexivity. Qed.
Example c156_example : valid_xprv ex1_xprv /\ valid_xprv ex1_child /\ xprv_derive_child ex1_xprv 0 = Ok ex1_child
  /\ private_key ex1_child <> private_key ex1_xprv /\ depth (xprv_attrs ex1_xprv) < 255.
Proof.
  destruct c50_example as (V & E1 & E2 & _). split; [exact V|]. split; [exact (xprv_child_valid ex1_xprv 0 ex1_child u32_0 E1)|]. split; [exact E1|].
  split; [exact (child_not_parent ex1_xprv ex1_child 0 V u32_0 E1)|reflexivity].
Qed.
