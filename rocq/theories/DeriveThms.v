(** Proofs of the properties of key derivation (restated in PropDerive.v). *)
From Coq Require Import String ZifyBool ZifyNat ZifyN.
From Verif Require Import Outcome Bytes Str Hash HashLemmas Ripemd Secp SpecSecp SecpGroup SecpProofs Base58 ModelBip32 SpecBip32.
From Verif Require Import StrLemmas Base58Proofs PathThms ExtProofs KeyTextThms.
Open Scope N_scope.

(** ** Ingredients *)
Lemma hmac_bytes k m : has_bytes 64 (hmac_sha512 k m).
Proof. split; [apply hmac_sha512_length|apply hmac_sha512_ok]. Qed.
Lemma halves I : has_bytes 64 I -> has_bytes 32 (firstn 32 I) /\ has_bytes 32 (right_half I).
Proof.
  intros [L B]. unfold right_half. split; (split; [|first [apply bytes_ok_firstn|apply bytes_ok_skipn]; exact B]);
    [rewrite firstn_length_le; lia|rewrite skipn_length; lia].
Qed.
Lemma usable_dec I : usable I \/ ~ usable I.
Proof. unfold usable. destruct (Z_lt_dec 0 (left_half I)), (Z_lt_dec (left_half I) secp_n); tauto. Qed.
Lemma parse_left I : (usable I -> secret_parse (firstn 32 I) = Some (left_half I)) /\ (~ usable I -> secret_parse (firstn 32 I) = None).
Proof.
  split; intros H.
  - apply secret_parse_iff. auto.
  - destruct (secret_parse (firstn 32 I)) as [k|] eqn:E; [exfalso|reflexivity]. apply secret_parse_iff in E. destruct E as [-> E]. exact (H E).
Qed.
Lemma private_public k : (0 <= k)%Z -> private_public_key k = kG k.
Proof. intros _. apply ecmult_gen_ok. Qed.
Lemma public_point k : (0 < k < secp_n)%Z -> exists x y, kG k = Point x y /\ on_curve (Point x y).
Proof. intros H. destruct (kG_finite k H) as (x & y & E). exists x, y. split; [exact E|]. rewrite <- E. apply kG_on. Qed.
Lemma to_bytes_compressed P b : P <> Infinity -> on_curve P -> (is_compressed b P <-> b = public_to_bytes P).
Proof.
  intros F O. destruct (finite_point P F) as (x & y & ->). pose proof (serialize_compressed x y O) as C. split.
  - intros H. eapply compressed_unique; eassumption.
  - intros ->. exact C.
Qed.
Lemma ser32_iff c b : u32 c -> (is_ser32 c b <-> b = child_to_bytes c).
Proof.
  intros H. unfold child_to_bytes. split.
  - intros [L <-]. symmetry. apply (be_of_val 4), L.
  - intros ->. split; [apply has_bytes_be|apply (val_of_be 4), H].
Qed.
Lemma ser256_fun k b : is_ser256 k b -> b = private_to_bytes k.
Proof. intros [L <-]. unfold private_to_bytes, secret_serialize. rewrite N2Z.id. symmetry. apply (be_of_val 32), L. Qed.
Lemma fingerprint_iff P f : P <> Infinity -> on_curve P -> (is_fingerprint P f <-> f = public_fingerprint P).
Proof.
  intros F O. unfold is_fingerprint, public_fingerprint. split.
  - intros (b & C & ->). apply to_bytes_compressed in C; [|assumption..]. subst b. reflexivity.
  - intros ->. exists (public_to_bytes P). split; [apply to_bytes_compressed; auto|reflexivity].
Qed.
Lemma fingerprint_bytes P : has_bytes 4 (public_fingerprint P).
Proof.
  unfold public_fingerprint. split; [rewrite firstn_length_le; [reflexivity|rewrite ripemd160_length; lia]|apply bytes_ok_firstn, ripemd160_ok].
Qed.
Lemma hardened_iff c : u32 c -> child_is_hardened c = (2 ^ 31 <=? c).
Proof. intros H. apply is_hardened_ok, H. Qed.

(** The data the code hashes is the data of BIP32. *)
Definition priv_input (k : Z) (c : N) : bytes :=
  (if child_is_hardened c then [0] ++ private_to_bytes k else public_to_bytes (private_public_key k)) ++ child_to_bytes c.
Lemma kG_not_inf k : (0 < k < secp_n)%Z -> kG k <> Infinity.
Proof. intros H. destruct (kG_finite k H) as (x & y & ->). discriminate. Qed.
Lemma priv_data_iff k c data : (0 < k < secp_n)%Z -> u32 c -> (priv_data k c data <-> data = priv_input k c).
Proof.
  intros Hk Hc. unfold priv_data, priv_input. rewrite hardened_iff by exact Hc. rewrite private_public by lia. split.
  - intros (ib & Hi & H). apply ser32_iff in Hi; [|exact Hc]. subst ib. destruct H as [(Hh & kb & Hkb & ->)|(Hh & P & b & HP & HB & ->)].
    + apply ser256_fun in Hkb. subst kb. destruct (N.leb_spec (2 ^ 31) c) as [X|X]; [|lia]. rewrite <- app_assoc. reflexivity.
    + destruct (N.leb_spec (2 ^ 31) c) as [X|X]; [lia|]. apply is_public_point_iff in HP. destruct HP as [_ ->].
      apply to_bytes_compressed in HB; [subst b; reflexivity|apply kG_not_inf, Hk|apply kG_on].
  - intros ->. exists (child_to_bytes c). split; [apply ser32_iff; auto|].
    destruct (N.leb_spec (2 ^ 31) c) as [X|X]; [left|right]; (split; [exact X|]).
    + exists (private_to_bytes k). split; [apply secret_bytes, Hk|]. rewrite <- app_assoc. reflexivity.
    + exists (kG k), (public_to_bytes (kG k)). split; [apply is_public_point_iff; split; [lia|reflexivity]|].
      split; [|reflexivity]. apply to_bytes_compressed; [apply kG_not_inf, Hk|apply kG_on|reflexivity].
Qed.
Lemma pub_data_iff P c data : P <> Infinity -> on_curve P -> u32 c -> (pub_data P c data <-> data = public_to_bytes P ++ child_to_bytes c).
Proof.
  intros F O Hc. unfold pub_data. split.
  - intros (ib & b & Hi & Hb & ->). apply ser32_iff in Hi; [|exact Hc]. apply to_bytes_compressed in Hb; [|assumption..]. subst. reflexivity.
  - intros ->. exists (child_to_bytes c), (public_to_bytes P). split; [apply ser32_iff; auto|]. split; [apply to_bytes_compressed; auto|reflexivity].
Qed.
Lemma checked_depth d : checked_add 8 d 1 = if d <? 255 then Some (d + 1) else None.
Proof.
  unfold checked_add. change (2 ^ 8) with 256.
  destruct (N.ltb_spec (d + 1) 256) as [X|X], (N.ltb_spec d 255) as [Y|Y]; try lia; reflexivity.
Qed.

(** One private step, for any HMAC. *)
Lemma xprv_step hmac x c : let I := hmac (chain_code (xprv_attrs x)) (priv_input (private_key x) c) in
  xprv_derive_child_with hmac x c =
    if depth (xprv_attrs x) <? 255 then
      match secret_parse (firstn 32 I) with
      | None => Panic
      | Some t => match secret_tweak_add (private_key x) t with
                  | None => Err ECrypto
                  | Some k => Ok (mkXPrv k (mkAttrs (depth (xprv_attrs x) + 1) (public_fingerprint (private_public_key (private_key x))) c (right_half I)))
                  end
      end
    else Err EDepth.
Proof.
  intros I. unfold xprv_derive_child_with. rewrite checked_depth. destruct (depth (xprv_attrs x) <? 255); [|reflexivity].
  cbn [ok_or bind]. unfold private_derive_child. cbv zeta. fold (priv_input (private_key x) c). fold I.
  destruct (secret_parse (firstn 32 I)) as [t|]; [|reflexivity]. cbn [or_panic bind].
  destruct (secret_tweak_add (private_key x) t); reflexivity.
Qed.
Lemma xpub_step hmac y c : let I := hmac (chain_code (xpub_attrs y)) (public_to_bytes (public_key y) ++ child_to_bytes c) in
  xpub_derive_child_with hmac y c =
    if child_is_hardened c then Err EChildNumber else
    if depth (xpub_attrs y) <? 255 then
      match secret_parse (firstn 32 I) with
      | None => Panic
      | Some t => match public_tweak_add (public_key y) t with
                  | None => Err ECrypto
                  | Some P => Ok (mkXPub P (mkAttrs (depth (xpub_attrs y) + 1) (public_fingerprint (public_key y)) c (right_half I)))
                  end
      end
    else Err EDepth.
Proof.
  intros I. unfold xpub_derive_child_with. destruct (child_is_hardened c); [reflexivity|]. rewrite checked_depth.
  destruct (depth (xpub_attrs y) <? 255); [|reflexivity].
  cbn [ok_or bind]. unfold public_derive_child. cbv zeta. fold I.
  destruct (secret_parse (firstn 32 I)) as [t|]; [|reflexivity]. cbn [or_panic bind].
  destruct (public_tweak_add (public_key y) t); reflexivity.
Qed.

(** ** C49 *)
Lemma seed_length_iff (seed : bytes) : existsb (N.eqb (len seed)) [16; 32; 64; 128] = true <-> In (length seed) [16; 32; 64; 128]%nat.
Proof. rewrite existsb_exists. unfold len. cbn [In]. split; [intros (v & Hv & E)|intros H]; [lia|]. exists (len seed). unfold len. lia. Qed.
Lemma separator_text : bip39_domain_separator = master_key_text.
Proof. reflexivity. Qed.
Lemma c49_master_key : forall seed : bytes, bytes_ok seed ->
  let I := hmac_sha512 master_key_text seed in
  (~ In (length seed) [16; 32; 64; 128]%nat -> xprv_new seed = Err ESeedLength)
  /\ (In (length seed) [16; 32; 64; 128]%nat ->
      (usable I -> xprv_new seed = Ok (mkXPrv (left_half I) (mkAttrs 0 [0; 0; 0; 0] 0 (right_half I))))
      /\ (~ usable I -> xprv_new seed = Err ECrypto))
  /\ xprv_new seed <> Panic.
Proof.
  intros seed _ I. unfold xprv_new, xprv_new_with. rewrite separator_text. cbv zeta. fold I. generalize I. clear I. intros I.
  destruct (existsb (N.eqb (len seed)) [16; 32; 64; 128]) eqn:E; cbn [negb].
  - apply seed_length_iff in E. split; [intros H; contradiction|]. unfold private_from_bytes.
    destruct (usable_dec I) as [U|U].
    + rewrite (proj1 (parse_left I) U). cbn [ok_or bind]. split; [|discriminate]. intros _. split; [reflexivity|]. intros X. destruct (X U).
    + rewrite (proj2 (parse_left I) U). cbn [ok_or bind]. split; [|discriminate]. intros _. split; [|reflexivity]. intros X. destruct (U X).
  - split; [reflexivity|]. split; [|discriminate]. intros H. apply seed_length_iff in H. congruence.
Qed.
Definition ex_seed : bytes := [0; 1; 2; 3; 4; 5; 6; 7; 8; 9; 10; 11; 12; 13; 14; 15].
(** The root of the first BIP32 test vector. *)
Example c49_example : xprv_new ex_seed = Ok ex_xprv /\ usable (hmac_sha512 master_key_text ex_seed) /\ xprv_new [1; 2; 3] = Err ESeedLength.
Proof. split; [vm_compute; reflexivity|]. split; [|reflexivity]. vm_compute. split; reflexivity. Qed.

(** ** C50 *)
Lemma c50_private_child : forall (x : xprv) (c : N), valid_xprv x -> u32 c ->
  exists (P : point) (f data I : bytes),
    is_public_point (private_key x) P /\ is_fingerprint P f /\ priv_data (private_key x) c data
    /\ (forall data', priv_data (private_key x) c data' -> data' = data)
    /\ I = hmac_sha512 (chain_code (xprv_attrs x)) data /\ length I = 64%nat
    /\ (depth (xprv_attrs x) = 255 <-> xprv_derive_child x c = Err EDepth)
    /\ (depth (xprv_attrs x) < 255 -> usable I ->
        let k := ((left_half I + private_key x) mod secp_n)%Z in
        (k <> 0%Z -> xprv_derive_child x c = Ok (mkXPrv k (mkAttrs (depth (xprv_attrs x) + 1) f c (right_half I))))
        /\ (k = 0%Z -> xprv_derive_child x c = Err ECrypto)).
Proof.
  intros x c [Hk Ha] Hc. set (data := priv_input (private_key x) c). set (I := hmac_sha512 (chain_code (xprv_attrs x)) data).
  exists (kG (private_key x)), (public_fingerprint (kG (private_key x))), data, I.
  split; [apply is_public_point_iff; split; [lia|reflexivity]|].
  split; [apply fingerprint_iff; [apply kG_not_inf, Hk|apply kG_on|reflexivity]|].
  split; [apply priv_data_iff; auto|]. split; [intros data' H; apply priv_data_iff in H; assumption|]. split; [reflexivity|].
  split; [apply hmac_sha512_length|]. unfold xprv_derive_child. rewrite xprv_step. fold data. fold I. rewrite private_public by lia.
  destruct Ha as [Hd _]. split.
  - destruct (N.ltb_spec (depth (xprv_attrs x)) 255) as [X|X]; [|split; [reflexivity|lia]].
    split; [lia|]. destruct (secret_parse (firstn 32 I)) as [t|]; [|intros H; discriminate H].
    destruct (secret_tweak_add (private_key x) t); intros H; discriminate H.
  - intros Hd' U. set (k := ((left_half I + private_key x) mod secp_n)%Z). destruct (N.ltb_spec (depth (xprv_attrs x)) 255) as [X|X]; [|lia]. rewrite (proj1 (parse_left I) U).
    unfold secret_tweak_add. cbv zeta. rewrite (Z.add_comm (private_key x)). fold k. clearbody k.
    destruct (Z.eqb_spec k 0) as [E|E]; split; intros H; try reflexivity; [destruct (H E)|destruct (E H)].
Qed.
(** ** C51 *)
Lemma c51_public_child : forall (y : xpub) (c : N), valid_xpub y -> u32 c ->
  (2 ^ 31 <= c <-> xpub_derive_child y c = Err EChildNumber)
  /\ (c < 2 ^ 31 -> exists (f data I : bytes),
        is_fingerprint (public_key y) f /\ pub_data (public_key y) c data
        /\ (forall data', pub_data (public_key y) c data' -> data' = data)
        /\ I = hmac_sha512 (chain_code (xpub_attrs y)) data /\ length I = 64%nat
        /\ (depth (xpub_attrs y) = 255 <-> xpub_derive_child y c = Err EDepth)
        /\ (depth (xpub_attrs y) < 255 -> usable I -> exists T S,
              is_public_point (left_half I) T /\ ec_sum T (public_key y) S
              /\ (S <> Infinity -> xpub_derive_child y c = Ok (mkXPub S (mkAttrs (depth (xpub_attrs y) + 1) f c (right_half I))))
              /\ (S = Infinity -> xpub_derive_child y c = Err ECrypto))).
Proof.
  intros y c (Hf & Hon & Ha) Hc. unfold xpub_derive_child. rewrite xpub_step, hardened_iff by exact Hc.
  set (data := public_to_bytes (public_key y) ++ child_to_bytes c). set (I := hmac_sha512 (chain_code (xpub_attrs y)) data).
  destruct (N.leb_spec (2 ^ 31) c) as [X|X]; [split; [split; auto|lia]|]. split.
  - split; [lia|]. destruct (depth (xpub_attrs y) <? 255); [|intros H; discriminate H].
    destruct (secret_parse (firstn 32 I)) as [t|]; [|intros H; discriminate H]. destruct (public_tweak_add (public_key y) t); intros H; discriminate H.
  - intros _. exists (public_fingerprint (public_key y)), data, I. split; [apply fingerprint_iff; auto|]. split; [apply pub_data_iff; auto|].
    split; [intros data' H; apply pub_data_iff in H; assumption|]. split; [reflexivity|]. split; [apply hmac_sha512_length|].
    destruct Ha as [Hd _]. split.
    + destruct (N.ltb_spec (depth (xpub_attrs y)) 255) as [Y|Y]; [|split; [reflexivity|lia]].
      split; [lia|]. destruct (secret_parse (firstn 32 I)) as [t|]; [|intros H; discriminate H].
      destruct (public_tweak_add (public_key y) t); intros H; discriminate H.
    + intros Hd' U. destruct (N.ltb_spec (depth (xpub_attrs y)) 255) as [Y|Y]; [|lia]. rewrite (proj1 (parse_left I) U).
      exists (kG (left_half I)), (ec_add (kG (left_half I)) (public_key y)). split; [apply is_public_point_iff; split; [unfold usable in U; lia|reflexivity]|].
      split; [apply ec_add_sum; [apply kG_on|exact Hon]|]. rewrite public_tweak_ok by exact Hon.
      rewrite (ec_add_comm (public_key y)) by (assumption || apply kG_on).
      destruct (ec_add (kG (left_half I)) (public_key y)); split; intros H; try reflexivity; try contradiction H; try reflexivity; discriminate H.
Qed.

(** A key with secret 1, whose public key is the generator. *)
Definition ex1_xprv : xprv := mkXPrv 1 ex_attrs.
Lemma ex1_valid : valid_xprv ex1_xprv.
Proof. split; [split; reflexivity|apply ex_attrs_ok]. Qed.
Lemma ex1_public : private_public_key 1 = G.
Proof. rewrite private_public by (vm_compute; discriminate). apply kG_1. Qed.
Definition ex1_child : xprv := mkXPrv 0xec1415ed9a9a34696e35677bf7191f82f2e84b38e044e0cdebc2de156f1a0ab8
  (mkAttrs 1 [117; 30; 118; 232] 0 (be_bytes 32 0xe942a1ed56bcd9816d066ada8ab7c05e81b6b5135a4c6441c6fd675269070abf)).
Definition ex1_hardened : xprv := mkXPrv 0x9da3625c740ee418db2e81b77a58fa33a3cd4d0911e447589fe3caef870c1a7c
  (mkAttrs 1 [117; 30; 118; 232] (2 ^ 31) (be_bytes 32 0xd65803c305da4be316a2776095f11a8a193d2b87484c86beaa361dd37296dbfd)).
(** Normal and hardened child, and the depth limit. *)
Example c50_example : valid_xprv ex1_xprv /\ xprv_derive_child ex1_xprv 0 = Ok ex1_child /\ xprv_derive_child ex1_xprv (2 ^ 31) = Ok ex1_hardened
  /\ xprv_derive_child (mkXPrv 1 (mkAttrs 255 [0; 0; 0; 0] 0 (repeat 0 32))) 0 = Err EDepth.
Proof.
  split; [apply ex1_valid|]. unfold xprv_derive_child. rewrite !xprv_step. unfold priv_input. cbn [ex1_xprv private_key]. rewrite ex1_public.
  split; [vm_compute; reflexivity|]. split; vm_compute; reflexivity.
Qed.

(** ** C52, C53 *)
Lemma xprv_public_valid x : valid_xprv x -> valid_xpub (xprv_public_key x).
Proof.
  intros [Hk Ha]. unfold xprv_public_key. cbn [public_key]. split; cbn [public_key xpub_attrs].
  - rewrite private_public by lia. apply kG_not_inf, Hk.
  - split; [rewrite private_public by lia; apply kG_on|exact Ha].
Qed.
Lemma derive_agree x c : valid_xprv x -> c < 2 ^ 31 ->
  xpub_derive_child (xprv_public_key x) c = res_map xprv_public_key (xprv_derive_child x c).
Proof.
  intros [Hk Ha] Hc. unfold xpub_derive_child, xprv_derive_child. rewrite xpub_step, xprv_step.
  assert (Hh : child_is_hardened c = false). { rewrite hardened_iff; [apply N.leb_gt, Hc|]. unfold u32. lia. }
  unfold priv_input. rewrite Hh. cbn [xprv_public_key public_key xpub_attrs]. rewrite !private_public by lia.
  destruct (depth (xprv_attrs x) <? 255); [|reflexivity].
  set (I := hmac_sha512 _ _). destruct (secret_parse (firstn 32 I)) as [t|] eqn:E; [|reflexivity].
  apply secret_parse_iff in E. destruct E as [_ E]. rewrite tweak_agree by lia.
  destruct (secret_tweak_add (private_key x) t) as [k|] eqn:Et; [|reflexivity]. cbn [option_map res_map].
  apply secret_tweak_range in Et. unfold xprv_public_key. cbn [private_key xprv_attrs]. rewrite private_public by lia. reflexivity.
Qed.
Lemma c52_public_private_agree : forall (x : xprv) (c : N), valid_xprv x -> c < 2 ^ 31 ->
  xpub_derive_child (xprv_public_key x) c = res_map xprv_public_key (xprv_derive_child x c).
Proof. exact derive_agree. Qed.
Example c52_example : xpub_derive_child (mkXPub G ex_attrs) 0 = Ok (xprv_public_key ex1_child).
Proof.
  pose proof (derive_agree ex1_xprv 0 ex1_valid eq_refl) as H. destruct c50_example as (_ & E & _). rewrite E in H. cbn [res_map] in H.
  unfold xprv_public_key at 1 in H. cbn [ex1_xprv private_key xprv_attrs] in H. rewrite ex1_public in H. exact H.
Qed.
Example c51_example : valid_xpub (mkXPub G ex_attrs) /\ xpub_derive_child (mkXPub G ex_attrs) 0 = Ok (xprv_public_key ex1_child)
  /\ xpub_derive_child (mkXPub G ex_attrs) (2 ^ 31) = Err EChildNumber.
Proof.
  split; [|split; [apply c52_example|reflexivity]]. pose proof (xprv_public_valid _ ex1_valid) as H.
  unfold xprv_public_key in H. cbn [ex1_xprv private_key xprv_attrs] in H. rewrite ex1_public in H. exact H.
Qed.

(** What a successful step gives. *)
Lemma xprv_child_ok x c y : xprv_derive_child x c = Ok y ->
  depth (xprv_attrs x) < 255 /\ (0 < private_key y < secp_n)%Z
  /\ exists I, has_bytes 64 I /\ xprv_attrs y = mkAttrs (depth (xprv_attrs x) + 1) (public_fingerprint (private_public_key (private_key x))) c (right_half I).
Proof.
  intros H. unfold xprv_derive_child in H. rewrite xprv_step in H.
  destruct (N.ltb_spec (depth (xprv_attrs x)) 255) as [L|L]; [|discriminate H]. split; [exact L|].
  set (I := hmac_sha512 _ _) in H. assert (HI : has_bytes 64 I) by apply hmac_bytes. clearbody I.
  destruct (secret_parse (firstn 32 I)) as [t|]; [|discriminate H]. destruct (secret_tweak_add (private_key x) t) as [k|] eqn:E; [|discriminate H].
  apply secret_tweak_range in E. assert (Y : y = mkXPrv k (mkAttrs (depth (xprv_attrs x) + 1) (public_fingerprint (private_public_key (private_key x))) c (right_half I))) by congruence.
  subst y. split; [exact E|]. exists I. split; [exact HI|reflexivity].
Qed.
Lemma xpub_child_ok y c z : xpub_derive_child y c = Ok z ->
  child_is_hardened c = false /\ depth (xpub_attrs y) < 255 /\ public_key z <> Infinity /\ (on_curve (public_key y) -> on_curve (public_key z))
  /\ exists I, has_bytes 64 I /\ xpub_attrs z = mkAttrs (depth (xpub_attrs y) + 1) (public_fingerprint (public_key y)) c (right_half I).
Proof.
  intros H. unfold xpub_derive_child in H. rewrite xpub_step in H. destruct (child_is_hardened c); [discriminate H|]. split; [reflexivity|].
  destruct (N.ltb_spec (depth (xpub_attrs y)) 255) as [L|L]; [|discriminate H]. split; [exact L|].
  set (I := hmac_sha512 _ _) in H. assert (HI : has_bytes 64 I) by apply hmac_bytes. clearbody I.
  destruct (secret_parse (firstn 32 I)) as [t|]; [|discriminate H]. destruct (public_tweak_add (public_key y) t) as [P|] eqn:E; [|discriminate H].
  assert (Z : z = mkXPub P (mkAttrs (depth (xpub_attrs y) + 1) (public_fingerprint (public_key y)) c (right_half I))) by congruence.
  subst z. cbn [public_key xpub_attrs]. split; [|split; [|exists I; split; [exact HI|reflexivity]]].
  - unfold public_tweak_add in E. destruct (to_affine _); [discriminate E|]. intros X. subst P. discriminate E.
  - intros O. rewrite public_tweak_ok in E by exact O. pose proof (ec_add_on _ _ O (kG_on t)) as O'.
    destruct (ec_add (public_key y) (kG t)); [discriminate E|]. injection E as <-. exact O'.
Qed.
Lemma child_attrs_valid a d f c I : d < 255 -> has_bytes 4 f -> u32 c -> has_bytes 64 I -> a = mkAttrs (d + 1) f c (right_half I) -> valid_attrs a.
Proof.
  intros Hd Hf Hc HI ->. split; cbn [depth parent_fingerprint child_number chain_code]; [lia|]. split; [exact Hf|]. split; [exact Hc|]. apply halves, HI.
Qed.
Lemma xprv_child_valid x c y : u32 c -> xprv_derive_child x c = Ok y -> valid_xprv y.
Proof.
  intros Hc H. apply xprv_child_ok in H. destruct H as (Hd & Hk & I & HI & Ha). split; [exact Hk|].
  eapply child_attrs_valid; [exact Hd|apply fingerprint_bytes|exact Hc|exact HI|exact Ha].
Qed.
Lemma xpub_child_valid y c z : on_curve (public_key y) -> u32 c -> xpub_derive_child y c = Ok z -> valid_xpub z.
Proof.
  intros O Hc H. apply xpub_child_ok in H. destruct H as (_ & Hd & Hf & Ho & I & HI & Ha). split; [exact Hf|]. split; [apply Ho, O|].
  eapply child_attrs_valid; [exact Hd|apply fingerprint_bytes|exact Hc|exact HI|exact Ha].
Qed.

(** Folding a step over a path. *)
Definition along {K} (f : K -> N -> R32 K) (p : list N) (m : R32 K) : R32 K :=
  fold_left (fun maybe_key c => let* key := maybe_key in f key c) p m.
Lemma along_bind {K} (f : K -> N -> R32 K) p m : along f p m = bind m (fun k => along f p (Ok k)).
Proof.
  revert m. induction p as [|c p IH]; intros m; [destruct m; reflexivity|].
  change (along f (c :: p) m) with (along f p (bind m (fun k => f k c))). rewrite IH. destruct m as [a| |]; [|reflexivity..]. cbn [bind].
  change (along f (c :: p) (Ok a)) with (along f p (f a c)). symmetry. apply IH.
Qed.
Lemma along_app {K} (f : K -> N -> R32 K) p q m : along f (p ++ q) m = along f q (along f p m).
Proof. apply fold_left_app. Qed.
Lemma along_cons {K} (f : K -> N -> R32 K) c p k : along f (c :: p) (Ok k) = bind (f k c) (fun k' => along f p (Ok k')).
Proof. rewrite <- along_bind. reflexivity. Qed.
Lemma along_prv x p : xprv_derive_from_path x p = along xprv_derive_child p (Ok x).
Proof. reflexivity. Qed.
Lemma along_pub y p : xpub_derive_from_path y p = along xpub_derive_child p (Ok y).
Proof. reflexivity. Qed.
Lemma along_new seed p : xprv_new_from_path seed p = along xprv_derive_child p (xprv_new seed).
Proof. reflexivity. Qed.

Lemma c53_watch_only : forall (x : xprv) (p : list N), valid_xprv x -> Forall (fun c => c < 2 ^ 31) p ->
  xpub_derive_from_path (xprv_public_key x) p = res_map xprv_public_key (xprv_derive_from_path x p).
Proof.
  intros x p V F. rewrite along_prv, along_pub. revert x V. induction F as [|c p Hc F IH]; intros x V; [reflexivity|].
  rewrite !along_cons, derive_agree by assumption. destruct (xprv_derive_child x c) as [y|e|] eqn:E; [|reflexivity..]. cbn [res_map bind].
  apply IH. eapply xprv_child_valid; [|exact E]. unfold u32. lia.
Qed.
Example c53_example : valid_xprv ex1_xprv /\ xpub_derive_from_path (mkXPub G ex_attrs) [0] = Ok (xprv_public_key ex1_child)
  /\ Forall (fun c => c < 2 ^ 31) [44; 0; 0; 7].
Proof. split; [apply ex1_valid|]. split; [exact c52_example|]. repeat constructor. Qed.

(** ** C54 *)
Lemma c54_path_composes : forall (x : xprv) (y : xpub) (seed : bytes) (p q : list N) (c : N),
  xprv_derive_from_path x (p ++ q) = bind (xprv_derive_from_path x p) (fun x' => xprv_derive_from_path x' q)
  /\ xpub_derive_from_path y (p ++ q) = bind (xpub_derive_from_path y p) (fun y' => xpub_derive_from_path y' q)
  /\ xprv_derive_from_path x [] = Ok x /\ xpub_derive_from_path y [] = Ok y
  /\ xprv_derive_from_path x [c] = xprv_derive_child x c /\ xpub_derive_from_path y [c] = xpub_derive_child y c
  /\ xprv_new_from_path seed p = bind (xprv_new seed) (fun x' => xprv_derive_from_path x' p).
Proof.
  intros x y seed p q c. rewrite !along_prv, !along_pub, along_new, !along_app.
  split; [apply along_bind|]. split; [apply along_bind|]. split; [reflexivity|]. split; [reflexivity|].
  split; [reflexivity|]. split; [reflexivity|]. apply along_bind.
Qed.
Lemma c54_first_error : forall (x : xprv) (y : xpub) (seed : bytes) (p q : list N) (e : error),
  (xprv_derive_from_path x p = Err e -> xprv_derive_from_path x (p ++ q) = Err e)
  /\ (xpub_derive_from_path y p = Err e -> xpub_derive_from_path y (p ++ q) = Err e)
  /\ (xprv_new seed = Err e -> xprv_new_from_path seed p = Err e).
Proof.
  intros x y seed p q e. destruct (c54_path_composes x y seed p q 0) as (E1 & E2 & _ & _ & _ & _ & E3).
  split; [intros H; rewrite E1, H; reflexivity|]. split; [intros H; rewrite E2, H; reflexivity|]. intros H. rewrite E3, H. reflexivity.
Qed.
Example c54_example : xprv_derive_from_path ex1_xprv ([] ++ [0]) = Ok ex1_child /\ xprv_new_from_path [1] [0; 0] = Err ESeedLength.
Proof. split; [exact (proj1 (proj2 c50_example))|reflexivity]. Qed.

(** ** C55 *)
Lemma along_prv_depth p : forall x y, along xprv_derive_child p (Ok x) = Ok y ->
  depth (xprv_attrs y) = depth (xprv_attrs x) + len p /\ (p <> [] -> depth (xprv_attrs y) <= 255 /\ child_number (xprv_attrs y) = last p 0).
Proof.
  induction p as [|c p IH]; intros x y H.
  - injection H as <-. unfold len. cbn [length]. split; [lia|congruence].
  - rewrite along_cons in H. apply bind_ok in H. destruct H as (x' & Hx & H). apply xprv_child_ok in Hx.
    destruct Hx as (Hd & _ & I & _ & Ha). specialize (IH x' y H). rewrite Ha in IH. cbn [depth] in IH. destruct IH as [IH1 IH2].
    split; [unfold len in *; cbn [length]; lia|]. intros _. destruct p as [|c' p].
    + injection H as <-. rewrite Ha. cbn [depth child_number last]. split; [lia|reflexivity].
    + destruct IH2 as [L C]; [discriminate|]. split; [exact L|]. rewrite C. reflexivity.
Qed.
Lemma along_pub_depth p : forall x y, along xpub_derive_child p (Ok x) = Ok y ->
  depth (xpub_attrs y) = depth (xpub_attrs x) + len p /\ (p <> [] -> depth (xpub_attrs y) <= 255 /\ child_number (xpub_attrs y) = last p 0).
Proof.
  induction p as [|c p IH]; intros x y H.
  - injection H as <-. unfold len. cbn [length]. split; [lia|congruence].
  - rewrite along_cons in H. apply bind_ok in H. destruct H as (x' & Hx & H). apply xpub_child_ok in Hx.
    destruct Hx as (_ & Hd & _ & _ & I & _ & Ha). specialize (IH x' y H). rewrite Ha in IH. cbn [depth] in IH. destruct IH as [IH1 IH2].
    split; [unfold len in *; cbn [length]; lia|]. intros _. destruct p as [|c' p].
    + injection H as <-. rewrite Ha. cbn [depth child_number last]. split; [lia|reflexivity].
    + destruct IH2 as [L C]; [discriminate|]. split; [exact L|]. rewrite C. reflexivity.
Qed.
Lemma c55_depth_private : forall (x : xprv) (p : list N), valid_attrs (xprv_attrs x) ->
  (forall y, xprv_derive_from_path x p = Ok y ->
     depth (xprv_attrs y) = depth (xprv_attrs x) + len p /\ (p <> [] -> child_number (xprv_attrs y) = last p 0))
  /\ (255 < depth (xprv_attrs x) + len p -> forall y, xprv_derive_from_path x p <> Ok y).
Proof.
  intros x p [Hd _]. rewrite along_prv. split.
  - intros y H. apply along_prv_depth in H. destruct H as [H1 H2]. split; [exact H1|]. intros N. apply H2, N.
  - intros L y H. apply along_prv_depth in H. destruct H as [H1 H2]. destruct p as [|c p]; [unfold len in L; cbn [length] in L; lia|].
    destruct H2 as [H2 _]; [discriminate|]. lia.
Qed.
Lemma c55_depth_public : forall (y : xpub) (p : list N), valid_attrs (xpub_attrs y) ->
  (forall z, xpub_derive_from_path y p = Ok z ->
     depth (xpub_attrs z) = depth (xpub_attrs y) + len p /\ (p <> [] -> child_number (xpub_attrs z) = last p 0))
  /\ (255 < depth (xpub_attrs y) + len p -> forall z, xpub_derive_from_path y p <> Ok z).
Proof.
  intros x p [Hd _]. rewrite along_pub. split.
  - intros y H. apply along_pub_depth in H. destruct H as [H1 H2]. split; [exact H1|]. intros N. apply H2, N.
  - intros L y H. apply along_pub_depth in H. destruct H as [H1 H2]. destruct p as [|c p]; [unfold len in L; cbn [length] in L; lia|].
    destruct H2 as [H2 _]; [discriminate|]. lia.
Qed.
Lemma c55_depth_from_seed : forall (seed : bytes) (p : list N) (y : xprv), xprv_new_from_path seed p = Ok y ->
  depth (xprv_attrs y) = len p /\ len p <= 255.
Proof.
  intros seed p y H. rewrite along_new, along_bind in H. apply bind_ok in H. destruct H as (x & Hx & H).
  assert (D : depth (xprv_attrs x) = 0).
  { unfold xprv_new, xprv_new_with in Hx. destruct (negb _); [discriminate Hx|]. apply bind_ok in Hx. destruct Hx as (k & _ & Hx).
    apply (f_equal (fun r => match r with Ok z => depth (xprv_attrs z) | _ => 0 end)) in Hx. cbn [xprv_attrs depth] in Hx. symmetry. exact Hx. }
  apply along_prv_depth in H. rewrite D in H. destruct H as [H1 H2]. split; [lia|]. destruct p as [|c p]; [vm_compute; discriminate|].
  destruct H2 as [H2 _]; [discriminate|]. lia.
Qed.
Example c55_example : xprv_derive_from_path ex1_xprv [0] = Ok ex1_child /\ depth (xprv_attrs ex1_child) = 1.
Proof. split; [exact (proj1 (proj2 c50_example))|reflexivity]. Qed.

(** ** C56 *)
Lemma c56_hardened_needs_private : forall (y : xpub) (p : list N),
  Forall u32 p -> Exists (fun c => 2 ^ 31 <= c) p -> forall z, xpub_derive_from_path y p <> Ok z.
Proof.
  intros y p F E z. rewrite along_pub. revert y F. induction E as [c p Hc|c p E IH]; intros y F H; rewrite along_cons in H; apply bind_ok in H; destruct H as (y' & Hy & H).
  - apply Forall_inv in F. apply xpub_child_ok in Hy. destruct Hy as [Hh _]. rewrite hardened_iff in Hh by exact F. lia.
  - apply Forall_inv_tail in F. exact (IH y' F H).
Qed.
Lemma c56_error : forall (y y' : xpub) (p q : list N) (c : N), u32 c -> 2 ^ 31 <= c ->
  xpub_derive_from_path y p = Ok y' -> xpub_derive_from_path y (p ++ c :: q) = Err EChildNumber.
Proof.
  intros y y' p q c Hc H E. rewrite along_pub in *. rewrite along_app, E, along_cons.
  unfold xpub_derive_child, xpub_derive_child_with. rewrite hardened_iff by exact Hc. destruct (N.leb_spec (2 ^ 31) c) as [X|X]; [reflexivity|lia].
Qed.
Lemma c56_no_hardened_child : forall (y z : xpub) (p : list N), Forall u32 p -> p <> [] ->
  xpub_derive_from_path y p = Ok z -> child_number (xpub_attrs z) < 2 ^ 31.
Proof.
  intros y z p F N H. rewrite along_pub in H. pose proof (along_pub_depth p y z H) as [_ D]. destruct (D N) as [_ C]. rewrite C.
  destruct (exists_last N) as (q & c & ->). rewrite last_last.
  destruct (N.lt_ge_cases c (2 ^ 31)) as [L|L]; [exact L|exfalso].
  refine (c56_hardened_needs_private y (q ++ [c]) F _ z H). apply Exists_app. right. constructor. exact L.
Qed.
Example c56_example : xpub_derive_from_path (mkXPub G ex_attrs) [0; 2 ^ 31 + 5; 1] = Err EChildNumber.
Proof. apply (c56_error _ (xprv_public_key ex1_child) [0] [1]); [reflexivity|vm_compute; discriminate|]. exact c52_example. Qed.

(** ** C57 *)
Lemma xprv_new_valid seed x : xprv_new seed = Ok x -> valid_xprv x.
Proof.
  unfold xprv_new, xprv_new_with. destruct (negb _); [intros H; discriminate H|]. cbv zeta.
  pose proof (hmac_bytes bip39_domain_separator seed) as HI. revert HI. generalize (hmac_sha512 bip39_domain_separator seed). intros I HI H.
  apply bind_ok in H. destruct H as (k & Hk & H). unfold private_from_bytes in Hk.
  destruct (secret_parse (firstn 32 I)) as [k'|] eqn:E; [|discriminate Hk]. injection Hk as ->. apply secret_parse_iff in E. destruct E as [_ E].
  assert (X : x = mkXPrv k (mkAttrs 0 (repeat 0 4) 0 (skipn 32 I))) by congruence. subst x. split; [exact E|]. cbn [xprv_attrs].
  split; [reflexivity|]. split; [repeat (split || constructor)|]. split; [reflexivity|]. apply (halves I HI).
Qed.
Lemma xprv_from_str_valid s x : xprv_from_str s = Ok x -> valid_xprv x.
Proof.
  intros H. apply c43_valid_private_keys in H. destruct H as (payload & v & kb & Lay & _ & _ & _ & _ & R). split; [exact R|].
  apply layout_iff in Lay. apply Lay.
Qed.
Lemma xpub_from_str_valid s y : xpub_from_str s = Ok y -> valid_xpub y.
Proof.
  intros H. apply c44_curve_points in H. destruct H as (payload & v & key & Lay & _ & _ & _ & C & O).
  split; [|split; [exact O|apply layout_iff in Lay; apply Lay]]. destruct C as (u & w & _ & _ & E & _). rewrite E. discriminate.
Qed.
Lemma built_xprv_valid x : built_xprv x -> valid_xprv x.
Proof.
  induction 1 as [seed x _ H|s x _ H|x c y _ _ Hc H].
  - eapply xprv_new_valid, H.
  - eapply xprv_from_str_valid, H.
  - eapply xprv_child_valid; eassumption.
Qed.
Lemma built_xpub_valid y : built_xpub y -> valid_xpub y.
Proof.
  induction 1 as [x H|s y _ H|y c z _ IH Hc H].
  - apply xprv_public_valid, built_xprv_valid, H.
  - eapply xpub_from_str_valid, H.
  - eapply xpub_child_valid; [apply IH|exact Hc|exact H].
Qed.
Lemma c57_private_keys_valid : forall x : xprv, built_xprv x ->
  (0 < private_key x < secp_n)%Z /\ valid_attrs (xprv_attrs x)
  /\ is_public_point (private_key x) (public_key (xprv_public_key x))
  /\ public_key (xprv_public_key x) <> Infinity /\ on_curve (public_key (xprv_public_key x)).
Proof.
  intros x H. apply built_xprv_valid in H. pose proof (xprv_public_valid x H) as (F & O & _). destruct H as [Hk Ha].
  split; [exact Hk|]. split; [exact Ha|]. split; [|auto]. apply public_of_secret_ok. lia.
Qed.
Lemma c57_public_keys_valid : forall y : xpub, built_xpub y ->
  public_key y <> Infinity /\ on_curve (public_key y) /\ valid_attrs (xpub_attrs y).
Proof. exact built_xpub_valid. Qed.
Example c57_example : built_xprv ex_xprv /\ built_xpub ex_xpub.
Proof.
  split.
  - apply (built_seed ex_seed); [repeat constructor|apply c49_example].
  - apply (built_xpub_text ex_pub_text); [|apply c42_example]. apply Forall_forall. intros c Hc. vm_compute in Hc. 
    repeat (destruct Hc as [<-|Hc]; [vm_compute; auto|]). destruct Hc.
Qed.

(** ** C58 *)
Lemma c58_fingerprint_private : forall (x y : xprv) (c : N), valid_xprv x -> xprv_derive_child x c = Ok y ->
  parent_fingerprint (xprv_attrs y) = xpub_fingerprint (xprv_public_key x)
  /\ is_fingerprint (public_key (xprv_public_key x)) (parent_fingerprint (xprv_attrs y)).
Proof.
  intros x y c V H. pose proof (xprv_public_valid x V) as (F & O & _). apply xprv_child_ok in H. destruct H as (_ & _ & I & _ & Ha).
  rewrite Ha. cbn [parent_fingerprint]. split; [reflexivity|]. apply fingerprint_iff; auto.
Qed.
Lemma c58_fingerprint_public : forall (y z : xpub) (c : N), valid_xpub y -> xpub_derive_child y c = Ok z ->
  parent_fingerprint (xpub_attrs z) = xpub_fingerprint y /\ is_fingerprint (public_key y) (parent_fingerprint (xpub_attrs z)).
Proof.
  intros y z c (F & O & _) H. apply xpub_child_ok in H. destruct H as (_ & _ & _ & _ & I & _ & Ha).
  rewrite Ha. cbn [parent_fingerprint]. split; [reflexivity|]. apply fingerprint_iff; auto.
Qed.
Example c58_example : xprv_derive_child ex1_xprv 0 = Ok ex1_child /\ parent_fingerprint (xprv_attrs ex1_child) = [117; 30; 118; 232].
Proof. split; [exact (proj1 (proj2 c50_example))|reflexivity]. Qed.

(** ** C59 *)
Lemma c59_bad_hash_panics : forall hmac : bytes -> bytes -> bytes,
  (forall (x : xprv) (c : N) (data : bytes), valid_xprv x -> u32 c -> depth (xprv_attrs x) < 255 ->
     priv_data (private_key x) c data -> ~ usable (hmac (chain_code (xprv_attrs x)) data) -> xprv_derive_child_with hmac x c = Panic)
  /\ (forall (y : xpub) (c : N) (data : bytes), valid_xpub y -> c < 2 ^ 31 -> depth (xpub_attrs y) < 255 ->
     pub_data (public_key y) c data -> ~ usable (hmac (chain_code (xpub_attrs y)) data) -> xpub_derive_child_with hmac y c = Panic).
Proof.
  intros hmac. split.
  - intros x c data [Hk Ha] Hc Hd D U. apply priv_data_iff in D; [|assumption..]. subst data. rewrite xprv_step.
    destruct (N.ltb_spec (depth (xprv_attrs x)) 255) as [X|X]; [|lia]. rewrite (proj2 (parse_left _) U). reflexivity.
  - intros y c data (F & O & Ha) Hc Hd D U. assert (Hc' : u32 c) by (unfold u32; lia). apply pub_data_iff in D; [|assumption..]. subst data. rewrite xpub_step, hardened_iff by exact Hc'.
    destruct (N.leb_spec (2 ^ 31) c) as [Y|Y]; [lia|].
    destruct (N.ltb_spec (depth (xpub_attrs y)) 255) as [X|X]; [|lia]. rewrite (proj2 (parse_left _) U). reflexivity.
Qed.
Definition zero_hmac (k m : bytes) : bytes := repeat 0 64.
Lemma zero_unusable : ~ usable (repeat 0 64).
Proof. intros [H _]. vm_compute in H. discriminate H. Qed.
Lemma c59_bad_hash_is_error_refuted :
  ~ (forall hmac : bytes -> bytes -> bytes, (forall k m, has_bytes 64 (hmac k m)) ->
       forall (x : xprv) (c : N) (data : bytes), valid_xprv x -> u32 c -> depth (xprv_attrs x) < 255 ->
         priv_data (private_key x) c data -> ~ usable (hmac (chain_code (xprv_attrs x)) data) ->
         exists e, xprv_derive_child_with hmac x c = Err e).
Proof.
  intros H. destruct (H zero_hmac) with (x := ex1_xprv) (c := 0) (data := priv_input 1 0) as (e & E).
  - intros k m. repeat (split || constructor).
  - apply ex1_valid.
  - reflexivity.
  - reflexivity.
  - apply priv_data_iff; [split; reflexivity|reflexivity|reflexivity].
  - apply zero_unusable.
  - rewrite (proj1 (c59_bad_hash_panics zero_hmac) ex1_xprv 0 (priv_input 1 0)) in E; [discriminate E|apply ex1_valid|reflexivity|reflexivity| |apply zero_unusable].
    apply priv_data_iff; [split; reflexivity|reflexivity|reflexivity].
Qed.
(** Only the master key reports it. *)
Lemma c59_master_key_partial : forall (hmac : bytes -> bytes -> bytes) (seed : bytes), In (length seed) [16; 32; 64; 128]%nat ->
  ~ usable (hmac master_key_text seed) -> xprv_new_with hmac seed = Err ECrypto.
Proof.
  intros hmac seed L U. unfold xprv_new_with. rewrite separator_text. apply seed_length_iff in L. rewrite L. cbn [negb]. cbv zeta.
  unfold private_from_bytes. rewrite (proj2 (parse_left _) U). reflexivity.
Qed.
Example c59_example : ~ usable (repeat 0 64) /\ ~ usable (repeat 255 64) /\ valid_xprv ex1_xprv /\ depth (xprv_attrs ex1_xprv) < 255.
Proof. split; [apply zero_unusable|]. split; [intros [_ H]; vm_compute in H; discriminate H|]. split; [apply ex1_valid|reflexivity]. Qed.

(** ** C60 *)
Lemma prv_panic_iff x c : valid_xprv x -> u32 c -> (xprv_derive_child x c = Panic <-> depth (xprv_attrs x) < 255 /\ priv_hash_bad x c).
Proof.
  intros [Hk Ha] Hc. split.
  - intros H. unfold xprv_derive_child in H. rewrite xprv_step in H. destruct (N.ltb_spec (depth (xprv_attrs x)) 255) as [L|L]; [|discriminate H].
    split; [exact L|]. exists (priv_input (private_key x) c). split; [apply priv_data_iff; auto|]. intros U.
    rewrite (proj1 (parse_left _) U) in H. destruct (secret_tweak_add (private_key x) _); discriminate H.
  - intros (Hd & data & D & U). eapply (proj1 (c59_bad_hash_panics hmac_sha512)); [split; eassumption|eassumption..].
Qed.
Lemma c60_private_step : forall (x : xprv) (c : N), valid_xprv x -> u32 c ->
  (xprv_derive_child x c = Panic <-> depth (xprv_attrs x) < 255 /\ priv_hash_bad x c).
Proof. exact prv_panic_iff. Qed.
Lemma c60_public_step : forall (y : xpub) (c : N), valid_xpub y -> u32 c ->
  (xpub_derive_child y c = Panic <-> c < 2 ^ 31 /\ depth (xpub_attrs y) < 255 /\ pub_hash_bad y c).
Proof.
  intros y c (F & O & Ha) Hc. split.
  - intros H. unfold xpub_derive_child in H. rewrite xpub_step, hardened_iff in H by exact Hc.
    destruct (N.leb_spec (2 ^ 31) c) as [X|X]; [discriminate H|]. split; [exact X|].
    destruct (N.ltb_spec (depth (xpub_attrs y)) 255) as [L|L]; [|discriminate H].
    split; [exact L|]. exists (public_to_bytes (public_key y) ++ child_to_bytes c). split; [apply pub_data_iff; auto|]. intros U.
    rewrite (proj1 (parse_left _) U) in H. destruct (public_tweak_add (public_key y) _); discriminate H.
  - intros (Hh & Hd & data & D & U). eapply (proj2 (c59_bad_hash_panics hmac_sha512)); [split; [exact F|split; eassumption]|eassumption..].
Qed.
Lemma along_panic {K} (valid : K -> Prop) (f : K -> N -> R32 K) : (forall k c k', valid k -> u32 c -> f k c = Ok k' -> valid k') ->
  forall p k, valid k -> Forall u32 p -> (along f p (Ok k) = Panic <->
    exists p1 c p2 k', p = p1 ++ c :: p2 /\ along f p1 (Ok k) = Ok k' /\ f k' c = Panic).
Proof.
  intros Hv. induction p as [|c p IH]; intros k V F.
  - split; [intros H; discriminate H|]. intros ([|] & c & p2 & k' & E & _); discriminate E.
  - inversion F as [|? ? Hc F']; subst. rewrite along_cons. split.
    + intros H. apply bind_panic in H. destruct H as [H|(k' & Hk & H)].
      * exists [], c, p, k. auto.
      * apply IH in H; [|eapply Hv; eassumption|exact F']. destruct H as (p1 & c' & p2 & k'' & -> & H1 & H2).
        exists (c :: p1), c', p2, k''. split; [reflexivity|]. split; [rewrite along_cons, Hk; exact H1|exact H2].
    + intros (p1 & c' & p2 & k' & E & H1 & H2). destruct p1 as [|d p1].
      * injection E as <- <-. injection H1 as <-. rewrite H2. reflexivity.
      * injection E as <- ->. rewrite along_cons in H1. apply bind_ok in H1. destruct H1 as (k1 & Hk & H1). rewrite Hk. cbn [bind].
        apply IH; [eapply Hv; eassumption|exact F'|]. exists p1, c', p2, k'. auto.
Qed.
Lemma along_valid {K} (valid : K -> Prop) (f : K -> N -> R32 K) : (forall k c k', valid k -> u32 c -> f k c = Ok k' -> valid k') ->
  forall p k k', valid k -> Forall u32 p -> along f p (Ok k) = Ok k' -> valid k'.
Proof.
  intros Hv. induction p as [|c p IH]; intros k k' V F H; [injection H as <-; exact V|]. inversion F; subst.
  rewrite along_cons in H. apply bind_ok in H. destruct H as (k1 & Hk & H). eapply (IH k1); [eapply Hv; eassumption|assumption|exact H].
Qed.
Lemma c60_private_path : forall (x : xprv) (p : list N), valid_xprv x -> Forall u32 p ->
  (xprv_derive_from_path x p = Panic <->
   exists p1 c p2 y, p = p1 ++ c :: p2 /\ xprv_derive_from_path x p1 = Ok y /\ depth (xprv_attrs y) < 255 /\ priv_hash_bad y c).
Proof.
  intros x p V F. assert (Hv : forall k c k', valid_xprv k -> u32 c -> xprv_derive_child k c = Ok k' -> valid_xprv k') by (intros k c k' _; apply xprv_child_valid).
  rewrite along_prv, (along_panic valid_xprv) by assumption.
  split; intros (p1 & c & p2 & y & E & H1 & H2); exists p1, c, p2, y; (split; [exact E|]); (split; [exact H1|]).
  all: subst p; apply Forall_app in F; destruct F as [F1 F2]; apply Forall_inv in F2.
  all: apply prv_panic_iff; [eapply along_valid; eassumption|exact F2|exact H2].
Qed.
Lemma c60_public_path : forall (y : xpub) (p : list N), valid_xpub y -> Forall u32 p ->
  (xpub_derive_from_path y p = Panic <->
   exists p1 c p2 z, p = p1 ++ c :: p2 /\ xpub_derive_from_path y p1 = Ok z /\ c < 2 ^ 31 /\ depth (xpub_attrs z) < 255 /\ pub_hash_bad z c).
Proof.
  intros x p V F. assert (Hv : forall k c k', valid_xpub k -> u32 c -> xpub_derive_child k c = Ok k' -> valid_xpub k') by (intros k c k' (_ & O & _); apply xpub_child_valid, O).
  rewrite along_pub, (along_panic valid_xpub) by assumption.
  split; intros (p1 & c & p2 & y & E & H1 & H2); exists p1, c, p2, y; (split; [exact E|]); (split; [exact H1|]).
  all: subst p; apply Forall_app in F; destruct F as [F1 F2]; apply Forall_inv in F2.
  all: apply c60_public_step; [eapply along_valid; eassumption|exact F2|exact H2].
Qed.
Lemma c60_seed_path : forall (seed : bytes) (p : list N), bytes_ok seed -> Forall u32 p -> xprv_new_from_path seed p = Panic ->
  exists x p1 c p2 y, xprv_new seed = Ok x /\ p = p1 ++ c :: p2 /\ xprv_derive_from_path x p1 = Ok y /\ priv_hash_bad y c.
Proof.
  intros seed p B F H. rewrite along_new, along_bind in H. apply bind_panic in H. destruct H as [H|(x & Hx & H)].
  - destruct (proj2 (proj2 (c49_master_key seed B)) H).
  - apply c60_private_path in H; [|eapply xprv_new_valid, Hx|exact F]. destruct H as (p1 & c & p2 & y & E & H1 & _ & H2). exists x, p1, c, p2, y. auto.
Qed.
Lemma bind_no_panic {E A B} (m : res E A) (f : A -> res E B) : m <> Panic -> (forall a, m = Ok a -> f a <> Panic) -> bind m f <> Panic.
Proof. intros H1 H2 H. apply bind_panic in H. destruct H as [H|(a & Ha & H)]; [exact (H1 H)|exact (H2 a Ha H)]. Qed.
Lemma c60_other_entry_points : forall (s : str) (b seed : bytes) (v : N) (x : xprv) (y : xpub) (e : extended_key) (p : prefix),
  xprv_new seed <> Panic /\ ek_from_str s <> Panic /\ xprv_from_str s <> Panic /\ xpub_from_str s <> Panic
  /\ (valid_ext e -> ek_to_string e <> Panic /\ xprv_try_from e <> Panic /\ xpub_try_from e <> Panic)
  /\ (valid_prefix p -> prefix_as_str p <> Panic /\ (valid_xprv x -> xprv_to_string x p <> Panic) /\ (valid_xpub y -> xpub_to_string y p <> Panic))
  /\ prefix_from_version v <> Panic /\ prefix_try_from_slice b <> Panic
  /\ child_from_str s <> Panic /\ path_from_str s <> Panic /\ (forall hardened, child_new v hardened <> Panic).
Proof.
  intros s b seed v x y e p.
  assert (Vp : forall w, prefix_from_version w <> Panic).
  { intros w. destruct (from_version_cases w) as (t & _ & E). rewrite E. destruct (_ && _)%bool; discriminate. }
  assert (Te : forall e, valid_ext e -> ek_to_string e <> Panic) by (intros e' V; destruct (to_string_exists e' V) as (t & E & _); rewrite E; discriminate).
  assert (Px : forall e, valid_ext e -> xprv_try_from e <> Panic) by (intros e' V; destruct (xprv_try_from_total e' V) as [(z & E)|E]; rewrite E; discriminate).
  assert (Py : forall e, xpub_try_from e <> Panic) by (intros e'; destruct (xpub_try_from_total e') as [(z & E)|E]; rewrite E; discriminate).
  split.
  { unfold xprv_new, xprv_new_with. destruct (negb _); [discriminate|]. cbv zeta. unfold private_from_bytes.
    destruct (secret_parse _); cbn [ok_or bind]; discriminate. }
  split; [apply ek_from_str_no_panic|].
  split. { apply bind_no_panic; [apply ek_from_str_no_panic|]. intros e' E. apply Px. eapply from_str_valid, E. }
  split. { apply bind_no_panic; [apply ek_from_str_no_panic|]. intros e' _. apply Py. }
  split; [auto|]. split.
  { intros V. split.
    - destruct V as (_ & F & _). unfold prefix_as_str. rewrite from_utf8_ascii by (apply letters_ascii, F). discriminate.
    - split; intros W; apply Te; [apply xprv_ext_valid|apply xpub_ext_valid]; assumption. }
  split; [apply Vp|]. split. { unfold prefix_try_from_slice. destruct (len b =? 4); [apply Vp|discriminate]. }
  split. { unfold child_from_str. destruct (match strip_suffix 39 s with Some c => _ | None => _ end) as [t h]. apply bind_no_panic.
    - destruct (parse_u32 t); discriminate.
    - intros i _. unfold child_new. destruct (hardened_flag <=? i); [discriminate|]. destruct h; discriminate. }
  split. { unfold path_from_str. destruct (split_char 47 s) as [|f rest]; [discriminate|]. destruct (str_eqb f (lit "m")); [|discriminate].
    destruct (traverse_child_total rest) as [(q & E)|E]; rewrite E; discriminate. }
  intros h. unfold child_new. destruct (hardened_flag <=? v); [discriminate|]. destruct h; discriminate.
Qed.
Example c60_example : ~ priv_hash_bad ex1_xprv 0 /\ xprv_derive_child ex1_xprv 0 = Ok ex1_child.
Proof.
  pose proof (proj1 (proj2 c50_example)) as E. split; [|exact E]. intros H.
  assert (X : xprv_derive_child ex1_xprv 0 = Panic) by (apply prv_panic_iff; [apply ex1_valid|reflexivity|split; [reflexivity|exact H]]).
  rewrite E in X. discriminate X.
Qed.
