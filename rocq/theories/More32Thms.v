(** Proofs of more properties of keys (restated in PropMore32.v). *)
From Coq Require Import String ZifyBool ZifyNat ZifyN.
From Verif Require Import Outcome Bytes Str Hash HashLemmas Ripemd Secp SpecSecp SecpGroup SecpProofs SecpSign Base58.
From Verif Require Import ModelBip32 SpecBip32 SpecWallet ModelOrder SpecKeys.
From Verif Require Import Fermat SecpOrder SecpCount StrLemmas Base58Proofs PathThms ExtProofs KeyTextThms DeriveThms MiscThms More39Thms.
Open Scope N_scope.

(** ** C78 *)
Lemma normal_u32 c : c < 2 ^ 31 -> u32 c.
Proof. unfold u32. lia. Qed.
Lemma child_step_ok x c y : xprv_derive_child x c = Ok y ->
  exists t, t = left_half (hmac_sha512 (chain_code (xprv_attrs x)) (priv_input (private_key x) c)) /\ (0 < t < secp_n)%Z
    /\ private_key y = ((private_key x + t) mod secp_n)%Z
    /\ chain_code (xprv_attrs y) = right_half (hmac_sha512 (chain_code (xprv_attrs x)) (priv_input (private_key x) c)).
Proof.
  unfold xprv_derive_child. rewrite xprv_step. cbv zeta. destruct (_ <? 255); [|discriminate].
  set (I := hmac_sha512 _ _). pose proof (parse_left I) as [U B].
  destruct (usable_dec I) as [HU|HB]; [rewrite (U HU)|rewrite (B HB); discriminate].
  destruct (secret_tweak_add (private_key x) (left_half I)) as [k|] eqn:E; [|discriminate].
  apply secret_tweak_add_iff in E. destruct E as [E _]. intros H. assert (Hy := f_equal (fun r => match r with Ok z => Some z | _ => None end) H).
  cbn in Hy. clear H. assert (Hk : private_key y = k /\ chain_code (xprv_attrs y) = right_half I).
  { destruct y as [ky [d f cn cc]]. injection Hy as E1 _ _ _ E2. cbn. rewrite <- E1, <- E2. auto. }
  exists (left_half I). repeat split; [apply HU|apply HU|destruct Hk as [-> _]; exact E|apply Hk].
Qed.
Lemma normal_input x c : valid_xprv x -> c < 2 ^ 31 ->
  priv_input (private_key x) c = public_to_bytes (public_key (xprv_public_key x)) ++ child_to_bytes c.
Proof.
  intros _ Hc. unfold priv_input. rewrite hardened_iff by apply normal_u32, Hc.
  replace (2 ^ 31 <=? c) with false by (symmetry; apply N.leb_gt, Hc). reflexivity.
Qed.
Lemma c78_child_reveals_parent : forall (x y : xprv) (p : list N), valid_xprv x -> Forall (fun c => c < 2 ^ 31) p ->
  xprv_derive_from_path x p = Ok y ->
  (exists t, pub_tweaks (xprv_public_key x) p t)
  /\ (forall t, pub_tweaks (xprv_public_key x) p t -> private_key x = ((private_key y - t) mod secp_n)%Z).
Proof.
  intros x y p Hx Hp. rewrite along_prv. revert x Hx. induction Hp as [|c p Hc Hp IH]; intros x Hx H.
  - cbn in H. assert (y = x) as -> by congruence. split; [exists 0%Z; constructor|]. intros t Ht. inversion Ht; subst.
    rewrite Z.sub_0_r, Z.mod_small; [reflexivity|]. destruct Hx. lia.
  - rewrite along_cons in H. destruct (xprv_derive_child x c) as [z|e|] eqn:E; cbn [bind] in H; [|discriminate H|discriminate H].
    pose proof (xprv_child_valid _ _ _ (normal_u32 c Hc) E) as Hz. destruct (IH z Hz H) as [[t Ht] U].
    pose proof (derive_agree x c Hx Hc) as A. rewrite E in A. cbn [res_map] in A.
    pose proof (xprv_public_valid x Hx) as (F & O & _).
    destruct (child_step_ok _ _ _ E) as (t0 & Et & Bt & Ek & _). rewrite normal_input in Et by assumption.
    assert (P0 : pub_data (public_key (xprv_public_key x)) c (public_to_bytes (public_key (xprv_public_key x)) ++ child_to_bytes c)).
    { apply pub_data_iff; [exact F|exact O|apply normal_u32, Hc|reflexivity]. }
    split.
    + exists (t0 + t)%Z. econstructor; [|exact A|exact Ht]. eexists. split; [exact P0|exact Et].
    + intros t' Ht'. inversion Ht' as [|y0 c0 z0 p0 t1 ts Hd Hder Hts]; subst. rewrite A in Hder.
      assert (z0 = xprv_public_key z) as -> by congruence. clear Hder. apply U in Hts.
      destruct Hd as (data & Hd & ->). apply pub_data_iff in Hd; [|exact F|exact O|apply normal_u32, Hc]. rewrite Hd.
      change (xpub_attrs (xprv_public_key x)) with (xprv_attrs x) in *. set (t1 := left_half _) in *.
      rewrite Ek in Hts. destruct Hx as [Bx _].
      rewrite <- (Z.mod_small (private_key x) secp_n) at 1 by lia.
      apply mod_eq_divide; [exact n_nz|].
      assert (D1 : (secp_n | (private_key x + t1) - (private_key y - ts))%Z).
      { apply mod_eq_divide; [exact n_nz|]. exact Hts. }
      replace (private_key x - (private_key y - (t1 + ts)))%Z with ((private_key x + t1) - (private_key y - ts))%Z by ring. exact D1.
Qed.
(** The secret of the first child (of the key 1) and the tweak of that child, which has to be subtracted. *)
Example c78_example : exists t, pub_tweaks (mkXPub G ex_attrs) [0] t
  /\ t = (private_key ex1_child - 1)%Z /\ ((private_key ex1_child - t) mod secp_n)%Z = private_key ex1_xprv.
Proof.
  assert (D : xprv_derive_from_path ex1_xprv [0] = Ok ex1_child) by (rewrite along_prv, along_cons; destruct c50_example as (_ & E & _); rewrite E; reflexivity).
  destruct (c78_child_reveals_parent ex1_xprv ex1_child [0] ex1_valid) as [[t Ht] U]; [repeat constructor|exact D|].
  assert (Ep : xprv_public_key ex1_xprv = mkXPub G ex_attrs) by (unfold xprv_public_key; cbn [ex1_xprv private_key xprv_attrs]; rewrite ex1_public; reflexivity).
  pose proof (U t Ht) as E. rewrite Ep in Ht. exists t. split; [exact Ht|]. split; [|symmetry; exact E].
  inversion Ht as [|y0 c0 z0 p0 t1 ts Hd Hder Hts]; subst. inversion Hts; subst.
  destruct c50_example as (_ & E1 & _). destruct (child_step_ok _ _ _ E1) as (t0 & Et & Bt & Ek & _).
  rewrite Z.add_0_r in *. change (private_key ex1_xprv) with 1%Z in *.
  destruct Hd as (data & Hd & Ed). destruct (xprv_public_valid ex1_xprv ex1_valid) as (F & O & _). rewrite Ep in F, O.
  apply pub_data_iff in Hd; [|exact F|exact O|reflexivity]. subst data.
  pose proof (normal_input ex1_xprv 0 ex1_valid eq_refl) as EI. rewrite Ep in EI. cbn [ex1_xprv private_key] in EI.
  rewrite EI in Et. cbn [ex1_xprv xprv_attrs] in Et. cbn [xpub_attrs public_key] in *. assert (t1 = t0) as -> by (etransitivity; [exact Ed|symmetry; exact Et]).
  clear - Bt Ek. assert (H1 : (1 + t0 < secp_n \/ 1 + t0 = secp_n)%Z) by lia. destruct H1 as [H1|H1].
  - rewrite Z.mod_small in Ek by lia. lia.
  - rewrite H1, Z.mod_same in Ek by exact n_nz. discriminate Ek.
Qed.

(** ** C79 *)
Lemma public_injective k k' : (0 < k < secp_n)%Z -> (0 < k' < secp_n)%Z -> private_public_key k = private_public_key k' -> k = k'.
Proof. intros H H' E. rewrite !private_public in E by lia. apply kG_inj; [lia|lia|exact E]. Qed.
Lemma public_bytes_inj P Q : P <> Infinity -> on_curve P -> Q <> Infinity -> on_curve Q -> public_to_bytes P = public_to_bytes Q -> P = Q.
Proof.
  intros F O F' O' E. destruct (finite_point P F) as (x & y & ->). destruct (finite_point Q F') as (x' & y' & ->).
  pose proof (parse_serialize x y O) as A. pose proof (parse_serialize x' y' O') as B. unfold public_to_bytes in E. rewrite E in A. congruence.
Qed.
Lemma xpub_text_inj y y' p s : valid_xpub y -> valid_xpub y' -> valid_prefix p -> xpub_to_string y p = Ok s -> xpub_to_string y' p = Ok s -> y = y'.
Proof.
  intros V V' Hp H H'. unfold xpub_to_string in *.
  apply to_string_iff in H; [|apply xpub_ext_valid; assumption]. apply to_string_iff in H'; [|apply xpub_ext_valid; assumption].
  pose proof (ek_payload_layout _ (xpub_ext_valid _ _ V Hp)) as L. pose proof (ek_payload_layout _ (xpub_ext_valid _ _ V' Hp)) as L'.
  assert (E : ek_payload (xpub_to_extended_key y p) = ek_payload (xpub_to_extended_key y' p)).
  { eapply base58check_inj; [| |exact H|exact H']; [apply (layout_bytes _ _ _ _ L)|apply (layout_bytes _ _ _ _ L')]. }
  rewrite <- E in L'. apply layout_fields in L. apply layout_fields in L'.
  destruct y as [P a], y' as [P' a']. cbn [xpub_to_extended_key ek_attrs key_bytes xpub_attrs] in *.
  unfold xpub_to_bytes in *. cbn [public_key] in *. destruct V as (F & O & _), V' as (F' & O' & _). cbn [public_key] in *.
  assert (K : public_to_bytes P = public_to_bytes P' /\ a = a').
  { destruct L as (_ & L1 & L2 & L3 & L4 & L5), L' as (_ & L1' & L2' & L3' & L4' & L5'). rewrite L1 in L1'. rewrite L2 in L2'. rewrite L3 in L3'.
    rewrite L4 in L4'. rewrite L5 in L5'. split; [exact L5'|]. destruct a as [a1 a2 a3 a4], a' as [b1 b2 b3 b4].
    cbn [depth parent_fingerprint child_number chain_code] in *. injection L1' as ->. subst. reflexivity. }
  destruct K as [K ->]. f_equal. apply public_bytes_inj; assumption.
Qed.
Lemma c79_public_key_identifies : forall x x' : xprv, valid_xprv x -> valid_xprv x' ->
  (xprv_public_key x = xprv_public_key x' <-> x = x')
  /\ (xpub_to_bytes (xprv_public_key x) = xpub_to_bytes (xprv_public_key x') <-> private_key x = private_key x')
  /\ (forall (p : prefix) (s : str), valid_prefix p ->
        xpub_to_string (xprv_public_key x) p = Ok s -> xpub_to_string (xprv_public_key x') p = Ok s -> x = x').
Proof.
  intros x x' V V'. pose proof (xprv_public_valid x V) as W. pose proof (xprv_public_valid x' V') as W'.
  assert (P : xprv_public_key x = xprv_public_key x' -> x = x').
  { intros E. destruct x as [k a], x' as [k' a']. unfold xprv_public_key in E. cbn [private_key xprv_attrs] in E.
    assert (E1 : private_public_key k = private_public_key k') by congruence. assert (E2 : a = a') by congruence.
    destruct V, V'. cbn in *. subst a'. f_equal. apply public_injective; assumption. }
  split; [split; [exact P|intros ->; reflexivity]|]. split.
  - split; [|unfold xprv_public_key; intros ->; reflexivity]. intros E. unfold xpub_to_bytes in E.
    destruct W as (F & O & _), W' as (F' & O' & _). apply public_bytes_inj in E; try assumption.
    destruct V, V'. apply public_injective; assumption.
  - intros p s Hp H H'. apply P. eapply xpub_text_inj; eassumption.
Qed.
Example c79_example : private_key ex1_child <> private_key ex1_hardened
  /\ xpub_to_bytes (xprv_public_key ex1_child) <> xpub_to_bytes (xprv_public_key ex1_hardened).
Proof.
  assert (N : private_key ex1_child <> private_key ex1_hardened) by (vm_compute; discriminate).
  split; [exact N|]. intros E. apply N. destruct c50_example as (_ & A & B & _).
  pose proof (xprv_child_valid _ 0 _ eq_refl A) as VA. pose proof (xprv_child_valid _ (2 ^ 31) _ eq_refl B) as VB.
  exact (proj1 (proj1 (proj2 (c79_public_key_identifies _ _ VA VB))) E).
Qed.

(** ** C80 *)
Lemma c80_watch_only_verifies : forall (fuel : nat) (x y : xprv) (p : list N) (msg sig : bytes) (recid : N),
  valid_xprv x -> Forall (fun c => c < 2 ^ 31) p -> xprv_derive_from_path x p = Ok y ->
  ecdsa_sign fuel (secret_of_xprv y) msg = Some (Ok (sig, recid)) ->
  exists z r s rb sb, xpub_derive_from_path (xprv_public_key x) p = Ok z
    /\ sig = rb ++ sb /\ is_ser256 r rb /\ is_ser256 s sb
    /\ (r <> 0%Z -> ecdsa_valid (public_of_xpub z) (digest_val msg) r s
          /\ ecdsa_recovers recid (digest_val msg) r s (public_of_xpub z)).
Proof.
  intros fuel x y p msg sig recid V Hp D S.
  assert (Hu : Forall u32 p) by (eapply Forall_impl; [|exact Hp]; intros c Hc; apply normal_u32, Hc).
  assert (Vy : valid_xprv y).
  { rewrite along_prv in D. eapply (along_valid valid_xprv xprv_derive_child); [|exact V|exact Hu|exact D].
    intros k c k' _ Hc E. eapply xprv_child_valid; eassumption. }
  pose proof (c53_watch_only x p V Hp) as W. rewrite D in W. cbn [res_map] in W.
  destruct (c64_signatures_are_valid fuel _ msg sig recid (proj1 Vy) S) as (r & s & rb & sb & E & Rr & Rs & _ & _ & _ & U).
  exists (xprv_public_key y), r, s, rb, sb. split; [exact W|]. split; [exact E|]. split; [exact Rr|]. split; [exact Rs|].
  intros Hr. apply (U Hr). unfold public_of_xpub, xprv_public_key. cbn [public_key]. apply public_of_secret_ok. destruct Vy. lia.
Qed.
Example c80_example : xprv_derive_from_path ex1_xprv [0] = Ok ex1_child
  /\ xpub_derive_from_path (mkXPub G ex_attrs) [0] = Ok (xprv_public_key ex1_child).
Proof.
  split; [|apply c53_example]. rewrite along_prv, along_cons. destruct c50_example as (_ & E & _). rewrite E. reflexivity.
Qed.

(** ** C81 *)
Lemma inverse_mod w w' r v : (secp_n | w * r - 1)%Z -> (secp_n | w' * r - 1)%Z -> ((w * v) mod secp_n = (w' * v) mod secp_n)%Z.
Proof.
  intros D D'. apply mod_eq_divide; [exact n_nz|].
  replace (w * v - w' * v)%Z with ((w * r - 1) * (w' * v) - (w' * r - 1) * (w * v))%Z by ring.
  apply Z.divide_sub_r; apply Z.divide_mul_l; assumption.
Qed.
Lemma curve_point_unique x y y' : on_curve (Point x y) -> on_curve (Point x y') -> Z.odd y = Z.odd y' -> y = y'.
Proof.
  intros (Bx & By & E) (_ & By' & E') P. pose proof (curve_y_nz x y By E). pose proof (curve_y_nz x y' By' E').
  destruct (same_square y y') as [->| ->]; [lia|lia| |reflexivity|].
  - unfold modp_eq in *. replace (y * y - y' * y')%Z with ((y * y - (x * x * x + 7)) - (y' * y' - (x * x * x + 7)))%Z by ring.
    apply Z.divide_sub_r; assumption.
  - rewrite sub_p_parity in P. destruct (Z.odd y); discriminate P.
Qed.
Lemma recovers_unique recid z r s Q Q' : ecdsa_recovers recid z r s Q -> ecdsa_recovers recid z r s Q' -> Q = Q'.
Proof.
  intros (x & y & w & A & B & O & Ex & Py & D & MA & MB & S) (x' & y' & w' & A' & B' & O' & Ex' & Py' & D' & MA' & MB' & S').
  rewrite <- Ex in Ex'. subst x'. rewrite <- Py in Py'. pose proof (curve_point_unique x y y' O O' (eq_sym Py')) as <-.
  rewrite (inverse_mod w w' r s D D') in MA. rewrite (inverse_mod w w' r (- z) D D') in MB.
  apply ec_multiple_iff in MA; [|exact O]. apply ec_multiple_iff in MA'; [|exact O].
  apply ec_multiple_iff in MB; [|exact G_on]. apply ec_multiple_iff in MB'; [|exact G_on]. subst A' B'. rewrite <- MA, <- MB in S'.
  assert (OA : on_curve A) by (rewrite MA; apply smul_on, O). assert (OB : on_curve B) by (rewrite MB; apply smul_on, G_on).
  apply ec_sum_iff in S; [|exact OA|exact OB]. apply ec_sum_iff in S'; [|exact OA|exact OB]. congruence.
Qed.
Lemma ser256_inj a b c : is_ser256 a c -> is_ser256 b c -> a = b.
Proof. intros [_ <-] [_ <-]. reflexivity. Qed.
Lemma split_signature (r1 r2 s1 s2 : bytes) : has_bytes 32 r1 -> has_bytes 32 r2 -> r1 ++ s1 = r2 ++ s2 -> r1 = r2 /\ s1 = s2.
Proof. intros [L _] [L' _] E. apply app_inj_len in E; [exact E|congruence]. Qed.
Lemma c81_recovery_is_unique : forall (recid : N) (z r s : Z) (Q Q' : point),
  ecdsa_recovers recid z r s Q -> ecdsa_recovers recid z r s Q' -> Q = Q'.
Proof. exact recovers_unique. Qed.
Lemma c81_signature_identifies_signer : forall (f f' : nat) (k k' : Z) (msg sig : bytes) (recid : N),
  (0 < k < secp_n)%Z -> (0 < k' < secp_n)%Z ->
  ecdsa_sign f k msg = Some (Ok (sig, recid)) -> ecdsa_sign f' k' msg = Some (Ok (sig, recid)) ->
  firstn 32 sig <> repeat 0 32 -> k = k'.
Proof.
  intros f f' k k' msg sig recid Hk Hk' H H' N.
  destruct (c64_signatures_are_valid _ _ _ _ _ Hk H) as (r & s & rb & sb & E & Rr & Rs & _ & Br & _ & U).
  destruct (c64_signatures_are_valid _ _ _ _ _ Hk' H') as (r' & s' & rb' & sb' & E' & Rr' & Rs' & _ & _ & _ & U').
  clear H H'. rewrite E in E'. apply split_signature in E'; [|apply Rr|apply Rr']. destruct E' as [<- <-].
  rewrite (ser256_inj _ _ _ Rr' Rr) in U'. rewrite (ser256_inj _ _ _ Rs' Rs) in U'.
  assert (Hr : r <> 0%Z).
  { intros ->. apply N. rewrite E. assert (Er : rb = repeat 0 32) by (rewrite (ser256_fun _ _ Rr); reflexivity).
    rewrite Er, firstn_app. reflexivity. }
  destruct (U Hr (kG k)) as [_ R]; [apply is_public_point_iff; split; [lia|reflexivity]|].
  destruct (U' Hr (kG k')) as [_ R']; [apply is_public_point_iff; split; [lia|reflexivity]|].
  pose proof (recovers_unique _ _ _ _ _ _ R R') as EQ. apply kG_inj in EQ; [exact EQ|lia|lia].
Qed.
(** The signature of the digest 5 by the key 1 with the nonce 1 recovers the generator. *)
Example c81_example : ecdsa_recovers 0 5 gx (gx + 5) G /\ forall Q, ecdsa_recovers 0 5 gx (gx + 5) Q -> Q = G.
Proof.
  assert (R : ecdsa_recovers 0 5 gx (gx + 5) G) by apply c64_example. split; [exact R|]. intros Q HQ. exact (recovers_unique _ _ _ _ _ _ HQ R).
Qed.

(** ** C82 *)
Lemma hex_inj u a b : bytes_ok a -> bytes_ok b -> flat_map (hex_byte u) a = flat_map (hex_byte u) b -> a = b.
Proof.
  intros Ha Hb E. pose proof (Bip39Thms.unhex_flat u a Ha) as A. rewrite E, (Bip39Thms.unhex_flat u b Hb) in A. congruence.
Qed.
Lemma prefix_str p : valid_prefix p -> prefix_as_str p = Ok (chars p).
Proof. intros (_ & L & _). unfold prefix_as_str. rewrite from_utf8_ascii by apply letters_ascii, L. reflexivity. Qed.
Lemma c82_prefix_texts : forall p : prefix, valid_prefix p ->
  prefix_as_str p = Ok (chars p)
  /\ exists vb hex, is_ser32 (version p) vb /\ is_hex vb hex
       /\ prefix_debug p = Ok (lit "Prefix { chars: " ++ quote ++ chars p ++ quote ++ lit ", version: 0x" ++ hex ++ lit " }").
Proof.
  intros p V. split; [apply prefix_str, V|]. exists (be_bytes 4 (version p)), (flat_map (hex_byte false) (be_bytes 4 (version p))).
  split; [split; [apply has_bytes_be|apply val_of_be, u32_iff, V]|]. split; [apply hex_text, has_bytes_be|].
  unfold prefix_debug. rewrite prefix_str by exact V. reflexivity.
Qed.
Lemma c82_debug_identifies_prefix : forall p q : prefix, valid_prefix p -> valid_prefix q ->
  prefix_debug p = prefix_debug q -> p = q.
Proof.
  intros p q V W H. unfold prefix_debug in H. rewrite !prefix_str in H by assumption. cbn [bind] in H.
  apply (f_equal (fun r => match r with Ok s => s | _ => [] end)) in H. apply app_inv_head in H. apply (app_inv_head [34]) in H.
  destruct V as (L & _ & U), W as (L' & _ & U'). apply app_inj_len in H; [|congruence]. destruct H as [E H].
  apply (app_inv_head [34]) in H. apply app_inv_head in H. apply app_inv_tail in H. apply hex_inj in H; [|apply has_bytes_be|apply has_bytes_be].
  assert (Ev : version p = version q).
  { rewrite <- (val_of_be 4 (version p)), <- (val_of_be 4 (version q)) by (apply u32_iff; assumption). rewrite H. reflexivity. }
  destruct p, q. cbn in E, Ev. subst. reflexivity.
Qed.
Example c82_example : prefix_debug XPUB = Ok (lit "Prefix { chars: " ++ quote ++ lit "xpub" ++ quote ++ lit ", version: 0x0488b21e }").
Proof.
  vm_compute. reflexivity.
Qed.

(** ** C83 *)
Lemma c83_error_texts : forall e e' : error, error_display e = error_display e' -> e = e'.
Proof.
  intros e e' H. destruct e, e'; try reflexivity; discriminate H.
Qed.
Lemma child_from_str_errors s e : child_from_str s = Err e -> e = EChildNumber.
Proof.
  unfold child_from_str. destruct (strip_suffix 39 s) as [c|].
  1: destruct (parse_u32 c) as [i|]; cbn; [|congruence]; unfold child_new; destruct (_ <=? _); congruence.
  destruct (parse_u32 s) as [i|]; cbn; [|congruence]; unfold child_new; destruct (_ <=? _); congruence.
Qed.
Lemma traverse_err {A B} (f : A -> R32 B) l e : traverse f l = Err e -> exists a, In a l /\ f a = Err e.
Proof.
  induction l as [|a l IH]; [discriminate|]. cbn. destruct (f a) as [b|e'|] eqn:E; cbn; [|intros H; exists a; split; [auto|congruence]|discriminate].
  destruct (traverse f l) as [t|e'|]; cbn; intros H; [discriminate H| |discriminate H].
  destruct (IH H) as (a' & Ha & E'). exists a'. auto.
Qed.
Lemma ek_err s e : ek_from_str s = Err e -> e = EBase58 \/ e = EDecode.
Proof.
  unfold ek_from_str, from_b58. destruct (decode_check_into _ _) as [payload|b|]; cbn [map_err bind]; [|intros H; left; congruence|discriminate].
  destruct (negb _); [intros H; right; congruence|].
  destruct (str_get_to 4 s) as [cs|]; cbn [ok_or bind]; [|intros H; right; congruence].
  destruct (validate_total (utf8 cs)) as [E|E]; rewrite E; cbn [bind]; [|intros H; right; congruence].
  unfold from_parts_unchecked. rewrite E. cbn [bind]. unfold index. destruct (nth_error payload _); cbn [bind]; discriminate.
Qed.
Lemma xprv_try_err e0 e : valid_ext e0 -> xprv_try_from e0 = Err e -> e = ECrypto.
Proof. intros V H. destruct (xprv_try_from_total e0 V) as [[x E]|E]; congruence. Qed.
Lemma xpub_try_err e0 e : xpub_try_from e0 = Err e -> e = ECrypto.
Proof. intros H. destruct (xpub_try_from_total e0) as [[x E]|E]; congruence. Qed.
Lemma along_err {K} (f : K -> N -> R32 K) p e :
  forall k, along f p (Ok k) = Err e -> exists k' c, f k' c = Err e.
Proof.
  induction p as [|c p IH]; intros k H; [discriminate H|]. rewrite along_cons in H.
  destruct (f k c) as [k'|e'|] eqn:E; cbn [bind] in H; [eapply IH, H| |discriminate H]. exists k, c. congruence.
Qed.
Lemma xprv_child_err x c e : xprv_derive_child x c = Err e -> e = EDepth \/ e = ECrypto.
Proof.
  unfold xprv_derive_child. rewrite xprv_step. cbv zeta. destruct (_ <? 255); [|intros H; left; congruence].
  destruct (secret_parse _) as [t|]; [|discriminate]. destruct (secret_tweak_add _ _); [discriminate|]. intros H. right. congruence.
Qed.
Lemma xpub_child_err y c e : xpub_derive_child y c = Err e -> e = EChildNumber \/ e = EDepth \/ e = ECrypto.
Proof.
  unfold xpub_derive_child. rewrite xpub_step. cbv zeta. destruct (child_is_hardened c); [intros H; left; congruence|].
  destruct (_ <? 255); [|intros H; right; left; congruence].
  destruct (secret_parse _) as [t|]; [|discriminate]. destruct (public_tweak_add _ _); [discriminate|]. intros H. right. right. congruence.
Qed.
Lemma xprv_new_err seed e : xprv_new seed = Err e -> e = ESeedLength \/ e = ECrypto.
Proof.
  unfold xprv_new, xprv_new_with. destruct (negb _); [intros H; left; congruence|]. cbv zeta. unfold private_from_bytes.
  destruct (secret_parse _); cbn [ok_or bind]; [discriminate|]. intros H. right. congruence.
Qed.
Lemma c83_parsing_errors : forall (s : str) (b : bytes) (v : N) (h : bool) (e : error),
  (child_new v h = Err e -> e = EChildNumber) /\ (child_from_str s = Err e -> e = EChildNumber)
  /\ (path_from_str s = Err e -> e = EDecode \/ e = EChildNumber)
  /\ (prefix_from_version v = Err e -> e = EDecode) /\ (prefix_try_from_slice b = Err e -> e = EDecode)
  /\ (ek_from_str s = Err e -> e = EBase58 \/ e = EDecode)
  /\ (xprv_from_str s = Err e -> e = EBase58 \/ e = EDecode \/ e = ECrypto)
  /\ (xpub_from_str s = Err e -> e = EBase58 \/ e = EDecode \/ e = ECrypto).
Proof.
  intros s b v h e. assert (PV : forall v', prefix_from_version v' = Err e -> e = EDecode).
  { intros v' H. destruct (from_version_cases v') as (t & _ & E). rewrite E in H. destruct (_ && _)%bool; congruence. }
  split; [unfold child_new; destruct (_ <=? _), h; congruence|]. split; [apply child_from_str_errors|]. split.
  { unfold path_from_str. destruct (split_char 47 s) as [|f r]; [intros H; left; congruence|]. destruct (str_eqb _ _); [|intros H; left; congruence].
    intros H. destruct (traverse_err _ _ _ H) as (a & _ & Ha). right. eapply child_from_str_errors, Ha. }
  split; [apply PV|]. split.
  { unfold prefix_try_from_slice, prefix_from_bytes. destruct (_ =? 4); [apply PV|congruence]. }
  split; [apply ek_err|]. split.
  - unfold xprv_from_str. destruct (ek_from_str s) as [e0|e0|] eqn:E; cbn [bind]; [|intros H; assert (e0 = e) as -> by congruence; destruct (ek_err _ _ E); auto|discriminate].
    intros H. right. right. eapply xprv_try_err; [eapply from_str_valid, E|exact H].
  - unfold xpub_from_str. destruct (ek_from_str s) as [e0|e0|] eqn:E; cbn [bind]; [|intros H; assert (e0 = e) as -> by congruence; destruct (ek_err _ _ E); auto|discriminate].
    intros H. right. right. eapply xpub_try_err, H.
Qed.
Lemma c83_derivation_errors : forall (seed : bytes) (x : xprv) (y : xpub) (c : N) (p : list N) (e : error),
  (xprv_new seed = Err e -> e = ESeedLength \/ e = ECrypto)
  /\ (xprv_derive_child x c = Err e -> e = EDepth \/ e = ECrypto)
  /\ (xprv_derive_from_path x p = Err e -> e = EDepth \/ e = ECrypto)
  /\ (xprv_new_from_path seed p = Err e -> e = ESeedLength \/ e = EDepth \/ e = ECrypto)
  /\ (xpub_derive_child y c = Err e -> e = EChildNumber \/ e = EDepth \/ e = ECrypto)
  /\ (xpub_derive_from_path y p = Err e -> e = EChildNumber \/ e = EDepth \/ e = ECrypto).
Proof.
  intros seed x y c p e.
  assert (PP : forall x', xprv_derive_from_path x' p = Err e -> e = EDepth \/ e = ECrypto).
  { intros x' H. rewrite along_prv in H. apply along_err in H.
    destruct H as (k & c' & H). eapply xprv_child_err, H. }
  split; [apply xprv_new_err|]. split; [apply xprv_child_err|]. split; [apply PP|]. split; [|split; [apply xpub_child_err|]].
  - destruct (c54_path_composes x y seed p [] c) as (_ & _ & _ & _ & _ & _ & E). rewrite E. clear E.
    destruct (xprv_new seed) as [x'|e'|] eqn:E; cbn [bind]; [intros H; right; apply (PP x'), H| |discriminate].
    intros H. assert (e' = e) as -> by congruence. destruct (xprv_new_err _ _ E); auto.
  - intros H. rewrite along_pub in H. apply along_err in H.
    destruct H as (k & c' & H). eapply xpub_child_err, H.
Qed.
(** Each error but Crypto in its place. *)
Example c83_example : child_from_str (lit "2147483648") = Err EChildNumber /\ path_from_str (lit "44/0") = Err EDecode
  /\ path_from_str (lit "m/x") = Err EChildNumber /\ prefix_try_from_slice [1; 2; 3] = Err EDecode
  /\ ek_from_str (lit "xprv0") = Err EBase58 /\ xprv_new [] = Err ESeedLength
  /\ xprv_derive_child (mkXPrv 1 (mkAttrs 255 [0; 0; 0; 0] 0 (repeat 0 32))) 0 = Err EDepth
  /\ error_display ECrypto = lit "cryptographic error".
Proof.
  repeat split; vm_compute; reflexivity.
Qed.

(** ** C84 *)
Lemma two_halves I J : has_bytes 64 I -> has_bytes 64 J -> left_half I = left_half J -> right_half I = right_half J -> I = J.
Proof.
  intros HI HJ L R. destruct (halves I HI) as [[LI BI] _], (halves J HJ) as [[LJ BJ] _].
  rewrite <- (firstn_skipn 32 I), <- (firstn_skipn 32 J). unfold right_half in R. rewrite R. f_equal.
  unfold left_half in L. apply N2Z.inj in L. eapply digits_val_inj; [exact BI|exact BJ|congruence|exact L].
Qed.
Lemma ser32_inj c d : u32 c -> u32 d -> child_to_bytes c = child_to_bytes d -> c = d.
Proof.
  intros Hc Hd E. unfold child_to_bytes in E. rewrite <- (val_of_be 4 c), <- (val_of_be 4 d) by (apply u32_iff; assumption). rewrite E. reflexivity.
Qed.
Lemma priv_input_inj k c d : u32 c -> u32 d -> priv_input k c = priv_input k d -> c = d.
Proof.
  intros Hc Hd E. apply ser32_inj; [exact Hc|exact Hd|]. unfold priv_input in E.
  assert (L : forall a b x y : bytes, length x = 4%nat -> length y = 4%nat -> a ++ x = b ++ y -> x = y).
  { intros a b x y Lx Ly H. assert (La : length a = length b) by (apply (f_equal (@length N)) in H; rewrite !app_length in H; lia).
    apply app_inj_len in H; [apply H|exact La]. }
  eapply L; [apply has_bytes_be|apply has_bytes_be|exact E].
Qed.
Lemma c84_siblings_collide : forall (x y1 y2 : xprv) (c1 c2 : N), valid_xprv x -> u32 c1 -> u32 c2 -> c1 <> c2 ->
  xprv_derive_child x c1 = Ok y1 -> xprv_derive_child x c2 = Ok y2 ->
  exists d1 d2, priv_data (private_key x) c1 d1 /\ priv_data (private_key x) c2 d2 /\ d1 <> d2
    /\ (private_key y1 = private_key y2 <->
          left_half (hmac_sha512 (chain_code (xprv_attrs x)) d1) = left_half (hmac_sha512 (chain_code (xprv_attrs x)) d2))
    /\ (private_key y1 = private_key y2 /\ chain_code (xprv_attrs y1) = chain_code (xprv_attrs y2) <->
          hmac_sha512 (chain_code (xprv_attrs x)) d1 = hmac_sha512 (chain_code (xprv_attrs x)) d2).
Proof.
  intros x y1 y2 c1 c2 V H1 H2 N D1 D2. exists (priv_input (private_key x) c1), (priv_input (private_key x) c2).
  split; [apply priv_data_iff; [apply V|exact H1|reflexivity]|]. split; [apply priv_data_iff; [apply V|exact H2|reflexivity]|].
  split; [intros E; apply N; eapply priv_input_inj; eassumption|].
  destruct (child_step_ok _ _ _ D1) as (t1 & E1 & B1 & K1 & R1). destruct (child_step_ok _ _ _ D2) as (t2 & E2 & B2 & K2 & R2).
  pose proof (hmac_bytes (chain_code (xprv_attrs x)) (priv_input (private_key x) c1)) as J1.
  pose proof (hmac_bytes (chain_code (xprv_attrs x)) (priv_input (private_key x) c2)) as J2.
  revert E1 R1 E2 R2 J1 J2. generalize (hmac_sha512 (chain_code (xprv_attrs x)) (priv_input (private_key x) c1)) as I1.
  generalize (hmac_sha512 (chain_code (xprv_attrs x)) (priv_input (private_key x) c2)) as I2. intros I2 I1 E1 R1 E2 R2 J1 J2.
  assert (A : private_key y1 = private_key y2 <-> t1 = t2).
  { split; [|intros E; rewrite K1, K2, E; reflexivity]. rewrite K1, K2. intros E. apply mod_eq_divide in E; [|exact n_nz].
    replace (private_key x + t1 - (private_key x + t2))%Z with (t1 - t2)%Z in E by ring.
    apply mod_eq_divide in E; [|exact n_nz]. rewrite !Z.mod_small in E by lia. exact E. }
  rewrite A, E1, E2. split; [reflexivity|]. rewrite R1, R2. split.
  - intros [L R]. apply two_halves; assumption.
  - intros ->. auto.
Qed.
Lemma c84_seeds_collide : forall (s1 s2 : bytes) (x1 x2 : xprv), bytes_ok s1 -> bytes_ok s2 ->
  xprv_new s1 = Ok x1 -> xprv_new s2 = Ok x2 ->
  (x1 = x2 <-> hmac_sha512 master_key_text s1 = hmac_sha512 master_key_text s2).
Proof.
  intros s1 s2 x1 x2 B1 B2 H1 H2.
  assert (M : forall s x, bytes_ok s -> xprv_new s = Ok x ->
     x = mkXPrv (left_half (hmac_sha512 master_key_text s)) (mkAttrs 0 [0; 0; 0; 0] 0 (right_half (hmac_sha512 master_key_text s)))).
  { intros s x B H. destruct (c49_master_key s B) as (Hl & Hu & _). cbv zeta in *.
    destruct (in_dec Nat.eq_dec (length s) [16; 32; 64; 128]%nat) as [i|i]; [|rewrite (Hl i) in H; discriminate H].
    destruct (Hu i) as [U W]. destruct (usable_dec (hmac_sha512 master_key_text s)) as [u|u]; [|rewrite (W u) in H; discriminate H].
    rewrite (U u) in H. exact (f_equal (fun r => match r with Ok z => z | _ => x end) (eq_sym H)). }
  apply M in H1; [|exact B1]. apply M in H2; [|exact B2]. clear M.
  pose proof (hmac_bytes master_key_text s1) as J1. pose proof (hmac_bytes master_key_text s2) as J2. revert H1 H2 J1 J2.
  generalize (hmac_sha512 master_key_text s1) as I1. generalize (hmac_sha512 master_key_text s2) as I2. intros I2 I1 -> -> J1 J2.
  split; [|intros ->; reflexivity]. intros E.
  apply two_halves; [exact J1|exact J2|exact (f_equal private_key E)|exact (f_equal (fun x => chain_code (xprv_attrs x)) E)].
Qed.
Example c84_example : xprv_derive_child ex1_xprv 0 = Ok ex1_child /\ xprv_derive_child ex1_xprv (2 ^ 31) = Ok ex1_hardened
  /\ private_key ex1_child <> private_key ex1_hardened /\ xprv_new ex_seed = Ok ex_xprv.
Proof.
  split; [apply c50_example|]. split; [apply c50_example|]. split; [vm_compute; discriminate|]. apply c49_example.
Qed.

(** ** C85 *)
Lemma path_valid_prv x p y : valid_xprv x -> Forall u32 p -> xprv_derive_from_path x p = Ok y -> valid_xprv y.
Proof.
  intros V Hu D. rewrite along_prv in D. eapply (along_valid valid_xprv xprv_derive_child); [|exact V|exact Hu|exact D].
  intros k c k' _ Hc E. eapply xprv_child_valid; eassumption.
Qed.
Lemma path_valid_pub x p y : valid_xpub x -> Forall u32 p -> xpub_derive_from_path x p = Ok y -> valid_xpub y.
Proof.
  intros V Hu D. rewrite along_pub in D. eapply (along_valid valid_xpub xpub_derive_child); [|exact V|exact Hu|exact D].
  intros k c k' (_ & O & _) Hc E. eapply xpub_child_valid; eassumption.
Qed.
Lemma c85_private_keys_travel : forall (x : xprv) (p q : list N) (pre : prefix), valid_xprv x -> Forall u32 p -> In pre prv_prefixes ->
  bind (xprv_derive_from_path x p) (fun y => bind (through_text (fun k => xprv_to_string k pre) xprv_from_str y) (fun z => xprv_derive_from_path z q))
  = xprv_derive_from_path x (p ++ q).
Proof.
  intros x p q pre V Hu Hp. destruct (c54_path_composes x (xprv_public_key x) [] p q 0) as (E & _). rewrite E. clear E.
  destruct (xprv_derive_from_path x p) as [y|e|] eqn:D; cbn [bind]; [|reflexivity|reflexivity].
  destruct (c40_private_round_trip y pre (path_valid_prv _ _ _ V Hu D) Hp) as (s & S & R & _).
  unfold through_text. rewrite S. cbn [bind]. rewrite R. reflexivity.
Qed.
Lemma c85_public_keys_travel : forall (x : xpub) (p q : list N) (pre : prefix), valid_xpub x -> Forall u32 p -> In pre pub_prefixes ->
  bind (xpub_derive_from_path x p) (fun y => bind (through_text (fun k => xpub_to_string k pre) xpub_from_str y) (fun z => xpub_derive_from_path z q))
  = xpub_derive_from_path x (p ++ q).
Proof.
  intros x p q pre V Hu Hp. destruct (c54_path_composes ex_xprv x [] p q 0) as (_ & E & _). rewrite E. clear E.
  destruct (xpub_derive_from_path x p) as [y|e|] eqn:D; cbn [bind]; [|reflexivity|reflexivity].
  destruct (c41_public_round_trip y pre (path_valid_pub _ _ _ V Hu D) Hp) as (s & S & R & _).
  unfold through_text. rewrite S. cbn [bind]. rewrite R. reflexivity.
Qed.
Example c85_example : through_text (fun k => xprv_to_string k XPRV) xprv_from_str ex_xprv = Ok ex_xprv /\ valid_xprv ex_xprv.
Proof.
  split; [|apply ex_xprv_valid]. destruct (c40_private_round_trip ex_xprv XPRV ex_xprv_valid) as (s & S & R & _); [cbn; auto|].
  unfold through_text. rewrite S. cbn [bind]. exact R.
Qed.

(** ** C86 *)
Lemma then_cmp_lex a b c d m : b < m -> d < m -> then_cmp (a ?= c) (b ?= d) = (a * m + b ?= c * m + d).
Proof.
  intros Hb Hd. destruct (N.compare_spec a c) as [->|H|H]; cbn.
  - destruct (N.compare_spec b d) as [->|H|H]; symmetry; [apply N.compare_refl|apply N.compare_lt_iff; lia|apply N.compare_gt_iff; lia].
  - symmetry. apply N.compare_lt_iff. assert (E : a * m + m <= c * m) by (replace (a * m + m) with ((a + 1) * m) by ring; apply N.mul_le_mono_r; lia). lia.
  - symmetry. apply N.compare_gt_iff. assert (E : c * m + m <= a * m) by (replace (c * m + m) with ((c + 1) * m) by ring; apply N.mul_le_mono_r; lia). lia.
Qed.
Lemma bytes_cmp_val a : forall b, bytes_ok a -> bytes_ok b -> length a = length b -> bytes_cmp a b = (digits_val 256 a ?= digits_val 256 b).
Proof.
  induction a as [|x a IH]; intros [|y b] Ha Hb L; try discriminate L; [reflexivity|].
  inversion Ha as [|? ? Hx Ha']; subst. inversion Hb as [|? ? Hy Hb']; subst. cbn [bytes_cmp].
  injection L as L. rewrite (IH b Ha' Hb' L), !digits_val_cons. unfold len. rewrite L. rewrite <- then_cmp_lex.
  - destruct (x ?= y); reflexivity.
  - unfold bytes_ok in Ha'. pose proof (digits_val_lt 256 a Ha') as H. unfold len in H. rewrite L in H. exact H.
  - apply (digits_val_lt 256 b Hb').
Qed.
Lemma c86_child_order : forall c d : N, u32 c -> u32 d ->
  (child_cmp c d = Lt <->
     (child_is_hardened c = false /\ child_is_hardened d = true)
     \/ (child_is_hardened c = child_is_hardened d /\ child_index c < child_index d))
  /\ (child_cmp c d = Eq <-> c = d) /\ child_cmp d c = CompOpp (child_cmp c d).
Proof.
  intros c d Hc Hd. unfold child_cmp. split; [|split; [apply N.compare_eq_iff|apply N.compare_antisym]].
  rewrite N.compare_lt_iff, !hardened_iff by assumption.
  assert (I : forall n, u32 n -> child_index n = if 2 ^ 31 <=? n then n - 2 ^ 31 else n).
  { intros n Hn. rewrite child_index_ok. unfold u32 in Hn. destruct (2 ^ 31 <=? n) eqn:E.
    - apply N.leb_le in E. symmetry. apply (N.mod_unique n (2 ^ 31) 1); lia.
    - apply N.leb_gt in E. apply N.mod_small, E. }
  rewrite !I by assumption. destruct (2 ^ 31 <=? c) eqn:E, (2 ^ 31 <=? d) eqn:F; split.
  all: try (intros [[A B]|[A B]]; try discriminate A; try discriminate B); intros; try (right; split; [reflexivity|]); try (left; split; reflexivity); lia.
Qed.
Lemma c86_attrs_order : forall (a b : attrs) (va vb : N), valid_attrs a -> valid_attrs b ->
  is_attrs_number a va -> is_attrs_number b vb ->
  attrs_cmp a b = (va ?= vb) /\ (attrs_cmp a b = Eq <-> a = b).
Proof.
  intros a b va vb (Ha1 & [La2 Ha2] & Ha3 & [La4 Ha4]) (Hb1 & [Lb2 Hb2] & Hb3 & [Lb4 Hb4]) (ca & [[Lca Bca] Eca] & ->) (cb & [[Lcb Bcb] Ecb] & ->).
  assert (A : attrs_cmp a b = bytes_cmp ([depth a] ++ parent_fingerprint a ++ ca ++ chain_code a) ([depth b] ++ parent_fingerprint b ++ cb ++ chain_code b)).
  { assert (App : forall p q s t, length p = length q -> bytes_cmp (p ++ s) (q ++ t) = then_cmp (bytes_cmp p q) (bytes_cmp s t)).
    { induction p as [|x p IH]; intros [|y q] s t L; try discriminate L; [reflexivity|]. injection L as L. cbn [app bytes_cmp].
      rewrite (IH q s t L). destruct (x ?= y); reflexivity. }
    rewrite !App by (reflexivity || congruence). unfold attrs_cmp, child_cmp. rewrite <- Eca, <- Ecb, <- (bytes_cmp_val ca cb) by (assumption || congruence).
    cbn [bytes_cmp]. destruct (depth a ?= depth b); reflexivity. }
  assert (Oa : bytes_ok ([depth a] ++ parent_fingerprint a ++ ca ++ chain_code a)).
  { constructor; [exact Ha1|]. apply Forall_app. split; [exact Ha2|]. apply Forall_app. auto. }
  assert (Ob : bytes_ok ([depth b] ++ parent_fingerprint b ++ cb ++ chain_code b)).
  { constructor; [exact Hb1|]. apply Forall_app. split; [exact Hb2|]. apply Forall_app. auto. }
  assert (Le : length ([depth a] ++ parent_fingerprint a ++ ca ++ chain_code a) = length ([depth b] ++ parent_fingerprint b ++ cb ++ chain_code b)).
  { cbn [app length]. rewrite !app_length. congruence. }
  rewrite A, bytes_cmp_val by assumption. split; [reflexivity|]. rewrite N.compare_eq_iff. split.
  - intros E. apply digits_val_inj in E; [|exact Oa|exact Ob|exact Le]. cbn [app] in E. injection E as E1 E2.
    apply app_inj_len in E2; [|congruence]. destruct E2 as [E2 E3]. apply app_inj_len in E3; [|congruence]. destruct E3 as [E3 E4].
    assert (E5 : child_number a = child_number b) by congruence. destruct a, b. cbn in *. subst. reflexivity.
  - intros ->. assert (ca = cb) as ->; [|reflexivity]. eapply digits_val_inj; [exact Bca|exact Bcb|congruence|congruence].
Qed.
Lemma c86_prefix_order : forall (p q : prefix) (vp vq : N), valid_prefix p -> valid_prefix q ->
  is_prefix_number p vp -> is_prefix_number q vq ->
  prefix_cmp p q = (vp ?= vq) /\ (prefix_cmp p q = Eq <-> p = q).
Proof.
  intros p q vp vq (Lp & Fp & Up) (Lq & Fq & Uq) (bp & [[Lbp Bbp] Ebp] & ->) (bq & [[Lbq Bbq] Ebq] & ->).
  assert (Ok : forall l, Forall letter l -> bytes_ok l). { intros l F. eapply Forall_impl; [|apply letters_ascii, F]. intros c Hc. cbv beta in Hc. unfold byte_ok. lia. }
  assert (A : prefix_cmp p q = (digits_val 256 (chars p ++ bp) ?= digits_val 256 (chars q ++ bq))).
  { unfold prefix_cmp. rewrite !digits_val_app, Ebp, Ebq. unfold len. rewrite Lbp, Lbq, <- then_cmp_lex by (apply u32_iff; assumption).
    rewrite bytes_cmp_val by (auto || congruence). reflexivity. }
  rewrite A. split; [reflexivity|]. rewrite N.compare_eq_iff. split.
  - intros E. apply digits_val_inj in E; [|apply Forall_app; split; [apply Ok, Fp|exact Bbp]|apply Forall_app; split; [apply Ok, Fq|exact Bbq]|rewrite !app_length; congruence].
    apply app_inj_len in E; [|congruence]. destruct E as [E1 E2]. assert (E3 : version p = version q) by congruence. destruct p, q. cbn in *. subst. reflexivity.
  - intros ->. assert (bp = bq) as ->; [|reflexivity]. eapply digits_val_inj; [exact Bbp|exact Bbq|congruence|congruence].
Qed.
(** Child 5 comes before the hardened child 3; tprv before xprv although its version is smaller as well; zpub last. *)
Example c86_example : child_cmp 5 (2 ^ 31 + 3) = Lt /\ prefix_cmp TPRV XPRV = Lt /\ prefix_cmp ZPUB XPUB = Gt
  /\ attrs_cmp (mkAttrs 1 [0; 0; 0; 9] 7 [1]) (mkAttrs 1 [0; 0; 1; 0] 3 [1]) = Lt.
Proof.
  repeat split; vm_compute; reflexivity.
Qed.

(** ** C87 *)
Lemma not_digit c : c < 48 \/ 57 < c -> ~ digit_char c.
Proof. unfold digit_char. lia. Qed.
Lemma dec_before n m c x y : ~ digit_char c -> dec_str n ++ c :: x = dec_str m ++ c :: y -> n = m /\ x = y.
Proof.
  intros Hc E. destruct (dec_str_ok n) as (_ & F & _). destruct (dec_str_ok m) as (_ & F' & _).
  apply digits_before in E; [|exact F|exact F'|exact Hc|exact Hc]. destruct E as [A ->]. split; [apply dec_str_inj, A|reflexivity].
Qed.
Lemma debug_bytes_inj a : forall b x y, length a = length b ->
  join (lit ", ") (map dec_str a) ++ 93 :: x = join (lit ", ") (map dec_str b) ++ 93 :: y -> a = b /\ x = y.
Proof.
  induction a as [|n a IH]; intros [|m b] x y L E; try discriminate L.
  - cbn in E. injection E as ->. auto.
  - injection L as L. destruct a as [|n' a], b as [|m' b]; try discriminate L.
    + cbn [map join] in E. apply dec_before in E; [|apply not_digit; lia]. destruct E as [-> ->]. auto.
    + assert (J : forall u v l, join (lit ", ") (map dec_str (u :: v :: l)) = dec_str u ++ 44 :: 32 :: join (lit ", ") (map dec_str (v :: l))) by reflexivity.
      rewrite !J in E. rewrite <- !app_assoc in E. cbn [app] in E. apply dec_before in E; [|apply not_digit; lia].
      destruct E as [-> E]. apply (app_inv_head [32]) in E. destruct (IH (m' :: b) x y L E) as [-> ->]. auto.
Qed.
Lemma c87_debug_shows_attributes : forall x y : xprv, valid_xprv x -> valid_xprv y ->
  (xprv_debug x = xprv_debug y <-> xprv_attrs x = xprv_attrs y).
Proof.
  intros x y [_ Vx] [_ Vy]. split; [|intros E; unfold xprv_debug; rewrite E; reflexivity]. unfold xprv_debug. intros E.
  do 5 apply app_inv_head in E. apply app_inv_tail in E. unfold debug_attrs in E. apply app_inv_head in E.
  destruct (xprv_attrs x) as [d f c cc], (xprv_attrs y) as [d' f' c' cc']. cbn [depth parent_fingerprint child_number chain_code] in E.
  destruct Vx as (_ & [Lf _] & _ & [Lc _]), Vy as (_ & [Lf' _] & _ & [Lc' _]). cbn [parent_fingerprint chain_code] in *.
  unfold debug_bytes, debug_child in E.
  change (lit ", parent_fingerprint: ") with (44 :: lit " parent_fingerprint: ") in E. cbn [app] in E.
  apply dec_before in E; [|apply not_digit; lia]. destruct E as [-> E].
  apply app_inv_head in E. rewrite <- !app_assoc in E. apply app_inv_head in E.
  change (lit "]") with [93] in E. cbn [app] in E. apply debug_bytes_inj in E; [|congruence]. destruct E as [-> E].
  do 2 apply app_inv_head in E. change (lit ")") with [41] in E. cbn [app] in E.
  apply dec_before in E; [|apply not_digit; lia]. destruct E as [-> E].
  do 2 apply app_inv_head in E. apply debug_bytes_inj in E; [|congruence]. destruct E as [-> _]. reflexivity.
Qed.
Lemma c87_equality_is_debug_equality : forall x y : xprv, valid_xprv x -> valid_xprv y ->
  (xprv_eq x y = true <-> xprv_debug x = xprv_debug y).
Proof.
  intros x y Vx Vy. rewrite xprv_eq_iff, c87_debug_shows_attributes by assumption. reflexivity.
Qed.
Example c87_example : xprv_debug ex1_child <> xprv_debug ex1_hardened /\ xprv_debug ex1_xprv = xprv_debug ex_xprv.
Proof.
  split; [vm_compute; discriminate|reflexivity].
Qed.

(** ** C88 *)
Lemma c88_paths_and_keys : forall (x : xprv) (y : xpub) (p l : path) (c : N),
  xprv_derive_from_path x (path_push p c) = bind (xprv_derive_from_path x p) (fun x' => xprv_derive_child x' c)
  /\ xpub_derive_from_path y (path_push p c) = bind (xpub_derive_from_path y p) (fun y' => xpub_derive_child y' c)
  /\ xprv_derive_from_path x (path_extend p l) = bind (xprv_derive_from_path x p) (fun x' => xprv_derive_from_path x' l)
  /\ (forall q, path_parent p = Some q ->
        xprv_derive_from_path x p = bind (xprv_derive_from_path x q) (fun x' => xprv_derive_child x' (last p 0))
        /\ xpub_derive_from_path y p = bind (xpub_derive_from_path y q) (fun y' => xpub_derive_child y' (last p 0)))
  /\ (path_parent p = None -> xprv_derive_from_path x p = Ok x /\ xpub_derive_from_path y p = Ok y).
Proof.
  assert (P1 : forall x p c, xprv_derive_from_path x (p ++ [c]) = bind (xprv_derive_from_path x p) (fun x' => xprv_derive_child x' c)).
  { intros x p c. destruct (c54_path_composes x ex_xpub [] p [c] c) as (E & _). rewrite E.
    destruct (xprv_derive_from_path x p) as [x'|e|]; cbn [bind]; [|reflexivity|reflexivity]. apply (c54_path_composes x' ex_xpub [] p [c] c). }
  assert (P2 : forall y p c, xpub_derive_from_path y (p ++ [c]) = bind (xpub_derive_from_path y p) (fun y' => xpub_derive_child y' c)).
  { intros y p c. destruct (c54_path_composes ex_xprv y [] p [c] c) as (_ & E & _). rewrite E.
    destruct (xpub_derive_from_path y p) as [y'|e|]; cbn [bind]; [|reflexivity|reflexivity]. apply (c54_path_composes ex_xprv y' [] p [c] c). }
  intros x y p l c. unfold path_push, path_extend. split; [apply P1|]. split; [apply P2|].
  split; [apply (c54_path_composes x y [] p l c)|]. split.
  - intros q H. unfold path_parent in H. destruct (len p <? 1) eqn:E; [discriminate H|]. apply N.ltb_ge in E.
    assert (Hq : q = firstn (N.to_nat (len p - 1)) p) by congruence. clear H.
    assert (Hn : p <> []) by (intros ->; cbn in E; lia).
    assert (Ep : p = q ++ [last p 0]).
    { rewrite (app_removelast_last 0 Hn) at 1. f_equal. rewrite Hq, removelast_firstn_len. f_equal. unfold len. lia. }
    split; rewrite Ep at 1; [apply P1|apply P2].
  - unfold path_parent. destruct (len p <? 1) eqn:E; [|discriminate]. apply N.ltb_lt in E. destruct p; [split; reflexivity|]. cbn in E. lia.
Qed.
Example c88_example : path_push [44] 60 = [44; 60] /\ path_parent [44; 60; 7] = Some [44; 60]
  /\ xprv_derive_from_path ex1_xprv (path_push [] 0) = Ok ex1_child.
Proof.
  split; [reflexivity|]. split; [reflexivity|]. apply c80_example.
Qed.

(** ** C89 *)
Lemma inverse_neg w s : (secp_n | w * s - 1)%Z -> (secp_n | (- w) * (secp_n - s) - 1)%Z.
Proof.
  intros D. replace (- w * (secp_n - s) - 1)%Z with ((w * s - 1) - secp_n * w)%Z by ring.
  apply Z.divide_sub_r; [exact D|apply Z.divide_factor_l].
Qed.
Lemma valid_kG d z r s : (0 <= d)%Z -> ecdsa_valid (kG d) z r s <->
  (0 < r < secp_n)%Z /\ (0 < s < secp_n)%Z /\ exists w x y, (secp_n | w * s - 1)%Z
    /\ kG ((w * z) mod secp_n + (w * r) mod secp_n * d) = Point x y /\ (x mod secp_n = r)%Z.
Proof.
  intros Hd. assert (P : forall a, (0 <= a mod secp_n)%Z) by (intros a; apply Z.mod_pos_bound; reflexivity).
  assert (S : forall w x y, ec_add (kG ((w * z) mod secp_n)) (smul (Z.to_N ((w * r) mod secp_n)) (kG d)) = Point x y
     <-> kG ((w * z) mod secp_n + (w * r) mod secp_n * d) = Point x y).
  { intros w x y. rewrite kG_add; [|apply P|apply Z.mul_nonneg_nonneg; [apply P|exact Hd]]. rewrite kG_mul by (apply P || exact Hd). reflexivity. }
  split.
  - intros (Br & Bs & w & A & B & x & y & D & MA & MB & SU & E). split; [exact Br|]. split; [exact Bs|]. exists w, x, y. split; [exact D|].
    split; [|exact E]. apply S. apply ec_multiple_iff in MA; [|exact G_on]. apply ec_multiple_iff in MB; [|apply kG_on].
    rewrite Z_nat_N in MA, MB. apply ec_sum_iff in SU; [|rewrite MA; apply kG_on|rewrite MB; apply smul_on, kG_on].
    rewrite MA, MB in SU. symmetry. exact SU.
  - intros (Br & Bs & w & x & y & D & SU & E). split; [exact Br|]. split; [exact Bs|].
    exists w, (kG ((w * z) mod secp_n)), (smul (Z.to_N ((w * r) mod secp_n)) (kG d)), x, y. split; [exact D|].
    split; [apply ec_multiple_iff; [exact G_on|]; unfold kG; rewrite Z_nat_N; reflexivity|].
    split; [apply ec_multiple_iff; [apply kG_on|]; rewrite Z_nat_N; reflexivity|]. split; [|exact E].
    apply ec_sum_iff; [apply kG_on|apply smul_on, kG_on|]. symmetry. apply S, SU.
Qed.
Lemma valid_flip d z r s : (0 <= d)%Z -> ecdsa_valid (kG d) z r s -> ecdsa_valid (kG d) z r (secp_n - s).
Proof.
  intros Hd. rewrite !valid_kG by exact Hd. intros (Br & Bs & w & x & y & D & K & E). split; [exact Br|]. split; [lia|].
  assert (P : forall a, (0 <= a mod secp_n < secp_n)%Z) by (intros a; apply Z.mod_pos_bound; reflexivity).
  set (e := ((w * z) mod secp_n + (w * r) mod secp_n * d)%Z) in *.
  assert (He : (0 <= e)%Z) by (apply Z.add_nonneg_nonneg; [apply P|apply Z.mul_nonneg_nonneg; [apply P|exact Hd]]).
  assert (O : on_curve (Point x y)) by (rewrite <- K; apply kG_on).
  exists (- w)%Z, x, (secp_p - y)%Z. split; [apply inverse_neg, D|]. split; [|exact E].
  set (e' := ((- w * z) mod secp_n + (- w * r) mod secp_n * d)%Z).
  assert (He' : (0 <= e')%Z) by (apply Z.add_nonneg_nonneg; [apply P|apply Z.mul_nonneg_nonneg; [apply P|exact Hd]]).
  assert (KN : kG e' = kG (secp_n - e mod secp_n)).
  { pose proof (P e). apply kG_cong; [exact He'|lia|]. apply mod_eq_divide; [exact n_nz|]. unfold e', e.
    rewrite (Z.mod_eq (- w * z) secp_n), (Z.mod_eq (- w * r) secp_n), (Z.mod_eq (_ + _) secp_n), (Z.mod_eq (w * z) secp_n), (Z.mod_eq (w * r) secp_n) by exact n_nz.
    set (q1 := (- w * z / secp_n)%Z). set (q2 := (- w * r / secp_n)%Z). set (q3 := (w * z / secp_n)%Z). set (q4 := (w * r / secp_n)%Z).
    set (q5 := (_ / secp_n)%Z).
    replace (_ - _)%Z with (secp_n * (- q1 - q2 * d - 1 - q3 - q4 * d - q5))%Z by ring. apply Z.divide_factor_l. }
  rewrite KN, kG_neg by (pose proof (P e); lia). rewrite kG_mod by exact He. rewrite K. apply neg_coords, O.
Qed.
Lemma c89_signatures_are_malleable : forall (Q : point) (z r s : Z), on_curve Q ->
  (ecdsa_valid Q z r s <-> ecdsa_valid Q z r (secp_n - s)).
Proof.
  intros Q z r s HQ. destruct (every_point Q HQ) as (k & [Hk _] & ->). split; [apply valid_flip, Hk|].
  intros H. apply valid_flip in H; [|exact Hk]. replace (secp_n - (secp_n - s))%Z with s in H by ring. exact H.
Qed.
Lemma c89_signer_returns_one_form : forall (f f' : nat) (k k' : Z) (msg msg' sig sig' : bytes) (recid recid' : N) (r s : Z) (rb sb sb' : bytes),
  (0 < k < secp_n)%Z -> (0 < k' < secp_n)%Z ->
  ecdsa_sign f k msg = Some (Ok (sig, recid)) -> ecdsa_sign f' k' msg' = Some (Ok (sig', recid')) ->
  is_ser256 r rb -> is_ser256 s sb -> is_ser256 (secp_n - s) sb' ->
  sig = rb ++ sb -> sig' <> rb ++ sb'.
Proof.
  intros f f' k k' msg msg' sig sig' recid recid' r s rb sb sb' Hk Hk' H H' Rr Rs Rs' E E'.
  destruct (c64_signatures_are_valid _ _ _ _ _ Hk H) as (r1 & s1 & rb1 & sb1 & E1 & Rr1 & Rs1 & B1 & _).
  destruct (c64_signatures_are_valid _ _ _ _ _ Hk' H') as (r2 & s2 & rb2 & sb2 & E2 & Rr2 & Rs2 & B2 & _). clear H H'.
  rewrite E in E1. rewrite E' in E2. apply split_signature in E1; [|apply Rr|apply Rr1]. apply split_signature in E2; [|apply Rr|apply Rr2].
  destruct E1 as [_ <-], E2 as [_ <-]. pose proof (ser256_inj _ _ _ Rs1 Rs). pose proof (ser256_inj _ _ _ Rs2 Rs'). subst s1 s2.
  pose proof half_n. lia.
Qed.
Example c89_example : ecdsa_valid G 5 gx (gx + 5) /\ ecdsa_valid G 5 gx (secp_n - (gx + 5)).
Proof.
  assert (V : ecdsa_valid G 5 gx (gx + 5)) by apply c64_example. split; [exact V|].
  apply c89_signatures_are_malleable; [exact G_on|exact V].
Qed.
