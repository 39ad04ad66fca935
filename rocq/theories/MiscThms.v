(** Proofs of the remaining properties (restated in PropMisc.v). *)
From Coq Require Import String ZifyBool ZifyNat ZifyN.
From Verif Require Import Outcome Bytes Str Hash HashLemmas Nfkd ModelBip39 SpecBip39 Bip39Thms.
From Verif Require Import Ripemd Secp SpecSecp SecpGroup SecpProofs SecpSign Base58 ModelBip32 SpecBip32 SpecWallet.
From Verif Require Import StrLemmas Base58Proofs ExtProofs KeyTextThms DeriveThms.
Open Scope N_scope.

(** ** C61, C62 *)
Lemma xprv_eq_iff x y : xprv_eq x y = true <-> xprv_attrs x = xprv_attrs y.
Proof.
  unfold xprv_eq. cbv zeta. rewrite bytes_eqb_refl. cbn [andb]. rewrite !andb_true_iff, !N.eqb_eq, !bytes_eqb_spec.
  destruct (xprv_attrs x) as [d f c cc], (xprv_attrs y) as [d' f' c' cc']. cbn. split; [intros (((-> & ->) & ->) & ->); reflexivity|].
  intros E. injection E as -> -> -> ->. auto.
Qed.
Lemma c61_equality_is_equivalence :
  (forall x : xprv, xprv_eq x x = true)
  /\ (forall x y : xprv, xprv_eq x y = xprv_eq y x)
  /\ (forall x y z : xprv, xprv_eq x y = true -> xprv_eq y z = true -> xprv_eq x z = true)
  /\ (forall (x y : xprv) (p : prefix) (s : str), valid_xprv x -> valid_xprv y -> valid_prefix p ->
        xprv_eq x y = false -> xprv_to_string x p = Ok s -> xprv_to_string y p <> Ok s).
Proof.
  split; [intros x; apply xprv_eq_iff; reflexivity|]. split.
  { intros x y. destruct (xprv_eq x y) eqn:E; symmetry.
    - apply xprv_eq_iff. symmetry. apply xprv_eq_iff, E.
    - destruct (xprv_eq y x) eqn:E'; [|reflexivity]. apply xprv_eq_iff in E'. symmetry in E'. apply xprv_eq_iff in E'. congruence. }
  split. { intros x y z A B. apply xprv_eq_iff in A, B. apply xprv_eq_iff. congruence. }
  intros x y p s Vx Vy Vp E A B. pose proof (xprv_ext_valid x p Vx Vp) as Ex. pose proof (xprv_ext_valid y p Vy Vp) as Ey.
  apply to_string_iff in A; [|exact Ex]. apply to_string_iff in B; [|exact Ey].
  pose proof (ek_payload_layout _ Ex) as Lx. pose proof (ek_payload_layout _ Ey) as Ly.
  assert (P : ek_payload (xprv_to_extended_key x p) = ek_payload (xprv_to_extended_key y p)).
  { eapply base58check_inj; [apply (layout_bytes _ _ _ _ Lx)|apply (layout_bytes _ _ _ _ Ly)|exact A|exact B]. }
  rewrite P in Lx. destruct (layout_fields _ _ _ _ Lx) as (_ & X1 & X2 & X3 & X4 & _), (layout_fields _ _ _ _ Ly) as (_ & Y1 & Y2 & Y3 & Y4 & _).
  cbn [xprv_to_extended_key ek_attrs] in *. rewrite X1 in Y1. rewrite X2 in Y2. rewrite X3 in Y3. rewrite X4 in Y4. injection Y1 as Y1.
  assert (Q : xprv_eq x y = true); [|congruence]. apply xprv_eq_iff. destruct (xprv_attrs x) as [d f c cc], (xprv_attrs y) as [d' f' c' cc']. cbn [depth parent_fingerprint child_number chain_code] in *. congruence.
Qed.
Example c61_example : xprv_eq ex1_child ex1_hardened = false /\ xprv_eq ex1_child ex1_child = true.
Proof. split; reflexivity. Qed.

(** Every valid key can be built: parse its own text. *)
Lemma valid_built x : valid_xprv x -> built_xprv x.
Proof.
  intros V. destruct (c40_private_round_trip x XPRV V) as (s & E & P & _); [cbn; auto|]. apply (built_xprv_text s); [|exact P].
  assert (Ve : valid_ext (xprv_to_extended_key x XPRV)) by (apply xprv_ext_valid; [exact V|apply std_valid; cbn; auto]).
  apply to_string_iff in E; [|exact Ve]. apply base58_ascii in E. eapply Forall_impl; [|exact E]. intros c Hc. cbv beta in Hc. left. lia.
Qed.
(** Keys with the same attributes are always equal, whatever their secrets. *)
Lemma c62_equality_ignores_the_secret : forall (k1 k2 : Z) (a : attrs), xprv_eq (mkXPrv k1 a) (mkXPrv k2 a) = true.
Proof. intros k1 k2 a. apply xprv_eq_iff. reflexivity. Qed.
Lemma c62_equal_keys_same_secret_refuted :
  ~ (forall x y : xprv, built_xprv x -> built_xprv y -> xprv_eq x y = true -> private_key x = private_key y).
Proof.
  intros H. specialize (H (mkXPrv 1 ex_attrs) (mkXPrv 2 ex_attrs)). cbn [private_key] in H. enough (1 = 2)%Z by discriminate. apply H.
  - apply valid_built. split; [split; reflexivity|apply ex_attrs_ok].
  - apply valid_built. split; [split; reflexivity|apply ex_attrs_ok].
  - apply c62_equality_ignores_the_secret.
Qed.
(** What does hold: equality implies equal attributes and conversely. *)
Lemma c62_equality_compares_attributes_partial : forall x y : xprv, xprv_eq x y = true <-> xprv_attrs x = xprv_attrs y.
Proof. exact xprv_eq_iff. Qed.
(** Two keys with other public keys that compare equal. *)
Example c62_example : xprv_eq (mkXPrv 1 ex_attrs) (mkXPrv 2 ex_attrs) = true
  /\ xprv_public_key (mkXPrv 1 ex_attrs) <> xprv_public_key (mkXPrv 2 ex_attrs)
  /\ xprv_eq (mkXPrv 1 ex_attrs) (mkXPrv 1 (mkAttrs 4 [1; 2; 3; 4] 5 [6])) = false.
Proof.
  split; [apply c62_equality_ignores_the_secret|]. split; [|vm_compute; reflexivity].
  vm_compute. discriminate.
Qed.

(** ** C63 *)
Lemma c63_debug_hides_secret : forall (k1 k2 : Z) (a : attrs), xprv_debug (mkXPrv k1 a) = xprv_debug (mkXPrv k2 a).
Proof. reflexivity. Qed.
Lemma c63_debug_text : forall x : xprv, exists rest,
  xprv_debug x = lit "ExtendedPrivateKey { private_key: " ++ quote ++ lit "..." ++ quote ++ lit ", attrs: " ++ rest
  /\ (forall y, xprv_attrs y = xprv_attrs x -> xprv_debug y = xprv_debug x).
Proof.
  intros x. eexists. split; [reflexivity|]. intros y E. unfold xprv_debug. rewrite E. reflexivity.
Qed.
Example c63_example : xprv_debug (mkXPrv 5 (mkAttrs 1 [7; 8; 9; 10] 3 [255])) =
  lit "ExtendedPrivateKey { private_key: " ++ quote ++ lit "..." ++ quote
  ++ lit ", attrs: ExtendedKeyAttrs { depth: 1, parent_fingerprint: [7, 8, 9, 10], child_number: ChildNumber(3), chain_code: [255] } }".
Proof. vm_compute. reflexivity. Qed.

(** ** C64, C65 *)
Lemma be_ser256 z : (0 <= z < secp_n)%Z -> is_ser256 z (be_bytes 32 (Z.to_N z)).
Proof.
  intros H. split; [apply has_bytes_be|]. rewrite val_of_be; [lia|]. assert (L : (secp_n < 2 ^ 256)%Z) by reflexivity.
  change (256 ^ N.of_nat 32) with (Z.to_N (2 ^ 256)). lia.
Qed.
Lemma message_parse b z : message_parse_slice b = Some z -> length b = 32%nat /\ z = (digest_val b mod secp_n)%Z.
Proof.
  unfold message_parse_slice, digest_val. destruct (len b =? 32) eqn:E; intros H; [|discriminate H].
  injection H as <-. split; [unfold len in E; lia|reflexivity].
Qed.
Lemma valid_mod Q z r s : ecdsa_valid Q (z mod secp_n) r s -> ecdsa_valid Q z r s.
Proof.
  intros (Hr & Hs & w & A & B & x & y & Hw & HA & HB & S & X). split; [exact Hr|]. split; [exact Hs|].
  exists w, A, B, x, y. rewrite Z.mul_mod_idemp_r in HA by discriminate. auto.
Qed.
Lemma recovers_mod c Q z r s : ecdsa_recovers c (z mod secp_n) r s Q -> ecdsa_recovers c z r s Q.
Proof.
  intros (x & y & w & A & B & O & X & Y & W & HA & HB & S). exists x, y, w, A, B.
  assert (E : ((w * - (z mod secp_n)) mod secp_n = (w * - z) mod secp_n)%Z).
  { rewrite <- !Z.mul_opp_comm, Z.mul_mod_idemp_r by discriminate. reflexivity. }
  rewrite E in HB. split; [exact O|]. auto 6.
Qed.
Lemma c64_signatures_are_valid : forall (fuel : nat) (k : Z) (msg sig : bytes) (recid : N),
  (0 < k < secp_n)%Z -> ecdsa_sign fuel k msg = Some (Ok (sig, recid)) ->
  exists r s rb sb, sig = rb ++ sb /\ is_ser256 r rb /\ is_ser256 s sb
    /\ (0 < s <= secp_n / 2)%Z /\ (0 <= r < secp_n)%Z /\ recid < 4
    /\ (r <> 0%Z -> forall Q, is_public_point k Q ->
          ecdsa_valid Q (digest_val msg) r s /\ ecdsa_recovers recid (digest_val msg) r s Q).
Proof.
  intros fuel k msg sig recid Hk H. unfold ecdsa_sign in H. destruct (message_parse_slice msg) as [z|] eqn:M; [|discriminate H].
  apply message_parse in M. destruct M as [_ ->]. destruct (sign fuel _ k) as [[[r s] c]|] eqn:S; [|discriminate H].
  assert (E : sig = signature_serialize r s /\ recid = c) by (split; congruence). clear H. destruct E as [-> ->].
  unfold sign in S. apply sign_loop_ok in S; [|exact Hk|apply Z.mod_pos_bound; reflexivity]. destruct S as (Bs & Br & Bc & S).
  exists r, s, (be_bytes 32 (Z.to_N r)), (be_bytes 32 (Z.to_N s)). split; [reflexivity|].
  assert (HL : (secp_n / 2 < secp_n)%Z) by exact half_n_lt.
  split; [apply be_ser256, Br|]. split; [apply be_ser256; lia|]. split; [exact Bs|]. split; [exact Br|]. split; [exact Bc|].
  intros Hr Q HQ. apply is_public_point_iff in HQ. destruct HQ as [_ ->]. destruct (S Hr) as [V R].
  split; [apply valid_mod, V|apply recovers_mod, R].
Qed.
(** The nonce 1, whose point is the generator. *)
Example c64_example : sign_raw 1 5 1 = Some (gx, (gx + 5)%Z, 0) /\ ecdsa_valid G 5 gx (gx + 5) /\ ecdsa_recovers 0 5 gx (gx + 5) G.
Proof.
  assert (I : ninv 1 = 1%Z). { with_strategy transparent [ninv] unfold ninv. rewrite npow_ok, Z.pow_1_l by (vm_compute; discriminate). reflexivity. }
  assert (E : sign_raw 1 5 1 = Some (gx, (gx + 5)%Z, 0)).
  { unfold sign_raw. rewrite ecmult_gen_ok, kG_1, I. vm_compute. reflexivity. }
  split; [exact E|]. apply sign_raw_ok in E; [|split; reflexivity|discriminate|split; reflexivity].
  destruct E as (_ & _ & _ & E). rewrite kG_1 in E. apply E. discriminate.
Qed.
Lemma sign_loop_more f1 f2 d z kv t : (f1 <= f2)%nat -> sign_loop f1 d z kv = Some t -> sign_loop f2 d z kv = Some t.
Proof.
  intros L. revert f2 kv L. induction f1 as [|f1 IH]; intros f2 kv L H; [discriminate H|]. destruct f2 as [|f2]; [lia|].
  cbn [sign_loop] in *. destruct (drbg_generate kv) as [gen kv']. cbv zeta in *.
  destruct (_ && _)%bool; [|apply IH; [lia|exact H]]. destruct (sign_raw d z _) as [t'|]; [exact H|]. apply IH; [lia|exact H].
Qed.
Lemma c65_only_length_errors : forall (fuel : nat) (k : Z) (msg : bytes),
  (ecdsa_sign fuel k msg = Some (Err InvalidInputLength) <-> length msg <> 32%nat)
  /\ (forall e, ecdsa_sign fuel k msg = Some (Err e) -> e = InvalidInputLength)
  /\ ecdsa_sign fuel k msg <> Some Panic.
Proof.
  intros fuel k msg. unfold ecdsa_sign, message_parse_slice, len. destruct (N.eqb_spec (N.of_nat (length msg)) 32) as [E|E].
  - destruct (sign fuel _ k) as [[[r s] c]|].
    + split; [split; [intros H; discriminate H|lia]|]. split; [intros [] _; reflexivity|discriminate].
    + split; [split; [intros H; discriminate H|lia]|]. split; [intros [] _; reflexivity|discriminate].
  - split; [split; [intros _; lia|reflexivity]|]. split; [intros [] _; reflexivity|discriminate].
Qed.
Lemma c65_deterministic : forall (fuel1 fuel2 : nat) (k : Z) (msg1 msg2 : bytes) (out1 out2 : res sign_error (bytes * N)),
  length msg1 = length msg2 -> (digest_val msg1 mod secp_n = digest_val msg2 mod secp_n)%Z ->
  ecdsa_sign fuel1 k msg1 = Some out1 -> ecdsa_sign fuel2 k msg2 = Some out2 -> out1 = out2.
Proof.
  intros f1 f2 k m1 m2 o1 o2 L E H1 H2. unfold ecdsa_sign in *.
  assert (M : message_parse_slice m1 = message_parse_slice m2).
  { unfold message_parse_slice, len. rewrite L. destruct (_ =? _); [|reflexivity]. f_equal. exact E. }
  rewrite M in H1. destruct (message_parse_slice m2) as [z|]; [|congruence].
  unfold sign in *. destruct (sign_loop f1 k z _) as [t1|] eqn:S1; [|discriminate H1]. destruct (sign_loop f2 k z _) as [t2|] eqn:S2; [|discriminate H2].
  apply (sign_loop_more _ (f1 + f2)) in S1; [|lia]. apply (sign_loop_more _ (f1 + f2)) in S2; [|lia]. rewrite S1 in S2.
  destruct t1 as [[r s] c], t2 as [[r' s'] c']. apply some_triple in S2. destruct S2 as (-> & -> & ->). congruence.
Qed.
(** A digest and the digest of the same number plus n. *)
Example c65_example : let m1 := repeat 0 31 ++ [5] in let m2 := be_bytes 32 (Z.to_N (secp_n + 5)) in
  m1 <> m2 /\ length m1 = 32%nat /\ length m2 = 32%nat /\ (digest_val m1 mod secp_n = digest_val m2 mod secp_n)%Z.
Proof. cbv zeta. split; [intros H; vm_compute in H; discriminate H|]. split; [reflexivity|]. split; [reflexivity|]. vm_compute. reflexivity. Qed.

(** ** C66 *)
Lemma hex_digits b : b < 256 -> exists h l, h < 16 /\ l < 16 /\ b = h * 16 + l
  /\ hex_byte false b = [nth (N.to_nat h) hex_symbols 0; nth (N.to_nat l) hex_symbols 0].
Proof.
  intros H. exists (b / 16), (b mod 16).
  assert (D : b / 16 < 16) by (apply N.div_lt_upper_bound; lia). assert (M : b mod 16 < 16) by (apply N.mod_lt; lia).
  split; [exact D|]. split; [exact M|]. split; [rewrite N.mul_comm; apply N.div_mod; lia|].
  assert (X : forall d, d < 16 -> hex_digit false d = nth (N.to_nat d) hex_symbols 0).
  { intros d Hd. assert (I : In d (map N.of_nat (seq 0 16))) by (apply in_map_iff; exists (N.to_nat d); split; [lia|apply in_seq; lia]).
    assert (A : Forall (fun d => hex_digit false d = nth (N.to_nat d) hex_symbols 0) (map N.of_nat (seq 0 16))) by repeat constructor.
    exact (proj1 (Forall_forall _ _) A d I). }
  unfold hex_byte. rewrite !X by assumption. reflexivity.
Qed.
Lemma hex_text l : bytes_ok l -> is_hex l (flat_map (hex_byte false) l).
Proof.
  induction 1 as [|b l Hb _ (ds & F & E & L & V)]; [exists []; repeat (split || constructor)|].
  destruct (hex_digits b Hb) as (h & o & Hh & Ho & Eb & X). exists (h :: o :: ds).
  split; [repeat constructor; assumption|]. split; [cbn [flat_map map]; rewrite X, E; reflexivity|]. split; [cbn [length]; lia|].
  rewrite !digits_val_cons, V. unfold len. cbn [length]. rewrite L.
  replace (16 ^ N.of_nat (2 * length l)) with (256 ^ N.of_nat (length l)) by (rewrite Nat2N.inj_mul, N.pow_mul_r; reflexivity).
  replace (N.of_nat (S (2 * length l))) with (1 + N.of_nat (2 * length l)) by lia. rewrite N.pow_add_r.
  replace (16 ^ N.of_nat (2 * length l)) with (256 ^ N.of_nat (length l)) by (rewrite Nat2N.inj_mul, N.pow_mul_r; reflexivity).
  rewrite Eb. generalize (256 ^ N.of_nat (length l)). intros w. change (16 ^ 1) with 16. ring.
Qed.
Lemma c66_ripemd_hex : forall msg : bytes, is_hex (ripemd160 msg) (ripemd msg) /\ length (ripemd msg) = 40%nat.
Proof.
  intros msg. pose proof (hex_text _ (ripemd160_ok msg)) as H. split; [exact H|]. destruct H as (ds & _ & E & L & _).
  unfold ripemd. rewrite E, map_length, L, ripemd160_length. reflexivity.
Qed.
(** The published value for the empty message. *)
Example c66_example : ripemd [] = lit "9c1185a5c5e9fc54612808977ee8f548b2258d31".
Proof. vm_compute. reflexivity. Qed.

(** ** C67 *)
Lemma c67_words_and_password_decide : forall (s1 s2 : str) (lang : language) (ws1 ws2 : list str) (pw1 pw2 : str) (p : list N),
  laid_out s1 ws1 -> laid_out s2 ws2 -> map nfkd ws1 = map nfkd ws2 -> nfkd pw1 = nfkd pw2 ->
  wallet s1 lang pw1 p = wallet s2 lang pw2 p.
Proof.
  intros s1 s2 lang ws1 ws2 pw1 pw2 p L1 L2 W P. apply laid_out_iff in L1, L2.
  assert (F : from_phrase s1 lang = from_phrase s2 lang) by (unfold from_phrase; rewrite L1, L2, W; reflexivity).
  unfold wallet. rewrite F. clear F. generalize (from_phrase s2 lang). intros r. destruct r as [m|e|]; cbn [map_err bind]; [|reflexivity|reflexivity].
  rewrite (proj1 (c25_password_normalised m) pw1 pw2 P). reflexivity.
Qed.
(** For English the key is the one the standards prescribe. *)
Lemma c67_english_wallet : forall (s : str) (ws : list str) (pw : str) (p : list N) (ent : bytes),
  laid_out s ws -> bip39_sentence English (map nfkd ws) ent ->
  wallet s English pw p = map_err BadKey (xprv_new_from_path (bip39_seed (spaced (map nfkd ws)) pw) p).
Proof.
  intros s ws pw p ent L S. apply laid_out_iff in L. subst ws.
  assert (F : from_phrase s English = Ok (Mnemonic (spaced (map nfkd (split_whitespace s))) English ent)) by (apply c04_from_phrase_accepts_sentences; auto).
  unfold wallet. rewrite F. cbn [map_err bind]. rewrite c22_seed_english; [reflexivity|eapply built_phrase, F|reflexivity].
Qed.
(** The errors: those of the phrase, and of the derivation; never the seed length. *)
Lemma c67_errors : forall (s : str) (lang : language) (pw : str) (p : list N), Forall u32 p ->
  match wallet s lang pw p with
  | Ok x => valid_xprv x /\ depth (xprv_attrs x) = len p
  | Err (BadPhrase e) => from_phrase s lang = Err e
  | Err (BadKey e) => e <> ESeedLength
  | Panic => exists m seed x p1 c p2 y, from_phrase s lang = Ok m /\ seed_new m pw = Ok seed /\ xprv_new seed = Ok x
      /\ p = p1 ++ c :: p2 /\ xprv_derive_from_path x p1 = Ok y /\ priv_hash_bad y c
  end.
Proof.
  intros s lang pw p Hp. unfold wallet. destruct (from_phrase s lang) as [m|e|] eqn:F; cbn [map_err bind]; [|reflexivity|].
  2: { pose proof (c13_error_order_from_phrase s lang) as H. rewrite F in H. destruct H. }
  destruct (c24_seed_is_64_bytes m pw) as (seed & E & L & B); [eapply built_phrase, F|]. rewrite E. cbn [map_err bind].
  destruct (xprv_new_from_path seed p) as [x|e|] eqn:X; cbn [map_err].
  - split; [|apply (c55_depth_from_seed seed p x X)]. rewrite along_new, along_bind in X. apply bind_ok in X. destruct X as (x0 & X0 & X).
    eapply (along_valid valid_xprv); [intros k c k' _; apply xprv_child_valid|eapply xprv_new_valid, X0|exact Hp|exact X].
  - intros ->. rewrite along_new in X. assert (N1 : xprv_new seed <> Err ESeedLength).
    { destruct (c49_master_key seed B) as (_ & M & _). destruct M as [M1 M2]; [rewrite L; cbn; auto|].
      destruct (usable_dec (hmac_sha512 master_key_text seed)) as [U|U]; [rewrite (M1 U)|rewrite (M2 U)]; discriminate. }
    revert X N1. generalize (xprv_new seed). clear. intros m0. revert m0. induction p as [|c p IH]; intros m0 X N1; [exact (N1 X)|].
    apply (IH (bind m0 (fun k => xprv_derive_child k c)) X). intros H. apply bind_err in H. destruct H as [H|(k & _ & H)]; [exact (N1 H)|].
    unfold xprv_derive_child in H. rewrite xprv_step in H. destruct (_ <? _); [|discriminate H].
    destruct (secret_parse _); [|discriminate H]. destruct (secret_tweak_add _ _); discriminate H.
  - apply c60_seed_path in X; [|exact B|exact Hp]. destruct X as (x & p1 & c & p2 & y & X0 & X1 & X2 & X3).
    exists m, seed, x, p1, c, p2, y. auto 8.
Qed.
Example c67_example : laid_out (lit "  zoo 	 abandon") [lit "zoo"; lit "abandon"] /\ laid_out (lit "zoo abandon ") [lit "zoo"; lit "abandon"]
  /\ nfkd [0xE9] = nfkd [0x65; 0x301] /\ bip39_sentence English (map nfkd (split_whitespace ex_phrase)) (m_entropy ex_mnemonic).
Proof. split; [apply c10_example|]. split; [apply c10_example|]. split; [apply c25_example|]. apply c04_example. Qed.

(** ** C68 *)
Lemma sign_raw_pair d z k : (0 < k < secp_n)%Z -> exists r s, ecdsa_pair k d z r s /\
  match sign_raw d z k with
  | None => s = 0%Z
  | Some (r', s', _) => r' = r /\ s <> 0%Z /\ ((s <= secp_n / 2 /\ s' = s) \/ (secp_n / 2 < s /\ s' = secp_n - s))%Z
  end.
Proof.
  intros Hk. unfold sign_raw. rewrite ecmult_gen_ok. destruct (kG_finite k Hk) as (x & y & Ek). rewrite Ek. cbv zeta beta iota.
  set (s := ((ninv k * ((x mod secp_n * d) mod secp_n + z)) mod secp_n)%Z). exists (x mod secp_n)%Z, s.
  assert (Bs : (0 <= s < secp_n)%Z) by (apply Z.mod_pos_bound; reflexivity).
  assert (D : (secp_n | k * s - (z + x mod secp_n * d))%Z).
  { unfold s. rewrite (Z.mod_eq (ninv k * _) secp_n), (Z.mod_eq (x mod secp_n * d) secp_n) by discriminate.
    set (e := (x mod secp_n * d)%Z). set (q1 := (e / secp_n)%Z). set (q2 := (_ / secp_n)%Z).
    replace (k * (ninv k * (e - secp_n * q1 + z) - secp_n * q2) - (z + e))%Z
      with ((e + z) * (ninv k * k - 1) - secp_n * (k * ninv k * q1 + k * q2))%Z by ring.
    apply Z.divide_sub_r; [apply Z.divide_mul_r, ninv_ok, small_not_divide, Hk|apply Z.divide_factor_l]. }
  clearbody s. split.
  - exists x, y. split; [apply is_public_point_iff; split; [lia|symmetry; exact Ek]|]. split; [reflexivity|]. split; [exact Bs|exact D].
  - destruct (Z.eqb_spec s 0) as [Z0|Z0]; [exact Z0|]. destruct (Z.ltb_spec (secp_n / 2) s) as [L|L]; auto.
Qed.
Lemma pair_mod k d z r s : ecdsa_pair k d (z mod secp_n) r s -> ecdsa_pair k d z r s.
Proof.
  intros (x & y & P & R & B & D). exists x, y. split; [exact P|]. split; [exact R|]. split; [exact B|].
  rewrite (Z.mod_eq z secp_n) in D by discriminate.
  replace (k * s - (z + r * d))%Z with (k * s - (z - secp_n * (z / secp_n) + r * d) - secp_n * (z / secp_n))%Z by ring.
  apply Z.divide_sub_r; [exact D|apply Z.divide_factor_l].
Qed.
Lemma start_fun x h K V K' V' : rfc6979_start x h K V -> rfc6979_start x h K' V' -> K = K' /\ V = V'.
Proof.
  intros (V0 & K0 & K1 & V1 & -> & -> & A1 & A2 & A3 & A4) (V0' & K0' & K1' & V1' & -> & -> & B1 & B2 & B3 & B4).
  rewrite <- B1 in A1. subst K1. rewrite <- B2 in A2. subst V1. rewrite <- B3 in A3. subst K. rewrite <- B4 in A4. auto.
Qed.
Lemma candidate_fun x h i : forall K V K' V', rfc6979_candidate x h i K V -> rfc6979_candidate x h i K' V' -> K = K' /\ V = V'.
Proof.
  induction i as [|i IH]; intros K V K' V' A B.
  - inversion A as [K1 V1 S1 E1 E2|]; inversion B as [K2 V2 S2 E3 E4|]. destruct (start_fun _ _ _ _ _ _ S1 S2) as [-> ->]. auto.
  - inversion A as [|i1 K1 V1 K1' C1 E1 X1 X2]; inversion B as [|i2 K2 V2 K2' C2 E2 Y1 Y2].
    destruct (IH _ _ _ _ C1 C2) as [-> ->]. subst. auto.
Qed.
Definition inv x h i (kv : bytes * bytes) : Prop := rfc6979_candidate x h i (fst kv) (hmac_sha256 (fst kv) (snd kv)).
Lemma inv_start x h : inv x h 0 (drbg_new x h).
Proof.
  unfold inv. apply candidate_first. unfold drbg_new, drbg_update. cbn [fst snd].
  eexists _, _, _, _. split; [reflexivity|]. split; [reflexivity|]. split; [reflexivity|]. split; [reflexivity|]. split; reflexivity.
Qed.
Lemma inv_next x h i kv gen kv' : inv x h i kv -> drbg_generate kv = (gen, kv') ->
  rfc6979_candidate x h i (fst kv) gen /\ inv x h (S i) kv'.
Proof.
  intros H E. unfold drbg_generate in E. set (v := hmac_sha256 (fst kv) (snd kv)) in E.
  assert (E1 : gen = v) by congruence. assert (E2 : kv' = drbg_update (fst kv, v) None) by congruence. clear E. subst gen kv'.
  split; [exact H|]. unfold inv, drbg_update. cbn [fst snd]. eapply candidate_next; [exact H|]. reflexivity.
Qed.
Definition rejected x h d z j : Prop := forall K V, rfc6979_candidate x h j K V ->
  ~ (0 < Z.of_N (digits_val 256 V) < secp_n)%Z \/ exists r, ecdsa_pair (Z.of_N (digits_val 256 V)) d z r 0.
Lemma sign_loop_rfc x h d z : forall fuel i kv r s c, inv x h i kv -> (forall j, (j < i)%nat -> rejected x h d z j) ->
  sign_loop fuel d (z mod secp_n) kv = Some (r, s, c) ->
  exists l K V s0, rfc6979_candidate x h l K V /\ (forall j, (j < l)%nat -> rejected x h d z j)
    /\ (0 < Z.of_N (digits_val 256 V) < secp_n)%Z /\ ecdsa_pair (Z.of_N (digits_val 256 V)) d z r s0 /\ s0 <> 0%Z
    /\ ((s0 <= secp_n / 2 /\ s = s0) \/ (secp_n / 2 < s0 /\ s = secp_n - s0))%Z.
Proof.
  induction fuel as [|f IH]; intros i kv r s c I J H; [discriminate H|]. cbn [sign_loop] in H.
  destruct (drbg_generate kv) as [gen kv'] eqn:E. destruct (inv_next _ _ _ _ _ _ I E) as [C I']. cbv zeta in H.
  change (be_val gen) with (digits_val 256 gen) in H.
  assert (Next : (forall K V, rfc6979_candidate x h i K V -> ~ (0 < Z.of_N (digits_val 256 V) < secp_n)%Z
                    \/ exists r, ecdsa_pair (Z.of_N (digits_val 256 V)) d z r 0) -> forall j, (j < S i)%nat -> rejected x h d z j).
  { intros R j L. destruct (Nat.eq_dec j i) as [->|N]; [exact R|]. apply J. lia. }
  destruct ((_ <? _)%Z && _)%bool eqn:R.
  - assert (R' : (0 < Z.of_N (digits_val 256 gen) < secp_n)%Z) by lia. clear R.
    destruct (sign_raw_pair d (z mod secp_n) _ R') as (r0 & s0 & P & M). apply pair_mod in P.
    destruct (sign_raw d (z mod secp_n) _) as [[[r1 s1] c1]|].
    + apply some_triple in H. destruct H as (-> & -> & _). destruct M as (-> & N & M). exists i, (fst kv), gen, s0. auto 8.
    + subst s0. apply (IH (S i) kv' r s c I'); [|exact H]. apply Next. intros K V C'.
      destruct (candidate_fun _ _ _ _ _ _ _ C C') as [_ <-]. right. exists r0. exact P.
  - apply (IH (S i) kv' r s c I'); [|exact H]. apply Next. intros K V C'. destruct (candidate_fun _ _ _ _ _ _ _ C C') as [_ <-]. left. lia.
Qed.
Lemma c68_nonce_follows_rfc6979 : forall (fuel : nat) (d : Z) (msg sig x h : bytes) (recid : N),
  (0 < d < secp_n)%Z -> is_ser256 d x -> is_ser256 (digest_val msg mod secp_n) h ->
  ecdsa_sign fuel d msg = Some (Ok (sig, recid)) ->
  exists i K V r s0 s rb sb, let nonce := Z.of_N (digits_val 256 V) in
    rfc6979_candidate x h i K V /\ (0 < nonce < secp_n)%Z
    /\ ecdsa_pair nonce d (digest_val msg) r s0 /\ s0 <> 0%Z
    /\ ((s0 <= secp_n / 2 /\ s = s0) \/ (secp_n / 2 < s0 /\ s = secp_n - s0))%Z
    /\ sig = rb ++ sb /\ is_ser256 r rb /\ is_ser256 s sb
    /\ (forall j K' V', (j < i)%nat -> rfc6979_candidate x h j K' V' ->
          ~ (0 < Z.of_N (digits_val 256 V') < secp_n)%Z \/ exists r', ecdsa_pair (Z.of_N (digits_val 256 V')) d (digest_val msg) r' 0).
Proof.
  intros fuel d msg sig x h recid Hd Hx Hh H. pose proof (c64_signatures_are_valid _ _ _ _ _ Hd H) as (r & s & rb & sb & E & Rr & Rs & Bs & Br & _).
  unfold ecdsa_sign in H. destruct (message_parse_slice msg) as [z|] eqn:M; [|discriminate H].
  apply message_parse in M. destruct M as [_ ->]. destruct (sign fuel _ d) as [[[r' s'] c]|] eqn:S; [|discriminate H].
  assert (X : sig = signature_serialize r' s') by congruence. clear H.
  unfold sign in S.
  assert (X1 : x = be_bytes 32 (Z.to_N d)) by (apply ser256_fun, Hx). rewrite <- X1 in S. clear X1.
  assert (X2 : h = be_bytes 32 (Z.to_N (digest_val msg mod secp_n))) by (apply ser256_fun, Hh). rewrite <- X2 in S. clear X2.
  pose proof S as S'. apply sign_loop_ok in S'; [|exact Hd|apply Z.mod_pos_bound; reflexivity]. destruct S' as (Bs' & Br' & _).
  assert (HL : (secp_n / 2 < secp_n)%Z) by exact half_n_lt.
  apply (sign_loop_rfc x h d (digest_val msg) fuel 0) in S; [|apply inv_start|intros j L; lia].
  destruct S as (i & K & V & s0 & C & J & B & P & N & Y). exists i, K, V, r', s0, s', (be_bytes 32 (Z.to_N r')), (be_bytes 32 (Z.to_N s')).
  cbv zeta. split; [exact C|]. split; [exact B|]. split; [exact P|]. split; [exact N|]. split; [exact Y|]. split; [exact X|].
  split; [apply be_ser256, Br'|]. split; [apply be_ser256; lia|]. intros j K' V' L C'. exact (J j L K' V' C').
Qed.
Example c68_example : exists K V, rfc6979_candidate (be_bytes 32 1) (be_bytes 32 5) 0 K V.
Proof. eexists _, _. apply (inv_start (be_bytes 32 1) (be_bytes 32 5)). Qed.
