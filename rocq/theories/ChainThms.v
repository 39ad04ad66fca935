(** Proofs of the properties of whole computations, from the bits up (restated in PropChain.v). *)
From Coq Require Import String ZifyBool ZifyNat ZifyN.
From Verif Require Import Outcome Bytes Str Hash HashLemmas Ripemd Nfkd ModelBip39 SpecBip39 Secp SpecSecp SecpGroup SecpProofs SecpSign.
From Verif Require Import Base58 ModelBip32 SpecBip32 SpecWallet SpecHash SpecUnicode SpecChain.
From Verif Require Import StrLemmas NfkdLemmas Base58Proofs Bip39Thms PathThms ExtProofs KeyTextThms DeriveThms MiscThms HashThms UnicodeThms.
Open Scope N_scope.

(** ** C105 *)
Lemma HMAC512 k m I : bytes_ok k -> bytes_ok m -> len k < 2 ^ 60 -> len m < 2 ^ 60 -> (HMAC_SHA512 k m I <-> I = hmac_sha512 k m).
Proof. apply hmac_sha512_iff. Qed.
Lemma few n l : has_bytes n l -> N.of_nat n < 2 ^ 59 -> bytes_ok l /\ len l < 2 ^ 59.
Proof. intros [L B] H. split; [exact B|]. unfold len. rewrite L. exact H. Qed.
Lemma master_few : bytes_ok master_key_text /\ len master_key_text < 2 ^ 60.
Proof. split; [repeat constructor|reflexivity]. Qed.
Lemma key_id_iff P f : P <> Infinity -> on_curve P -> (key_id P f <-> f = public_fingerprint P).
Proof. intros F O. symmetry. apply c92_fingerprint; assumption. Qed.

Lemma master_ok seed x : xprv_new seed = Ok x <-> In (length seed) [16; 32; 64; 128]%nat /\ usable (hmac_sha512 master_key_text seed)
  /\ x = mkXPrv (left_half (hmac_sha512 master_key_text seed)) (mkAttrs 0 [0; 0; 0; 0] 0 (right_half (hmac_sha512 master_key_text seed))).
Proof.
  unfold xprv_new, xprv_new_with. rewrite separator_text. cbv zeta. generalize (hmac_sha512 master_key_text seed). intros I.
  rewrite <- seed_length_iff. destruct (existsb _ _); cbn [negb].
  - unfold private_from_bytes. destruct (usable_dec I) as [U|U].
    + rewrite (proj1 (parse_left I) U). cbn [ok_or bind]. split.
      * intros H. split; [reflexivity|]. split; [exact U|]. injection H as <-. reflexivity.
      * intros (_ & _ & ->). reflexivity.
    + rewrite (proj2 (parse_left I) U). cbn [ok_or bind]. split; [intros H; discriminate H|]. intros (_ & H & _). destruct (U H).
  - split; [intros H; discriminate H|]. intros (H & _). discriminate H.
Qed.
Lemma c105_master_key : forall (seed : bytes) (x : xprv), bytes_ok seed ->
  (xprv_new seed = Ok x <-> In (length seed) [16; 32; 64; 128]%nat /\ bip32_master seed x).
Proof.
  intros seed x B. rewrite master_ok. set (I := hmac_sha512 master_key_text seed).
  destruct master_few as [B1 L1].
  assert (M : In (length seed) [16; 32; 64; 128]%nat -> forall I', HMAC_SHA512 master_key_text seed I' <-> I' = I).
  { intros L I'. apply HMAC512; [exact B1|exact B|exact L1|]. unfold len. cbn [In] in L. change (2 ^ 60) with 1152921504606846976. lia. }
  clearbody I. unfold bip32_master. split.
  - intros (L & U & ->). split; [exact L|]. exists I. split; [apply M; auto|]. auto.
  - intros (L & I' & H & U & E1 & E2). apply (M L) in H. subst I'. split; [exact L|]. split; [exact U|]. destruct x as [k a].
    cbn [private_key xprv_attrs] in E1, E2. rewrite E1, E2. reflexivity.
Qed.

Lemma few_app a b : bytes_ok a /\ len a < 2 ^ 59 -> bytes_ok b /\ len b < 2 ^ 59 -> bytes_ok (a ++ b) /\ len (a ++ b) < 2 ^ 60.
Proof.
  intros [A1 A2] [B1 B2]. split; [apply bytes_ok_app; auto|]. rewrite len_app. change (2 ^ 60) with (2 ^ 59 + 2 ^ 59). lia.
Qed.
Lemma child_bytes_few c : bytes_ok (child_to_bytes c) /\ len (child_to_bytes c) < 2 ^ 59.
Proof. apply (few 4); [apply has_bytes_be|reflexivity]. Qed.
Lemma point_bytes_few P : bytes_ok (public_to_bytes P) /\ len (public_to_bytes P) < 2 ^ 59.
Proof. apply (few 33); [split; [apply public_serialize_length|apply public_serialize_ok]|reflexivity]. Qed.
Lemma input_few k c : (0 < k < secp_n)%Z -> bytes_ok (priv_input k c) /\ len (priv_input k c) < 2 ^ 60.
Proof.
  intros H. unfold priv_input. apply few_app; [|apply child_bytes_few]. destruct (child_is_hardened c).
  - apply (few 33); [|reflexivity]. apply (has_bytes_app 1 32 [0]); [apply has_bytes_1; reflexivity|apply secret_bytes, H].
  - apply point_bytes_few.
Qed.
Lemma sum_mod k l : (0 < k < secp_n)%Z -> (secp_n | k - l)%Z <-> k = (l mod secp_n)%Z.
Proof.
  intros H. split.
  - intros [q E]. apply (Z.mod_unique_pos l secp_n (- q)); lia.
  - intros E. exists (- (l / secp_n))%Z. pose proof (Z.div_mod l secp_n ltac:(discriminate)). lia.
Qed.
Lemma c105_private_child : forall (x y : xprv) (i : N), valid_xprv x -> u32 i -> (xprv_derive_child x i = Ok y <-> bip32_child x i y).
Proof.
  intros x y i [Hk (Hd & Hf & Hc & Hcc)] Hi. unfold xprv_derive_child. rewrite xprv_step. cbv zeta. rewrite private_public by lia.
  set (k := private_key x) in *. set (a := xprv_attrs x) in *.
  pose proof (kG_not_inf k Hk) as F. pose proof (kG_on k) as O.
  assert (M : forall I, HMAC_SHA512 (chain_code a) (priv_input k i) I <-> I = hmac_sha512 (chain_code a) (priv_input k i)).
  { intros I. destruct (few 32 _ Hcc eq_refl) as [B1 L1]. destruct (input_few k i Hk) as [B2 L2]. apply HMAC512; [exact B1|exact B2| |exact L2].
    change (2 ^ 60) with (2 ^ 59 + 2 ^ 59). lia. }
  revert M. generalize (hmac_sha512 (chain_code a) (priv_input k i)). intros I M.
  assert (S : bip32_child x i y <-> usable I /\ (0 < private_key y < secp_n)%Z /\ private_key y = ((left_half I + k) mod secp_n)%Z
    /\ depth a < 255 /\ xprv_attrs y = mkAttrs (depth a + 1) (public_fingerprint (kG k)) i (right_half I)).
  { unfold bip32_child. fold k. fold a. split.
    - intros (P & f & data & I' & HP & Hf' & Hdata & HI & U & By & D & Hd' & Ha). apply is_public_point_iff in HP. destruct HP as [_ ->].
      apply key_id_iff in Hf'; [|exact F|exact O]. apply priv_data_iff in Hdata; [|exact Hk|exact Hi]. subst data f.
      apply M in HI. subst I'. split; [exact U|]. split; [exact By|]. split; [apply sum_mod; assumption|]. auto.
    - intros (U & By & Ey & Hd' & Ha). exists (kG k), (public_fingerprint (kG k)), (priv_input k i), I.
      split; [apply is_public_point_iff; split; [lia|reflexivity]|]. split; [apply key_id_iff; auto|]. split; [apply priv_data_iff; auto|].
      split; [apply M; reflexivity|]. split; [exact U|]. split; [exact By|]. split; [apply sum_mod; assumption|]. auto. }
  rewrite S. clear S M. destruct (N.ltb_spec (depth a) 255) as [X|X].
  2: { split; [intros H; discriminate H|]. intros (_ & _ & _ & H & _). lia. }
  destruct (usable_dec I) as [U|U].
  2: { rewrite (proj2 (parse_left I) U). split; [intros H; discriminate H|]. intros (H & _). destruct (U H). }
  rewrite (proj1 (parse_left I) U). unfold secret_tweak_add. cbv zeta. rewrite (Z.add_comm k). set (t := ((left_half I + k) mod secp_n)%Z).
  assert (Bt : (0 <= t < secp_n)%Z) by (apply Z.mod_pos_bound; reflexivity). clearbody t.
  destruct (Z.eqb_spec t 0) as [E|E].
  - split; [intros H; discriminate H|]. intros (_ & By & Ey & _). lia.
  - split.
    + intros H. assert (Ey : y = mkXPrv t (mkAttrs (depth a + 1) (public_fingerprint (kG k)) i (right_half I))) by (injection H; auto).
      rewrite Ey. cbn [private_key xprv_attrs]. split; [exact U|]. split; [lia|]. auto.
    + intros (_ & _ & Ey & _ & Ha). destruct y as [ky ay]. cbn [private_key xprv_attrs] in Ey, Ha. rewrite Ey, Ha. reflexivity.
Qed.
Lemma c105_public_child : forall (x y : xpub) (i : N), valid_xpub x -> u32 i -> (xpub_derive_child x i = Ok y <-> bip32_public_child x i y).
Proof.
  intros x y i (F & O & (Hd & Hf & Hc & Hcc)) Hi. unfold xpub_derive_child. rewrite xpub_step, hardened_iff by exact Hi. cbv zeta.
  set (P := public_key x) in *. set (a := xpub_attrs x) in *. set (data := public_to_bytes P ++ child_to_bytes i).
  assert (M : forall I, HMAC_SHA512 (chain_code a) data I <-> I = hmac_sha512 (chain_code a) data).
  { intros I. destruct (few 32 _ Hcc eq_refl) as [B1 L1]. destruct (few_app _ _ (point_bytes_few P) (child_bytes_few i)) as [B2 L2].
    apply HMAC512; [exact B1|exact B2| |exact L2]. change (2 ^ 60) with (2 ^ 59 + 2 ^ 59). lia. }
  revert M. generalize (hmac_sha512 (chain_code a) data). intros I M.
  assert (S : bip32_public_child x i y <-> i < 2 ^ 31 /\ usable I /\ public_key y = ec_add (kG (left_half I)) P /\ public_key y <> Infinity
    /\ depth a < 255 /\ xpub_attrs y = mkAttrs (depth a + 1) (public_fingerprint P) i (right_half I)).
  { unfold bip32_public_child. fold P. fold a. split.
    - intros (f & data' & I' & T & Hn & Hf' & Hdata & HI & U & HT & HS & Fy & Hd' & Ha).
      apply key_id_iff in Hf'; [|exact F|exact O]. apply pub_data_iff in Hdata; [|exact F|exact O|exact Hi]. subst data' f.
      apply M in HI. subst I'. apply is_public_point_iff in HT. destruct HT as [_ ->].
      apply ec_sum_iff in HS; [|apply kG_on|exact O]. auto 8.
    - intros (Hn & U & Ey & Fy & Hd' & Ha). exists (public_fingerprint P), data, I, (kG (left_half I)).
      split; [exact Hn|]. split; [apply key_id_iff; auto|]. split; [apply pub_data_iff; auto|]. split; [apply M; reflexivity|].
      split; [exact U|]. split; [apply is_public_point_iff; split; [unfold usable in U; lia|reflexivity]|].
      split; [apply ec_sum_iff; [apply kG_on|exact O|auto]|]. auto. }
  rewrite S. clear S M. destruct (N.leb_spec (2 ^ 31) i) as [Y|Y].
  { split; [intros H; discriminate H|]. intros (H & _). lia. }
  destruct (N.ltb_spec (depth a) 255) as [X|X].
  2: { split; [intros H; discriminate H|]. intros (_ & _ & _ & _ & H & _). lia. }
  destruct (usable_dec I) as [U|U].
  2: { rewrite (proj2 (parse_left I) U). split; [intros H; discriminate H|]. intros (_ & H & _). destruct (U H). }
  rewrite (proj1 (parse_left I) U). rewrite public_tweak_ok by exact O.
  rewrite (ec_add_comm P) by (assumption || apply kG_on). set (T := ec_add (kG (left_half I)) P). clearbody T.
  destruct T as [|tx ty].
  - split; [intros H; discriminate H|]. intros (_ & _ & Ey & Fy & _). destruct (Fy Ey).
  - split.
    + intros H. assert (Ey : y = mkXPub (Point tx ty) (mkAttrs (depth a + 1) (public_fingerprint P) i (right_half I))) by (injection H; auto).
      rewrite Ey. cbn [public_key xpub_attrs]. split; [exact Y|]. split; [exact U|]. split; [reflexivity|]. split; [discriminate|]. auto.
    + intros (_ & _ & Ey & _ & _ & Ha). destruct y as [ky ay]. cbn [public_key xpub_attrs] in Ey, Ha. rewrite Ey, Ha. reflexivity.
Qed.

Lemma descends_front {K} (child : K -> N -> K -> Prop) x i y p z : child x i y -> descends child y p z -> descends child x (i :: p) z.
Proof.
  intros C D. induction D as [|p z' j z D IH C']; [exact (descends_child child x [] x i y (descends_self child x) C)|].
  exact (descends_child child x (i :: p) z' j z IH C').
Qed.
Lemma descends_inv {K} (child : K -> N -> K -> Prop) x i p z : descends child x (i :: p) z -> exists y, child x i y /\ descends child y p z.
Proof.
  remember (i :: p) as q eqn:Q. intros D. revert i p Q. induction D as [|q y j z D IH C]; intros i p Q; [discriminate Q|].
  destruct q as [|i0 q].
  - cbn [app] in Q. injection Q as -> <-. inversion D as [E1 E2|p0 y0 i0 z0 D0 C0 E1 E2].
    + exists z. split; [exact C|constructor].
    + destruct p0; discriminate E1.
  - cbn [app] in Q. injection Q as -> <-. destruct (IH i q eq_refl) as (y' & Cy & Dy). exists y'. split; [exact Cy|].
    eapply descends_child; eassumption.
Qed.
Lemma ok_inj {E A} (a b : A) : @Ok E A a = Ok b -> a = b.
Proof. intros H. injection H. auto. Qed.
Lemma descends_along {K} (valid : K -> Prop) (f : K -> N -> R32 K) (child : K -> N -> K -> Prop) :
  (forall x y i, valid x -> u32 i -> (f x i = Ok y <-> child x i y)) -> (forall x i y, valid x -> u32 i -> f x i = Ok y -> valid y) ->
  forall p x z, valid x -> Forall u32 p -> (along f p (Ok x) = Ok z <-> descends child x p z).
Proof.
  intros Hf Hv p. induction p as [|i p IH]; intros x z V F.
  - split; [intros H; apply ok_inj in H; rewrite <- H; constructor|]. intros D. inversion D as [E1 E2|p0 y0 i0 z0 D0 C0 E1 E2]; [reflexivity|].
    destruct p0; discriminate E1.
  - inversion F as [|? ? Hi Hp]; subst. rewrite along_cons. split.
    + intros H. apply bind_ok in H. destruct H as (y & Hy & H). pose proof Hy as Hy'. apply Hf in Hy'; [|exact V|exact Hi].
      eapply descends_front; [exact Hy'|]. apply IH; [eapply Hv; eassumption|exact Hp|exact H].
    + intros D. apply descends_inv in D. destruct D as (y & C & D). pose proof C as C'. apply Hf in C'; [|exact V|exact Hi]. rewrite C'. cbn [bind].
      apply IH; [eapply Hv; eassumption|exact Hp|exact D].
Qed.
Lemma c105_paths : forall p : list N, Forall u32 p ->
  (forall x z : xprv, valid_xprv x -> (xprv_derive_from_path x p = Ok z <-> descends bip32_child x p z))
  /\ (forall x z : xpub, valid_xpub x -> (xpub_derive_from_path x p = Ok z <-> descends bip32_public_child x p z)).
Proof.
  intros p F. split.
  - intros x z V. rewrite along_prv. apply (descends_along valid_xprv); [intros; apply c105_private_child; assumption| |exact V|exact F].
    intros k c k' _. apply xprv_child_valid.
  - intros x z V. rewrite along_pub. apply (descends_along valid_xpub); [intros; apply c105_public_child; assumption| |exact V|exact F].
    intros k c k' (_ & O & _). apply xpub_child_valid, O.
Qed.

(** Text *)
Lemma text_iff v a key s : (exists payload, layout v a key payload /\ base58check payload s) <-> bip32_text v a key s.
Proof.
  unfold bip32_text. split.
  - intros (pl & L & B). exists pl, (sha256 pl), (sha256 (sha256 pl)). destruct (layout_bytes _ _ _ _ L) as [Ll Lb].
    split; [exact L|]. split; [apply sha256_iff; [exact Lb|unfold len; rewrite Ll; reflexivity|reflexivity]|].
    split; [apply sha256_iff; [apply sha256_ok|unfold len; rewrite sha256_length; reflexivity|reflexivity]|]. exact B.
  - intros (pl & d & d' & L & H1 & H2 & B). exists pl. split; [exact L|]. destruct (layout_bytes _ _ _ _ L) as [Ll Lb].
    apply sha256_iff in H1; [|exact Lb|unfold len; rewrite Ll; reflexivity]. subst d.
    apply sha256_iff in H2; [|apply sha256_ok|unfold len; rewrite sha256_length; reflexivity]. subst d'. exact B.
Qed.
Lemma written_iff e s : valid_ext e -> (ek_to_string e = Ok s <-> bip32_text (version (ek_prefix e)) (ek_attrs e) (key_bytes e) s).
Proof.
  intros V. rewrite to_string_iff by exact V. rewrite <- text_iff. split.
  - intros B. exists (ek_payload e). split; [apply ek_payload_layout, V|exact B].
  - intros (pl & L & B). rewrite (layout_fun _ _ _ _ _ (ek_payload_layout e V) L). exact B.
Qed.
Lemma c105_text_written : forall (p : prefix) (s : str), valid_prefix p ->
  (forall x : xprv, valid_xprv x -> (xprv_to_string x p = Ok s <-> private_text (version p) x s))
  /\ (forall x : xpub, valid_xpub x -> (xpub_to_string x p = Ok s <-> public_text (version p) x s)).
Proof.
  intros p s Hp. split.
  - intros x V. unfold xprv_to_string. rewrite (written_iff _ _ (xprv_ext_valid x p V Hp)). unfold private_text.
    destruct V as [Hk _]. split.
    + intros T. exists (private_to_bytes (private_key x)). split; [apply secret_bytes, Hk|exact T].
    + intros (kb & K & T). apply ser256_fun in K. subst kb. exact T.
  - intros x V. unfold xpub_to_string. rewrite (written_iff _ _ (xpub_ext_valid x p V Hp)). unfold public_text.
    destruct V as (F & O & _). split.
    + intros T. exists (public_to_bytes (public_key x)). split; [apply to_bytes_compressed; auto|exact T].
    + intros (b & C & T). apply to_bytes_compressed in C; [|exact F|exact O]. subst b. exact T.
Qed.
Lemma c105_text_read : forall s : str,
  (forall x : xprv, xprv_from_str s = Ok x <->
     (0 < private_key x < secp_n)%Z /\ Forall letter (firstn 4 s) /\ skipn 1 (firstn 4 s) = lit "prv" /\ exists v, private_text v x s)
  /\ (forall x : xpub, xpub_from_str s = Ok x <->
     on_curve (public_key x) /\ Forall letter (firstn 4 s) /\ skipn 1 (firstn 4 s) = lit "pub" /\ exists v, public_text v x s).
Proof.
  intros s. split; intros x.
  - rewrite c43_valid_private_keys. split.
    + intros (pl & v & kb & L & B & H1 & H2 & K & Bk). split; [exact Bk|]. split; [exact H1|]. split; [exact H2|].
      exists v, kb. split; [exact K|]. apply text_iff. exists pl. auto.
    + intros (Bk & H1 & H2 & v & kb & K & T). apply text_iff in T. destruct T as (pl & L & B). exists pl, v, kb. auto 8.
  - rewrite c44_curve_points. split.
    + intros (pl & v & b & L & B & H1 & H2 & K & O). split; [exact O|]. split; [exact H1|]. split; [exact H2|].
      exists v, b. split; [exact K|]. apply text_iff. exists pl. auto.
    + intros (O & H1 & H2 & v & b & K & T). apply text_iff in T. destruct T as (pl & L & B). exists pl, v, b. auto 8.
Qed.
(** The example of C50: a normal and a hardened child; the root of the first test vector of BIP32 and its text. *)
Example c105_example : bip32_master ex_seed ex_xprv /\ descends bip32_child ex1_xprv [0] ex1_child /\ bip32_child ex1_xprv (2 ^ 31) ex1_hardened
  /\ private_text 76066276 ex_xprv ex_text.
Proof.
  split; [apply c105_master_key; [repeat constructor|apply c49_example]|].
  destruct c50_example as (V & E1 & E2 & _). split.
  - eapply descends_front; [apply c105_private_child; [exact V|reflexivity|exact E1]|constructor].
  - split; [apply c105_private_child; [exact V|reflexivity|exact E2]|].
    apply (c105_text_written XPRV ex_text); [|apply c40_example|apply c40_example].
    split; [reflexivity|]. split; [apply letters_iff; reflexivity|reflexivity].
Qed.

(** ** C106 *)
Lemma utf8_small s b : scalars s -> is_utf8 s b <-> b = utf8 s.
Proof.
  intros Hs. split; [|intros ->; apply utf8_meets, Hs].
  intros (Hb & parts & Hp & E). destruct (utf8_meets s Hs) as (Hb' & parts' & Hp' & E').
  rewrite <- (utf8_parts_fun _ _ _ Hp Hp') in E'. apply bits_of_bytes_inj; [exact Hb|exact Hb'|congruence].
Qed.
Lemma nfkd_words ws ws' : Forall2 is_nfkd ws ws' <-> ws' = map nfkd ws.
Proof.
  split.
  - induction 1 as [|w w' ws ws' H _ IH]; [reflexivity|]. apply c94_nfkd in H. cbn [map]. rewrite H, IH. reflexivity.
  - intros ->. induction ws as [|w ws IH]; cbn [map]; constructor; [apply c94_nfkd; reflexivity|exact IH].
Qed.
Lemma words_iff ws ent : bip39_words ws ent <-> bip39_sentence English ws ent.
Proof.
  unfold bip39_words, bip39_sentence, with_checksum, checksum_of.
  assert (L : legal_entropy ent -> len ent < 2 ^ 61).
  { unfold legal_entropy, len. cbn [In]. change (2 ^ 61) with 2305843009213693952. lia. }
  split.
  - intros (B & Le & d & D & E). apply sha256_iff in D; [|exact B|apply L, Le]. subst d. auto.
  - intros (B & Le & E). split; [exact B|]. split; [exact Le|]. exists (sha256 ent). split; [apply sha256_iff; [exact B|apply L, Le|reflexivity]|exact E].
Qed.
Lemma phrase_seed ws ent pw seed : bip39_sentence English ws ent -> Forall is_scalar pw -> len (nfkd pw) < 2 ^ 56 ->
  let m := Mnemonic (spaced ws) English ent in constructible m ->
  seed_new m pw = Ok seed <-> bip39_seed_of ws pw seed.
Proof.
  intros S Hpw Hl m Hc. apply scalar_small in Hpw. pose proof (constructible_plain m Hc) as Pl. cbn [m m_phrase] in Pl.
  assert (Sc : scalars (spaced ws)).
  { unfold scalars. apply Forall_forall. intros c Hin. rewrite forallb_forall in Pl. specialize (Pl c Hin). unfold plain in Pl. lia. }
  rewrite (c93_seed_from_standards m (utf8 (spaced ws)) pw seed Hc eq_refl Hpw Hl).
  change (utf8 (lit "mnemonic")) with (lit "mnemonic"). unfold bip39_seed_of. split.
  - intros H. exists (spaced ws), (utf8 (spaced ws)), (nfkd pw), (utf8 (nfkd pw)).
    split; [apply c94_nfkd; symmetry; apply nfkd_plain, Pl|]. split; [apply utf8_small; [exact Sc|reflexivity]|].
    split; [apply c94_nfkd; reflexivity|]. split; [apply utf8_small; [apply nfkd_scalars, Hpw|reflexivity]|]. exact H.
  - intros (t & tb & pw' & pwb & H1 & H2 & H3 & H4 & H). apply c94_nfkd in H1, H3. subst t pw'.
    rewrite (nfkd_plain _ Pl) in H2. apply utf8_small in H2; [|exact Sc]. apply utf8_small in H4; [|apply nfkd_scalars, Hpw]. subst tb pwb. exact H.
Qed.
Lemma path_u32 s p : path_text s p -> Forall u32 p.
Proof.
  intros (comps & _ & F). induction F as [|t c comps p H _ IH]; constructor; [|exact IH].
  destruct H as (sg & ds & h & _ & _ & _ & L & _ & ->). unfold u32. change (2 ^ 32) with (2 ^ 31 + 2 ^ 31). destruct h; lia.
Qed.
(** The whole way from the phrase, the passphrase and the text of the path to the key. *)
Lemma c106_english_wallet_from_standards : forall (s pw ps : str) (x : xprv), Forall is_scalar pw -> len (nfkd pw) < 2 ^ 56 ->
  ((exists p, path_from_str ps = Ok p /\ wallet s English pw p = Ok x) <-> wallet_key s pw ps x).
Proof.
  intros s pw ps x Hpw Hl. unfold wallet_key. split.
  - intros (p & Hp & W). apply c33_path_grammar in Hp. pose proof (path_u32 _ _ Hp) as U. unfold wallet in W.
    apply bind_ok in W. destruct W as (m & Hm & W). destruct (from_phrase s English) as [m'|e|] eqn:F; cbn [map_err] in Hm; [|discriminate Hm..].
    apply ok_inj in Hm. subst m'. apply bind_ok in W. destruct W as (seed & Hs & W).
    destruct (seed_new m pw) as [seed'|e|] eqn:E; cbn [map_err] in Hs; [|discriminate Hs..]. apply ok_inj in Hs. subst seed'.
    destruct (xprv_new_from_path seed p) as [x'|e|] eqn:X; cbn [map_err] in W; [|discriminate W..]. apply ok_inj in W. subst x'.
    pose proof F as F'. apply c04_from_phrase_accepts_sentences in F'. destruct F' as (S & P & L).
    assert (Hc : constructible m) by (eapply built_phrase, F). pose proof E as E'.
    destruct m as [ph lg ent]. cbn [m_phrase m_lang m_entropy] in S, P, L. subst ph lg.
    apply (phrase_seed _ ent pw seed S Hpw Hl Hc) in E'.
    destruct (c24_seed_is_64_bytes _ pw Hc) as (seed' & E2 & L2 & B2). rewrite E in E2. apply ok_inj in E2. subst seed'.
    rewrite along_new, along_bind in X. apply bind_ok in X. destruct X as (x0 & X0 & X). pose proof (xprv_new_valid _ _ X0) as V0.
    apply c105_master_key in X0; [|exact B2]. rewrite <- along_prv in X. apply c105_paths in X; [|exact U|exact V0].
    exists (split_whitespace s), (map nfkd (split_whitespace s)), ent, seed, x0, p.
    split; [apply laid_out_iff; reflexivity|]. split; [apply nfkd_words; reflexivity|]. split; [apply words_iff, S|]. split; [exact E'|].
    split; [apply X0|]. auto.
  - intros (ws & ws' & ent & seed & m & p & L & W & S & E & M & P & D). apply laid_out_iff in L. subst ws. apply nfkd_words in W. subst ws'.
    apply words_iff in S. exists p. split; [apply c33_path_grammar, P|]. pose proof (path_u32 _ _ P) as U.
    assert (F : from_phrase s English = Ok (Mnemonic (spaced (map nfkd (split_whitespace s))) English ent)) by (apply c04_from_phrase_accepts_sentences; auto).
    assert (Hc : constructible (Mnemonic (spaced (map nfkd (split_whitespace s))) English ent)) by (eapply built_phrase, F).
    apply (phrase_seed _ ent pw seed S Hpw Hl Hc) in E. destruct (c24_seed_is_64_bytes _ pw Hc) as (seed' & E2 & L2 & B2).
    rewrite E in E2. apply ok_inj in E2. subst seed'. unfold wallet. rewrite F. cbn [map_err bind]. rewrite E. cbn [map_err bind].
    assert (X0 : xprv_new seed = Ok m) by (apply c105_master_key; [exact B2|split; [rewrite L2; cbn [In]; auto|exact M]]).
    pose proof (xprv_new_valid _ _ X0) as V0. apply c105_paths in D; [|exact U|exact V0]. rewrite along_new, along_bind, X0. cbn [bind].
    rewrite <- along_prv, D. reflexivity.
Qed.
(** There is at most one such key, and it has exactly one private and one public text for each version. *)
Lemma text_unique e : valid_ext e -> exists! t, ek_to_string e = Ok t.
Proof.
  intros V. destruct (to_string_exists e V) as (t & E & _). exists t. split; [exact E|]. intros t' E'. rewrite E in E'. apply ok_inj in E'. exact E'.
Qed.
Lemma c106_key_determined : forall (s pw ps : str) (x y : xprv) (v : N), Forall is_scalar pw -> len (nfkd pw) < 2 ^ 56 -> u32 v ->
  wallet_key s pw ps x -> wallet_key s pw ps y ->
  x = y /\ (exists! t, private_text v x t)
  /\ exists P, is_public_point (private_key x) P /\ exists! t, public_text v (mkXPub P (xprv_attrs x)) t.
Proof.
  intros s pw ps x y v Hpw Hl Hv Hx Hy. apply c106_english_wallet_from_standards in Hx, Hy; [|assumption..].
  destruct Hx as (p & Ep & Wx). destruct Hy as (q & Eq & Wy). rewrite Ep in Eq. apply ok_inj in Eq. subst q.
  assert (U : Forall u32 p) by (eapply path_u32; apply c33_path_grammar; exact Ep).
  pose proof (c67_errors s English pw p U) as V. rewrite Wx in V. destruct V as [V _]. rewrite Wx in Wy. apply ok_inj in Wy.
  split; [exact Wy|]. set (pre := mkPrefix (lit "xprv") v).
  assert (Hp : valid_prefix pre) by (split; [reflexivity|split; [apply letters_iff; reflexivity|exact Hv]]). split.
  - destruct (text_unique _ (xprv_ext_valid x pre V Hp)) as (t & E & Un). exists t.
    split; [apply (c105_text_written pre t Hp); [exact V|exact E]|]. intros t' T. apply (c105_text_written pre t' Hp) in T; [|exact V]. apply Un, T.
  - pose proof (xprv_public_valid x V) as V'. unfold xprv_public_key in V'. exists (private_public_key (private_key x)).
    destruct V as [Hk _]. split; [apply is_public_point_iff; split; [lia|apply private_public; lia]|].
    destruct (text_unique _ (xpub_ext_valid _ pre V' Hp)) as (t & E & Un). exists t.
    split; [apply (c105_text_written pre t Hp); [exact V'|exact E]|]. intros t' T. apply (c105_text_written pre t' Hp) in T; [|exact V']. apply Un, T.
Qed.
(** The parts of a wallet: words with their entropy and a seed, a path, the root of a test vector. *)
Example c106_example : bip39_words (map nfkd (split_whitespace ex_phrase)) (m_entropy ex_mnemonic)
  /\ (exists seed, bip39_seed_of (map nfkd (split_whitespace ex_phrase)) (lit "TREZOR") seed)
  /\ path_text (lit "m/44'/0'") [2147483692; 2147483648] /\ bip32_master ex_seed ex_xprv.
Proof.
  pose proof c04_example as S. split; [apply words_iff, S|]. split.
  - set (m := Mnemonic (spaced (map nfkd (split_whitespace ex_phrase))) English (m_entropy ex_mnemonic)).
    assert (F : from_phrase ex_phrase English = Ok m) by (apply c04_from_phrase_accepts_sentences; auto).
    assert (Hc : constructible m) by (eapply built_phrase, F). destruct (c24_seed_is_64_bytes m (lit "TREZOR") Hc) as (seed & E & _).
    exists seed. apply (phrase_seed _ (m_entropy ex_mnemonic) (lit "TREZOR") seed S); [| |exact Hc|exact E].
    + apply Forall_forall. intros c Hin. left. cbn in Hin. lia.
    + reflexivity.
  - split; [apply c33_path_grammar; vm_compute; reflexivity|apply c105_example].
Qed.

(** ** C107 *)
Lemma hmac256_bytes k m : has_bytes 32 (hmac_sha256 k m).
Proof. split; [apply hmac_sha256_length|apply hmac_sha256_ok]. Qed.
Lemma HMAC256 n m k msg mac : has_bytes n k -> has_bytes m msg -> N.of_nat n < 2 ^ 59 -> N.of_nat m < 2 ^ 59 ->
  (HMAC_SHA256 k msg mac <-> mac = hmac_sha256 k msg).
Proof.
  intros Hk Hm Ln Lm. destruct (few _ _ Hk Ln) as [B1 L1]. destruct (few _ _ Hm Lm) as [B2 L2].
  assert (2 ^ 60 = 2 ^ 59 + 2 ^ 59) by reflexivity. apply hmac_sha256_iff; [exact B1|exact B2|lia|lia].
Qed.
Lemma candidate_bytes x h i K T : rfc6979_candidate x h i K T -> has_bytes 32 K /\ has_bytes 32 T.
Proof.
  intros [K0 V (V0 & K1 & K2 & V1 & _ & _ & _ & _ & E & _)|i0 K0 V K' _ E]; (split; [rewrite E; apply hmac256_bytes|apply hmac256_bytes]).
Qed.
Lemma repeat_bytes b n : b < 256 -> has_bytes n (repeat b n).
Proof. intros H. split; [apply repeat_length|]. unfold bytes_ok. apply Forall_forall. intros c Hc. apply repeat_spec in Hc. subst c. exact H. Qed.
Lemma candidate_iff x h : has_bytes 32 x -> has_bytes 32 h -> forall i K T, nonce_candidate x h i K T <-> rfc6979_candidate x h i K T.
Proof.
  intros Hx Hh.
  assert (B : forall c V, c < 256 -> has_bytes 32 V -> has_bytes 97 (V ++ [c] ++ x ++ h)).
  { intros c V Hc HV. apply (has_bytes_app 32 65); [exact HV|]. apply (has_bytes_app 1 64); [apply has_bytes_1, Hc|]. apply (has_bytes_app 32 32); assumption. }
  assert (B' : forall V, has_bytes 32 V -> has_bytes 33 (V ++ [0])).
  { intros V HV. apply (has_bytes_app 32 1); [exact HV|apply has_bytes_1; reflexivity]. }
  assert (Z : has_bytes 32 (repeat 0 32)) by (apply repeat_bytes; reflexivity).
  assert (O : has_bytes 32 (repeat 1 32)) by (apply repeat_bytes; reflexivity).
  assert (S : forall K V, nonce_start x h K V <-> rfc6979_start x h K V).
  { intros K V. unfold nonce_start, rfc6979_start. split.
    - intros (K1 & V1 & H1 & H2 & H3 & H4). exists (repeat 1 32), (repeat 0 32), K1, V1. split; [reflexivity|]. split; [reflexivity|].
      apply (HMAC256 32 97) in H1; [|exact Z|apply B; [reflexivity|exact O]|reflexivity..]. subst K1.
      apply (HMAC256 32 32) in H2; [|apply hmac256_bytes|exact O|reflexivity..]. subst V1.
      apply (HMAC256 32 97) in H3; [|apply hmac256_bytes|apply B; [reflexivity|apply hmac256_bytes]|reflexivity..]. subst K.
      apply (HMAC256 32 32) in H4; [|apply hmac256_bytes|apply hmac256_bytes|reflexivity..]. subst V. auto.
    - intros (V0 & K0 & K1 & V1 & -> & -> & H1 & H2 & H3 & H4). exists K1, V1. subst K1 V1 K V.
      split; [apply (HMAC256 32 97); [exact Z|apply B; [reflexivity|exact O]|reflexivity..]|].
      split; [apply (HMAC256 32 32); [apply hmac256_bytes|exact O|reflexivity..]|].
      split; [apply (HMAC256 32 97); [apply hmac256_bytes|apply B; [reflexivity|apply hmac256_bytes]|reflexivity..]|].
      apply (HMAC256 32 32); [apply hmac256_bytes|apply hmac256_bytes|reflexivity..]. }
  intros i K T. split.
  - induction 1 as [K V T H1 H2|i K T K' V T' _ IH H1 H2 H3].
    + apply S in H1. pose proof H1 as (V0 & K0 & K1 & V1 & _ & _ & _ & _ & E3 & E4).
      apply (HMAC256 32 32) in H2; [|rewrite E3; apply hmac256_bytes|rewrite E4; apply hmac256_bytes|reflexivity..].
      rewrite H2. apply candidate_first, H1.
    + destruct (candidate_bytes _ _ _ _ _ IH) as [BK BT].
      apply (HMAC256 32 33) in H1; [|exact BK|apply B', BT|reflexivity..].
      assert (BK' : has_bytes 32 K') by (rewrite H1; apply hmac256_bytes).
      apply (HMAC256 32 32) in H2; [|exact BK'|exact BT|reflexivity..].
      apply (HMAC256 32 32) in H3; [|exact BK'|rewrite H2; apply hmac256_bytes|reflexivity..].
      rewrite H3, H2. eapply candidate_next; [exact IH|exact H1].
  - induction 1 as [K V H1|i K V K' H IH E].
    + pose proof H1 as (V0 & K0 & K1 & V1 & _ & _ & _ & _ & E3 & E4). eapply first_candidate; [apply S, H1|].
      apply (HMAC256 32 32); [rewrite E3; apply hmac256_bytes|rewrite E4; apply hmac256_bytes|reflexivity..].
    + destruct (candidate_bytes _ _ _ _ _ H) as [BK BT]. assert (BK' : has_bytes 32 K') by (rewrite E; apply hmac256_bytes).
      eapply next_candidate; [exact IH|apply (HMAC256 32 33); [exact BK|apply B', BT|reflexivity|reflexivity|exact E]|..].
      * apply (HMAC256 32 32); [exact BK'|exact BT|reflexivity..].
      * apply (HMAC256 32 32); [exact BK'|apply hmac256_bytes|reflexivity..].
Qed.
Lemma recid_sum a b : N.lor (if a : bool then 2 else 0) (if b : bool then 1 else 0) = (if a then 2 else 0) + (if b then 1 else 0).
Proof. destruct a, b; reflexivity. Qed.
Lemma recid_flip_sum a b : N.lxor (N.lor (if a : bool then 2 else 0) (if b : bool then 1 else 0)) 1 = (if a then 2 else 0) + (if b then 0 else 1).
Proof. destruct a, b; reflexivity. Qed.
Lemma low_half s : (0 < s < secp_n)%Z -> (secp_n / 2 <? s)%Z = negb (2 * s <? secp_n)%Z.
Proof.
  pose proof half_n as H. intros Hs. generalize dependent (secp_n / 2)%Z. intros hn Hn. destruct (Z.ltb_spec hn s), (Z.ltb_spec (2 * s) secp_n); try reflexivity; lia.
Qed.
Lemma s_unique k z e s s' : (0 < k < secp_n)%Z -> (0 <= s < secp_n)%Z -> (0 <= s' < secp_n)%Z ->
  (secp_n | k * s - (z + e))%Z -> (secp_n | k * s' - (z + e))%Z -> s = s'.
Proof.
  intros Hk Hs Hs' D D'. assert (D2 : (secp_n | k * (s - s'))%Z).
  { replace (k * (s - s'))%Z with (k * s - (z + e) - (k * s' - (z + e)))%Z by ring. apply Z.divide_sub_r; assumption. }
  apply Znumtheory.prime_mult in D2; [|exact SecpField.n_prime]. destruct D2 as [D2|D2]; [destruct (small_not_divide k Hk D2)|].
  destruct D2 as [q E]. assert (q = 0)%Z by nia. lia.
Qed.
Lemma raw_signature d z k : (0 < k < secp_n)%Z ->
  (forall r s c, sign_raw d (z mod secp_n) k = Some (r, s, c) <-> signature_with k d z r s c)
  /\ (sign_raw d (z mod secp_n) k = None <-> bad_nonce k d z).
Proof.
  intros Hk. unfold sign_raw. rewrite ecmult_gen_ok. destruct (kG_finite k Hk) as (x & y & Ek). rewrite Ek. cbv zeta beta iota.
  set (r := (x mod secp_n)%Z). set (s0 := ((ninv k * ((r * d) mod secp_n + z mod secp_n)) mod secp_n)%Z).
  assert (Bs : (0 <= s0 < secp_n)%Z) by (apply Z.mod_pos_bound; reflexivity).
  assert (D : (secp_n | k * s0 - (z + r * d))%Z).
  { unfold s0. rewrite (Z.mod_eq (ninv k * _) secp_n), (Z.mod_eq (r * d) secp_n), (Z.mod_eq z secp_n) by discriminate.
    set (e := (r * d)%Z). set (q1 := (e / secp_n)%Z). set (q3 := (z / secp_n)%Z). set (q2 := (_ / secp_n)%Z).
    replace (k * (ninv k * (e - secp_n * q1 + (z - secp_n * q3)) - secp_n * q2) - (z + e))%Z
      with ((e + z) * (ninv k * k - 1) - secp_n * (k * ninv k * (q1 + q3) + k * q2))%Z by ring.
    apply Z.divide_sub_r; [apply Z.divide_mul_r, ninv_ok, small_not_divide, Hk|apply Z.divide_factor_l]. }
  clearbody s0.
  assert (PP : forall x' y', is_public_point k (Point x' y') <-> x' = x /\ y' = y).
  { intros x' y'. rewrite is_public_point_iff, Ek. split; [intros [_ H]; injection H as -> ->; auto|]. intros [-> ->]. split; [lia|reflexivity]. }
  assert (B0 : bad_nonce k d z <-> s0 = 0%Z).
  { unfold bad_nonce. split.
    - intros [H|(x' & y' & H & D')]; [destruct (H Hk)|]. apply PP in H. destruct H as [-> ->]. fold r in D'.
      apply (s_unique k z (r * d)); [exact Hk|exact Bs|split; [lia|reflexivity]|exact D|].
      replace (k * 0 - (z + r * d))%Z with (- (z + r * d))%Z by ring. apply Z.divide_opp_r, D'.
    - intros E. right. exists x, y. split; [apply PP; auto|]. fold r. rewrite E in D. replace (k * 0 - (z + r * d))%Z with (- (z + r * d))%Z in D by ring.
      apply (proj1 (Z.divide_opp_r _ _)), D. }
  rewrite B0.
  assert (SW : forall r' s c, signature_with k d z r' s c <-> s0 <> 0%Z /\ r' = r /\ s = (if (2 * s0 <? secp_n)%Z then s0 else secp_n - s0)%Z
    /\ c = (if (secp_n <=? x)%Z then 2 else 0) + (if xorb (Z.odd y) (2 * s0 <? secp_n)%Z then 0 else 1)).
  { intros r' s c. unfold signature_with. split.
    - intros (x' & y' & s1 & H & Er & Hs1 & D1 & Es & Ec). apply PP in H. destruct H as [-> ->]. fold r in Er. subst r'.
      assert (s1 = s0) by (apply (s_unique k z (r * d)); [exact Hk|lia|exact Bs|exact D1|exact D]). subst s1. split; [lia|]. auto.
    - intros (H0 & -> & Es & Ec). exists x, y, s0. split; [apply PP; auto|]. split; [reflexivity|]. split; [lia|]. auto. }
  split.
  - intros r' s c. rewrite SW. clear SW B0 PP D. destruct (Z.eqb_spec s0 0) as [E|E].
    + split; [intros H; discriminate H|]. intros (H & _). destruct (H E).
    + rewrite low_half by lia. rewrite recid_flip_sum, recid_sum.
      set (a := (secp_n <=? x)%Z). set (b := Z.odd y). set (f := (2 * s0 <? secp_n)%Z). clearbody a b f. split.
      * intros H. split; [exact E|]. destruct f; cbn [negb] in H; apply some_triple in H; destruct H as (<- & <- & <-);
          (split; [reflexivity|]); (split; [reflexivity|]); destruct a, b; reflexivity.
      * intros (_ & -> & -> & ->). destruct f, a, b; reflexivity.
  - clear SW B0. destruct (Z.eqb_spec s0 0) as [E|E]; [split; auto|]. split; [|intros H; destruct (E H)].
    destruct (secp_n / 2 <? s0)%Z; intros H; discriminate H.
Qed.
Definition all_bad x h d z (i : nat) : Prop := forall j K T, (j < i)%nat -> rfc6979_candidate x h j K T -> bad_nonce (Z.of_N (digits_val 256 T)) d z.
Lemma try_range T : ((Z.of_N (be_val T) <? secp_n)%Z && negb (Z.of_N (be_val T) =? 0)%Z)%bool = true <-> (0 < Z.of_N (digits_val 256 T) < secp_n)%Z.
Proof. change (be_val T) with (digits_val 256 T). generalize (digits_val 256 T). intros v. lia. Qed.
Lemma loop_sound x h d z : forall fuel i kv r s c, inv x h i kv -> all_bad x h d z i ->
  sign_loop fuel d (z mod secp_n) kv = Some (r, s, c) ->
  exists l K T, rfc6979_candidate x h l K T /\ all_bad x h d z l /\ (0 < Z.of_N (digits_val 256 T) < secp_n)%Z
    /\ signature_with (Z.of_N (digits_val 256 T)) d z r s c.
Proof.
  induction fuel as [|f IH]; intros i kv r s c I J H; [discriminate H|]. cbn [sign_loop] in H.
  destruct (drbg_generate kv) as [gen kv'] eqn:E. destruct (inv_next _ _ _ _ _ _ I E) as [C I']. cbv zeta in H.
  assert (Next : bad_nonce (Z.of_N (digits_val 256 gen)) d z -> all_bad x h d z (S i)).
  { intros R j K T L C'. destruct (Nat.eq_dec j i) as [->|N]; [|apply (J j K T); [lia|exact C']].
    destruct (candidate_fun _ _ _ _ _ _ _ C C') as [_ <-]. exact R. }
  destruct ((_ <? _)%Z && _)%bool eqn:R.
  - apply try_range in R. destruct (raw_signature d z _ R) as [R1 R2]. change (be_val gen) with (digits_val 256 gen) in H.
    destruct (sign_raw d (z mod secp_n) _) as [[[r1 s1] c1]|] eqn:Q.
    + exists i, (fst kv), gen. split; [exact C|]. split; [exact J|]. split; [exact R|]. apply R1. exact H.
    + apply (IH (S i) kv' r s c I'); [|exact H]. apply Next, R2. reflexivity.
  - apply (IH (S i) kv' r s c I'); [|exact H]. apply Next. left. intros X. apply try_range in X. rewrite X in R. discriminate R.
Qed.
Lemma loop_complete x h d z l K T r s c : rfc6979_candidate x h l K T -> all_bad x h d z l -> (0 < Z.of_N (digits_val 256 T) < secp_n)%Z ->
  signature_with (Z.of_N (digits_val 256 T)) d z r s c ->
  forall fuel i kv, inv x h i kv -> (l = i + fuel)%nat -> sign_loop (S fuel) d (z mod secp_n) kv = Some (r, s, c).
Proof.
  intros C J B S. induction fuel as [|f IH]; intros i kv I L.
  - rewrite Nat.add_0_r in L. subst i. cbn [sign_loop]. destruct (drbg_generate kv) as [gen kv'] eqn:E.
    destruct (inv_next _ _ _ _ _ _ I E) as [C' _]. destruct (candidate_fun _ _ _ _ _ _ _ C C') as [_ <-]. cbv zeta.
    rewrite (proj2 (try_range T) B). apply (raw_signature d z _ B) in S. change (be_val T) with (digits_val 256 T). rewrite S. reflexivity.
  - cbn [sign_loop]. destruct (drbg_generate kv) as [gen kv'] eqn:E. destruct (inv_next _ _ _ _ _ _ I E) as [C' I']. cbv zeta.
    assert (Bad : bad_nonce (Z.of_N (digits_val 256 gen)) d z) by (eapply (J i); [lia|exact C']).
    specialize (IH (Datatypes.S i) kv' I' ltac:(lia)). cbn [sign_loop] in IH.
    destruct ((_ <? _)%Z && _)%bool eqn:R; [|exact IH]. apply try_range in R. apply (raw_signature d z _ R) in Bad.
    change (be_val gen) with (digits_val 256 gen). rewrite Bad. exact IH.
Qed.
Lemma c107_signatures_from_standards : forall (d : Z) (msg sig : bytes) (recid : N), (0 < d < secp_n)%Z -> has_bytes 32 msg ->
  ((exists tries, ecdsa_sign tries d msg = Some (Ok (sig, recid))) <-> deterministic_signature d msg sig recid).
Proof.
  intros d msg sig recid Hd [Hl Hb]. set (z := digest_val msg). pose proof (Z.mod_pos_bound z secp_n eq_refl) as Bz.
  assert (Mp : message_parse_slice msg = Some (z mod secp_n)%Z).
  { unfold message_parse_slice. unfold len. rewrite Hl. reflexivity. }
  assert (SX : is_ser256 d (be_bytes 32 (Z.to_N d))) by (apply be_ser256; lia).
  assert (SH : is_ser256 (z mod secp_n) (be_bytes 32 (Z.to_N (z mod secp_n)))) by (apply be_ser256; lia).
  unfold ecdsa_sign. rewrite Mp. unfold deterministic_signature. fold z. split.
  - intros (tries & H). destruct (sign tries _ d) as [[[r s] c]|] eqn:Q; [|discriminate H].
    assert (E1 : sig = signature_serialize r s) by congruence. assert (E2 : recid = c) by congruence. clear H. subst recid.
    unfold sign in Q. pose proof Q as Q'. apply sign_loop_ok in Q'; [|exact Hd|exact (proj1 Bz)]. destruct Q' as (Bs' & Br' & _).
    pose proof half_n_lt as HL.
    apply (loop_sound (be_bytes 32 (Z.to_N d)) (be_bytes 32 (Z.to_N (z mod secp_n))) d z tries 0) in Q; [|apply inv_start|intros j K T L; lia].
    destruct Q as (l & K & T & C & J & B & S).
    exists (be_bytes 32 (Z.to_N d)), (be_bytes 32 (Z.to_N (z mod secp_n))), l, K, T, r, s, (be_bytes 32 (Z.to_N r)), (be_bytes 32 (Z.to_N s)).
    split; [exact SX|]. split; [exact SH|]. split; [apply candidate_iff; [apply SX|apply SH|exact C]|]. split.
    + intros j K' T' L C'. apply candidate_iff in C'; [|apply SX|apply SH]. eapply J; eassumption.
    + split; [exact B|]. split; [exact S|]. split; [exact E1|]. split; [apply be_ser256, Br'|apply be_ser256; lia].
  - intros (x & h & l & K & T & r & s & rb & sb & Hx & Hh & C & J & B & S & E & Hr & Hs).
    apply ser256_fun in Hr, Hs. pose proof (ser256_fun _ _ Hx) as X1. pose proof (ser256_fun _ _ Hh) as X2.
    apply candidate_iff in C; [|apply Hx|apply Hh]. exists (Datatypes.S l).
    assert (Q : sign (Datatypes.S l) (z mod secp_n) d = Some (r, s, recid)).
    { unfold sign. apply (loop_complete x h d z l K T r s recid C) with (i := 0%nat).
      - intros j K' T' L C'. apply (J j K' T' L). apply candidate_iff; [apply Hx|apply Hh|exact C'].
      - exact B.
      - exact S.
      - unfold private_to_bytes, secret_serialize in X1, X2. rewrite <- X1, <- X2. apply inv_start.
      - reflexivity. }
    rewrite Q, E, Hr, Hs. reflexivity.
Qed.
(** The signature of the digest 5 with secret 1 and nonce 1; the first candidate for a nonce. *)
Example c107_example : signature_with 1 1 5 gx (gx + 5) 0 /\ exists K T, nonce_candidate (be_bytes 32 1) (be_bytes 32 5) 0 K T.
Proof.
  split.
  - apply raw_signature; [split; reflexivity|]. change (5 mod secp_n)%Z with 5%Z. apply c64_example.
  - destruct c68_example as (K & T & C). exists K, T. apply candidate_iff; [apply has_bytes_be|apply has_bytes_be|exact C].
Qed.
