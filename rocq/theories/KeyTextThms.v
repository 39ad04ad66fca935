(** Proofs of the properties of extended keys as text (restated in PropKeyText.v). *)
From Coq Require Import String ZifyBool ZifyNat ZifyN.
From Verif Require Import Outcome Bytes Str Hash HashLemmas Secp SpecSecp SecpProofs Base58 ModelBip32 SpecBip32 StrLemmas Base58Proofs ExtProofs.
Open Scope N_scope.

(** The root of the first test vector of BIP32 (seed 000102030405060708090a0b0c0d0e0f). *)
Definition ex_text : str := lit "xprv9s21ZrQH143K3QTDL4LXw2F7HEK3wJUD2nW2nRk4stbPy6cq3jPPqjiChkVvvNKmPGJxWUtg6LnF5kejMRNNU3TGtRBeJgk33yuGBxrMPHi".
Definition ex_pub_text : str := lit "xpub661MyMwAqRbcFtXgS5sYJABqqG9YLmC4Q1Rdap9gSE8NqtwybGhePY2gZ29ESFjqJoCu1Rupje8YtGqsefD265TMg7usUDFdp6W1EGMcet8".
Definition ex_attrs : attrs := mkAttrs 0 [0; 0; 0; 0] 0 (be_bytes 32 0x873dff81c02f525623fd1fe5167eac3a55a049de3d314bb42ee227ffed37d508).
Definition ex_secret : Z := 0xe8f32e723decf4051aefac8e2c93c9c5b214313817cdb01a1494b917c8436b35.
Definition ex_point : point := Point 0x39a36013301597daef41fbe593a02cc513d0b55527ec2df1050e2e8ff49c85c2
  0x3cbe7ded0e7ce6a594896b8f62888fdbc5c8821305e2ea42bf01e37300116281.
Definition ex_xprv : xprv := mkXPrv ex_secret ex_attrs.
Definition ex_xpub : xpub := mkXPub ex_point ex_attrs.
Definition ex_ext : extended_key := mkExt XPRV ex_attrs (0 :: be_bytes 32 (Z.to_N ex_secret)).

Lemma ex_attrs_ok : valid_attrs ex_attrs.
Proof. split; [reflexivity|]. split; [split; [reflexivity|repeat constructor]|]. split; [reflexivity|apply has_bytes_be]. Qed.
Lemma ex_ext_ok : valid_ext ex_ext.
Proof.
  split; [apply std_valid; cbn; auto|]. split; [apply ex_attrs_ok|].
  apply (has_bytes_app 1 32 [0] (be_bytes 32 (Z.to_N ex_secret))); [apply has_bytes_1; reflexivity|apply has_bytes_be].
Qed.
Lemma ex_text_ok : ek_to_string ex_ext = Ok ex_text.
Proof. vm_compute. reflexivity. Qed.

(** C35 *)
Lemma c35_text_fits : forall e : extended_key, valid_ext e ->
  exists s, write_base58 e = Ok s /\ ek_to_string e = Ok s /\ len s <= 112 /\ Forall (fun c => In c base58_symbols) s
    /\ exists payload, layout (version (ek_prefix e)) (ek_attrs e) (key_bytes e) payload /\ base58check payload s.
Proof.
  intros e H. destruct (to_string_exists e H) as (s & E & I & L). exists s. split; [apply write_base58_iff; assumption|].
  split; [exact E|]. split; [exact L|]. split; [eapply base58_in_symbols, I|].
  exists (ek_payload e). split; [apply ek_payload_layout, H|exact I].
Qed.
Example c35_example : valid_ext ex_ext /\ write_base58 ex_ext = Ok ex_text.
Proof. split; [apply ex_ext_ok|]. pose proof ex_text_ok as H. apply to_string_iff in H; [|apply ex_ext_ok]. apply write_base58_iff; [apply ex_ext_ok|exact H]. Qed.

Lemma text_4 e s : valid_ext e -> base58check (ek_payload e) s -> (4 <= length s)%nat.
Proof.
  intros H I. apply ek_payload_layout, layout_bytes in H. destruct (check_data _ H) as [B L].
  pose proof (base58_longer _ _ B I). lia.
Qed.
(** C36 *)
Lemma c36_text_determines_key : forall (e : extended_key) (s : str), valid_ext e -> ek_to_string e = Ok s ->
  (Forall letter (firstn 4 s) -> ek_from_str s = Ok (mkExt (mkPrefix (firstn 4 s) (version (ek_prefix e))) (ek_attrs e) (key_bytes e)))
  /\ (~ Forall letter (firstn 4 s) -> ek_from_str s = Err EDecode).
Proof.
  intros e s H E. apply to_string_iff in E; [|exact H]. pose proof (ek_payload_layout e H) as Lay. split.
  - intros F. apply ek_from_str_iff. cbn [ek_prefix ek_attrs key_bytes chars version]. split; [|split; [reflexivity|eauto]].
    destruct H as (Hp & Ha & Hk). split; [|auto]. split; [|split; [exact F|apply Hp]]. cbn [ek_prefix chars].
    rewrite firstn_length_le; [reflexivity|]. eapply text_4; [split; [exact Hp|split; eassumption]|exact E].
  - intros F. destruct (layout_bytes _ _ _ _ Lay) as [Lp Bp].
    destruct (proj2 (ek_from_str_errors s)) as [(e' & X)|X]; [|exfalso|exact X].
    + exists (ek_payload e). split; [exact Bp|]. split; [unfold len; rewrite Lp; reflexivity|exact E].
    + apply ek_from_str_iff in X. destruct X as (((_ & V & _) & _) & C & _). rewrite C in V. exact (F V).
Qed.
Example c36_example : valid_ext ex_ext /\ ek_to_string ex_ext = Ok ex_text /\ Forall letter (firstn 4 ex_text).
Proof. split; [apply ex_ext_ok|]. split; [apply ex_text_ok|]. apply letters_iff. reflexivity. Qed.

(** C37 *)
Lemma c37_parsing_is_strict : forall (s : str) (e : extended_key), ek_from_str s = Ok e ->
  ek_to_string e = Ok s /\ (forall s', ek_from_str s' = Ok e -> s' = s).
Proof.
  assert (A : forall s e, ek_from_str s = Ok e -> ek_to_string e = Ok s).
  { intros s e H. apply ek_from_str_iff in H. destruct H as (V & _ & payload & Lay & I). apply to_string_iff; [exact V|].
    rewrite (layout_fun _ _ _ _ _ (ek_payload_layout e V) Lay). exact I. }
  intros s e H. split; [apply A, H|]. intros s' H'. apply A in H, H'. congruence.
Qed.
Example c37_example : ek_from_str ex_text = Ok ex_ext.
Proof. apply std_round_trip; [apply ex_ext_ok|cbn; auto|apply ex_text_ok]. Qed.

(** C38 *)
Lemma c38_parsing_checks_checksum : forall s : str,
  (forall e, ek_from_str s = Ok e <->
     valid_ext e /\ chars (ek_prefix e) = firstn 4 s
     /\ exists payload, layout (version (ek_prefix e)) (ek_attrs e) (key_bytes e) payload /\ base58check payload s)
  /\ ((exists e, ek_from_str s = Ok e) <-> exists payload, has_bytes 78 payload /\ base58check payload s /\ Forall letter (firstn 4 s))
  /\ ((forall payload, bytes_ok payload -> len payload <= 78 -> ~ base58check payload s) -> ek_from_str s = Err EBase58)
  /\ (forall payload, bytes_ok payload -> base58check payload s ->
        (len payload < 78 \/ (len payload = 78 /\ ~ Forall letter (firstn 4 s))) -> ek_from_str s = Err EDecode)
  /\ ek_from_str s <> Panic.
Proof.
  intros s. split; [apply ek_from_str_iff|]. split; [|split; [apply ek_from_str_errors|split; [|apply ek_from_str_no_panic]]].
  - split.
    + intros (e & H). apply ek_from_str_iff in H. destruct H as (((_ & F & _) & _) & C & payload & Lay & I).
      exists payload. split; [eapply layout_bytes, Lay|]. split; [exact I|]. rewrite <- C. exact F.
    + intros (payload & Hp & I & F). destruct (layout_exists payload Hp) as (v & a & key & Lay).
      exists (mkExt (mkPrefix (firstn 4 s) v) a key). apply ek_from_str_iff. cbn [ek_prefix ek_attrs key_bytes chars version].
      pose proof (proj1 (layout_iff _ _ _ _) Lay) as (Uv & Va & Hk & _).
      destruct (check_data _ Hp) as [B L]. pose proof (base58_longer _ _ B I).
      split; [|split; [reflexivity|eauto]]. split; [|split; assumption]. split; [|split; assumption].
      cbn [ek_prefix chars]. rewrite firstn_length_le; [reflexivity|lia].
  - intros payload B I H. destruct (proj2 (ek_from_str_errors s)) as [(e & X)|X]; [|exfalso|exact X].
    + exists payload. split; [exact B|]. split; [lia|exact I].
    + apply ek_from_str_iff in X. destruct X as (((_ & F & _) & _) & C & payload' & Lay & I').
      apply layout_bytes in Lay. destruct Lay as [L' B'].
      assert (payload = payload') by (eapply base58check_inj; eassumption). subst payload'.
      rewrite C in F. unfold len in H. rewrite L' in H. destruct H as [H|[_ H]]; [lia|exact (H F)].
Qed.
(** A single changed character is noticed. *)
Example c38_example : ek_from_str ex_text = Ok ex_ext /\ ek_from_str (firstn 110 ex_text ++ lit "j") = Err EBase58
  /\ ek_from_str (lit "xprv") = Err EBase58.
Proof. split; [apply c37_example|]. split; vm_compute; reflexivity. Qed.

(** C39 *)
Lemma c39_standard_prefixes_stable : forall (p : prefix) (a : attrs) (key : bytes) (s : str),
  In p (prv_prefixes ++ pub_prefixes) -> valid_attrs a -> has_bytes 33 key -> ek_to_string (mkExt p a key) = Ok s ->
  length s = 111%nat /\ firstn 4 s = chars p.
Proof.
  intros p a key s Hp Ha Hk H. apply (std_text (mkExt p a key)); auto. split; [apply std_valid, Hp|auto].
Qed.
Example c39_example : In XPRV (prv_prefixes ++ pub_prefixes) /\ chars XPRV = lit "xprv" /\ ek_to_string (mkExt XPRV ex_attrs (0 :: be_bytes 32 (Z.to_N ex_secret))) = Ok ex_text.
Proof. split; [cbn; auto|]. split; [reflexivity|]. apply ex_text_ok. Qed.

(** ** Key material *)
Lemma skipn_1_3 (l : bytes) : length l = 4%nat -> exists a b c d, l = [a; b; c; d] /\ skipn 1 l = [b; c; d].
Proof. destruct l as [|a [|b [|c [|d [|]]]]]; try discriminate. intros _. eauto 6. Qed.
Lemma is_private_iff p : prefix_is_private p = true <-> skipn 1 (chars p) = lit "prv".
Proof. apply bytes_eqb_spec. Qed.
Lemma is_public_iff p : prefix_is_public p = true <-> skipn 1 (chars p) = lit "pub".
Proof. apply bytes_eqb_spec. Qed.
Lemma ser256_iff k kb : is_ser256 k kb /\ (0 < k < secp_n)%Z <-> has_bytes 32 kb /\ secret_parse kb = Some k.
Proof.
  rewrite secret_parse_iff. unfold is_ser256. rewrite digits_val_be. split.
  - intros ((H & E) & R). auto.
  - intros (H & E & R). auto.
Qed.
Lemma xprv_try_from_ok e x : valid_ext e -> (xprv_try_from e = Ok x <->
  skipn 1 (chars (ek_prefix e)) = lit "prv" /\ xprv_attrs x = ek_attrs e
  /\ exists kb, key_bytes e = 0 :: kb /\ is_ser256 (private_key x) kb /\ (0 < private_key x < secp_n)%Z).
Proof.
  intros (_ & _ & Lk & Bk). unfold xprv_try_from. rewrite <- is_private_iff.
  destruct (prefix_is_private (ek_prefix e)).
  2: { split; [intros H; discriminate H|intros (H & _); discriminate H]. }
  destruct (key_bytes e) as [|b kb] eqn:Ek; [discriminate Lk|]. unfold index. cbn [nth_error N.to_nat or_panic bind skipn].
  assert (Hk : has_bytes 32 kb) by (split; [injection Lk as Lk; exact Lk|inversion Bk; assumption]).
  destruct (N.eqb_spec b 0) as [->|Nb].
  2: { split; [intros H; discriminate H|]. intros (_ & _ & kb' & E & _). injection E as E _. contradiction. }
  unfold private_from_bytes. split.
  - intros H. apply bind_ok in H. destruct H as (k & H1 & H2). injection H2 as <-. split; [reflexivity|]. split; [reflexivity|].
    exists kb. split; [reflexivity|]. cbn [private_key]. apply ser256_iff. split; [exact Hk|].
    destruct (secret_parse kb); [injection H1 as ->; reflexivity|discriminate H1].
  - intros (_ & Ha & kb' & E & H). injection E as <-. apply ser256_iff in H. destruct H as [_ H]. rewrite H. cbn [ok_or bind].
    destruct x as [k a]. cbn in Ha |- *. subst. reflexivity.
Qed.
Lemma xprv_try_from_total e : valid_ext e -> (exists x, xprv_try_from e = Ok x) \/ xprv_try_from e = Err ECrypto.
Proof.
  intros (_ & _ & Lk & _). unfold xprv_try_from. destruct (prefix_is_private (ek_prefix e)); [|auto].
  destruct (key_bytes e) as [|b kb]; [discriminate Lk|]. unfold index. cbn [nth_error N.to_nat or_panic bind skipn].
  destruct (b =? 0); [|auto]. unfold private_from_bytes. destruct (secret_parse kb); cbn [ok_or bind]; eauto.
Qed.
Lemma xpub_try_from_ok e x : valid_ext e -> (xpub_try_from e = Ok x <->
  skipn 1 (chars (ek_prefix e)) = lit "pub" /\ xpub_attrs x = ek_attrs e
  /\ is_compressed (key_bytes e) (public_key x) /\ on_curve (public_key x)).
Proof.
  intros (_ & _ & Lk & Bk). unfold xpub_try_from, public_from_bytes. rewrite <- is_public_iff.
  destruct (prefix_is_public (ek_prefix e)).
  2: { split; [intros H; discriminate H|intros (H & _); discriminate H]. }
  split.
  - intros H. apply bind_ok in H. destruct H as (P & H1 & H2). injection H2 as <-. split; [reflexivity|]. split; [reflexivity|].
    destruct (public_parse (key_bytes e)) as [Q|] eqn:E; [|discriminate H1]. injection H1 as ->. cbn [public_key].
    destruct (public_parse_sound _ _ Bk Lk E); tauto.
  - intros (_ & Ha & Hc & Hon). rewrite (public_parse_complete _ _ Hon Hc). cbn [ok_or bind]. destruct x as [P a]. cbn in Ha |- *. subst. reflexivity.
Qed.
Lemma xpub_try_from_total e : (exists x, xpub_try_from e = Ok x) \/ xpub_try_from e = Err ECrypto.
Proof.
  unfold xpub_try_from, public_from_bytes. destruct (prefix_is_public (ek_prefix e)); [|auto].
  destruct (public_parse (key_bytes e)); cbn [ok_or bind]; eauto.
Qed.
Lemma from_str_valid s e : ek_from_str s = Ok e -> valid_ext e.
Proof. intros H. apply ek_from_str_iff in H. apply H. Qed.

Lemma secret_bytes k : (0 < k < secp_n)%Z -> is_ser256 k (secret_serialize k) /\ has_bytes 32 (secret_serialize k).
Proof.
  intros H. pose proof (secret_parse_serialize k H) as P. assert (B : has_bytes 32 (secret_serialize k)) by apply has_bytes_be.
  split; [|exact B]. apply ser256_iff. auto.
Qed.
Lemma xprv_ext_valid x p : valid_xprv x -> valid_prefix p -> valid_ext (xprv_to_extended_key x p).
Proof.
  intros [Hk Ha] Hp. split; [exact Hp|]. split; [exact Ha|]. unfold xprv_to_extended_key. cbn [key_bytes].
  apply (has_bytes_app 1 32 [0]); [apply has_bytes_1; reflexivity|apply secret_bytes, Hk].
Qed.
Lemma xpub_ext_valid x p : valid_xpub x -> valid_prefix p -> valid_ext (xpub_to_extended_key x p).
Proof.
  intros (_ & _ & Ha) Hp. split; [exact Hp|]. split; [exact Ha|]. split; [apply public_serialize_length|apply public_serialize_ok].
Qed.
Lemma in_std_prv p : In p prv_prefixes -> In p (prv_prefixes ++ pub_prefixes) /\ skipn 1 (chars p) = lit "prv".
Proof. intros H. split; [apply in_or_app; auto|]. cbn in H. intuition subst; reflexivity. Qed.
Lemma in_std_pub p : In p pub_prefixes -> In p (prv_prefixes ++ pub_prefixes) /\ skipn 1 (chars p) = lit "pub".
Proof. intros H. split; [apply in_or_app; auto|]. cbn in H. intuition subst; reflexivity. Qed.

(** C40 *)
Lemma c40_private_round_trip : forall (x : xprv) (p : prefix), valid_xprv x -> In p prv_prefixes ->
  exists s, xprv_to_string x p = Ok s /\ xprv_from_str s = Ok x /\ length s = 111%nat /\ firstn 4 s = chars p.
Proof.
  intros x p V Hp. destruct (in_std_prv p Hp) as [Hs Hc]. pose proof (xprv_ext_valid x p V (std_valid p Hs)) as Ve.
  destruct (to_string_exists _ Ve) as (s & E & _). exists s. split; [exact E|]. split; [|apply (std_text _ _ Ve); assumption].
  unfold xprv_from_str. rewrite (std_round_trip _ _ Ve Hs E). cbn [bind]. apply xprv_try_from_ok; [exact Ve|].
  split; [exact Hc|]. split; [reflexivity|]. exists (secret_serialize (private_key x)). split; [reflexivity|].
  destruct V as [Hk _]. split; [apply secret_bytes, Hk|exact Hk].
Qed.
Lemma ex_xprv_valid : valid_xprv ex_xprv.
Proof. split; [split; reflexivity|apply ex_attrs_ok]. Qed.
Example c40_example : valid_xprv ex_xprv /\ xprv_to_string ex_xprv XPRV = Ok ex_text.
Proof. split; [apply ex_xprv_valid|]. apply ex_text_ok. Qed.

Lemma finite_point P : P <> Infinity -> exists x y, P = Point x y.
Proof. destruct P; [congruence|eauto]. Qed.
(** C41 *)
Lemma c41_public_round_trip : forall (x : xpub) (p : prefix), valid_xpub x -> In p pub_prefixes ->
  exists s, xpub_to_string x p = Ok s /\ xpub_from_str s = Ok x /\ length s = 111%nat /\ firstn 4 s = chars p.
Proof.
  intros x p V Hp. destruct (in_std_pub p Hp) as [Hs Hc]. pose proof (xpub_ext_valid x p V (std_valid p Hs)) as Ve.
  destruct (to_string_exists _ Ve) as (s & E & _). exists s. split; [exact E|]. split; [|apply (std_text _ _ Ve); assumption].
  unfold xpub_from_str. rewrite (std_round_trip _ _ Ve Hs E). cbn [bind]. apply xpub_try_from_ok; [exact Ve|].
  split; [exact Hc|]. split; [reflexivity|]. destruct V as (Hf & Hon & _). split; [|exact Hon].
  destruct (finite_point _ Hf) as (u & v & EP). unfold xpub_to_extended_key, xpub_to_bytes, public_to_bytes. cbn [key_bytes]. rewrite EP in *.
  apply serialize_compressed, Hon.
Qed.
Lemma ex_point_on : on_curve ex_point.
Proof.
  unfold ex_point, on_curve. split; [split; [discriminate|reflexivity]|]. split; [split; [discriminate|reflexivity]|].
  unfold modp_eq. apply Z.mod_divide; [discriminate|]. vm_compute. reflexivity.
Qed.
Lemma ex_xpub_valid : valid_xpub ex_xpub.
Proof. split; [discriminate|]. split; [apply ex_point_on|apply ex_attrs_ok]. Qed.
Example c41_example : valid_xpub ex_xpub /\ xpub_to_string ex_xpub XPUB = Ok ex_pub_text.
Proof. split; [apply ex_xpub_valid|]. vm_compute. reflexivity. Qed.

(** C42 *)
Lemma c42_never_both : forall (s : str) (x : xprv) (y : xpub), xprv_from_str s = Ok x -> xpub_from_str s = Ok y -> False.
Proof.
  intros s x y Hx Hy. unfold xprv_from_str, xpub_from_str in *.
  apply bind_ok in Hx. destruct Hx as (e & He & Hx). rewrite He in Hy. cbn [bind] in Hy. pose proof (from_str_valid _ _ He) as V.
  apply xprv_try_from_ok in Hx; [|exact V]. apply xpub_try_from_ok in Hy; [|exact V].
  destruct Hx as [Hx _], Hy as [Hy _]. rewrite Hx in Hy. discriminate Hy.
Qed.
Lemma compressed_not_zero kb P : ~ is_compressed (0 :: kb) P.
Proof. intros (u & v & tag & xb & _ & E & _ & _ & _ & Et). injection E as E _. rewrite Et in E. destruct (Z.even v); discriminate E. Qed.
Lemma key_of_text e s e' : valid_ext e -> ek_to_string e = Ok s -> ek_from_str s = Ok e' ->
  version (ek_prefix e') = version (ek_prefix e) /\ ek_attrs e' = ek_attrs e /\ key_bytes e' = key_bytes e.
Proof.
  intros V H H'. destruct (c36_text_determines_key e s V H) as [A _]. pose proof H' as X. apply ek_from_str_iff in X.
  destruct X as (((_ & F & _) & _) & C & _). rewrite C in F. rewrite (A F) in H'. injection H' as <-. auto.
Qed.
(** Whatever the prefix, a public key's text is never a private key and vice versa. *)
Lemma c42_public_text_is_not_private : forall (y : xpub) (p : prefix) (s : str), valid_xpub y -> valid_prefix p ->
  xpub_to_string y p = Ok s -> xprv_from_str s = Err ECrypto \/ xprv_from_str s = Err EDecode.
Proof.
  intros y p s V Hp H. pose proof (xpub_ext_valid y p V Hp) as Ve. unfold xprv_from_str.
  destruct (c36_text_determines_key _ s Ve H) as [A B].
  assert (D : Forall letter (firstn 4 s) \/ ~ Forall letter (firstn 4 s)).
  { rewrite <- letters_iff. destruct (forallb is_letter (firstn 4 s)); auto. }
  destruct D as [D|D]; [left|right; rewrite (B D); reflexivity]. specialize (A D). rewrite A. cbn [bind].
  pose proof (from_str_valid _ _ A) as Ve'. destruct (xprv_try_from_total _ Ve') as [(x & X)|X]; [exfalso|exact X].
  apply xprv_try_from_ok in X; [|exact Ve']. destruct X as (_ & _ & kb & E & _). cbn [key_bytes] in E.
  destruct V as (Hf & Hon & _). destruct (finite_point _ Hf) as (u & v & EP). unfold xpub_to_extended_key, xpub_to_bytes, public_to_bytes in E.
  cbn [key_bytes] in E. rewrite EP in E, Hon. pose proof (serialize_compressed _ _ Hon) as C. rewrite E in C. eapply compressed_not_zero, C.
Qed.
Lemma c42_private_text_is_not_public : forall (x : xprv) (p : prefix) (s : str), valid_xprv x -> valid_prefix p ->
  xprv_to_string x p = Ok s -> xpub_from_str s = Err ECrypto \/ xpub_from_str s = Err EDecode.
Proof.
  intros x p s V Hp H. pose proof (xprv_ext_valid x p V Hp) as Ve. unfold xpub_from_str.
  destruct (c36_text_determines_key _ s Ve H) as [A B].
  assert (D : Forall letter (firstn 4 s) \/ ~ Forall letter (firstn 4 s)).
  { rewrite <- letters_iff. destruct (forallb is_letter (firstn 4 s)); auto. }
  destruct D as [D|D]; [left|right; rewrite (B D); reflexivity]. specialize (A D). rewrite A. cbn [bind].
  pose proof (from_str_valid _ _ A) as Ve'. destruct (xpub_try_from_total (mkExt (mkPrefix (firstn 4 s) (version (ek_prefix (xprv_to_extended_key x p)))) (ek_attrs (xprv_to_extended_key x p)) (key_bytes (xprv_to_extended_key x p)))) as [(y & X)|X]; [exfalso|exact X].
  apply xpub_try_from_ok in X; [|exact Ve']. destruct X as (_ & _ & C & _). cbn [key_bytes xprv_to_extended_key] in C.
  eapply compressed_not_zero, C.
Qed.
(** With the standard prefixes the error is Crypto. *)
Lemma c42_standard_prefixes : forall (s : str) (p : prefix),
  (forall y, valid_xpub y -> In p pub_prefixes -> xpub_to_string y p = Ok s -> xprv_from_str s = Err ECrypto)
  /\ (forall x, valid_xprv x -> In p prv_prefixes -> xprv_to_string x p = Ok s -> xpub_from_str s = Err ECrypto).
Proof.
  intros s p. split.
  - intros y V Hp H. destruct (in_std_pub p Hp) as [Hs Hc]. pose proof (xpub_ext_valid y p V (std_valid p Hs)) as Ve.
    unfold xprv_from_str. rewrite (std_round_trip _ _ Ve Hs H). cbn [bind].
    destruct (xprv_try_from_total _ Ve) as [(x & X)|X]; [exfalso|exact X]. apply xprv_try_from_ok in X; [|exact Ve].
    destruct X as [X _]. cbn [ek_prefix xpub_to_extended_key] in X. rewrite Hc in X. discriminate X.
  - intros x V Hp H. destruct (in_std_prv p Hp) as [Hs Hc]. pose proof (xprv_ext_valid x p V (std_valid p Hs)) as Ve.
    unfold xpub_from_str. rewrite (std_round_trip _ _ Ve Hs H). cbn [bind].
    destruct (xpub_try_from_total (xprv_to_extended_key x p)) as [(y & X)|X]; [exfalso|exact X]. apply xpub_try_from_ok in X; [|exact Ve].
    destruct X as [X _]. cbn [ek_prefix xprv_to_extended_key] in X. rewrite Hc in X. discriminate X.
Qed.
Example c42_example : xprv_from_str ex_text = Ok ex_xprv /\ xpub_from_str ex_text = Err ECrypto
  /\ xpub_from_str ex_pub_text = Ok ex_xpub /\ xprv_from_str ex_pub_text = Err ECrypto.
Proof.
  destruct c40_example as [V H]. destruct c41_example as [V' H'].
  split. { destruct (c40_private_round_trip _ XPRV V) as (s & E & X & _); [cbn; auto|]. congruence. }
  split. { eapply (proj2 (c42_standard_prefixes _ XPRV)); [exact V|cbn; auto|exact H]. }
  split. { destruct (c41_public_round_trip _ XPUB V') as (s & E & X & _); [cbn; auto|]. congruence. }
  eapply (proj1 (c42_standard_prefixes _ XPUB)); [exact V'|cbn; auto|exact H'].
Qed.

(** C43 *)
Lemma c43_valid_private_keys : forall (s : str) (x : xprv), xprv_from_str s = Ok x <->
  exists payload v kb, layout v (xprv_attrs x) (0 :: kb) payload /\ base58check payload s
    /\ Forall letter (firstn 4 s) /\ skipn 1 (firstn 4 s) = lit "prv"
    /\ is_ser256 (private_key x) kb /\ (0 < private_key x < secp_n)%Z.
Proof.
  intros s x. unfold xprv_from_str. rewrite bind_ok. split.
  - intros (e & He & Hx). pose proof (from_str_valid _ _ He) as V. apply xprv_try_from_ok in Hx; [|exact V].
    destruct Hx as (Hc & Ha & kb & Ek & Hs & Hr). apply ek_from_str_iff in He. destruct He as (((_ & F & _) & _) & C & payload & Lay & I).
    rewrite <- Ha, Ek in Lay. rewrite C in F, Hc. exists payload, (version (ek_prefix e)), kb. auto 7.
  - intros (payload & v & kb & Lay & I & F & Hc & Hs & Hr).
    assert (V : valid_ext (mkExt (mkPrefix (firstn 4 s) v) (xprv_attrs x) (0 :: kb))).
    { pose proof (proj1 (layout_iff _ _ _ _) Lay) as (Uv & Va & Hk & _). pose proof (layout_bytes _ _ _ _ Lay) as Hp.
      destruct (check_data _ Hp) as [B L]. pose proof (base58_longer _ _ B I).
      split; [|split; assumption]. split; [|split; assumption]. cbn [ek_prefix chars]. rewrite firstn_length_le; [reflexivity|lia]. }
    exists (mkExt (mkPrefix (firstn 4 s) v) (xprv_attrs x) (0 :: kb)). split.
    + apply ek_from_str_iff. split; [exact V|]. split; [reflexivity|]. exists payload. auto.
    + apply xprv_try_from_ok; [exact V|]. split; [exact Hc|]. split; [reflexivity|]. exists kb. auto.
Qed.
Lemma c43_other_material_rejected : forall (e : extended_key), valid_ext e ->
  (forall kb, key_bytes e = 0 :: kb -> ~ (0 < Z.of_N (digits_val 256 kb) < secp_n)%Z) -> xprv_try_from e = Err ECrypto.
Proof.
  intros e V H. destruct (xprv_try_from_total e V) as [(x & X)|X]; [exfalso|exact X].
  apply xprv_try_from_ok in X; [|exact V]. destruct X as (_ & _ & kb & E & (_ & S) & R). apply (H kb E). rewrite S. exact R.
Qed.
Example c43_example : xprv_from_str ex_text = Ok ex_xprv
  /\ xprv_try_from (mkExt XPRV ex_attrs (0 :: be_bytes 32 (Z.to_N secp_n))) = Err ECrypto
  /\ xprv_try_from (mkExt XPRV ex_attrs (repeat 0 33)) = Err ECrypto
  /\ xprv_try_from (mkExt XPRV ex_attrs (1 :: be_bytes 32 (Z.to_N ex_secret))) = Err ECrypto.
Proof. split; [apply c42_example|]. split; [|split]; vm_compute; reflexivity. Qed.

(** C44 *)
Lemma c44_curve_points : forall (s : str) (y : xpub), xpub_from_str s = Ok y <->
  exists payload v key, layout v (xpub_attrs y) key payload /\ base58check payload s
    /\ Forall letter (firstn 4 s) /\ skipn 1 (firstn 4 s) = lit "pub"
    /\ is_compressed key (public_key y) /\ on_curve (public_key y).
Proof.
  intros s x. unfold xpub_from_str. rewrite bind_ok. split.
  - intros (e & He & Hx). pose proof (from_str_valid _ _ He) as V. apply xpub_try_from_ok in Hx; [|exact V].
    destruct Hx as (Hc & Ha & Hs & Hr). apply ek_from_str_iff in He. destruct He as (((_ & F & _) & _) & C & payload & Lay & I).
    rewrite <- Ha in Lay. rewrite C in F, Hc. exists payload, (version (ek_prefix e)), (key_bytes e). auto 7.
  - intros (payload & v & key & Lay & I & F & Hc & Hs & Hr).
    assert (V : valid_ext (mkExt (mkPrefix (firstn 4 s) v) (xpub_attrs x) key)).
    { pose proof (proj1 (layout_iff _ _ _ _) Lay) as (Uv & Va & Hk & _). pose proof (layout_bytes _ _ _ _ Lay) as Hp.
      destruct (check_data _ Hp) as [B L]. pose proof (base58_longer _ _ B I).
      split; [|split; assumption]. split; [|split; assumption]. cbn [ek_prefix chars]. rewrite firstn_length_le; [reflexivity|lia]. }
    exists (mkExt (mkPrefix (firstn 4 s) v) (xpub_attrs x) key). split.
    + apply ek_from_str_iff. split; [exact V|]. split; [reflexivity|]. exists payload. auto.
    + apply xpub_try_from_ok; [exact V|]. auto.
Qed.
Lemma c44_other_material_rejected : forall (e : extended_key), valid_ext e ->
  (forall P, on_curve P -> ~ is_compressed (key_bytes e) P) -> xpub_try_from e = Err ECrypto.
Proof.
  intros e V H. destruct (xpub_try_from_total e) as [(x & X)|X]; [exfalso|exact X].
  apply xpub_try_from_ok in X; [|exact V]. destruct X as (_ & _ & C & O). exact (H _ O C).
Qed.
Example c44_example : xpub_from_str ex_pub_text = Ok ex_xpub
  /\ xpub_try_from (mkExt XPUB ex_attrs (4 :: be_bytes 32 1)) = Err ECrypto
  /\ xpub_try_from (mkExt XPUB ex_attrs (2 :: repeat 255 32)) = Err ECrypto.
Proof. split; [apply c42_example|]. split; vm_compute; reflexivity. Qed.

(** C45: the opposite holds: such keys are accepted. *)
Lemma c45_root_metadata_refuted :
  ~ (forall (s : str) (x : xprv), xprv_from_str s = Ok x -> depth (xprv_attrs x) = 0 ->
       parent_fingerprint (xprv_attrs x) = [0; 0; 0; 0] /\ child_number (xprv_attrs x) = 0)
  /\ ~ (forall (s : str) (y : xpub), xpub_from_str s = Ok y -> depth (xpub_attrs y) = 0 ->
       parent_fingerprint (xpub_attrs y) = [0; 0; 0; 0] /\ child_number (xpub_attrs y) = 0).
Proof.
  set (a := mkAttrs 0 [0; 0; 0; 0] 1 (chain_code ex_attrs)).
  assert (Ha : valid_attrs a). { destruct ex_attrs_ok as (H1 & H2 & _ & H4). split; [exact H1|]. split; [exact H2|]. split; [reflexivity|exact H4]. }
  split; intros H.
  - destruct (c40_private_round_trip (mkXPrv ex_secret a) XPRV) as (s & _ & E & _); [split; [apply ex_xprv_valid|exact Ha]|cbn; auto|].
    destruct (H s _ E eq_refl) as [_ X]. discriminate X.
  - destruct (c41_public_round_trip (mkXPub ex_point a) XPUB) as (s & _ & E & _); [split; [discriminate|split; [apply ex_point_on|exact Ha]]|cbn; auto|].
    destruct (H s _ E eq_refl) as [_ X]. discriminate X.
Qed.
(** In fact every combination is accepted. *)
Lemma c45_root_metadata_ignored : forall (k : Z) (a : attrs), (0 < k < secp_n)%Z -> valid_attrs a -> depth a = 0 ->
  exists s, xprv_to_string (mkXPrv k a) XPRV = Ok s /\ xprv_from_str s = Ok (mkXPrv k a).
Proof.
  intros k a Hk Ha _. destruct (c40_private_round_trip (mkXPrv k a) XPRV) as (s & E & X & _); [split; assumption|cbn; auto|eauto].
Qed.
Example c45_example : valid_attrs (mkAttrs 0 [1; 2; 3; 4] 5 (repeat 6 32)).
Proof. repeat (split || constructor). Qed.

(** ** Prefixes *)
Notation zero_attrs := (mkAttrs 0 (repeat 0 4) 0 (repeat 0 32)).
Lemma zero_layout v payload : u32 v -> (layout v zero_attrs (repeat 0 33) payload <-> payload = be_bytes 4 v ++ repeat 0 74).
Proof.
  intros Hv. rewrite layout_iff. split.
  - intros (_ & _ & _ & ->). reflexivity.
  - intros ->. split; [exact Hv|]. split; [repeat (split || constructor)|]. split; [repeat (split || constructor)|]. reflexivity.
Qed.
Lemma zero_has v : has_bytes 78 (be_bytes 4 v ++ repeat 0 74).
Proof. apply (has_bytes_app 4 74); [apply has_bytes_be|repeat (split || constructor)]. Qed.
Lemma firstn_pad s : firstn 4 (s ++ repeat 0 4) = firstn 4 s \/ ((length s < 4)%nat /\ forallb is_letter (firstn 4 (s ++ repeat 0 4)) = false).
Proof. destruct s as [|a [|b [|c [|d s]]]]; cbn; auto; right; (split; [lia|]); rewrite ?andb_false_r; reflexivity. Qed.
Lemma from_version_cases v : exists s, base58check (be_bytes 4 v ++ repeat 0 74) s
  /\ prefix_from_version v = (if ((length (firstn 4 s) =? 4)%nat && forallb is_letter (firstn 4 s))%bool then Ok (mkPrefix (firstn 4 s) v) else Err EDecode).
Proof.
  destruct (encode_check_fits _ (zero_has v)) as (s & E & I & _). exists s. split; [exact I|].
  unfold prefix_from_version. change (BYTE_SIZE - 4)%nat with 74%nat. unfold MAX_BASE58_SIZE. rewrite E. cbn [from_b58 map_err bind].
  pose proof (base58_ascii _ _ I) as A.
  rewrite from_utf8_ascii.
  2: { destruct (firstn_pad s) as [->|[L _]].
       - rewrite <- (firstn_skipn 4 s) in A. apply Forall_app in A. apply A.
       - rewrite firstn_app. apply Forall_app. split; [rewrite firstn_all2 by lia; exact A|].
         apply Forall_forall. intros c Hc. rewrite <- (firstn_skipn (4 - length s) (repeat 0 4)) in Hc.
         assert (X : In c (repeat 0 4)) by (rewrite <- (firstn_skipn (4 - length s) (repeat 0 4)); apply in_or_app; left; rewrite firstn_skipn in Hc; exact Hc).
         apply repeat_spec in X. subst. reflexivity. }
  cbn [ok_or bind]. destruct (firstn_pad s) as [->|[L X]].
  - destruct (Nat.eqb_spec (length (firstn 4 s)) 4) as [L|L]; cbn [andb].
    + destruct (forallb is_letter (firstn 4 s)) eqn:F.
      * apply letters_iff in F. rewrite (proj2 (validate_iff _)) by auto. cbn [bind]. apply parts_ok. auto.
      * destruct (validate_total (firstn 4 s)) as [V|V]; rewrite V; [|reflexivity]. apply validate_iff in V. destruct V as [_ V].
        apply letters_iff in V. congruence.
    + destruct (validate_total (firstn 4 s)) as [V|V]; rewrite V; [|reflexivity]. apply validate_iff in V. destruct V as [V _]. contradiction.
  - rewrite firstn_length. destruct (Nat.eqb_spec (Nat.min 4 (length s)) 4) as [L'|L']; [lia|]. cbn [andb].
    destruct (validate_total (firstn 4 (s ++ repeat 0 4))) as [V|V]; rewrite V; [|reflexivity].
    apply validate_iff in V. destruct V as [_ V]. apply letters_iff in V. congruence.
Qed.
Lemma from_version_iff v p : prefix_from_version v = Ok p <->
  version p = v /\ length (chars p) = 4%nat /\ Forall letter (chars p)
  /\ exists s, base58check (be_bytes 4 v ++ repeat 0 74) s /\ chars p = firstn 4 s.
Proof.
  destruct (from_version_cases v) as (s & I & E). rewrite E. clear E. split.
  - destruct (length (firstn 4 s) =? 4)%nat eqn:L; [|intros H; discriminate H].
    destruct (forallb is_letter (firstn 4 s)) eqn:F; [|intros H; discriminate H]. intros H. injection H as <-.
    apply Nat.eqb_eq in L. apply letters_iff in F. cbn [version chars]. eauto 6.
  - intros (Hv & L & F & s' & I' & C).
    assert (s' = s) by (eapply is_base58_fun; eassumption). subst s'. rewrite <- C.
    rewrite (proj2 (Nat.eqb_eq _ _) L), (proj2 (letters_iff _) F). cbn [andb]. destruct p as [cs w]. cbn in Hv |- *. subst. reflexivity.
Qed.
Lemma from_version_std p : In p (prv_prefixes ++ pub_prefixes) -> prefix_from_version (version p) = Ok p.
Proof.
  intros H. apply from_version_iff. destruct (std_valid p H) as (L & F & U). split; [reflexivity|]. split; [exact L|]. split; [exact F|].
  destruct (base58check_exists _ (zero_has (version p))) as (s & I & _). exists s. split; [exact I|].
  pose proof I as I'. unfold base58check in I'. rewrite <- app_assoc in I'. destruct (check_data _ (zero_has (version p))) as [B Lc].
  rewrite <- app_assoc in B, Lc. apply bytes_ok_app in B. destruct B as [_ B]. rewrite app_length, be_bytes_length in Lc.
  symmetry. eapply (std_head p); [exact H|exact B| |exact I']. lia.
Qed.
(** C46 *)
Lemma c46_prefix_from_version : forall v : N, u32 v ->
  (forall p, prefix_from_version v = Ok p <->
     version p = v /\ length (chars p) = 4%nat /\ Forall letter (chars p)
     /\ exists payload s, layout v (mkAttrs 0 (repeat 0 4) 0 (repeat 0 32)) (repeat 0 33) payload /\ base58check payload s /\ chars p = firstn 4 s)
  /\ ((exists p, prefix_from_version v = Ok p) \/ prefix_from_version v = Err EDecode).
Proof.
  intros v Hv. split.
  - intros p. rewrite from_version_iff. split; intros (H1 & H2 & H3 & H); (split; [exact H1|split; [exact H2|split; [exact H3|]]]).
    + destruct H as (s & I & C). exists (be_bytes 4 v ++ repeat 0 74), s. split; [apply zero_layout; [exact Hv|reflexivity]|auto].
    + destruct H as (payload & s & Lay & I & C). apply zero_layout in Lay; [|exact Hv]. subst payload. eauto.
  - destruct (from_version_cases v) as (s & _ & E). rewrite E. destruct (_ && _)%bool; eauto.
Qed.
Lemma c46_prefix_bytes : forall (b : bytes) (p : prefix), bytes_ok b ->
  (prefix_try_from_slice b = Ok p -> length b = 4%nat /\ prefix_to_bytes p = b /\ prefix_from_version (version p) = Ok p
     /\ prefix_try_from_slice (prefix_to_bytes p) = Ok p)
  /\ (length b <> 4%nat -> prefix_try_from_slice b = Err EDecode)
  /\ prefix_try_from_slice b <> Panic.
Proof.
  intros b p B. unfold prefix_try_from_slice, prefix_from_bytes. destruct (N.eqb_spec (len b) 4) as [L|L]; unfold len in L.
  - split; [|split; [lia|]].
    + intros H. pose proof H as H'. apply from_version_iff in H'. destruct H' as (Hv & _).
      assert (E : prefix_to_bytes p = b). { unfold prefix_to_bytes. rewrite Hv. apply (be_of_val 4). split; [lia|exact B]. }
      split; [lia|]. split; [exact E|]. rewrite Hv, E. split; [exact H|]. destruct (N.eqb_spec (len b) 4) as [X|X]; [exact H|unfold len in X; lia].
    + destruct (from_version_cases (be_val b)) as (s & _ & E). rewrite E. destruct (_ && _)%bool; discriminate.
  - split; [intros H; discriminate H|]. split; [reflexivity|discriminate].
Qed.
Lemma c46_constants : forall p : prefix, In p (prv_prefixes ++ pub_prefixes) ->
  prefix_from_version (version p) = Ok p /\ prefix_try_from_slice (prefix_to_bytes p) = Ok p.
Proof.
  intros p H. pose proof (from_version_std p H) as E. split; [exact E|]. unfold prefix_try_from_slice, prefix_from_bytes, prefix_to_bytes.
  change (len (be_bytes 4 (version p)) =? 4) with true. cbv iota. rewrite <- E. f_equal. apply (val_of_be 4), (std_valid p H).
Qed.
Lemma c46_registered_versions : map (fun p => (chars p, version p)) [TPRV; TPUB; XPRV; XPUB; YPRV; YPUB; ZPRV; ZPUB] = registered
  /\ (forall (cs : str) (v : N), In (cs, v) registered <-> In (mkPrefix cs v) (prv_prefixes ++ pub_prefixes)).
Proof.
  split; [reflexivity|]. intros cs v. cbn -[lit]. unfold TPRV, XPRV, YPRV, ZPRV, TPUB, XPUB, YPUB, ZPUB.
  assert (E : forall a b, mkPrefix a b = mkPrefix cs v <-> (a, b) = (cs, v)) by (intros a b; split; intros H; injection H as -> ->; reflexivity).
  rewrite !E. tauto.
Qed.
Example c46_example : prefix_from_version 0x0488ade4 = Ok XPRV /\ prefix_from_version 0 = Err EDecode.
Proof. split; [apply (from_version_std XPRV); cbn; auto|]. vm_compute. reflexivity. Qed.

(** ** C47: the four characters are computed from an all-zero key; a version for which they depend on the
    depth. *)
Definition uprv : prefix := mkPrefix (lit "Uprv") 0x024285bb.
Lemma zero_range v s : 2 ^ 24 <= v -> u32 v -> base58check (be_bytes 4 v ++ repeat 0 74) s ->
  exists data, is_base58 data s /\ leading_zeros data = 0%nat /\ v * 256 ^ 78 <= digits_val 256 data /\ digits_val 256 data < v * 256 ^ 78 + 256 ^ 4.
Proof.
  intros H1 H2 I. exists (be_bytes 4 v ++ repeat 0 74 ++ check_bytes (be_bytes 4 v ++ repeat 0 74)).
  unfold base58check in I. rewrite <- app_assoc in I. split; [exact I|]. split; [apply lz_be4; assumption|].
  generalize (check_bytes_length (be_bytes 4 v ++ repeat 0 74)), (check_bytes_ok (be_bytes 4 v ++ repeat 0 74)).
  generalize (check_bytes (be_bytes 4 v ++ repeat 0 74)). intros cb L B.
  rewrite digits_val_app, digits_val_zeros, (val_of_be 4) by exact H2. pose proof (digits_val_lt 256 cb B) as X.
  rewrite len_app. unfold len in *. rewrite L, repeat_length in *. change (N.of_nat 74 + N.of_nat 4) with 78. change (N.of_nat 4) with 4 in X.
  generalize dependent (256 ^ 4). generalize (256 ^ 78). intros. lia.
Qed.
Definition is_head (lo hi : N) (cs : bytes) : bool := head_ok lo hi (symbol_values cs) && bytes_eqb (map b58_char (symbol_values cs)) cs.
Lemma is_head_sound lo hi cs data s : is_head lo hi cs = true -> leading_zeros data = 0%nat ->
  lo <= digits_val 256 data -> digits_val 256 data < hi -> is_base58 data s -> firstn 4 s = cs.
Proof.
  intros H Z R1 R2 I. apply andb_true_iff in H. destruct H as [H E]. apply bytes_eqb_spec in E. rewrite <- E.
  exact (proj2 (head_ok_sound _ _ _ _ _ H Z R1 R2 I)).
Qed.
Lemma uprv_head : is_head (version uprv * 256 ^ 78) (version uprv * 256 ^ 78 + 256 ^ 4) (chars uprv) = true.
Proof. vm_compute. reflexivity. Qed.
Lemma uprw_head : is_head (version uprv * 256 ^ 78 + 3 * 256 ^ 77) ((version uprv + 1) * 256 ^ 78) (lit "Uprw") = true.
Proof. vm_compute. reflexivity. Qed.
Lemma uprv_big : 2 ^ 24 <= version uprv.
Proof. vm_compute. discriminate. Qed.
Lemma uprv_u32 : u32 (version uprv).
Proof. vm_compute. reflexivity. Qed.
Lemma uprv_built : prefix_from_version (version uprv) = Ok uprv.
Proof.
  apply from_version_iff. split; [reflexivity|]. split; [reflexivity|]. split; [apply letters_iff; reflexivity|].
  destruct (base58check_exists _ (zero_has (version uprv))) as (s & I & _). exists s. split; [exact I|]. symmetry.
  destruct (zero_range (version uprv) s uprv_big uprv_u32 I) as (data & J & Z & R1 & R2).
  exact (is_head_sound _ _ _ _ _ uprv_head Z R1 R2 J).
Qed.
Lemma uprv_text e s : valid_ext e -> ek_prefix e = uprv -> 3 <= depth (ek_attrs e) -> ek_to_string e = Ok s -> firstn 4 s = lit "Uprw".
Proof.
  intros V Hp Hd H. apply to_string_iff in H; [|exact V].
  pose proof (ek_payload_layout e V) as Lay. pose proof (layout_bytes _ _ _ _ Lay) as Hb. destruct (check_data _ Hb) as [B L].
  unfold base58check in H. fold (check_bytes (ek_payload e)) in H. remember (check_bytes (ek_payload e)) as cb eqn:Ecb.
  unfold ek_payload, prefix_to_bytes in H, B, L. rewrite Hp in H, B, L.
  rewrite <- app_assoc in H, B, L. apply bytes_ok_app in B. destruct B as [_ B]. rewrite app_length, be_bytes_length in L.
  match type of H with is_base58 (_ ++ ?r) _ => set (rest := r) in * end.
  destruct (head_range (version uprv) rest B) as [_ R2]; [lia|reflexivity|reflexivity|].
  assert (R1 : version uprv * 256 ^ 78 + 3 * 256 ^ 77 <= digits_val 256 (be_bytes 4 (version uprv) ++ rest)).
  { rewrite digits_val_app, (val_of_be 4) by reflexivity. assert (L78 : len rest = 78) by (unfold len; lia). rewrite L78.
    apply N.add_le_mono_l. unfold rest. rewrite <- app_assoc. cbn [app]. rewrite digits_val_cons.
    match goal with |- _ <= _ * 256 ^ len ?r + _ => assert (L77 : len r = 77) end.
    { unfold rest in L78. rewrite <- app_assoc in L78. cbn [app] in L78. unfold len in L78 |- *. cbn [length] in L78. lia. }
    rewrite L77. generalize (256 ^ 77). intros P. nia. }
  exact (is_head_sound _ _ _ _ _ uprw_head (lz_be4 _ _ uprv_big uprv_u32) R1 R2 H).
Qed.
Lemma c47_prefix_survives_refuted :
  ~ (forall (v : N) (p : prefix) (e e' : extended_key) (s : str), u32 v -> prefix_from_version v = Ok p ->
       valid_ext e -> ek_prefix e = p -> ek_to_string e = Ok s -> ek_from_str s = Ok e' -> ek_prefix e' = p).
Proof.
  intros H. set (a := mkAttrs 3 [0; 0; 0; 0] 0 (chain_code ex_attrs)). set (e := mkExt uprv a (key_bytes ex_ext)).
  assert (V : valid_ext e).
  { split; [split; [reflexivity|split; [apply letters_iff; reflexivity|reflexivity]]|]. destruct ex_ext_ok as (_ & (_ & H2 & H3 & H4) & Hk).
    split; [split; [reflexivity|auto]|exact Hk]. }
  destruct (to_string_exists e V) as (s & E & _). destruct (c36_text_determines_key e s V E) as [A _].
  pose proof (uprv_text e s V eq_refl (N.le_refl 3) E) as T. rewrite T in A. specialize (A ltac:(apply letters_iff; reflexivity)).
  pose proof (H (version uprv) uprv e _ s eq_refl uprv_built V eq_refl E A) as X. discriminate X.
Qed.
(** A legal version whose private keys of depth 3 and more can be written but not read back. *)
Lemma c47_unreadable_keys : exists p : prefix, prefix_from_version (version p) = Ok p /\ prefix_is_private p = true
  /\ forall x, valid_xprv x -> 3 <= depth (xprv_attrs x) ->
     exists s, xprv_to_string x p = Ok s /\ xprv_from_str s = Err ECrypto.
Proof.
  exists uprv. split; [apply uprv_built|]. split; [reflexivity|]. intros x V Hd.
  assert (Vp : valid_prefix uprv) by (split; [reflexivity|split; [apply letters_iff; reflexivity|reflexivity]]).
  pose proof (xprv_ext_valid x uprv V Vp) as Ve. destruct (to_string_exists _ Ve) as (s & E & _). exists s. split; [exact E|].
  destruct (c36_text_determines_key _ s Ve E) as [A _]. pose proof (uprv_text _ s Ve eq_refl Hd E) as T. rewrite T in A.
  unfold xprv_from_str. rewrite A by (apply letters_iff; reflexivity). reflexivity.
Qed.
(** What does hold: the version, the attributes and the key always survive, and the prefix does iff the text
    starts with its characters. *)
Lemma c47_prefix_survives_partial : forall (p : prefix) (e e' : extended_key) (s : str),
  valid_ext e -> ek_prefix e = p -> ek_to_string e = Ok s -> ek_from_str s = Ok e' ->
  version (ek_prefix e') = version p /\ ek_attrs e' = ek_attrs e /\ key_bytes e' = key_bytes e
  /\ (ek_prefix e' = p <-> firstn 4 s = chars p).
Proof.
  intros p e e' s V Hp H H'. destruct (key_of_text e s e' V H H') as (Hv & Ha & Hk). rewrite Hp in Hv. split; [exact Hv|]. split; [exact Ha|].
  split; [exact Hk|]. apply ek_from_str_iff in H'. destruct H' as (_ & C & _). rewrite <- C.
  destruct (ek_prefix e') as [cs w], p as [cs' w']. cbn in Hv |- *. subst w. split; [intros X; injection X as ->; reflexivity|congruence].
Qed.
Example c47_example : prefix_from_version 0x024285bb = Ok (mkPrefix (lit "Uprv") 0x024285bb).
Proof. exact uprv_built. Qed.

(** C48 *)
Lemma built_prefix_letters p : built_prefix p -> length (chars p) = 4%nat /\ Forall letter (chars p).
Proof.
  intros [q H|s v q _ _ H|v q _ H|b q _ H|s e _ H].
  - destruct (std_valid q H) as (L & F & _). auto.
  - apply parts_ok in H. destruct H as (L & F & ->). auto.
  - apply from_version_iff in H. tauto.
  - unfold prefix_try_from_slice, prefix_from_bytes in H. destruct (len b =? 4); [|discriminate H]. apply from_version_iff in H. tauto.
  - apply from_str_valid in H. destruct H as ((L & F & _) & _). auto.
Qed.
Lemma c48_never_both : forall p : prefix, built_prefix p ->
  prefix_as_str p = Ok (chars p) /\ length (chars p) = 4%nat /\ Forall letter (chars p)
  /\ (prefix_is_public p = true <-> exists c, chars p = c :: lit "pub")
  /\ (prefix_is_private p = true <-> exists c, chars p = c :: lit "prv")
  /\ ~ (prefix_is_public p = true /\ prefix_is_private p = true).
Proof.
  intros p H. apply built_prefix_letters in H. destruct H as [L F].
  destruct (skipn_1_3 _ L) as (a & b & c & d & E & _).
  split; [unfold prefix_as_str; rewrite from_utf8_ascii by (apply letters_ascii, F); reflexivity|]. split; [exact L|]. split; [exact F|].
  rewrite is_public_iff, is_private_iff, E. cbn [skipn]. split; [|split].
  - split; [intros ->; eauto|]. intros (x & X). injection X as _ -> -> ->. reflexivity.
  - split; [intros ->; eauto|]. intros (x & X). injection X as _ -> -> ->. reflexivity.
  - intros [X Y]. rewrite X in Y. discriminate Y.
Qed.
Lemma c48_parts : forall (s : str) (v : N), str_ok s -> u32 v ->
  (from_parts_unchecked (utf8 s) v = Ok (mkPrefix s v) <-> length s = 4%nat /\ Forall letter s)
  /\ (~ (length s = 4%nat /\ Forall letter s) -> from_parts_unchecked (utf8 s) v = Panic).
Proof.
  intros s v _ _. assert (A : Forall letter (utf8 s) -> utf8 s = s).
  { intros F. apply utf8_ascii, utf8_ascii_inv, letters_ascii, F. }
  split.
  - rewrite parts_ok. split.
    + intros (L & F & _). specialize (A F). rewrite A in L, F. auto.
    + intros [L F]. rewrite utf8_ascii by (apply letters_ascii, F). auto.
  - intros H. unfold from_parts_unchecked. destruct (validate_total (utf8 s)) as [V|V]; rewrite V; [exfalso|reflexivity].
    apply validate_iff in V. destruct V as [L F]. specialize (A F). rewrite A in L, F. auto.
Qed.
Example c48_example : built_prefix XPUB /\ prefix_is_public XPUB = true /\ prefix_is_private XPUB = false /\ prefix_is_private XPRV = true
  /\ built_prefix (mkPrefix (lit "abcd") 7).
Proof.
  split; [apply built_const; cbn; tauto|]. split; [reflexivity|]. split; [reflexivity|]. split; [reflexivity|].
  apply (built_parts (lit "abcd") 7); [repeat constructor|reflexivity|reflexivity].
Qed.
