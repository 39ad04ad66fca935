(** Proofs of the properties of hashing (restated in PropHash.v). *)
From Coq Require Import String ZifyBool ZifyNat ZifyN.
From Verif Require Import Outcome Bytes Str Hash Ripemd HashLemmas Nfkd NfkdLemmas ModelBip39 SpecBip39 SpecSecp Secp ModelBip32 SpecBip32 SpecHash.
From Verif Require Import BitLemmas HashProofs RipemdProofs WordData WordLemmas Bip39Proofs Bip39Thms SecpProofs KeyTextThms DeriveThms More39Thms.
Open Scope N_scope.

(** ** C90 *)
Lemma sha256_iff m d : bytes_ok m -> len m < 2 ^ 61 -> is_sha2 fips_sha256 m d <-> d = sha256 m.
Proof.
  intros Hm Hl. split; [intros H|intros ->; apply sha256_meets; assumption].
  apply (sha2_fun fips_sha256 ltac:(cbn; lia) m); [exact H|apply sha256_meets; assumption].
Qed.
Lemma sha512_iff m d : bytes_ok m -> len m < 2 ^ 61 -> is_sha2 fips_sha512 m d <-> d = sha512 m.
Proof.
  intros Hm Hl. split; [intros H|intros ->; apply sha512_meets; assumption].
  apply (sha2_fun fips_sha512 ltac:(cbn; lia) m); [exact H|apply sha512_meets; assumption].
Qed.
Lemma c90_sha2 : forall m d : bytes, bytes_ok m -> len m < 2 ^ 61 ->
  (is_sha2 fips_sha256 m d <-> d = sha256 m) /\ (is_sha2 fips_sha512 m d <-> d = sha512 m).
Proof.
  intros m d Hm Hl. split; [apply sha256_iff|apply sha512_iff]; assumption.
Qed.
(** The checksum byte of BIP39 and the check bytes of Base58Check are such digests. *)
Lemma c90_uses : forall m : bytes, bytes_ok m -> len m < 2 ^ 61 ->
  (exists d rest, is_sha2 fips_sha256 m (d :: rest) /\ sha256_first_byte m = Ok d)
  /\ (exists d d' rest, is_sha2 fips_sha256 m d /\ is_sha2 fips_sha256 d d' /\ d' = Base58.check_bytes m ++ rest /\ length (Base58.check_bytes m) = 4%nat).
Proof.
  intros m Hm Hl. split.
  - destruct (sha256_cons m) as (h & t & E & _). exists h, t. split; [rewrite <- E; apply sha256_meets; assumption|].
    unfold sha256_first_byte. rewrite E. reflexivity.
  - exists (sha256 m), (sha256 (sha256 m)), (skipn 4 (sha256 (sha256 m))).
    split; [apply sha256_meets; assumption|]. split; [apply sha256_meets; [apply sha256_ok|unfold len; rewrite sha256_length; reflexivity]|].
    unfold Base58.check_bytes. split; [symmetry; apply firstn_skipn|]. rewrite firstn_length_le; [reflexivity|rewrite sha256_length; lia].
Qed.
(** FIPS 180-4 example "abc". *)
Example c90_example : is_sha2 fips_sha256 [97; 98; 99]
  [0xba; 0x78; 0x16; 0xbf; 0x8f; 0x01; 0xcf; 0xea; 0x41; 0x41; 0x40; 0xde; 0x5d; 0xae; 0x22; 0x23;
   0xb0; 0x03; 0x61; 0xa3; 0x96; 0x17; 0x7a; 0x9c; 0xb4; 0x10; 0xff; 0x61; 0xf2; 0x00; 0x15; 0xad].
Proof.
  apply sha256_iff; [repeat constructor|reflexivity|]. vm_compute. reflexivity.
Qed.

(** ** C91 *)
Lemma xor_pad_map c k : is_xor_pad c k (map (N.lxor c) k).
Proof. unfold is_xor_pad. induction k as [|x k IH]; constructor; [reflexivity|exact IH]. Qed.
Lemma xor_pad_fun c k a : is_xor_pad c k a -> a = map (N.lxor c) k.
Proof. unfold is_xor_pad. induction 1 as [|x y k a E _ IH]; [reflexivity|]. cbn. congruence. Qed.

Section Hmac.
  Variables (H : bytes -> bytes) (is_hash : bytes -> bytes -> Prop) (B h : nat).
  Hypothesis Hiff : forall m d, bytes_ok m -> len m < 2 ^ 61 -> is_hash m d <-> d = H m.
  Hypothesis Hok : forall m, bytes_ok (H m).
  Hypothesis Hlen : forall m, length (H m) = h.
  Hypothesis HhB : (h <= B)%nat.
  Hypothesis HB : N.of_nat B + N.of_nat h < 2 ^ 60.

  Lemma hmac_key_ok key : bytes_ok key -> bytes_ok (hmac_key H B key).
  Proof.
    intros Hk. unfold hmac_key. apply bytes_ok_app. split; [destruct (Nat.ltb _ _); [apply Hok|exact Hk]|].
    apply Forall_forall. intros x Hx. apply repeat_spec in Hx. subst x. reflexivity.
  Qed.
  Lemma hmac_key_length key : length (hmac_key H B key) = B.
  Proof.
    unfold hmac_key. rewrite app_length, repeat_length. destruct (Nat.ltb_spec B (length key)) as [Hb|Hb]; [rewrite Hlen|]; lia.
  Qed.
  Lemma map_lxor_ok c k : c < 256 -> bytes_ok k -> bytes_ok (map (N.lxor c) k).
  Proof. intros Hc Hk. apply Forall_map. revert Hk. apply Forall_impl. intros x Hx. apply lxor_byte; assumption. Qed.
  Lemma hmac_inputs key msg : bytes_ok key -> bytes_ok msg -> len msg < 2 ^ 60 ->
    let k := hmac_key H B key in
    (bytes_ok (map (N.lxor 54) k ++ msg) /\ len (map (N.lxor 54) k ++ msg) < 2 ^ 61)
    /\ (forall inner, inner = H (map (N.lxor 54) k ++ msg) -> bytes_ok (map (N.lxor 92) k ++ inner) /\ len (map (N.lxor 92) k ++ inner) < 2 ^ 61).
  Proof.
    intros Hk Hm Hl k. assert (Hko : bytes_ok k) by apply hmac_key_ok, Hk. assert (Hkl : length k = B) by apply hmac_key_length.
    assert (E61 : 2 ^ 61 = 2 ^ 60 + 2 ^ 60) by reflexivity.
    split; [split|intros inner ->; split].
    - apply bytes_ok_app. split; [apply map_lxor_ok; [reflexivity|exact Hko]|exact Hm].
    - rewrite len_app. unfold len at 1. rewrite map_length, Hkl. lia.
    - apply bytes_ok_app. split; [apply map_lxor_ok; [reflexivity|exact Hko]|apply Hok].
    - rewrite len_app. unfold len. rewrite map_length, Hkl, Hlen. lia.
  Qed.
  Lemma hmac_iff key msg mac : bytes_ok key -> bytes_ok msg -> len key < 2 ^ 60 -> len msg < 2 ^ 60 ->
    is_hmac is_hash B key msg mac <-> mac = hmac H B key msg.
  Proof.
    intros Hk Hm Hkl Hml. destruct (hmac_inputs key msg Hk Hm Hml) as [[I1 I2] Ho].
    assert (E61 : 2 ^ 61 = 2 ^ 60 + 2 ^ 60) by reflexivity.
    assert (Eb : Nat.leb (length key) B = negb (Nat.ltb B (length key))).
    { destruct (Nat.leb_spec (length key) B), (Nat.ltb_spec B (length key)); reflexivity || lia. }
    split.
    - intros (k0 & k & z & ik & ok & inner & Ek0 & Ek & El & Hik & Hok' & Hin & Hout).
      assert (Ek0' : k0 = if Nat.ltb B (length key) then H key else key).
      { rewrite Eb in Ek0. destruct (Nat.ltb B (length key)); cbn [negb] in Ek0; [|exact Ek0]. apply Hiff in Ek0; [exact Ek0|exact Hk|lia]. }
      assert (Ekk : k = hmac_key H B key).
      { unfold hmac_key. rewrite <- Ek0', Ek. f_equal. f_equal. rewrite Ek, app_length, repeat_length in El. lia. }
      apply xor_pad_fun in Hik, Hok'. rewrite Ekk in Hik, Hok'. subst ik ok.
      apply Hiff in Hin; [|exact I1|exact I2]. destruct (Ho inner Hin) as [O1 O2].
      apply Hiff in Hout; [|exact O1|exact O2]. rewrite Hout, Hin. reflexivity.
    - intros ->. exists (if Nat.ltb B (length key) then H key else key), (hmac_key H B key).
      eexists _, (map (N.lxor 54) (hmac_key H B key)), (map (N.lxor 92) (hmac_key H B key)), (H (map (N.lxor 54) (hmac_key H B key) ++ msg)).
      split; [rewrite Eb; destruct (Nat.ltb B (length key)); cbn [negb]; [apply Hiff; [exact Hk|lia|reflexivity]|reflexivity]|].
      split; [reflexivity|]. split; [apply hmac_key_length|]. split; [apply xor_pad_map|]. split; [apply xor_pad_map|].
      destruct (Ho _ eq_refl) as [O1 O2]. split; apply Hiff; assumption || reflexivity.
  Qed.
End Hmac.
Lemma hmac_sha512_iff key msg mac : bytes_ok key -> bytes_ok msg -> len key < 2 ^ 60 -> len msg < 2 ^ 60 ->
  is_hmac (is_sha2 fips_sha512) 128 key msg mac <-> mac = hmac_sha512 key msg.
Proof. apply (hmac_iff _ _ 128 64 sha512_iff sha512_ok sha512_length); [lia|reflexivity]. Qed.
Lemma hmac_sha256_iff key msg mac : bytes_ok key -> bytes_ok msg -> len key < 2 ^ 60 -> len msg < 2 ^ 60 ->
  is_hmac (is_sha2 fips_sha256) 64 key msg mac <-> mac = hmac_sha256 key msg.
Proof. apply (hmac_iff _ _ 64 32 sha256_iff sha256_ok sha256_length); [lia|reflexivity]. Qed.
Lemma c91_hmac : forall key msg mac : bytes, bytes_ok key -> bytes_ok msg -> len key < 2 ^ 60 -> len msg < 2 ^ 60 ->
  (is_hmac (is_sha2 fips_sha512) 128 key msg mac <-> mac = hmac_sha512 key msg)
  /\ (is_hmac (is_sha2 fips_sha256) 64 key msg mac <-> mac = hmac_sha256 key msg).
Proof.
  intros key msg mac H1 H2 H3 H4. split; [apply hmac_sha512_iff|apply hmac_sha256_iff]; assumption.
Qed.
(** RFC 4231, test case 2: key "Jefe", data "what do ya want for nothing?". *)
Example c91_example : is_hmac (is_sha2 fips_sha256) 64 (lit "Jefe") (lit "what do ya want for nothing?")
  [0x5b; 0xdc; 0xc1; 0x46; 0xbf; 0x60; 0x75; 0x4e; 0x6a; 0x04; 0x24; 0x26; 0x08; 0x95; 0x75; 0xc7;
   0x5a; 0x00; 0x3f; 0x08; 0x9d; 0x27; 0x39; 0x83; 0x9d; 0xec; 0x58; 0xb9; 0x64; 0xec; 0x38; 0x43].
Proof.
  apply hmac_sha256_iff; [repeat constructor|repeat constructor|reflexivity|reflexivity|]. vm_compute. reflexivity.
Qed.

(** ** C92 *)
Lemma ripemd160_iff m d : bytes_ok m -> len m < 2 ^ 61 -> is_ripemd160 m d <-> d = ripemd160 m.
Proof.
  intros Hm Hl. split; [intros H|intros ->; apply ripemd160_meets; assumption].
  apply (ripemd160_fun m); [exact H|apply ripemd160_meets; assumption].
Qed.
(** [ripemd] prints the digest in lower-case hex; the fingerprint is the start of RIPEMD-160 of SHA-256 of the key. *)
Lemma c92_ripemd : forall m : bytes, bytes_ok m -> len m < 2 ^ 61 ->
  exists d, (forall d', is_ripemd160 m d' <-> d' = d) /\ ripemd m = flat_map (hex_byte false) d.
Proof.
  intros m Hm Hl. exists (ripemd160 m). split; [intros d'; apply ripemd160_iff; assumption|reflexivity].
Qed.
Lemma c92_fingerprint : forall (P : point) (f : bytes), P <> Infinity -> on_curve P ->
  f = public_fingerprint P <->
  exists b h d, is_compressed b P /\ is_sha2 fips_sha256 b h /\ is_ripemd160 h d /\ f = firstn 4 d.
Proof.
  intros P f F O.
  assert (B : bytes_ok (public_to_bytes P)) by apply public_serialize_ok.
  assert (L : len (public_to_bytes P) < 2 ^ 61) by (unfold len, public_to_bytes; rewrite public_serialize_length; reflexivity).
  assert (L' : len (sha256 (public_to_bytes P)) < 2 ^ 61) by (unfold len; rewrite sha256_length; reflexivity).
  split.
  - intros ->. exists (public_to_bytes P), (sha256 (public_to_bytes P)), (ripemd160 (sha256 (public_to_bytes P))).
    split; [apply to_bytes_compressed; auto|]. split; [apply sha256_meets; assumption|].
    split; [apply ripemd160_meets; [apply sha256_ok|exact L']|reflexivity].
  - intros (b & h & d & Hb & Hh & Hd & ->). apply to_bytes_compressed in Hb; [|assumption..]. subst b.
    apply sha256_iff in Hh; [|assumption..]. subst h. apply ripemd160_iff in Hd; [|apply sha256_ok|exact L']. subst d. reflexivity.
Qed.
(** The example of the code's comment, "Hello world!" (the digest in the documentation of crate ripemd). *)
Example c92_example : ripemd (lit "Hello world!") = lit "7f772647d88750add82d8e1a7a3e5c0902a346a3"
  /\ is_ripemd160 (lit "Hello world!") [0x7f; 0x77; 0x26; 0x47; 0xd8; 0x87; 0x50; 0xad; 0xd8; 0x2d; 0x8e; 0x1a; 0x7a; 0x3e; 0x5c; 0x09; 0x02; 0xa3; 0x46; 0xa3].
Proof.
  split; [vm_compute; reflexivity|]. apply ripemd160_iff; [repeat constructor|reflexivity|]. vm_compute. reflexivity.
Qed.

(** ** C93 *)
Lemma xor_bytes_nth a b j : length a = length b -> nth j (xor_bytes a b) 0 = N.lxor (nth j a 0) (nth j b 0).
Proof.
  unfold xor_bytes. revert b j. induction a as [|x a IH]; intros [|y b] j E; try discriminate E; [destruct j; reflexivity|].
  destruct j as [|j]; [reflexivity|]. cbn [combine map nth]. apply IH. cbn in E. lia.
Qed.
Lemma fold_xor_nth (U : nat -> bytes) h l acc j : length acc = h -> (forall i, length (U i) = h) ->
  length (fold_left xor_bytes (map U l) acc) = h
  /\ nth j (fold_left xor_bytes (map U l) acc) 0 = N.lxor (nth j acc 0) (fold_right N.lxor 0 (map (fun i => nth j (U i) 0) l)).
Proof.
  intros Ha HU. revert acc Ha. induction l as [|i l IH]; intros acc Ha; cbn [map fold_left fold_right].
  - rewrite N.lxor_0_r. auto.
  - destruct (IH (xor_bytes acc (U i))) as [E1 E2]; [rewrite xor_bytes_length; [exact Ha|rewrite HU; exact Ha]|].
    split; [exact E1|]. rewrite E2, xor_bytes_nth by (rewrite HU; exact Ha). apply N.lxor_assoc.
Qed.
Lemma pbkdf2_t1_iff (prf : bytes -> bytes) (is_prf : bytes -> bytes -> Prop) h salt c out : (0 < c)%nat ->
  (forall x, bytes_ok (prf x)) -> (forall x, length (prf x) = h) -> N.of_nat h < 2 ^ 60 ->
  (forall x y, bytes_ok x -> len x < 2 ^ 60 -> is_prf x y <-> y = prf x) ->
  bytes_ok salt -> len salt < 2 ^ 59 -> is_pbkdf2 is_prf salt c h out <-> out = pbkdf2_t1 prf salt c.
Proof.
  intros Hc Hok Hlen Hh Hiff Hs Hsl. set (u := pbkdf2_u prf salt).
  assert (Hul : forall i, length (u i) = h) by (intros [|i]; apply Hlen).
  assert (Huo : forall i, bytes_ok (u i)) by (intros [|i]; apply Hok).
  assert (S1 : bytes_ok (salt ++ [0; 0; 0; 1])) by (apply bytes_ok_app; split; [exact Hs|repeat constructor]).
  assert (S2 : len (salt ++ [0; 0; 0; 1]) < 2 ^ 60).
  { rewrite len_app. change (len [0; 0; 0; 1]) with 4. change (2 ^ 60) with (2 ^ 59 + 2 ^ 59). assert (4 < 2 ^ 59) by reflexivity. lia. }
  assert (T : length (pbkdf2_t1 prf salt c) = h
    /\ forall j, nth j (pbkdf2_t1 prf salt c) 0 = fold_right N.lxor 0 (map (fun i => nth j (u (i - 1)%nat) 0) (seq 1 c))).
  { unfold pbkdf2_t1. fold u. split; [apply (fold_xor_nth u h _ _ 0 (Hul _) Hul)|]. intros j.
    rewrite (proj2 (fold_xor_nth u h _ _ j (Hul _) Hul)). destruct c as [|c]; [lia|].
    cbn [seq map fold_right Nat.sub]. rewrite Nat.sub_0_r, <- (seq_shift c 1), map_map. f_equal. f_equal.
    apply map_ext_in. intros i Hi. apply in_seq in Hi.
    replace (S i - 1)%nat with i by lia. reflexivity. }
  destruct T as [T1 T2]. split.
  - intros (U & H1 & HU & Hl & Hn).
    assert (EU : forall i, (i < c)%nat -> U (S i) = u i).
    { induction i as [|i IH]; intros Hi; [apply Hiff in H1; assumption|].
      specialize (HU (S i) ltac:(lia)). rewrite IH in HU by lia. apply Hiff in HU; [exact HU|apply Huo|].
      unfold len. rewrite Hul. exact Hh. }
    apply nth_ext with (d := 0) (d' := 0); [congruence|]. intros j Hj. rewrite Hl in Hj. rewrite (Hn j Hj), T2. f_equal.
    apply map_ext_in. intros i Hi. apply in_seq in Hi. replace i with (S (i - 1)) at 1 by lia. rewrite EU by lia. reflexivity.
  - intros ->. exists (fun i => u (i - 1)%nat). split; [apply Hiff; [exact S1|exact S2|reflexivity]|].
    split; [|split; [exact T1|intros j _; apply T2]].
    intros i Hi. apply Hiff; [apply Huo|unfold len; rewrite Hul; exact Hh|]. replace (S i - 1)%nat with (S (i - 1)) by lia. reflexivity.
Qed.

(** Unicode scalar values stay below 0x110000 under NFKD, so UTF-8 makes bytes of them. *)
Definition table_small : bool := forallb (fun e => forallb (fun c => c <? 0x110000) (snd e)) NfkdData.decomp_table.
Lemma table_small_ok : table_small = true.
Proof. vm_compute. reflexivity. Qed.
Definition scalars (s : str) : Prop := Forall (fun c => c < 0x110000) s.
Lemma decompose_scalar c : c < 0x110000 -> scalars (decompose_char c).
Proof.
  intros Hc. unfold decompose_char. destruct (is_hangul c) eqn:Eh.
  - unfold is_hangul in Eh. unfold hangul_decomp. cbv zeta. set (i := c - 0xAC00).
    assert (Hi : i < 11172) by (unfold i; lia).
    assert (H1 : i / 588 < 19) by (apply N.div_lt_upper_bound; lia).
    assert (H2 : i mod 588 / 28 < 21) by (apply N.div_lt_upper_bound; [lia|]; pose proof (N.mod_lt i 588); lia).
    assert (H3 : i mod 28 < 28) by (apply N.mod_lt; lia).
    apply Forall_app. split; [repeat constructor; lia|]. destruct (i mod 28 =? 0); repeat constructor; lia.
  - destruct (assocN c NfkdData.decomp_table) as [d|] eqn:Ea; [|repeat constructor; exact Hc].
    apply assocN_in in Ea. pose proof table_small_ok as H. unfold table_small in H. rewrite forallb_forall in H.
    specialize (H _ Ea). cbn [snd] in H. rewrite forallb_forall in H. apply Forall_forall. intros x Hx. specialize (H x Hx). lia.
Qed.
Lemma nfkd_scalars s : scalars s -> scalars (nfkd s).
Proof.
  intros Hs. unfold scalars. rewrite Forall_forall. intros x Hx. apply (Permutation.Permutation_in _ (nfkd_perm s)) in Hx.
  apply in_flat_map in Hx. destruct Hx as (c & Hc & Hx). unfold scalars in Hs. rewrite Forall_forall in Hs.
  pose proof (decompose_scalar c (Hs c Hc)) as H. unfold scalars in H. rewrite Forall_forall in H. apply H, Hx.
Qed.
Lemma utf8_char_ok c : c < 0x110000 -> bytes_ok (utf8_char c).
Proof.
  intros Hc. unfold utf8_char.
  assert (M : forall x, x mod 64 < 64) by (intros; apply N.mod_lt; lia).
  destruct (N.ltb_spec c 0x80); [repeat constructor; unfold byte_ok; lia|].
  destruct (N.ltb_spec c 0x800).
  { assert (c / 64 < 32) by (apply N.div_lt_upper_bound; lia). pose proof (M c). repeat constructor; unfold byte_ok; lia. }
  pose proof (M c). pose proof (M (c / 64)). pose proof (M (c / 4096)).
  destruct (N.ltb_spec c 0x10000).
  { assert (c / 4096 < 16) by (apply N.div_lt_upper_bound; lia). repeat constructor; unfold byte_ok; lia. }
  assert (c / 262144 < 5) by (apply N.div_lt_upper_bound; lia). repeat constructor; unfold byte_ok; lia.
Qed.
Lemma utf8_bytes s : scalars s -> bytes_ok (utf8 s).
Proof.
  induction 1 as [|c s Hc _ IH]; [constructor|]. unfold utf8. cbn [flat_map]. apply bytes_ok_app. split; [apply utf8_char_ok, Hc|exact IH].
Qed.

(** The password bytes of a mnemonic are bytes, and few. *)
Definition gb_small : bool := forallb (fun e => (fst (snd e) <? 256) && (snd (snd e) <? 256)) Gb18030Data.gb_table.
Lemma gb_small_ok : gb_small = true.
Proof. vm_compute. reflexivity. Qed.
Lemma gb18030_ok s g : gb18030 s = Some g -> bytes_ok g /\ len g <= 2 * len s.
Proof.
  revert g. induction s as [|c s IH]; intros g E; cbn [gb18030] in E.
  - injection E as <-. split; [constructor|cbn; lia].
  - destruct (gb18030_char c) as [a|] eqn:Ea; [|discriminate E]. destruct (gb18030 s) as [b|]; [|discriminate E].
    injection E as <-. destruct (IH b eq_refl) as [Hb Hl]. change (c :: s) with ([c] ++ s). rewrite !len_app. change (len [c]) with 1.
    unfold gb18030_char in Ea. destruct (N.ltb_spec c 128).
    + injection Ea as <-. split; [constructor; [unfold byte_ok; lia|exact Hb]|]. change (len [c]) with 1. lia.
    + destruct (assocN c Gb18030Data.gb_table) as [[x y]|] eqn:Et; [|discriminate Ea]. injection Ea as <-.
      apply assocN_in in Et. pose proof gb_small_ok as H1. unfold gb_small in H1. rewrite forallb_forall in H1. specialize (H1 _ Et).
      cbn [fst snd] in H1. split; [constructor; [unfold byte_ok; lia|]; constructor; [unfold byte_ok; lia|exact Hb]|].
      change (len [x; y]) with 2. lia.
Qed.
Lemma as_bytes_ok m g : constructible m -> mnemonic_as_bytes m = Ok g -> bytes_ok g /\ len g < 2 ^ 60.
Proof.
  intros Hc Hg. pose proof (constructible_plain m Hc) as Hpl. apply constructible_sentence in Hc. destruct Hc as (ws & Hp & Hs).
  assert (Hin : forall w, In w ws -> In w (words (m_lang m))) by (intros w Hw; eapply sentence_words; eassumption).
  assert (Hlen : (length ws <= 24)%nat).
  { apply sentence_parts in Hs. destruct Hs as (_ & HL & HC & HE).
    destruct (encodes_legal_count _ _ _ _ HL HC HE) as [_ Hn]. unfold legal_count in Hn. cbn [In] in Hn. lia. }
  assert (Hu : len (utf8 (m_phrase m)) <= 216).
  { rewrite Hp. destruct ws as [|w ws]; [cbn; lia|]. rewrite utf8_spaced.
    destruct (words_bytes _ w (Hin w (or_introl eq_refl))) as [_ Hw].
    pose proof (join_bytes_bound (m_lang m) ws (fun v Hv => Hin v (or_intror Hv))) as Hj. assert (len ws <= 23) by (unfold len; cbn [length] in Hlen; lia). lia. }
  assert (E60 : 1000 < 2 ^ 60) by reflexivity.
  assert (Hsc : scalars (m_phrase m)).
  { unfold scalars. apply Forall_forall. intros c Hcin. rewrite forallb_forall in Hpl. specialize (Hpl c Hcin). unfold plain in Hpl. lia. }
  unfold mnemonic_as_bytes in Hg. destruct (language_eqb _ _).
  - destruct (gb18030 (m_phrase m)) as [g'|] eqn:Eg; cbn [or_panic] in Hg; [|discriminate Hg]. injection Hg as <-.
    apply gb18030_ok in Eg. destruct Eg as [E1 E2]. split; [exact E1|]. pose proof (utf8_len_bounds (m_phrase m)). lia.
  - injection Hg as <-. split; [apply utf8_bytes, Hsc|lia].
Qed.

Lemma c93_seed_from_standards : forall (m : mnemonic) (g : bytes) (password : str) (seed : bytes),
  constructible m -> mnemonic_as_bytes m = Ok g ->
  Forall (fun c => c < 0x110000) password -> len (nfkd password) < 2 ^ 56 ->
  seed_new m password = Ok seed <->
  is_pbkdf2 (is_hmac (is_sha2 fips_sha512) 128 g) (utf8 (lit "mnemonic") ++ utf8 (nfkd password)) 2048 64 seed.
Proof.
  intros m g pw seed Hc Hg Hpw Hlen. destruct (as_bytes_ok m g Hc Hg) as [G1 G2].
  unfold seed_new. rewrite Hg. cbn [bind]. rewrite bip39_pbkdf2_eq.
  rewrite (pbkdf2_t1_iff (hmac_sha512 g)).
  - split; [intros H|intros ->; reflexivity]. assert (H' := f_equal (fun r => match r with Ok x => x | _ => [] end) H). cbn beta iota in H'. symmetry. exact H'.
  - apply Nat.ltb_lt. reflexivity.
  - intros x. apply hmac_sha512_ok.
  - intros x. apply hmac_sha512_length.
  - reflexivity.
  - intros x y Hx Hl. apply hmac_sha512_iff; assumption.
  - apply bytes_ok_app. split; [repeat constructor|apply utf8_bytes, nfkd_scalars, Hpw].
  - rewrite len_app. change (len (utf8 (lit "mnemonic"))) with 8. pose proof (utf8_len_bounds (nfkd pw)).
    assert (4 * 2 ^ 56 + 8 < 2 ^ 59) by reflexivity. lia.
Qed.
Example c93_example : constructible ex_mnemonic /\ mnemonic_as_bytes ex_mnemonic = Ok ex_phrase
  /\ Forall (fun c => c < 0x110000) (lit "TREZOR") /\ len (nfkd (lit "TREZOR")) < 2 ^ 56.
Proof.
  split; [exact ex_constructible|]. split; [apply c73_example|]. split; [repeat constructor|reflexivity].
Qed.
