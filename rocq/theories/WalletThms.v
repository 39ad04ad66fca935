(** Proofs about wallets in all languages, from the bits up (restated in PropWallet.v). *)
From Coq Require Import String ZifyBool ZifyNat ZifyN.
From Verif Require Import Outcome Bytes Str Hash HashLemmas Nfkd ModelBip39 SpecBip39 Secp SpecSecp Base58 ModelBip32 SpecBip32 SpecWallet SpecHash SpecUnicode SpecChain.
From Verif Require Import StrLemmas NfkdLemmas BitLemmas WordLemmas Bip39Proofs Base58Proofs Bip39Thms PathThms ExtProofs KeyTextThms DeriveThms MiscThms HashThms UnicodeThms ModelBuffers More39Thms ChainThms ModelLangs SpecLangs LangData LangProofs LangThms SpecWalletAll.
Open Scope N_scope.

(** C155 *)
Lemma words_in_iff l ws ent : words_in l ws ent <-> sentence_all l ws ent.
Proof.
  unfold words_in, sentence_all, with_checksum, checksum_of.
  assert (L : legal_entropy ent -> len ent < 2 ^ 61).
  { unfold legal_entropy, len. cbn [In]. change (2 ^ 61) with 2305843009213693952. lia. }
  split.
  - intros (B & Le & d & D & E). apply sha256_iff in D; [|exact B|apply L, Le]. subst d. auto.
  - intros (B & Le & E). split; [exact B|]. split; [exact Le|]. exists (sha256 ent). split; [apply sha256_iff; [exact B|apply L, Le|reflexivity]|exact E].
Qed.
Lemma sentence_scalars l ws ent : sentence_all l ws ent -> scalars (spaced ws).
Proof.
  intros H. assert (G : forall w, In w ws -> In w (words_all l)) by (intros w Hw; exact (sentence_all_words _ _ _ w H Hw)). clear H.
  induction ws as [|w ws IH]; [constructor|].
  assert (Sw : scalars w).
  { apply Forall_forall. intros c Hc. destruct (all_chars l w (G w (or_introl eq_refl)) c Hc) as [X|X]; [apply letter_cases in X|apply mark_cases in X]; lia. }
  destruct ws as [|v ws]; [exact Sw|]. rewrite spaced_cons by discriminate. apply Forall_app. split; [exact Sw|].
  constructor; [reflexivity|]. apply IH. intros u Hu. apply G. right. exact Hu.
Qed.
Lemma join_small l ws : (forall w, In w ws -> In w (words_all l)) -> join_bytes ws <= 89 * len ws.
Proof.
  induction ws as [|w ws IH]; intros H; [cbn; lia|]. cbn [join_bytes fold_right]. fold (join_bytes ws).
  specialize (IH (fun v Hv => H v (or_intror Hv))). pose proof (words_all_small l w (H w (or_introl eq_refl))) as Hb.
  change (w :: ws) with ([w] ++ ws). rewrite len_app. change (len [w]) with 1. lia.
Qed.
Lemma sentence_short l ws ent : sentence_all l ws ent -> len (utf8 (spaced ws)) < 2 ^ 60.
Proof.
  intros H. assert (G : forall w, In w ws -> In w (words_all l)) by (intros w Hw; exact (sentence_all_words _ _ _ w H Hw)).
  pose proof (sentence_all_count _ _ _ H) as C. assert (Lw : (length ws <= 24)%nat).
  { rewrite C. destruct H as (_ & L & _). unfold legal_entropy in L. cbn [In] in L. unfold ms_words, cs_bits.
    repeat (destruct L as [<-|L]; [apply Nat.leb_le; reflexivity|]). contradiction. }
  assert (E : 2300 < 2 ^ 60) by reflexivity. destruct ws as [|w ws]; [reflexivity|]. rewrite utf8_spaced.
  pose proof (words_all_small l w (G w (or_introl eq_refl))). pose proof (join_small l ws (fun v Hv => G v (or_intror Hv))).
  cbn [length] in Lw. assert (len ws <= 23) by (unfold len; lia). lia.
Qed.
Lemma seed_in l ws ent pw seed : sentence_all l ws ent -> l <> Compiled ChineseSimplified -> Forall is_scalar pw -> len (nfkd pw) < 2 ^ 56 ->
  seed_new_all (MnemonicAll (spaced ws) l ent) pw = Ok seed <-> bip39_seed_of ws pw seed.
Proof.
  intros S Hz Hpw Hl. apply scalar_small in Hpw. pose proof (sentence_scalars _ _ _ S) as Sc. pose proof (sentence_short _ _ _ S) as Sh.
  assert (Hc : constructible_all (MnemonicAll (spaced ws) l ent)) by (apply constructible_all_sentence; exists ws; split; [reflexivity|exact S]).
  assert (Hn : nfkd (spaced ws) = spaced ws).
  { apply (spaced_normal l). intros w Hw. exact (sentence_all_words _ _ _ w S Hw). }
  rewrite (c127_seeds _ pw Hc Hz). cbn [a_phrase]. unfold bip39_seed. rewrite Hn.
  assert (I : forall out, is_pbkdf2 (HMAC_SHA512 (utf8 (spaced ws))) (lit "mnemonic" ++ utf8 (nfkd pw)) 2048 64 out
    <-> out = pbkdf2_t1 (hmac_sha512 (utf8 (spaced ws))) (lit "mnemonic" ++ utf8 (nfkd pw)) 2048).
  { intros out. apply pbkdf2_t1_iff.
    - apply Nat.ltb_lt. reflexivity.
    - intros x. apply hmac_sha512_ok.
    - intros x. apply hmac_sha512_length.
    - reflexivity.
    - intros x y Hx Hlx. apply hmac_sha512_iff; [apply utf8_bytes, Sc|exact Hx|exact Sh|exact Hlx].
    - apply bytes_ok_app. split; [repeat constructor|apply utf8_bytes, nfkd_scalars, Hpw].
    - rewrite len_app. change (len (lit "mnemonic")) with 8. pose proof (utf8_len_bounds (nfkd pw)).
      assert (4 * 2 ^ 56 + 8 < 2 ^ 59) by reflexivity. lia. }
  change (utf8 (lit "mnemonic")) with (lit "mnemonic"). unfold bip39_seed_of. split.
  - intros H. exists (spaced ws), (utf8 (spaced ws)), (nfkd pw), (utf8 (nfkd pw)).
    split; [apply c94_nfkd; symmetry; exact Hn|]. split; [apply utf8_small; [exact Sc|reflexivity]|].
    split; [apply c94_nfkd; reflexivity|]. split; [apply utf8_small; [apply nfkd_scalars, Hpw|reflexivity]|].
    apply I. apply ok_inj in H. symmetry. exact H.
  - intros (t & tb & pw' & pwb & H1 & H2 & H3 & H4 & H). apply c94_nfkd in H1, H3. subst t pw'.
    rewrite Hn in H2. apply utf8_small in H2; [|exact Sc]. apply utf8_small in H4; [|apply nfkd_scalars, Hpw]. subst tb pwb.
    apply I in H. rewrite H. exact eq_refl.
Qed.
Lemma seed_all_64 m pw seed : seed_new_all m pw = Ok seed -> length seed = 64%nat /\ bytes_ok seed.
Proof.
  unfold seed_new_all. intros H. apply bind_ok in H. destruct H as (g & _ & H). apply ok_inj in H. rewrite <- H.
  unfold bip39_pbkdf2, pbkdf2_bytes. split; [apply pbkdf2_sha512_length|apply pbkdf2_sha512_ok].
Qed.
(** The whole way from the phrase, the passphrase and the text of the path to the key. *)
Lemma c155_wallet_from_standards : forall (l : language_all) (s pw ps : str) (x : xprv), l <> Compiled ChineseSimplified ->
  Forall is_scalar pw -> len (nfkd pw) < 2 ^ 56 ->
  ((exists p, path_from_str ps = Ok p /\ wallet_all s l pw p = Ok x) <-> wallet_key_in l s pw ps x).
Proof.
  intros l s pw ps x Hz Hpw Hl. unfold wallet_key_in. split.
  - intros (p & Hp & W). apply c33_path_grammar in Hp. pose proof (path_u32 _ _ Hp) as U. unfold wallet_all in W.
    apply bind_ok in W. destruct W as (m & Hm & W). destruct (from_phrase_all s l) as [m'|e|] eqn:F; cbn [map_err] in Hm; [|discriminate Hm..].
    apply ok_inj in Hm. subst m'. apply bind_ok in W. destruct W as (seed & Hs & W).
    destruct (seed_new_all m pw) as [seed'|e|] eqn:E; cbn [map_err] in Hs; [|discriminate Hs..]. apply ok_inj in Hs. subst seed'.
    destruct (xprv_new_from_path seed p) as [x'|e|] eqn:X; cbn [map_err] in W; [|discriminate W..]. apply ok_inj in W. subst x'.
    pose proof (c120_from_phrase s l) as F'. cbv zeta in F'. rewrite F in F'. destruct F' as (P & L & S).
    destruct m as [ph lg ent]. cbn [a_phrase a_lang a_entropy] in S, P, L. subst ph lg.
    destruct (seed_all_64 _ _ _ E) as [L2 B2]. apply (seed_in l _ ent pw seed S Hz Hpw Hl) in E.
    rewrite along_new, along_bind in X. apply bind_ok in X. destruct X as (x0 & X0 & X). pose proof (xprv_new_valid _ _ X0) as V0.
    apply c105_master_key in X0; [|exact B2]. rewrite <- along_prv in X. apply c105_paths in X; [|exact U|exact V0].
    exists (split_whitespace s), (map nfkd (split_whitespace s)), ent, seed, x0, p.
    split; [apply laid_out_iff; reflexivity|]. split; [apply nfkd_words; reflexivity|]. split; [apply words_in_iff, S|]. split; [exact E|].
    split; [apply X0|]. auto.
  - intros (ws & ws' & ent & seed & m & p & L & W & S & E & M & P & D). apply laid_out_iff in L. subst ws. apply nfkd_words in W. subst ws'.
    apply words_in_iff in S. exists p. split; [apply c33_path_grammar, P|]. pose proof (path_u32 _ _ P) as U.
    assert (F : from_phrase_all s l = Ok (MnemonicAll (spaced (map nfkd (split_whitespace s))) l ent)).
    { apply from_phrase_all_ok. split; [exact S|]. split; reflexivity. }
    apply (seed_in l _ ent pw seed S Hz Hpw Hl) in E. destruct (seed_all_64 _ _ _ E) as [L2 B2].
    unfold wallet_all. rewrite F. cbn [map_err bind]. rewrite E. cbn [map_err bind].
    assert (X0 : xprv_new seed = Ok m) by (apply c105_master_key; [exact B2|split; [rewrite L2; cbn [In]; auto|exact M]]).
    pose proof (xprv_new_valid _ _ X0) as V0. apply c105_paths in D; [|exact U|exact V0]. rewrite along_new, along_bind, X0. cbn [bind].
    rewrite <- along_prv, D. reflexivity.
Qed.
(** There is at most one such key. *)
Lemma c155_key_determined : forall (l : language_all) (s pw ps : str) (x y : xprv), l <> Compiled ChineseSimplified ->
  Forall is_scalar pw -> len (nfkd pw) < 2 ^ 56 -> wallet_key_in l s pw ps x -> wallet_key_in l s pw ps y -> x = y.
Proof.
  intros l s pw ps x y Hz Hpw Hl Hx Hy. apply c155_wallet_from_standards in Hx, Hy; [|assumption..].
  destruct Hx as (p & Ep & Wx). destruct Hy as (q & Eq & Wy). rewrite Ep in Eq. apply ok_inj in Eq. subst q.
  rewrite Wx in Wy. apply ok_inj in Wy. exact Wy.
Qed.
(** Words with their entropy and a seed: twelve French words, with and without composed accents. *)
Example c155_example : Forall2 is_nfkd (repeat ex_fr_word 12) (repeat ex_fr_normal 12)
  /\ words_in French (repeat ex_fr_normal 12) ex_fr_entropy
  /\ exists seed, bip39_seed_of (repeat ex_fr_normal 12) (lit "TREZOR") seed.
Proof.
  assert (S : sentence_all French (repeat ex_fr_normal 12) ex_fr_entropy).
  { pose proof (c120_from_phrase (spaced (repeat ex_fr_word 12)) French) as H. cbv zeta in H. destruct c120_example as [_ E]. rewrite E in H.
    destruct H as (P & _ & H). cbn [a_entropy ex_fr] in H. revert H. unfold ex_fr in P. cbn [a_phrase] in P.
    rewrite split_whitespace_spaced.
    - cbn [repeat map]. assert (W : nfkd ex_fr_word = ex_fr_normal) by (vm_compute; reflexivity). rewrite W. exact (fun H => H).
    - apply Forall_forall. intros w Hw. apply repeat_spec in Hw. subst w. split; [discriminate|reflexivity]. }
  split; [|split; [apply words_in_iff, S|]].
  - apply nfkd_words. cbn [repeat map]. assert (W : nfkd ex_fr_word = ex_fr_normal) by (vm_compute; reflexivity). rewrite W. reflexivity.
  - assert (Hc : constructible_all (MnemonicAll (spaced (repeat ex_fr_normal 12)) French ex_fr_entropy)) by exact ex_fr_constructible.
    eexists. apply (seed_in French _ ex_fr_entropy (lit "TREZOR") _ S); [discriminate| | |].
    + apply Forall_forall. intros c Hin. left. cbn in Hin. lia.
    + reflexivity.
    + apply c127_seeds; [exact Hc|discriminate].
Qed.
