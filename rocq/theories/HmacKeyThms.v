(** Proofs about the HMAC keys that PBKDF2 makes from phrases (restated in PropHmacKey.v). *)
From Coq Require Import String ZifyBool ZifyNat ZifyN.
From Verif Require Import Outcome Bytes Str BitLemmas StrLemmas Hash HashLemmas Nfkd NfkdLemmas Gb18030Data WordData WordLemmas MoreData.
From Verif Require Import ModelBip39 SpecBip39 Bip39Proofs Bip39Thms ModelBuffers More39Thms SpecHash SpecHmacKey HashProofs HashThms.
Open Scope N_scope.

Lemma ok_inj {E A} (a b : A) : @Ok E A a = Ok b -> a = b.
Proof. congruence. Qed.

(** Texts without zero bytes can be told apart from their zero padding. *)
Lemma pad_inj (a b : bytes) y z : Forall (fun c => c <> 0) a -> Forall (fun c => c <> 0) b ->
  a ++ repeat 0 y = b ++ repeat 0 z -> a = b.
Proof.
  revert b. induction a as [|c a IH]; intros [|d b] Ha Hb E.
  - reflexivity.
  - exfalso. apply Forall_inv in Hb. destruct y; cbn in E; [discriminate E|]. apply Hb. congruence.
  - exfalso. apply Forall_inv in Ha. destruct z; cbn in E; [discriminate E|]. apply Ha. congruence.
  - cbn [app] in E. injection E as -> E. f_equal. apply (IH b); [eapply Forall_inv_tail, Ha|eapply Forall_inv_tail, Hb|exact E].
Qed.
Lemma pad_same (a b : bytes) y z : length a = length b -> a ++ repeat 0 y = b ++ repeat 0 z -> a = b.
Proof.
  revert b. induction a as [|c a IH]; intros [|d b] L E; try discriminate L; [reflexivity|].
  injection L as L. injection E as -> E. f_equal. apply IH; assumption.
Qed.
(** A text without zeros that is a digest up to padding. *)
Lemma pad_prefix (a : bytes) : forall (b : bytes) y z, Forall (fun c => c <> 0) a -> a ++ repeat 0 y = b ++ repeat 0 z ->
  (length a <= length b)%nat -> exists k, b = a ++ repeat 0 k.
Proof.
  induction a as [|c a IH]; intros b y z Ha E L.
  - exists (length b). cbn [app] in *. clear -E. revert y E. induction b as [|d b IH]; intros y E; [reflexivity|].
    destruct y; [discriminate E|]. cbn in E. injection E as <- E. cbn. f_equal. eapply IH, E.
  - destruct b as [|d b]; [cbn in L; lia|]. cbn [app] in E. injection E as <- E.
    destruct (IH b y z) as [k ->]; [eapply Forall_inv_tail, Ha|exact E|cbn in L; lia|]. exists k. reflexivity.
Qed.
Lemma pad_longer (a b : bytes) y z : Forall (fun c => c <> 0) a -> a ++ repeat 0 y = b ++ repeat 0 z ->
  (length a <= length b)%nat \/ a = b ++ repeat 0 (length a - length b) .
Proof.
  intros Ha E. destruct (Nat.le_gt_cases (length a) (length b)) as [|L]; [auto|]. right.
  revert b E L. induction a as [|c a IH]; intros b E L; [cbn in L; lia|].
  destruct b as [|d b].
  - exfalso. cbn [app] in E. destruct z; [discriminate E|]. cbn in E. injection E as -> _. apply Forall_inv in Ha. apply Ha. reflexivity.
  - cbn [app] in E. injection E as <- E. cbn [app length Nat.sub]. f_equal. apply IH; [eapply Forall_inv_tail, Ha|exact E|cbn in L; lia].
Qed.
Lemma gb_trail : forallb (fun e => negb (snd (snd e) =? 0)) gb_table = true.
Proof. vm_compute. reflexivity. Qed.
Lemma gb_nonzero s : forall g, gb18030 s = Some g -> Forall (fun c => c <> 0) s -> Forall (fun c => c <> 0) g.
Proof.
  induction s as [|c s IH]; intros g E Hs; cbn [gb18030] in E; [injection E as <-; constructor|].
  destruct (gb18030_char c) as [a|] eqn:Ea; [|discriminate E]. destruct (gb18030 s) as [b|]; [|discriminate E].
  injection E as <-. apply Forall_cons_iff in Hs. apply Forall_app. split; [|apply IH; [reflexivity|apply Hs]].
  apply gb_char_cases in Ea. destruct Ea as [[_ ->]|(_ & x & y & -> & Hx & _ & _ & Hin)]; [repeat constructor; apply Hs|].
  pose proof gb_trail as T. rewrite forallb_forall in T. specialize (T _ Hin). cbn [snd] in T. repeat constructor; lia.
Qed.
Lemma utf8_nonzero s : Forall (fun c => 0 < c < 128) s -> Forall (fun c => c <> 0) (utf8 s).
Proof.
  induction 1 as [|c s Hc _ IH]; [constructor|]. unfold utf8 in *. cbn [flat_map]. apply Forall_app. split; [|exact IH].
  unfold utf8_char. replace (c <? 128) with true by lia. repeat constructor. lia.
Qed.
Lemma spaced_forall (P : N -> Prop) ws : P 32 -> Forall (Forall P) ws -> Forall P (spaced ws).
Proof.
  intros P32. induction 1 as [|w ws Hw Hws IH]; [constructor|]. destruct ws as [|v ws]; [exact Hw|].
  rewrite spaced_cons by discriminate. apply Forall_app. split; [exact Hw|]. constructor; [exact P32|exact IH].
Qed.
Lemma phrase_nonzero m b : constructible m -> mnemonic_as_bytes m = Ok b -> Forall (fun c => c <> 0) b.
Proof.
  intros Hc Hb. apply constructible_sentence in Hc. destruct Hc as (ws & Hp & Hs).
  assert (Hin : forall w, In w ws -> In w (words (m_lang m))) by (intros w Hw; eapply sentence_words; eassumption).
  unfold mnemonic_as_bytes in Hb. rewrite Hp in Hb. destruct (m_lang m); cbn [language_eqb] in Hb.
  - apply ok_inj in Hb. subst b. apply utf8_nonzero, spaced_forall; [lia|]. apply Forall_forall. intros w Hw.
    pose proof words_en_letters as L. rewrite forallb_forall in L. specialize (L w (Hin w Hw)). rewrite forallb_forall in L.
    apply Forall_forall. intros c Hcw. specialize (L c Hcw). lia.
  - destruct (gb18030 (spaced ws)) as [g|] eqn:E; cbn [or_panic] in Hb; [|discriminate Hb]. apply ok_inj in Hb. subst g.
    apply (gb_nonzero _ _ E), spaced_forall; [lia|]. apply Forall_forall. intros w Hw.
    pose proof words_zh_cjk as L. rewrite forallb_forall in L. specialize (L w (Hin w Hw)). rewrite forallb_forall in L.
    apply Forall_forall. intros c Hcw. specialize (L c Hcw). lia.
Qed.
Lemma phrase_short m b : constructible m -> mnemonic_as_bytes m = Ok b ->
  m_lang m = ChineseSimplified \/ length (m_entropy m) = 16%nat -> (length b <= 128)%nat.
Proof.
  intros Hc Hb Hd. apply constructible_sentence in Hc. destruct Hc as (ws & Hp & Hs).
  assert (Hin : forall w, In w ws -> In w (words (m_lang m))) by (intros w Hw; eapply sentence_words; eassumption).
  apply sentence_parts in Hs. destruct Hs as (_ & HL & HC & HE).
  destruct (encodes_legal_count _ _ _ _ HL HC HE) as [Hm Hn]. unfold legal_count in Hn. cbn [In] in Hn.
  unfold mnemonic_as_bytes in Hb. rewrite Hp in Hb. destruct (m_lang m) eqn:El; cbn [language_eqb] in Hb.
  - destruct Hd as [Hd|Hd]; [discriminate Hd|]. apply ok_inj in Hb. subst b.
    unfold ms_words, cs_bits in Hm. rewrite Hd in Hm. change ((8 * 16 + 8 * 16 / 32) / 11)%nat with 12%nat in Hm.
    destruct ws as [|w ws]; [discriminate Hm|]. cbn [length] in Hm. injection Hm as Hm.
    destruct (words_bytes _ w (Hin w (or_introl eq_refl))) as [_ Hw].
    pose proof (join_bytes_bound English ws (fun v Hv => Hin v (or_intror Hv))) as Hj. pose proof (utf8_spaced w ws) as U.
    unfold len in *. lia.
  - destruct (gb18030_sentence ws) as (g & Eg & Lg); [intros ->; cbn in Hn; lia|exact Hin|]. rewrite Eg in Hb. cbn [or_panic] in Hb.
    apply ok_inj in Hb. subst g. lia.
Qed.
Lemma hmac_block_iff key block : bytes_ok key -> len key < 2 ^ 60 ->
  is_hmac_block (is_sha2 fips_sha512) 128 key block <-> block = hmac_key sha512 128 key.
Proof.
  intros Hk Hl. assert (E61 : 2 ^ 61 = 2 ^ 60 + 2 ^ 60) by reflexivity. split.
  - intros (k0 & z & D & E & L). unfold hmac_key. destruct D as [[D1 D2]|[D1 D2]].
    + destruct (Nat.ltb_spec 128 (length key)) as [?|_]; [lia|]. subst k0 block. f_equal. f_equal. rewrite app_length, repeat_length in L. lia.
    + destruct (Nat.ltb_spec 128 (length key)) as [_|?]; [|lia]. apply (proj1 (sha512_iff key k0 Hk ltac:(lia))) in D2. subst k0 block. f_equal. f_equal.
      rewrite app_length, repeat_length in L. lia.
  - intros ->. pose proof (hmac_key_length sha512 _ 128 64 sha512_iff sha512_ok sha512_length ltac:(lia) ltac:(reflexivity) key) as L. unfold hmac_key in L |- *.
    destruct (Nat.ltb_spec 128 (length key)) as [H|H].
    + exists (sha512 key). eexists. split; [right; split; [exact H|apply (proj2 (sha512_iff key _ Hk ltac:(lia))); reflexivity]|]. split; [reflexivity|exact L].
    + exists key. eexists. split; [left; split; [exact H|reflexivity]|]. split; [reflexivity|exact L].
Qed.

Lemma hmac_by_block b b' : hmac_key sha512 128 b = hmac_key sha512 128 b' -> hmac_sha512 b = hmac_sha512 b'.
Proof.
  intros E. change ((fun k msg => sha512 (map (N.lxor 92) k ++ sha512 (map (N.lxor 54) k ++ msg))) (hmac_key sha512 128 b)
    = (fun k msg => sha512 (map (N.lxor 92) k ++ sha512 (map (N.lxor 54) k ++ msg))) (hmac_key sha512 128 b')).
  rewrite E. reflexivity.
Qed.

(** ** C144 *)
(** The seed depends on the phrase through this block alone. *)
Lemma c144_block_decides : forall (m m' : mnemonic) (b b' block : bytes) (password : str), constructible m -> constructible m' ->
  mnemonic_as_bytes m = Ok b -> mnemonic_as_bytes m' = Ok b' ->
  is_hmac_block (is_sha2 fips_sha512) 128 b block -> is_hmac_block (is_sha2 fips_sha512) 128 b' block ->
  seed_new m password = seed_new m' password.
Proof.
  intros m m' b b' block password Hc Hc' Hb Hb' K K'. destruct (as_bytes_ok m b Hc Hb) as [O L]. destruct (as_bytes_ok m' b' Hc' Hb') as [O' L'].
  apply (proj1 (hmac_block_iff b block O L)) in K. apply (proj1 (hmac_block_iff b' block O' L')) in K'.
  unfold seed_new, bip39_pbkdf2. rewrite Hb, Hb'. cbn [bind]. unfold pbkdf2.
  rewrite (hmac_by_block b b' (eq_trans (eq_sym K) K')). reflexivity.
Qed.
(** Different mnemonics have different blocks, unless SHA-512 fails: two phrases collide, or the digest of one is
    the text of the other and zeros. *)
Lemma c144_blocks_differ : forall (m m' : mnemonic) (b b' block : bytes), constructible m -> constructible m' ->
  mnemonic_as_bytes m = Ok b -> mnemonic_as_bytes m' = Ok b' ->
  is_hmac_block (is_sha2 fips_sha512) 128 b block -> is_hmac_block (is_sha2 fips_sha512) 128 b' block ->
  m = m'
  \/ (exists d, b <> b' /\ is_sha2 fips_sha512 b d /\ is_sha2 fips_sha512 b' d)
  \/ (exists z, is_sha2 fips_sha512 b' (b ++ repeat 0 z)) \/ (exists z, is_sha2 fips_sha512 b (b' ++ repeat 0 z)).
Proof.
  assert (Mixed : forall b b' y z d, Forall (fun c => c <> 0) b -> length d = 64%nat -> b ++ repeat 0 y = d ++ repeat 0 z ->
    is_sha2 fips_sha512 b' d -> exists k, is_sha2 fips_sha512 b' (b ++ repeat 0 k)).
  { intros b b' y z d Nb Ld E Hd. destruct (Nat.le_gt_cases (length b) (length d)) as [L|L].
    - destruct (pad_prefix b d y z Nb E L) as [k ->]. exists k. exact Hd.
    - exfalso. destruct (pad_longer b d y z Nb E) as [?|E2]; [lia|]. rewrite E2 in Nb. apply Forall_app in Nb. destruct Nb as [_ Nb].
      destruct (length b - length d)%nat eqn:En; [lia|]. apply Forall_inv in Nb. apply Nb. reflexivity. }
  intros m m' b b' block Hc Hc' Hb Hb' (k & z & D & E & L) (k' & z' & D' & E' & L').
  destruct (as_bytes_ok m b Hc Hb) as [O Ln]. destruct (as_bytes_ok m' b' Hc' Hb') as [O' Ln'].
  assert (E61 : 2 ^ 61 = 2 ^ 60 + 2 ^ 60) by reflexivity.
  pose proof (phrase_nonzero m b Hc Hb) as Nb. pose proof (phrase_nonzero m' b' Hc' Hb') as Nb'. rewrite E in E'.
  destruct D as [[D1 D2]|[D1 D2]], D' as [[D1' D2']|[D1' D2']].
  - subst k k'. left. apply pad_inj in E'; [|exact Nb|exact Nb']. subst b'. exact (c73_password_bytes_injective m m' b Hc Hc' Hb Hb').
  - subst k. right. right. left. apply (Mixed b b' z z' k' Nb); [|exact E'|exact D2'].
    apply (proj1 (sha512_iff b' k' O' ltac:(lia))) in D2'. subst k'. apply sha512_length.
  - subst k'. right. right. right. apply (Mixed b' b z' z k Nb'); [|symmetry; exact E'|exact D2].
    apply (proj1 (sha512_iff b k O ltac:(lia))) in D2. subst k. apply sha512_length.
  - assert (Lk : length k = 64%nat) by (apply (proj1 (sha512_iff b k O ltac:(lia))) in D2; rewrite D2; apply sha512_length).
    assert (Lk' : length k' = 64%nat) by (apply (proj1 (sha512_iff b' k' O' ltac:(lia))) in D2'; rewrite D2'; apply sha512_length).
    apply pad_same in E'; [|congruence]. subst k'. destruct (list_eq_dec N.eq_dec b b') as [Eb|Nbb].
    + left. subst b'. exact (c73_password_bytes_injective m m' b Hc Hc' Hb Hb').
    + right. left. exists k. auto.
Qed.
(** Phrases of 12 words and all Chinese ones are short enough to be keys themselves: among these no two have the
    same block. *)
Lemma c144_short_phrases : forall (m m' : mnemonic) (b b' block : bytes), constructible m -> constructible m' ->
  m_lang m = ChineseSimplified \/ length (m_entropy m) = 16%nat ->
  m_lang m' = ChineseSimplified \/ length (m_entropy m') = 16%nat ->
  mnemonic_as_bytes m = Ok b -> mnemonic_as_bytes m' = Ok b' ->
  is_hmac_block (is_sha2 fips_sha512) 128 b block -> is_hmac_block (is_sha2 fips_sha512) 128 b' block -> m = m'.
Proof.
  intros m m' b b' block Hc Hc' S S' Hb Hb' (k & z & D & E & L) (k' & z' & D' & E' & L').
  pose proof (phrase_short m b Hc Hb S) as T. pose proof (phrase_short m' b' Hc' Hb' S') as T'.
  destruct D as [[_ ->]|[D _]]; [|lia]. destruct D' as [[_ ->]|[D' _]]; [|lia]. rewrite E in E'.
  apply pad_inj in E'; [|exact (phrase_nonzero m b Hc Hb)|exact (phrase_nonzero m' b' Hc' Hb')]. subst b'.
  exact (c73_password_bytes_injective m m' b Hc Hc' Hb Hb').
Qed.
Example c144_example : constructible ex_mnemonic /\ mnemonic_as_bytes ex_mnemonic = Ok (utf8 ex_phrase)
  /\ is_hmac_block (is_sha2 fips_sha512) 128 (utf8 ex_phrase) (utf8 ex_phrase ++ repeat 0 56)
  /\ exists m b, from_entropy (ex_entropy ++ ex_entropy) English = Ok m /\ mnemonic_as_bytes m = Ok b /\ length b = 147%nat.
Proof.
  split; [exact ex_constructible|]. split; [vm_compute; reflexivity|]. split.
  - exists (utf8 ex_phrase), 56%nat.
    split; [left; split; [vm_compute; repeat constructor|reflexivity]|]. split; vm_compute; reflexivity.
  - destruct (from_entropy (ex_entropy ++ ex_entropy) English) as [m|e|] eqn:E.
    + exists m. vm_compute in E. apply ok_inj in E. subst m. eexists. split; [reflexivity|]. split; vm_compute; reflexivity.
    + exfalso. revert E. vm_compute. discriminate.
    + exfalso. revert E. vm_compute. discriminate.
Qed.
