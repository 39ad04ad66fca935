(** The BIP39 functions for all languages compute what the specification says.  The proofs are carried over
    from English by exchanging words with the same number. *)
From Coq Require Import String FMapPositive Sorted ZifyBool ZifyNat ZifyN.
From Verif Require Import Outcome Bytes Str Hash Nfkd NfkdData ModelBip39 SpecBip39 ModelLangs SpecLangs WordData LangData
  NfkdLemmas StrLemmas BitLemmas HashLemmas WordLemmas Bip39Proofs More39Thms.
Open Scope N_scope.

(** ** Letters and accents *)
Lemma letter_cases c : letter c = true ->
  (97 <= c <= 122 \/ 0x4E00 <= c <= 0x9FFF) \/ 0x1100 <= c <= 0x11FF \/ (0x3041 <= c <= 0x3096 /\ In c kana).
Proof.
  unfold letter. destruct (existsb (N.eqb c) kana) eqn:E.
  - apply existsb_exists in E. destruct E as (d & Hd & Ed). apply N.eqb_eq in Ed. subst d. intros H.
    destruct ((0x3041 <=? c) && (c <=? 0x3096)) eqn:E'; [right; right; split; [lia|exact Hd]|].
    rewrite andb_true_r in H. lia.
  - rewrite andb_false_r, orb_false_r. lia.
Qed.
Lemma mark_cases c : mark c = true -> c = 0x300 \/ c = 0x301 \/ c = 0x303 \/ c = 0x3099 \/ c = 0x309A.
Proof. unfold mark. cbn [existsb]. lia. Qed.

Lemma letter_closed c : letter c = true \/ mark c = true -> closed c.
Proof.
  intros H. unfold closed, decompose_char.
  assert (Hh : is_hangul c = false).
  { unfold is_hangul. destruct H as [H|H]; [apply letter_cases in H|apply mark_cases in H]; lia. }
  rewrite Hh. destruct (assocN c decomp_table) as [d|] eqn:E; [|reflexivity].
  apply assocN_in in E. pose proof letters_closed as L. rewrite forallb_forall in L. specialize (L _ E).
  cbn [fst] in L. destruct H as [H|H]; rewrite H in L; [discriminate L|].
  rewrite andb_false_r in L. discriminate L.
Qed.
Lemma letter_ccc c : letter c = true -> ccc c = 0.
Proof.
  intros H. apply letter_cases in H. destruct H as [H|[H|[_ H]]].
  - apply plain_ccc. unfold plain. lia.
  - unfold ccc. destruct (find _ ccc_table) as [[[a b] v]|] eqn:E; [|reflexivity].
    apply find_some in E. destruct E as [Hin E]. pose proof jamo_ccc as J. rewrite forallb_forall in J.
    specialize (J _ Hin). cbn in J, E. exfalso. lia.
  - pose proof kana_ccc as K. rewrite forallb_forall in K. apply N.eqb_eq, K, H.
Qed.
Lemma mark_ccc_pos c : mark c = true -> 0 < ccc c.
Proof.
  intros H. unfold mark in H. apply existsb_exists in H. destruct H as (d & Hd & E). apply N.eqb_eq in E. subst d.
  pose proof mark_ccc as K. rewrite forallb_forall in K. apply N.ltb_lt, K, Hd.
Qed.
Lemma letter_white c : letter c = true \/ mark c = true -> is_whitespace c = false.
Proof.
  intros H. unfold is_whitespace. destruct H as [H|H]; [apply letter_cases in H|apply mark_cases in H]; lia.
Qed.

(** ** Words *)
Lemma alternating_chars w c : alternating w = true -> In c w -> letter c = true \/ mark c = true.
Proof.
  induction w as [|d w IH]; intros H Hc; [destruct Hc|]. cbn [alternating] in H.
  apply andb_true_iff in H. destruct H as [H H2]. apply andb_true_iff in H. destruct H as [H1 _].
  destruct Hc as [<-|Hc]; [apply orb_true_iff, H1|apply IH; assumption].
Qed.
Lemma alternating_sorted w : alternating w = true -> Sorted in_order w.
Proof.
  induction w as [|c w IH]; intros H; [constructor|]. cbn [alternating] in H.
  apply andb_true_iff in H. destruct H as [H H2]. apply andb_true_iff in H. destruct H as [_ H1].
  constructor; [apply IH, H2|]. destruct w as [|d w]; constructor. unfold in_order.
  apply orb_true_iff in H1. destruct H1 as [H1|H1]; apply letter_ccc in H1; rewrite H1; [|reflexivity].
  destruct (ccc d); reflexivity.
Qed.

Section Words.
Variables (l : language_all) (w : str).
Hypothesis Hw : In w (words_all l).
Lemma word_is_ok : word_ok w = true.
Proof. pose proof (words_all_ok l) as H. rewrite forallb_forall in H. apply H, Hw. Qed.
Lemma all_alternating : alternating w = true.
Proof. pose proof word_is_ok as H. unfold word_ok in H. apply andb_true_iff in H. apply H. Qed.
Lemma all_nonempty : w <> [].
Proof. intros E. pose proof word_is_ok as H. rewrite E in H. discriminate H. Qed.
Lemma all_first c t : w = c :: t -> ccc c = 0.
Proof.
  intros E. pose proof word_is_ok as H. rewrite E in H. unfold word_ok in H. apply andb_true_iff in H.
  apply letter_ccc, H.
Qed.
Lemma all_chars c : In c w -> letter c = true \/ mark c = true.
Proof. apply alternating_chars, all_alternating. Qed.
Lemma all_no_white : no_white w = true.
Proof. apply forallb_forall. intros c Hc. rewrite (letter_white c (all_chars c Hc)). reflexivity. Qed.
Lemma all_no_space : no_space w = true.
Proof.
  apply forallb_forall. intros c Hc. destruct (N.eqb_spec 32 c) as [<-|]; [|reflexivity].
  pose proof (letter_white 32 (all_chars 32 Hc)) as H. discriminate H.
Qed.
Lemma all_nfkd : nfkd w = w.
Proof.
  unfold nfkd. rewrite flat_map_closed.
  - apply canonical_order_id, alternating_sorted, all_alternating.
  - apply Forall_forall. intros c Hc. apply letter_closed, all_chars, Hc.
Qed.
End Words.

Lemma words_all_nodup l : NoDup (words_all l).
Proof. apply (NoDup_map_inv word_number). eapply distinct_nodup, words_all_numbers. Qed.

(** ** Word numbers *)
Lemma is_word_all_nth l i w : is_word_all l i w <-> nth_error (words_all l) (N.to_nat i) = Some w.
Proof. unfold is_word_all. rewrite published_words. reflexivity. Qed.
Lemma is_word_all_lt l i w : is_word_all l i w -> i < 2048.
Proof.
  rewrite is_word_all_nth. intros H. assert (Hn : nth_error (words_all l) (N.to_nat i) <> None) by congruence.
  apply nth_error_Some in Hn. rewrite words_all_length in Hn. lia.
Qed.
Lemma is_word_all_in l i w : is_word_all l i w -> In w (words_all l).
Proof. rewrite is_word_all_nth. apply nth_error_In. Qed.
Lemma is_word_all_ex l i : i < 2048 -> exists w, is_word_all l i w.
Proof.
  intros H. destruct (nth_error (words_all l) (N.to_nat i)) as [w|] eqn:E.
  - exists w. apply is_word_all_nth, E.
  - apply nth_error_None in E. rewrite words_all_length in E. lia.
Qed.
Lemma in_is_word_all l w : In w (words_all l) -> exists i, is_word_all l i w.
Proof.
  intros H. apply In_nth_error in H. destruct H as (i & Hi). exists (N.of_nat i).
  apply is_word_all_nth. rewrite Nat2N.id. exact Hi.
Qed.
Lemma is_word_all_fun l i w v : is_word_all l i w -> is_word_all l i v -> w = v.
Proof. unfold is_word_all. congruence. Qed.
Lemma is_word_all_inj l i j w : is_word_all l i w -> is_word_all l j w -> i = j.
Proof.
  rewrite !is_word_all_nth. intros Hi Hj. apply N2Nat.inj.
  apply (proj1 (NoDup_nth_error (words_all l)) (words_all_nodup l)); [|congruence].
  apply nth_error_Some. congruence.
Qed.
Lemma map_get_all l w i : map_get (wordmap_all l) w = Some i <-> is_word_all l i w.
Proof.
  unfold wordmap_all, gen_wordmap. rewrite wordlist_all_words, fold_cons_rev, app_nil_r.
  assert (Hl : length (words_all l) = length (map (fun i => wrap 16 (N.of_nat i)) (seq 0 (length (words_all l))))).
  { rewrite map_length, seq_length. reflexivity. }
  rewrite map_get_in.
  - rewrite <- in_rev, combine_seq_in, is_word_all_nth. split.
    + intros (j & Hj & ->). assert (Hn : nth_error (words_all l) j <> None) by congruence.
      apply nth_error_Some in Hn. rewrite words_all_length in Hn. unfold wrap.
      rewrite N.mod_small; [rewrite Nat2N.id; exact Hj|]. change (2 ^ 16) with 65536. lia.
    + intros H. exists (N.to_nat i). split; [exact H|].
      assert (Hi : i < 2048) by (eapply is_word_all_lt, is_word_all_nth, H).
      rewrite N2Nat.id. unfold wrap. rewrite N.mod_small; [reflexivity|]. change (2 ^ 16) with 65536. lia.
  - rewrite map_rev, combine_fst by exact Hl. apply NoDup_rev, words_all_nodup.
Qed.
Lemma get_bits_all_ok l w i : get_bits (wordmap_all l) w = Ok i <-> is_word_all l i w.
Proof.
  unfold get_bits. rewrite <- map_get_all. destruct (map_get (wordmap_all l) w); split; congruence.
Qed.
Lemma get_bits_all_err l w : ~ In w (words_all l) -> get_bits (wordmap_all l) w = Err InvalidWord.
Proof.
  intros H. unfold get_bits. destruct (map_get (wordmap_all l) w) as [i|] eqn:E; [|reflexivity].
  destruct H. eapply is_word_all_in, map_get_all, E.
Qed.
Lemma get_bits_all_is_ok l w : is_ok (get_bits (wordmap_all l) w) = true <-> In w (words_all l).
Proof.
  destruct (in_dec str_eq_dec w (words_all l)) as [H|H].
  - destruct (in_is_word_all l w H) as (i & Hi). apply get_bits_all_ok in Hi. rewrite Hi. cbn. tauto.
  - rewrite get_bits_all_err by exact H. cbn. split; [discriminate|tauto].
Qed.
Lemma get_word_all_ok l i w : get_word (wordlist_all l) i = Ok w <-> is_word_all l i w.
Proof.
  unfold get_word, index. rewrite is_word_all_nth, wordlist_all_words.
  destruct (nth_error (words_all l) (N.to_nat i)); cbn; split; congruence.
Qed.
Lemma get_words_all_total l idx : Forall (fun i => i < 2048) idx -> exists ws, Forall2 (is_word_all l) idx ws.
Proof.
  induction 1 as [|i idx Hi _ (ws & IH)]; [exists []; constructor|].
  destruct (is_word_all_ex l i Hi) as (w & Hw). exists (w :: ws). constructor; assumption.
Qed.

(** ** Exchanging words of a language for English ones *)
Definition english (l : language_all) (w : str) : str :=
  match map_get (wordmap_all l) w with
  | Some i => nth (N.to_nat i) words_en []
  | None => []
  end.
Lemma english_word l i w : is_word_all l i w -> is_word English i (english l w).
Proof.
  intros H. unfold english. rewrite (proj2 (map_get_all l w i) H). apply is_word_nth. apply is_word_all_lt in H.
  apply nth_error_nth'. change words_en with (words English). rewrite words_length. lia.
Qed.
Lemma english_none l w : ~ In w (words_all l) -> english l w = [].
Proof.
  intros H. unfold english. destruct (map_get (wordmap_all l) w) as [i|] eqn:E; [|reflexivity].
  destruct H. eapply is_word_all_in, map_get_all, E.
Qed.
Lemma english_back l i w : is_word English i (english l w) -> is_word_all l i w.
Proof.
  intros H. destruct (in_dec str_eq_dec w (words_all l)) as [Hw|Hw].
  - destruct (in_is_word_all l w Hw) as (j & Hj). pose proof (english_word l j w Hj) as Hj'.
    rewrite (is_word_inj English i j _ H Hj'). exact Hj.
  - rewrite (english_none l w Hw) in H. apply is_word_in in H. destruct (empty_not_word English H).
Qed.
Lemma english_in l w : In (english l w) (words English) <-> In w (words_all l).
Proof.
  split; intros H.
  - apply in_is_word in H. destruct H as (i & Hi). eapply is_word_all_in, english_back, Hi.
  - apply in_is_word_all in H. destruct H as (i & Hi). eapply is_word_in, english_word, Hi.
Qed.
Lemma english_no_space l w : no_space (english l w) = true.
Proof.
  destruct (in_dec str_eq_dec w (words_all l)) as [Hw|Hw].
  - apply (words_no_space English), english_in, Hw.
  - rewrite english_none by exact Hw. reflexivity.
Qed.
Lemma get_bits_english l w : get_bits (wordmap_all l) w = get_bits (wordmap_of English) (english l w).
Proof.
  destruct (in_dec str_eq_dec w (words_all l)) as [Hw|Hw].
  - destruct (in_is_word_all l w Hw) as (i & Hi). rewrite (proj2 (get_bits_all_ok l w i) Hi). symmetry.
    apply get_bits_ok, english_word, Hi.
  - rewrite get_bits_all_err, get_bits_err; [reflexivity| |exact Hw]. rewrite english_in. exact Hw.
Qed.
Lemma push_words_english l ws : forall b,
  push_words (wordmap_all l) ws b = push_words (wordmap_of English) (map (english l) ws) b.
Proof.
  induction ws as [|w ws IH]; intros b; cbn [push_words map]; [reflexivity|].
  rewrite get_bits_english. destruct (get_bits (wordmap_of English) (english l w)) as [i|e|]; cbn [bind]; try reflexivity.
  destruct (bw_push b i) as [b'|e|]; cbn [bind]; try reflexivity. apply IH.
Qed.
Lemma english_split l ws : ws <> [] -> split_char 32 (spaced (map (english l) ws)) = map (english l) ws.
Proof.
  intros H. apply split_char_spaced; [destruct ws; [contradiction|discriminate]|].
  apply forallb_forall. intros v Hv. apply in_map_iff in Hv. destruct Hv as (w & <- & _). apply english_no_space.
Qed.
Lemma phrase_to_entropy_english phrase l :
  phrase_to_entropy_all phrase l = phrase_to_entropy (spaced (map (english l) (split_char 32 phrase))) English.
Proof.
  unfold phrase_to_entropy_all, phrase_to_entropy.
  rewrite english_split by apply split_pred_nonempty. rewrite push_words_english. reflexivity.
Qed.

Lemma encodes_english l ws b : encodes_all l ws b <-> encodes English (map (english l) ws) b.
Proof.
  unfold encodes_all, encodes. split; intros (idx & F & B & E); exists idx; (split; [|auto]); clear B E.
  - induction F; cbn [map]; constructor; auto. apply english_word. assumption.
  - revert ws F. induction idx as [|i idx IH]; intros [|w ws] F; inversion F; subst; constructor; auto.
    apply english_back. assumption.
Qed.
Lemma sentence_english l ws ent : sentence_all l ws ent <-> bip39_sentence English (map (english l) ws) ent.
Proof. unfold sentence_all, bip39_sentence. rewrite encodes_english. reflexivity. Qed.
Lemma faulty_english l ws e : spec_outcome English (map (english l) ws) (Err e) <-> faulty l ws e.
Proof.
  assert (Hall : (forall w, In w (map (english l) ws) -> In w (bip39_list English)) <-> (forall w, In w ws -> In w (published l))).
  { rewrite bip39_list_words, published_words. split; intros H w Hw.
    - apply english_in, H, in_map, Hw.
    - apply in_map_iff in Hw. destruct Hw as (v & <- & Hv). apply english_in, H, Hv. }
  split; intros H.
  - inversion H as [w Hw Hn E|Hi Hc E|ent cs Hok HL Hcs Henc Hne E|]; subst e.
    + apply in_map_iff in Hw. destruct Hw as (v & <- & Hv).
      apply faulty_word with v; [exact Hv|]. intros Hb. apply Hn.
      rewrite (bip39_list_words English). apply english_in. rewrite <- published_words. exact Hb.
    + replace (len (map (english l) ws)) with (len ws) by (unfold len; rewrite map_length; reflexivity).
      apply faulty_count; [exact (proj1 Hall Hi)|]. rewrite map_length in Hc. exact Hc.
    + exact (faulty_checksum l ws ent cs Hok HL Hcs (proj2 (encodes_english _ _ _) Henc) Hne).
  - destruct H as [w Hw Hn|Hi Hc|ent cs Hok HL Hcs Henc Hne].
    + apply (spec_bad_word English _ (english l w)); [apply in_map; exact Hw|].
      intros Hb. apply Hn. rewrite published_words. apply english_in. rewrite <- (bip39_list_words English). exact Hb.
    + replace (len ws) with (len (map (english l) ws)) by (unfold len; rewrite map_length; reflexivity).
      apply spec_bad_count; [exact (proj2 Hall Hi)|]. rewrite map_length. exact Hc.
    + exact (spec_bad_checksum English _ ent cs Hok HL Hcs (proj1 (encodes_english _ _ _) Henc) Hne).
Qed.

Lemma sentence_all_words l ws ent w : sentence_all l ws ent -> In w ws -> In w (words_all l).
Proof.
  intros H Hw. apply sentence_english in H. apply english_in. eapply sentence_words; [exact H|apply in_map, Hw].
Qed.
Lemma sentence_all_nonempty l ws ent : sentence_all l ws ent -> ws <> [].
Proof. intros H ->. apply sentence_english in H. exact (sentence_nonempty _ _ _ H eq_refl). Qed.
Lemma sentence_all_fun l ws e1 e2 : sentence_all l ws e1 -> sentence_all l ws e2 -> e1 = e2.
Proof.
  rewrite !sentence_english. intros H1 H2.
  assert (E : Ok (E:=error_kind) e1 = Ok e2) by (eapply spec_outcome_fun; apply spec_good; eassumption).
  injection E as E. exact E.
Qed.

Lemma forall2_word_fun l idx ws : Forall2 (is_word_all l) idx ws -> forall vs, Forall2 (is_word_all l) idx vs -> ws = vs.
Proof.
  induction 1 as [|i w idx ws Hi _ IH]; intros vs Hv; inversion Hv; subst; [reflexivity|].
  f_equal; [eapply is_word_all_fun; eassumption|auto].
Qed.
Lemma forall2_english l idx ws : Forall2 (is_word_all l) idx ws -> Forall2 (is_word English) idx (map (english l) ws).
Proof. induction 1; cbn [map]; constructor; auto. apply english_word. assumption. Qed.
Lemma english_inj l u v : In u (words_all l) -> english l u = english l v -> u = v.
Proof.
  intros Hu E. apply in_is_word_all in Hu. destruct Hu as (i & Hi). pose proof (english_word l i u Hi) as H.
  rewrite E in H. apply english_back in H. eapply is_word_all_fun; eassumption.
Qed.
Lemma sentence_all_unique l ws vs ent : sentence_all l ws ent -> sentence_all l vs ent -> ws = vs.
Proof.
  intros H1 H2.
  assert (E : map (english l) ws = map (english l) vs).
  { apply sentence_english in H1, H2. destruct H1 as (_ & _ & H1). destruct H2 as (_ & _ & H2).
    eapply encodes_words_fun; eassumption. }
  assert (Hin : forall w, In w ws -> In w (words_all l)) by (intros w Hw; exact (sentence_all_words l ws ent w H1 Hw)).
  clear H1 H2. revert vs E. induction ws as [|w ws IH]; intros [|v vs] E; try discriminate E; [reflexivity|].
  cbn [map] in E. pose proof (f_equal (hd []) E : english l w = english l v) as E1.
  pose proof (f_equal (@tl str) E : map (english l) ws = map (english l) vs) as E2.
  f_equal; [apply (english_inj l); [apply Hin; left; reflexivity|exact E1]|].
  apply IH; [intros u Hu; apply Hin; right; exact Hu|exact E2].
Qed.

(** ** Phrases *)
Lemma phrase_to_entropy_all_spec phrase l :
  match phrase_to_entropy_all phrase l with
  | Ok ent => sentence_all l (split_char 32 phrase) ent
  | Err e => faulty l (split_char 32 phrase) e
  | Panic => False
  end.
Proof.
  rewrite phrase_to_entropy_english.
  pose proof (phrase_to_entropy_spec (spaced (map (english l) (split_char 32 phrase))) English) as H.
  rewrite english_split in H by apply split_pred_nonempty.
  destruct (phrase_to_entropy _ English) as [ent|e|].
  - apply sentence_english. inversion H. assumption.
  - apply faulty_english, H.
  - inversion H.
Qed.
Lemma phrase_to_entropy_all_ok phrase l ent :
  phrase_to_entropy_all phrase l = Ok ent <-> sentence_all l (split_char 32 phrase) ent.
Proof.
  rewrite phrase_to_entropy_english, phrase_to_entropy_ok, sentence_english.
  rewrite english_split by apply split_pred_nonempty. reflexivity.
Qed.
Lemma faulty_not_sentence l ws e ent : faulty l ws e -> sentence_all l ws ent -> False.
Proof.
  intros H1 H2. apply faulty_english in H1. apply sentence_english in H2.
  assert (E : Err e = Ok (A:=bytes) ent); [|discriminate E].
  eapply spec_outcome_fun; [exact H1|apply spec_good, H2].
Qed.
Lemma phrase_to_entropy_all_bad phrase l v : In v (split_char 32 phrase) -> ~ In v (words_all l) ->
  phrase_to_entropy_all phrase l = Err InvalidWord.
Proof.
  intros Hv Hn. rewrite phrase_to_entropy_english. apply phrase_to_entropy_iff.
  rewrite english_split by apply split_pred_nonempty. apply faulty_english. apply faulty_word with v; [exact Hv|].
  rewrite published_words. exact Hn.
Qed.

(** ** Normalisation *)
Lemma canonical_head c s : 0 < ccc c -> exists d t, canonical_order (c :: s) = d :: t /\ 0 < ccc d.
Proof.
  intros H. unfold canonical_order. cbn [fold_right]. fold (canonical_order s).
  destruct (canonical_order s) as [|d t]; cbn [ccc_insert]; [exists c, []; auto|].
  destruct ((0 <? ccc d) && (ccc d <? ccc c)) eqn:E; [|exists c, (d :: t); auto].
  eexists d, _. split; [reflexivity|]. lia.
Qed.
Lemma flat_map_split {A B} (f : A -> list B) a x b : flat_map f (a ++ x :: b) = flat_map f a ++ f x ++ flat_map f b.
Proof. rewrite flat_map_app. reflexivity. Qed.
Lemma space_ccc : ccc 32 = 0.
Proof. apply plain_ccc. reflexivity. Qed.
(** A space that appears by normalisation stands beside a foreign character or before a character of
    non-zero class. *)
Lemma nfkd_space_all w : no_white w = true -> In 32 (nfkd w) ->
  (exists d, In d (nfkd w) /\ foreign d = true) \/ (exists a d b, nfkd w = a ++ 32 :: d :: b /\ 0 < ccc d).
Proof.
  intros Hw H. pose proof (nfkd_perm w) as P.
  assert (H' : In 32 (flat_map decompose_char w)) by (eapply Permutation.Permutation_in; eassumption).
  apply in_flat_map in H'. destruct H' as (k & Hk & Hd).
  unfold no_white in Hw. rewrite forallb_forall in Hw. specialize (Hw k Hk). apply negb_true_iff in Hw.
  unfold decompose_char in Hd. destruct (is_hangul k) eqn:Eh.
  { exfalso. unfold hangul_decomp in Hd. unfold is_hangul in Eh.
    destruct ((k - 0xAC00) mod 28 =? 0); cbn [In app] in Hd; lia. }
  destruct (assocN k decomp_table) as [d|] eqn:Ea.
  2:{ exfalso. destruct Hd as [Hd|[]]. rewrite Hd in Hw. discriminate Hw. }
  pose proof (assocN_in _ _ _ Ea) as Hin.
  assert (Edk : decompose_char k = d) by (unfold decompose_char; rewrite Eh, Ea; reflexivity).
  pose proof decomp_spaces as S. rewrite forallb_forall in S. specialize (S _ Hin). unfold space_entry_ok in S.
  assert (E32 : existsb (N.eqb 32) d = true) by (apply existsb_exists; exists 32; split; [exact Hd|reflexivity]).
  rewrite E32, Hw in S. cbn [negb orb] in S. apply orb_true_iff in S. destruct S as [S|S].
  - left. apply existsb_exists in S. destruct S as (f & Hf & Ef). exists f. split; [|exact Ef].
    eapply Permutation.Permutation_in; [symmetry; exact P|]. apply in_flat_map. exists k. rewrite Edk. auto.
  - right. assert (Ed : exists c t, d = 32 :: c :: t /\ 0 < ccc c).
    { destruct d as [|x d]; [discriminate S|]. destruct d as [|c t].
      - exfalso. revert S. destruct x as [|[[[[[[]|[]|]|[[]|[]|]|]|[[[]|[]|]|[[]|[]|]|]|]|[[[[]|[]|]|[[]|[]|]|]|[[[]|[]|]|[[]|[]|]|]|]|]|[[[[[]|[]|]|[[]|[]|]|]|[[[]|[]|]|[[]|[]|]|]|]|[[[[]|[]|]|[[]|[]|]|]|[[[]|[]|]|[[]|[]|]|]|]|]|]]; discriminate.
      - exists c, t. destruct (N.eqb_spec x 32) as [->|Nx].
        + split; [reflexivity|]. cbn [forallb] in S. apply andb_true_iff in S. apply N.ltb_lt, S.
        + exfalso. revert S Nx. clear. intros S Nx. apply Nx.
          destruct x as [|p]; [discriminate S|]. do 6 (destruct p as [p|p|]; try discriminate S). reflexivity. }
    destruct Ed as (c & t & -> & Hc). apply in_split in Hk. destruct Hk as (w1 & w2 & ->).
    unfold nfkd. rewrite flat_map_split, Edk.
    change (flat_map decompose_char w1 ++ (32 :: c :: t) ++ flat_map decompose_char w2)
      with (flat_map decompose_char w1 ++ 32 :: (c :: t ++ flat_map decompose_char w2)).
    rewrite canonical_order_stop by exact space_ccc.
    destruct (canonical_head c (t ++ flat_map decompose_char w2) Hc) as (x & u & E & Hx).
    rewrite E. eauto.
Qed.

(** Pieces of a text between spaces. *)
Lemma split_pred_mid p a c s : p c = true -> exists l, split_pred p (a ++ c :: s) = l ++ split_pred p s.
Proof.
  intros Hc. induction a as [|x a (l & IH)]; cbn [app split_pred].
  - rewrite Hc. exists [[]]. reflexivity.
  - rewrite IH. destruct (p x); [exists ([] :: l); reflexivity|].
    destruct l as [|y l]; cbn [app].
    + exfalso. clear -IH Hc. apply (f_equal (@length str)) in IH. cbn [app] in IH. revert IH.
      enough (length (split_pred p s) < length (split_pred p (a ++ c :: s)))%nat by lia.
      induction a as [|x a IH]; cbn [app split_pred].
      * rewrite Hc. cbn [length]. lia.
      * destruct (p x); cbn [length]; [lia|]. destruct (split_pred p (a ++ c :: s)); cbn [length] in *; lia.
    + exists ((x :: y) :: l). reflexivity.
Qed.
Lemma split_pred_head p c s : p c = false -> exists v l, split_pred p (c :: s) = (c :: v) :: l.
Proof.
  intros Hc. cbn [split_pred]. rewrite Hc. destruct (split_pred p s) as [|v l]; eauto.
Qed.
Lemma spaced_around ws w : In w ws -> exists a b, spaced ws = a ++ w ++ b.
Proof.
  induction ws as [|v ws IH]; intros H; [destruct H|]. destruct ws as [|u ws].
  - destruct H as [->|[]]. exists [], []. cbn [spaced app]. rewrite app_nil_r. reflexivity.
  - rewrite spaced_cons by discriminate. destruct H as [->|H].
    + exists [], (32 :: spaced (u :: ws)). reflexivity.
    + destruct (IH H) as (a & b & ->). exists (v ++ 32 :: a), b. rewrite <- app_assoc. reflexivity.
Qed.

Lemma norm_pieces_all l s :
  let ps := split_char 32 (spaced (norm_words s)) in
  (split_whitespace s <> [] /\ ps = norm_words s)
  \/ (split_whitespace s = [] /\ ps = [[]])
  \/ (exists v w, In v ps /\ ~ In v (words_all l) /\ In w (norm_words s) /\ ~ In w (words_all l)).
Proof.
  intros ps. unfold ps, norm_words. pose proof (split_whitespace_words s) as Hw. revert Hw.
  generalize (split_whitespace s) as ws. intros ws Hw.
  destruct ws as [|u us]; [right; left; auto|]. set (ws := u :: us) in *.
  destruct (existsb (fun w => negb (no_space (nfkd w))) ws) eqn:E.
  - right; right. apply existsb_exists in E. destruct E as (w & Hin & Hns). apply negb_true_iff in Hns.
    assert (H32 : In 32 (nfkd w)).
    { destruct (in_dec N.eq_dec 32 (nfkd w)) as [H|H]; [exact H|].
      exfalso. rewrite <- not_true_iff_false in Hns. apply Hns. apply forallb_forall.
      intros c Hc. destruct (N.eqb_spec 32 c) as [<-|]; [contradiction|reflexivity]. }
    rewrite Forall_forall in Hw. destruct (Hw w Hin) as [_ Hnw].
    assert (Hbad : exists v, In v (split_char 32 (spaced (map nfkd ws))) /\ ~ In v (words_all l)).
    { destruct (nfkd_space_all w Hnw H32) as [(d & Hd & Hf)|(a & d & b & Ed & Hc)].
      - unfold foreign in Hf. apply andb_true_iff in Hf. destruct Hf as [Hf Hm]. apply andb_true_iff in Hf.
        destruct Hf as [Hs Hl]. apply negb_true_iff in Hs, Hl, Hm.
        assert (Hsp : In d (spaced (map nfkd ws))) by (eapply in_spaced; [apply in_map, Hin|exact Hd]).
        destruct (split_pred_covers (N.eqb 32) (spaced (map nfkd ws)) d Hsp) as (v & Hv & Hdv); [lia|].
        exists v. split; [exact Hv|]. intros Hv'. destruct (all_chars l v Hv' d Hdv); congruence.
      - destruct (spaced_around (map nfkd ws) (nfkd w) (in_map nfkd ws w Hin)) as (x & y & Ex).
        rewrite Ex, Ed. replace (x ++ (a ++ 32 :: d :: b) ++ y) with ((x ++ a) ++ 32 :: d :: (b ++ y))
          by (rewrite <- !app_assoc; reflexivity).
        destruct (split_pred_mid (N.eqb 32) (x ++ a) 32 (d :: b ++ y) eq_refl) as (l1 & E1).
        destruct (split_pred_head (N.eqb 32) d (b ++ y)) as (v & l2 & E2).
        { destruct (N.eqb_spec 32 d) as [<-|]; [rewrite space_ccc in Hc; lia|reflexivity]. }
        exists (d :: v). unfold split_char. rewrite E1, E2. split; [apply in_or_app; right; left; reflexivity|].
        intros Hv. rewrite (all_first l (d :: v) Hv d v eq_refl) in Hc. lia. }
    destruct Hbad as (v & Hv & Hnv). exists v, (nfkd w). split; [exact Hv|]. split; [exact Hnv|].
    split; [apply in_map, Hin|]. intros Hv'. rewrite (all_no_space l _ Hv') in Hns. discriminate Hns.
  - left. split; [discriminate|]. apply split_char_spaced; [discriminate|].
    apply forallb_forall. intros v Hv. apply in_map_iff in Hv. destruct Hv as (w & <- & Hin).
    destruct (no_space (nfkd w)) eqn:En; [reflexivity|]. exfalso.
    rewrite <- not_true_iff_false in E. apply E. apply existsb_exists. exists w. rewrite En. auto.
Qed.

Lemma empty_not_word_all l : ~ In [] (words_all l).
Proof. intros H. exact (all_nonempty l [] H eq_refl). Qed.

Lemma from_phrase_all_outcome s l :
  match from_phrase_all s l with
  | Ok m => a_phrase m = spaced (norm_words s) /\ a_lang m = l /\ sentence_all l (norm_words s) (a_entropy m)
  | Err e => (norm_words s = [] /\ e = InvalidWord) \/ (norm_words s <> [] /\ faulty l (norm_words s) e)
  | Panic => False
  end.
Proof.
  unfold from_phrase_all. rewrite iter_join_spaced. fold (norm_words s).
  pose proof (phrase_to_entropy_all_spec (spaced (norm_words s)) l) as H.
  destruct (norm_pieces_all l s) as [[Hne Hp]|[[Hne Hp]|(v & w & Hv & Hnv & Hw & Hnw)]].
  - rewrite Hp in H. destruct (phrase_to_entropy_all (spaced (norm_words s)) l) as [ent|e|]; cbn [bind].
    + auto.
    + right. split; [|exact H]. unfold norm_words. destruct (split_whitespace s); [contradiction|discriminate].
    + exact H.
  - rewrite (phrase_to_entropy_all_bad _ l []); [|rewrite Hp; left; reflexivity|apply empty_not_word_all].
    cbn [bind]. left. unfold norm_words. rewrite Hne. auto.
  - rewrite (phrase_to_entropy_all_bad _ l v Hv Hnv). cbn [bind]. right. split.
    + intros E0. rewrite E0 in Hw. destruct Hw.
    + apply faulty_word with w; [exact Hw|]. rewrite published_words. exact Hnw.
Qed.
Lemma from_phrase_all_ok s l m : from_phrase_all s l = Ok m <->
  sentence_all l (norm_words s) (a_entropy m) /\ a_phrase m = spaced (norm_words s) /\ a_lang m = l.
Proof.
  pose proof (from_phrase_all_outcome s l) as H. split.
  - intros E. rewrite E in H. tauto.
  - intros (Hs & Hp & Hl). destruct (from_phrase_all s l) as [m'|e|].
    + destruct H as (Hp' & Hl' & Hs'). pose proof (sentence_all_fun _ _ _ _ Hs Hs') as E.
      destruct m as [p0 l0 e0], m' as [p' l' e']. cbn [a_phrase a_lang a_entropy] in *. congruence.
    + exfalso. destruct H as [[Hn _]|[_ H]].
      * exact (sentence_all_nonempty _ _ _ Hs Hn).
      * eapply faulty_not_sentence; eassumption.
    + destruct H.
Qed.
Lemma norm_words_sentence_all l ws : (forall w, In w ws -> In w (words_all l)) -> norm_words (spaced ws) = ws.
Proof.
  intros H. unfold norm_words. rewrite split_whitespace_spaced.
  - rewrite <- (map_id ws) at 2. apply map_ext_in. intros w Hw. eapply all_nfkd, H, Hw.
  - apply Forall_forall. intros w Hw. split; [eapply all_nonempty|eapply all_no_white]; apply H, Hw.
Qed.

(** ** From entropy *)
Lemma from_entropy_unchecked_all_spec ent l : bytes_ok ent -> legal_entropy ent ->
  exists ws, from_entropy_unchecked_all ent l = Ok (MnemonicAll (spaced ws) l ent) /\ sentence_all l ws ent.
Proof.
  intros Hok HL. destruct (from_entropy_unchecked_spec ent English Hok HL) as (ws & E & Hs).
  unfold from_entropy_unchecked in E. cbv zeta in E. unfold from_entropy_unchecked_all.
  apply bind_ok in E. destruct E as (h & Eh & E). rewrite Eh. cbn [bind].
  apply bind_ok in E. destruct E as (idx & Ei & E). rewrite Ei. cbn [bind].
  apply bind_ok in E. destruct E as (vs & Ev & E).
  apply traverse_ok_iff in Ev.
  assert (F : Forall2 (is_word English) idx vs).
  { clear -Ev. induction Ev; constructor; auto. apply get_word_ok. assumption. }
  assert (Evs : vs = ws).
  { assert (Esp : spaced vs = spaced ws).
    { assert (Em : iter_join (lit " ") vs = spaced ws) by congruence. rewrite iter_join_spaced in Em. exact Em. }
    assert (Hn : ws <> []) by (eapply sentence_nonempty, Hs).
    assert (Hi : forall w, In w ws -> In w (words English)) by (intros w Hw; eapply sentence_words; eassumption).
    assert (Hi' : forall w, In w vs -> In w (words English)) by (intros w Hw; eapply forall2_is_word_in; eassumption).
    rewrite <- (norm_words_sentence English vs Hi'), <- (norm_words_sentence English ws Hi), Esp. reflexivity. }
  subst vs. destruct (get_words_all_total l idx (forall2_is_word_lt _ _ _ F)) as (us & Hus).
  exists us. split.
  - rewrite (proj2 (traverse_ok_iff (get_word (wordlist_all l)) idx us)).
    + cbn [bind]. rewrite iter_join_spaced. reflexivity.
    + clear -Hus. induction Hus; constructor; auto. apply get_word_all_ok. assumption.
  - apply sentence_english. rewrite <- (forall2_is_word_fun _ _ _ _ F (forall2_english _ _ _ Hus)). exact Hs.
Qed.
Lemma from_entropy_all_key_size ent l : len ent < 2 ^ 61 ->
  (legal_entropy ent /\ from_entropy_all ent l = from_entropy_unchecked_all ent l)
  \/ (~ legal_entropy ent /\ from_entropy_all ent l = Err (InvalidKeysize (8 * len ent))).
Proof.
  intros Hlt. unfold from_entropy_all, mul_chk.
  assert (E : (len ent * 8 <? 2 ^ 64) = true).
  { apply N.ltb_lt. change (2 ^ 64) with (2 ^ 61 * 8). apply N.mul_lt_mono_pos_r; [reflexivity|exact Hlt]. }
  rewrite E. cbn [bind].
  destruct (in_dec Nat.eq_dec (length ent) [16; 20; 24; 28; 32]%nat) as [HL|HL].
  - left. split; [exact HL|]. apply legal_entropy_c in HL. destruct HL as (c & Hc & Hl).
    destruct (mt_of_c c Hc) as (t & Ht).
    rewrite (proj2 (for_key_size_ok (len ent * 8) t)) by (rewrite Ht; unfold len; lia). reflexivity.
  - right. split; [exact HL|]. rewrite for_key_size_err; [cbn [bind]; f_equal; f_equal; lia|].
    intros t Ht. apply HL. apply legal_entropy_c. exists (mt_c t). split; [apply mt_c_range|]. unfold len in Ht. lia.
Qed.
Lemma from_entropy_all_ok ent l m : bytes_ok ent ->
  (from_entropy_all ent l = Ok m <-> a_entropy m = ent /\ a_lang m = l /\ exists ws, a_phrase m = spaced ws /\ sentence_all l ws ent).
Proof.
  intros Hok. split.
  - intros H.
    assert (HL : legal_entropy ent /\ from_entropy_unchecked_all ent l = Ok m).
    { assert (Hlt : len ent < 2 ^ 61).
      { unfold from_entropy_all, mul_chk in H. destruct (N.ltb_spec (len ent * 8) (2 ^ 64)) as [Hl|Hl]; [|discriminate H].
        apply (N.mul_lt_mono_pos_r 8); [reflexivity|exact Hl]. }
      destruct (from_entropy_all_key_size ent l Hlt) as [[HL E]|[HL E]]; rewrite E in H; [auto|discriminate H]. }
    destruct HL as [HL Hu]. destruct (from_entropy_unchecked_all_spec ent l Hok HL) as (ws & E & Hs).
    rewrite E in Hu. assert (Em : m = MnemonicAll (spaced ws) l ent) by congruence. subst m.
    cbn [a_entropy a_lang a_phrase]. eauto.
  - intros (<- & <- & ws & Hp & Hs). assert (HL : legal_entropy (a_entropy m)) by apply Hs.
    destruct (from_entropy_all_key_size (a_entropy m) (a_lang m) (legal_entropy_len _ HL)) as [[_ E]|[Hn _]]; [|contradiction].
    rewrite E. destruct (from_entropy_unchecked_all_spec _ (a_lang m) Hok HL) as (vs & E' & Hs').
    rewrite E', (sentence_all_unique _ _ _ _ Hs' Hs). destruct m as [p0 l0 e0]. cbn [a_phrase a_lang a_entropy] in *. congruence.
Qed.
