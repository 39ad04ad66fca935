(** Proofs about the work on phrases of any length (restated in PropCost39.v). *)
From Coq Require Import String Permutation ZifyBool ZifyNat ZifyN.
From Verif Require Import Outcome Bytes Str Hash Nfkd NfkdData ModelBip39 SpecBip39 ModelLangs SpecLangs LangData NfkdLemmas StrLemmas BitLemmas.
From Verif Require Import WordLemmas Bip39Proofs LangProofs ModelCost ModelCost39.
Open Scope N_scope.

Lemma push_words_count_fst m ws : forall b, fst (push_words_count m ws b) = push_words m ws b.
Proof.
  induction ws as [|w ws IH]; intros b; cbn [push_words_count push_words]; [reflexivity|].
  destruct (get_bits m w) as [i|e|]; cbn [bind]; [|reflexivity..]. destruct (bw_push b i) as [b'|e|]; cbn [bind]; [|reflexivity..].
  rewrite <- IH. destruct (push_words_count m ws b'); reflexivity.
Qed.
Lemma phrase_count_fst s l : fst (phrase_to_entropy_count s l) = phrase_to_entropy_all s l.
Proof.
  unfold phrase_to_entropy_count, phrase_to_entropy_all. rewrite <- push_words_count_fst.
  destruct (push_words_count (wordmap_all l) (split_char 32 s) bw_new) as [[b|e|] n]; cbn [bind fst]; [|reflexivity..].
  cbv zeta. destruct (for_word_count (bw_len b / 11)) as [t|e|]; cbn [bind fst]; [|reflexivity..].
  destruct (bw_len b =? total_bits t); cbn [bind fst]; [|reflexivity]. destruct (bw_into_bytes b) as [ent|e|]; cbn [bind fst]; [|reflexivity..].
  destruct (index ent (entropy_bits t / 8)) as [x|e|]; cbn [bind fst]; [|reflexivity..].
  destruct (checksum x (checksum_bits t)) as [y|e|]; reflexivity.
Qed.
(** C159 *)
(** The counters change nothing. *)
Lemma c159_same_results : forall (s : str) (l : language_all),
  fst (phrase_to_entropy_count s l) = phrase_to_entropy_all s l /\ fst (from_phrase_count s l) = from_phrase_all s l.
Proof.
  intros s l. split; [apply phrase_count_fst|]. unfold from_phrase_count, from_phrase_all. rewrite <- phrase_count_fst.
  cbv zeta. destruct (phrase_to_entropy_count _ l) as [r w]. reflexivity.
Qed.
Lemma push_count_good l : forall ws bits b, Forall (fun w => In w (words_all l)) ws -> bw_holds b bits ->
  exists b' bits', push_words_count (wordmap_all l) ws b = (Ok b', len ws) /\ bw_holds b' bits' /\ len bits' = len bits + 11 * len ws.
Proof.
  induction ws as [|w ws IH]; intros bits b F H; cbn [push_words_count].
  - exists b, bits. split; [reflexivity|]. split; [exact H|]. unfold len. cbn [length]. lia.
  - inversion F as [|? ? Hw F']; subst. destruct (in_is_word_all l w Hw) as (i & Hi). rewrite (proj2 (get_bits_all_ok l w i) Hi). cbn [bind].
    destruct (bw_push_holds b bits i H (is_word_all_lt l i w Hi)) as (b1 & -> & H1). destruct (IH _ b1 F' H1) as (b' & bits' & -> & H2 & L).
    exists b', bits'. split; [unfold len; cbn [length]; f_equal; lia|]. split; [exact H2|]. rewrite L, len_app, len_bits_of. unfold len. cbn [length]. lia.
Qed.
Lemma push_count_bad l : forall good bad rest bits b, Forall (fun w => In w (words_all l)) good -> ~ In bad (words_all l) -> bw_holds b bits ->
  push_words_count (wordmap_all l) (good ++ bad :: rest) b = (Err InvalidWord, len good + 1).
Proof.
  induction good as [|w good IH]; intros bad rest bits b F N H; cbn [app push_words_count].
  - rewrite (get_bits_all_err l bad N). reflexivity.
  - inversion F as [|? ? Hw F']; subst. destruct (in_is_word_all l w Hw) as (i & Hi). rewrite (proj2 (get_bits_all_ok l w i) Hi). cbn [bind].
    destruct (bw_push_holds b bits i H (is_word_all_lt l i w Hi)) as (b1 & -> & H1). rewrite (IH bad rest _ b1 F' N H1). unfold len. cbn [length]. f_equal. lia.
Qed.
Lemma look_ups_of s l : look_ups (snd (phrase_to_entropy_count s l)) = snd (push_words_count (wordmap_all l) (split_char 32 s) bw_new).
Proof.
  unfold phrase_to_entropy_count. destruct (push_words_count (wordmap_all l) (split_char 32 s) bw_new) as [[b|e|] n]; [|reflexivity..].
  cbv zeta. match goal with |- context [match ?m with Ok _ => _ | Err _ => _ | Panic => _ end] => destruct m as [[[t a] ent]|e|]; reflexivity end.
Qed.
(** Exactly: every word is looked up, up to and including the first that is not in the list. *)
Lemma c159_all_words_looked_up : forall (s : str) (l : language_all), Forall (fun w => In w (published l)) (split_char 32 s) ->
  look_ups (snd (phrase_to_entropy_count s l)) = len (split_char 32 s).
Proof.
  intros s l F. rewrite published_words in F. rewrite look_ups_of. destruct (push_count_good l _ [] bw_new F bw_holds_new) as (b' & bits' & -> & _). reflexivity.
Qed.
Lemma c159_up_to_the_first_unknown : forall (s : str) (l : language_all) (good : list str) (bad : str) (rest : list str),
  split_char 32 s = good ++ bad :: rest -> Forall (fun w => In w (published l)) good -> ~ In bad (published l) ->
  look_ups (snd (phrase_to_entropy_count s l)) = len good + 1 /\ phrase_to_entropy_all s l = Err InvalidWord.
Proof.
  intros s l good bad rest E F N. rewrite published_words in F, N. rewrite look_ups_of, <- phrase_count_fst. unfold phrase_to_entropy_count.
  rewrite E, (push_count_bad l good bad rest [] bw_new F N bw_holds_new). split; reflexivity.
Qed.
Lemma for_word_count_big n : 24 < n -> for_word_count n = Err (InvalidWordLength n).
Proof.
  intros H. unfold for_word_count. destruct n as [|q]; [lia|].
  repeat (destruct q as [q|q|]; try (exfalso; lia); try reflexivity).
Qed.
Lemma inner_len b bits : bw_holds b bits -> len (bw_inner b) = len bits / 8.
Proof.
  intros H. pose proof (bw_len_holds b bits H) as L. destruct H as (r & _ & _ & _ & Ho & _). unfold bw_len in L. rewrite <- L.
  apply (N.div_unique _ _ _ (bw_offset b)); [exact Ho|lia].
Qed.
(** For every number above 24 there is a phrase of which so many words are looked up and kept before it is
    refused. *)
Lemma c159_long_phrases_read_in_full : forall (l : language_all) (n : N), 24 < n -> exists s : str,
  fst (from_phrase_count s l) = Err (InvalidWordLength n)
  /\ look_ups (snd (from_phrase_count s l)) = n /\ buffered (snd (from_phrase_count s l)) = 11 * n / 8.
Proof.
  intros l n Hn. destruct (is_word_all_ex l 0 ltac:(lia)) as (w & Hw). apply is_word_all_in in Hw.
  set (ws := repeat w (N.to_nat n)). exists (spaced ws).
  assert (A : forall v, In v ws -> In v (words_all l)) by (intros v Hv; apply repeat_spec in Hv; subst v; exact Hw).
  assert (Ne : ws <> []) by (unfold ws; destruct (N.to_nat n) eqn:E; [lia|discriminate]).
  assert (L : len ws = n) by (unfold ws, len; rewrite repeat_length; lia).
  assert (F : Forall (fun v => In v (words_all l)) ws) by (apply Forall_forall; exact A).
  assert (E : iter_join (lit " ") (map nfkd (split_whitespace (spaced ws))) = spaced ws).
  { pose proof (norm_words_sentence_all l ws A) as X. unfold norm_words in X. rewrite X. apply iter_join_spaced. }
  assert (S : split_char 32 (spaced ws) = ws).
  { apply split_char_spaced; [exact Ne|]. apply forallb_forall. intros v Hv. exact (all_no_space l v (A v Hv)). }
  unfold from_phrase_count. rewrite E. cbv zeta. unfold phrase_to_entropy_count. rewrite S.
  destruct (push_count_good l ws [] bw_new F bw_holds_new) as (b & bits & -> & Hb & Lb). rewrite L in *.
  assert (Lb' : len bits = n * 11) by (rewrite Lb; unfold len; cbn [length]; lia).
  rewrite (bw_len_holds b bits Hb), Lb', N.div_mul by lia. rewrite for_word_count_big by exact Hn. cbv zeta. cbn [bind fst snd look_ups buffered].
  split; [reflexivity|]. split; [reflexivity|]. rewrite (inner_len b bits Hb), Lb', N.mul_comm. reflexivity.
Qed.
(** The claim that reading stops after the 24 words a phrase can have is false. *)
Lemma c159_stops_after_24_words_refuted : ~ (forall (s : str) (l : language_all), look_ups (snd (from_phrase_count s l)) <= 24).
Proof.
  intros H. destruct (c159_long_phrases_read_in_full (Compiled English) 25 ltac:(lia)) as (s & _ & E & _).
  specialize (H s (Compiled English)). rewrite E in H. apply H. reflexivity.
Qed.
Lemma push_count_le m ws : forall b, snd (push_words_count m ws b) <= len ws.
Proof.
  induction ws as [|w ws IH]; intros b; cbn [push_words_count]; [apply N.le_0_l|]. unfold len in *. cbn [length].
  destruct (let* x := get_bits m w in bw_push b x) as [b'|e|]; cbn [snd]; [|lia..]. specialize (IH b'). destruct (push_words_count m ws b') as [r k]. cbn [snd] in *. lia.
Qed.
Lemma split_len p s : len (split_pred p s) <= len s + 1.
Proof.
  induction s as [|c s IH]; [apply N.le_refl|]. cbn [split_pred]. unfold len in *. destruct (p c); cbn [length]; [lia|].
  destruct (split_pred p s) as [|v r] eqn:E; cbn [length] in *; lia.
Qed.
Lemma entropy_bytes_le t : entropy_bits t / 8 <= 32.
Proof. destruct t; intros H; discriminate H. Qed.
(** What is true: the work is linear, and nothing is hashed but one block. *)
Lemma c159_linear_work : forall (s : str) (l : language_all),
  look_ups (snd (phrase_to_entropy_count s l)) <= len s + 1 /\ blocks (snd (phrase_to_entropy_count s l)) <= 1.
Proof.
  intros s l. split.
  - rewrite look_ups_of. pose proof (push_count_le (wordmap_all l) (split_char 32 s) bw_new) as A. pose proof (split_len (N.eqb 32) s) as B.
    unfold split_char in *. lia.
  - unfold phrase_to_entropy_count. destruct (push_words_count (wordmap_all l) (split_char 32 s) bw_new) as [[b|e|] n]; [|cbn; lia..].
    cbv zeta. destruct (for_word_count (bw_len b / 11)) as [t|e|]; cbn [bind]; [|cbn; lia..].
    destruct (bw_len b =? total_bits t); cbn [bind]; [|cbn; lia]. destruct (bw_into_bytes b) as [ent|e|]; cbn [bind]; [|cbn; lia..].
    destruct (index ent (entropy_bits t / 8)) as [x|e|]; cbn [bind]; [|cbn; lia..].
    destruct (checksum x (checksum_bits t)) as [y|e|]; cbn [bind snd blocks]; [|cbn; lia..].
    pose proof (entropy_bytes_le t) as B. unfold sha256_blocks. apply N.lt_succ_r, N.div_lt_upper_bound; [lia|].
    unfold len. rewrite firstn_length. lia.
Qed.
Lemma decomp_short : forallb (fun r => Nat.leb (length (snd r)) 18) decomp_table = true.
Proof. vm_compute. reflexivity. Qed.
Lemma decompose_short c : (length (decompose_char c) <= 18)%nat.
Proof.
  unfold decompose_char. destruct (is_hangul c).
  - unfold hangul_decomp. cbv zeta. rewrite app_length. cbn [length]. destruct (_ =? 0); cbn [length]; lia.
  - destruct (assocN c decomp_table) as [d|] eqn:E; [|cbn [length]; lia]. apply assocN_in in E.
    pose proof (proj1 (forallb_forall _ _) decomp_short _ E) as B. cbn [snd] in B. apply Nat.leb_le in B. exact B.
Qed.
(** Normalising makes a text at most eighteen times as long. *)
Lemma c159_normalised_length : forall s : str, len (nfkd s) <= 18 * len s.
Proof.
  intros s. unfold nfkd, len. rewrite (Permutation_length (canonical_order_perm _)).
  induction s as [|c s IH]; [apply N.le_refl|]. cbn [flat_map]. rewrite app_length. cbn [length]. pose proof (decompose_short c). lia.
Qed.
Example c159_example : len (nfkd [0xFDFA]) = 18
  /\ snd (from_phrase_count (lit "zoo zoo zoo") (Compiled English)) = mkReading 3 4 0
  /\ snd (from_phrase_count (lit "zoo zoo nought zoo") (Compiled English)) = mkReading 3 0 0.
Proof.
  split; [vm_compute; reflexivity|]. split; vm_compute; reflexivity.
Qed.
