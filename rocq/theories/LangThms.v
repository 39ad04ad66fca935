(** Proofs of C120 - C129: all eight languages. *)
From Coq Require Import String FMapPositive Sorted ZifyBool ZifyNat ZifyN.
From Verif Require Import Outcome Bytes Str Hash Nfkd NfkdData ModelBip39 SpecBip39 ModelBuffers ModelLangs SpecLangs WordData
  LangData LangData2 NfkdLemmas StrLemmas BitLemmas HashLemmas WordLemmas Bip39Proofs Bip39Thms More39Thms LangProofs.
Open Scope N_scope.

(** ** Constructible mnemonics *)
Lemma constructible_all_sentence m : constructible_all m <->
  exists ws, a_phrase m = spaced ws /\ sentence_all (a_lang m) ws (a_entropy m).
Proof.
  split.
  - intros [t l rng m' Hr H|ent l m' Hok H|s l m' H].
    + unfold mnemonic_new_all in H.
      assert (Hok : bytes_ok (gen_random_bytes rng (entropy_bits t / 8))).
      { unfold gen_random_bytes. apply Forall_forall. intros x Hx. apply in_map_iff in Hx. destruct Hx as (i & <- & _). apply Hr. }
      assert (HL : legal_entropy (gen_random_bytes rng (entropy_bits t / 8))).
      { unfold legal_entropy, gen_random_bytes. rewrite map_length, seq_length. destruct t; cbn; tauto. }
      destruct (from_entropy_unchecked_all_spec _ l Hok HL) as (ws & E & Hs). rewrite E in H.
      assert (Em : MnemonicAll (spaced ws) l (gen_random_bytes rng (entropy_bits t / 8)) = m') by congruence.
      subst m'. exists ws. cbn [a_phrase a_lang a_entropy]. auto.
    + apply from_entropy_all_ok in H; [|exact Hok]. destruct H as (He & Hl & ws & Hp & Hs). exists ws.
      rewrite He, Hl. auto.
    + apply from_phrase_all_ok in H. destruct H as (Hs & Hp & Hl). exists (norm_words s). rewrite Hl. auto.
  - intros (ws & Hp & Hs). apply (all_entropy (a_entropy m) (a_lang m)); [apply Hs|].
    apply from_entropy_all_ok; [apply Hs|]. eauto.
Qed.

(** ** C120 *)
Lemma c120_from_phrase : forall (s : str) (l : language_all),
  let ws := map nfkd (split_whitespace s) in
  match from_phrase_all s l with
  | Ok m => a_phrase m = spaced ws /\ a_lang m = l /\ sentence_all l ws (a_entropy m)
  | Err e => (ws = [] /\ e = InvalidWord) \/ (ws <> [] /\ faulty l ws e)
  | Panic => False
  end.
Proof.
  intros s l. apply from_phrase_all_outcome.
Qed.
Lemma c120_validate : forall (s : str) (l : language_all),
  match validate_all s l with
  | Ok _ => exists ent, sentence_all l (split_char 32 s) ent
  | Err e => faulty l (split_char 32 s) e
  | Panic => False
  end.
Proof.
  intros s l. pose proof (phrase_to_entropy_all_spec s l) as H. unfold validate_all.
  destruct (phrase_to_entropy_all s l) as [ent|e|]; cbn [bind]; [exists ent|..]; exact H.
Qed.
Lemma c120_from_entropy : forall (ent : bytes) (l : language_all), bytes_ok ent -> len ent < 2 ^ 61 ->
  (legal_entropy ent /\ exists ws, from_entropy_all ent l = Ok (MnemonicAll (spaced ws) l ent) /\ sentence_all l ws ent)
  \/ (~ legal_entropy ent /\ from_entropy_all ent l = Err (InvalidKeysize (8 * len ent))).
Proof.
  intros ent l Hok Hlt. destruct (from_entropy_all_key_size ent l Hlt) as [[HL E]|H]; [left|right; exact H].
  split; [exact HL|]. rewrite E. apply from_entropy_unchecked_all_spec; assumption.
Qed.
Lemma c120_generated : forall (t : mnemonic_type) (l : language_all) (rng : nat -> N), (forall i, rng i < 256) ->
  let ent := map rng (seq 0 (N.to_nat (entropy_bits t / 8))) in
  exists ws, mnemonic_new_all t l rng = Ok (MnemonicAll (spaced ws) l ent) /\ sentence_all l ws ent
    /\ len ws = word_count t.
Proof.
  intros t l rng Hr ent.
  assert (Hok : bytes_ok ent).
  { apply Forall_forall. intros x Hx. apply in_map_iff in Hx. destruct Hx as (i & <- & _). apply Hr. }
  assert (Hle : length ent = N.to_nat (entropy_bits t / 8)) by (unfold ent; rewrite map_length, seq_length; reflexivity).
  assert (HL : legal_entropy ent) by (unfold legal_entropy; rewrite Hle; destruct t; cbn; tauto).
  destruct (from_entropy_unchecked_all_spec ent l Hok HL) as (ws & E & Hs). exists ws.
  split; [exact E|]. split; [exact Hs|].
  apply sentence_english in Hs.
  destruct Hs as (_ & _ & Henc).
  assert (HC : length (checksum_of ent) = cs_bits ent).
  { unfold checksum_of. rewrite firstn_length, bits_of_bytes_length, sha256_length.
    unfold cs_bits. rewrite Hle. destruct t; reflexivity. }
  destruct (encodes_legal_count English _ ent (checksum_of ent) HL HC Henc) as [Hc _].
  unfold len. rewrite map_length in Hc. rewrite Hc. unfold ms_words, cs_bits. rewrite Hle. destruct t; reflexivity.
Qed.
Lemma c120_round_trip : forall m : mnemonic_all, constructible_all m ->
  from_phrase_all (a_phrase m) (a_lang m) = Ok m /\ validate_all (a_phrase m) (a_lang m) = Ok tt
  /\ from_entropy_all (a_entropy m) (a_lang m) = Ok m.
Proof.
  intros m H. apply constructible_all_sentence in H. destruct H as (ws & Hp & Hs).
  assert (Hin : forall w, In w ws -> In w (words_all (a_lang m))) by (intros w Hw; exact (sentence_all_words _ _ _ w Hs Hw)).
  split; [|split].
  - apply from_phrase_all_ok. rewrite Hp, (norm_words_sentence_all (a_lang m) ws Hin). auto.
  - unfold validate_all. rewrite (proj2 (phrase_to_entropy_all_ok (a_phrase m) (a_lang m) (a_entropy m))); [reflexivity|].
    rewrite Hp, split_char_spaced; [exact Hs|exact (sentence_all_nonempty _ _ _ Hs)|].
    apply forallb_forall. intros w Hw. exact (all_no_space _ w (Hin w Hw)).
  - apply from_entropy_all_ok; [apply Hs|]. eauto.
Qed.
(** For the two languages without a feature nothing else is computed. *)
Lemma c120_same_without_features :
  (forall s l, from_phrase_all s (Compiled l) = as_compiled (from_phrase s l))
  /\ (forall s l, validate_all s (Compiled l) = validate s l)
  /\ (forall ent l, from_entropy_all ent (Compiled l) = as_compiled (from_entropy ent l))
  /\ (forall t l rng, mnemonic_new_all t (Compiled l) rng = as_compiled (mnemonic_new t l rng)).
Proof.
  assert (U : forall ent l, from_entropy_unchecked_all ent (Compiled l) = as_compiled (from_entropy_unchecked ent l)).
  { intros ent l. unfold from_entropy_unchecked_all, from_entropy_unchecked, as_compiled. cbv zeta.
    change (wordlist_all (Compiled l)) with (wordlist l).
    destruct (sha256_first_byte ent) as [h|e|]; cbn [bind]; try reflexivity.
    destruct (bi_collect _ _) as [idx|e|]; cbn [bind]; try reflexivity.
    destruct (traverse _ idx) as [ws|e|]; cbn [bind]; reflexivity. }
  split; [|split; [|split]].
  - intros s l. unfold from_phrase_all, from_phrase, as_compiled.
    change (phrase_to_entropy_all ?p (Compiled l)) with (phrase_to_entropy p l).
    destruct (phrase_to_entropy _ l) as [ent|e|]; cbn [bind]; reflexivity.
  - intros s l. reflexivity.
  - intros ent l. unfold from_entropy_all, from_entropy.
    destruct (mul_chk 64 (len ent) 8) as [b|e|]; cbn [bind]; try reflexivity.
    destruct (for_key_size b) as [t|e|]; cbn [bind]; try reflexivity. apply U.
  - intros t l rng. apply U.
Qed.
Definition ex_fr_entropy : bytes := [0x1b;0x83;0x70;0x6e;0x0d;0xc1;0xb8;0x37;0x06;0xe0;0xdc;0x1b;0x83;0x70;0x6e;0x0d].
(** The word with its accents written as single characters, and normalised. *)
Definition ex_fr_word : str := [98; 0xE9; 110; 0xE9; 102; 105; 99; 101].
Definition ex_fr_normal : str := [98; 101; 0x301; 110; 101; 0x301; 102; 105; 99; 101].
Definition ex_fr : mnemonic_all := MnemonicAll (spaced (repeat ex_fr_normal 12)) French ex_fr_entropy.
Lemma ex_fr_ok : bytes_ok ex_fr_entropy.
Proof. repeat constructor. Qed.
Lemma ex_fr_built : from_entropy_all ex_fr_entropy French = Ok ex_fr.
Proof. unfold from_entropy_all, from_entropy_unchecked_all. rewrite wordlist_fr. vm_compute. reflexivity. Qed.
Lemma ex_fr_constructible : constructible_all ex_fr.
Proof. exact (all_entropy _ _ _ ex_fr_ok ex_fr_built). Qed.
Example c120_example : constructible_all ex_fr /\ from_phrase_all (spaced (repeat ex_fr_word 12)) French = Ok ex_fr.
Proof.
  split; [exact ex_fr_constructible|]. destruct (c120_round_trip ex_fr ex_fr_constructible) as (E & _ & _).
  rewrite <- E. unfold from_phrase_all.
  assert (N1 : norm_words (spaced (repeat ex_fr_word 12)) = repeat ex_fr_normal 12).
  { unfold norm_words. rewrite split_whitespace_spaced.
    - cbn [repeat map]. assert (W : nfkd ex_fr_word = ex_fr_normal) by (vm_compute; reflexivity). rewrite W. reflexivity.
    - apply Forall_forall. intros w Hw. apply repeat_spec in Hw. subst w. split; [discriminate|reflexivity]. }
  assert (N2 : norm_words (a_phrase ex_fr) = repeat ex_fr_normal 12).
  { apply (norm_words_sentence_all French). intros w Hw. apply repeat_spec in Hw. subst w.
    apply (is_word_all_in French 220). apply is_word_all_nth. reflexivity. }
  change (map nfkd (split_whitespace ?s)) with (norm_words s).
  change (a_lang ex_fr) with French. rewrite N1, N2. reflexivity.
Qed.

(** ** C121 *)
Lemma c121_word_lists : forall l : language_all,
  length (published l) = 2048%nat /\ NoDup (published l)
  /\ (forall w, In w (published l) -> w <> [] /\ nfkd w = w /\ Forall (fun c => is_whitespace c = false) w).
Proof.
  intros l. rewrite published_words. split; [apply words_all_length|]. split; [apply words_all_nodup|].
  intros w Hw. split; [eapply all_nonempty, Hw|]. split; [eapply all_nfkd, Hw|].
  apply Forall_forall. intros c Hc. eapply letter_white, all_chars; eassumption.
Qed.
Lemma c121_list_and_map : forall l : language_all,
  (forall i w, get_word (wordlist_all l) i = Ok w <-> nth_error (published l) (N.to_nat i) = Some w)
  /\ (forall i w, get_bits (wordmap_all l) w = Ok i <-> nth_error (published l) (N.to_nat i) = Some w)
  /\ (forall w, ~ In w (published l) -> get_bits (wordmap_all l) w = Err InvalidWord)
  /\ (forall i, 2048 <= i -> get_word (wordlist_all l) i = Panic).
Proof.
  intros l. split; [intros i w; apply get_word_all_ok|]. split; [intros i w; apply get_bits_all_ok|]. split.
  - intros w Hw. apply get_bits_all_err. rewrite <- published_words. exact Hw.
  - intros i Hi. unfold get_word, index. rewrite wordlist_all_words.
    rewrite (proj2 (nth_error_None (words_all l) (N.to_nat i))); [reflexivity|]. rewrite words_all_length. lia.
Qed.
(** The same entropy in two languages: the same word numbers, and conversely. *)
Lemma c121_translation : forall (l l' : language_all) (ent ent' : bytes) (ws ws' : list str),
  sentence_all l ws ent -> sentence_all l' ws' ent' ->
  (ent = ent' <-> exists idx, Forall2 (is_word_all l) idx ws /\ Forall2 (is_word_all l') idx ws').
Proof.
  intros l l' ent ent' ws ws' H H'. split.
  - intros <-. destruct H as (_ & _ & H). destruct H as (idx & F & B & E).
    exists idx. split; [exact F|]. apply sentence_english in H'. destruct H' as (_ & _ & H').
    assert (Ew : map (english l) ws = map (english l') ws').
    { eapply encodes_words_fun; [|exact H']. exists idx. split; [apply forall2_english, F|auto]. }
    apply forall2_english in F. rewrite Ew in F. clear -F.
    revert ws' F. induction idx as [|i idx IH]; intros [|w ws] F; inversion F; subst; constructor; auto.
    apply english_back. assumption.
  - intros (idx & F & F'). apply sentence_english in H, H'.
    apply forall2_english in F, F'. rewrite (forall2_is_word_fun _ _ _ _ F F') in H.
    assert (E : Ok (E:=error_kind) ent = Ok ent') by (eapply spec_outcome_fun; apply spec_good; eassumption).
    congruence.
Qed.
Example c121_example : sentence_all French (repeat ex_fr_normal 12) ex_fr_entropy
  /\ exists ws, sentence_all Korean ws ex_fr_entropy.
Proof.
  pose proof ex_fr_constructible as H. destruct (c120_round_trip ex_fr H) as (E & _ & _).
  apply from_phrase_all_ok in E. destruct E as (E & _ & _).
  assert (N2 : norm_words (a_phrase ex_fr) = repeat ex_fr_normal 12).
  { apply (norm_words_sentence_all French). intros w Hw. apply repeat_spec in Hw. subst w.
    apply (is_word_all_in French 220). apply is_word_all_nth. reflexivity. }
  rewrite N2 in E. split; [exact E|].
  destruct (from_entropy_unchecked_all_spec ex_fr_entropy Korean ex_fr_ok) as (ws & _ & Hs); [left; reflexivity|eauto].
Qed.

(** ** C122 *)
Lemma c122_language_codes : forall (s : str) (l : language_all),
  from_language_code_all s = Some l <-> same_up_to_case s (code_of l).
Proof.
  intros s l. rewrite <- (to_ascii_lowercase_spec s (code_of l)).
  2:{ apply Forall_forall. intros d Hd.
      assert (F : forallb (fun d => (d <? 65) || (90 <? d)) (code_of l) = true) by (destruct l as [[]| | | | | |]; reflexivity).
      rewrite forallb_forall in F. specialize (F d Hd). lia. }
  unfold from_language_code_all. generalize (to_ascii_lowercase s) as t. clear s. intros t. split.
  - intros H.
    assert (step : forall c k (r : option language_all), code_of k = c -> (r = Some l -> t = code_of l) ->
      (if str_eqb t c then Some k else r) = Some l -> t = code_of l).
    { intros c k r Hc Hr. destruct (str_eqb t c) eqn:E; [|exact Hr]. apply str_eqb_spec in E. intros Hk.
      assert (k = l) by congruence. subst k. rewrite Hc. exact E. }
    revert H. do 8 (apply step; [reflexivity|]). discriminate.
  - intros ->. destruct l as [[]| | | | | |]; reflexivity.
Qed.
Lemma c122_codes_differ : forall l l' : language_all, code_of l = code_of l' -> l = l'.
Proof.
  intros [[]| | | | | |] [[]| | | | | |] H; try reflexivity; discriminate H.
Qed.
Example c122_example : from_language_code_all (lit "zH-tw") = Some ChineseTraditional /\ from_language_code_all (lit "pt") = None.
Proof.
  split; reflexivity.
Qed.

(** ** C123 *)
Lemma c123_prefix_search : forall search, std_binary_search search -> forall (l : language_all) (p : str),
  l = Italian \/ l = Korean ->
  exists ws before after, get_words_by_prefix_with search (wordlist_all l) p = Ok ws
    /\ published l = before ++ ws ++ after
    /\ (forall w, In w ws <-> In w (published l) /\ exists t, w = p ++ t).
Proof.
  intros search Hstd l p Hl. rewrite (published_words l), (wordlist_all_words l).
  apply get_words_by_prefix_sorted; [exact Hstd|].
  destruct Hl as [-> | ->]; apply chain_lt_sorted; [exact words_it_sorted|exact words_ko_sorted].
Qed.
Example c123_example : get_words_by_prefix (wordlist_all Italian) (lit "zu") = Ok [lit "zucchero"; lit "zufolo"; lit "zulu"; lit "zuppa"].
Proof.
  rewrite wordlist_it. vm_compute. reflexivity.
Qed.

(** ** C124 *)
(** C124: false in each of the four languages. *)
Lemma c124_prefix_search_refuted : forall l : language_all, In l [ChineseTraditional; French; Japanese; Spanish] ->
  exists p : str, In p (published l) /\ get_words_by_prefix (wordlist_all l) p = Ok []
    /\ get_words_by_prefix_with binary_search_new (wordlist_all l) p = Ok [].
Proof.
  intros l H. rewrite (published_words l), (wordlist_all_words l). cbn [In] in H.
  destruct H as [<-|[<-|[<-|[<-|[]]]]]; cbn [words_all];
    [exists [0x7684]|exists [97; 109; 101; 769; 110; 97; 103; 101; 114]|exists [12354; 12388; 12363; 12358]
    |exists [97; 769; 98; 97; 99; 111]]; (split; [|split; vm_compute; reflexivity]);
    [apply (nth_error_In words_tw 0)|apply (nth_error_In words_fr 91)|apply (nth_error_In words_ja 21)|apply (nth_error_In words_es 0)]; reflexivity.
Qed.
(** What is returned is at least right in every language.  Missing: that all words with the prefix are
    returned. *)
Lemma c124_prefix_search_partial : forall (search : list str -> str -> R (N + N)) (l : language_all) (p : str) (ws : list str),
  get_words_by_prefix_with search (wordlist_all l) p = Ok ws ->
  exists before after, published l = before ++ ws ++ after /\ forall w, In w ws -> exists t, w = p ++ t.
Proof.
  intros search l p ws H. rewrite (published_words l). rewrite (wordlist_all_words l) in H.
  unfold get_words_by_prefix_with in H. apply bind_ok in H. destruct H as (r & _ & H).
  set (start := match r with inl i => i | inr i => i end) in H. cbv zeta in H.
  apply bind_ok in H. destruct H as (_ & _ & H).
  set (rest := skipn (N.to_nat start) (words_all l)) in H.
  destruct (take_while_prefix (fun w => starts_with w p) rest) as (post & H1 & H2 & H3).
  rewrite H2 in H. injection H as <-.
  exists (firstn (N.to_nat start) (words_all l)), post. split.
  - rewrite <- H1. symmetry. apply firstn_skipn.
  - intros w Hw. apply starts_with_spec, (take_while_all _ _ _ Hw).
Qed.
Example c124_example : get_words_by_prefix (wordlist_all Spanish) (lit "zur") = Ok [lit "zurdo"].
Proof.
  rewrite wordlist_es. vm_compute. reflexivity.
Qed.

(** ** C125 *)
Lemma language_from_phrase_all_first s w rest : split_whitespace s = w :: rest ->
  forall l, language_from_phrase_all s = Some l <->
    (l = Compiled English /\ In w (words English))
    \/ (l = Compiled ChineseSimplified /\ In w (words ChineseSimplified)).
Proof.
  intros E l. unfold language_from_phrase_all. rewrite E.
  destruct (is_ok (get_bits (wordmap_all (Compiled English)) w)) eqn:E1.
  - apply get_bits_all_is_ok in E1. change (words_all (Compiled English)) with (words English) in E1.
    pose proof (words_disjoint w) as D. split.
    + intros H. injection H as <-. auto.
    + intros [[-> _]|[_ H]]; [reflexivity|]. destruct (D E1 H).
  - assert (N1 : ~ In w (words English)).
    { intros H. apply (get_bits_all_is_ok (Compiled English)) in H. congruence. }
    destruct (is_ok (get_bits (wordmap_all (Compiled ChineseSimplified)) w)) eqn:E2.
    + apply get_bits_all_is_ok in E2. change (words_all (Compiled ChineseSimplified)) with (words ChineseSimplified) in E2. split.
      * intros H. injection H as <-. auto.
      * intros [[_ H]|[-> _]]; [contradiction|reflexivity].
    + assert (N2 : ~ In w (words ChineseSimplified)).
      { intros H. apply (get_bits_all_is_ok (Compiled ChineseSimplified)) in H. congruence. }
      split; [discriminate|intros [[_ H]|[_ H]]; contradiction].
Qed.
Lemma c125_what_is_detected : forall (s : str) (l : language_all),
  language_from_phrase_all s = Some l <->
  (l = Compiled English \/ l = Compiled ChineseSimplified)
  /\ exists w rest, laid_out s (w :: rest) /\ In w (published l).
Proof.
  intros s l. split.
  - intros H. destruct (split_whitespace s) as [|w rest] eqn:E.
    + unfold language_from_phrase_all in H. rewrite E in H. discriminate H.
    + apply (language_from_phrase_all_first s w rest E) in H.
      destruct H as [[-> H]|[-> H]]; (split; [tauto|]); exists w, rest; rewrite laid_out_iff, published_words; auto.
  - intros (Hl & w & rest & H & Hw). apply laid_out_iff in H. rewrite published_words in Hw.
    apply (language_from_phrase_all_first s w rest H). destruct Hl as [-> | ->]; auto.
Qed.
Lemma sentence_all_laid_out l ws ent : sentence_all l ws ent -> laid_out (spaced ws) ws.
Proof.
  intros H. apply laid_out_iff, split_whitespace_spaced. apply Forall_forall. intros w Hw.
  pose proof (sentence_all_words l ws ent w H Hw) as Hin. split; [eapply all_nonempty|eapply all_no_white]; exact Hin.
Qed.
(** Right for the languages without a feature.  Missing: the others. *)
Lemma c125_detection_partial : forall m : mnemonic_all, constructible_all m ->
  a_lang m = Compiled English \/ a_lang m = Compiled ChineseSimplified ->
  language_from_phrase_all (a_phrase m) = Some (a_lang m).
Proof.
  intros m H Hl. apply constructible_all_sentence in H. destruct H as (ws & Hp & Hs).
  apply c125_what_is_detected. split; [exact Hl|]. rewrite Hp.
  destruct ws as [|w rest]; [destruct (sentence_all_nonempty _ _ _ Hs eq_refl)|].
  exists w, rest. split; [eapply sentence_all_laid_out, Hs|]. rewrite published_words.
  eapply sentence_all_words; [exact Hs|left; reflexivity].
Qed.
(** C125: false.  No mnemonic of the other languages is ever given its language. *)
Lemma c125_never_detected : forall m : mnemonic_all, constructible_all m ->
  a_lang m <> Compiled English -> a_lang m <> Compiled ChineseSimplified ->
  language_from_phrase_all (a_phrase m) <> Some (a_lang m).
Proof.
  intros m _ H1 H2 H. apply c125_what_is_detected in H. destruct H as [[H|H] _]; contradiction.
Qed.
Lemma script_in l w : In w (words_all l) -> script w = script_of l.
Proof. intros H. pose proof (words_all_script l) as S. rewrite forallb_forall in S. apply N.eqb_eq, S, H. Qed.
Lemma nodup_app_disjoint {A} (a b : list A) x : NoDup (a ++ b) -> In x a -> In x b -> False.
Proof.
  induction a as [|y a IH]; intros H Ha Hb; [destruct Ha|]. cbn [app] in H. inversion H as [|? ? Hy H']; subst.
  destruct Ha as [->|Ha]; [|auto]. apply Hy, in_or_app. right. exact Hb.
Qed.
Lemma nodup_app_rest {A} (a b : list A) : NoDup (a ++ b) -> NoDup b.
Proof. induction a as [|x a IH]; intros H; [exact H|]. inversion H. auto. Qed.
Lemma numbers_nodup ws : distinct (PositiveMap.empty _) (map word_number ws) = true -> NoDup ws.
Proof. intros H. apply (NoDup_map_inv word_number). eapply distinct_nodup, H. Qed.
(** Only related languages have a word in common. *)
Lemma shared_related l l' w : In w (words_all l) -> In w (words_all l') -> related l l'.
Proof.
  intros H H'. pose proof (script_in l w H) as S. pose proof (script_in l' w H') as S'. rewrite S in S'. clear S.
  pose proof (numbers_nodup _ words_en_it_es) as D1. pose proof (numbers_nodup _ words_fr_it_es) as D2.
  assert (I : forall a b c : list str, NoDup (a ++ b ++ c) -> (In w a -> In w b -> False) /\ (In w a -> In w c -> False) /\ (In w b -> In w c -> False)).
  { clear. intros a b c D. split; [|split].
    - intros Ha Hb. apply (nodup_app_disjoint _ _ w D Ha), in_or_app. auto.
    - intros Ha Hc. apply (nodup_app_disjoint _ _ w D Ha), in_or_app. auto.
    - intros Hb Hc. apply nodup_app_rest in D. exact (nodup_app_disjoint _ _ w D Hb Hc). }
  pose proof (I _ _ _ D1) as I1. pose proof (I _ _ _ D2) as I2. clear D1 D2 I.
  destruct l as [[]| | | | | |], l' as [[]| | | | | |]; try discriminate S'; unfold related; clear S';
    change (words_all (Compiled English)) with words_en in *; change (words_all French) with words_fr in *;
    change (words_all Italian) with words_it in *; change (words_all Spanish) with words_es in *;
    revert I1 I2 H H'; generalize words_en, words_fr, words_it, words_es; intros; tauto.
Qed.
Lemma c125_detection_refuted : exists m : mnemonic_all, constructible_all m /\ a_lang m = French
  /\ language_from_phrase_all (a_phrase m) = None.
Proof.
  exists ex_fr. split; [exact ex_fr_constructible|]. split; [reflexivity|].
  destruct (language_from_phrase_all (a_phrase ex_fr)) as [l|] eqn:E; [|reflexivity]. exfalso.
  assert (W : split_whitespace (a_phrase ex_fr) = ex_fr_normal :: repeat ex_fr_normal 11).
  { apply (split_whitespace_spaced (repeat ex_fr_normal 12)). apply Forall_forall. intros w Hw.
    apply repeat_spec in Hw. subst w. split; [discriminate|reflexivity]. }
  apply (language_from_phrase_all_first _ _ _ W) in E.
  assert (K : is_ok (get_bits (wordmap_of English) ex_fr_normal) = false /\ is_ok (get_bits (wordmap_of ChineseSimplified) ex_fr_normal) = false).
  { split; (rewrite get_bits_err; [reflexivity|]); intros Hin.
    - pose proof (words_plain English ex_fr_normal Hin) as P. discriminate P.
    - pose proof (words_plain ChineseSimplified ex_fr_normal Hin) as P. discriminate P. }
  destruct K as [K1 K2]. destruct E as [[_ Hin]|[_ Hin]].
  - pose proof (words_plain English ex_fr_normal Hin) as P. discriminate P.
  - pose proof (words_plain ChineseSimplified ex_fr_normal Hin) as P. discriminate P.
Qed.
Example c125_example : laid_out (a_phrase ex_fr) (repeat ex_fr_normal 12).
Proof.
  exact (sentence_all_laid_out French _ _ (proj1 c121_example)).
Qed.

(** ** C126 *)
Lemma buf_push_moves b k : buf_moves b <= buf_moves (buf_push b k) /\ buf_len (buf_push b k) = buf_len b + k.
Proof.
  split; [|apply buf_push_len]. unfold buf_push, buf_reserve. cbn [buf_moves]. destruct (_ <? _); cbn [buf_moves]; lia.
Qed.
Definition join_fold (ws : list str) (b : buffer) : buffer :=
  fold_left (fun b w => buf_push (buf_push b 1) (len (utf8 w))) ws b.
Lemma join_fold_moves ws : forall b, buf_moves b <= buf_moves (join_fold ws b)
  /\ buf_len (join_fold ws b) = buf_len b + join_bytes ws.
Proof.
  induction ws as [|w ws IH]; intros b; [split; [reflexivity|cbn; lia]|].
  change (join_fold (w :: ws) b) with (join_fold ws (buf_push (buf_push b 1) (len (utf8 w)))).
  cbn [join_bytes fold_right]. fold (join_bytes ws).
  destruct (IH (buf_push (buf_push b 1) (len (utf8 w)))) as [IH1 IH2]. rewrite IH2.
  destruct (buf_push_moves b 1) as [A1 A2]. destruct (buf_push_moves (buf_push b 1) (len (utf8 w))) as [B1 B2].
  rewrite B2, A2. split; lia.
Qed.
Lemma buf_push_no_move b k : 0 < buf_len b -> buf_moves (buf_push b k) = 0 -> buf_len b <= buf_cap b ->
  buf_moves b = 0 /\ buf_cap (buf_push b k) = buf_cap b /\ buf_len b + k <= buf_cap b.
Proof.
  unfold buf_push, buf_reserve. cbn [buf_moves buf_cap]. intros Hn. destruct (N.ltb_spec (buf_cap b - buf_len b) k) as [H|H].
  - cbn [buf_moves buf_cap]. destruct (N.eqb_spec (buf_len b) 0); lia.
  - intros Hm Hc. lia.
Qed.
Lemma join_fold_no_move ws : forall b, 0 < buf_len b -> buf_len b <= buf_cap b -> buf_moves (join_fold ws b) = 0 ->
  buf_len b + join_bytes ws <= buf_cap b.
Proof.
  induction ws as [|w ws IH]; intros b Hn Hc H; [cbn; lia|].
  change (join_fold (w :: ws) b) with (join_fold ws (buf_push (buf_push b 1) (len (utf8 w)))) in H.
  cbn [join_bytes fold_right]. fold (join_bytes ws).
  destruct (join_fold_moves ws (buf_push (buf_push b 1) (len (utf8 w)))) as [M _].
  destruct (buf_push_moves b 1) as [A1 A2]. destruct (buf_push_moves (buf_push b 1) (len (utf8 w))) as [B1 B2].
  destruct (buf_push_no_move b 1) as (C1 & C2 & C3); [lia|lia|lia|].
  destruct (buf_push_no_move (buf_push b 1) (len (utf8 w))) as (D1 & D2 & D3); [lia|lia|lia|].
  assert (E : buf_len (buf_push (buf_push b 1) (len (utf8 w))) + join_bytes ws <= buf_cap (buf_push (buf_push b 1) (len (utf8 w)))).
  { apply IH; [lia|lia|exact H]. }
  lia.
Qed.
Lemma words_all_small l w : In w (words_all l) -> len (utf8 w) <= 88.
Proof.
  intros H. pose proof (words_all_short l) as S. rewrite forallb_forall in S. specialize (S w H).
  assert (G : forall v : str, len (utf8 v) <= 4 * len v); [|specialize (G w); lia]. clear.
  induction v as [|c v IH]; [cbn; lia|]. rewrite utf8_cons, len_app. change (c :: v) with ([c] ++ v). rewrite len_app.
  change (len [c]) with 1. pose proof (utf8_char_len c). lia.
Qed.
Lemma sentence_all_count l ws ent : sentence_all l ws ent -> length ws = ms_words ent.
Proof.
  intros H. apply sentence_english in H. destruct H as (Hok & HL & Henc).
  assert (HC : length (checksum_of ent) = cs_bits ent).
  { unfold checksum_of. rewrite firstn_length, bits_of_bytes_length, sha256_length.
    apply legal_entropy_c in HL. destruct HL as (c & Hc & Hl). rewrite (cs_bits_c ent c Hl). lia. }
  destruct (encodes_legal_count English _ ent (checksum_of ent) HL HC Henc) as [Hc _]. rewrite map_length in Hc. exact Hc.
Qed.
(** A witness by computation: the length of the phrase of one entropy. *)
Definition phrase_bytes (ws : list str) (ent : bytes) : N :=
  match (let* h := sha256_first_byte ent in let src := ent ++ [h] in
         let* idx := bi_collect (S (length src)) (bi_new src) in traverse (get_word ws) idx) with
  | Ok vs => len (utf8 (spaced vs))
  | _ => 0
  end.
Lemma moved_witness l ws ent n : wordlist_all l = ws -> bytes_ok ent -> legal_entropy ent ->
  phrase_bytes ws ent = n -> (reserved ent <? n) = true ->
  exists ent, bytes_ok ent /\ legal_entropy ent /\ forall us, sentence_all l us ent -> ~ len (utf8 (spaced us)) <= reserved ent.
Proof.
  intros <- Hok HL Hn Hr. exists ent. split; [exact Hok|]. split; [exact HL|]. intros us Hs Hle.
  destruct (from_entropy_unchecked_all_spec ent l Hok HL) as (vs & E & Hv).
  rewrite (sentence_all_unique _ _ _ _ Hs Hv) in Hle. apply N.ltb_lt in Hr.
  unfold phrase_bytes in Hn. unfold from_entropy_unchecked_all in E. cbv zeta in E, Hn.
  apply bind_ok in E. destruct E as (h & Eh & E). rewrite Eh in Hn. cbn [bind] in Hn.
  apply bind_ok in E. destruct E as (idx & Ei & E). rewrite Ei in Hn. cbn [bind] in Hn.
  apply bind_ok in E. destruct E as (xs & Ex & E). rewrite Ex in Hn.
  assert (Exs : iter_join (lit " ") xs = spaced vs) by congruence. rewrite iter_join_spaced in Exs.
  rewrite Exs in Hn. lia.
Qed.
Lemma c126_when_it_moves : forall (l : language_all) (ent : bytes) (m : mnemonic_all), bytes_ok ent -> from_entropy_all ent l = Ok m ->
  exists b, from_entropy_buffer_all ent l = Ok b /\ buf_len b = len (utf8 (a_phrase m))
    /\ (buf_moves b = 0 <-> len (utf8 (a_phrase m)) <= reserved ent).
Proof.
  intros l ent m Hok Hm.
  assert (HL : legal_entropy ent).
  { apply from_entropy_all_ok in Hm; [|exact Hok]. destruct Hm as (_ & _ & ws & _ & Hs). apply Hs. }
  destruct (from_entropy_unchecked_all_spec ent l Hok HL) as (ws & E & Hs).
  assert (Ep : a_phrase m = spaced ws).
  { apply from_entropy_all_ok in Hm; [|exact Hok]. destruct Hm as (_ & _ & us & -> & Hus).
    rewrite (sentence_all_unique _ _ _ _ Hus Hs). reflexivity. }
  rewrite Ep. clear Ep Hm m.
  unfold from_entropy_unchecked_all in E. apply bind_ok in E. destruct E as (h & Eh & E). cbv zeta in E.
  unfold from_entropy_buffer_all. rewrite Eh. cbn [bind]. set (src := ent ++ [h]) in *.
  assert (Hh : h < 256).
  { destruct (sha256_cons ent) as (h' & tl & Hsha & Hh'). unfold sha256_first_byte in Eh. rewrite Hsha in Eh.
    injection Eh as <-. exact Hh'. }
  assert (Hsrc : bytes_ok src).
  { apply bytes_ok_app. split; [exact Hok|]. constructor; [exact Hh|constructor]. }
  apply legal_entropy_c in HL. destruct HL as (c & Hc & Hl).
  assert (Hls : length src = (4 * c + 1)%nat) by (unfold src; rewrite app_length; cbn; lia).
  rewrite bi_collect_spec in E by exact Hsrc. cbn [bind] in E.
  destruct (bi_next_holds _ _ (bi_holds_new src Hsrc)) as [(Hx & _)|(g & b' & it & Eb & Hg & En & Hit)].
  { exfalso. unfold len in Hx. rewrite bits_of_bytes_length in Hx. lia. }
  rewrite En. cbn [bind]. rewrite Eb, groups_cons in E by exact Hg. cbn [map] in E.
  assert (Hlb : length b' = (32 * c - 3)%nat).
  { apply (f_equal (@length bool)) in Eb. rewrite bits_of_bytes_length, app_length in Eb. lia. }
  assert (Hread : bi_read it <= 7) by (eapply bi_next_read; [|exact En]; cbn; lia).
  assert (Hsrc' : len (bi_source it) = N.of_nat (4 * c - 1)).
  { destruct Hit as (r & Er & _ & Hr & _). apply (f_equal (@length bool)) in Er.
    rewrite app_length, bits_of_bytes_length in Er. unfold len in *. lia. }
  unfold bi_size_hint. rewrite Hsrc'. unfold mul_chk at 1.
  assert (E64 : (N.of_nat (4 * c - 1) * 8 <? 2 ^ 64) = true).
  { apply N.ltb_lt. apply (N.lt_trans _ 256); [lia|reflexivity]. }
  rewrite E64. cbn [bind fst].
  rewrite (bi_collect_holds _ it b' Hit) by lia. cbn [bind].
  destruct (traverse (get_word (wordlist_all l)) (val_of_bits g :: map val_of_bits (groups b'))) as [vs|e|] eqn:Et;
    try discriminate E.
  cbn [bind] in *. assert (Ev : iter_join (lit " ") vs = spaced ws) by congruence. clear E. rewrite iter_join_spaced in Ev.
  destruct vs as [|v vs].
  { exfalso. apply traverse_ok_iff in Et. inversion Et. }
  assert (Hv : In v (words_all l)).
  { apply traverse_ok_iff in Et. inversion Et as [|? ? ? ? Hv _]; subst. apply get_word_all_ok in Hv.
    eapply is_word_all_in, Hv. }
  cbn [join_words_buffer].
  unfold join_capacity, mul_chk. change (10 + len (utf8 (lit " "))) with 11. change (len (utf8 (lit " "))) with 1.
  set (k := N.of_nat (4 * c - 1) * 8 / 11).
  assert (Hk : k < 64 /\ k * 11 = reserved ent).
  { unfold k, reserved, len. rewrite Hl.
    assert (E5 : c = 4%nat \/ c = 5%nat \/ c = 6%nat \/ c = 7%nat \/ c = 8%nat) by lia.
    destruct E5 as [->|[->|[->|[->| ->]]]]; vm_compute; split; reflexivity. }
  assert (E11 : (k * 11 <? 2 ^ 64) = true).
  { apply N.ltb_lt. apply (N.lt_trans _ 1024); [lia|reflexivity]. }
  rewrite E11. cbn [bind]. destruct Hk as [_ ->].
  assert (Hb1 : 0 < len (utf8 v)).
  { pose proof (all_nonempty l v Hv) as Hne. destruct v as [|x v]; [contradiction|]. rewrite utf8_cons, len_app.
    pose proof (utf8_char_len x). lia. }
  assert (Hlen : len (utf8 (spaced ws)) = len (utf8 v) + join_bytes vs) by (rewrite <- Ev; apply utf8_spaced).
  rewrite Hlen. change (fold_left _ vs ?b) with (join_fold vs b).
  eexists. split; [reflexivity|].
  destruct (join_fold_moves vs (buf_push (buf_with_capacity (reserved ent)) (len (utf8 v)))) as [M1 M2].
  rewrite M2, buf_push_len. split; [cbn [buf_with_capacity buf_len]; lia|]. split.
  - intros Hm.
    assert (Hlarge : 88 <= reserved ent).
    { unfold reserved, len. rewrite Hl.
      assert (E5 : c = 4%nat \/ c = 5%nat \/ c = 6%nat \/ c = 7%nat \/ c = 8%nat) by lia.
      destruct E5 as [->|[->|[->|[->| ->]]]]; vm_compute; discriminate. }
    assert (Hsmall : len (utf8 v) <= 88) by (apply (words_all_small l), Hv).
    pose proof (join_fold_no_move vs (buf_push (buf_with_capacity (reserved ent)) (len (utf8 v)))) as J.
    unfold buf_with_capacity in *. rewrite buf_push_fits in * by lia. cbn [buf_len buf_cap] in J. lia.
  - intros Hf. unfold buf_with_capacity. rewrite buf_push_fits by lia.
    unfold join_fold. rewrite join_fold_fits by lia. reflexivity.
Qed.
(** The languages whose words are short enough. *)
Lemma c126_phrase_buffer_partial : forall (l : language_all) (ent : bytes),
  In l [Compiled English; Compiled ChineseSimplified; ChineseTraditional] -> bytes_ok ent -> legal_entropy ent ->
  exists b, from_entropy_buffer_all ent l = Ok b /\ buf_moves b = 0.
Proof.
  intros l ent Hl Hok HL. destruct (from_entropy_unchecked_all_spec ent l Hok HL) as (ws & _ & Hs).
  assert (Hm : from_entropy_all ent l = Ok (MnemonicAll (spaced ws) l ent)).
  { apply from_entropy_all_ok; [exact Hok|]. cbn [a_entropy a_lang a_phrase]. eauto. }
  destruct (c126_when_it_moves l ent _ Hok Hm) as (b & E & _ & Hb). exists b. split; [exact E|]. apply Hb. clear b E Hb.
  cbn [a_phrase].
  assert (Hw : forall w, In w ws -> len (utf8 w) <= 8).
  { intros w Hw. pose proof (sentence_all_words l ws ent w Hs Hw) as Hin. cbn [In] in Hl.
    destruct Hl as [<-|[<-|[<-|[]]]].
    - destruct (words_bytes English w Hin) as [_ Hb]. exact Hb.
    - destruct (words_bytes ChineseSimplified w Hin) as [_ Hb]. exact Hb.
    - pose proof words_tw_bytes as Hb. rewrite forallb_forall in Hb. specialize (Hb w Hin). lia. }
  assert (Hcount : length ws = ms_words ent) by (eapply sentence_all_count, Hs).
  apply legal_entropy_c in HL. destruct HL as (c & Hc & Hlc). rewrite (ms_words_c ent c Hlc) in Hcount.
  destruct ws as [|w ws]; [cbn [length] in Hcount; lia|]. rewrite utf8_spaced.
  assert (Hj : join_bytes ws <= 9 * len ws).
  { assert (Hw' : forall v, In v ws -> len (utf8 v) <= 8) by (intros v Hv; apply Hw; right; exact Hv). clear -Hw'.
    induction ws as [|v ws IH]; [cbn; lia|]. cbn [join_bytes fold_right]. fold (join_bytes ws).
    specialize (IH (fun u Hu => Hw' u (or_intror Hu))). pose proof (Hw' v (or_introl eq_refl)).
    change (v :: ws) with ([v] ++ ws). rewrite len_app. change (len [v]) with 1. lia. }
  pose proof (Hw w (or_introl eq_refl)). cbn [length] in Hcount.
  assert (Hres : 27 * N.of_nat c - 1 <= reserved ent).
  { unfold reserved, len. rewrite Hlc.
    assert (E5 : c = 4%nat \/ c = 5%nat \/ c = 6%nat \/ c = 7%nat \/ c = 8%nat) by lia.
    destruct E5 as [->|[->|[->|[->| ->]]]]; vm_compute; discriminate. }
  unfold len in *. lia.
Qed.
(** Korean words are so long that every phrase is moved. *)
Lemma c126_korean_always_moves : forall ent : bytes, bytes_ok ent -> legal_entropy ent ->
  exists b, from_entropy_buffer_all ent Korean = Ok b /\ 0 < buf_moves b.
Proof.
  intros ent Hok HL. destruct (from_entropy_unchecked_all_spec ent Korean Hok HL) as (ws & _ & Hs).
  assert (Hm : from_entropy_all ent Korean = Ok (MnemonicAll (spaced ws) Korean ent)).
  { apply from_entropy_all_ok; [exact Hok|]. cbn [a_entropy a_lang a_phrase]. eauto. }
  destruct (c126_when_it_moves Korean ent _ Hok Hm) as (b & E & _ & Hb). exists b. split; [exact E|].
  cut (buf_moves b <> 0); [lia|]. rewrite Hb. clear b E Hb. cbn [a_phrase].
  assert (Hw : forall w, In w ws -> 12 <= len (utf8 w)).
  { intros w Hw. pose proof (sentence_all_words Korean ws ent w Hs Hw) as Hin.
    pose proof words_ko_bytes as Hb. rewrite forallb_forall in Hb. apply N.leb_le, Hb, Hin. }
  assert (Hcount : length ws = ms_words ent) by (eapply sentence_all_count, Hs).
  apply legal_entropy_c in HL. destruct HL as (c & Hc & Hlc). rewrite (ms_words_c ent c Hlc) in Hcount.
  destruct ws as [|w ws]; [cbn [length] in Hcount; lia|]. rewrite utf8_spaced.
  assert (Hj : 13 * len ws <= join_bytes ws).
  { assert (Hw' : forall v, In v ws -> 12 <= len (utf8 v)) by (intros v Hv; apply Hw; right; exact Hv). clear -Hw'.
    induction ws as [|v ws IH]; [cbn; lia|]. cbn [join_bytes fold_right]. fold (join_bytes ws).
    specialize (IH (fun u Hu => Hw' u (or_intror Hu))). pose proof (Hw' v (or_introl eq_refl)).
    change (v :: ws) with ([v] ++ ws). rewrite len_app. change (len [v]) with 1. lia. }
  pose proof (Hw w (or_introl eq_refl)). cbn [length] in Hcount.
  assert (Hres : reserved ent < 39 * N.of_nat c - 1).
  { unfold reserved, len. rewrite Hlc.
    assert (E5 : c = 4%nat \/ c = 5%nat \/ c = 6%nat \/ c = 7%nat \/ c = 8%nat) by lia.
    destruct E5 as [->|[->|[->|[->| ->]]]]; vm_compute; reflexivity. }
  unfold len in *. lia.
Qed.
(** C126: false in each of the other languages. *)
Lemma c126_phrase_buffer_refuted : forall l : language_all, In l [French; Italian; Japanese; Korean; Spanish] ->
  exists (ent : bytes) (m : mnemonic_all) (b : buffer), bytes_ok ent /\ from_entropy_all ent l = Ok m
    /\ from_entropy_buffer_all ent l = Ok b /\ buf_moves b <> 0.
Proof.
  intros l H.
  assert (G : exists ent, bytes_ok ent /\ legal_entropy ent
    /\ forall ws, sentence_all l ws ent -> ~ len (utf8 (spaced ws)) <= reserved ent).
  { cbn [In] in H. destruct H as [<-|[<-|[<-|[<-|[<-|[]]]]]].
    - exists ex_fr_entropy. split; [exact ex_fr_ok|]. split; [left; reflexivity|]. intros ws Hs.
      rewrite (sentence_all_unique _ _ _ _ Hs (proj1 c121_example)). vm_compute. intros X. apply X. reflexivity.
    - eapply moved_witness with (ent := [0x31;0x86;0x30;0xc6;0x18;0xc3;0x18;0x63;0x0c;0x61;0x8c;0x31;0x86;0x30;0xc6;0x18]);
        [exact wordlist_it|repeat constructor|left; reflexivity|vm_compute; reflexivity|vm_compute; reflexivity].
    - eapply moved_witness with (ent := [0x84;0xf0;0x9e;0x13;0xc2;0x78;0x4f;0x09;0xe1;0x3c;0x27;0x84;0xf0;0x9e;0x13;0xc2]);
        [exact wordlist_ja|repeat constructor|left; reflexivity|vm_compute; reflexivity|vm_compute; reflexivity].
    - eapply moved_witness with (ent := ex_fr_entropy);
        [exact wordlist_ko|exact ex_fr_ok|left; reflexivity|vm_compute; reflexivity|vm_compute; reflexivity].
    - eapply moved_witness with (ent := [0xda;0x7b;0x4f;0x69;0xed;0x3d;0xa7;0xb4;0xf6;0x9e;0xd3;0xda;0x7b;0x4f;0x69;0xed]);
        [exact wordlist_es|repeat constructor|left; reflexivity|vm_compute; reflexivity|vm_compute; reflexivity]. }
  destruct G as (ent & Hok & HL & G). destruct (from_entropy_unchecked_all_spec ent l Hok HL) as (ws & _ & Hs).
  assert (Hm : from_entropy_all ent l = Ok (MnemonicAll (spaced ws) l ent)).
  { apply from_entropy_all_ok; [exact Hok|]. cbn [a_entropy a_lang a_phrase]. eauto. }
  destruct (c126_when_it_moves l ent _ Hok Hm) as (b & E & _ & Hb). exists ent, (MnemonicAll (spaced ws) l ent), b.
  split; [exact Hok|]. split; [exact Hm|]. split; [exact E|]. rewrite Hb. cbn [a_phrase]. apply G, Hs.
Qed.
Example c126_example : from_entropy_all ex_fr_entropy French = Ok ex_fr /\ len (utf8 (a_phrase ex_fr)) = 155 /\ reserved ex_fr_entropy = 110.
Proof.
  split; [exact ex_fr_built|]. split; vm_compute; reflexivity.
Qed.

(** ** C127 *)
Lemma spaced_normal l ws : (forall w, In w ws -> In w (words_all l)) -> nfkd (spaced ws) = spaced ws.
Proof.
  intros H.
  assert (G : Forall closed (spaced ws) /\ Sorted in_order (spaced ws)).
  { induction ws as [|w ws IH]; [split; constructor|].
    assert (Hw : In w (words_all l)) by (apply H; left; reflexivity).
    assert (Cw : Forall closed w).
    { apply Forall_forall. intros c Hc. apply letter_closed, (all_chars l w Hw c Hc). }
    pose proof (alternating_sorted w (all_alternating l w Hw)) as Sw.
    destruct ws as [|v ws]; [split; assumption|]. rewrite spaced_cons by discriminate.
    destruct (IH (fun u Hu => H u (or_intror Hu))) as [C S]. split.
    - apply Forall_app. split; [exact Cw|]. constructor; [|exact C]. apply plain_decompose. reflexivity.
    - assert (S1 : Sorted in_order (32 :: spaced (v :: ws))).
      { constructor; [exact S|]. destruct (spaced (v :: ws)) as [|d t]; constructor. unfold in_order.
        rewrite space_ccc. destruct (ccc d); reflexivity. }
      clear -Sw S1. induction w as [|c w IHw]; [exact S1|]. cbn [app]. inversion Sw as [|? ? Sw' Hd]; subst.
      constructor; [apply IHw, Sw'|]. destruct w as [|d w]; cbn [app]; constructor.
      + unfold in_order. rewrite space_ccc. reflexivity.
      + inversion Hd; assumption. }
  destruct G as [C S]. unfold nfkd. rewrite flat_map_closed by exact C. apply canonical_order_id, S.
Qed.
Lemma c127_seeds : forall (m : mnemonic_all) (password : str), constructible_all m -> a_lang m <> Compiled ChineseSimplified ->
  seed_new_all m password = Ok (bip39_seed (a_phrase m) password).
Proof.
  intros m pw Hc Hl. apply constructible_all_sentence in Hc. destruct Hc as (ws & Hp & Hs).
  assert (Hn : nfkd (a_phrase m) = a_phrase m).
  { rewrite Hp. apply (spaced_normal (a_lang m)). intros w Hw. exact (sentence_all_words _ _ _ w Hs Hw). }
  unfold seed_new_all, mnemonic_as_bytes_all.
  assert (E : is_chinese_simplified (a_lang m) = false).
  { destruct (a_lang m) as [[]| | | | | |]; try reflexivity. contradiction. }
  rewrite E. cbn [bind]. rewrite bip39_pbkdf2_eq. unfold bip39_seed. rewrite Hn. reflexivity.
Qed.
Example c127_example : constructible_all ex_fr /\ a_lang ex_fr <> Compiled ChineseSimplified.
Proof.
  split; [exact ex_fr_constructible|discriminate].
Qed.

(** ** C128 *)
Lemma strip_accents l w : In w (words_all l) -> without_accents w = strip w.
Proof.
  intros H. unfold without_accents, strip. apply filter_ext_in. intros c Hc.
  destruct (all_chars l w H c Hc) as [L|M].
  - rewrite (letter_ccc c L). destruct (mark c) eqn:E; [|reflexivity]. apply mark_ccc_pos in E.
    rewrite (letter_ccc c L) in E. lia.
  - rewrite M. apply mark_ccc_pos in M. cbn [negb]. lia.
Qed.
Lemma c128_four_letters_identify : forall (l : language_all) (w w' : str), l <> Korean ->
  In w (published l) -> In w' (published l) ->
  firstn 4 (without_accents w) = firstn 4 (without_accents w') -> w = w'.
Proof.
  intros l w w' Hl Hw Hw' E. rewrite (published_words l) in Hw, Hw'.
  rewrite (strip_accents l w Hw), (strip_accents l w' Hw') in E.
  assert (K : is_korean l = false) by (destruct l; try reflexivity; contradiction).
  pose proof (words_all_four l K) as D. apply distinct_nodup in D.
  apply (nodup_map_inj (fun w => word_number (firstn 4 (strip w))) (words_all l)); [exact (proj1 D)|exact Hw|exact Hw'|].
  exact (f_equal word_number E).
Qed.
(** Korean words are not told apart by four letters (jamo). *)
Lemma c128_korean_needs_more : exists w w' : str, In w (published Korean) /\ In w' (published Korean) /\ w <> w'
  /\ firstn 4 (without_accents w) = firstn 4 (without_accents w').
Proof.
  exists (nth 12 words_ko []), (nth 13 words_ko []). rewrite (published_words Korean).
  split; [apply (nth_In words_ko); change words_ko with (words_all Korean); rewrite words_all_length; lia|].
  split; [apply (nth_In words_ko); change words_ko with (words_all Korean); rewrite words_all_length; lia|].
  split; [intros E; vm_compute in E; discriminate E|vm_compute; reflexivity].
Qed.
Example c128_example : In ex_fr_normal (published French) /\ firstn 4 (without_accents ex_fr_normal) = lit "bene".
Proof.
  split; [|vm_compute; reflexivity]. rewrite (published_words French). apply (nth_error_In words_fr 220). reflexivity.
Qed.

(** ** C129 *)
(** Right for all other pairs.  Missing: English and French, the two Chinese lists. *)
Lemma c129_one_language_partial : forall (s : str) (l l' : language_all) (m m' : mnemonic_all),
  from_phrase_all s l = Ok m -> from_phrase_all s l' = Ok m' -> related l l'.
Proof.
  intros s l l' m m' H H'. apply from_phrase_all_ok in H, H'. destruct H as (H & _). destruct H' as (H' & _).
  pose proof (sentence_all_nonempty _ _ _ H) as Hn. destruct (norm_words s) as [|w ws]; [contradiction|].
  apply (shared_related l l' w); eapply sentence_all_words; try eassumption; left; reflexivity.
Qed.
Lemma zh_tw_same_number w i j : nth_error words_zh i = Some w -> nth_error words_tw j = Some w -> i = j.
Proof.
  intros Hi Hj. destruct (Nat.eq_dec i j) as [|Hne]; [assumption|]. exfalso.
  pose proof (numbers_nodup _ words_zh_tw_numbers) as D.
  assert (Hlj : (j < 2048)%nat).
  { rewrite <- (words_all_length ChineseTraditional). apply nth_error_Some. cbn [words_all]. congruence. }
  destruct (nth_error words_zh j) as [v|] eqn:Ev.
  2:{ apply nth_error_None in Ev. pose proof (words_all_length (Compiled ChineseSimplified)) as L. cbn [words_all words] in L. lia. }
  assert (Hvw : v <> w).
  { intros ->. apply Hne. apply (proj1 (NoDup_nth_error words_zh) (words_all_nodup (Compiled ChineseSimplified)));
      [apply nth_error_Some|]; congruence. }
  apply (nodup_app_disjoint _ _ w D); [eapply nth_error_In, Hi|].
  apply in_map_iff. exists (v, w). split; [reflexivity|]. apply filter_In. split.
  - apply (nth_error_In _ j). clear -Ev Hj. revert Ev Hj. generalize words_zh, words_tw. induction j as [|j IH]; intros [|a x] [|b y] Ha Hb;
      try discriminate; cbn in *; [congruence|]. apply IH; assumption.
  - cbn [fst snd]. apply negb_true_iff. destruct (str_eqb v w) eqn:E; [|reflexivity]. apply str_eqb_spec in E. contradiction.
Qed.
Lemma zh_tw_same_numbers idx ws : Forall2 (is_word_all (Compiled ChineseSimplified)) idx ws ->
  forall idx', Forall2 (is_word_all ChineseTraditional) idx' ws -> idx = idx'.
Proof.
  induction 1 as [|i w idx ws Hi _ IH]; intros idx' F'; inversion F' as [|j ? jdx ? Hj Hr]; subst; [reflexivity|].
  f_equal; [|apply IH; exact Hr]. apply N2Nat.inj.
  apply (is_word_all_nth (Compiled ChineseSimplified) i w) in Hi. apply (is_word_all_nth ChineseTraditional j w) in Hj.
  exact (zh_tw_same_number w _ _ Hi Hj).
Qed.
Lemma en_fr_other_number w i j : nth_error words_en i = Some w -> nth_error words_fr j = Some w -> i <> j.
Proof.
  intros Hi Hj <-. pose proof words_en_fr_numbers as D. rewrite forallb_forall in D.
  assert (Hin : In (w, w) (combine words_en words_fr)).
  { apply (nth_error_In _ i). clear -Hi Hj. revert Hi Hj. generalize words_en, words_fr. induction i as [|i IH]; intros [|a x] [|b y] Ha Hb;
      try discriminate; cbn in *; [congruence|]. apply IH; assumption. }
  specialize (D _ Hin). cbn [fst snd] in D. apply negb_true_iff in D.
  assert (T : str_eqb w w = true) by (apply str_eqb_spec; reflexivity). congruence.
Qed.
(** A phrase that is valid in both Chinese lists has the same entropy and text in both, but another password
    for PBKDF2. *)
Lemma c129_chinese : forall (s : str) (m m' : mnemonic_all),
  from_phrase_all s (Compiled ChineseSimplified) = Ok m -> from_phrase_all s ChineseTraditional = Ok m' ->
  a_entropy m = a_entropy m' /\ a_phrase m = a_phrase m'
  /\ mnemonic_as_bytes_all m' = Ok (utf8 (a_phrase m')) /\ mnemonic_as_bytes_all m <> mnemonic_as_bytes_all m'.
Proof.
  intros s m m' H H'. pose proof H as Hm. pose proof H' as Hm'.
  apply from_phrase_all_ok in H, H'. destruct H as (H & Hp & Hl). destruct H' as (H' & Hp' & Hl').
  split; [|split; [congruence|split; [unfold mnemonic_as_bytes_all; rewrite Hl'; reflexivity|]]].
  - apply (c121_translation (Compiled ChineseSimplified) ChineseTraditional _ _ (norm_words s) (norm_words s) H H').
    destruct H as (_ & _ & idx & F & _). destruct H' as (_ & _ & idx' & F' & _). exists idx. split; [exact F|].
    rewrite (zh_tw_same_numbers _ _ F _ F'). exact F'.
  - destruct c120_same_without_features as (Same & _). rewrite Same in Hm. unfold as_compiled in Hm.
    apply bind_ok in Hm. destruct Hm as (n0 & Hn & Hm). assert (Em : m = MnemonicAll (m_phrase n0) (Compiled (m_lang n0)) (m_entropy n0)) by congruence.
    subst m. cbn [a_phrase a_lang] in *. assert (Hln : m_lang n0 = ChineseSimplified) by congruence.
    assert (Hc : constructible n0) by exact (built_phrase s ChineseSimplified n0 Hn).
    destruct (constructible_as_bytes n0 Hc) as (g & Hg).
    pose proof (c23_kdf_password_differs n0 g Hc Hln Hg) as Hd.
    rewrite (nfkd_plain (m_phrase n0)) in Hd by (apply constructible_plain, Hc).
    assert (E1 : mnemonic_as_bytes_all (MnemonicAll (m_phrase n0) (Compiled (m_lang n0)) (m_entropy n0)) = Ok g).
    { unfold mnemonic_as_bytes_all. unfold mnemonic_as_bytes in Hg. rewrite Hln in *. exact Hg. }
    rewrite E1. unfold mnemonic_as_bytes_all. rewrite Hl'. cbn [is_chinese_simplified].
    intros E. apply Hd. rewrite Hp, <- Hp'. congruence.
Qed.
(** A phrase that is valid in English and in French stands for two different entropies. *)
Lemma c129_english_french : forall (s : str) (m m' : mnemonic_all),
  from_phrase_all s (Compiled English) = Ok m -> from_phrase_all s French = Ok m' -> a_entropy m <> a_entropy m'.
Proof.
  intros s m m' H H' E. apply from_phrase_all_ok in H, H'. destruct H as (H & _). destruct H' as (H' & _).
  pose proof (sentence_all_nonempty _ _ _ H) as Hn.
  apply (c121_translation (Compiled English) French _ _ (norm_words s) (norm_words s) H H') in E.
  destruct E as (idx & F & F'). destruct (norm_words s) as [|w ws]; [contradiction|].
  inversion F as [|i ? ? ? Hi _]; subst. inversion F' as [|j ? ? ? Hj _]; subst.
  apply (is_word_all_nth (Compiled English) i w) in Hi. apply (is_word_all_nth French i w) in Hj. exact (en_fr_other_number w _ _ Hi Hj eq_refl).
Qed.
Definition ex_twice : str := spaced (repeat (lit "amateur") 11 ++ [lit "angle"]).
Definition ex_twice_en : bytes := [0x07;0xa0;0xf4;0x1e;0x83;0xd0;0x7a;0x0f;0x41;0xe8;0x3d;0x07;0xa0;0xf4;0x1e;0x84].
Definition ex_twice_fr : bytes := [0x0b;0x01;0x60;0x2c;0x05;0x80;0xb0;0x16;0x02;0xc0;0x58;0x0b;0x01;0x60;0x2c;0x06].
Definition ex_chinese : str := spaced (repeat [0x4E00] 11 ++ [[0x4E43]]).
Definition ex_chinese_entropy : bytes := [0x00;0x20;0x04;0x00;0x80;0x10;0x02;0x00;0x40;0x08;0x01;0x00;0x20;0x04;0x00;0xe3].
(** C129: false. *)
Lemma c129_one_language_refuted :
  (from_phrase_all ex_twice (Compiled English) = Ok (MnemonicAll ex_twice (Compiled English) ex_twice_en)
   /\ from_phrase_all ex_twice French = Ok (MnemonicAll ex_twice French ex_twice_fr))
  /\ (from_phrase_all ex_chinese (Compiled ChineseSimplified) = Ok (MnemonicAll ex_chinese (Compiled ChineseSimplified) ex_chinese_entropy)
      /\ from_phrase_all ex_chinese ChineseTraditional = Ok (MnemonicAll ex_chinese ChineseTraditional ex_chinese_entropy)).
Proof.
  assert (G : forall s l ent, bytes_ok ent -> from_entropy_all ent l = Ok (MnemonicAll s l ent) ->
    from_phrase_all s l = Ok (MnemonicAll s l ent)).
  { intros s l ent Hok H. exact (proj1 (c120_round_trip _ (all_entropy ent l _ Hok H))). }
  split; split; (apply G; [repeat constructor|unfold from_entropy_all, from_entropy_unchecked_all]).
  - change (wordlist_all (Compiled English)) with (wordlist English). rewrite (wordlist_words English). vm_compute. reflexivity.
  - rewrite wordlist_fr. vm_compute. reflexivity.
  - change (wordlist_all (Compiled ChineseSimplified)) with (wordlist ChineseSimplified).
    rewrite (wordlist_words ChineseSimplified). vm_compute. reflexivity.
  - rewrite wordlist_tw. vm_compute. reflexivity.
Qed.
