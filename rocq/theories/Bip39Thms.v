(** Proofs of the BIP39 properties (restated in PropBip39.v). *)
From Coq Require Import String Sorted ZifyBool ZifyNat ZifyN.
From Verif Require Import Outcome Bytes Str Hash Nfkd ModelBip39 SpecBip39 WordData NfkdLemmas StrLemmas
  BitLemmas HashLemmas WordLemmas Bip39Proofs Gb18030Data.
Open Scope N_scope.

(** ** Constructible mnemonics are sentences *)
Lemma gen_random_bytes_ok rng n : (forall i, rng i < 256) -> bytes_ok (gen_random_bytes rng n).
Proof. intros H. unfold gen_random_bytes. apply Forall_forall. intros b Hb. apply in_map_iff in Hb. destruct Hb as (i & <- & _). apply H. Qed.
Lemma gen_random_bytes_length rng n : length (gen_random_bytes rng n) = N.to_nat n.
Proof. unfold gen_random_bytes. rewrite map_length, seq_length. reflexivity. Qed.
Lemma new_entropy_legal t rng : legal_entropy (gen_random_bytes rng (entropy_bits t / 8)).
Proof.
  apply legal_entropy_c. exists (mt_c t). split; [apply mt_c_range|].
  rewrite gen_random_bytes_length, mt_entropy_bits.
  replace (N.of_nat (32 * mt_c t) / 8) with (N.of_nat (4 * mt_c t)) by (apply N.div_unique with 0; lia). lia.
Qed.

Lemma constructible_sentence m : constructible m <->
  exists ws, m_phrase m = spaced ws /\ bip39_sentence (m_lang m) ws (m_entropy m).
Proof.
  split.
  - intros [t l rng m' Hr H|ent l m' Hok H|s l m' H].
    + unfold mnemonic_new in H.
      destruct (from_entropy_unchecked_spec (gen_random_bytes rng (entropy_bits t / 8)) l) as (ws & E & Hs);
        [apply gen_random_bytes_ok, Hr|apply new_entropy_legal|].
      rewrite E in H. injection H as <-. cbn. eauto.
    + apply from_entropy_ok in H; [|exact Hok]. destruct H as (<- & <- & ws & Hp & Hs). eauto.
    + apply from_phrase_ok in H. destruct H as (Hs & Hp & <-). eauto.
  - intros (ws & Hp & Hs). apply (built_phrase (spaced ws) (m_lang m)). apply from_phrase_ok.
    rewrite (norm_words_sentence (m_lang m)) by (intros w Hw; eapply sentence_words; eassumption). auto.
Qed.

Lemma sentence_from_phrase l ws ent : bip39_sentence l ws ent ->
  from_phrase (spaced ws) l = Ok (Mnemonic (spaced ws) l ent).
Proof.
  intros H. apply from_phrase_ok. cbn.
  rewrite (norm_words_sentence l) by (intros w Hw; eapply sentence_words; eassumption). auto.
Qed.

Lemma sentence_exists l ent : bytes_ok ent -> legal_entropy ent -> exists ws, bip39_sentence l ws ent.
Proof. intros H1 H2. destruct (from_entropy_unchecked_spec ent l H1 H2) as (ws & _ & Hs). eauto. Qed.

Lemma sentence_split l ws ent : bip39_sentence l ws ent -> split_char 32 (spaced ws) = ws.
Proof.
  intros H. apply (split_char_sentence l); [eapply sentence_nonempty, H|].
  intros w Hw. eapply sentence_words; eassumption.
Qed.

(** Concrete data for the examples: a non-trivial entropy and its English phrase (from the tests of the
    repository, src/bip39/mnemonic.rs:84 and the doc comments). *)
Definition ex_entropy : bytes :=
  [0x33; 0xE4; 0x6B; 0xB1; 0x3A; 0x74; 0x6E; 0xA4; 0x1C; 0xDD; 0xE4; 0x5C; 0x90; 0x84; 0x6A; 0x79].
Definition ex_phrase : str := lit "crop cash unable insane eight faith inflict route frame loud box vibrant".
Definition ex_mnemonic : mnemonic := Mnemonic ex_phrase English ex_entropy.
Lemma ex_entropy_ok : bytes_ok ex_entropy.
Proof. unfold bytes_ok, byte_ok, ex_entropy. repeat constructor. Qed.
Lemma ex_from_entropy : from_entropy ex_entropy English = Ok ex_mnemonic.
Proof. vm_compute. reflexivity. Qed.

(** C01 *)
Lemma c01_entropy_phrase_entropy : forall (lang : language) (ent : bytes) (m : mnemonic),
  bytes_ok ent -> from_entropy ent lang = Ok m ->
  from_phrase (m_phrase m) lang = Ok m /\ m_entropy m = ent /\ m_lang m = lang.
Proof.
  intros lang ent m Hok H. apply from_entropy_ok in H; [|exact Hok]. destruct H as (He & Hl & ws & Hp & Hs).
  split; [|auto]. rewrite Hp, (sentence_from_phrase _ _ _ Hs). destruct m; cbn in *. congruence.
Qed.
Example c01_example : bytes_ok ex_entropy /\ from_entropy ex_entropy English = Ok ex_mnemonic.
Proof.
  split; [exact ex_entropy_ok|exact ex_from_entropy].
Qed.

(** C02 *)
Lemma c02_phrase_entropy_phrase : forall (lang : language) (s : str) (m : mnemonic),
  from_phrase s lang = Ok m ->
  from_entropy (m_entropy m) lang = Ok m
  /\ (forall s' m', from_phrase s' lang = Ok m' -> m_entropy m' = m_entropy m -> m_phrase m' = m_phrase m).
Proof.
  assert (H0 : forall lang s m, from_phrase s lang = Ok m -> from_entropy (m_entropy m) lang = Ok m).
  { intros lang s m H. apply from_phrase_ok in H. destruct H as (Hs & Hp & Hl).
    apply from_entropy_ok; [apply Hs|]. split; [reflexivity|]. split; [exact Hl|]. eauto. }
  intros lang s m H. split; [eapply H0, H|]. intros s' m' H' E. apply H0 in H, H'. congruence.
Qed.
Lemma ex_from_phrase : from_phrase ex_phrase English = Ok ex_mnemonic.
Proof.
  change ex_phrase with (m_phrase ex_mnemonic).
  apply (c01_entropy_phrase_entropy English ex_entropy ex_mnemonic ex_entropy_ok ex_from_entropy).
Qed.
Example c02_example : from_phrase ex_phrase English = Ok ex_mnemonic.
Proof.
  exact ex_from_phrase.
Qed.

(** C03 *)
Lemma c03_from_entropy_sizes : forall (ent : bytes) (lang : language),
  bytes_ok ent -> len ent < 2 ^ 61 ->
  (In (length ent) [16; 20; 24; 28; 32]%nat -> exists m, from_entropy ent lang = Ok m /\ m_entropy m = ent)
  /\ (~ In (length ent) [16; 20; 24; 28; 32]%nat -> from_entropy ent lang = Err (InvalidKeysize (8 * len ent))).
Proof.
  intros ent lang Hok Hlt. destruct (from_entropy_key_size ent lang Hlt) as [[HL E]|[HL E]].
  - split; [|contradiction]. intros _. destruct (from_entropy_unchecked_spec ent lang Hok HL) as (ws & E' & _).
    rewrite E, E'. eexists; split; reflexivity.
  - split; [contradiction|]. intros _. exact E.
Qed.
Example c03_example : (bytes_ok ex_entropy /\ len ex_entropy < 2 ^ 61 /\ In (length ex_entropy) [16; 20; 24; 28; 32]%nat)
  /\ from_entropy (1 :: ex_entropy) English = Err (InvalidKeysize 136).
Proof.
  split; [split; [exact ex_entropy_ok|split; [reflexivity|left; reflexivity]]|reflexivity].
Qed.

(** C04 *)
Lemma c04_from_phrase_accepts_sentences : forall (s : str) (lang : language) (m : mnemonic),
  from_phrase s lang = Ok m <->
  bip39_sentence lang (map nfkd (split_whitespace s)) (m_entropy m)
  /\ m_phrase m = spaced (map nfkd (split_whitespace s)) /\ m_lang m = lang.
Proof.
  exact from_phrase_ok.
Qed.
Lemma from_phrase_sentence s l m : from_phrase s l = Ok m -> bip39_sentence l (map nfkd (split_whitespace s)) (m_entropy m).
Proof. intros H. apply c04_from_phrase_accepts_sentences in H. apply H. Qed.
Example c04_example : bip39_sentence English (map nfkd (split_whitespace ex_phrase)) (m_entropy ex_mnemonic).
Proof.
  exact (from_phrase_sentence ex_phrase English ex_mnemonic ex_from_phrase).
Qed.

(** C05 *)
Lemma c05_phrase_shape : forall m : mnemonic, constructible m ->
  exists ws, m_phrase m = spaced ws
    /\ Forall (fun w => In w (bip39_list (m_lang m)) /\ w <> [] /\ Forall (fun c => is_whitespace c = false) w) ws
    /\ In (length (m_entropy m), length ws) [(16, 12); (20, 15); (24, 18); (28, 21); (32, 24)]%nat.
Proof.
  intros m H. apply constructible_sentence in H. destruct H as (ws & Hp & Hs). exists ws. split; [exact Hp|]. split.
  - apply Forall_forall. intros w Hw. pose proof (sentence_words _ _ _ _ Hs Hw) as Hin.
    rewrite bip39_list_words. split; [exact Hin|]. split; [eapply words_nonempty, Hin|].
    apply Forall_forall. intros c Hc. pose proof (words_no_white _ _ Hin) as Hn. unfold no_white in Hn.
    rewrite forallb_forall in Hn. apply negb_true_iff, Hn, Hc.
  - apply sentence_parts in Hs. destruct Hs as (_ & HL & HC & HE).
    destruct (encodes_legal_count _ _ _ _ HL HC HE) as [Hn _]. rewrite Hn.
    apply legal_entropy_c in HL. destruct HL as (c & Hc & Hl). rewrite (ms_words_c _ c Hl), Hl.
    assert (E : c = 4%nat \/ c = 5%nat \/ c = 6%nat \/ c = 7%nat \/ c = 8%nat) by lia.
    destruct E as [-> |[-> |[-> |[-> | -> ]]]]; cbn; tauto.
Qed.
Lemma ex_constructible : constructible ex_mnemonic.
Proof. apply (built_entropy ex_entropy English); [exact ex_entropy_ok|exact ex_from_entropy]. Qed.
Example c05_example : constructible ex_mnemonic.
Proof.
  exact ex_constructible.
Qed.

(** C06 *)
Lemma forall2_nth {A B} (R : A -> B -> Prop) l1 l2 i : Forall2 R l1 l2 -> (i < length l1)%nat ->
  exists a b, nth_error l1 i = Some a /\ nth_error l2 i = Some b /\ R a b.
Proof.
  intros H. revert i. induction H as [|a b l1 l2 Hab _ IH]; intros i Hi; cbn in Hi; [lia|].
  destruct i as [|i]; [exists a, b; auto|]. apply IH. lia.
Qed.
Lemma encodes_groups l ws b : encodes l ws b -> Forall2 (is_word l) (map val_of_bits (groups b)) ws.
Proof.
  intros H. pose proof (encodes_length _ _ _ H) as Hl.
  destruct (groups_decompose _ _ Hl) as (H1 & H2 & H3).
  destruct (get_words_total l _ H3) as (vs & Hvs).
  assert (encodes l vs b) by (exists (map val_of_bits (groups b)); auto).
  assert (ws = vs) by (eapply encodes_words_fun; eassumption). subst. exact Hvs.
Qed.
Lemma c06_words_are_bip39_groups : forall m : mnemonic, constructible m ->
  length (split_char 32 (m_phrase m)) = ms_words (m_entropy m)
  /\ forall i : nat, (i < ms_words (m_entropy m))%nat ->
     exists w, nth_error (split_char 32 (m_phrase m)) i = Some w
       /\ nth_error (bip39_list (m_lang m))
            (N.to_nat (val_of_bits (firstn 11 (skipn (11 * i) (with_checksum (m_entropy m)))))) = Some w.
Proof.
  intros m H. apply constructible_sentence in H. destruct H as (ws & Hp & Hs).
  rewrite Hp, (sentence_split _ _ _ Hs). pose proof Hs as Hs'. apply sentence_parts in Hs'. destruct Hs' as (_ & HL & HC & HE).
  destruct (encodes_legal_count _ _ _ _ HL HC HE) as [Hn _]. split; [exact Hn|].
  intros i Hi. pose proof (encodes_groups _ _ _ HE) as F.
  assert (Hlen : length (groups (bits_of_bytes (m_entropy m) ++ checksum_of (m_entropy m))) = ms_words (m_entropy m)).
  { rewrite <- Hn. apply Forall2_length in F. rewrite map_length in F. exact F. }
  destruct (forall2_nth _ _ _ i F) as (a & w & Ha & Hw & Hr); [rewrite map_length, Hlen; exact Hi|].
  exists w. split; [exact Hw|]. unfold is_word in Hr.
  unfold groups in Ha. rewrite map_map in Ha.
  assert (Hi' : nth_error (seq 0 (length (bits_of_bytes (m_entropy m) ++ checksum_of (m_entropy m)) / 11)) i = Some i).
  { unfold groups in Hlen. rewrite map_length, seq_length in Hlen. rewrite Hlen.
    rewrite (nth_error_nth' _ 0%nat) by (rewrite seq_length; exact Hi). rewrite seq_nth by exact Hi. reflexivity. }
  rewrite (map_nth_error _ i _ Hi') in Ha. injection Ha as <-. exact Hr.
Qed.
Example c06_example : constructible ex_mnemonic /\ (ms_words (m_entropy ex_mnemonic) = 12)%nat
  /\ nth_error (split_char 32 (m_phrase ex_mnemonic)) 3 = Some (lit "insane").
Proof.
  split; [exact ex_constructible|]. split; vm_compute; reflexivity.
Qed.

(** C07 *)
Lemma c07_new_is_valid : forall (t : mnemonic_type) (lang : language) (rng : nat -> N),
  (forall i, rng i < 256) ->
  exists m, mnemonic_new t lang rng = Ok m
    /\ m_entropy m = map rng (seq 0 (N.to_nat (entropy_bits t / 8)))
    /\ 8 * len (m_entropy m) = entropy_bits t
    /\ m_lang m = lang
    /\ len (split_char 32 (m_phrase m)) = word_count t
    /\ from_phrase (m_phrase m) lang = Ok m
    /\ validate (m_phrase m) lang = Ok tt.
Proof.
  intros t lang rng Hr. unfold mnemonic_new.
  destruct (from_entropy_unchecked_spec (gen_random_bytes rng (entropy_bits t / 8)) lang) as (ws & E & Hs);
    [apply gen_random_bytes_ok, Hr|apply new_entropy_legal|].
  rewrite E. eexists. split; [reflexivity|]. cbn [m_entropy m_lang m_phrase].
  rewrite (sentence_split _ _ _ Hs).
  assert (Hl : length (gen_random_bytes rng (entropy_bits t / 8)) = (4 * mt_c t)%nat).
  { rewrite gen_random_bytes_length, mt_entropy_bits.
    replace (N.of_nat (32 * mt_c t) / 8) with (N.of_nat (4 * mt_c t)) by (apply N.div_unique with 0; lia). lia. }
  split; [reflexivity|]. split; [unfold len; rewrite Hl, mt_entropy_bits; lia|]. split; [reflexivity|].
  split; [|split].
  - rewrite mt_word_count. unfold len. f_equal.
    pose proof (sentence_parts _ _ _ Hs) as (_ & HL & HC & HE).
    destruct (encodes_legal_count _ _ _ _ HL HC HE) as [Hn _]. rewrite Hn. apply ms_words_c, Hl.
  - apply sentence_from_phrase, Hs.
  - unfold validate. rewrite (proj2 (phrase_to_entropy_ok (spaced ws) lang (gen_random_bytes rng (entropy_bits t / 8)))); [reflexivity|].
    rewrite (sentence_split _ _ _ Hs). exact Hs.
Qed.
Example c07_example : forall i : nat, nth i ex_entropy 7 < 256.
Proof.
  intros i. destruct (nth_in_or_default i ex_entropy 7) as [H|H].
  - pose proof ex_entropy_ok as Ho. unfold bytes_ok in Ho. rewrite Forall_forall in Ho. apply Ho, H.
  - rewrite H. reflexivity.
Qed.

(** C08 *)
Lemma c08_phrases_injective : forall (lang : language) (e1 e2 : bytes) (m1 m2 : mnemonic),
  bytes_ok e1 -> bytes_ok e2 -> from_entropy e1 lang = Ok m1 -> from_entropy e2 lang = Ok m2 ->
  e1 <> e2 -> m_phrase m1 <> m_phrase m2.
Proof.
  intros lang e1 e2 m1 m2 H1 H2 E1 E2 Hne Hp. apply Hne.
  apply c01_entropy_phrase_entropy in E1; [|exact H1]. apply c01_entropy_phrase_entropy in E2; [|exact H2].
  destruct E1 as (E1 & <- & _), E2 as (E2 & <- & _). rewrite Hp in E1. congruence.
Qed.
Example c08_example : exists m1 m2, from_entropy ex_entropy English = Ok m1
  /\ from_entropy (ex_entropy ++ ex_entropy) English = Ok m2 /\ ex_entropy <> ex_entropy ++ ex_entropy.
Proof.
  exists ex_mnemonic. destruct (c03_from_entropy_sizes (ex_entropy ++ ex_entropy) English) as [H _].
  - apply bytes_ok_app. split; exact ex_entropy_ok.
  - reflexivity.
  - destruct H as (m & Hm & _); [right; right; right; right; left; reflexivity|].
    exists m. split; [exact ex_from_entropy|]. split; [exact Hm|discriminate].
Qed.

(** C09 *)
Lemma c09_wrong_checksum_rejected : forall (lang : language) (ent : bytes) (cs : list bool) (ws : list str),
  bytes_ok ent -> legal_entropy ent -> length cs = cs_bits ent -> encodes lang ws (bits_of_bytes ent ++ cs) ->
  (cs = checksum_of ent -> from_phrase (spaced ws) lang = Ok (Mnemonic (spaced ws) lang ent))
  /\ (cs <> checksum_of ent -> from_phrase (spaced ws) lang = Err InvalidChecksum).
Proof.
  intros lang ent cs ws Hok HL HC HE. split.
  - intros ->. apply sentence_from_phrase. split; [exact Hok|]. split; [exact HL|exact HE].
  - intros Hne. assert (Hin : forall w, In w ws -> In w (words lang)) by (intros w Hw; eapply encodes_in; eassumption).
    assert (Hn : ws <> []).
    { intros ->. destruct (encodes_legal_count _ _ _ _ HL HC HE) as [_ Hc]. unfold legal_count in Hc. cbn in Hc. lia. }
    unfold from_phrase. rewrite iter_join_spaced. fold (norm_words (spaced ws)).
    rewrite (norm_words_sentence lang ws Hin).
    rewrite (proj2 (phrase_to_entropy_iff (spaced ws) lang (Err InvalidChecksum))); [reflexivity|].
    rewrite (split_char_sentence lang ws Hn Hin). eapply spec_bad_checksum; eassumption.
Qed.
Lemma c09_every_filling_is_a_phrase : forall (lang : language) (ent : bytes) (cs : list bool),
  legal_entropy ent -> length cs = cs_bits ent ->
  exists ws, encodes lang ws (bits_of_bytes ent ++ cs).
Proof.
  intros lang ent cs HL HC. apply legal_entropy_c in HL. destruct HL as (c & Hc & Hl).
  rewrite (cs_bits_c ent c Hl) in HC. apply (encodes_total lang _ (3 * c)).
  rewrite app_length, bits_of_bytes_length. lia.
Qed.
Example c09_example : legal_entropy ex_entropy /\ length [false; false; true; true] = cs_bits ex_entropy
  /\ [false; false; true; true] <> checksum_of ex_entropy.
Proof.
  split; [left; reflexivity|]. split; [reflexivity|]. vm_compute. discriminate.
Qed.

(** C10 *)
Lemma c10_spacing_ignored : forall (lang : language) (ws : list str) (s1 s2 : str),
  laid_out s1 ws -> laid_out s2 ws -> from_phrase s1 lang = from_phrase s2 lang.
Proof.
  intros lang ws s1 s2 H1 H2. apply laid_out_iff in H1, H2. unfold from_phrase. rewrite H1, H2. reflexivity.
Qed.
Lemma c10_every_text_has_a_layout : forall s : str, exists! ws, laid_out s ws.
Proof.
  intros s. exists (split_whitespace s). split; [apply laid_out_split|]. intros ws H. apply laid_out_iff, H.
Qed.
Example c10_example : laid_out (lit "  zoo 	 abandon") [lit "zoo"; lit "abandon"] /\ laid_out (lit "zoo abandon ") [lit "zoo"; lit "abandon"].
Proof.
  split; apply laid_out_iff; reflexivity.
Qed.

(** C11 *)
Lemma c11_validate_agrees : 
  (forall m : mnemonic, constructible m -> validate (m_phrase m) (m_lang m) = Ok tt)
  /\ (forall (s : str) (lang : language), validate s lang = Ok tt ->
        exists m, from_phrase s lang = Ok m /\ m_phrase m = s).
Proof.
  split.
  - intros m H. apply constructible_sentence in H. destruct H as (ws & Hp & Hs). unfold validate. rewrite Hp.
    rewrite (proj2 (phrase_to_entropy_ok (spaced ws) (m_lang m) (m_entropy m))); [reflexivity|].
    rewrite (sentence_split _ _ _ Hs). exact Hs.
  - intros s lang H. unfold validate in H. apply bind_ok in H. destruct H as (ent & H & _).
    apply phrase_to_entropy_ok in H. exists (Mnemonic s lang ent). split; [|reflexivity].
    rewrite <- (spaced_split_char s). apply sentence_from_phrase, H.
Qed.
Example c11_example : validate ex_phrase English = Ok tt.
Proof.
  exact (proj1 c11_validate_agrees ex_mnemonic ex_constructible).
Qed.

(** C12: false.  A leading space is enough. *)
Lemma c12_validate_accepts_less : forall m : mnemonic, constructible m ->
  from_phrase (32 :: m_phrase m) (m_lang m) = Ok m /\ validate (32 :: m_phrase m) (m_lang m) = Err InvalidWord.
Proof.
  intros m H. apply constructible_sentence in H. destruct H as (ws & Hp & Hs). split.
  - rewrite (c10_spacing_ignored (m_lang m) (split_whitespace (m_phrase m)) _ (m_phrase m)).
    + rewrite Hp, (sentence_from_phrase _ _ _ Hs). destruct m; cbn in *; congruence.
    + apply laid_out_pre; [reflexivity|]. apply laid_out_split.
    + apply laid_out_split.
  - unfold validate. rewrite (proj2 (phrase_to_entropy_iff (32 :: m_phrase m) (m_lang m) (Err InvalidWord))); [reflexivity|].
    apply spec_bad_word with []; [left; reflexivity|]. rewrite bip39_list_words. apply empty_not_word.
Qed.
Lemma c12_validate_accepts_all_refuted :
  exists (s : str) (lang : language) (m : mnemonic), from_phrase s lang = Ok m /\ validate s lang <> Ok tt.
Proof.
  destruct (c12_validate_accepts_less ex_mnemonic ex_constructible) as [H1 H2].
  exists (32 :: ex_phrase), English, ex_mnemonic. split; [exact H1|].
  change (m_phrase ex_mnemonic) with ex_phrase in H2. change (m_lang ex_mnemonic) with English in H2. rewrite H2. discriminate.
Qed.
Example c12_example : from_phrase (32 :: ex_phrase) English = Ok ex_mnemonic /\ validate (32 :: ex_phrase) English = Err InvalidWord.
Proof. exact (c12_validate_accepts_less ex_mnemonic ex_constructible). Qed.

(** C13 *)
Lemma all_in_list_dec l ws : {w | In w ws /\ ~ In w (bip39_list l)} + {all_in_list l ws}.
Proof.
  unfold all_in_list. rewrite bip39_list_words. induction ws as [|w ws IH].
  - right. intros w [].
  - destruct (in_words_dec l w) as [Hw|Hw]; [|left; exists w; cbn; auto].
    destruct IH as [(v & Hv & Hn)|IH]; [left; exists v; cbn; auto|]. right. intros v [<-|Hv]; auto.
Qed.
Lemma spec_err_cases l ws e : spec_outcome l ws (Err e) ->
  (e = InvalidWord /\ ~ all_in_list l ws)
  \/ (e = InvalidWordLength (len ws) /\ all_in_list l ws /\ ~ legal_count (length ws))
  \/ (e = InvalidChecksum /\ all_in_list l ws /\ legal_count (length ws) /\ checksum_mismatch l ws).
Proof.
  intros H. inversion H as [w Hw Hn E|Ha Hc E|ent cs HO HL HC HE HN E|]; subst.
  - left. split; [reflexivity|]. intros Ha. apply Hn, Ha, Hw.
  - right; left. auto.
  - right; right. split; [reflexivity|]. split; [|split].
    + intros w Hw. rewrite bip39_list_words. eapply encodes_in; eassumption.
    + eapply encodes_legal_count; eassumption.
    + exists ent, cs. auto.
Qed.
Lemma c13_error_order_from_phrase : forall (s : str) (lang : language),
  let ws := map nfkd (split_whitespace s) in
  match from_phrase s lang with
  | Ok _ => all_in_list lang ws /\ legal_count (length ws) /\ ~ checksum_mismatch lang ws
  | Err InvalidWord => ws = [] \/ ~ all_in_list lang ws
  | Err (InvalidWordLength n) => all_in_list lang ws /\ n = len ws /\ ~ legal_count (length ws)
  | Err InvalidChecksum => all_in_list lang ws /\ legal_count (length ws) /\ checksum_mismatch lang ws
  | Err (InvalidKeysize _) => False
  | Err (InvalidEntropyLength _ _) => False
  | Panic => False
  end.
Proof.
  intros s lang ws. pose proof (from_phrase_outcome s lang) as H. fold ws. unfold norm_words in H. fold ws in H.
  destruct (from_phrase s lang) as [m|e|]; [| |exact H].
  - destruct H as (_ & _ & Hs). split; [|split].
    + intros w Hw. rewrite bip39_list_words. eapply sentence_words; eassumption.
    + apply sentence_parts in Hs. destruct Hs as (_ & HL & HC & HE). eapply encodes_legal_count; eassumption.
    + intros (ent & cs & HO & HL & HC & HE & HN).
      assert (E : Err InvalidChecksum = Ok (m_entropy m)); [|discriminate].
      eapply spec_outcome_fun; [eapply spec_bad_checksum; eassumption|apply spec_good, Hs].
  - destruct H as [[Hn ->]|H]; [left; unfold ws; rewrite Hn; reflexivity|].
    apply spec_err_cases in H. destruct H as [[-> H]|[[-> H]|[-> H]]]; tauto.
Qed.
Lemma c13_error_order_validate : forall (s : str) (lang : language),
  let ws := split_char 32 s in
  match validate s lang with
  | Ok tt => all_in_list lang ws /\ legal_count (length ws) /\ ~ checksum_mismatch lang ws
  | Err InvalidWord => ~ all_in_list lang ws
  | Err (InvalidWordLength n) => all_in_list lang ws /\ n = len ws /\ ~ legal_count (length ws)
  | Err InvalidChecksum => all_in_list lang ws /\ legal_count (length ws) /\ checksum_mismatch lang ws
  | Err (InvalidKeysize _) => False
  | Err (InvalidEntropyLength _ _) => False
  | Panic => False
  end.
Proof.
  intros s lang ws. unfold validate. pose proof (phrase_to_entropy_spec s lang) as H. fold ws in H.
  destruct (phrase_to_entropy s lang) as [ent|e|]; cbn [bind].
  - inversion H as [| | |ent' Hs E]; subst ent'. split; [|split].
    + intros w Hw. rewrite bip39_list_words. eapply sentence_words; eassumption.
    + apply sentence_parts in Hs. destruct Hs as (_ & HL & HC & HE). eapply encodes_legal_count; eassumption.
    + intros (ent' & cs & HO & HL & HC & HE & HN).
      assert (E : Err InvalidChecksum = Ok ent); [|discriminate].
      eapply spec_outcome_fun; [eapply spec_bad_checksum; eassumption|exact H].
  - apply spec_err_cases in H. destruct H as [[-> H]|[[-> H]|[-> H]]]; tauto.
  - inversion H.
Qed.
Example c13_example : from_phrase (lit "zoo zoo") English = Err (InvalidWordLength 2)
  /\ from_phrase (lit "zoo zooo zoo") English = Err InvalidWord /\ from_phrase (lit " ") English = Err InvalidWord.
Proof.
  split; [|split]; vm_compute; reflexivity.
Qed.

(** C15 *)
Lemma c15_type_table : 
  (forall t, total_bits t = entropy_bits t + checksum_bits t /\ total_bits t = 11 * word_count t
             /\ entropy_bits t = 32 * checksum_bits t /\ In (word_count t) [12; 15; 18; 21; 24])
  /\ (forall n t, for_word_count n = Ok t <-> word_count t = n)
  /\ (forall n t, for_key_size n = Ok t <-> entropy_bits t = n)
  /\ (forall n, (forall t, word_count t <> n) -> for_word_count n = Err (InvalidWordLength n))
  /\ (forall n, (forall t, entropy_bits t <> n) -> for_key_size n = Err (InvalidKeysize n))
  /\ map (fun t => (entropy_bits t, checksum_bits t, word_count t)) [Words12; Words15; Words18; Words21; Words24]
     = [(128, 4, 12); (160, 5, 15); (192, 6, 18); (224, 7, 21); (256, 8, 24)]
  /\ mnemonic_type_default = Words12.
Proof.
  split; [|split; [|split; [|split; [|split; [|split; reflexivity]]]]].
  - intros t. destruct t; cbn; repeat split; tauto.
  - intros n t. rewrite for_word_count_ok, mt_word_count. split; congruence.
  - intros n t. rewrite for_key_size_ok, mt_entropy_bits. split; congruence.
  - intros n H. apply for_word_count_err. intros t Ht. apply (H t). rewrite mt_word_count. congruence.
  - intros n H. apply for_key_size_err. intros t Ht. apply (H t). rewrite mt_entropy_bits. congruence.
Qed.
Example c15_example : forall t, word_count t <> 13.
Proof.
  intros t; destruct t; discriminate.
Qed.

(** C16 *)
Lemma c16_for_phrase : 
  (forall (s : str) (t : mnemonic_type),
     for_phrase s = Ok t <-> word_count t = 1 + N.of_nat (count_occ N.eq_dec s 32))
  /\ (forall s, (forall t, word_count t <> 1 + N.of_nat (count_occ N.eq_dec s 32)) ->
        for_phrase s = Err (InvalidWordLength (1 + N.of_nat (count_occ N.eq_dec s 32))))
  /\ (forall m, constructible m -> exists t, for_phrase (m_phrase m) = Ok t /\ entropy_bits t = 8 * len (m_entropy m)).
Proof.
  assert (Hc : forall s, len (split_char 32 s) = 1 + N.of_nat (count_occ N.eq_dec s 32)).
  { intros s. unfold len. rewrite split_char_count. lia. }
  split; [|split].
  - intros s t. unfold for_phrase. rewrite Hc. apply c15_type_table.
  - intros s H. unfold for_phrase. rewrite Hc. apply c15_type_table, H.
  - intros m H. apply constructible_sentence in H. destruct H as (ws & Hp & Hs). unfold for_phrase.
    rewrite Hp, (sentence_split _ _ _ Hs). apply sentence_parts in Hs. destruct Hs as (_ & HL & HC & HE).
    destruct (encodes_legal_count _ _ _ _ HL HC HE) as [Hn _]. apply legal_entropy_c in HL. destruct HL as (c & Hcc & Hl).
    rewrite (ms_words_c _ c Hl) in Hn. destruct (mt_of_c c Hcc) as (t & Ht). exists t.
    rewrite for_word_count_ok, mt_entropy_bits, Ht. unfold len. rewrite Hn, Hl. split; [reflexivity|lia].
Qed.
Example c16_example : for_phrase (lit "a  b c d e f g h i j k") = Ok Words12.
Proof.
  reflexivity.
Qed.

(** C17 *)
Lemma c17_wordlist_wordmap_inverse : forall lang : language,
  length (wordlist lang) = 2048%nat
  /\ (forall i, i < 2048 -> exists w, get_word (wordlist lang) i = Ok w /\ get_bits (wordmap_of lang) w = Ok i)
  /\ (forall w i, get_bits (wordmap_of lang) w = Ok i -> i < 2048 /\ get_word (wordlist lang) i = Ok w)
  /\ (forall w, ~ In w (bip39_list lang) -> get_bits (wordmap_of lang) w = Err InvalidWord)
  /\ (forall i, 2048 <= i -> get_word (wordlist lang) i = Panic)
  /\ (forall i w, get_word (wordlist lang) i = Ok w <-> nth_error (bip39_list lang) (N.to_nat i) = Some w).
Proof.
  intros l. split; [rewrite wordlist_words; apply words_length|]. split; [|split; [|split; [|split]]].
  - intros i Hi. destruct (is_word_ex l i Hi) as (w & Hw). exists w. rewrite get_word_ok, get_bits_ok. auto.
  - intros w i H. apply get_bits_ok in H. split; [eapply is_word_lt, H|]. apply get_word_ok, H.
  - intros w H. apply get_bits_err. rewrite <- bip39_list_words. exact H.
  - apply get_word_panic.
  - intros i w. apply get_word_ok.
Qed.
Example c17_example : get_word (wordlist English) 2047 = Ok (lit "zoo") /\ get_bits (wordmap_of English) (lit "zoo") = Ok 2047.
Proof.
  split; vm_compute; reflexivity.
Qed.

(** C18 *)
Lemma starts_with_spec s p : starts_with s p = true <-> exists t, s = p ++ t.
Proof.
  revert s; induction p as [|y p IH]; intros s.
  - destruct s; cbn; split; eauto.
  - destruct s as [|x s]; cbn; [split; [discriminate|intros (t & H); discriminate]|].
    rewrite andb_true_iff, N.eqb_eq, IH. split.
    + intros [-> (t & ->)]. eauto.
    + intros (t & H). injection H as -> ->. eauto.
Qed.
Lemma prefix_le p t : str_cmp p (p ++ t) <> Gt.
Proof. induction p as [|x p IH]; cbn; [destruct t; discriminate|]. rewrite N.compare_refl. exact IH. Qed.
Lemma prefix_convex p w w' : str_cmp p w <> Gt -> str_lt w w' -> starts_with w' p = true -> starts_with w p = true.
Proof.
  unfold str_lt. revert w w'; induction p as [|y p IH]; intros w w' H1 H2 H3; [destruct w; reflexivity|].
  destruct w as [|x w]; [cbn in H1; congruence|]. destruct w' as [|x' w']; [discriminate|].
  cbn in *. apply andb_true_iff in H3. destruct H3 as [E H3]. apply N.eqb_eq in E. subst x'.
  destruct (N.compare_spec y x) as [->|Hlt|Hgt].
  - rewrite N.compare_refl in H2. rewrite N.eqb_refl. cbn. eapply IH; eassumption.
  - exfalso. destruct (N.compare_spec x y) as [->| |]; try discriminate; lia.
  - congruence.
Qed.

(** The search returns the position of the first word that is not smaller. *)
Lemma nth_sorted l i j a b : StronglySorted str_lt l -> nth_error l i = Some a -> nth_error l j = Some b -> (i < j)%nat -> str_lt a b.
Proof.
  intros Hs. revert i j. induction Hs as [|x l Hs IH Hx]; intros i j Ha Hb Hij.
  - destruct i; discriminate.
  - destruct j as [|j]; [lia|]. destruct i as [|i]; cbn in *.
    + injection Ha as ->. rewrite Forall_forall in Hx. eapply Hx, nth_error_In, Hb.
    + eapply IH; eauto. lia.
Qed.
Lemma str_cmp_lt_gt a b : str_cmp a b = Gt <-> str_lt b a.
Proof. unfold str_lt. rewrite (str_cmp_antisym a b). destruct (str_cmp a b); cbn; split; congruence. Qed.

(** What a search must find. *)
Definition search_right (l : list str) (x : str) (r : N + N) : Prop :=
  match r with
  | inl i => nth_error l (N.to_nat i) = Some x
  | inr i => (N.to_nat i <= length l)%nat
      /\ (forall j y, (j < N.to_nat i)%nat -> nth_error l j = Some y -> str_lt y x)
      /\ (forall j y, (N.to_nat i <= j)%nat -> nth_error l j = Some y -> str_lt x y)
  end.
Definition split_at (l : list str) (x : str) (s : nat) : Prop :=
  (s <= length l)%nat
  /\ (forall i y, (i < s)%nat -> nth_error l i = Some y -> str_lt y x)
  /\ (forall i y, (s <= i)%nat -> nth_error l i = Some y -> str_cmp x y <> Gt).
Lemma search_right_split l x r : StronglySorted str_lt l -> search_right l x r ->
  split_at l x (N.to_nat (match r with inl i => i | inr i => i end)).
Proof.
  intros Hs. destruct r as [i|i]; cbn [search_right].
  - intros Hi. split; [|split].
    + assert (H : nth_error l (N.to_nat i) <> None) by congruence. apply nth_error_Some in H. lia.
    + intros j y Hj Hy. eapply nth_sorted; [exact Hs|exact Hy|exact Hi|exact Hj].
    + intros j y Hj Hy. destruct (Nat.eq_dec j (N.to_nat i)) as [->|Hne].
      * rewrite Hi in Hy. injection Hy as <-. rewrite str_cmp_refl. discriminate.
      * assert (Hlt : str_lt x y) by (eapply nth_sorted; [exact Hs|exact Hi|exact Hy|lia]). unfold str_lt in Hlt. congruence.
  - intros (H1 & H2 & H3). split; [exact H1|]. split; [exact H2|]. intros j y Hj Hy.
    pose proof (H3 j y Hj Hy) as Hlt. unfold str_lt in Hlt. congruence.
Qed.

Lemma binary_search_loop_spec l x : StronglySorted str_lt l -> forall fuel left right,
  (N.to_nat right - N.to_nat left <= fuel)%nat -> left <= right -> right <= len l ->
  (forall i y, (i < N.to_nat left)%nat -> nth_error l i = Some y -> str_lt y x) ->
  (forall i y, (N.to_nat right <= i)%nat -> nth_error l i = Some y -> str_lt x y) ->
  exists r, binary_search_loop fuel l x left right = Ok r /\ search_right l x r.
Proof.
  intros Hs fuel. induction fuel as [|fuel IH]; intros left right Hf Hlr Hr Hlo Hhi; cbn [binary_search_loop].
  - destruct (N.ltb_spec left right) as [H|H]; [lia|]. exists (inr left). split; [reflexivity|].
    unfold len in Hr. split; [lia|]. split; [exact Hlo|]. intros i y Hi Hy. eapply Hhi; [|exact Hy]. lia.
  - destruct (N.ltb_spec left right) as [H|H].
    2:{ exists (inr left). split; [reflexivity|].
        unfold len in Hr. split; [lia|]. split; [exact Hlo|]. intros i y Hi Hy. eapply Hhi; [|exact Hy]. lia. }
    cbv zeta. set (mid := left + (right - left) / 2).
    assert (Hd : (right - left) / 2 < right - left) by (apply N.div_lt; lia).
    assert (Hm : left <= mid < right) by (unfold mid; lia).
    unfold index. unfold len in Hr. destruct (nth_error l (N.to_nat mid)) as [y|] eqn:Ey.
    2:{ apply nth_error_None in Ey. lia. }
    cbn [or_panic bind]. destruct (str_cmp y x) eqn:E.
    + apply str_cmp_eq in E. subst y. exists (inl mid). split; [reflexivity|exact Ey].
    + apply IH; unfold len; try lia.
      * intros i z Hi Hz. destruct (Nat.eq_dec i (N.to_nat mid)) as [->|Hne]; [rewrite Ey in Hz; injection Hz as <-; exact E|].
        apply (str_lt_trans z y x); [|exact E]. eapply nth_sorted; [exact Hs|exact Hz|exact Ey|lia].
      * exact Hhi.
    + apply str_cmp_lt_gt in E. apply IH; unfold len; try lia.
      * exact Hlo.
      * intros i z Hi Hz. destruct (Nat.eq_dec i (N.to_nat mid)) as [->|Hne]; [rewrite Ey in Hz; injection Hz as <-; exact E|].
        apply (str_lt_trans x y z E). eapply nth_sorted; [exact Hs|exact Ey|exact Hz|lia].
Qed.
Lemma binary_search_spec l x : StronglySorted str_lt l -> exists r, binary_search l x = Ok r /\ search_right l x r.
Proof.
  intros Hs. unfold binary_search. apply binary_search_loop_spec; auto; unfold len; try lia.
  intros i y Hi Hy. exfalso. assert (H : nth_error l i <> None) by congruence. apply nth_error_Some in H. lia.
Qed.

(** The newer search keeps: everything from [base + size] on is greater, and what is before [base], or [base]
    itself unless it is 0, is not greater. *)
Lemma binary_search_new_loop_spec l x : StronglySorted str_lt l -> forall fuel base size,
  (N.to_nat size <= fuel)%nat -> 1 <= size -> base + size <= len l ->
  (forall i y, (N.to_nat (base + size) <= i)%nat -> nth_error l i = Some y -> str_lt x y) ->
  (base = 0 \/ exists y, nth_error l (N.to_nat base) = Some y /\ str_cmp y x <> Gt) ->
  exists b, binary_search_new_loop fuel l x base size = Ok b /\ b < len l
    /\ (forall i y, (N.to_nat b < i)%nat -> nth_error l i = Some y -> str_lt x y)
    /\ (b = 0 \/ exists y, nth_error l (N.to_nat b) = Some y /\ str_cmp y x <> Gt).
Proof.
  intros Hs fuel. induction fuel as [|fuel IH]; intros base size Hf H1 Hlen Hhi Hb; cbn [binary_search_new_loop].
  - lia.
  - destruct (N.ltb_spec 1 size) as [H|H].
    2:{ exists base. assert (size = 1) by lia. subst size. split; [reflexivity|]. split; [lia|]. split; [|exact Hb].
        intros i y Hi. apply Hhi. lia. }
    cbv zeta. assert (Hd : size / 2 < size) by (apply N.div_lt; lia).
    assert (Hd1 : 1 <= size / 2) by (apply N.div_le_lower_bound; lia).
    set (half := size / 2) in *. set (mid := base + half).
    unfold index. unfold len in Hlen. destruct (nth_error l (N.to_nat mid)) as [y|] eqn:Ey.
    2:{ apply nth_error_None in Ey. lia. }
    cbn [or_panic bind]. destruct (str_cmp y x) eqn:E.
    + apply IH; unfold len; try lia.
      * intros i z Hi Hz. apply (Hhi i z); [lia|exact Hz].
      * right. exists y. split; [exact Ey|congruence].
    + apply IH; unfold len; try lia.
      * intros i z Hi Hz. apply (Hhi i z); [lia|exact Hz].
      * right. exists y. split; [exact Ey|congruence].
    + apply str_cmp_lt_gt in E.
      assert (Hup : forall i z, (N.to_nat mid <= i)%nat -> nth_error l i = Some z -> str_lt x z).
      { intros i z Hi Hz. destruct (Nat.eq_dec i (N.to_nat mid)) as [->|Hne]; [rewrite Ey in Hz; injection Hz as <-; exact E|].
        apply (str_lt_trans x y z E). eapply nth_sorted; [exact Hs|exact Ey|exact Hz|lia]. }
      apply IH; unfold len; try lia; [|exact Hb].
      intros i z Hi Hz. apply (Hup i z); [|exact Hz].
      assert (Hdm : half + half <= size) by (unfold half; pose proof (N.mul_div_le size 2); lia).
      unfold mid. lia.
Qed.
Lemma binary_search_new_spec l x : StronglySorted str_lt l -> exists r, binary_search_new l x = Ok r /\ search_right l x r.
Proof.
  intros Hs. unfold binary_search_new. destruct (N.eqb_spec (len l) 0) as [H0|H0].
  - exists (inr 0). split; [reflexivity|]. unfold len in H0. destruct l; [|cbn in H0; lia].
    split; [cbn; lia|]. split; intros [|j] y Hj Hy; discriminate.
  - destruct (binary_search_new_loop_spec l x Hs (length l) 0 (len l)) as (b & -> & Hb & Hhi & Hlo); unfold len in *; try lia.
    { intros i y Hi Hy. exfalso. assert (H : nth_error l i <> None) by congruence. apply nth_error_Some in H. lia. }
    cbn [bind]. unfold index. destruct (nth_error l (N.to_nat b)) as [y|] eqn:Ey.
    2:{ apply nth_error_None in Ey. lia. }
    cbn [or_panic bind]. destruct (str_cmp y x) eqn:E.
    + apply str_cmp_eq in E. subst y. exists (inl b). split; [reflexivity|exact Ey].
    + exists (inr (b + 1)). split; [reflexivity|]. split; [lia|]. split.
      * intros j z Hj Hz. destruct (Nat.eq_dec j (N.to_nat b)) as [->|Hne]; [rewrite Ey in Hz; injection Hz as <-; exact E|].
        apply (str_lt_trans z y x); [|exact E]. eapply nth_sorted; [exact Hs|exact Hz|exact Ey|lia].
      * intros j z Hj Hz. apply (Hhi j z); [lia|exact Hz].
    + exists (inr b). split; [reflexivity|]. destruct Hlo as [->|(y' & Hy' & Hle)].
      2:{ injection Hy' as <-. congruence. }
      apply str_cmp_lt_gt in E. split; [cbn; lia|]. split; [intros j z Hj; cbn in Hj; lia|].
      intros j z Hj Hz. destruct (Nat.eq_dec j 0) as [->|Hne]; [change (N.to_nat 0) with 0%nat in Ey; rewrite Ey in Hz; injection Hz as <-; exact E|].
      apply (Hhi j z); [cbn; lia|exact Hz].
Qed.

(** Alphabetical order is the order of the comparison. *)
Lemma alphabetical_iff a b : alphabetical a b <-> str_lt a b.
Proof.
  unfold alphabetical, str_lt. split.
  - intros (p & [[-> (c & r & ->)]|(c & d & r & r' & -> & -> & H)]).
    + induction p as [|x p IH]; cbn; [reflexivity|]. rewrite N.compare_refl. exact IH.
    + induction p as [|x p IH]; cbn; [|rewrite N.compare_refl; exact IH].
      apply N.compare_lt_iff in H. rewrite H. reflexivity.
  - revert b; induction a as [|x a IH]; intros [|y b]; cbn; try discriminate.
    + intros _. exists []. left. split; [reflexivity|]. exists y, b. reflexivity.
    + destruct (N.compare_spec x y) as [->|H|H]; [|intros _|discriminate].
      * intros H. destruct (IH b H) as (p & [[-> (c & r & ->)]|(c & d & r & r' & -> & -> & Hcd)]).
        -- exists (y :: p). left. split; [reflexivity|]. exists c, r. reflexivity.
        -- exists (y :: p). right. exists c, d, r, r'. auto.
      * exists []. right. exists x, y, a, b. auto.
Qed.
Lemma ordered_sorted l : in_alphabetical_order l <-> StronglySorted str_lt l.
Proof.
  split.
  - unfold in_alphabetical_order. induction l as [|x l IH]; intros H; constructor.
    + apply IH. intros i j a b Hij Ha Hb. apply (H (S i) (S j)); [lia|exact Ha|exact Hb].
    + apply Forall_forall. intros y Hy. apply In_nth_error in Hy. destruct Hy as (j & Hj).
      apply alphabetical_iff. apply (H 0%nat (S j)); [lia|reflexivity|exact Hj].
  - intros H i j a b Hij Ha Hb. apply alphabetical_iff. eapply nth_sorted; eassumption.
Qed.
Lemma std_search_right search : std_binary_search search <->
  forall l x, StronglySorted str_lt l -> exists r, search l x = Ok r /\ search_right l x r.
Proof.
  unfold std_binary_search. split.
  - intros H l x Hs. specialize (H l x (proj2 (ordered_sorted l) Hs)).
    destruct (search l x) as [[i|i]| |]; try contradiction; [exists (inl i); auto|].
    destruct H as (Hn & Ho & Hi). exists (inr i). split; [reflexivity|]. split; [exact Hi|].
    apply ordered_sorted in Ho.
    assert (Hx : nth_error (firstn (N.to_nat i) l ++ x :: skipn (N.to_nat i) l) (N.to_nat i) = Some x).
    { rewrite nth_error_app2; rewrite firstn_length; [|lia]. replace (N.to_nat i - _)%nat with 0%nat by lia. reflexivity. }
    split; intros j y Hj Hy.
    + eapply nth_sorted; [exact Ho| |exact Hx|exact Hj].
      rewrite nth_error_app1 by (rewrite firstn_length; apply Nat.min_glb_lt; [exact Hj|apply nth_error_Some; congruence]).
      rewrite <- (firstn_skipn (N.to_nat i) l) in Hy. rewrite nth_error_app1 in Hy; [exact Hy|].
      rewrite firstn_length. lia.
    + apply (nth_sorted _ (N.to_nat i) (S j) x y Ho Hx); [|lia].
      rewrite nth_error_app2; rewrite firstn_length; [|lia].
      replace (S j - Nat.min (N.to_nat i) (length l))%nat with (S (j - N.to_nat i)) by lia. cbn [nth_error].
      rewrite <- (firstn_skipn (N.to_nat i) l) in Hy. rewrite nth_error_app2 in Hy by (rewrite firstn_length; lia). rewrite firstn_length in Hy.
      replace (j - Nat.min (N.to_nat i) (length l))%nat with (j - N.to_nat i)%nat in Hy by lia. exact Hy.
  - intros H l x Ho. apply ordered_sorted in Ho. destruct (H l x Ho) as (r & -> & Hr).
    destruct r as [i|i]; [exact Hr|]. destruct Hr as (Hi & Hlo & Hhi). split; [|split; [|exact Hi]].
    + intros Hin. apply In_nth_error in Hin. destruct Hin as (j & Hj).
      destruct (Nat.lt_ge_cases j (N.to_nat i)) as [Hlt|Hge].
      * pose proof (Hlo j x Hlt Hj) as Hc. unfold str_lt in Hc. rewrite str_cmp_refl in Hc. discriminate.
      * pose proof (Hhi j x Hge Hj) as Hc. unfold str_lt in Hc. rewrite str_cmp_refl in Hc. discriminate.
    + apply ordered_sorted. set (k := N.to_nat i) in *. clearbody k. clear H i search.
      assert (Hpre : Forall (fun y => str_lt y x) (firstn k l)).
      { apply Forall_forall. intros y Hy. apply In_nth_error in Hy. destruct Hy as (j & Hj).
        assert (Hjl : (j < length (firstn k l))%nat) by (apply nth_error_Some; congruence). rewrite firstn_length in Hjl.
        apply (Hlo j y); [lia|]. rewrite <- (firstn_skipn k l), nth_error_app1; [exact Hj|rewrite firstn_length; lia]. }
      assert (Hpost : Forall (str_lt x) (skipn k l)).
      { apply Forall_forall. intros y Hy. apply In_nth_error in Hy. destruct Hy as (j & Hj).
        apply (Hhi (k + j)%nat y); [lia|]. rewrite <- (firstn_skipn k l), nth_error_app2; rewrite firstn_length; [|lia].
        replace (k + j - Nat.min k (length l))%nat with j by lia. exact Hj. }
      rewrite <- (firstn_skipn k l) in Ho. revert Ho Hpre Hpost.
      generalize (firstn k l), (skipn k l). clear. intros a b. induction a as [|y a IH]; cbn [app]; intros Hs Hpre Hpost.
      * constructor; assumption.
      * inversion Hs as [|? ? Hs' Hy]; subst. inversion Hpre as [|? ? Hyx Hpre']; subst.
        constructor; [apply IH; assumption|]. apply Forall_app. apply Forall_app in Hy. destruct Hy as [Hya Hyb].
        split; [exact Hya|]. constructor; [exact Hyx|exact Hyb].
Qed.

Lemma take_while_prefix {A} (p : A -> bool) l : exists r, l = take_while p l ++ r /\ firstn (length (take_while p l)) l = take_while p l
  /\ match r with [] => True | y :: _ => p y = false end.
Proof.
  induction l as [|x l (r & IH1 & IH2 & IH3)]; cbn; [exists []; auto|].
  destruct (p x) eqn:E.
  - exists r. cbn. rewrite IH2. rewrite IH1 at 1. auto.
  - exists (x :: l). auto.
Qed.
Lemma take_while_all {A} (p : A -> bool) l x : In x (take_while p l) -> p x = true.
Proof.
  induction l as [|y l IH]; cbn; [intros []|]. destruct (p y) eqn:E; [|intros []].
  intros [<-|H]; [exact E|apply IH, H].
Qed.

Lemma get_words_by_prefix_sorted search l p : std_binary_search search -> StronglySorted str_lt l ->
  exists ws pre post, get_words_by_prefix_with search l p = Ok ws /\ l = pre ++ ws ++ post
    /\ (forall w, In w ws <-> In w l /\ exists t, w = p ++ t).
Proof.
  intros Hstd Hs. unfold get_words_by_prefix_with.
  destruct (proj1 (std_search_right search) Hstd l p Hs) as (r & -> & Hr). cbn [bind].
  destruct (search_right_split l p r Hs Hr) as (Hlen & Hlo & Hhi).
  set (start := match r with inl i => i | inr i => i end) in *.
  unfold sub_chk. replace (start <=? len l) with true by (unfold len; lia). cbn [bind].
  set (rest := skipn (N.to_nat start) l) in *.
  destruct (take_while_prefix (fun w => starts_with w p) rest) as (post & H1 & H2 & H3).
  rewrite H2. set (ws := take_while (fun w => starts_with w p) rest) in *.
  exists ws, (firstn (N.to_nat start) l), post. split; [reflexivity|].
  assert (Hl : l = firstn (N.to_nat start) l ++ ws ++ post).
  { rewrite <- H1. symmetry. apply firstn_skipn. }
  split; [exact Hl|]. intros w. split.
  - intros Hw. split.
    + rewrite Hl. apply in_app_iff. right. apply in_app_iff. left. exact Hw.
    + apply starts_with_spec. apply (take_while_all _ _ _ Hw).
  - intros [Hw Ht]. apply starts_with_spec in Ht.
    apply In_nth_error in Hw. destruct Hw as (i & Hi).
    destruct (Nat.lt_ge_cases i (N.to_nat start)) as [Hlt|Hge].
    + exfalso. pose proof (Hlo i w Hlt Hi) as Hx. apply starts_with_spec in Ht. destruct Ht as (t & ->).
      apply str_cmp_lt_gt in Hx. exact (prefix_le p t Hx).
    + rewrite Hl in Hi. rewrite app_assoc in Hi.
      destruct (Nat.lt_ge_cases i (length (firstn (N.to_nat start) l ++ ws))) as [Hlt|Hge'].
      * rewrite nth_error_app1 in Hi by exact Hlt. rewrite nth_error_app2 in Hi.
        -- eapply nth_error_In, Hi.
        -- rewrite firstn_length. lia.
      * exfalso. rewrite nth_error_app2 in Hi by exact Hge'.
        destruct post as [|y post]; [destruct (i - _)%nat; discriminate|].
        assert (Hny : nth_error l (length (firstn (N.to_nat start) l ++ ws)) = Some y).
        { rewrite Hl at 1. rewrite app_assoc, nth_error_app2 by lia. rewrite Nat.sub_diag. reflexivity. }
        destruct (i - length (firstn (N.to_nat start) l ++ ws))%nat as [|k] eqn:Ek; cbn in Hi.
        -- injection Hi as ->. congruence.
        -- assert (Hyw : str_lt y w).
           { eapply (nth_sorted l _ i); [exact Hs|exact Hny| |lia].
             rewrite Hl, app_assoc, nth_error_app2 by exact Hge'. rewrite Ek. exact Hi. }
           assert (Hpy : str_cmp p y <> Gt).
           { eapply Hhi; [|exact Hny]. rewrite app_length, firstn_length. lia. }
           rewrite (prefix_convex p y w Hpy Hyw Ht) in H3. discriminate.
Qed.
(** Any search that keeps the promise of the standard library will do, ... *)
Lemma c18_prefix_search_any : forall search, std_binary_search search -> forall p : str,
  exists ws before after, get_words_by_prefix_with search (wordlist English) p = Ok ws
    /\ bip39_list English = before ++ ws ++ after
    /\ (forall w, In w ws <-> In w (bip39_list English) /\ exists t, w = p ++ t).
Proof.
  intros search Hstd p. rewrite (bip39_list_words English), (wordlist_words English).
  apply get_words_by_prefix_sorted; [exact Hstd|exact words_en_strongly_sorted].
Qed.
(** ... such as the two implementations it has had since Rust 1.52. *)
Lemma c18_searches_conform : std_binary_search binary_search /\ std_binary_search binary_search_new.
Proof.
  split; apply std_search_right; intros l x Hs; [apply binary_search_spec|apply binary_search_new_spec]; exact Hs.
Qed.
Lemma c18_prefix_search_english : forall p : str,
  exists ws before after, get_words_by_prefix (wordlist English) p = Ok ws
    /\ bip39_list English = before ++ ws ++ after
    /\ (forall w, In w ws <-> In w (bip39_list English) /\ exists t, w = p ++ t).
Proof.
  apply (c18_prefix_search_any binary_search), c18_searches_conform.
Qed.
Example c18_example : get_words_by_prefix (wordlist English) (lit "woo") = Ok [lit "wood"; lit "wool"]
  /\ get_words_by_prefix_with binary_search_new (wordlist English) (lit "woo") = Ok [lit "wood"; lit "wool"].
Proof.
  split; vm_compute; reflexivity.
Qed.

(** C19: false; for instance the very first word of the list is not found. *)
Lemma c19_prefix_search_chinese_refuted : exists p : str,
  In p (bip39_list ChineseSimplified) /\ get_words_by_prefix (wordlist ChineseSimplified) p = Ok []
  /\ get_words_by_prefix_with binary_search_new (wordlist ChineseSimplified) p = Ok [].
Proof.
  exists [0x7684]. split.
  - rewrite (bip39_list_words ChineseSimplified). left; reflexivity.
  - rewrite (wordlist_words ChineseSimplified). split; vm_compute; reflexivity.
Qed.
(** What is returned is at least right: consecutive words of the list, all with the prefix.  Missing: that
    all words with the prefix are returned. *)
Lemma c19_prefix_search_partial : forall (search : list str -> str -> R (N + N)) (lang : language) (p : str) (ws : list str),
  get_words_by_prefix_with search (wordlist lang) p = Ok ws ->
  exists before after, bip39_list lang = before ++ ws ++ after /\ forall w, In w ws -> exists t, w = p ++ t.
Proof.
  intros search lang p ws H. rewrite bip39_list_words. rewrite wordlist_words in H.
  unfold get_words_by_prefix_with in H. apply bind_ok in H. destruct H as (r & _ & H).
  set (start := match r with inl i => i | inr i => i end) in H. cbv zeta in H.
  apply bind_ok in H. destruct H as (_ & _ & H).
  set (rest := skipn (N.to_nat start) (words lang)) in H.
  destruct (take_while_prefix (fun w => starts_with w p) rest) as (post & H1 & H2 & H3).
  rewrite H2 in H. injection H as <-.
  exists (firstn (N.to_nat start) (words lang)), post. split.
  - rewrite <- H1. symmetry. apply firstn_skipn.
  - intros w Hw. apply starts_with_spec, (take_while_all _ _ _ Hw).
Qed.
Example c19_example : get_words_by_prefix (wordlist ChineseSimplified) [0x719F] = Ok [[0x719F]].
Proof.
  rewrite (wordlist_words ChineseSimplified). vm_compute. reflexivity.
Qed.

(** C20 *)
Lemma to_ascii_lowercase_spec s t : Forall (fun d => d < 65 \/ 90 < d) t ->
  (to_ascii_lowercase s = t <-> same_up_to_case s t).
Proof.
  unfold to_ascii_lowercase, same_up_to_case. intros Ht. split.
  - intros <-. clear Ht. induction s as [|c s IH]; constructor; [|exact IH].
    destruct ((65 <=? c) && (c <=? 90)) eqn:E; [right; lia|left; reflexivity].
  - intros H. revert Ht. induction H as [|c d s t Hcd _ IH]; intros Ht; [reflexivity|]. cbn.
    inversion Ht; subst. rewrite IH by assumption. f_equal.
    destruct ((65 <=? c) && (c <=? 90)) eqn:E; lia.
Qed.
Lemma c20_language_codes : forall s : str,
  (from_language_code s = Some English <-> same_up_to_case s (lit "en"))
  /\ (from_language_code s = Some ChineseSimplified <-> same_up_to_case s (lit "zh-cn"))
  /\ (from_language_code s = None <-> ~ same_up_to_case s (lit "en") /\ ~ same_up_to_case s (lit "zh-cn")).
Proof.
  intros s.
  rewrite <- (to_ascii_lowercase_spec s (lit "en")) by (cbn; repeat constructor; lia).
  rewrite <- (to_ascii_lowercase_spec s (lit "zh-cn")) by (cbn; repeat constructor; lia).
  unfold from_language_code.
  destruct (str_eqb (to_ascii_lowercase s) (lit "en")) eqn:E1.
  - apply str_eqb_spec in E1. rewrite E1. repeat split; try discriminate; try tauto; intuition discriminate.
  - assert (N1 : to_ascii_lowercase s <> lit "en") by (intros H; apply str_eqb_spec in H; congruence).
    destruct (str_eqb (to_ascii_lowercase s) (lit "zh-cn")) eqn:E2.
    + apply str_eqb_spec in E2. rewrite E2 in *. repeat split; try discriminate; try tauto; intuition discriminate.
    + assert (N2 : to_ascii_lowercase s <> lit "zh-cn") by (intros H; apply str_eqb_spec in H; congruence).
      repeat split; try discriminate; tauto.
Qed.
Lemma c20_default_language : language_default = English /\ forall s, from_language_code s = Some language_default <-> same_up_to_case s (lit "en").
Proof.
  split; [reflexivity|]. intros s. apply (c20_language_codes s).
Qed.
Example c20_example : same_up_to_case (lit "Zh-CN") (lit "zh-cn").
Proof.
  apply c20_language_codes. reflexivity.
Qed.

(** C21 *)
Lemma language_from_phrase_first phrase l w rest : split_whitespace phrase = w :: rest ->
  (language_from_phrase phrase = Some l <-> In w (words l)).
Proof.
  intros E. unfold language_from_phrase. rewrite E.
  destruct (is_ok (get_bits (wordmap_of English) w)) eqn:E1.
  - apply get_bits_is_ok in E1. destruct l; [split; intros _; [exact E1|reflexivity]|]. split; [discriminate|].
    intros H. destruct (words_disjoint w E1 H).
  - assert (N1 : ~ In w (words English)) by (rewrite <- get_bits_is_ok; congruence).
    destruct (is_ok (get_bits (wordmap_of ChineseSimplified) w)) eqn:E2.
    + apply get_bits_is_ok in E2. destruct l; [|split; intros _; [exact E2|reflexivity]]. split; [discriminate|intros H; destruct (N1 H)].
    + assert (N2 : ~ In w (words ChineseSimplified)) by (rewrite <- get_bits_is_ok; congruence).
      destruct l; (split; [discriminate|]); intros H; [destruct (N1 H)|destruct (N2 H)].
Qed.
Lemma c21_language_detection :
  (forall m, constructible m -> language_from_phrase (m_phrase m) = Some (m_lang m))
  /\ (forall (s : str) (l : language), language_from_phrase s = Some l <->
        exists w rest, laid_out s (w :: rest) /\ In w (bip39_list l)).
Proof.
  assert (H2 : forall (s : str) (l : language), language_from_phrase s = Some l <->
        exists w rest, laid_out s (w :: rest) /\ In w (bip39_list l)).
  { intros s l. rewrite bip39_list_words. split.
    - intros H. destruct (split_whitespace s) as [|w rest] eqn:E.
      + unfold language_from_phrase in H. rewrite E in H. discriminate.
      + exists w, rest. rewrite laid_out_iff. split; [exact E|]. eapply language_from_phrase_first; eassumption.
    - intros (w & rest & Hl & Hw). apply laid_out_iff in Hl. eapply language_from_phrase_first; eassumption. }
  split; [|exact H2]. intros m H. apply constructible_sentence in H. destruct H as (ws & Hp & Hs).
  apply H2. destruct ws as [|w rest]; [destruct (sentence_nonempty _ _ _ Hs eq_refl)|].
  exists w, rest. rewrite Hp, bip39_list_words. split.
  - apply laid_out_iff, split_whitespace_spaced. apply Forall_forall. intros v Hv.
    pose proof (sentence_words _ _ _ _ Hs Hv). split; [eapply words_nonempty|eapply words_no_white]; eassumption.
  - eapply sentence_words; [exact Hs|left; reflexivity].
Qed.
Example c21_example : laid_out [0x3000; 0x7684; 32; 0x7684] [[0x7684]; [0x7684]].
Proof.
  apply laid_out_iff. reflexivity.
Qed.

(** C22 *)
Lemma pbkdf2_iter_fold prf salt n k acc :
  pbkdf2_iter prf n (pbkdf2_u prf salt k) acc = fold_left xor_bytes (map (pbkdf2_u prf salt) (seq (S k) n)) acc.
Proof.
  revert k acc; induction n as [|n IH]; intros k acc; [reflexivity|].
  cbn [pbkdf2_iter seq map fold_left]. exact (IH (S k) _).
Qed.
Lemma pbkdf2_t1_eq pw salt c : (forall x, length (hmac_sha512 pw x) = 64%nat) ->
  pbkdf2 hmac_sha512 64 pw salt c 64 = pbkdf2_t1 (hmac_sha512 pw) salt c.
Proof.
  intros Hl. unfold pbkdf2. change ((64 + 64 - 1) / 64)%nat with 1%nat. cbn [seq flat_map]. rewrite app_nil_r.
  unfold pbkdf2_block, pbkdf2_t1. change (be_bytes 4 (N.of_nat 1)) with [0; 0; 0; 1].
  change (hmac_sha512 pw (salt ++ [0; 0; 0; 1])) with (pbkdf2_u (hmac_sha512 pw) salt 0).
  assert (Hlen : length (pbkdf2_iter (hmac_sha512 pw) (c - 1) (pbkdf2_u (hmac_sha512 pw) salt 0) (pbkdf2_u (hmac_sha512 pw) salt 0)) = 64%nat).
  { apply pbkdf2_iter_length; [exact Hl|apply Hl]. }
  rewrite firstn_all2 by (rewrite Hlen; lia). apply pbkdf2_iter_fold.
Qed.
Lemma utf8_app a b : utf8 (a ++ b) = utf8 a ++ utf8 b.
Proof. unfold utf8. apply flat_map_app. Qed.
Lemma nfkd_salt pw : nfkd (lit "mnemonic" ++ pw) = lit "mnemonic" ++ nfkd pw.
Proof. apply nfkd_plain_app. reflexivity. Qed.
Lemma spaced_plain ws : Forall (fun w => forallb plain w = true) ws -> forallb plain (spaced ws) = true.
Proof.
  induction 1 as [|w ws Hw H IH]; [reflexivity|]. destruct ws as [|v ws]; [exact Hw|].
  rewrite spaced_cons by discriminate. rewrite forallb_app, Hw. cbn [forallb plain]. exact IH.
Qed.
Lemma constructible_plain m : constructible m -> forallb plain (m_phrase m) = true.
Proof.
  intros H. apply constructible_sentence in H. destruct H as (ws & -> & Hs).
  apply spaced_plain, Forall_forall. intros w Hw. eapply words_plain, sentence_words; eassumption.
Qed.
Lemma bip39_pbkdf2_eq pw salt : bip39_pbkdf2 pw (nfkd (lit "mnemonic" ++ salt))
  = pbkdf2_t1 (hmac_sha512 pw) (utf8 (lit "mnemonic") ++ utf8 (nfkd salt)) 2048.
Proof.
  unfold bip39_pbkdf2, pbkdf2_rounds, pbkdf2_bytes. rewrite pbkdf2_t1_eq by (intros; apply hmac_sha512_length).
  rewrite nfkd_salt, utf8_app. reflexivity.
Qed.
Lemma c22_seed_english : forall (m : mnemonic) (password : str),
  constructible m -> m_lang m = English -> seed_new m password = Ok (bip39_seed (m_phrase m) password).
Proof.
  intros m pw Hc Hl. unfold seed_new, mnemonic_as_bytes. rewrite Hl. cbn [language_eqb bind].
  rewrite bip39_pbkdf2_eq. unfold bip39_seed.
  rewrite (nfkd_plain (m_phrase m)) by (apply constructible_plain, Hc). reflexivity.
Qed.
Example c22_example : constructible ex_mnemonic /\ m_lang ex_mnemonic = English.
Proof.
  split; [exact ex_constructible|reflexivity].
Qed.

(** C23: false.  The password handed to PBKDF2 is the GB18030 encoding, never the UTF-8 encoding. *)
Lemma gb18030_app a b x y : gb18030 a = Some x -> gb18030 b = Some y -> gb18030 (a ++ b) = Some (x ++ y).
Proof.
  revert x; induction a as [|c a IH]; intros x Ha Hb; cbn in *; [injection Ha as <-; exact Hb|].
  destruct (gb18030_char c) as [u|]; [|discriminate]. destruct (gb18030 a) as [v|]; [|discriminate].
  injection Ha as <-. rewrite (IH v eq_refl Hb), app_assoc. reflexivity.
Qed.
Lemma zh_word_char w : In w (words ChineseSimplified) -> exists c a b, w = [c] /\ 0x4E00 <= c <= 0x9FFF /\ gb18030_char c = Some [a; b].
Proof.
  intros Hw. pose proof words_zh_single as H1. rewrite forallb_forall in H1. specialize (H1 w Hw).
  destruct w as [|c [|]]; try discriminate.
  pose proof words_zh_cjk as H2. rewrite forallb_forall in H2. specialize (H2 _ Hw). cbn [forallb] in H2.
  pose proof (covers_spec _ _ _ gb_table_covers Hw) as H3. cbn [head1] in H3. exists c. unfold gb18030_char.
  replace (c <? 128) with false by lia. destruct (assocN c gb_table) as [[a b]|]; [|congruence].
  exists a, b. split; [reflexivity|]. split; [lia|reflexivity].
Qed.
Lemma gb18030_sentence ws : ws <> [] -> (forall w, In w ws -> In w (words ChineseSimplified)) ->
  exists g, gb18030 (spaced ws) = Some g /\ (length g + 1 = 3 * length ws)%nat.
Proof.
  induction ws as [|w ws IH]; intros Hne H; [congruence|].
  destruct (zh_word_char w) as (c & a & b & -> & Hc & Hg); [apply H; left; reflexivity|].
  destruct ws as [|v ws].
  - exists [a; b]. cbn [spaced gb18030]. rewrite Hg. split; reflexivity.
  - destruct IH as (g & Hg' & Hl); [discriminate|intros w Hw; apply H; right; exact Hw|].
    exists (a :: b :: 32 :: g). rewrite spaced_cons by discriminate. split.
    + change ([c] ++ 32 :: spaced (v :: ws)) with (c :: 32 :: spaced (v :: ws)).
      cbn [gb18030]. rewrite Hg. change (gb18030_char 32) with (Some [32]).
      cbn [gb18030] in Hg'. rewrite Hg'. reflexivity.
    + cbn [length] in *. lia.
Qed.
Lemma utf8_sentence_zh ws : ws <> [] -> (forall w, In w ws -> In w (words ChineseSimplified)) ->
  (length (utf8 (spaced ws)) + 1 = 4 * length ws)%nat.
Proof.
  induction ws as [|w ws IH]; intros Hne H; [congruence|].
  destruct (zh_word_char w) as (c & a & b & -> & Hc & Hg); [apply H; left; reflexivity|].
  assert (Hu : length (utf8_char c) = 3%nat).
  { unfold utf8_char. replace (c <? 128) with false by lia. replace (c <? 2048) with false by lia.
    replace (c <? 65536) with true by lia. reflexivity. }
  destruct ws as [|v ws].
  - cbn [spaced]. unfold utf8. cbn [flat_map length]. rewrite app_nil_r, Hu. reflexivity.
  - rewrite spaced_cons by discriminate.
    change ([c] ++ 32 :: spaced (v :: ws)) with ([c; 32] ++ spaced (v :: ws)). rewrite utf8_app, app_length.
    assert (Hv : (length (utf8 (spaced (v :: ws))) + 1 = 4 * length (v :: ws))%nat).
    { apply IH; [discriminate|intros w Hw; apply H; right; exact Hw]. }
    assert (H2 : length (utf8 [c; 32]) = 4%nat) by (unfold utf8; cbn [flat_map]; rewrite !app_length, Hu; reflexivity).
    rewrite H2. cbn [length] in *. lia.
Qed.
Lemma c23_seed_chinese_partial : forall (m : mnemonic) (password : str),
  constructible m -> m_lang m = ChineseSimplified ->
  exists g, gb18030 (m_phrase m) = Some g
    /\ seed_new m password = Ok (pbkdf2_t1 (hmac_sha512 g) (utf8 (lit "mnemonic") ++ utf8 (nfkd password)) 2048).
Proof.
  intros m pw Hc Hl. apply constructible_sentence in Hc. destruct Hc as (ws & Hp & Hs). rewrite Hl in Hs.
  destruct (gb18030_sentence ws) as (g & Hg & _);
    [eapply sentence_nonempty, Hs|intros w Hw; eapply sentence_words; eassumption|].
  exists g. rewrite Hp. split; [exact Hg|]. unfold seed_new, mnemonic_as_bytes. rewrite Hl, Hp, Hg.
  cbn [language_eqb or_panic bind]. rewrite bip39_pbkdf2_eq. reflexivity.
Qed.
Lemma c23_kdf_password_differs : forall (m : mnemonic) (g : bytes),
  constructible m -> m_lang m = ChineseSimplified -> mnemonic_as_bytes m = Ok g ->
  g <> utf8 (nfkd (m_phrase m)).
Proof.
  intros m g Hc Hl Hg. rewrite (nfkd_plain (m_phrase m)) by (apply constructible_plain, Hc).
  apply constructible_sentence in Hc. destruct Hc as (ws & Hp & Hs). rewrite Hl in Hs.
  assert (Hne : ws <> []) by (eapply sentence_nonempty, Hs).
  assert (Hin : forall w, In w ws -> In w (words ChineseSimplified)) by (intros w Hw; eapply sentence_words; eassumption).
  destruct (gb18030_sentence ws Hne Hin) as (g' & Hg' & Hlen).
  pose proof (utf8_sentence_zh ws Hne Hin) as Hlen'.
  unfold mnemonic_as_bytes in Hg. rewrite Hl, Hp in Hg. rewrite Hg' in Hg. cbn in Hg. injection Hg as <-.
  rewrite Hp. intros E. rewrite <- E in Hlen'. destruct ws; [congruence|]. cbn [length] in *. lia.
Qed.
Lemma ex_zh : exists m, constructible m /\ m_lang m = ChineseSimplified.
Proof.
  destruct (from_entropy_unchecked_spec ex_entropy ChineseSimplified) as (ws & _ & Hs); [exact ex_entropy_ok|left; reflexivity|].
  exists (Mnemonic (spaced ws) ChineseSimplified ex_entropy). split; [|reflexivity].
  apply constructible_sentence. exists ws. split; [reflexivity|exact Hs].
Qed.
(** Hence whatever key-derivation function is put in the place of PBKDF2, if it separates passwords then
    the seeds of every Chinese mnemonic are wrong. *)
Lemma c23_seed_chinese_refuted : exists m g,
  constructible m /\ m_lang m = ChineseSimplified /\ mnemonic_as_bytes m = Ok g
  /\ (forall password, seed_new m password = Ok (bip39_pbkdf2 g (nfkd (lit "mnemonic" ++ password))))
  /\ g <> utf8 (nfkd (m_phrase m)).
Proof.
  destruct ex_zh as (m & Hc & Hl).
  destruct (c23_seed_chinese_partial m [] Hc Hl) as (g & Hg & _).
  assert (Hb : mnemonic_as_bytes m = Ok g) by (unfold mnemonic_as_bytes; rewrite Hl, Hg; reflexivity).
  exists m, g. split; [exact Hc|]. split; [exact Hl|]. split; [exact Hb|]. split.
  - intros pw. unfold seed_new. rewrite Hb. reflexivity.
  - eapply c23_kdf_password_differs; eassumption.
Qed.
Example c23_example : exists m, constructible m /\ m_lang m = ChineseSimplified.
Proof.
  exact ex_zh.
Qed.

(** C24 *)
Lemma constructible_as_bytes m : constructible m -> exists g, mnemonic_as_bytes m = Ok g.
Proof.
  intros Hc. unfold mnemonic_as_bytes. destruct (m_lang m) eqn:Hl; cbn [language_eqb]; [eauto|].
  destruct (c23_seed_chinese_partial m [] Hc Hl) as (g & Hg & _). rewrite Hg. cbn. eauto.
Qed.
Lemma c24_seed_is_64_bytes : forall (m : mnemonic) (password : str), constructible m ->
  exists seed, seed_new m password = Ok seed /\ length seed = 64%nat /\ bytes_ok seed.
Proof.
  intros m pw Hc. destruct (constructible_as_bytes m Hc) as (g & Hg). unfold seed_new. rewrite Hg. cbn [bind].
  eexists. split; [reflexivity|]. unfold bip39_pbkdf2, pbkdf2_bytes. split; [apply pbkdf2_sha512_length|apply pbkdf2_sha512_ok].
Qed.
Example c24_example : constructible ex_mnemonic.
Proof.
  exact ex_constructible.
Qed.

(** C25 *)
Lemma c25_password_normalised : forall (m : mnemonic),
  (forall p1 p2 : str, nfkd p1 = nfkd p2 -> seed_new m p1 = seed_new m p2)
  /\ (forall p : str, seed_new m (nfkd p) = seed_new m p).
Proof.
  intros m.
  assert (H : forall p1 p2 : str, nfkd p1 = nfkd p2 -> seed_new m p1 = seed_new m p2).
  { intros p1 p2 E. unfold seed_new. rewrite !nfkd_salt, E. reflexivity. }
  split; [exact H|]. intros p. apply H, nfkd_idem.
Qed.
Example c25_example : nfkd [0xE9] = nfkd [0x65; 0x301] /\ [0xE9] <> [0x65; 0x301].
Proof.
  split; [vm_compute; reflexivity|discriminate].
Qed.

(** C26 *)
Lemma unhex_hex_byte upper b s : b < 256 ->
  unhex upper (hex_byte upper b ++ s) = match unhex upper s with Some l => Some (b :: l) | None => None end.
Proof.
  intros Hb. assert (Hd : forall d, d < 16 -> unhex_digit upper (hex_digit upper d) = Some d).
  { intros d Hd. unfold unhex_digit, hex_digit. destruct (N.ltb_spec d 10) as [H|H].
    - replace ((48 <=? 48 + d) && (48 + d <=? 57)) with true by lia. f_equal. lia.
    - destruct upper.
      + replace ((48 <=? 55 + d) && (55 + d <=? 57)) with false by lia.
        replace ((65 <=? 55 + d) && (55 + d <=? 70)) with true by lia. f_equal. lia.
      + replace ((48 <=? 87 + d) && (87 + d <=? 57)) with false by lia.
        replace ((97 <=? 87 + d) && (87 + d <=? 102)) with true by lia. f_equal. lia. }
  unfold hex_byte. cbn [app unhex].
  rewrite Hd by (apply N.div_lt_upper_bound; lia). rewrite Hd by (apply N.mod_lt; discriminate).
  destruct (unhex upper s); [|reflexivity]. f_equal. f_equal. symmetry. apply N.div_mod'.
Qed.
Lemma unhex_flat upper l : bytes_ok l -> unhex upper (flat_map (hex_byte upper) l) = Some l.
Proof.
  induction 1 as [|b l Hb _ IH]; [reflexivity|]. cbn [flat_map]. rewrite unhex_hex_byte by exact Hb. rewrite IH. reflexivity.
Qed.
Lemma c26_hex_formatting : forall (upper alternate : bool) (m : mnemonic) (seed : bytes),
  bytes_ok (m_entropy m) -> bytes_ok seed ->
  (exists digits, mnemonic_hex upper alternate m = (if alternate then lit "0x" else []) ++ digits
     /\ length digits = (2 * length (m_entropy m))%nat /\ unhex upper digits = Some (m_entropy m))
  /\ (exists digits, seed_hex upper alternate seed = (if alternate then lit "0x" else []) ++ digits
     /\ length digits = (2 * length seed)%nat /\ unhex upper digits = Some seed)
  /\ (exists digits, seed_debug seed = lit "0x" ++ digits
     /\ length digits = (2 * length seed)%nat /\ unhex true digits = Some seed).
Proof.
  intros upper alt m seed Hm Hs.
  assert (Hlen : forall u l, length (flat_map (hex_byte u) l) = (2 * length l)%nat).
  { intros u. induction l as [|b l IH]; [reflexivity|]. cbn [flat_map]. rewrite app_length, IH. cbn [hex_byte length]. lia. }
  split; [|split]; [| |exists (flat_map (hex_byte true) seed); split; [reflexivity|split; [apply Hlen|apply unhex_flat, Hs]]].
  - exists (flat_map (hex_byte upper) (m_entropy m)). split; [reflexivity|]. split; [apply Hlen|apply unhex_flat, Hm].
  - exists (flat_map (hex_byte upper) seed). split; [reflexivity|]. split; [apply Hlen|apply unhex_flat, Hs].
Qed.
Example c26_example : mnemonic_hex false true ex_mnemonic = lit "0x33e46bb13a746ea41cdde45c90846a79"
  /\ seed_debug [0x0A; 0xF0] = lit "0x0AF0".
Proof.
  split; reflexivity.
Qed.

(** C27 *)
Lemma c27_phrase_kept : forall m : mnemonic, constructible m ->
  fst (into_phrase m) = m_phrase m /\ mnemonic_display m = m_phrase m
  /\ from_phrase (m_phrase m) (m_lang m) = Ok m.
Proof.
  intros m H. split; [reflexivity|]. split; [reflexivity|].
  apply constructible_sentence in H. destruct H as (ws & Hp & Hs). rewrite Hp, (sentence_from_phrase _ _ _ Hs).
  destruct m; cbn in *; congruence.
Qed.
Example c27_example : constructible ex_mnemonic.
Proof.
  exact ex_constructible.
Qed.

(** C14 *)
Lemma binary_search_loop_total l x : forall fuel left right,
  (N.to_nat right - N.to_nat left <= fuel)%nat -> left <= right -> right <= len l ->
  exists r, binary_search_loop fuel l x left right = Ok r /\ (match r with inl i => i | inr i => i end) <= len l.
Proof.
  intros fuel. induction fuel as [|fuel IH]; intros left right Hf Hlr Hr; cbn [binary_search_loop].
  - destruct (N.ltb_spec left right) as [H|H]; [lia|]. exists (inr left). split; [reflexivity|lia].
  - destruct (N.ltb_spec left right) as [H|H]; [|exists (inr left); split; [reflexivity|lia]].
    cbv zeta. set (mid := left + (right - left) / 2).
    assert (Hd : (right - left) / 2 < right - left) by (apply N.div_lt; lia).
    assert (Hm : left <= mid < right) by (unfold mid; lia).
    unfold index. unfold len in *. destruct (nth_error l (N.to_nat mid)) as [y|] eqn:Ey.
    2:{ apply nth_error_None in Ey. lia. }
    cbn [or_panic bind]. destruct (str_cmp y x); [exists (inl mid); split; [reflexivity|lia]|apply IH; lia|apply IH; lia].
Qed.
Lemma get_words_by_prefix_total l p : get_words_by_prefix l p <> Panic.
Proof.
  unfold get_words_by_prefix, get_words_by_prefix_with, binary_search.
  destruct (binary_search_loop_total l p (S (length l)) 0 (len l)) as (r & -> & Hr); try (unfold len; lia).
  cbn [bind]. unfold sub_chk. apply N.leb_le in Hr. rewrite Hr. discriminate.
Qed.
Lemma c14_bip39_no_panic : 
  (forall s l, from_phrase s l <> Panic) /\ (forall s l, validate s l <> Panic)
  /\ (forall ent l, bytes_ok ent -> len ent < 2 ^ 61 -> from_entropy ent l <> Panic)
  /\ (forall t l rng, (forall i, rng i < 256) -> mnemonic_new t l rng <> Panic)
  /\ (forall s, for_phrase s <> Panic)
  /\ (forall n, for_word_count n <> Panic) /\ (forall n, for_key_size n <> Panic)
  /\ (forall m pw, constructible m -> seed_new m pw <> Panic)
  /\ (forall l w, get_bits (wordmap_of l) w <> Panic)
  /\ (forall l i, i < 2048 -> get_word (wordlist l) i <> Panic)
  /\ (forall l p, get_words_by_prefix (wordlist l) p <> Panic).
Proof.
  assert (Hw : forall n, for_word_count n <> Panic).
  { intros n. rewrite for_word_count_if. repeat destruct (_ =? _); discriminate. }
  split; [|split; [|split; [|split; [|split; [|split; [|split; [|split; [|split; [|split]]]]]]]]].
  - intros s l H. pose proof (from_phrase_outcome s l) as Ho. rewrite H in Ho. exact Ho.
  - intros s l H. pose proof (c13_error_order_validate s l) as Ho. rewrite H in Ho. exact Ho.
  - intros ent l Hok Hlt H. destruct (from_entropy_key_size ent l Hlt) as [[HL E]|[_ E]]; rewrite E in H; [|discriminate].
    destruct (from_entropy_unchecked_spec ent l Hok HL) as (ws & E' & _). congruence.
  - intros t l rng Hr H. destruct (c07_new_is_valid t l rng Hr) as (m & E & _). congruence.
  - intros s. apply Hw.
  - exact Hw.
  - intros n. rewrite for_key_size_if. repeat destruct (_ =? _); discriminate.
  - intros m pw Hc H. destruct (c24_seed_is_64_bytes m pw Hc) as (seed & E & _). congruence.
  - intros l w H. unfold get_bits in H. destruct (map_get _ _); discriminate.
  - intros l i Hi H. destruct (is_word_ex l i Hi) as (w & Hw'). apply get_word_ok in Hw'. congruence.
  - intros l p. apply get_words_by_prefix_total.
Qed.
Example c14_example : bytes_ok (repeat 7 1000) /\ len (repeat 7 1000) < 2 ^ 61.
Proof.
  split; [|vm_compute; reflexivity]. apply Forall_forall. intros x Hx. apply repeat_spec in Hx. subst. reflexivity.
Qed.
