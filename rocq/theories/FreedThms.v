(** Proofs about the secrets that src/bip39 leaves on the heap (restated in PropFreed.v). *)
From Coq Require Import String ZifyBool ZifyNat ZifyN.
From Verif Require Import Outcome Bytes Str Hash HashLemmas Nfkd NfkdLemmas ModelBip39 SpecBip39 BitLemmas WordData WordLemmas StrLemmas.
From Verif Require Import Bip39Proofs Bip39Thms More39Thms SpecUnicode HashThms UnicodeThms ModelFreed.
Open Scope N_scope.

(** ** Vectors *)
Lemma vec_push_data v b : v_data (vec_push v b) = v_data v ++ [b].
Proof. unfold vec_push. destruct (_ <? _); reflexivity. Qed.
Lemma vec_fold_data d : forall v, v_data (fold_left vec_push d v) = v_data v ++ d.
Proof.
  induction d as [|b d IH]; intros v; cbn [fold_left]; [symmetry; apply app_nil_r|].
  rewrite IH, vec_push_data, <- app_assoc. reflexivity.
Qed.
Lemma vec_of_data c d : v_data (vec_of c d) = d.
Proof. apply vec_fold_data. Qed.
Lemma vec_fold_fits d : forall v, len (v_data v) + len d <= v_cap v -> v_freed (fold_left vec_push d v) = v_freed v.
Proof.
  induction d as [|b d IH]; intros v H; cbn [fold_left]; [reflexivity|].
  change (len (b :: d)) with (N.of_nat (S (length d))) in H. rewrite Nat2N.inj_succ in H. fold (len d) in H.
  assert (E : vec_push v b = Vec (v_cap v) (v_data v ++ [b]) (v_freed v)).
  { unfold vec_push. destruct (N.ltb_spec (len (v_data v)) (v_cap v)) as [_|L]; [reflexivity|lia]. }
  rewrite E, IH; [reflexivity|]. cbn [v_data v_cap]. rewrite len_app. change (len [b]) with 1. lia.
Qed.
Lemma vec_of_fits c d : len d <= bw_capacity c -> v_freed (vec_of c d) = [].
Proof. intros H. unfold vec_of. rewrite vec_fold_fits; [reflexivity|]. cbn. exact H. Qed.
Lemma vec_dropped_in v : v_data v <> [] -> In (v_data v) (vec_dropped v).
Proof. intros H. unfold vec_dropped. apply in_or_app. right. destruct (v_data v); [congruence|left; reflexivity]. Qed.
Lemma vec_dropped_of c d : len d <= bw_capacity c -> d <> [] -> vec_dropped (vec_of c d) = [d].
Proof. intros H Hn. unfold vec_dropped. rewrite vec_of_fits, vec_of_data by exact H. destruct d; [congruence|reflexivity]. Qed.

(** ** The same results *)
Lemma push_words_mem_fst m ws : forall w, fst (push_words_mem m ws w) = push_words m ws w.
Proof.
  induction ws as [|v ws IH]; intros w; cbn [push_words_mem push_words]; [reflexivity|].
  destruct (get_bits m v) as [b|e|]; cbn [bind fst]; try reflexivity.
  destruct (bw_push w b) as [w'|e|]; cbn [bind fst]; try reflexivity. apply IH.
Qed.
Lemma phrase_to_entropy_mem_fst s l : fst (phrase_to_entropy_mem s l) = phrase_to_entropy s l.
Proof.
  unfold phrase_to_entropy_mem, phrase_to_entropy. rewrite <- push_words_mem_fst.
  destruct (push_words_mem (wordmap_of l) (split_char 32 s) bw_new) as [[w|e|] w']; cbn [bind fst]; try reflexivity.
  destruct (for_word_count (bw_len w / 11)) as [t|e|]; cbn [bind fst]; try reflexivity.
  destruct (bw_len w =? total_bits t); cbn [bind fst]; try reflexivity.
  destruct (bw_into_bytes w) as [b|e|]; cbn [bind fst]; reflexivity.
Qed.
Lemma validate_mem_snd s l : snd (validate_mem s l) = vec_dropped (snd (phrase_to_entropy_mem s l)).
Proof. unfold validate_mem. destruct (phrase_to_entropy_mem s l) as [r v]. reflexivity. Qed.

(** The model with memory returns what the functions return. *)
Lemma c110_same_results : forall (s : str) (l : language),
  fst (validate_mem s l) = validate s l /\ fst (from_phrase_mem s l) = from_phrase s l.
Proof.
  intros s l. split.
  - unfold validate_mem, validate. rewrite <- phrase_to_entropy_mem_fst. destruct (phrase_to_entropy_mem s l) as [r v]. reflexivity.
  - unfold from_phrase_mem, from_phrase. rewrite <- phrase_to_entropy_mem_fst.
    destruct (phrase_to_entropy_mem _ l) as [[e|e|] v]; reflexivity.
Qed.

(** ** The words *)
Lemma push_words_mem_ok l idx ws b w : Forall2 (is_word l) idx ws -> bw_holds w b ->
  exists w', push_words_mem (wordmap_of l) ws w = (Ok w', w') /\ bw_holds w' (b ++ flat_map (bits_of 11) idx).
Proof.
  intros H. revert b w. induction H as [|i v idx ws Hi _ IH]; intros b w Hb; cbn [push_words_mem flat_map].
  - exists w. rewrite app_nil_r. auto.
  - rewrite (proj2 (get_bits_ok l v i) Hi).
    destruct (bw_push_holds w b i Hb) as (w' & -> & Hb'); [eapply is_word_lt, Hi|].
    destruct (IH _ _ Hb') as (w'' & He & Hb''). exists w''. rewrite <- app_assoc in Hb''. auto.
Qed.
Lemma push_words_mem_bad l idx good bad rest b w : Forall2 (is_word l) idx good -> ~ In bad (words l) -> bw_holds w b ->
  exists w', push_words_mem (wordmap_of l) (good ++ bad :: rest) w = (Err InvalidWord, w')
          /\ bw_holds w' (b ++ flat_map (bits_of 11) idx).
Proof.
  intros H Hbad. revert b w. induction H as [|i v idx ws Hi _ IH]; intros b w Hb; cbn [push_words_mem flat_map app].
  - rewrite get_bits_err by exact Hbad. exists w. rewrite app_nil_r. auto.
  - rewrite (proj2 (get_bits_ok l v i) Hi).
    destruct (bw_push_holds w b i Hb) as (w' & -> & Hb'); [eapply is_word_lt, Hi|].
    destruct (IH _ _ Hb') as (w'' & He & Hb''). exists w''. rewrite <- app_assoc in Hb''. auto.
Qed.
(** At the first word that is not in the list, the vector holds the bits of the words before it. *)
Lemma mem_bad l good bad rest bits s : encodes l good bits -> ~ In bad (bip39_list l) -> split_char 32 s = good ++ bad :: rest ->
  exists b tail, phrase_to_entropy_mem s l = (Err InvalidWord, vec_of 264 b) /\ bits = bits_of_bytes b ++ tail /\ (length tail < 8)%nat.
Proof.
  intros (idx & F & _ & <-) Hbad Hs. rewrite bip39_list_words in Hbad. unfold phrase_to_entropy_mem. rewrite Hs.
  destruct (push_words_mem_bad l idx good bad rest [] bw_new F Hbad bw_holds_new) as (w & -> & r & E & _ & Hr & Hlt & _).
  exists (bw_inner w), r. split; [reflexivity|]. split; [exact E|]. unfold len in Hr. lia.
Qed.
Lemma mem_count l ws bits s : encodes l ws bits -> ~ legal_count (length ws) -> split_char 32 s = ws ->
  exists b tail, phrase_to_entropy_mem s l = (Err (InvalidWordLength (len ws)), vec_of 264 b) /\ bits = bits_of_bytes b ++ tail /\ (length tail < 8)%nat.
Proof.
  intros (idx & F & _ & <-) Hc Hs. unfold phrase_to_entropy_mem. rewrite Hs.
  destruct (push_words_mem_ok l idx ws [] bw_new F bw_holds_new) as (w & -> & Hw).
  pose proof Hw as Hw'. destruct Hw' as (r & E & _ & Hr & Hlt & _).
  assert (Hli : length idx = length ws) by (eapply Forall2_length; eassumption).
  rewrite (bw_len_holds _ _ Hw). cbn [app] in *. unfold len at 1. rewrite flat_map_bits_length, Hli.
  replace (N.of_nat (11 * length ws) / 11) with (N.of_nat (length ws)) by (apply N.div_unique with 0; lia).
  rewrite for_word_count_err.
  - exists (bw_inner w), r. split; [reflexivity|]. split; [exact E|]. unfold len in Hr. lia.
  - intros t Ht. apply Hc. apply legal_count_c. exists (mt_c t). split; [apply mt_c_range|lia].
Qed.
Lemma mem_count_ok l ws ent cs s : bytes_ok ent -> legal_entropy ent -> encodes l ws (bits_of_bytes ent ++ cs) ->
  length cs = cs_bits ent -> split_char 32 s = ws -> exists x, snd (phrase_to_entropy_mem s l) = vec_of 264 (ent ++ [x]).
Proof.
  intros Hok HL Henc Hcs Hs. destruct (encodes_legal_count _ _ _ _ HL Hcs Henc) as [Hms Hlc].
  destruct Henc as (idx & F & _ & Hbits). unfold phrase_to_entropy_mem. rewrite Hs.
  destruct (push_words_mem_ok l idx ws [] bw_new F bw_holds_new) as (w & -> & Hw).
  assert (Hli : length idx = length ws) by (eapply Forall2_length; eassumption).
  rewrite (bw_len_holds _ _ Hw). cbn [app] in *. unfold len at 1 2. rewrite flat_map_bits_length, Hli.
  replace (N.of_nat (11 * length ws) / 11) with (N.of_nat (length ws)) by (apply N.div_unique with 0; lia).
  apply legal_count_c in Hlc. destruct Hlc as (c & Hc & Hws).
  destruct (mt_of_c c Hc) as (t & Ht).
  rewrite (proj2 (for_word_count_ok (N.of_nat (length ws)) t)) by (rewrite Ht; lia).
  rewrite mt_total_bits, Ht.
  replace (N.of_nat (11 * length ws) =? N.of_nat (33 * c)) with true by lia.
  destruct (bw_into_bytes_holds _ _ Hw) as (lb & pad & -> & Hokb & Hb & Hpad). cbn [snd].
  rewrite Hbits, <- app_assoc in Hb.
  assert (Hle : length ent = (4 * c)%nat).
  { apply (f_equal (@length bool)) in Hbits. rewrite app_length, bits_of_bytes_length, flat_map_bits_length in Hbits.
    apply legal_entropy_c in HL. destruct HL as (c' & Hc' & HL). rewrite (cs_bits_c ent c' HL) in Hcs. lia. }
  assert (Hlen : length lb = (4 * c + 1)%nat).
  { apply (f_equal (@length bool)) in Hb. rewrite !app_length, !bits_of_bytes_length in Hb.
    rewrite (cs_bits_c ent c Hle) in Hcs. lia. }
  assert (Hsp : exists a x, lb = a ++ [x] /\ length a = length ent).
  { exists (firstn (4 * c) lb). assert (L : length (skipn (4 * c) lb) = 1%nat) by (rewrite skipn_length; lia).
    destruct (skipn (4 * c) lb) as [|x [|]] eqn:E; try discriminate L. exists x. split; [rewrite <- E; symmetry; apply firstn_skipn|].
    rewrite firstn_length. lia. }
  destruct Hsp as (a & x & -> & La). exists x. do 2 f_equal.
  rewrite bits_of_bytes_app in Hb. apply bytes_ok_app in Hokb. destruct Hokb as [Hoka _].
  apply app_inj in Hb; [|rewrite !bits_of_bytes_length; lia].
  apply bits_of_bytes_inj; [exact Hoka|exact Hok|exact (proj1 Hb)].
Qed.

(** ** Texts *)
Definition typed (w : str) : Prop := w <> [] /\ Forall (fun c => 33 <= c <= 126) w.
Lemma typed_fine l w : In w (words l) \/ typed w -> w <> [] /\ no_white w = true /\ no_space w = true /\ nfkd w = w.
Proof.
  intros [H|[Hn H]].
  - split; [eapply words_nonempty, H|]. split; [eapply words_no_white, H|]. split; [eapply words_no_space, H|eapply words_nfkd, H].
  - rewrite Forall_forall in H. split; [exact Hn|].
    split; [|split]; [| |apply nfkd_plain]; apply forallb_forall; intros c Hc; specialize (H c Hc); unfold is_whitespace, plain; lia.
Qed.
Lemma typed_split l ws : ws <> [] -> (forall w, In w ws -> In w (words l) \/ typed w) -> split_char 32 (spaced ws) = ws.
Proof.
  intros Hn H. apply split_char_spaced; [exact Hn|]. apply forallb_forall. intros w Hw. apply (typed_fine l), H, Hw.
Qed.
Lemma typed_norm l ws : (forall w, In w ws -> In w (words l) \/ typed w) -> iter_join (lit " ") (map nfkd (split_whitespace (spaced ws))) = spaced ws.
Proof.
  intros H. rewrite iter_join_spaced. f_equal. rewrite split_whitespace_spaced.
  - rewrite <- (map_id ws) at 2. apply map_ext_in. intros w Hw. apply (typed_fine l), H, Hw.
  - apply Forall_forall. intros w Hw. destruct (typed_fine l w (H w Hw)) as (A & B & _). auto.
Qed.
Lemma from_phrase_mem_err s l ws e v : (forall w, In w ws -> In w (words l) \/ typed w) -> s = spaced ws ->
  phrase_to_entropy_mem s l = (Err e, v) -> from_phrase_mem s l = (Err e, vec_dropped v).
Proof.
  intros H -> E. unfold from_phrase_mem. rewrite (typed_norm l ws H), E. reflexivity.
Qed.
Lemma first_byte (b : bytes) (tail : list bool) l ws : encodes l ws (bits_of_bytes b ++ tail) -> (length tail < 8)%nat -> ws <> [] -> b <> [].
Proof.
  intros H L Hn ->. apply encodes_length in H. cbn [bits_of_bytes flat_map app] in H. destruct ws; [congruence|]. cbn [length] in H. lia.
Qed.

(** ** C110 *)
(** A phrase that is accepted by [from_phrase] leaves nothing. *)
Lemma c110_accepted_partial : forall (s : str) (l : language) (m : mnemonic),
  from_phrase s l = Ok m -> snd (from_phrase_mem s l) = [].
Proof.
  intros s l m H. pose proof H as H0. apply from_phrase_ok in H. destruct H as (Hs & _ & _).
  unfold from_phrase_mem. rewrite iter_join_spaced. fold (norm_words s).
  assert (E : exists x, snd (phrase_to_entropy_mem (spaced (norm_words s)) l) = vec_of 264 (m_entropy m ++ [x])).
  { apply sentence_parts in Hs as Hp. destruct Hp as (A & B & C & D).
    apply (mem_count_ok l (norm_words s) _ (checksum_of (m_entropy m))); auto. eapply sentence_split, Hs. }
  destruct E as (x & E). unfold from_phrase in H0. rewrite iter_join_spaced in H0. fold (norm_words s) in H0.
  rewrite <- phrase_to_entropy_mem_fst in H0.
  destruct (phrase_to_entropy_mem (spaced (norm_words s)) l) as [r v]. cbn [fst snd] in *. subst v.
  destruct r as [e|e|]; [|discriminate H0|discriminate H0]. cbn [snd]. apply vec_of_fits.
  destruct Hs as (_ & HL & _). rewrite len_app. change (len [x]) with 1. change (bw_capacity 264) with 33.
  unfold len. unfold legal_entropy in HL. cbn [In] in HL. lia.
Qed.
(** [validate] leaves the entropy of every phrase that it accepts, and both leave that of every phrase that
    fails only by its checksum. *)
Lemma c110_entropy_left : forall (l : language) (ws : list str) (ent : bytes) (cs : list bool),
  bytes_ok ent -> legal_entropy ent -> length cs = cs_bits ent -> encodes l ws (bits_of_bytes ent ++ cs) ->
  exists x, snd (validate_mem (spaced ws) l) = [ent ++ [x]]
    /\ (cs <> checksum_of ent -> from_phrase (spaced ws) l = Err InvalidChecksum
                                 /\ snd (from_phrase_mem (spaced ws) l) = [ent ++ [x]]).
Proof.
  intros l ws ent cs Hok HL Hcs Henc.
  assert (Hin : forall w, In w ws -> In w (words l) \/ typed w) by (intros w Hw; left; eapply encodes_in; eassumption).
  assert (Hne : ws <> []).
  { intros ->. destruct (encodes_legal_count _ _ _ _ HL Hcs Henc) as [_ H]. unfold legal_count in H. cbn in H. lia. }
  pose proof (typed_split l ws Hne Hin) as Hsp.
  destruct (mem_count_ok l ws ent cs (spaced ws) Hok HL Henc Hcs Hsp) as (x & E). exists x.
  assert (Hd : vec_dropped (vec_of 264 (ent ++ [x])) = [ent ++ [x]]).
  { apply vec_dropped_of; [|destruct ent; discriminate].
    rewrite len_app. change (len [x]) with 1. change (bw_capacity 264) with 33.
    unfold len. unfold legal_entropy in HL. cbn [In] in HL. lia. }
  split; [rewrite validate_mem_snd, E; exact Hd|]. intros Hbad.
  assert (P : phrase_to_entropy (spaced ws) l = Err InvalidChecksum).
  { apply phrase_to_entropy_iff. rewrite Hsp. eapply spec_bad_checksum; eassumption. }
  assert (M : phrase_to_entropy_mem (spaced ws) l = (Err InvalidChecksum, vec_of 264 (ent ++ [x]))).
  { rewrite <- P, <- E, <- phrase_to_entropy_mem_fst. destruct (phrase_to_entropy_mem _ l). reflexivity. }
  pose proof (from_phrase_mem_err _ l ws _ _ Hin eq_refl M) as Q. rewrite Q. cbn [snd]. split; [|exact Hd].
  rewrite <- (proj2 (c110_same_results (spaced ws) l)), Q. reflexivity.
Qed.
(** A word that is not in the list (a typing error) leaves the bits of all words before it, up to the last
    whole byte; so does a phrase that is too short or too long. *)
Lemma c110_typing_error : forall (l : language) (good : list str) (bad : str) (rest : list str) (bits : list bool),
  good <> [] -> encodes l good bits -> ~ In bad (bip39_list l) ->
  Forall (fun w => In w (bip39_list l) \/ w <> [] /\ Forall (fun c => 33 <= c <= 126) w) (bad :: rest) ->
  let s := spaced (good ++ bad :: rest) in
  from_phrase s l = Err InvalidWord /\ validate s l = Err InvalidWord
  /\ exists b tail, bits = bits_of_bytes b ++ tail /\ (length tail < 8)%nat
       /\ In b (snd (from_phrase_mem s l)) /\ In b (snd (validate_mem s l)).
Proof.
  intros l good bad rest bits Hg He Hb Hr s.
  assert (Hin : forall w, In w (good ++ bad :: rest) -> In w (words l) \/ typed w).
  { intros w Hw. apply in_app_or in Hw. destruct Hw as [Hw|Hw]; [left; eapply encodes_in; eassumption|].
    rewrite Forall_forall in Hr. specialize (Hr w Hw). rewrite bip39_list_words in Hr. exact Hr. }
  assert (Hsp : split_char 32 s = good ++ bad :: rest).
  { apply (typed_split l); [|exact Hin]. destruct good; discriminate. }
  destruct (mem_bad l good bad rest bits s He Hb Hsp) as (b & tail & M & Eb & Lt).
  pose proof (from_phrase_mem_err s l _ _ _ Hin eq_refl M) as Q.
  destruct (c110_same_results s l) as [V P]. rewrite Q in P. cbn [fst] in P. rewrite <- P.
  split; [reflexivity|]. split; [rewrite <- V; unfold validate_mem; rewrite M; reflexivity|].
  exists b, tail. split; [exact Eb|]. split; [exact Lt|]. rewrite validate_mem_snd, M, Q. cbn [snd].
  assert (In b (vec_dropped (vec_of 264 b))); [|auto].
  rewrite <- (vec_of_data 264 b) at 1. apply vec_dropped_in. rewrite vec_of_data.
  subst bits. eapply first_byte; eassumption.
Qed.
Lemma c110_wrong_count : forall (l : language) (ws : list str) (bits : list bool),
  ws <> [] -> encodes l ws bits -> ~ legal_count (length ws) ->
  from_phrase (spaced ws) l = Err (InvalidWordLength (len ws))
  /\ exists b tail, bits = bits_of_bytes b ++ tail /\ (length tail < 8)%nat
       /\ In b (snd (from_phrase_mem (spaced ws) l)) /\ In b (snd (validate_mem (spaced ws) l)).
Proof.
  intros l ws bits Hn He Hc.
  assert (Hin : forall w, In w ws -> In w (words l) \/ typed w) by (intros w Hw; left; eapply encodes_in; eassumption).
  pose proof (typed_split l ws Hn Hin) as Hsp.
  destruct (mem_count l ws bits _ He Hc Hsp) as (b & tail & M & Eb & Lt).
  pose proof (from_phrase_mem_err _ l _ _ _ Hin eq_refl M) as Q.
  destruct (c110_same_results (spaced ws) l) as [_ P]. rewrite Q in P. cbn [fst] in P. rewrite <- P.
  split; [reflexivity|].
  exists b, tail. split; [exact Eb|]. split; [exact Lt|]. rewrite validate_mem_snd, M, Q. cbn [snd].
  assert (In b (vec_dropped (vec_of 264 b))); [|auto].
  rewrite <- (vec_of_data 264 b) at 1. apply vec_dropped_in. rewrite vec_of_data.
  subst bits. eapply first_byte; eassumption.
Qed.
(** So it is false that these functions leave nothing. *)
Lemma ex_sentence : bip39_sentence English (norm_words ex_phrase) ex_entropy /\ spaced (norm_words ex_phrase) = ex_phrase.
Proof.
  pose proof ex_from_phrase as H. apply from_phrase_ok in H. destruct H as (A & B & _). split; [exact A|symmetry; exact B].
Qed.
Lemma ex_not_word : ~ In (lit "vibrent") (bip39_list English).
Proof.
  rewrite bip39_list_words. intros H. assert (E : existsb (str_eqb (lit "vibrent")) (words English) = true).
  { apply existsb_exists. exists (lit "vibrent"). split; [exact H|reflexivity]. }
  vm_compute in E. discriminate E.
Qed.
Lemma ex_good : exists good bits, good <> [] /\ encodes English good bits /\ length good = 11%nat
  /\ spaced (good ++ [lit "vibrent"]) = lit "crop cash unable insane eight faith inflict route frame loud box vibrent".
Proof.
  destruct ex_sentence as [S E]. set (ws := norm_words ex_phrase) in *.
  assert (Hw : ws = split_char 32 ex_phrase) by (rewrite <- E; symmetry; eapply sentence_split, S).
  exists (firstn 11 ws). destruct (all_words_indices English (firstn 11 ws)) as (idx & F).
  { intros w Hw'. eapply sentence_words; [exact S|]. rewrite <- (firstn_skipn 11 ws). apply in_or_app. left. exact Hw'. }
  exists (flat_map (bits_of 11) idx).
  assert (Hf : firstn 11 ws = firstn 11 (split_char 32 ex_phrase)) by exact (f_equal (firstn 11) Hw).
  split; [|split; [|split]].
  - rewrite Hf. vm_compute. discriminate.
  - exists idx. split; [exact F|]. split; [eapply forall2_is_word_lt, F|reflexivity].
  - rewrite Hf. vm_compute. reflexivity.
  - rewrite Hf. vm_compute. reflexivity.
Qed.
Lemma c110_nothing_left_refuted :
  ~ (forall (s : str) (l : language), validate s l = Ok tt -> snd (validate_mem s l) = [])
  /\ ~ (forall (s : str) (l : language), snd (from_phrase_mem s l) = []).
Proof.
  split; intros H.
  - destruct ex_sentence as [S E]. apply sentence_parts in S. destruct S as (A & B & C & D).
    destruct (c110_entropy_left _ _ _ _ A B C D) as (x & L & _). rewrite E in L.
    rewrite H in L; [discriminate L|exact c11_example].
  - destruct ex_good as (good & bits & Hn & He & _).
    destruct (c110_typing_error English good (lit "vibrent") [] bits Hn He ex_not_word) as (_ & _ & b & t & _ & _ & I & _).
    { constructor; [|constructor]. right. split; [discriminate|]. apply Forall_forall. intros c Hc. revert c Hc. apply Forall_forall.
      repeat constructor; discriminate. }
    rewrite H in I. destruct I.
Qed.
(** A vector that grows leaves a copy at each size it outgrows, and at no other moment. *)
Lemma grown_step c k : grown c (S k) = N.max 8 (2 * grown c k).
Proof. reflexivity. Qed.
Lemma grown_lt c : forall k j, (k < j)%nat -> grown c k < grown c j.
Proof. intros k j. induction j as [|j IH]; intros H; [lia|]. rewrite grown_step. destruct (Nat.eq_dec k j) as [->|Hn]; [lia|]. specialize (IH ltac:(lia)). lia. Qed.
Lemma vec_grows c : forall d, exists k, let v := fold_left vec_push d (vec_with_capacity c) in
  v_cap v = grown c k /\ v_data v = d /\ len d <= v_cap v /\ (forall j, (j < k)%nat -> grown c j < len d)
  /\ (forall b, In b (v_freed v) <-> exists j, (j < k)%nat /\ 0 < grown c j /\ b = firstn (N.to_nat (grown c j)) d).
Proof.
  intros d. induction d as [|x d IH] using rev_ind.
  - exists 0%nat. cbn. split; [reflexivity|]. split; [reflexivity|]. split; [lia|]. split; [lia|]. intros b. split; [intros []|]. intros (j & Hj & _). lia.
  - destruct IH as (k & C & D & L & G & F). rewrite fold_left_app. cbn [fold_left]. set (v := fold_left vec_push d (vec_with_capacity c)) in *. clearbody v.
    unfold vec_push. rewrite D. assert (L1 : len (d ++ [x]) = len d + 1) by (rewrite len_app; reflexivity).
    assert (Ex : forall j, grown c j <= len d -> firstn (N.to_nat (grown c j)) (d ++ [x]) = firstn (N.to_nat (grown c j)) d).
    { intros j Hj. rewrite firstn_app. unfold len in Hj. replace (N.to_nat (grown c j) - length d)%nat with 0%nat by lia. cbn [firstn]. apply app_nil_r. }
    destruct (N.ltb_spec (len d) (v_cap v)) as [H|H]; cbn [v_cap v_data v_freed].
    + exists k. split; [exact C|]. split; [reflexivity|]. split; [lia|]. split; [intros j Hj; specialize (G j Hj); lia|].
      intros b. rewrite F. split; intros (j & Hj & Hp & ->); exists j; (split; [exact Hj|]); (split; [exact Hp|]); [symmetry|]; apply Ex; specialize (G j Hj); lia.
    + assert (E : grown c k = len d) by lia. exists (S k). split; [rewrite grown_step, C; reflexivity|]. split; [reflexivity|]. split; [lia|].
      split; [intros j Hj; destruct (Nat.eq_dec j k) as [->|Hn]; [lia|]; specialize (G j ltac:(lia)); lia|].
      intros b. rewrite in_app_iff, F. assert (Fk : firstn (N.to_nat (grown c k)) d = d) by (rewrite E; unfold len; rewrite Nat2N.id; apply firstn_all). split.
      * intros [(j & Hj & Hp & ->)|Hb].
        -- exists j. split; [lia|]. split; [exact Hp|]. symmetry. apply Ex. specialize (G j Hj). lia.
        -- exists k. split; [lia|]. rewrite Ex, Fk by lia. destruct d as [|y d]; [destruct Hb|]. destruct Hb as [<-|[]]. split; [rewrite E; unfold len; cbn [length]; lia|reflexivity].
      * intros (j & Hj & Hp & ->). destruct (Nat.eq_dec j k) as [->|Hn].
        -- right. rewrite Ex, Fk by lia. destruct d as [|y d]; [unfold len in E; cbn [length] in E; lia|]. left. reflexivity.
        -- left. exists j. split; [lia|]. split; [exact Hp|]. apply Ex. specialize (G j ltac:(lia)). lia.
Qed.
(** The vector behind a bit writer leaves a copy of its beginning at each size that it outgrows, and nothing
    else. *)
Lemma c110_growth : forall (capacity : N) (d b : bytes),
  In b (v_freed (vec_of capacity d)) <->
  exists k, 0 < grown (bw_capacity capacity) k < len d /\ b = firstn (N.to_nat (grown (bw_capacity capacity) k)) d.
Proof.
  intros capacity d b. unfold vec_of. set (c := bw_capacity capacity). clearbody c. destruct (vec_grows c d) as (k & C & _ & L & G & F).
  cbv zeta in *. rewrite F. clear F. split.
  - intros (j & Hj & Hp & ->). exists j. split; [split; [exact Hp|apply G, Hj]|reflexivity].
  - intros (j & [Hp Hl] & ->). exists j. split; [|split; [exact Hp|reflexivity]]. rewrite C in L.
    destruct (Nat.lt_ge_cases j k) as [H|H]; [exact H|]. destruct (Nat.eq_dec j k) as [->|Hn]; [lia|]. pose proof (grown_lt c k j ltac:(lia)). lia.
Qed.
(** For entropy with its checksum (17 to 33 bytes) nothing is left while it is read exactly if all of it has
    been reserved. *)
Lemma c110_reserve : forall (capacity : N) (d : bytes), 17 <= len d <= 33 ->
  (v_freed (vec_of capacity d) = [] <-> len d <= bw_capacity capacity).
Proof.
  intros capacity d Hd. split; [|apply vec_of_fits]. intros H. destruct (N.le_gt_cases (len d) (bw_capacity capacity)) as [L|L]; [exact L|]. exfalso.
  assert (X : exists k, 0 < grown (bw_capacity capacity) k < len d).
  { destruct (N.eq_dec (bw_capacity capacity) 0) as [E|E]; [exists 1%nat; rewrite grown_step|exists 0%nat]; change (grown (bw_capacity capacity) 0) with (bw_capacity capacity); lia. }
  destruct X as (k & Hk). assert (Y : In (firstn (N.to_nat (grown (bw_capacity capacity) k)) d) (v_freed (vec_of capacity d))).
  { apply (proj2 (c110_growth _ _ _)). exists k. split; [exact Hk|reflexivity]. }
  rewrite H in Y. destruct Y.
Qed.
(** The phrase of the tests with an error in its last word leaves 15 of its 16 bytes; [validate] of the
    correct phrase leaves them all. *)
Example c110_example : exists x,
  snd (validate_mem (lit "crop cash unable insane eight faith inflict route frame loud box vibrant") English) = [ex_entropy ++ [x]]
  /\ snd (from_phrase_mem (lit "crop cash unable insane eight faith inflict route frame loud box vibrent") English) = [firstn 15 ex_entropy].
Proof.
  destruct ex_sentence as [S E]. apply sentence_parts in S. destruct S as (A & B & C & D).
  destruct (c110_entropy_left _ _ _ _ A B C D) as (x & L & _). rewrite E in L. exists x. split; [exact L|].
  vm_compute. reflexivity.
Qed.

(** ** C111 *)
Lemma as_bytes_english m : m_lang m = English -> mnemonic_as_bytes m = Ok (utf8 (m_phrase m)).
Proof. intros E. unfold mnemonic_as_bytes. rewrite E. reflexivity. Qed.
(** The model with memory returns what [Seed::new] returns. *)
Lemma c111_same_results : forall (m : mnemonic) (pw : str), fst (seed_new_mem m pw) = seed_new m pw.
Proof.
  intros m pw. unfold seed_new_mem, seed_new. destruct (mnemonic_as_bytes m) as [g|e|]; reflexivity.
Qed.
(** Every call leaves the passphrase and, for English, the phrase as plain text. *)
Lemma c111_plain_text : forall (m : mnemonic) (pw : str), constructible m -> Forall is_scalar pw ->
  (exists b, In b (snd (seed_new_mem m pw)) /\ is_utf8 (lit "mnemonic" ++ pw) b)
  /\ (m_lang m = English -> exists b, In b (snd (seed_new_mem m pw)) /\ is_utf8 (m_phrase m) b).
Proof.
  intros m pw H Hp. unfold seed_new_mem. destruct (constructible_as_bytes m H) as (g & Eg). rewrite Eg. cbn [snd]. split.
  - exists (utf8 (lit "mnemonic" ++ pw)). split; [right; right; left; reflexivity|]. apply c95_utf8; [|reflexivity].
    apply Forall_app. split; [|exact Hp]. repeat constructor.
  - intros El. rewrite (as_bytes_english m El) in Eg. exists g. split; [left; reflexivity|]. injection Eg as <-.
    apply utf8_meets. unfold scalars. apply Forall_forall. intros c Hc. pose proof (constructible_plain m H) as P.
    rewrite forallb_forall in P. specialize (P c Hc). unfold plain in P. lia.
Qed.
(** What is left determines the mnemonic (in either language) and the passphrase. *)
Lemma c111_everything_left : forall (m m' : mnemonic) (pw pw' : str),
  constructible m -> constructible m' -> Forall is_scalar pw -> Forall is_scalar pw' ->
  snd (seed_new_mem m pw) = snd (seed_new_mem m' pw') -> m = m' /\ pw = pw'.
Proof.
  intros m m' pw pw' H H' Hp Hp' E. unfold seed_new_mem in E.
  destruct (constructible_as_bytes m H) as (g & Eg). destruct (constructible_as_bytes m' H') as (g' & Eg').
  rewrite Eg, Eg' in E. cbn [snd] in E. split.
  - apply (f_equal (hd [])) in E. cbn [hd] in E. subst g'. eapply c73_password_bytes_injective; eassumption.
  - apply (f_equal (fun l => nth 2 l [])) in E. cbn [nth] in E.
    assert (S : forall p, Forall is_scalar p -> is_utf8 (lit "mnemonic" ++ p) (utf8 (lit "mnemonic" ++ p))).
    { intros p0 S. apply utf8_meets, scalar_small, Forall_app. split; [repeat constructor|exact S]. }
    eapply app_inv_head. eapply c95_decodable; [apply S, Hp|rewrite E; apply S, Hp'].
Qed.
(** So it is false that [Seed::new] leaves nothing. *)
Lemma c111_nothing_left_refuted : ~ (forall (m : mnemonic) (pw : str), constructible m -> snd (seed_new_mem m pw) = []).
Proof.
  intros H. specialize (H ex_mnemonic [] ex_constructible). unfold seed_new_mem in H. rewrite (as_bytes_english ex_mnemonic eq_refl) in H.
  discriminate H.
Qed.
Example c111_example : snd (seed_new_mem ex_mnemonic (lit "TREZOR")) = [ex_phrase; lit "mnemonicTREZOR"; lit "mnemonicTREZOR"].
Proof.
  unfold seed_new_mem. rewrite (as_bytes_english ex_mnemonic eq_refl). cbn [snd]. vm_compute. reflexivity.
Qed.
