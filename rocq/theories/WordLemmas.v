(** Word list and word map. *)
From Coq Require Import FMapPositive Sorted RelationClasses ZifyBool ZifyNat ZifyN.
From Verif Require Import Outcome Bytes Str Nfkd ModelBip39 SpecBip39 WordData NfkdLemmas StrLemmas BitLemmas.
Open Scope N_scope.

(** ** Order of strings *)
Lemma str_cmp_refl a : str_cmp a a = Eq.
Proof. induction a as [|x a IH]; cbn; [reflexivity|]. rewrite N.compare_refl. exact IH. Qed.
Lemma str_cmp_eq a b : str_cmp a b = Eq -> a = b.
Proof.
  revert b; induction a as [|x a IH]; intros [|y b]; cbn; try discriminate; auto.
  destruct (N.compare_spec x y) as [->| |]; try discriminate. intros H. f_equal. apply IH, H.
Qed.
Lemma str_cmp_antisym a b : str_cmp b a = CompOpp (str_cmp a b).
Proof.
  revert b; induction a as [|x a IH]; intros [|y b]; cbn; auto.
  rewrite (N.compare_antisym x y). destruct (x ?= y); cbn; auto.
Qed.
Definition str_lt (a b : str) : Prop := str_cmp a b = Lt.
Lemma str_lt_trans a b c : str_lt a b -> str_lt b c -> str_lt a c.
Proof.
  unfold str_lt. revert b c; induction a as [|x a IH]; intros [|y b] [|z c]; cbn; try discriminate; auto.
  destruct (N.compare_spec x y) as [->|Hxy|Hxy]; try discriminate; intros H1.
  - destruct (y ?= z); try discriminate; auto. intros H2. eapply IH; eauto.
  - destruct (N.compare_spec y z) as [->|Hyz|Hyz]; try discriminate; intros _.
    + rewrite (proj2 (N.compare_lt_iff x z)) by exact Hxy. reflexivity.
    + rewrite (proj2 (N.compare_lt_iff x z)) by (eapply N.lt_trans; eassumption). reflexivity.
Qed.
Lemma str_lt_irrefl a : ~ str_lt a a.
Proof. unfold str_lt. rewrite str_cmp_refl. discriminate. Qed.

Lemma chain_lt_sorted l : chain_lt l = true -> StronglySorted str_lt l.
Proof.
  intros H. apply Sorted_StronglySorted; [exact str_lt_trans|].
  induction l as [|x l IH]; [constructor|]. cbn in H. destruct l as [|y l]; [repeat constructor|].
  destruct (str_cmp x y) eqn:E; try discriminate. constructor; [apply IH, H|]. constructor. exact E.
Qed.

Lemma sorted_nodup l : StronglySorted str_lt l -> NoDup l.
Proof.
  induction 1 as [|x l Hs IH Hx]; constructor; auto. intros Hin. rewrite Forall_forall in Hx.
  eapply str_lt_irrefl, Hx, Hin.
Qed.

Lemma words_en_strongly_sorted : StronglySorted str_lt words_en.
Proof. apply chain_lt_sorted, words_en_sorted. Qed.

Lemma words_nodup l : NoDup (words l).
Proof.
  destruct l; cbn [words].
  - apply sorted_nodup, words_en_strongly_sorted.
  - apply (NoDup_map_inv head1). eapply distinct_nodup, words_zh_distinct.
Qed.

(** ** Shape of the words *)
Lemma words_chars l w c : In w (words l) -> In c w ->
  (97 <= c <= 122 \/ 0x4E00 <= c <= 0x9FFF).
Proof.
  intros Hw Hc. destruct l; cbn [words] in Hw.
  - pose proof words_en_letters as H. rewrite forallb_forall in H. specialize (H w Hw).
    rewrite forallb_forall in H. specialize (H c Hc). lia.
  - pose proof words_zh_cjk as H. rewrite forallb_forall in H. specialize (H w Hw).
    rewrite forallb_forall in H. specialize (H c Hc). lia.
Qed.

Lemma words_nonempty l w : In w (words l) -> w <> [].
Proof.
  intros Hw ->. destruct l; cbn [words] in Hw.
  - pose proof words_en_lengths as H. rewrite forallb_forall in H. specialize (H _ Hw). discriminate.
  - pose proof words_zh_single as H. rewrite forallb_forall in H. specialize (H _ Hw). discriminate.
Qed.

Lemma words_no_white l w : In w (words l) -> no_white w = true.
Proof.
  intros Hw. unfold no_white. apply forallb_forall. intros c Hc.
  pose proof (words_chars l w c Hw Hc). unfold is_whitespace. lia.
Qed.
Lemma words_no_space l w : In w (words l) -> no_space w = true.
Proof.
  intros Hw. apply forallb_forall. intros c Hc. pose proof (words_chars l w c Hw Hc). lia.
Qed.
Lemma words_plain l w : In w (words l) -> forallb plain w = true.
Proof.
  intros Hw. apply forallb_forall. intros c Hc. pose proof (words_chars l w c Hw Hc). unfold plain. lia.
Qed.
Lemma words_nfkd l w : In w (words l) -> nfkd w = w.
Proof. intros Hw. apply nfkd_plain. eapply words_plain, Hw. Qed.
Lemma words_word_char l w c : In w (words l) -> In c w -> not_word_char c = false.
Proof. intros Hw Hc. pose proof (words_chars l w c Hw Hc). unfold not_word_char. lia. Qed.

Lemma words_disjoint w : In w (words English) -> In w (words ChineseSimplified) -> False.
Proof.
  intros H1 H2. pose proof (words_nonempty _ _ H1) as Hn. destruct w as [|c w]; [congruence|].
  cbn [words] in *.
  pose proof words_en_letters as H. rewrite forallb_forall in H. specialize (H _ H1).
  pose proof words_zh_cjk as H'. rewrite forallb_forall in H'. specialize (H' _ H2).
  cbn [forallb] in H, H'. lia.
Qed.

(** ** The word map *)
Lemma fold_cons_rev {A} (l acc : list A) : fold_left (fun m e => e :: m) l acc = rev l ++ acc.
Proof.
  revert acc; induction l as [|x l IH]; intros acc; cbn; [reflexivity|].
  rewrite IH, <- app_assoc. reflexivity.
Qed.

Lemma map_get_in m w v : NoDup (map fst m) -> (map_get m w = Some v <-> In (w, v) m).
Proof.
  induction m as [|[k u] m IH]; cbn; intros Hn.
  - split; [discriminate|intros []].
  - inversion Hn as [|? ? Hk Hn']; subst. destruct (str_eqb w k) eqn:E.
    + apply str_eqb_spec in E. subst k. split; intros H.
      * injection H as ->. auto.
      * destruct H as [H|H]; [congruence|]. destruct Hk. apply (in_map fst) in H. exact H.
    + rewrite (IH Hn'). split; [auto|]. intros [H|H]; [|exact H]. injection H as -> ->.
      rewrite str_eqb_refl in E. discriminate.
Qed.

Lemma combine_seq_in (wl : list str) (f : nat -> N) w v :
  In (w, v) (combine wl (map f (seq 0 (length wl)))) <-> exists i, nth_error wl i = Some w /\ v = f i.
Proof.
  enough (H : forall k, In (w, v) (combine wl (map f (seq k (length wl)))) <-> exists i, nth_error wl i = Some w /\ v = f (k + i)%nat).
  { rewrite (H 0%nat). reflexivity. }
  induction wl as [|x wl IH]; intros k; cbn.
  - split; [intros []|]. intros ([|i] & H & _); discriminate.
  - rewrite (IH (S k)). split.
    + intros [H|(i & Hi & Hv)].
      * injection H as Hx Hv. exists 0%nat. rewrite Nat.add_0_r. subst. auto.
      * exists (S i). cbn. rewrite <- plus_n_Sm. auto.
    + intros ([|i] & Hi & Hv); cbn in Hi.
      * injection Hi as ->. rewrite Nat.add_0_r in Hv. subst v. auto.
      * right. exists i. rewrite <- plus_n_Sm in Hv. auto.
Qed.

Lemma combine_fst (wl : list str) (l : list N) : length wl = length l -> map fst (combine wl l) = wl.
Proof.
  revert l; induction wl as [|x wl IH]; intros [|y l] H; try discriminate; cbn; [reflexivity|].
  f_equal. apply IH. cbn in H. lia.
Qed.

Lemma is_word_nth l i w : is_word l i w <-> nth_error (words l) (N.to_nat i) = Some w.
Proof. unfold is_word. rewrite bip39_list_words. reflexivity. Qed.

Lemma is_word_lt l i w : is_word l i w -> i < 2048.
Proof.
  rewrite is_word_nth. intros H. assert (Hn : nth_error (words l) (N.to_nat i) <> None) by congruence.
  apply nth_error_Some in Hn. rewrite words_length in Hn. lia.
Qed.
Lemma is_word_in l i w : is_word l i w -> In w (words l).
Proof. rewrite is_word_nth. apply nth_error_In. Qed.
Lemma is_word_ex l i : i < 2048 -> exists w, is_word l i w.
Proof.
  intros H. destruct (nth_error (words l) (N.to_nat i)) as [w|] eqn:E.
  - exists w. apply is_word_nth, E.
  - apply nth_error_None in E. rewrite words_length in E. lia.
Qed.
Lemma in_is_word l w : In w (words l) -> exists i, is_word l i w.
Proof.
  intros H. apply In_nth_error in H. destruct H as (i & Hi). exists (N.of_nat i).
  apply is_word_nth. rewrite Nat2N.id. exact Hi.
Qed.
Lemma is_word_fun l i w v : is_word l i w -> is_word l i v -> w = v.
Proof. unfold is_word. congruence. Qed.
Lemma is_word_inj l i j w : is_word l i w -> is_word l j w -> i = j.
Proof.
  rewrite !is_word_nth. intros Hi Hj. apply N2Nat.inj.
  apply (proj1 (NoDup_nth_error (words l)) (words_nodup l)); [|congruence].
  apply nth_error_Some. congruence.
Qed.

Lemma map_get_spec l w i : map_get (wordmap_of l) w = Some i <-> is_word l i w.
Proof.
  unfold wordmap_of, gen_wordmap. rewrite wordlist_words, fold_cons_rev, app_nil_r.
  assert (Hl : length (words l) = length (map (fun i => wrap 16 (N.of_nat i)) (seq 0 (length (words l))))).
  { rewrite map_length, seq_length. reflexivity. }
  rewrite map_get_in.
  - rewrite <- in_rev, combine_seq_in, is_word_nth. split.
    + intros (j & Hj & ->). assert (Hn : nth_error (words l) j <> None) by congruence.
      apply nth_error_Some in Hn. rewrite words_length in Hn. unfold wrap.
      rewrite N.mod_small; [rewrite Nat2N.id; exact Hj|]. change (2 ^ 16) with 65536. lia.
    + intros H. exists (N.to_nat i). split; [exact H|].
      assert (Hi : i < 2048) by (eapply is_word_lt, is_word_nth, H).
      rewrite N2Nat.id. unfold wrap. rewrite N.mod_small; [reflexivity|]. change (2 ^ 16) with 65536. lia.
  - rewrite map_rev, combine_fst by exact Hl. apply NoDup_rev, words_nodup.
Qed.

Lemma get_bits_ok l w i : get_bits (wordmap_of l) w = Ok i <-> is_word l i w.
Proof.
  unfold get_bits. rewrite <- map_get_spec. destruct (map_get (wordmap_of l) w); split; congruence.
Qed.
Lemma get_bits_err l w : ~ In w (words l) -> get_bits (wordmap_of l) w = Err InvalidWord.
Proof.
  intros H. unfold get_bits. destruct (map_get (wordmap_of l) w) as [i|] eqn:E; [|reflexivity].
  destruct H. eapply is_word_in, map_get_spec, E.
Qed.
Lemma in_words_dec l w : {In w (words l)} + {~ In w (words l)}.
Proof. apply in_dec, str_eq_dec. Qed.
Lemma get_bits_is_ok l w : is_ok (get_bits (wordmap_of l) w) = true <-> In w (words l).
Proof.
  destruct (in_words_dec l w) as [H|H].
  - destruct (in_is_word l w H) as (i & Hi). apply get_bits_ok in Hi. rewrite Hi. cbn. tauto.
  - rewrite get_bits_err by exact H. cbn. split; [discriminate|tauto].
Qed.

Lemma get_word_ok l i w : get_word (wordlist l) i = Ok w <-> is_word l i w.
Proof.
  unfold get_word, index, is_word. rewrite wordlist_words, bip39_list_words.
  destruct (nth_error (words l) (N.to_nat i)); cbn; split; congruence.
Qed.
Lemma get_word_panic l i : 2048 <= i -> get_word (wordlist l) i = Panic.
Proof.
  intros H. unfold get_word, index. rewrite wordlist_words.
  rewrite (proj2 (nth_error_None (words l) (N.to_nat i))); [reflexivity|]. rewrite words_length. lia.
Qed.

Lemma get_words_total l idx : Forall (fun i => i < 2048) idx -> exists ws, Forall2 (is_word l) idx ws.
Proof.
  induction 1 as [|i idx Hi _ (ws & IH)]; [exists []; constructor|].
  destruct (is_word_ex l i Hi) as (w & Hw). exists (w :: ws). constructor; assumption.
Qed.
Lemma all_words_indices l ws : (forall w, In w ws -> In w (words l)) -> exists idx, Forall2 (is_word l) idx ws.
Proof.
  induction ws as [|w ws IH]; intros H; [exists []; constructor|].
  destruct IH as (idx & Hidx); [intros v Hv; apply H; right; exact Hv|].
  destruct (in_is_word l w) as (i & Hi); [apply H; left; reflexivity|].
  exists (i :: idx). constructor; assumption.
Qed.
Lemma forall2_is_word_in l idx ws w : Forall2 (is_word l) idx ws -> In w ws -> In w (words l).
Proof.
  induction 1 as [|i v idx ws Hi _ IH]; intros [].
  - subst. eapply is_word_in, Hi.
  - apply IH; assumption.
Qed.
Lemma forall2_is_word_lt l idx ws : Forall2 (is_word l) idx ws -> Forall (fun i => i < 2048) idx.
Proof. induction 1; constructor; auto. eapply is_word_lt; eassumption. Qed.
Lemma forall2_is_word_fun l idx ws vs : Forall2 (is_word l) idx ws -> Forall2 (is_word l) idx vs -> ws = vs.
Proof.
  intros H. revert vs. induction H as [|i w idx ws Hi _ IH]; intros vs Hv; inversion Hv; subst; [reflexivity|].
  f_equal; [eapply is_word_fun; eassumption|auto].
Qed.
Lemma forall2_is_word_inj l idx jdx ws : Forall2 (is_word l) idx ws -> Forall2 (is_word l) jdx ws -> idx = jdx.
Proof.
  intros H. revert jdx. induction H as [|i w idx ws Hi _ IH]; intros jdx Hv; inversion Hv; subst; [reflexivity|].
  f_equal; [eapply is_word_inj; eassumption|auto].
Qed.

(** Pushing words: either all of them are words and their bits are appended, or the result is InvalidWord. *)
Lemma push_words_ok l idx ws b w : Forall2 (is_word l) idx ws -> bw_holds w b ->
  exists w', push_words (wordmap_of l) ws w = Ok w' /\ bw_holds w' (b ++ flat_map (bits_of 11) idx).
Proof.
  intros H. revert b w. induction H as [|i v idx ws Hi _ IH]; intros b w Hb; cbn [push_words flat_map].
  - exists w. rewrite app_nil_r. auto.
  - rewrite (proj2 (get_bits_ok l v i) Hi). cbn [bind].
    destruct (bw_push_holds w b i Hb) as (w' & -> & Hb'); [eapply is_word_lt, Hi|]. cbn [bind].
    destruct (IH _ _ Hb') as (w'' & He & Hb''). exists w''. rewrite <- app_assoc in Hb''. auto.
Qed.
Lemma push_words_err l ws v b w : In v ws -> ~ In v (words l) -> bw_holds w b ->
  push_words (wordmap_of l) ws w = Err InvalidWord.
Proof.
  revert b w. induction ws as [|u ws IH]; intros b w Hin Hv Hb; [destruct Hin|]. cbn [push_words].
  destruct (in_words_dec l u) as [Hu|Hu].
  - destruct (in_is_word l u Hu) as (i & Hi). rewrite (proj2 (get_bits_ok l u i) Hi). cbn [bind].
    destruct (bw_push_holds w b i Hb) as (w' & -> & Hb'); [eapply is_word_lt, Hi|]. cbn [bind].
    eapply IH; [|exact Hv|exact Hb']. destruct Hin as [->|Hin]; [contradiction|exact Hin].
  - rewrite get_bits_err by exact Hu. reflexivity.
Qed.
