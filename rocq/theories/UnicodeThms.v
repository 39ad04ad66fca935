(** Proofs of the properties of Unicode normalisation and UTF-8 (restated in PropUnicode.v). *)
From Coq Require Import String Relations Sorted ZifyBool ZifyNat ZifyN.
From Verif Require Import Outcome Bytes Str Nfkd NfkdData NfkdLemmas ModelBip39 SpecBip39 SpecUnicode.
From Verif Require Import Bip39Thms HashThms.
Open Scope N_scope.

(** ** C94 *)
Definition keys_sorted : bool :=
  forallb (fun p => fst (fst p) <? fst (snd p)) (combine decomp_table (tl decomp_table))
  && forallb (fun e => negb (is_hangul (fst e))) decomp_table.
Lemma keys_sorted_ok : keys_sorted = true.
Proof. vm_compute. reflexivity. Qed.
Lemma sorted_keys_lt {A} (l : list (N * A)) : forallb (fun p => fst (fst p) <? fst (snd p)) (combine l (tl l)) = true ->
  forall e r, l = e :: r -> Forall (fun f => fst e < fst f) r.
Proof.
  induction l as [|e l IH]; intros H e' r E; [discriminate E|]. injection E as <- <-. destruct l as [|f l]; [constructor|].
  cbn [tl combine forallb fst snd] in H. apply andb_true_iff in H. destruct H as [H1 H2].
  specialize (IH H2 f l eq_refl). constructor; [lia|]. revert IH. apply Forall_impl. intros g Hg. lia.
Qed.
Lemma assocN_sorted {A} (l : list (N * A)) c d : forallb (fun p => fst (fst p) <? fst (snd p)) (combine l (tl l)) = true ->
  In (c, d) l -> assocN c l = Some d.
Proof.
  induction l as [|[k v] l IH]; intros H Hin; [destruct Hin|]. cbn [assocN].
  pose proof (sorted_keys_lt _ H _ _ eq_refl) as Hlt. destruct Hin as [E|Hin].
  - injection E as -> ->. rewrite N.eqb_refl. reflexivity.
  - rewrite Forall_forall in Hlt. specialize (Hlt _ Hin). cbn [fst] in Hlt.
    replace (c =? k) with false by lia. apply IH; [|exact Hin]. destruct l as [|f l]; [reflexivity|].
    cbn [tl combine forallb] in H. apply andb_true_iff in H. apply H.
Qed.
Lemma in_table c d : In (c, d) decomp_table <-> assocN c decomp_table = Some d.
Proof.
  split; [|apply assocN_in]. apply assocN_sorted. pose proof keys_sorted_ok as H. unfold keys_sorted in H. apply andb_true_iff in H. apply H.
Qed.
Lemma table_not_hangul c d : In (c, d) decomp_table -> is_hangul c = false.
Proof.
  intros Hin. pose proof keys_sorted_ok as H. unfold keys_sorted in H. apply andb_true_iff in H. destruct H as [_ H].
  rewrite forallb_forall in H. specialize (H _ Hin). cbn [fst] in H. destruct (is_hangul c); [discriminate H|reflexivity].
Qed.
Lemma syllable_hangul c l v t : is_syllable c l v t -> is_hangul c = true
  /\ l = (c - 0xAC00) / 588 /\ v = ((c - 0xAC00) mod 588) / 28 /\ t = (c - 0xAC00) mod 28.
Proof.
  intros (Hl & Hv & Ht & ->). split; [unfold is_hangul; lia|].
  replace (0xAC00 + (l * 21 + v) * 28 + t - 0xAC00) with (l * 588 + (v * 28 + t)) by lia.
  assert (E1 : (l * 588 + (v * 28 + t)) / 588 = l) by (rewrite N.div_add_l, N.div_small by lia; lia).
  assert (E2 : (l * 588 + (v * 28 + t)) mod 588 = v * 28 + t) by (rewrite N.add_comm, N.mod_add, N.mod_small by lia; reflexivity).
  split; [symmetry; exact E1|]. split.
  - rewrite E2, N.div_add_l, N.div_small by lia. lia.
  - replace (l * 588 + (v * 28 + t)) with (t + (l * 21 + v) * 28) by lia. rewrite N.mod_add, N.mod_small by lia. reflexivity.
Qed.
Lemma hangul_syllable c : is_hangul c = true ->
  is_syllable c ((c - 0xAC00) / 588) (((c - 0xAC00) mod 588) / 28) ((c - 0xAC00) mod 28).
Proof.
  unfold is_hangul. intros H. set (i := c - 0xAC00). assert (Hi : i < 11172) by (unfold i; lia).
  split; [apply N.div_lt_upper_bound; lia|]. pose proof (N.mod_lt i 588 ltac:(lia)). pose proof (N.mod_lt i 28 ltac:(lia)).
  split; [apply N.div_lt_upper_bound; lia|]. split; [assumption|].
  pose proof (N.div_mod i 588 ltac:(lia)) as E1. pose proof (N.div_mod (i mod 588) 28 ltac:(lia)) as E2.
  assert (E3 : (i mod 588) mod 28 = i mod 28).
  { replace (i mod 28) with ((i / 588 * 588 + i mod 588) mod 28) by (f_equal; lia).
    replace (i / 588 * 588 + i mod 588) with (i mod 588 + (i / 588 * 21) * 28) by lia. rewrite N.mod_add by lia. reflexivity. }
  unfold i in *. lia.
Qed.
Lemma char_decomp_iff c d : char_decomp c d <-> d = decompose_char c.
Proof.
  unfold decompose_char. split.
  - intros [l v H|l v t H Ht|d' H|H1 H2].
    + apply syllable_hangul in H. destruct H as (-> & -> & -> & E). unfold hangul_decomp. rewrite <- E. reflexivity.
    + apply syllable_hangul in H. destruct H as (-> & -> & -> & E). unfold hangul_decomp. rewrite <- E.
      replace (t =? 0) with false by lia. reflexivity.
    + rewrite (table_not_hangul _ _ H). apply in_table in H. rewrite H. reflexivity.
    + destruct (is_hangul c) eqn:Eh; [destruct (H1 _ _ _ (hangul_syllable c Eh))|].
      destruct (assocN c decomp_table) as [e|] eqn:E; [destruct (H2 e); apply in_table, E|reflexivity].
  - intros ->. destruct (is_hangul c) eqn:Eh.
    + pose proof (hangul_syllable c Eh) as H. unfold hangul_decomp. destruct (N.eqb_spec ((c - 44032) mod 28) 0) as [E|E].
      * rewrite E in H. apply cd_syllable_lv, H.
      * apply (cd_syllable_lvt c _ _ _ H E).
    + destruct (assocN c decomp_table) as [d|] eqn:E; [apply cd_table, in_table, E|]. apply cd_self.
      * intros l v t H. apply syllable_hangul in H. destruct H as [H _]. rewrite H in Eh. discriminate Eh.
      * intros d H. apply in_table in H. rewrite H in E. discriminate E.
Qed.
Lemma decompositions_iff s parts : Forall2 char_decomp s parts <-> parts = map decompose_char s.
Proof.
  split.
  - induction 1 as [|c d s parts H _ IH]; [reflexivity|]. apply char_decomp_iff in H. cbn. congruence.
  - intros ->. induction s as [|c s IH]; constructor; [apply char_decomp_iff; reflexivity|exact IH].
Qed.
Lemma flat_map_concat s : concat (map decompose_char s) = flat_map decompose_char s.
Proof. symmetry. apply flat_map_concat_map. Qed.

Lemma insert_swap a b R : reorderable a b -> ccc_insert a (ccc_insert b R) = ccc_insert b (ccc_insert a R).
Proof.
  intros [H1 H2]. assert (Ea : (0 <? ccc b) && (ccc b <? ccc a) = true) by lia.
  assert (Eb : (0 <? ccc a) && (ccc a <? ccc b) = false) by lia.
  induction R as [|d R IH]; cbn [ccc_insert]; [rewrite Ea, Eb; reflexivity|].
  destruct ((0 <? ccc d) && (ccc d <? ccc b)) eqn:Ed.
  - assert (Ed' : (0 <? ccc d) && (ccc d <? ccc a) = true) by lia. rewrite Ed'. cbn [ccc_insert]. rewrite Ed, Ed', IH. reflexivity.
  - cbn [ccc_insert]. rewrite Ea. destruct ((0 <? ccc d) && (ccc d <? ccc a)) eqn:Ed'; cbn [ccc_insert]; [rewrite Ed|rewrite Eb]; reflexivity.
Qed.
Lemma exchange_order s t : exchange s t -> canonical_order s = canonical_order t.
Proof.
  intros (l & a & b & r & -> & -> & H). unfold canonical_order. rewrite !fold_right_app. cbn [fold_right].
  rewrite (insert_swap a b) by exact H. reflexivity.
Qed.
Lemma exchange_cons c s t : clos_refl_trans _ exchange s t -> clos_refl_trans _ exchange (c :: s) (c :: t).
Proof.
  induction 1 as [s t (l & a & b & r & -> & -> & H)|s|s t u _ IH1 _ IH2].
  - apply rt_step. exists (c :: l), a, b, r. repeat split; apply H.
  - apply rt_refl.
  - eapply rt_trans; eassumption.
Qed.
Lemma insert_exchanges c l : clos_refl_trans _ exchange (c :: l) (ccc_insert c l).
Proof.
  induction l as [|d l IH]; cbn [ccc_insert]; [apply rt_refl|]. destruct ((0 <? ccc d) && (ccc d <? ccc c)) eqn:E; [|apply rt_refl].
  eapply rt_trans; [apply rt_step; exists [], c, d, l; split; [reflexivity|split; [reflexivity|split; lia]]|]. apply exchange_cons, IH.
Qed.
Lemma order_exchanges s : clos_refl_trans _ exchange s (canonical_order s).
Proof.
  induction s as [|c s IH]; [apply rt_refl|]. change (canonical_order (c :: s)) with (ccc_insert c (canonical_order s)).
  eapply rt_trans; [apply exchange_cons, IH|apply insert_exchanges].
Qed.
Lemma ordered_iff t : in_canonical_order t <-> Sorted in_order t.
Proof.
  split.
  - induction t as [|c t IH]; intros H; [constructor|]. constructor.
    + apply IH. intros l a b r E. apply (H (c :: l) a b r). rewrite E. reflexivity.
    + destruct t as [|d t]; constructor. specialize (H [] c d t eq_refl). unfold reorderable in H. unfold in_order. lia.
  - intros H l. revert t H. induction l as [|x l IH]; intros t H a b r ->.
    + inversion H as [|? ? _ Hd]; subst. inversion Hd as [|? ? Ho]; subst. unfold in_order in Ho. unfold reorderable. lia.
    + cbn [app] in H. inversion H; subst. apply (IH _ ltac:(eassumption) a b r eq_refl).
Qed.
Lemma c94_nfkd : forall s t : str, is_nfkd s t <-> t = nfkd s.
Proof.
  intros s t. split.
  - intros (parts & Hd & Hx & Ho). apply decompositions_iff in Hd. subst parts. rewrite flat_map_concat in Hx.
    apply ordered_iff in Ho. unfold nfkd.
    assert (E : canonical_order (flat_map decompose_char s) = canonical_order t).
    { clear Ho. induction Hx as [a b H|a|a b c _ IH1 _ IH2]; [apply exchange_order, H|reflexivity|congruence]. }
    rewrite E. symmetry. apply canonical_order_id, Ho.
  - intros ->. exists (map decompose_char s). split; [apply decompositions_iff; reflexivity|]. rewrite flat_map_concat. split.
    + apply order_exchanges.
    + apply ordered_iff, canonical_order_sorted.
Qed.
(** A decomposition needs no further decomposition; text in form KD is left alone. *)
Lemma c94_complete : forall s t : str, is_nfkd s t -> is_nfkd t t.
Proof.
  intros s t H. apply c94_nfkd in H. subst t. apply c94_nfkd. symmetry. apply nfkd_idem.
Qed.
(** An accented letter with a second mark below: the mark of lower class comes first; a syllable of Hangul. *)
Example c94_example : is_nfkd [0xE9; 0x323; 0xD55C] [0x65; 0x323; 0x301; 0x1112; 0x1161; 0x11AB].
Proof.
  apply c94_nfkd. vm_compute. reflexivity.
Qed.

(** ** C95 *)
Lemma bits_of_mod b n : bits_of b (n mod 2 ^ N.of_nat b) = bits_of b n.
Proof.
  assert (H : forall k, (k <= b)%nat -> bits_of k (n mod 2 ^ N.of_nat b) = bits_of k n).
  { induction k as [|k IH]; intros Hk; [reflexivity|]. cbn [bits_of]. rewrite N.mod_pow2_bits_low by lia. rewrite IH by lia. reflexivity. }
  apply H. lia.
Qed.
Lemma bits_split a b n : bits_of (a + b) n = bits_of a (n / 2 ^ N.of_nat b) ++ bits_of b (n mod 2 ^ N.of_nat b).
Proof.
  rewrite bits_of_mod. induction a as [|a IH]; [reflexivity|]. cbn [Nat.add bits_of app]. rewrite IH. f_equal.
  rewrite N.div_pow2_bits. f_equal. lia.
Qed.
Lemma bits_prefix (a b : nat) p x : x < 2 ^ N.of_nat b -> bits_of (a + b) (p * 2 ^ N.of_nat b + x) = bits_of a p ++ bits_of b x.
Proof.
  intros Hx. assert (Hz : 2 ^ N.of_nat b <> 0) by (apply N.pow_nonzero; lia).
  rewrite bits_split. rewrite N.div_add_l, N.div_small, N.add_0_r by assumption.
  rewrite N.add_comm, N.mod_add, N.mod_small by assumption. reflexivity.
Qed.
Lemma bits_of_inj w x y : x < 2 ^ N.of_nat w -> y < 2 ^ N.of_nat w -> bits_of w x = bits_of w y -> x = y.
Proof.
  intros Hx Hy E. apply (f_equal val_of_bits) in E. rewrite !val_of_bits_bits_of in E. rewrite !N.mod_small in E by assumption. exact E.
Qed.
Lemma app_inj {A} (a b c d : list A) : length a = length c -> a ++ b = c ++ d -> a = c /\ b = d.
Proof.
  revert c. induction a as [|x a IH]; intros [|y c] L E; try discriminate L; [auto|]. cbn in E. injection E as -> E.
  apply IH in E; [|cbn in L; lia]. destruct E as [-> ->]. auto.
Qed.
Lemma lead5 x : x < 32 -> bits_of 8 (0xC0 + x) = [true; true; false] ++ bits_of 5 x.
Proof. intros H. apply (bits_prefix 3 5 6 x), H. Qed.
Lemma lead4 x : x < 16 -> bits_of 8 (0xE0 + x) = [true; true; true; false] ++ bits_of 4 x.
Proof. intros H. apply (bits_prefix 4 4 14 x), H. Qed.
Lemma lead3 x : x < 8 -> bits_of 8 (0xF0 + x) = [true; true; true; true; false] ++ bits_of 3 x.
Proof. intros H. apply (bits_prefix 5 3 30 x), H. Qed.
Lemma cont_bits x : x < 64 -> bits_of 8 (0x80 + x) = cont x.
Proof. intros H. apply (bits_prefix 2 6 2 x), H. Qed.

Lemma utf8_char_meets c : c < 0x110000 -> is_utf8_char c (bits_of_bytes (utf8_char c)).
Proof.
  intros Hc. unfold utf8_char, bits_of_bytes.
  assert (M : forall x, x mod 64 < 64) by (intros; apply N.mod_lt; lia).
  assert (S6 : forall a x, bits_of (a + 6) x = bits_of a (x / 64) ++ bits_of 6 (x mod 64)) by (intros; apply (bits_split a 6)).
  assert (D1 : c / 4096 = c / 64 / 64) by (rewrite N.div_div by lia; reflexivity).
  assert (D2 : c / 262144 = c / 4096 / 64) by (rewrite N.div_div by lia; reflexivity).
  destruct (N.ltb_spec c 0x80) as [H1|H1]; [|destruct (N.ltb_spec c 0x800) as [H2|H2]; [|destruct (N.ltb_spec c 0x10000) as [H3|H3]]];
    cbn [flat_map]; rewrite app_nil_r.
  - change (bits_of 8 c) with (N.testbit c 7 :: bits_of 7 c). rewrite (BitLemmas.testbit_small c 7 7) by (change (2 ^ 7) with 128; lia).
    apply u1, H1.
  - assert (c / 64 < 32) by (apply N.div_lt_upper_bound; lia). rewrite lead5, cont_bits by (assumption || apply M).
    rewrite <- app_assoc. apply u2; [lia|]. symmetry. apply (S6 5%nat).
  - assert (c / 4096 < 16) by (apply N.div_lt_upper_bound; lia). rewrite lead4, !cont_bits by (assumption || apply M).
    rewrite <- !app_assoc. apply u3; [lia|]. symmetry. rewrite app_assoc, D1. change 16%nat with (10 + 6)%nat. rewrite (S6 10%nat c). f_equal. apply (S6 4%nat).
  - assert (c / 262144 < 8) by (apply N.div_lt_upper_bound; lia). rewrite lead3, !cont_bits by (assumption || apply M).
    rewrite <- !app_assoc. apply u4; [lia|]. symmetry. rewrite !app_assoc, D2, D1. change 21%nat with (15 + 6)%nat. rewrite (S6 15%nat c). f_equal. change 15%nat with (9 + 6)%nat. rewrite (S6 9%nat). f_equal. apply (S6 3%nat).
Qed.
Lemma bits_len w x : length (bits_of w x) = w.
Proof. apply bits_of_length. Qed.
Ltac pieces H := repeat (apply app_inj in H; [|rewrite !bits_len; reflexivity]; let E := fresh "E" in destruct H as [E H]).
Lemma utf8_char_fun c p p' : is_utf8_char c p -> is_utf8_char c p' -> p = p'.
Proof.
  intros [H|x y H E|x y z H E|x y z w H E] [H'|x' y' H' E'|x' y' z' H' E'|x' y' z' w' H' E']; try lia; [reflexivity| | |];
    rewrite <- E' in E; unfold cont; pieces E; congruence.
Qed.
(** The code: the first bits tell the length, the rest the character. *)
Ltac next H := let E := fresh "E" in apply app_inj in H; [|rewrite !bits_len; reflexivity]; destruct H as [E H].
Lemma utf8_char_prefix c c' p p' r r' : is_utf8_char c p -> is_utf8_char c' p' -> p ++ r = p' ++ r' -> c = c' /\ r = r'.
Proof.
  assert (T : forall n (a b : list bool), a = b -> skipn n a = skipn n b) by (intros; congruence).
  intros [H|x y H E|x y z H E|x y z w H E] [H'|x' y' H' E'|x' y' z' H' E'|x' y' z' w' H' E'] Q; unfold cont in Q; rewrite <- ?app_assoc in Q;
    cbn [app] in Q; try discriminate Q.
  - apply (T 1%nat) in Q. cbn [skipn] in Q. next Q. split; [|exact Q]. apply (bits_of_inj 7); [exact H|exact H'|assumption].
  - apply (T 3%nat) in Q. cbn [skipn] in Q. next Q. apply (T 2%nat) in Q. cbn [skipn] in Q. next Q.
    split; [|exact Q]. apply (bits_of_inj 11); [change (2 ^ N.of_nat 11) with 0x800; lia|change (2 ^ N.of_nat 11) with 0x800; lia|congruence].
  - apply (T 4%nat) in Q. cbn [skipn] in Q. next Q. apply (T 2%nat) in Q. cbn [skipn] in Q. next Q. apply (T 2%nat) in Q. cbn [skipn] in Q. next Q.
    split; [|exact Q]. apply (bits_of_inj 16); [change (2 ^ N.of_nat 16) with 0x10000; lia|change (2 ^ N.of_nat 16) with 0x10000; lia|congruence].
  - apply (T 5%nat) in Q. cbn [skipn] in Q. next Q. apply (T 2%nat) in Q. cbn [skipn] in Q. next Q. apply (T 2%nat) in Q. cbn [skipn] in Q. next Q.
    apply (T 2%nat) in Q. cbn [skipn] in Q. next Q.
    split; [|exact Q]. apply (bits_of_inj 21); [change (2 ^ N.of_nat 21) with 0x200000; lia|change (2 ^ N.of_nat 21) with 0x200000; lia|congruence].
Qed.
Lemma utf8_parts_fun s parts parts' : Forall2 is_utf8_char s parts -> Forall2 is_utf8_char s parts' -> parts = parts'.
Proof.
  intros H. revert parts'. induction H as [|c p s parts H _ IH]; intros parts' H'; inversion H' as [|? p' ? q' Hc Hq]; subst; [reflexivity|].
  rewrite (utf8_char_fun _ _ _ H Hc), (IH _ Hq). reflexivity.
Qed.
Lemma scalar_small s : Forall is_scalar s -> scalars s.
Proof. apply Forall_impl. unfold is_scalar. intros c. lia. Qed.
Lemma utf8_meets s : scalars s -> is_utf8 s (utf8 s).
Proof.
  intros Hs. split; [apply utf8_bytes, Hs|]. exists (map (fun c => bits_of_bytes (utf8_char c)) s). split.
  - induction Hs as [|c s Hc _ IH]; constructor; [apply utf8_char_meets, Hc|exact IH].
  - unfold utf8. induction s as [|c s IH]; [reflexivity|]. cbn [flat_map map concat]. rewrite bits_of_bytes_app, IH by (inversion Hs; assumption). reflexivity.
Qed.
Lemma c95_utf8 : forall (s : str) (b : bytes), Forall is_scalar s -> is_utf8 s b <-> b = utf8 s.
Proof.
  intros s b Hs. apply scalar_small in Hs. split; [|intros ->; apply utf8_meets, Hs].
  intros (Hb & parts & Hp & E). destruct (utf8_meets s Hs) as (Hb' & parts' & Hp' & E').
  rewrite <- (utf8_parts_fun _ _ _ Hp Hp') in E'. apply bits_of_bytes_inj; [exact Hb|exact Hb'|congruence].
Qed.
Lemma c95_decodable : forall (s s' : str) (b : bytes), is_utf8 s b -> is_utf8 s' b -> s = s'.
Proof.
  intros s s' b (_ & parts & Hp & E) (_ & parts' & Hp' & E'). rewrite E' in E. clear E' b. revert s' parts' Hp' E.
  induction Hp as [|c p s parts Hc Hp IH]; intros s' parts' Hp' E.
  - inversion Hp' as [|c' p' ? q Hc' Hq]; subst; [reflexivity|]. exfalso. cbn [concat] in E. apply (f_equal (@length bool)) in E.
    rewrite app_length in E. destruct Hc'; cbn [length app] in E; lia.
  - inversion Hp' as [|c' p' s0 q Hc' Hq]; subst; cbn [concat] in E.
    + exfalso. apply (f_equal (@length bool)) in E. rewrite app_length in E. destruct Hc; cbn [length app] in E; lia.
    + symmetry in E. destruct (utf8_char_prefix _ _ _ _ _ _ Hc Hc' E) as [-> Er]. f_equal. apply (IH s0 q Hq). symmetry. exact Er.
Qed.
(** Two passphrases give the same PBKDF2 salt exactly if their forms KD are the same. *)
Lemma c95_salts : forall pw pw' : str, Forall is_scalar pw -> Forall is_scalar pw' ->
  utf8 (nfkd (lit "mnemonic" ++ pw)) = utf8 (nfkd (lit "mnemonic" ++ pw')) <-> exists t, is_nfkd pw t /\ is_nfkd pw' t.
Proof.
  intros pw pw' H H'. apply scalar_small in H, H'. rewrite !nfkd_salt, !utf8_app. split.
  - intros E. apply app_inv_head in E. exists (nfkd pw). split; apply c94_nfkd; [reflexivity|].
    apply (c95_decodable _ _ (utf8 (nfkd pw))); [apply utf8_meets, nfkd_scalars, H|rewrite E; apply utf8_meets, nfkd_scalars, H'].
  - intros (t & Ht & Ht'). apply c94_nfkd in Ht, Ht'. congruence.
Qed.
(** The euro sign and a character outside the basic plane; composed and decomposed form of a passphrase. *)
Example c95_example : is_utf8 [0x20AC; 0x10348] [0xE2; 0x82; 0xAC; 0xF0; 0x90; 0x8D; 0x88]
  /\ is_nfkd [0xE9] [0x65; 0x301] /\ is_nfkd [0x65; 0x301] [0x65; 0x301].
Proof.
  split; [apply c95_utf8; [repeat constructor; unfold is_scalar; lia|vm_compute; reflexivity]|].
  split; apply c94_nfkd; vm_compute; reflexivity.
Qed.
