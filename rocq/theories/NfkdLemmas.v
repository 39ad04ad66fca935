(** Facts about NFKD: identity on list words, behaviour on concatenation, idempotence. *)
From Coq Require Import FMapPositive Permutation Sorted ZifyBool ZifyNat ZifyN.
From Verif Require Import Outcome Bytes Str Nfkd NfkdData WordData.
Open Scope N_scope.

Lemma assocN_in {A} c (l : list (N * A)) v : assocN c l = Some v -> In (c, v) l.
Proof.
  induction l as [|[k w] l IH]; cbn; [discriminate|].
  destruct (N.eqb_spec c k) as [->|_]; intros H; [injection H as ->; auto|auto].
Qed.
Lemma assocN_none {A} c (l : list (N * A)) : (forall v, ~ In (c, v) l) -> assocN c l = None.
Proof.
  intros H. destruct (assocN c l) eqn:E; [|reflexivity]. apply assocN_in in E. destruct (H _ E).
Qed.

Lemma decomp_entry k d : In (k, d) decomp_table -> decomp_entry_ok (k, d) = true.
Proof. intros H. pose proof decomp_table_ok as Hc. rewrite forallb_forall in Hc. apply Hc, H. Qed.

(** Characters untouched by normalisation: below 160 or in the CJK block. *)
Definition plain (c : N) : bool := (c <? 160) || ((0x4E00 <=? c) && (c <=? 0x9FFF)).

Lemma plain_decompose c : plain c = true -> decompose_char c = [c].
Proof.
  intros Hp. unfold decompose_char, plain in *.
  assert (Hh : is_hangul c = false) by (unfold is_hangul; lia). rewrite Hh.
  rewrite assocN_none; [reflexivity|]. intros v Hin. apply decomp_entry in Hin.
  unfold decomp_entry_ok in Hin. lia.
Qed.

Lemma plain_ccc c : plain c = true -> ccc c = 0.
Proof.
  intros Hp. unfold ccc, plain in *.
  destruct (find _ ccc_table) as [[[a b] v]|] eqn:E; [|reflexivity].
  apply find_some in E. destruct E as [Hin Hr]. cbn in Hr.
  pose proof ccc_table_ok as Hc. rewrite forallb_forall in Hc. specialize (Hc _ Hin).
  unfold ccc_entry_ok in Hc. lia.
Qed.

Lemma ccc_insert_starter c l : ccc c = 0 -> ccc_insert c l = c :: l.
Proof.
  intros H. destruct l as [|d l]; [reflexivity|]. cbn. rewrite H.
  replace (ccc d <? 0) with false by lia. rewrite andb_false_r. reflexivity.
Qed.

Lemma nfkd_plain_app s t : forallb plain s = true -> nfkd (s ++ t) = s ++ nfkd t.
Proof.
  unfold nfkd, canonical_order. induction s as [|c s IH]; cbn [app flat_map forallb]; intros H; [reflexivity|].
  apply andb_true_iff in H. destruct H as [Hc Hs].
  rewrite (plain_decompose c Hc). cbn [app fold_right]. rewrite (IH Hs).
  apply ccc_insert_starter, plain_ccc, Hc.
Qed.

Lemma nfkd_plain s : forallb plain s = true -> nfkd s = s.
Proof.
  intros H. rewrite <- (app_nil_r s) at 1. rewrite nfkd_plain_app by exact H. apply app_nil_r.
Qed.

Lemma ccc_insert_perm c l : Permutation (ccc_insert c l) (c :: l).
Proof.
  induction l as [|d l IH]; cbn; [reflexivity|]. destruct (_ && _); [|reflexivity].
  rewrite IH. apply perm_swap.
Qed.
Lemma canonical_order_perm l : Permutation (canonical_order l) l.
Proof.
  unfold canonical_order. induction l as [|c l IH]; cbn; [reflexivity|].
  rewrite ccc_insert_perm. apply perm_skip, IH.
Qed.
Lemma nfkd_perm s : Permutation (nfkd s) (flat_map decompose_char s).
Proof. apply canonical_order_perm. Qed.

Lemma decompose_nonempty c : decompose_char c <> [].
Proof.
  unfold decompose_char. destruct (is_hangul c); [discriminate|].
  destruct (assocN c decomp_table) as [d|] eqn:E; [|discriminate].
  apply assocN_in, decomp_entry in E. unfold decomp_entry_ok in E.
  destruct d; [|discriminate]. rewrite andb_false_r in E. discriminate.
Qed.

Lemma nfkd_nonempty s : s <> [] -> nfkd s <> [].
Proof.
  intros H E. pose proof (nfkd_perm s) as P. rewrite E in P. apply Permutation_nil in P.
  destruct s as [|c s]; [congruence|]. cbn in P. apply app_eq_nil in P.
  apply (decompose_nonempty c), P.
Qed.

(** A space can only come from white space, or together with a character that occurs in no word. *)
Lemma decompose_space c : In 32 (decompose_char c) -> is_whitespace c = false ->
  exists d, In d (decompose_char c) /\ not_word_char d = true.
Proof.
  intros Hin Hw. unfold decompose_char in *. destruct (is_hangul c) eqn:Eh.
  - exfalso. unfold hangul_decomp in Hin. cbn [app In] in Hin.
    destruct (_ =? 0); cbn [In] in Hin; lia.
  - destruct (assocN c decomp_table) as [d|] eqn:E.
    + apply assocN_in, decomp_entry in E. unfold decomp_entry_ok in E.
      apply andb_true_iff in E. destruct E as [_ E].
      rewrite Hw, orb_false_r in E. apply orb_true_iff in E. destruct E as [E|E].
      * exfalso. apply negb_true_iff in E. rewrite <- not_true_iff_false in E. apply E.
        apply existsb_exists. exists 32. split; [exact Hin|reflexivity].
      * apply existsb_exists in E. exact E.
    + destruct Hin as [->|[]]. discriminate.
Qed.

Lemma nfkd_space s : forallb (fun c => negb (is_whitespace c)) s = true -> In 32 (nfkd s) ->
  exists d, In d (nfkd s) /\ not_word_char d = true.
Proof.
  intros Hw Hin. apply (Permutation_in _ (nfkd_perm s)) in Hin.
  apply in_flat_map in Hin. destruct Hin as (c & Hc & Hin).
  rewrite forallb_forall in Hw. specialize (Hw c Hc). apply negb_true_iff in Hw.
  destruct (decompose_space c Hin Hw) as (d & Hd & Hn). exists d. split; [|exact Hn].
  apply (Permutation_in _ (Permutation_sym (nfkd_perm s))). apply in_flat_map. exists c. auto.
Qed.

(** ** Idempotence *)
Definition closed (c : N) : Prop := decompose_char c = [c].

Lemma decompose_closed c : Forall closed (decompose_char c).
Proof.
  unfold decompose_char at 1. destruct (is_hangul c) eqn:Eh.
  - assert (Hj : forall x, 0x1100 <= x <= 0x11FF -> closed x).
    { intros x Hx. unfold closed, decompose_char.
      assert (E : is_hangul x = false) by (unfold is_hangul; lia). rewrite E.
      rewrite assocN_none; [reflexivity|]. intros v Hin.
      pose proof decomp_table_jamo as Hc. rewrite forallb_forall in Hc. specialize (Hc _ Hin). cbn [fst] in Hc. lia. }
    unfold is_hangul in Eh. unfold hangul_decomp.
    set (i := c - 44032). assert (Hi : i < 11172) by lia.
    assert (H1 : i / 588 < 19) by (apply N.div_lt_upper_bound; lia).
    assert (H2 : (i mod 588) / 28 < 21).
    { apply N.div_lt_upper_bound; [discriminate|]. pose proof (N.mod_lt i 588). lia. }
    assert (H3 : i mod 28 < 28) by (apply N.mod_lt; discriminate).
    cbn [app]. constructor; [apply Hj; lia|]. constructor; [apply Hj; lia|].
    destruct (i mod 28 =? 0); constructor; [apply Hj; lia|constructor].
  - destruct (assocN c decomp_table) as [d|] eqn:E.
    + apply assocN_in in E. pose proof decomp_table_closed as Hc. unfold decomp_closed in Hc.
      rewrite forallb_forall in Hc. specialize (Hc _ E). unfold closed_entry in Hc. cbn [snd] in Hc.
      rewrite forallb_forall in Hc. apply Forall_forall. intros x Hx. specialize (Hc x Hx).
      apply andb_true_iff in Hc. destruct Hc as [Hh Hf]. apply negb_true_iff in Hh.
      rewrite build_find in Hf. unfold closed, decompose_char. rewrite Hh.
      destruct (assocN x decomp_table); [discriminate|reflexivity].
    + constructor; [|constructor]. unfold closed, decompose_char. rewrite Eh, E. reflexivity.
Qed.

Lemma flat_map_closed l : Forall closed l -> flat_map decompose_char l = l.
Proof.
  induction 1 as [|c l Hc _ IH]; [reflexivity|]. cbn. rewrite Hc, IH. reflexivity.
Qed.

Definition in_order (a b : N) : Prop := (0 <? ccc b) && (ccc b <? ccc a) = false.

Lemma ccc_insert_sorted c l : Sorted in_order l -> Sorted in_order (ccc_insert c l).
Proof.
  induction 1 as [|d l Hs IH Hd]; cbn; [repeat constructor|].
  destruct ((0 <? ccc d) && (ccc d <? ccc c)) eqn:E.
  - constructor; [exact IH|]. destruct l as [|e l]; cbn.
    + constructor. unfold in_order. lia.
    + destruct ((0 <? ccc e) && (ccc e <? ccc c)); constructor.
      * inversion Hd; assumption.
      * unfold in_order. lia.
  - constructor; [constructor; assumption|]. constructor. exact E.
Qed.
Lemma canonical_order_sorted l : Sorted in_order (canonical_order l).
Proof. induction l as [|c l IH]; cbn; [constructor|]. apply ccc_insert_sorted, IH. Qed.
Lemma canonical_order_id l : Sorted in_order l -> canonical_order l = l.
Proof.
  induction 1 as [|c l Hs IH Hd]; [reflexivity|].
  change (canonical_order (c :: l)) with (ccc_insert c (canonical_order l)). rewrite IH.
  destruct Hd as [|d l Hd]; [reflexivity|]. cbn. rewrite Hd. reflexivity.
Qed.

Lemma nfkd_idem s : nfkd (nfkd s) = nfkd s.
Proof.
  unfold nfkd at 1. rewrite flat_map_closed.
  - apply canonical_order_id, canonical_order_sorted.
  - eapply Permutation_Forall; [symmetry; apply nfkd_perm|].
    induction s as [|c s IH]; cbn; [constructor|]. apply Forall_app. split; [apply decompose_closed|exact IH].
Qed.
