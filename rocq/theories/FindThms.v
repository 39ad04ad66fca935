(** Proofs about what the prefix search finds (restated in PropFind.v). *)
From Coq Require Import String FMapPositive Sorted ZifyBool ZifyNat ZifyN.
From Verif Require Import Outcome Bytes Str Hash Nfkd NfkdData ModelBip39 SpecBip39 ModelBuffers ModelLangs SpecLangs SpecFind WordData
  LangData LangData2 NfkdLemmas StrLemmas BitLemmas HashLemmas WordLemmas Bip39Proofs Bip39Thms More39Thms LangProofs LangThms.
Open Scope N_scope.

(** ** The words that a binary search can find in an unsorted list *)
Definition is_gt (c : comparison) : bool := match c with Gt => true | _ => false end.
Definition is_lt (c : comparison) : bool := match c with Lt => true | _ => false end.
(** Those found in a part of the list: the middle, what is below it on the left and above it on the right. *)
Fixpoint tree (f : nat) (seg : list str) : list str :=
  match f with
  | O => []
  | S f' =>
      let k := Nat.div2 (length seg) in
      match skipn k seg with
      | [] => []
      | m :: above => filter (fun w => is_gt (str_cmp m w)) (tree f' (firstn k seg))
                      ++ m :: filter (fun w => is_lt (str_cmp m w)) (tree f' above)
      end
  end.
(** The same for the search of Rust 1.82 and a part of [2 ^ k] words. *)
Fixpoint tree_new (k : nat) (seg : list str) : list str :=
  match k with
  | O => seg
  | S k' =>
      match skipn (2 ^ k') seg with
      | [] => []
      | m :: above => filter (fun w => is_gt (str_cmp m w)) (tree_new k' (firstn (2 ^ k') seg))
                      ++ filter (fun w => negb (is_gt (str_cmp m w))) (tree_new k' (m :: above))
      end
  end.
(** [T] is the list of what [search] finds in [l]. *)
Definition searches (search : list str -> str -> R (N + N)) (l T : list str) : Prop :=
  forall x, exists r, search l x = Ok r /\
    match r with
    | inl i => In x T /\ nth_error l (N.to_nat i) = Some x
    | inr i => ~ In x T /\ (i = len l \/ exists y, nth_error l (N.to_nat i) = Some y /\ str_cmp y x = Gt)
    end.

Lemma nth_mid {A} (a b : list A) x i : i = length a -> nth_error (a ++ x :: b) i = Some x.
Proof. intros ->. rewrite nth_error_app2 by lia. rewrite Nat.sub_diag. reflexivity. Qed.
Lemma loop_tree f : forall fuel l pre seg post x, (f <= fuel)%nat -> (length seg < 2 ^ f)%nat -> l = pre ++ seg ++ post ->
  exists r, binary_search_loop fuel l x (len pre) (len pre + len seg) = Ok r /\
    match r with
    | inl i => In x (tree f seg) /\ nth_error l (N.to_nat i) = Some x
    | inr i => ~ In x (tree f seg) /\ (i = len pre + len seg \/ exists y, nth_error l (N.to_nat i) = Some y /\ str_cmp y x = Gt)
    end.
Proof.
  induction f as [|f IH]; intros fuel l pre seg post x Hf HL El.
  - cbn in HL. destruct seg; [|cbn in HL; lia]. exists (inr (len pre)).
    assert (E : binary_search_loop fuel l x (len pre) (len pre + len (@nil str)) = Ok (inr (len pre))).
    { change (len (@nil str)) with 0. rewrite N.add_0_r. destruct fuel; cbn [binary_search_loop]; rewrite N.ltb_irrefl; reflexivity. }
    rewrite E. split; [reflexivity|]. split; [intros []|]. left. unfold len. cbn. lia.
  - destruct fuel as [|fuel]; [lia|]. cbn [binary_search_loop tree]. cbv zeta. set (k := Nat.div2 (length seg)).
    assert (Hk : (2 * k <= length seg <= 2 * k + 1)%nat) by (unfold k; pose proof (Nat.div2_odd (length seg)) as D; destruct (Nat.odd (length seg)); cbn [Nat.b2n] in D; lia).
    clearbody k. destruct (skipn k seg) as [|m above] eqn:Es.
    + assert (length seg = 0)%nat. { pose proof (skipn_length k seg) as S. rewrite Es in S. cbn in S. lia. }
      destruct seg; [|cbn in *; lia]. exists (inr (len pre)). destruct (N.ltb_spec (len pre) (len pre + len (@nil str))) as [H'|_]; [unfold len in H'; cbn in H'; lia|].
      split; [reflexivity|]. split; [intros []|]. left. unfold len. cbn. lia.
    + pose proof (firstn_skipn k seg) as Eseg. rewrite Es in Eseg. set (left := firstn k seg) in *.
      assert (Lk : length left = k). { unfold left. rewrite firstn_length. lia. }
      assert (LL : length seg = (k + 1 + length above)%nat). { rewrite <- Eseg, app_length. cbn [length]. lia. }
      assert (P2 : (2 ^ S f = 2 * 2 ^ f)%nat) by reflexivity.
      destruct (N.ltb_spec (len pre) (len pre + len seg)) as [_|H']; [|unfold len in H'; lia].
      assert (Em : len pre + (len pre + len seg - len pre) / 2 = len (pre ++ left)).
      { unfold len. rewrite app_length, Lk. assert (D : (N.of_nat (length pre) + N.of_nat (length seg) - N.of_nat (length pre)) / 2 = N.of_nat k); [|lia].
        symmetry. apply (N.div_unique _ 2 (N.of_nat k) (N.of_nat (length seg - 2 * k))); lia. }
      rewrite Em. unfold index.
      assert (El' : l = (pre ++ left) ++ m :: (above ++ post)) by (rewrite El, <- Eseg, <- !app_assoc; reflexivity).
      assert (En : nth_error l (N.to_nat (len (pre ++ left))) = Some m) by (rewrite El'; apply nth_mid; unfold len; lia).
      rewrite En. cbn [or_panic bind]. clear Es Em. clearbody left. destruct (str_cmp m x) eqn:E.
      * apply str_cmp_eq in E. subst m. exists (inl (len (pre ++ left))). split; [reflexivity|]. split; [|exact En]. apply in_or_app. right. left. reflexivity.
      * assert (E1 : len (pre ++ left) + 1 = len (pre ++ left ++ [m])) by (unfold len; rewrite !app_length; cbn [length]; lia).
        assert (E2 : len pre + len seg = len (pre ++ left ++ [m]) + len above) by (unfold len; rewrite !app_length; cbn [length]; lia).
        destruct (IH fuel l (pre ++ left ++ [m]) above post x) as (r & Er & Hr); [lia|lia|rewrite El', <- !app_assoc; reflexivity|].
        rewrite E1, E2. exists r. split; [exact Er|]. destruct r as [i|i]; destruct Hr as [H1 H2].
        -- split; [|exact H2]. apply in_or_app. right. right. apply filter_In. split; [exact H1|]. rewrite E. reflexivity.
        -- split; [|exact H2]. intros H. apply in_app_or in H. destruct H as [H|[H|H]].
           ++ apply filter_In in H. destruct H as [_ H]. rewrite E in H. discriminate H.
           ++ subst m. rewrite str_cmp_refl in E. discriminate E.
           ++ apply filter_In in H. destruct H as [H _]. exact (H1 H).
      * assert (E1 : len (pre ++ left) = len pre + len left) by (unfold len; rewrite app_length; lia). rewrite E1 in *.
        destruct (IH fuel l pre left (m :: above ++ post) x) as (r & Er & Hr); [lia|lia|rewrite El', <- !app_assoc; reflexivity|].
        exists r. split; [exact Er|]. destruct r as [i|i]; destruct Hr as [H1 H2].
        -- split; [|exact H2]. apply in_or_app. left. apply filter_In. split; [exact H1|]. rewrite E. reflexivity.
        -- split; [|destruct H2 as [->|H2]; [right; exists m; split; [exact En|exact E]|right; exact H2]].
           intros H. apply in_app_or in H. destruct H as [H|[H|H]].
           ++ apply filter_In in H. destruct H as [H _]. exact (H1 H).
           ++ subst m. rewrite str_cmp_refl in E. discriminate E.
           ++ apply filter_In in H. destruct H as [_ H]. rewrite E in H. discriminate H.
Qed.
Lemma tree_searches f l : (length l < 2 ^ f)%nat -> (f <= S (length l))%nat -> searches binary_search l (tree f l).
Proof.
  intros HL Hf x. unfold binary_search. destruct (loop_tree f (S (length l)) l [] l [] x Hf HL) as (r & E & H); [cbn; rewrite app_nil_r; reflexivity|].
  change (len (@nil str)) with 0 in *. rewrite N.add_0_l in *. exists r. split; [exact E|exact H].
Qed.

Lemma loop_tree_new k : forall fuel l pre seg post x, (k <= fuel)%nat -> (length seg = 2 ^ k)%nat -> l = pre ++ seg ++ post ->
  (post = [] \/ exists z post', post = z :: post' /\ str_cmp z x = Gt) ->
  exists b y, binary_search_new_loop fuel l x (len pre) (len seg) = Ok b
    /\ nth_error l (N.to_nat b) = Some y /\ (In x (tree_new k seg) <-> y = x)
    /\ (b + 1 = len l \/ exists z, nth_error l (N.to_nat (b + 1)) = Some z /\ str_cmp z x = Gt).
Proof.
  induction k as [|k IH]; intros fuel l pre seg post x Hf HL El Hp.
  - destruct seg as [|y [|? ?]]; cbn in HL; try lia. exists (len pre), y. split; [destruct fuel; reflexivity|].
    split; [rewrite El; apply nth_mid; unfold len; lia|]. split; [cbn; tauto|].
    destruct Hp as [->|(z & post' & -> & Hz)].
    + left. rewrite El. unfold len. rewrite app_length. cbn. lia.
    + right. exists z. split; [|exact Hz]. rewrite El. change ([y] ++ z :: post') with (y :: z :: post').
      change (y :: z :: post') with ([y] ++ z :: post'). rewrite app_assoc. apply nth_mid. unfold len. rewrite app_length. cbn. lia.
  - destruct fuel as [|fuel]; [lia|]. cbn [binary_search_new_loop tree_new]. cbv zeta.
    assert (P2 : (2 ^ S k = 2 * 2 ^ k)%nat) by reflexivity. assert (P1 : (1 <= 2 ^ k)%nat) by (clear; induction k; cbn; lia).
    set (h := (2 ^ k)%nat) in *.
    destruct (N.ltb_spec 1 (len seg)) as [_|H']; [|unfold len in H'; lia].
    destruct (skipn h seg) as [|m above] eqn:Es.
    { pose proof (skipn_length h seg) as S. rewrite Es in S. cbn in S. lia. }
    pose proof (firstn_skipn h seg) as Eseg. rewrite Es in Eseg. set (left := firstn h seg) in *.
    assert (Lk : length left = h). { unfold left. rewrite firstn_length. lia. }
    assert (LL : length (m :: above) = h). { rewrite <- Es, skipn_length. lia. }
    assert (Eh : len seg / 2 = N.of_nat h). { symmetry. apply (N.div_unique _ 2 (N.of_nat h) 0); unfold len; lia. }
    rewrite Eh. assert (Em : len pre + N.of_nat h = len (pre ++ left)) by (unfold len; rewrite app_length, Lk; lia). rewrite Em.
    assert (Es1 : len seg - N.of_nat h = len left) by (unfold len; lia).
    assert (Es2 : len left = len (m :: above)) by (unfold len; lia). rewrite Es1.
    assert (El' : l = (pre ++ left) ++ (m :: above) ++ post) by (rewrite El, <- Eseg, <- !app_assoc; reflexivity).
    assert (En : nth_error l (N.to_nat (len (pre ++ left))) = Some m) by (rewrite El'; apply nth_mid; unfold len; lia).
    unfold index. rewrite En. cbn [or_panic bind]. clear Es Em Eh Es1. clearbody left h. destruct (is_gt (str_cmp m x)) eqn:E.
    + assert (E0 : str_cmp m x = Gt) by (destruct (str_cmp m x); [discriminate E|discriminate E|reflexivity]). rewrite E0.
      destruct (IH fuel l pre left ((m :: above) ++ post) x) as (b & y & H1 & H2 & H3 & H4); [lia|lia|rewrite El', <- !app_assoc; reflexivity| |].
      { right. exists m, (above ++ post). split; [reflexivity|exact E0]. }
      exists b, y. split; [exact H1|]. split; [exact H2|]. split; [|exact H4]. rewrite in_app_iff, !filter_In, E. rewrite <- H3. cbn [negb]. intuition discriminate.
    + assert (E0 : match str_cmp m x with Gt => len pre | _ => len (pre ++ left) end = len (pre ++ left)) by (destruct (str_cmp m x); [reflexivity|reflexivity|discriminate E]).
      rewrite E0, Es2.
      destruct (IH fuel l (pre ++ left) (m :: above) post x) as (b & y & H1 & H2 & H3 & H4); [lia|lia|exact El'|exact Hp|].
      exists b, y. split; [exact H1|]. split; [exact H2|]. split; [|exact H4]. rewrite in_app_iff, !filter_In, E. rewrite <- H3. cbn [negb]. intuition discriminate.
Qed.
Lemma tree_new_searches k l : (length l = 2 ^ k)%nat -> (k <= length l)%nat -> searches binary_search_new l (tree_new k l).
Proof.
  intros HL Hk x. unfold binary_search_new. assert (P1 : (1 <= 2 ^ k)%nat) by (clear; induction k; cbn; lia).
  destruct (N.eqb_spec (len l) 0) as [H0|_]; [unfold len in H0; lia|].
  destruct (loop_tree_new k (length l) l [] l [] x Hk HL) as (b & y & H1 & H2 & H3 & H4); [cbn; rewrite app_nil_r; reflexivity|left; reflexivity|].
  change (len (@nil str)) with 0 in H1. rewrite H1. cbn [bind]. unfold index. rewrite H2. cbn [or_panic bind].
  destruct (str_cmp y x) eqn:E.
  - apply str_cmp_eq in E. exists (inl b). split; [reflexivity|]. split; [apply H3, E|]. rewrite H2, E. reflexivity.
  - exists (inr (b + 1)). split; [reflexivity|]. split; [|exact H4]. intros H. apply H3 in H. subst y. rewrite str_cmp_refl in E. discriminate E.
  - exists (inr b). split; [reflexivity|]. split; [|right; exists y; split; [exact H2|exact E]].
    intros H. apply H3 in H. subst y. rewrite str_cmp_refl in E. discriminate E.
Qed.

Lemma nodup_filter {A} (p : A -> bool) l : NoDup l -> NoDup (filter p l).
Proof. apply NoDup_filter. Qed.
Lemma nodup_join {A} (a b : list A) : NoDup a -> NoDup b -> (forall x, In x a -> In x b -> False) -> NoDup (a ++ b).
Proof.
  induction a as [|x a IH]; intros Ha Hb H; [exact Hb|]. inversion Ha as [|? ? Hx Ha']; subst. cbn. constructor.
  - intros I. apply in_app_or in I. destruct I as [I|I]; [exact (Hx I)|apply (H x); [left; reflexivity|exact I]].
  - apply IH; [exact Ha'|exact Hb|]. intros y H1 H2. apply (H y); [right; exact H1|exact H2].
Qed.
Lemma nodup_parts {A} (a b : list A) : NoDup (a ++ b) -> NoDup a /\ NoDup b.
Proof.
  induction a as [|x a IH]; intros H; [split; [constructor|exact H]|]. inversion H as [|? ? Hx H']; subst. destruct (IH H') as [I1 I2].
  split; [|exact I2]. constructor; [|exact I1]. intros I. apply Hx, in_or_app. left. exact I.
Qed.
Lemma tree_sub f : forall seg, NoDup seg -> NoDup (tree f seg) /\ forall x, In x (tree f seg) -> In x seg.
Proof.
  induction f as [|f IH]; intros seg D; [split; [constructor|intros x []]|]. cbn [tree]. cbv zeta. set (k := Nat.div2 (length seg)). clearbody k.
  destruct (skipn k seg) as [|m above] eqn:Es; [split; [constructor|intros x []]|].
  pose proof (firstn_skipn k seg) as E. rewrite Es in E. set (left := firstn k seg) in *. clearbody left. clear Es. subst seg.
  destruct (nodup_parts _ _ D) as [D1 D2]. inversion D2 as [|? ? Hm D3]; subst. destruct (IH left D1) as [A1 A2]. destruct (IH above D3) as [B1 B2].
  assert (Z : forall x, In x left -> In x (m :: above) -> False) by (intros x; apply (nodup_app_disjoint _ _ x D)).
  split.
  - apply nodup_join; [apply nodup_filter, A1| |].
    + constructor; [|apply nodup_filter, B1]. intros H. apply filter_In in H. apply Hm, B2, H.
    + intros x H1 H2. apply filter_In in H1. apply (Z x); [apply A2, H1|]. destruct H2 as [H2|H2]; [left; exact H2|right; apply filter_In in H2; apply B2, H2].
  - intros x H. apply in_app_or in H. apply in_or_app. destruct H as [H|[H|H]].
    + left. apply filter_In in H. apply A2, H.
    + right. left. exact H.
    + right. right. apply filter_In in H. apply B2, H.
Qed.
Lemma tree_new_sub k : forall seg, NoDup seg -> NoDup (tree_new k seg) /\ forall x, In x (tree_new k seg) -> In x seg.
Proof.
  induction k as [|k IH]; intros seg D; [split; [exact D|intros x H; exact H]|]. cbn [tree_new]. set (h := (2 ^ k)%nat). clearbody h.
  destruct (skipn h seg) as [|m above] eqn:Es; [split; [constructor|intros x []]|].
  pose proof (firstn_skipn h seg) as E. rewrite Es in E. set (left := firstn h seg) in *. clearbody left. clear Es. subst seg.
  destruct (nodup_parts _ _ D) as [D1 D2]. destruct (IH left D1) as [A1 A2]. destruct (IH (m :: above) D2) as [B1 B2].
  assert (Z : forall x, In x left -> In x (m :: above) -> False) by (intros x; apply (nodup_app_disjoint _ _ x D)).
  split.
  - apply nodup_join; [apply nodup_filter, A1|apply nodup_filter, B1|].
    intros x H1 H2. apply filter_In in H1. apply filter_In in H2. apply (Z x); [apply A2, H1|apply B2, H2].
  - intros x H. apply in_app_or in H. apply in_or_app. destruct H as [H|H]; apply filter_In in H; [left; apply A2, H|right; apply B2, H].
Qed.

(** ** From the search to the answers *)
(** No word follows directly on a longer word that begins with it. *)
Fixpoint no_shortening (l : list str) : bool :=
  match l with
  | a :: (b :: _) as l' => negb (starts_with a b) && no_shortening l'
  | _ => true
  end.
Lemma no_shortening_take l p : no_shortening l = true -> forall a l', l = a :: l' -> a <> p -> starts_with a p = true ->
  ~ In p (take_while (fun w => starts_with w p) l).
Proof.
  induction l as [|b l IH]; intros N a l' E Hne Hs; [discriminate E|]. injection E as -> ->. cbn [take_while]. rewrite Hs. intros [H|H]; [exact (Hne H)|].
  destruct l' as [|b l']; [destruct H|]. cbn [no_shortening] in N. apply andb_prop in N. destruct N as [N1 N2].
  assert (Hb : starts_with b p = true). { cbn [take_while] in H. destruct (starts_with b p); [reflexivity|destruct H]. }
  apply (IH N2 b l' eq_refl); [|exact Hb|exact H]. intros ->. rewrite Hs in N1. discriminate N1.
Qed.
Lemma no_shortening_skip k : forall l, no_shortening l = true -> no_shortening (skipn k l) = true.
Proof.
  induction k as [|k IH]; intros l H; [exact H|]. destruct l as [|a l]; [exact H|]. cbn [skipn]. apply IH.
  destruct l as [|b l]; [reflexivity|]. cbn [no_shortening] in H. apply andb_prop in H. apply H.
Qed.
Lemma skipn_nth {A} k : forall (l : list A) x, nth_error l k = Some x -> exists r, skipn k l = x :: r.
Proof.
  induction k as [|k IH]; intros [|a l] x H; try discriminate H.
  - injection H as ->. exists l. reflexivity.
  - apply IH, H.
Qed.
Lemma starts_with_refl p : starts_with p p = true.
Proof. apply starts_with_spec. exists []. rewrite app_nil_r. reflexivity. Qed.
(** What is answered: the words with the prefix that come in a row where the search ended. *)
Lemma answer search l T p : searches search l T -> exists i ws, get_words_by_prefix_with search l p = Ok ws
  /\ ws = take_while (fun w => starts_with w p) (skipn i l)
  /\ ((In p T /\ nth_error l i = Some p) \/ (~ In p T /\ (i = length l \/ exists y, nth_error l i = Some y /\ str_cmp y p = Gt))).
Proof.
  intros S. destruct (S p) as (r & E & H). unfold get_words_by_prefix_with. rewrite E. cbn [bind]. cbv zeta.
  set (i := match r with inl i => i | inr i => i end).
  assert (Hi : i <= len l).
  { unfold i, len. destruct r as [j|j]; destruct H as [_ H].
    - assert (nth_error l (N.to_nat j) <> None) by congruence. pose proof (proj1 (nth_error_Some l (N.to_nat j)) H0). lia.
    - destruct H as [->|(y & H & _)]; [unfold len; lia|]. assert (nth_error l (N.to_nat j) <> None) by congruence. pose proof (proj1 (nth_error_Some l (N.to_nat j)) H0). lia. }
  exists (N.to_nat i). unfold sub_chk. destruct (N.leb_spec i (len l)) as [_|Hc]; [|lia]. cbn [bind].
  destruct (take_while_prefix (fun w => starts_with w p) (skipn (N.to_nat i) l)) as (post & _ & H2 & _). rewrite H2.
  eexists. split; [reflexivity|]. split; [reflexivity|]. unfold i. destruct r as [j|j]; destruct H as [H1 H3]; [left; split; assumption|right].
  split; [exact H1|]. destruct H3 as [->|H3]; [left; unfold len; lia|right; exact H3].
Qed.
Lemma answer_word search l T w : searches search l T -> no_shortening l = true ->
  exists ws, get_words_by_prefix_with search l w = Ok ws /\ (In w ws <-> In w T).
Proof.
  intros S N. destruct (answer search l T w S) as (i & ws & E & -> & H). exists (take_while (fun v => starts_with v w) (skipn i l)). split; [exact E|].
  destruct H as [[H1 H2]|[H1 H2]].
  - split; [intros _; exact H1|intros _]. destruct (skipn_nth i l w H2) as (r & ->). cbn [take_while]. rewrite starts_with_refl. left. reflexivity.
  - split; [|intros H; destruct (H1 H)]. intros H. exfalso. destruct H2 as [->|(y & Hy & Hc)].
    + rewrite skipn_all in H. destruct H.
    + destruct (skipn_nth i l y Hy) as (r & Er). destruct (starts_with y w) eqn:Ew.
      * revert H. apply (no_shortening_take _ w (no_shortening_skip i l N) y r Er); [|exact Ew]. intros ->. rewrite str_cmp_refl in Hc. discriminate Hc.
      * rewrite Er in H. cbn [take_while] in H. rewrite Ew in H. destruct H.
Qed.
Lemma found_of search l T k : searches search (words_all l) T -> NoDup T -> (forall x, In x T -> In x (words_all l)) ->
  no_shortening (words_all l) = true -> len T = k -> words_found search l k.
Proof.
  intros S D Sub Nn HT. exists T. split; [exact D|]. split; [exact HT|]. intros w. rewrite (published_words l). unfold finds. rewrite (wordlist_all_words l).
  destruct (answer_word search (words_all l) T w S Nn) as (ws & E & H). split.
  - intros HT'. split; [apply Sub, HT'|]. exists ws. split; [exact E|apply H, HT'].
  - intros (_ & ws' & E' & H'). rewrite E in E'. injection E' as <-. apply H, H'.
Qed.
Lemma lists_no_shortening : forallb (fun l => no_shortening (words_all l))
  [Compiled English; Compiled ChineseSimplified; ChineseTraditional; French; Italian; Japanese; Korean; Spanish] = true.
Proof. vm_compute. reflexivity. Qed.
Lemma words_all_no_shortening l : no_shortening (words_all l) = true.
Proof.
  pose proof lists_no_shortening as H. rewrite forallb_forall in H. apply H. destruct l as [[]| | | | | |]; cbn [In]; tauto.
Qed.
Lemma old_found l k : len (tree 12 (words_all l)) = k -> words_found binary_search l k.
Proof.
  pose proof (words_all_length l) as HL. pose proof (words_all_nodup l) as D. pose proof (words_all_no_shortening l) as Nn. intros Hk.
  destruct (tree_sub 12 (words_all l) D) as [D1 D2].
  apply (found_of binary_search l (tree 12 (words_all l)) k); [|exact D1|exact D2|exact Nn|exact Hk].
  apply tree_searches; rewrite HL; [apply Nat.ltb_lt|apply Nat.leb_le]; reflexivity.
Qed.
Lemma new_found l k : len (tree_new 11 (words_all l)) = k -> words_found binary_search_new l k.
Proof.
  pose proof (words_all_length l) as HL. pose proof (words_all_nodup l) as D. pose proof (words_all_no_shortening l) as Nn. intros Hk.
  destruct (tree_new_sub 11 (words_all l) D) as [D1 D2].
  apply (found_of binary_search_new l (tree_new 11 (words_all l)) k); [|exact D1|exact D2|exact Nn|exact Hk].
  apply tree_new_searches; rewrite HL; [reflexivity|apply Nat.leb_le; reflexivity].
Qed.
Lemma sorted_found search l : std_binary_search search -> l = Compiled English \/ l = Italian \/ l = Korean -> words_found search l 2048.
Proof.
  intros S Hl. exists (published l). rewrite (published_words l). split; [apply words_all_nodup|]. split; [unfold len; rewrite words_all_length; reflexivity|].
  intros w. split; [|intros [H _]; exact H]. intros Hw. split; [exact Hw|].
  assert (X : exists ws before after, get_words_by_prefix_with search (wordlist_all l) w = Ok ws /\ published l = before ++ ws ++ after
    /\ (forall v, In v ws <-> In v (published l) /\ exists t, v = w ++ t)).
  { destruct Hl as [-> |Hl]; [exact (c18_prefix_search_any search S w)|exact (c123_prefix_search search S l w Hl)]. }
  destruct X as (ws & _ & _ & E & _ & H). exists ws. split; [exact E|]. apply H. rewrite (published_words l). split; [exact Hw|]. exists []. rewrite app_nil_r. reflexivity.
Qed.
Lemma tree_zh : len (tree 12 (words_all (Compiled ChineseSimplified))) = 18.
Proof. vm_compute. reflexivity. Qed.
Lemma tree_new_zh : len (tree_new 11 (words_all (Compiled ChineseSimplified))) = 7.
Proof. vm_compute. reflexivity. Qed.
Lemma tree_tw : len (tree 12 (words_all (ChineseTraditional))) = 16.
Proof. vm_compute. reflexivity. Qed.
Lemma tree_new_tw : len (tree_new 11 (words_all (ChineseTraditional))) = 6.
Proof. vm_compute. reflexivity. Qed.
Lemma tree_fr : len (tree 12 (words_all (French))) = 1665.
Proof. vm_compute. reflexivity. Qed.
Lemma tree_new_fr : len (tree_new 11 (words_all (French))) = 1640.
Proof. vm_compute. reflexivity. Qed.
Lemma tree_ja : len (tree 12 (words_all (Japanese))) = 1565.
Proof. vm_compute. reflexivity. Qed.
Lemma tree_new_ja : len (tree_new 11 (words_all (Japanese))) = 1540.
Proof. vm_compute. reflexivity. Qed.
Lemma tree_es : len (tree 12 (words_all (Spanish))) = 1732.
Proof. vm_compute. reflexivity. Qed.
Lemma tree_new_es : len (tree_new 11 (words_all (Spanish))) = 1718.
Proof. vm_compute. reflexivity. Qed.

(** ** C140 *)
(** The numbers for the search that Rust had from 1.52 to 1.81 and for the one it has had since. *)
Lemma c140_words_found : forall (l : language_all) (k k' : N),
  In (l, k, k') [(Compiled English, 2048, 2048); (Compiled ChineseSimplified, 18, 7); (ChineseTraditional, 16, 6); (French, 1665, 1640);
                 (Italian, 2048, 2048); (Japanese, 1565, 1540); (Korean, 2048, 2048); (Spanish, 1732, 1718)] ->
  words_found binary_search l k /\ words_found binary_search_new l k'.
Proof.
  intros l k k' H. destruct c18_searches_conform as [S1 S2].
  cbn [In] in H. destruct H as [H|[H|[H|[H|[H|[H|[H|[H|[]]]]]]]]]; apply pair_equal_spec in H; destruct H as [H <-]; apply pair_equal_spec in H; destruct H as [<- <-].
  - split; apply sorted_found; auto.
  - split; [exact (old_found _ _ tree_zh)|exact (new_found _ _ tree_new_zh)].
  - split; [exact (old_found _ _ tree_tw)|exact (new_found _ _ tree_new_tw)].
  - split; [exact (old_found _ _ tree_fr)|exact (new_found _ _ tree_new_fr)].
  - split; apply sorted_found; auto.
  - split; [exact (old_found _ _ tree_ja)|exact (new_found _ _ tree_new_ja)].
  - split; apply sorted_found; auto.
  - split; [exact (old_found _ _ tree_es)|exact (new_found _ _ tree_new_es)].
Qed.
Definition one_char (w : str) : bool := match w with [_] => true | _ => false end.
Lemma chinese_one_char : forallb one_char (words_all (Compiled ChineseSimplified)) = true /\ forallb one_char (words_all ChineseTraditional) = true.
Proof. split; vm_compute; reflexivity. Qed.
Lemma take_while_every {A} (p : A -> bool) l : forallb p l = true -> take_while p l = l.
Proof. induction l as [|x l IH]; intros H; [reflexivity|]. cbn in *. apply andb_prop in H. destruct H as [-> H]. rewrite (IH H). reflexivity. Qed.
(** In a list of single characters a search for nothing ends at the beginning. *)
Lemma loop_empty l : forallb one_char l = true -> forall fuel hi, (N.to_nat hi <= fuel)%nat -> hi <= len l -> binary_search_loop fuel l [] 0 hi = Ok (inr 0).
Proof.
  intros H1. induction fuel as [|fuel IH]; intros hi Hf Hh; cbn [binary_search_loop].
  - destruct (N.ltb_spec 0 hi) as [H|H]; [lia|reflexivity].
  - destruct (N.ltb_spec 0 hi) as [H|H]; [|reflexivity]. cbv zeta. rewrite N.sub_0_r, N.add_0_l.
    assert (Hd : hi / 2 < hi) by (apply N.div_lt; lia). set (mid := hi / 2) in *. clearbody mid. unfold index.
    destruct (nth_error l (N.to_nat mid)) as [y|] eqn:Ey; [|apply nth_error_None in Ey; unfold len in Hh; lia].
    cbn [or_panic bind]. rewrite forallb_forall in H1. specialize (H1 y (nth_error_In _ _ Ey)). destruct y as [|c [|? ?]]; try discriminate H1.
    change (str_cmp [c] []) with Gt. cbv iota. apply IH; lia.
Qed.
Lemma loop_new_empty l : forallb one_char l = true -> forall fuel size, (N.to_nat size <= fuel)%nat -> size <= len l -> binary_search_new_loop fuel l [] 0 size = Ok 0.
Proof.
  intros H1. induction fuel as [|fuel IH]; intros size Hf Hh; cbn [binary_search_new_loop].
  - destruct (N.ltb_spec 1 size) as [H|H]; [lia|reflexivity].
  - destruct (N.ltb_spec 1 size) as [H|H]; [|reflexivity]. cbv zeta. rewrite N.add_0_l.
    assert (Hd : size / 2 < size) by (apply N.div_lt; lia). assert (Hd1 : 1 <= size / 2) by (apply N.div_le_lower_bound; lia).
    set (mid := size / 2) in *. clearbody mid. unfold index.
    destruct (nth_error l (N.to_nat mid)) as [y|] eqn:Ey; [|apply nth_error_None in Ey; unfold len in Hh; lia].
    cbn [or_panic bind]. rewrite forallb_forall in H1. specialize (H1 y (nth_error_In _ _ Ey)). destruct y as [|c [|? ?]]; try discriminate H1.
    change (str_cmp [c] []) with Gt. cbv iota. apply IH; lia.
Qed.
Lemma searches_empty l : forallb one_char l = true -> l <> [] ->
  binary_search l [] = Ok (inr 0) /\ binary_search_new l [] = Ok (inr 0).
Proof.
  intros H1 Hn. split.
  - apply (loop_empty l H1); unfold len; lia.
  - unfold binary_search_new. destruct (N.eqb_spec (len l) 0) as [H|_]; [destruct l; [destruct (Hn eq_refl)|unfold len in H; cbn in H; lia]|].
    rewrite (loop_new_empty l H1) by (unfold len; lia). cbn [bind]. destruct l as [|y l]; [destruct (Hn eq_refl)|].
    cbn [forallb] in H1. destruct y as [|c [|? ?]]; try discriminate H1. reflexivity.
Qed.
Lemma answered_of search l T : forallb one_char (words_all l) = true -> searches search (words_all l) T -> (forall x, In x T -> In x (words_all l)) ->
  search (words_all l) [] = Ok (inr 0) -> forall p, answered search l p <-> ~ In p (published l) \/ In p T.
Proof.
  intros H1 S Sub H0 p. unfold answered. rewrite (published_words l), (wordlist_all_words l). rewrite forallb_forall in H1.
  pose proof (words_all_length l) as HL. generalize dependent (words_all l). intros wl H1 S Sub H0 HL.
  assert (One : forall w t, p <> [] -> In w wl -> w = p ++ t -> w = p).
  { intros w t Hp Hw ->. specialize (H1 _ Hw). destruct p as [|c p]; [destruct (Hp eq_refl)|]. destruct p as [|? p]; [|discriminate H1].
    destruct t as [|? t]; [reflexivity|discriminate H1]. }
  destruct (answer search wl T p S) as (i & ws & E & Ews & H).
  assert (Sound : forall w, In w ws -> In w wl /\ exists t, w = p ++ t).
  { intros w Hw. rewrite Ews in Hw. split; [|apply starts_with_spec, (take_while_all _ _ _ Hw)].
    destruct (take_while_prefix (fun v => starts_with v p) (skipn i wl)) as (post & X & _). rewrite <- (firstn_skipn i wl), X. apply in_or_app. right. apply in_or_app. left. exact Hw. }
  assert (Dp : p = [] \/ p <> []) by (destruct p; [left; reflexivity|right; discriminate]).
  destruct Dp as [->|Hp].
  - split; [intros _; left; intros Hi; specialize (H1 _ Hi); discriminate H1|]. intros _. exists wl. split.
    + unfold get_words_by_prefix_with. rewrite H0. cbn [bind]. cbv zeta. unfold sub_chk. rewrite (proj2 (N.leb_le 0 (len wl)) (N.le_0_l _)). cbn [bind].
      change (skipn (N.to_nat 0) wl) with wl. rewrite take_while_every; [rewrite firstn_all; reflexivity|]. apply forallb_forall. intros x _. apply starts_with_spec. exists x. reflexivity.
    + intros w. split; [intros Hw; split; [exact Hw|exists w; reflexivity]|intros [Hw _]; exact Hw].
  - destruct H as [[HT Hi]|[HT Hi]].
    + split; [intros _; right; exact HT|]. intros _. exists ws. split; [exact E|]. intros w. split; [apply Sound|]. intros [Hw (t & Et)].
      rewrite (One w t Hp Hw Et), Ews. destruct (skipn_nth i wl p Hi) as (r & ->). cbn [take_while]. rewrite starts_with_refl. left. reflexivity.
    + assert (N : forall w, ~ In w ws).
      { intros w Hw. destruct (Sound w Hw) as [A (t & Et)]. apply (One w t Hp A) in Et. subst w. rewrite Ews in Hw. destruct Hi as [->|(y & Hy & Hc)].
        - rewrite skipn_all in Hw. destruct Hw.
        - destruct (skipn_nth i wl y Hy) as (r & Er). rewrite Er in Hw. cbn [take_while] in Hw. destruct (starts_with y p) eqn:Ey; [|destruct Hw].
          apply starts_with_spec in Ey. destruct Ey as (t' & Ey). apply (One y t' Hp (nth_error_In _ _ Hy)) in Ey. subst y. rewrite str_cmp_refl in Hc. discriminate Hc. }
      split.
      * intros (ws' & E' & H'). left. intros Hin. rewrite E in E'. injection E' as <-. apply (N p). apply H'. split; [exact Hin|]. exists []. rewrite app_nil_r. reflexivity.
      * intros [Hn|Hn]; [|destruct (HT Hn)]. exists ws. split; [exact E|]. intros w. split; [apply Sound|]. intros [Hw (t & Et)]. exfalso. apply Hn.
        rewrite <- (One w t Hp Hw Et). exact Hw.
Qed.
Definition chars_of (l : list N) : list str := map (fun c => [c]) l.
Lemma chinese_trees :
  tree 12 (words_all (Compiled ChineseSimplified)) = chars_of [0x4E00; 0x4E09; 0x4E4B; 0x4E8C; 0x53D6; 0x54CD; 0x56E2; 0x5B58; 0x5B98; 0x5FB7; 0x63A8; 0x6790; 0x6A21; 0x719F; 0x7802; 0x7978; 0x8247; 0x97E6]
  /\ tree_new 11 (words_all (Compiled ChineseSimplified)) = chars_of [0x4E00; 0x4E09; 0x4E4B; 0x4E8C; 0x56E2; 0x5B98; 0x5FB7]
  /\ tree 12 (words_all ChineseTraditional) = chars_of [0x4E00; 0x4E09; 0x4E4B; 0x4E8C; 0x53D6; 0x5B58; 0x5B98; 0x5FB7; 0x63A8; 0x6790; 0x6A21; 0x719F; 0x7802; 0x798D; 0x8247; 0x97CB]
  /\ tree_new 11 (words_all ChineseTraditional) = chars_of [0x4E00; 0x4E09; 0x4E4B; 0x4E8C; 0x5B98; 0x5FB7].
Proof. split; [|split; [|split]]; vm_compute; reflexivity. Qed.
Lemma old_searches l : searches binary_search (words_all l) (tree 12 (words_all l)).
Proof. pose proof (words_all_length l) as HL. apply tree_searches; rewrite HL; [apply Nat.ltb_lt|apply Nat.leb_le]; reflexivity. Qed.
Lemma new_searches l : searches binary_search_new (words_all l) (tree_new 11 (words_all l)).
Proof. pose proof (words_all_length l) as HL. apply tree_new_searches; rewrite HL; [reflexivity|apply Nat.leb_le; reflexivity]. Qed.
(** In the Chinese lists every word is one character.  The search is right exactly for what is no word of the
    list and for these words. *)
Lemma c140_chinese : forall (l : language_all) (search : list str -> str -> R (N + N)) (found : list N),
  In (l, search, found)
    [(Compiled ChineseSimplified, binary_search,
      [0x4E00; 0x4E09; 0x4E4B; 0x4E8C; 0x53D6; 0x54CD; 0x56E2; 0x5B58; 0x5B98; 0x5FB7; 0x63A8; 0x6790; 0x6A21; 0x719F; 0x7802; 0x7978; 0x8247; 0x97E6]);
     (Compiled ChineseSimplified, binary_search_new, [0x4E00; 0x4E09; 0x4E4B; 0x4E8C; 0x56E2; 0x5B98; 0x5FB7]);
     (ChineseTraditional, binary_search,
      [0x4E00; 0x4E09; 0x4E4B; 0x4E8C; 0x53D6; 0x5B58; 0x5B98; 0x5FB7; 0x63A8; 0x6790; 0x6A21; 0x719F; 0x7802; 0x798D; 0x8247; 0x97CB]);
     (ChineseTraditional, binary_search_new, [0x4E00; 0x4E09; 0x4E4B; 0x4E8C; 0x5B98; 0x5FB7])] ->
  forall p : str, answered search l p <-> ~ In p (published l) \/ exists c, In c found /\ p = [c].
Proof.
  intros l search found H p. destruct chinese_one_char as [O1 O2]. destruct chinese_trees as (T1 & T2 & T3 & T4).
  assert (X : forall T, (forall q, answered search l q <-> ~ In q (published l) \/ In q T) -> T = chars_of found ->
    (answered search l p <-> ~ In p (published l) \/ exists c, In c found /\ p = [c])).
  { intros T HA ->. rewrite (HA p). unfold chars_of. rewrite in_map_iff. clear. split; (intros [H|(c & A & B)]; [left; exact H|right; exists c; auto]). }
  assert (NE : forall l', words_all l' <> []). { intros l' E. pose proof (words_all_length l') as L. rewrite E in L. discriminate L. }
  cbn [In] in H. destruct H as [H|[H|[H|[H|[]]]]]; apply pair_equal_spec in H; destruct H as [H Ef]; apply pair_equal_spec in H; destruct H as [<- <-]; rewrite <- Ef; rewrite <- Ef in X.
  - apply (X _ (answered_of _ _ _ O1 (old_searches _) (proj2 (tree_sub 12 _ (words_all_nodup _))) (proj1 (searches_empty _ O1 (NE _)))) T1).
  - apply (X _ (answered_of _ _ _ O1 (new_searches _) (proj2 (tree_new_sub 11 _ (words_all_nodup _))) (proj2 (searches_empty _ O1 (NE _)))) T2).
  - apply (X _ (answered_of _ _ _ O2 (old_searches _) (proj2 (tree_sub 12 _ (words_all_nodup _))) (proj1 (searches_empty _ O2 (NE _)))) T3).
  - apply (X _ (answered_of _ _ _ O2 (new_searches _) (proj2 (tree_new_sub 11 _ (words_all_nodup _))) (proj2 (searches_empty _ O2 (NE _)))) T4).
Qed.
(** The first word of the simplified Chinese list is not found by typing it; [0x4E00] is. *)
Example c140_example :
  get_words_by_prefix_with binary_search_new (wordlist_all (Compiled ChineseSimplified)) [0x7684] = Ok []
  /\ get_words_by_prefix_with binary_search (wordlist_all (Compiled ChineseSimplified)) [0x7684] = Ok []
  /\ nth_error (published (Compiled ChineseSimplified)) 0 = Some [0x7684]
  /\ get_words_by_prefix_with binary_search (wordlist_all (Compiled ChineseSimplified)) [0x4E00] = Ok [[0x4E00]].
Proof. rewrite (wordlist_all_words (Compiled ChineseSimplified)). split; [|split; [|split]]; vm_compute; reflexivity. Qed.
