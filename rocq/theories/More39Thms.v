(** Proofs of the further BIP39 properties (restated in PropMore39.v). *)
From Coq Require Import String Permutation Sorted FMapPositive ZifyBool ZifyNat ZifyN.
From Verif Require Import Outcome Bytes Str Hash Nfkd NfkdData Gb18030Data ModelBip39 SpecBip39 WordData NfkdLemmas
  StrLemmas BitLemmas HashLemmas WordLemmas Bip39Proofs Bip39Thms ModelBuffers SpecMore MoreData PathThms.
Open Scope N_scope.

(** ** Size hints *)
Lemma bi_fill_read source : forall read buffer it, read <= 18 ->
  bi_fill source read buffer = Ok (Some it) -> bi_read it <= 18.
Proof.
  induction source as [|x l IH]; intros read buffer it Hr H; cbn [bi_fill] in H;
  destruct (N.ltb_spec read 11) as [Hl|Hl]; try discriminate H.
  - injection H as <-. exact Hr.
  - apply bind_ok in H. destruct H as (r & Hr' & H). apply bind_ok in H. destruct H as (k & _ & H).
    apply bind_ok in H. destruct H as (y & _ & H). unfold add_chk in Hr'.
    destruct (_ <? _) in Hr'; [|discriminate Hr']. injection Hr' as <-. eapply IH; [|exact H]. lia.
  - injection H as <-. exact Hr.
Qed.
Lemma bi_next_read it x it' : bi_read it <= 18 -> bi_next it = Ok (Some (x, it')) -> bi_read it' <= 7.
Proof.
  intros Hr H. unfold bi_next in H. apply bind_ok in H. destruct H as (o & Hf & H).
  destruct o as [i|]; [|discriminate H]. apply bi_fill_read in Hf; [|exact Hr].
  apply bind_ok in H. destruct H as (a & _ & H). apply bind_ok in H. destruct H as (b & _ & H).
  apply bind_ok in H. destruct H as (c & _ & H). apply bind_ok in H. destruct H as (d & Hd & H).
  injection H as _ <-. cbn [bi_read]. unfold sub_chk in Hd. destruct (_ <=? _) in Hd; [|discriminate Hd].
  injection Hd as <-. lia.
Qed.
Lemma reached_holds l it : bytes_ok l -> reached l it ->
  bi_read it <= 7 /\ len (bi_source it) <= len l /\ exists b, bi_holds it b.
Proof.
  intros Hl H. induction H as [|it x it' H IH Hn].
  - cbn. split; [lia|]. split; [lia|]. exists (bits_of_bytes l). apply bi_holds_new, Hl.
  - destruct IH as (Hr & Hs & b & Hb).
    split; [apply (bi_next_read it x); [lia|exact Hn]|].
    destruct (bi_next_holds it b Hb) as [(_ & E)|(g & b' & i & -> & Hg & E & Hh)]; rewrite E in Hn; [discriminate Hn|].
    injection Hn as _ <-. split; [|eauto].
    destruct Hb as (r & Er & _ & Hr1 & _). destruct Hh as (r' & Er' & _ & Hr2 & _).
    assert (H8 : bi_read i <= 7).
    { eapply bi_next_read; [|exact E]. lia. }
    apply (f_equal (@length bool)) in Er. rewrite !app_length, Er', app_length, !bits_of_bytes_length in Er.
    unfold len in *. lia.
Qed.
Lemma yields_holds b : forall it n, bi_holds it b -> (yields it n <-> n = (length b / 11)%nat).
Proof.
  assert (Hex : forall m b it, (length b < m)%nat -> bi_holds it b -> yields it (length b / 11)%nat).
  { induction m as [|m IH]; intros b0 it Hm Hh; [lia|].
    destruct (bi_next_holds it b0 Hh) as [(Hl & E)|(g & b' & it' & -> & Hg & E & Hh')].
    - rewrite Nat.div_small by (unfold len in Hl; lia). apply yields_end, E.
    - rewrite app_length, Hg in *. replace ((11 + length b') / 11)%nat with (S (length b' / 11)).
      + eapply yields_item; [exact E|]. apply IH; [lia|exact Hh'].
      + rewrite <- (Nat.mul_1_l 11) at 2. rewrite Nat.div_add_l by discriminate. reflexivity. }
  assert (Hun : forall it n, yields it n -> forall n', yields it n' -> n = n').
  { intros it n H. induction H as [it E|it x it' n E _ IH]; intros n' H'; inversion H'; subst; try congruence.
    rewrite E in H. injection H as <- <-. f_equal. apply IH. assumption. }
  intros it n Hh. split.
  - intros Hy. eapply Hun; [exact Hy|]. eapply Hex; [|exact Hh]. apply Nat.lt_succ_diag_r.
  - intros ->. eapply Hex; [|exact Hh]. apply Nat.lt_succ_diag_r.
Qed.

(** C69 *)
Lemma c69_upper_hint_refuted : exists (l : bytes) (it : bit_iter) (lower upper : N) (n : nat),
  bytes_ok l /\ reached l it /\ yields it n /\ bi_size_hint it = Ok (lower, Some upper) /\ upper < N.of_nat n.
Proof.
  set (l := repeat 255 17).
  assert (Hl : bytes_ok l) by (repeat constructor).
  destruct (bi_next (bi_new l)) as [[[x it]|]| |] eqn:E; try (vm_compute in E; discriminate E).
  assert (Hr : reached l it) by (eapply reached_next; [apply reached_new|exact E]).
  destruct (reached_holds l it Hl Hr) as (_ & _ & b & Hb).
  exists l, it, 10, 10, (length b / 11)%nat. split; [exact Hl|]. split; [exact Hr|].
  split; [apply (yields_holds b it); [exact Hb|reflexivity]|].
  destruct (bi_next_holds _ _ (bi_holds_new l Hl)) as [(_ & E')|(g & b' & i & Eb & Hg & E' & Hh)];
    rewrite E' in E; [discriminate E|]. injection E as Ex Ei. subst i.
  assert (Hlb : length b = length b').
  { destruct Hb as (r & -> & _ & Hr1 & _). destruct Hh as (r' & -> & _ & Hr2 & _).
    rewrite !app_length. unfold len in *. lia. }
  apply (f_equal (@length bool)) in Eb. rewrite bits_of_bytes_length, app_length in Eb.
  change (length l) with 17%nat in Eb. assert (E125 : length b = 125%nat) by lia. rewrite E125. split.
  - clear -E'. vm_compute in E'. injection E' as _ <-. vm_compute. reflexivity.
  - vm_compute. reflexivity.
Qed.
(** The lower hint is right, the upper one is short by at most one item, and both are exact before the first
    item.  Missing: the upper bound of the contract of [Iterator::size_hint]. *)
Lemma c69_size_hint_partial : forall (l : bytes) (it : bit_iter) (n : nat),
  bytes_ok l -> len l < 2 ^ 61 -> reached l it -> yields it n ->
  exists k, bi_size_hint it = Ok (k, Some k) /\ k <= N.of_nat n <= k + 1 /\ (it = bi_new l -> k = N.of_nat n).
Proof.
  intros l it n Hl Hlt Hr Hy. destruct (reached_holds l it Hl Hr) as (Hread & Hs & b & Hb).
  apply (yields_holds b it n Hb) in Hy. subst n.
  exists (len (bi_source it) * 8 / 11). split.
  - unfold bi_size_hint, mul_chk.
    assert (E : (len (bi_source it) * 8 <? 2 ^ 64) = true).
    { apply N.ltb_lt. change (2 ^ 64) with (2 ^ 61 * 8). apply N.mul_lt_mono_pos_r; [reflexivity|lia]. }
    rewrite E. reflexivity.
  - pose proof Hb as (r & Eb & _ & Hr1 & _).
    assert (Hlen : N.of_nat (length b) = bi_read it + len (bi_source it) * 8).
    { rewrite Eb, app_length, bits_of_bytes_length. unfold len in *. lia. }
    assert (Hd : N.of_nat (length b / 11) = N.of_nat (length b) / 11) by (apply (Nat2N.inj_div _ 11)).
    rewrite Hd, Hlen. generalize (len (bi_source it) * 8) as m. intros m. split.
    + split; [apply N.div_le_mono; lia|].
      rewrite <- (N.div_add m 1 11) by discriminate. apply N.div_le_mono; lia.
    + intros ->. reflexivity.
Qed.
Example c69_example : exists it, reached (repeat 255 17) it /\ bi_source it <> repeat 255 17.
Proof.
  destruct (bi_next (bi_new (repeat 255 17))) as [[[x it]|]| |] eqn:E; try (vm_compute in E; discriminate E).
  exists it. split; [eapply reached_next; [apply reached_new|exact E]|]. vm_compute in E. injection E as _ <-. discriminate.
Qed.

(** ** Buffers *)
Lemma utf8_char_len c : 1 <= len (utf8_char c) <= 4.
Proof. unfold utf8_char, len. repeat destruct (_ <? _); cbn; lia. Qed.
Lemma utf8_cons c s : utf8 (c :: s) = utf8_char c ++ utf8 s.
Proof. reflexivity. Qed.
Lemma utf8_len_bounds s : len s <= len (utf8 s) <= 4 * len s.
Proof.
  induction s as [|c s IH]; [cbn; lia|]. rewrite utf8_cons, len_app.
  pose proof (utf8_char_len c). change (c :: s) with ([c] ++ s). rewrite len_app. change (len [c]) with 1. lia.
Qed.
Lemma words_bytes l w : In w (words l) -> 1 <= len w <= 8 /\ len (utf8 w) <= 8.
Proof.
  intros H. destruct l.
  - pose proof words_en_lengths as Hl. rewrite forallb_forall in Hl. specialize (Hl w H).
    assert (E : len (utf8 w) = len w); [|lia].
    assert (Ha : forall c, In c w -> c < 128).
    { intros c Hc. pose proof words_en_letters as Hc'. rewrite forallb_forall in Hc'. specialize (Hc' w H).
      rewrite forallb_forall in Hc'. specialize (Hc' c Hc). lia. }
    clear -Ha. induction w as [|c w IH]; [reflexivity|]. rewrite utf8_cons, len_app.
    change (c :: w) with ([c] ++ w). rewrite len_app, IH by (intros d Hd; apply Ha; right; exact Hd).
    f_equal. unfold utf8_char. specialize (Ha c (or_introl eq_refl)). replace (c <? 128) with true by lia. reflexivity.
  - pose proof words_zh_single as Hs. rewrite forallb_forall in Hs. specialize (Hs w H).
    destruct w as [|c [|]]; try discriminate Hs. cbn [utf8 flat_map]. rewrite app_nil_r.
    pose proof (utf8_char_len c). change (len [c]) with 1. lia.
Qed.

Definition join_bytes (ws : list str) : N := fold_right (fun w n => 1 + len (utf8 w) + n) 0 ws.
Lemma utf8_spaced w ws : len (utf8 (spaced (w :: ws))) = len (utf8 w) + join_bytes ws.
Proof.
  revert w. induction ws as [|v ws IH]; intros w; [cbn [spaced join_bytes fold_right]; lia|].
  rewrite spaced_cons by discriminate. change (w ++ 32 :: spaced (v :: ws)) with (w ++ [32] ++ spaced (v :: ws)).
  rewrite !utf8_app, !len_app, IH. cbn [join_bytes fold_right]. fold (join_bytes ws).
  change (len (utf8 [32])) with 1. lia.
Qed.
Lemma join_bytes_bound l ws : (forall w, In w ws -> In w (words l)) -> join_bytes ws <= 9 * len ws.
Proof.
  induction ws as [|w ws IH]; intros H; [cbn; lia|]. cbn [join_bytes fold_right]. fold (join_bytes ws).
  specialize (IH (fun v Hv => H v (or_intror Hv))). destruct (words_bytes l w (H w (or_introl eq_refl))) as [_ Hb].
  change (w :: ws) with ([w] ++ ws). rewrite len_app. change (len [w]) with 1. lia.
Qed.

Lemma buf_push_fits c n k : n + k <= c -> buf_push (Buffer c n 0) k = Buffer c (n + k) 0.
Proof.
  intros H. unfold buf_push, buf_reserve. cbn [buf_cap buf_len buf_moves].
  replace (c - n <? k) with false by lia. reflexivity.
Qed.
Lemma join_fold_fits ws : forall c n, n + join_bytes ws <= c ->
  fold_left (fun b w => buf_push (buf_push b 1) (len (utf8 w))) ws (Buffer c n 0)
  = Buffer c (n + join_bytes ws) 0.
Proof.
  induction ws as [|w ws IH]; intros c n H; cbn [fold_left join_bytes fold_right] in *.
  - f_equal. lia.
  - fold (join_bytes ws) in *.
    rewrite !buf_push_fits by lia. rewrite IH by lia. f_equal. lia.
Qed.

(** C70 *)
Lemma c70_phrase_buffer : forall (lang : language) (ent : bytes), bytes_ok ent -> legal_entropy ent ->
  exists m b, from_entropy ent lang = Ok m /\ from_entropy_buffer ent lang = Ok b
    /\ buf_len b = len (utf8 (m_phrase m)) /\ buf_moves b = 0.
Proof.
  intros lang ent Hok HL. destruct (from_entropy_unchecked_spec ent lang Hok HL) as (ws & E & Hs).
  exists (Mnemonic (spaced ws) lang ent).
  assert (Efe : from_entropy ent lang = Ok (Mnemonic (spaced ws) lang ent)).
  { apply from_entropy_ok; [exact Hok|]. cbn. eauto. }
  unfold from_entropy_unchecked in E. apply bind_ok in E. destruct E as (h & Eh & E). cbv zeta in E.
  unfold from_entropy_buffer. rewrite Eh. cbn [bind]. set (src := ent ++ [h]) in *.
  assert (Hh : h < 256).
  { destruct (sha256_cons ent) as (h' & tl & Hsha & Hh'). unfold sha256_first_byte in Eh. rewrite Hsha in Eh.
    injection Eh as <-. exact Hh'. }
  assert (Hsrc : bytes_ok src).
  { apply bytes_ok_app. split; [exact Hok|]. constructor; [exact Hh|constructor]. }
  apply legal_entropy_c in HL. destruct HL as (c & Hc & Hl).
  assert (Hls : length src = (4 * c + 1)%nat) by (unfold src; rewrite app_length; cbn; lia).
  rewrite bi_collect_spec in E by exact Hsrc. cbn [bind] in E.
  destruct (bi_next_holds _ _ (bi_holds_new src Hsrc)) as [(Hx & _)|(g & b' & it & Eb & Hg & En & Hit)].
  { exfalso. unfold len in Hx. rewrite bits_of_bytes_length in Hx. lia. }
  rewrite En. cbn [bind]. rewrite Eb, groups_cons in E by exact Hg. cbn [map] in E.
  assert (Hlb : length b' = (32 * c - 3)%nat).
  { apply (f_equal (@length bool)) in Eb. rewrite bits_of_bytes_length, app_length in Eb. lia. }
  assert (Hread : bi_read it <= 7) by (eapply bi_next_read; [|exact En]; cbn; lia).
  assert (Hsrc' : len (bi_source it) = N.of_nat (4 * c - 1)).
  { destruct Hit as (r & Er & _ & Hr & _). apply (f_equal (@length bool)) in Er.
    rewrite app_length, bits_of_bytes_length in Er. unfold len in *. lia. }
  unfold bi_size_hint. rewrite Hsrc'. unfold mul_chk at 1.
  assert (E64 : (N.of_nat (4 * c - 1) * 8 <? 2 ^ 64) = true).
  { apply N.ltb_lt. apply (N.lt_trans _ 256); [lia|reflexivity]. }
  rewrite E64. cbn [bind fst].
  rewrite (bi_collect_holds _ it b' Hit) by lia. cbn [bind].
  destruct (traverse (get_word (wordlist lang)) (val_of_bits g :: map val_of_bits (groups b'))) as [vs|e|] eqn:Et;
    try discriminate E.
  cbn [bind] in *. injection E as E. rewrite iter_join_spaced in E.
  apply traverse_ok_iff in Et.
  assert (Hvl : length vs = (3 * c)%nat).
  { apply Forall2_length in Et. rewrite <- Et. cbn [length]. rewrite map_length.
    unfold groups. rewrite map_length, seq_length, Hlb.
    assert (D : ((32 * c - 3) / 11 = 3 * c - 1)%nat); [|lia].
    symmetry. apply Nat.div_unique with (8 - c)%nat; lia. }
  assert (Hvin : forall v, In v vs -> In v (words lang)).
  { clear -Et. induction Et as [|i w is ws Hw _ IH]; intros v Hv; [destruct Hv|].
    destruct Hv as [<-|Hv]; [|apply IH, Hv]. apply get_word_ok in Hw. eapply is_word_in, Hw. }
  destruct vs as [|v vs]; [cbn in Hvl; lia|]. cbn [join_words_buffer].
  unfold join_capacity, mul_chk. change (10 + len (utf8 (lit " "))) with 11. change (len (utf8 (lit " "))) with 1.
  set (k := N.of_nat (4 * c - 1) * 8 / 11).
  assert (Hk : 27 * N.of_nat c - 1 <= k * 11 /\ k < 64).
  { unfold k. assert (E5 : c = 4%nat \/ c = 5%nat \/ c = 6%nat \/ c = 7%nat \/ c = 8%nat) by lia.
    destruct E5 as [->|[->|[->|[->| ->]]]]; vm_compute; split; reflexivity || discriminate. }
  assert (E11 : (k * 11 <? 2 ^ 64) = true).
  { apply N.ltb_lt. apply (N.lt_trans _ 1024); [lia|reflexivity]. }
  rewrite E11. cbn [bind]. unfold buf_with_capacity.
  pose proof (join_bytes_bound lang vs (fun v Hv => Hvin v (or_intror Hv))) as Hjb.
  destruct (words_bytes lang v (Hvin v (or_introl eq_refl))) as [_ Hvb].
  cbn [length] in Hvl. unfold len in Hjb.
  rewrite buf_push_fits by lia. rewrite join_fold_fits by lia.
  eexists. split; [exact Efe|]. split; [reflexivity|]. cbn [buf_len buf_moves m_phrase]. split; [|reflexivity].
  rewrite <- E, utf8_spaced. lia.
Qed.
Lemma push_words_in l ws : forall b w w', bw_holds w b -> push_words (wordmap_of l) ws w = Ok w' ->
  forall v, In v ws -> In v (words l).
Proof.
  intros b w w' Hb H v Hv. destruct (in_words_dec l v) as [Hin|Hn]; [exact Hin|].
  rewrite (push_words_err l ws v b w Hv Hn Hb) in H. discriminate H.
Qed.
(** Reading a phrase: the byte vector of the bit writer fits its initial capacity for up to 24 words. *)
Lemma c70_bit_writer_capacity : forall (lang : language) (ws : list str) (w : bit_writer) (bs : bytes),
  push_words (wordmap_of lang) ws bw_new = Ok w -> bw_into_bytes w = Ok bs ->
  (len bs <= bw_capacity 264 <-> (length ws <= 24)%nat).
Proof.
  intros lang ws w bs Hp Hb.
  destruct (all_words_indices lang ws) as (idx & F).
  { eapply push_words_in; [apply bw_holds_new|exact Hp]. }
  destruct (push_words_ok lang idx ws [] bw_new F bw_holds_new) as (w' & E & Hw'). rewrite E in Hp. injection Hp as ->.
  destruct (bw_into_bytes_holds _ _ Hw') as (lb & pad & E' & _ & Hbits & Hpad). rewrite E' in Hb. injection Hb as ->.
  apply (f_equal (@length bool)) in Hbits. cbn [app] in Hbits.
  rewrite app_length, flat_map_bits_length, bits_of_bytes_length, (Forall2_length _ _ _ F) in Hbits.
  change (bw_capacity 264) with 33. unfold len. lia.
Qed.
(** What the bit writer reserves for a number of bits is the least number of bytes that can hold them. *)
Lemma c70_least_capacity : forall bits bytes : N, bw_capacity bits <= bytes <-> bits <= 8 * bytes.
Proof.
  intros bits bytes. unfold bw_capacity. pose proof (N.div_mod bits 8 ltac:(discriminate)) as E.
  pose proof (N.mod_lt bits 8 ltac:(discriminate)) as L. destruct (N.eqb_spec (bits mod 8) 0) as [Z|Z]; lia.
Qed.
Example c70_example : from_entropy_buffer ex_entropy English = Ok (Buffer 110 72 0) /\ legal_entropy ex_entropy.
Proof.
  split; [vm_compute; reflexivity|left; reflexivity].
Qed.

(** A buffer that started empty and has not been moved is at most 8 bytes long. *)
Definition small_or_moved (b : buffer) : Prop :=
  (buf_cap b = 8 /\ buf_len b <= 8 /\ buf_moves b = 0) \/ 0 < buf_moves b.
Lemma buf_reserve_len b k : buf_len (buf_reserve b k) = buf_len b.
Proof. unfold buf_reserve. destruct (_ <? _); reflexivity. Qed.
Lemma buf_push_len b k : buf_len (buf_push b k) = buf_len b + k.
Proof. unfold buf_push. cbn [buf_len]. rewrite buf_reserve_len. reflexivity. Qed.
Lemma small_reserve b k : small_or_moved b -> k <= 8 \/ buf_len b <> 0 -> small_or_moved (buf_reserve b k).
Proof.
  unfold small_or_moved, buf_reserve. intros H Hk.
  destruct (N.ltb_spec (buf_cap b - buf_len b) k) as [Hl|Hl]; [|exact H].
  cbn [buf_cap buf_len buf_moves]. right. destruct (N.eqb_spec (buf_len b) 0); lia.
Qed.
Lemma small_push b k : small_or_moved b -> k <= 8 -> small_or_moved (buf_push b k).
Proof.
  intros H Hk. pose proof (small_reserve b k H (or_introl Hk)) as Hr.
  unfold buf_push, small_or_moved in *. cbn [buf_cap buf_len buf_moves].
  destruct Hr as [(Hc & Hn & Hm)|Hm]; [|right; exact Hm]. rewrite buf_reserve_len.
  left. split; [exact Hc|]. split; [|exact Hm].
  unfold buf_reserve in Hm, Hc. destruct (N.ltb_spec (buf_cap b - buf_len b) k) as [Hl|Hl].
  - cbn [buf_moves buf_cap] in *. destruct (N.eqb_spec (buf_len b) 0) as [E|E]; lia.
  - destruct H as [(H1 & H2 & H3)|H1]; lia.
Qed.
Lemma small_chars s : forall b, small_or_moved b ->
  small_or_moved (fold_left (fun b c => buf_push b (len (utf8_char c))) s b)
  /\ buf_len (fold_left (fun b c => buf_push b (len (utf8_char c))) s b) = buf_len b + len (utf8 s).
Proof.
  induction s as [|c s IH]; intros b Hb; cbn [fold_left]; [split; [exact Hb|cbn; lia]|].
  pose proof (utf8_char_len c). destruct (IH (buf_push b (len (utf8_char c)))) as [H1 H2].
  { apply small_push; [exact Hb|lia]. }
  split; [exact H1|]. rewrite H2, buf_push_len, utf8_cons, len_app. lia.
Qed.
Lemma small_extend b w : small_or_moved b -> buf_len b <> 0 ->
  small_or_moved (extend_nfkd b w) /\ buf_len (extend_nfkd b w) = buf_len b + len (utf8 (nfkd w)).
Proof.
  intros Hb Hn. unfold extend_nfkd.
  destruct (small_chars (nfkd w) (buf_reserve b ((len (utf8 w) + 3) / 4))) as [H1 H2].
  { apply small_reserve; [exact Hb|right; exact Hn]. }
  split; [exact H1|]. rewrite H2, buf_reserve_len. reflexivity.
Qed.
Lemma small_join ws : forall b, small_or_moved b ->
  let r := fold_left (fun b w => extend_nfkd (buf_push b 1) w) ws b in
  small_or_moved r /\ buf_len r = buf_len b + join_bytes (map nfkd ws).
Proof.
  induction ws as [|w ws IH]; intros b Hb; cbn [fold_left map join_bytes fold_right]; [split; [exact Hb|lia]|].
  fold (join_bytes (map nfkd ws)).
  destruct (small_extend (buf_push b 1) w) as [H1 H2].
  { apply small_push; [exact Hb|lia]. }
  { rewrite buf_push_len. lia. }
  destruct (IH _ H1) as [H3 H4]. split; [exact H3|]. rewrite H4, H2, buf_push_len. lia.
Qed.
Lemma nfkd_length s : len s <= len (nfkd s).
Proof.
  unfold len. rewrite (Permutation_length (nfkd_perm s)).
  assert (H : (length s <= length (flat_map decompose_char s))%nat); [|lia].
  induction s as [|c s IH]; [cbn; lia|]. cbn [flat_map]. rewrite app_length. cbn [length].
  pose proof (decompose_nonempty c). destruct (decompose_char c); [congruence|]. cbn [length]. lia.
Qed.

(** C71 *)
(** Every phrase that is accepted has been moved at least once while it was put together. *)
Lemma c71_accepted_phrase_moved : forall (s : str) (lang : language) (m : mnemonic),
  from_phrase s lang = Ok m ->
  exists b, from_phrase_buffer s = Ok b /\ buf_len b = len (utf8 (m_phrase m)) /\ 0 < buf_moves b.
Proof.
  intros s lang m H. apply from_phrase_ok in H. destruct H as (Hs & -> & _).
  pose proof (fun w => sentence_words _ _ _ w Hs) as Hin.
  assert (Hn : (12 <= length (norm_words s))%nat).
  { apply sentence_parts in Hs. destruct Hs as (_ & HL & HC & HE).
    destruct (encodes_legal_count _ _ _ _ HL HC HE) as [_ Hc]. unfold legal_count in Hc. cbn in Hc. lia. }
  unfold from_phrase_buffer, norm_words in *. destruct (split_whitespace s) as [|w ws]; [cbn in Hn; lia|].
  cbn [join_capacity]. unfold join_capacity, mul_chk. change (len (utf8 (lit " "))) with 1. cbn [N.mul].
  change (0 <? 2 ^ 64) with true. cbn [bind].
  cbn [map] in *.
  assert (Hw : small_or_moved (extend_nfkd (buf_with_capacity 0) w)
    /\ buf_len (extend_nfkd (buf_with_capacity 0) w) = len (utf8 (nfkd w))).
  { destruct (words_bytes lang (nfkd w) (Hin _ (or_introl eq_refl))) as [Hlw _].
    assert (Hw0 : 1 <= len w).
    { destruct w; [exfalso; cbn in Hlw; lia|]. unfold len. cbn [length]. lia. }
    pose proof (nfkd_length w) as Hlen. pose proof (utf8_len_bounds w) as Hub.
    unfold extend_nfkd, buf_reserve at 1 2. cbn [buf_cap buf_len buf_moves buf_with_capacity].
    assert (Hk1 : 1 <= (len (utf8 w) + 3) / 4).
    { apply N.div_le_lower_bound; lia. }
    assert (Hk8 : (len (utf8 w) + 3) / 4 < 9).
    { apply N.div_lt_upper_bound; lia. }
    replace (0 - 0 <? (len (utf8 w) + 3) / 4) with true by lia. cbn [N.mul N.eqb].
    rewrite (N.max_l 8) by lia. rewrite N.add_0_l.
    destruct (small_chars (nfkd w) (Buffer 8 0 0)) as [H1 H2].
    { left. cbn. lia. }
    split; [exact H1|exact H2]. }
  destruct Hw as [Hw1 Hw2]. destruct (small_join ws _ Hw1) as [Hj1 Hj2].
  eexists. split; [reflexivity|]. rewrite utf8_spaced, Hj2, Hw2. split; [reflexivity|].
  destruct Hj1 as [(_ & Hle & _)|Hm]; [|exact Hm]. exfalso. rewrite Hj2 in Hle.
  assert (Hge : forall vs, N.of_nat (length vs) <= join_bytes vs).
  { induction vs as [|v vs IH]; [cbn; lia|]. cbn [join_bytes fold_right length]. fold (join_bytes vs). lia. }
  specialize (Hge (map nfkd ws)). rewrite map_length in Hge. cbn [length] in Hn. rewrite map_length in Hn. lia.
Qed.
Lemma c71_phrase_not_moved_refuted : exists (s : str) (lang : language) (m : mnemonic) (b : buffer),
  from_phrase s lang = Ok m /\ from_phrase_buffer s = Ok b /\ buf_moves b <> 0.
Proof.
  destruct (c71_accepted_phrase_moved ex_phrase English ex_mnemonic ex_from_phrase) as (b & Hb & _ & Hm).
  exists ex_phrase, English, ex_mnemonic, b. split; [exact ex_from_phrase|]. split; [exact Hb|lia].
Qed.
Example c71_example : from_phrase_buffer ex_phrase = Ok (Buffer 128 72 4).
Proof.
  vm_compute. reflexivity.
Qed.

(** ** Last words *)
Lemma app_inj_len {A} (a1 b1 a2 b2 : list A) : length a1 = length a2 -> a1 ++ b1 = a2 ++ b2 -> a1 = a2 /\ b1 = b2.
Proof.
  revert a2. induction a1 as [|x a1 IH]; intros [|y a2] Hl H; try discriminate Hl; [auto|].
  cbn in H. injection H as -> H. injection Hl as Hl. destruct (IH a2 Hl H) as [-> ->]. auto.
Qed.
(** The bytes of a bit string. *)
Definition bytes_of_bits (b : list bool) : bytes := be_bytes (length b / 8) (val_of_bits b).
Lemma bytes_of_bits_ok b n : length b = (8 * n)%nat ->
  bytes_ok (bytes_of_bits b) /\ length (bytes_of_bits b) = n /\ bits_of_bytes (bytes_of_bits b) = b.
Proof.
  intros H. unfold bytes_of_bits. rewrite H, (Nat.mul_comm 8), Nat.div_mul by discriminate.
  split; [apply be_bytes_ok|]. split; [apply be_bytes_length|].
  apply val_of_bits_inj.
  - rewrite bits_of_bytes_length, be_bytes_length. lia.
  - rewrite val_of_bits_of_bytes by apply be_bytes_ok. rewrite be_val_be_bytes. apply N.mod_small.
    pose proof (val_of_bits_lt b) as Hv. unfold len in Hv. rewrite H in Hv.
    change 256 with (2 ^ 8). rewrite <- N.pow_mul_r. replace (8 * N.of_nat n) with (N.of_nat (8 * n)) by lia. exact Hv.
Qed.
Definition fillings (k : nat) : list (list bool) := map (fun i => bits_of k (N.of_nat i)) (seq 0 (2 ^ k)).
Lemma pow2_of_nat k : N.of_nat (2 ^ k) = 2 ^ N.of_nat k.
Proof. rewrite Nat2N.inj_pow. reflexivity. Qed.
Lemma fillings_in k f : In f (fillings k) <-> length f = k.
Proof.
  unfold fillings. rewrite in_map_iff. split.
  - intros (i & <- & _). apply bits_of_length.
  - intros H. exists (N.to_nat (val_of_bits f)). rewrite N2Nat.id. subst k. split; [apply bits_of_val_of_bits|].
    apply in_seq. split; [lia|]. pose proof (val_of_bits_lt f) as Hv. unfold len in Hv.
    rewrite Nat.add_0_l, <- (pow2_of_nat (length f)) in *. lia.
Qed.
Lemma fillings_nodup k : NoDup (fillings k).
Proof.
  unfold fillings.
  assert (H : forall l, NoDup l -> (forall i, In i l -> (i < 2 ^ k)%nat) -> NoDup (map (fun i => bits_of k (N.of_nat i)) l)).
  { induction l as [|i l IH]; intros Hn Hb; [constructor|]. cbn. inversion Hn as [|? ? Hi Hn']; subst. constructor.
    - rewrite in_map_iff. intros (j & E & Hj). apply Hi.
      apply (f_equal val_of_bits) in E. rewrite !val_of_bits_bits_of in E.
      assert (P : forall j, (j < 2 ^ k)%nat -> N.of_nat j < 2 ^ N.of_nat k).
      { intros x Hx. rewrite <- pow2_of_nat. lia. }
      rewrite !N.mod_small in E by (apply P, Hb; cbn; auto). assert (i = j) by lia. subst; exact Hj.
    - apply IH; [exact Hn'|]. intros j Hj. apply Hb. right. exact Hj. }
  apply H; [apply seq_NoDup|]. intros i Hi. apply in_seq in Hi. lia.
Qed.
Lemma fillings_length k : length (fillings k) = (2 ^ k)%nat.
Proof. unfold fillings. rewrite map_length, seq_length. reflexivity. Qed.

Lemma encodes_snoc l ws w i b : encodes l ws b -> is_word l i w -> encodes l (ws ++ [w]) (b ++ bits_of 11 i).
Proof.
  intros (idx & F & B & <-) Hi. exists (idx ++ [i]). split; [|split].
  - apply Forall2_app; [exact F|]. constructor; [exact Hi|constructor].
  - apply Forall_app. split; [exact B|]. constructor; [apply (is_word_lt l i w Hi)|constructor].
  - rewrite flat_map_app. cbn [flat_map]. rewrite app_nil_r. reflexivity.
Qed.
Lemma from_phrase_sentence_iff l ws : (forall w, In w ws -> In w (words l)) ->
  (is_ok (from_phrase (spaced ws) l) = true <-> exists ent, bip39_sentence l ws ent).
Proof.
  intros H. split.
  - destruct (from_phrase (spaced ws) l) as [m|e|] eqn:E; try discriminate. intros _.
    apply from_phrase_ok in E. destruct E as (Hs & _ & _). rewrite (norm_words_sentence l ws H) in Hs. eauto.
  - intros (ent & Hs). rewrite (sentence_from_phrase l ws ent Hs). reflexivity.
Qed.

(** C72 *)
Lemma c72_last_words : forall (lang : language) (ws : list str),
  all_in_list lang ws -> legal_count (length ws + 1) ->
  length (filter (fun w => is_ok (from_phrase (spaced (ws ++ [w])) lang)) (bip39_list lang))
  = (2 ^ (11 - (length ws + 1) / 3))%nat.
Proof.
  intros lang ws Hall Hcount. unfold all_in_list in Hall. rewrite bip39_list_words in *.
  apply legal_count_c in Hcount. destruct Hcount as (c & Hc & Hn). rewrite Hn.
  replace (3 * c / 3)%nat with c by (rewrite Nat.mul_comm, Nat.div_mul by discriminate; reflexivity).
  destruct (encodes_dec lang ws Hall) as (b & Hb). pose proof (encodes_length _ _ _ Hb) as Hlb.
  set (entf := fun f => bytes_of_bits (b ++ f)).
  set (g := fun f => nth (N.to_nat (val_of_bits (f ++ checksum_of (entf f)))) (words lang) []).
  assert (Hent : forall f, length f = (11 - c)%nat ->
            bytes_ok (entf f) /\ length (entf f) = (4 * c)%nat /\ bits_of_bytes (entf f) = b ++ f
            /\ legal_entropy (entf f) /\ length (checksum_of (entf f)) = c).
  { intros f Hf. destruct (bytes_of_bits_ok (b ++ f) (4 * c)) as (H1 & H2 & H3).
    { rewrite app_length. lia. }
    assert (HL : legal_entropy (entf f)) by (apply legal_entropy_c; eauto).
    repeat split; auto. rewrite checksum_of_length by exact HL. apply cs_bits_c, H2. }
  assert (Hg : forall f, length f = (11 - c)%nat ->
            is_word lang (val_of_bits (f ++ checksum_of (entf f))) (g f)).
  { intros f Hf. destruct (Hent f Hf) as (_ & _ & _ & _ & Hcs).
    destruct (is_word_ex lang (val_of_bits (f ++ checksum_of (entf f)))) as (w & Hw).
    { pose proof (val_of_bits_lt (f ++ checksum_of (entf f))) as Hv. unfold len in Hv.
      rewrite app_length, Hf, Hcs in Hv. replace (11 - c + c)%nat with 11%nat in Hv by lia. exact Hv. }
    pose proof Hw as Hw'. apply is_word_nth in Hw'. unfold g. rewrite (nth_error_nth _ _ [] Hw'). exact Hw. }
  assert (HF : NoDup (filter (fun w => is_ok (from_phrase (spaced (ws ++ [w])) lang)) (words lang))).
  { apply NoDup_filter, words_nodup. }
  assert (HG : NoDup (map g (fillings (11 - c)))).
  { assert (H : forall l, NoDup l -> (forall f, In f l -> length f = (11 - c)%nat) -> NoDup (map g l)).
    { induction l as [|f l IH]; intros Hnd Hlen; [constructor|]. inversion Hnd as [|? ? Hf Hnd']; subst. cbn. constructor.
      - rewrite in_map_iff. intros (f' & E & Hf'). apply Hf.
        assert (L : length f = (11 - c)%nat) by (apply Hlen; left; reflexivity).
        assert (L' : length f' = (11 - c)%nat) by (apply Hlen; right; exact Hf').
        pose proof (Hg f L) as W. pose proof (Hg f' L') as W'. rewrite E in W'.
        pose proof (is_word_inj _ _ _ _ W W') as EI.
        destruct (Hent f L) as (_ & _ & _ & _ & C). destruct (Hent f' L') as (_ & _ & _ & _ & C').
        apply val_of_bits_inj in EI; [|rewrite !app_length; lia].
        apply app_inj_len in EI; [|lia]. destruct EI as [-> _]. exact Hf'.
      - apply IH; [exact Hnd'|]. intros f' Hf'. apply Hlen. right. exact Hf'. }
    apply H; [apply fillings_nodup|]. intros f. apply fillings_in. }
  rewrite <- fillings_length, <- (map_length g). apply Nat.le_antisymm.
  - apply NoDup_incl_length; [exact HF|]. intros w Hw. apply filter_In in Hw. destruct Hw as [Hw Hok].
    apply from_phrase_sentence_iff in Hok.
    2:{ intros v Hv. apply in_app_iff in Hv. destruct Hv as [Hv|[<-|[]]]; [apply Hall, Hv|exact Hw]. }
    destruct Hok as (ent & Hs). pose proof (sentence_parts _ _ _ Hs) as (HO & HL & HC & HE).
    destruct (in_is_word lang w Hw) as (i & Hi).
    pose proof (encodes_fun _ _ _ _ HE (encodes_snoc _ _ _ _ _ Hb Hi)) as EB.
    destruct (encodes_legal_count _ _ _ _ HL HC HE) as [Hms _].
    apply legal_entropy_c in HL. destruct HL as (c' & Hc' & Hl'). rewrite (ms_words_c ent c' Hl'), app_length in Hms.
    cbn [length] in Hms. assert (c' = c) by lia. subst c'. rewrite (cs_bits_c ent c Hl') in HC.
    set (f := firstn (11 - c) (bits_of 11 i)).
    assert (Lf : length f = (11 - c)%nat) by (unfold f; rewrite firstn_length, bits_of_length; lia).
    assert (EB2 : bits_of_bytes ent ++ checksum_of ent = (b ++ f) ++ skipn (11 - c) (bits_of 11 i)).
    { rewrite EB, <- app_assoc. f_equal. symmetry. apply firstn_skipn. }
    apply app_inj_len in EB2.
    2:{ rewrite bits_of_bytes_length, app_length. lia. }
    destruct EB2 as [E1 E2]. destruct (Hent f Lf) as (HO' & Hlen' & Hbits' & _).
    assert (Eent : entf f = ent) by (apply bits_of_bytes_inj; [assumption|assumption|congruence]).
    apply in_map_iff. exists f. split; [|apply fillings_in, Lf].
    pose proof (Hg f Lf) as W. rewrite Eent, E2 in W. unfold f in W at 1. rewrite firstn_skipn, val_of_bits_bits_of in W.
    rewrite N.mod_small in W by (apply (is_word_lt lang i w Hi)).
    eapply is_word_fun; [exact W|exact Hi].
  - apply NoDup_incl_length; [exact HG|]. intros w Hw. apply in_map_iff in Hw. destruct Hw as (f & <- & Hf).
    apply fillings_in in Hf. pose proof (Hg f Hf) as W. apply filter_In. split; [eapply is_word_in, W|].
    destruct (Hent f Hf) as (HO & Hlen & Hbits & HL & HC).
    apply from_phrase_sentence_iff.
    { intros v Hv. apply in_app_iff in Hv. destruct Hv as [Hv|[<-|[]]]; [apply Hall, Hv|eapply is_word_in, W]. }
    exists (entf f). split; [exact HO|]. split; [exact HL|]. unfold with_checksum. rewrite Hbits.
    rewrite <- app_assoc.
    replace (f ++ checksum_of (entf f)) with (bits_of 11 (val_of_bits (f ++ checksum_of (entf f)))).
    + apply encodes_snoc; assumption.
    + rewrite <- (bits_of_val_of_bits (f ++ checksum_of (entf f))) at 2. f_equal. rewrite app_length. lia.
Qed.
Example c72_example : all_in_list English (firstn 11 (split_char 32 ex_phrase))
  /\ legal_count (length (firstn 11 (split_char 32 ex_phrase)) + 1).
Proof.
  split; [|left; reflexivity]. unfold all_in_list. rewrite bip39_list_words. intros w Hw.
  destruct (proj1 (constructible_sentence ex_mnemonic) (built_phrase _ _ _ ex_from_phrase)) as (ws & Hp & Hs).
  change (ex_phrase = spaced ws) in Hp. rewrite Hp, (sentence_split _ _ _ Hs) in Hw.
  apply (sentence_words _ _ _ _ Hs). rewrite <- (firstn_skipn 11 ws). apply in_app_iff. left. exact Hw.
Qed.

(** ** Password bytes *)
Lemma utf8_ascii s : forallb (fun c => c <? 128) s = true -> utf8 s = s.
Proof.
  induction s as [|c s IH]; [reflexivity|]. cbn [forallb]. intros H. apply andb_true_iff in H. destruct H as [Hc Hs].
  rewrite utf8_cons, (IH Hs). unfold utf8_char. rewrite Hc. reflexivity.
Qed.
Lemma spaced_all (p : N -> bool) ws : p 32 = true -> (forall w, In w ws -> forallb p w = true) -> forallb p (spaced ws) = true.
Proof.
  intros H32. induction ws as [|w ws IH]; intros H; [reflexivity|].
  destruct ws as [|v ws]; [apply H; left; reflexivity|]. rewrite spaced_cons by discriminate.
  rewrite forallb_app. cbn [forallb]. rewrite (H w (or_introl eq_refl)), H32. cbn [andb]. apply IH.
  intros u Hu. apply H. right. exact Hu.
Qed.
Lemma english_ascii w : In w (words English) -> forallb (fun c => c <? 128) w = true.
Proof.
  intros H. pose proof words_en_letters as Hl. rewrite forallb_forall in Hl. specialize (Hl w H).
  rewrite forallb_forall in *. intros c Hc. specialize (Hl c Hc). lia.
Qed.
Lemma gb_char_cases c g : gb18030_char c = Some g ->
  (c < 128 /\ g = [c]) \/ (128 <= c /\ exists a b, g = [a; b] /\ 129 <= a /\ a < 256 /\ b < 256 /\ In (c, (a, b)) gb_table).
Proof.
  unfold gb18030_char. destruct (N.ltb_spec c 128) as [H|H]; intros E.
  - injection E as <-. auto.
  - destruct (assocN c gb_table) as [[a b]|] eqn:Ea; [|discriminate E]. injection E as <-. apply assocN_in in Ea.
    right. split; [exact H|]. exists a, b. pose proof gb_table_bytes as Hb. rewrite forallb_forall in Hb.
    specialize (Hb _ Ea). cbn [fst snd] in Hb. repeat split; try assumption; lia.
Qed.
Lemma nodup_map_inj {A B} (f : A -> B) l x y : NoDup (map f l) -> In x l -> In y l -> f x = f y -> x = y.
Proof.
  induction l as [|z l IH]; intros Hn Hx Hy E; [destruct Hx|]. cbn in Hn. inversion Hn as [|? ? Hz Hn']; subst.
  destruct Hx as [->|Hx], Hy as [->|Hy]; try reflexivity.
  - exfalso. apply Hz. rewrite E. apply in_map, Hy.
  - exfalso. apply Hz. rewrite <- E. apply in_map, Hx.
  - apply IH; assumption.
Qed.
Lemma gb_table_inj c c' a b : In (c, (a, b)) gb_table -> In (c', (a, b)) gb_table -> c = c'.
Proof.
  intros H H'. assert (E : (c, (a, b)) = (c', (a, b))); [|congruence].
  eapply nodup_map_inj; [apply (distinct_nodup _ _ gb_table_distinct)|exact H|exact H'|reflexivity].
Qed.
Lemma gb18030_inj s : forall t g, gb18030 s = Some g -> gb18030 t = Some g -> s = t.
Proof.
  induction s as [|c s IH]; intros t g Hs Ht; cbn [gb18030] in Hs.
  - injection Hs as <-. destruct t as [|d t]; [reflexivity|]. cbn [gb18030] in Ht.
    destruct (gb18030_char d) as [gd|] eqn:Ed; [|discriminate Ht]. destruct (gb18030 t); [|discriminate Ht].
    apply gb_char_cases in Ed. destruct Ed as [(_ & ->)|(_ & a & b & -> & _)]; discriminate Ht.
  - destruct (gb18030_char c) as [gc|] eqn:Ec; [|discriminate Hs]. destruct (gb18030 s) as [gs|] eqn:Es; [|discriminate Hs].
    injection Hs as <-. destruct t as [|d t]; cbn [gb18030] in Ht.
    + injection Ht as Ht. apply gb_char_cases in Ec. destruct Ec as [(_ & ->)|(_ & a & b & -> & _)]; discriminate Ht.
    + destruct (gb18030_char d) as [gd|] eqn:Ed; [|discriminate Ht]. destruct (gb18030 t) as [gt|] eqn:Et; [|discriminate Ht].
      injection Ht as Ht. apply gb_char_cases in Ec. apply gb_char_cases in Ed.
      destruct Ec as [(Hc & ->)|(Hc & a & b & -> & Ha & _ & _ & Hin)];
      destruct Ed as [(Hd & ->)|(Hd & a' & b' & -> & Ha' & _ & _ & Hin')]; cbn [app] in Ht.
      * injection Ht as -> ->. f_equal. eapply IH; [reflexivity|exact Et].
      * injection Ht as -> _. lia.
      * injection Ht as -> _. lia.
      * injection Ht as -> -> ->. rewrite (gb_table_inj _ _ _ _ Hin Hin'). f_equal. eapply IH; [reflexivity|exact Et].
Qed.
Lemma constructible_eq m m' : constructible m -> constructible m' ->
  m_lang m = m_lang m' -> m_phrase m = m_phrase m' -> m = m'.
Proof.
  intros H H' El Ep. apply constructible_sentence in H, H'. destruct H as (ws & Hp & Hs). destruct H' as (ws' & Hp' & Hs').
  assert (E : from_phrase (m_phrase m) (m_lang m) = from_phrase (m_phrase m') (m_lang m')) by congruence.
  rewrite Hp, Hp', (sentence_from_phrase _ _ _ Hs), (sentence_from_phrase _ _ _ Hs') in E. injection E as E1 E2 E3.
  destruct m, m'. cbn in *. congruence.
Qed.
(** The first byte tells the language. *)
Lemma as_bytes_head m b : constructible m -> mnemonic_as_bytes m = Ok b ->
  exists h t, b = h :: t /\ (m_lang m = English <-> h < 128).
Proof.
  intros H Hb. apply constructible_sentence in H. destruct H as (ws & Hp & Hs).
  pose proof (fun w => sentence_words _ _ _ w Hs) as Hin. pose proof (sentence_nonempty _ _ _ Hs) as Hne.
  unfold mnemonic_as_bytes in Hb. rewrite Hp in Hb. destruct (m_lang m); cbn [language_eqb] in Hb.
  - injection Hb as <-. rewrite utf8_ascii by (apply spaced_all; [reflexivity|]; intros w Hw; apply english_ascii, Hin, Hw).
    destruct ws as [|w ws]; [congruence|].
    pose proof (words_nonempty _ _ (Hin w (or_introl eq_refl))) as Hw. pose proof (english_ascii w (Hin w (or_introl eq_refl))) as Ha.
    destruct w as [|c w]; [congruence|]. cbn [forallb] in Ha.
    destruct ws; cbn [spaced app]; eexists _, _; (split; [reflexivity|]); split; intros; (reflexivity || lia).
  - destruct ws as [|w ws]; [congruence|].
    destruct (zh_word_char w (Hin w (or_introl eq_refl))) as (c & x & y & -> & Hc & Hg).
    assert (E : exists s, spaced ([c] :: ws) = c :: s) by (destruct ws; cbn; eauto). destruct E as (s & E). rewrite E in Hb.
    cbn [gb18030] in Hb. rewrite Hg in Hb. destruct (gb18030 s) as [gs|]; [|discriminate Hb]. cbn [or_panic app] in Hb.
    injection Hb as <-. exists x, (y :: gs). split; [reflexivity|].
    apply gb_char_cases in Hg. destruct Hg as [(Hc' & _)|(_ & a & b' & E' & Ha & _)]; [lia|].
    injection E' as -> ->. split; intros H0; [discriminate H0|lia].
Qed.

(** C73 *)
Lemma c73_password_bytes_injective : forall (m m' : mnemonic) (b : bytes), constructible m -> constructible m' ->
  mnemonic_as_bytes m = Ok b -> mnemonic_as_bytes m' = Ok b -> m = m'.
Proof.
  intros m m' b H H' Hb Hb'.
  destruct (as_bytes_head m b H Hb) as (h & t & E & Hl). destruct (as_bytes_head m' b H' Hb') as (h' & t' & E' & Hl').
  assert (h' = h) by congruence. subst h'. clear E E'.
  assert (El : m_lang m = m_lang m').
  { destruct (m_lang m), (m_lang m'); try reflexivity; [rewrite (proj2 Hl' (proj1 Hl eq_refl))|rewrite (proj2 Hl (proj1 Hl' eq_refl))]; reflexivity. }
  apply constructible_eq; auto. clear Hl Hl'.
  unfold mnemonic_as_bytes in *. rewrite <- El in *.
  apply constructible_sentence in H, H'. destruct H as (ws & Hp & Hs). destruct H' as (ws' & Hp' & Hs').
  destruct (m_lang m) eqn:Em; cbn [language_eqb] in *.
  - injection Hb as Hb. injection Hb' as Hb'. rewrite <- El in Hs'.
    rewrite utf8_ascii in Hb by (rewrite Hp; apply spaced_all; [reflexivity|]; intros w Hw; apply english_ascii, (sentence_words _ _ _ _ Hs), Hw).
    rewrite utf8_ascii in Hb' by (rewrite Hp'; apply spaced_all; [reflexivity|]; intros w Hw; apply english_ascii, (sentence_words _ _ _ _ Hs'), Hw).
    congruence.
  - destruct (gb18030 (m_phrase m)) as [g|] eqn:Eg; [|discriminate Hb].
    destruct (gb18030 (m_phrase m')) as [g'|] eqn:Eg'; [|discriminate Hb'].
    cbn [or_panic] in *. injection Hb as <-. injection Hb' as ->. eapply gb18030_inj; eassumption.
Qed.
Example c73_example : constructible ex_mnemonic /\ mnemonic_as_bytes ex_mnemonic = Ok ex_phrase.
Proof.
  split; [exact ex_constructible|]. vm_compute. reflexivity.
Qed.

(** C74 *)
Lemma c74_debug_is_quoted_phrase : forall m : mnemonic, constructible m ->
  mnemonic_debug m = Ok ([34] ++ m_phrase m ++ [34]).
Proof.
  intros m H. apply constructible_sentence in H. destruct H as (ws & Hp & Hs).
  assert (Hc : forall c, In c (spaced ws) -> debug_char c = Some [c]).
  { intros c Hin. assert (Hr : c = 32 \/ 97 <= c <= 122 \/ 0x4E00 <= c <= 0x9FA5).
    { assert (Hf : forallb (fun c => (c =? 32) || ((97 <=? c) && (c <=? 122)) || ((0x4E00 <=? c) && (c <=? 0x9FA5))) (spaced ws) = true).
      { apply spaced_all; [reflexivity|]. intros w Hw. pose proof (sentence_words _ _ _ w Hs Hw) as Hin'.
        destruct (m_lang m); cbn [words] in Hin'.
        - pose proof words_en_letters as Hl. rewrite forallb_forall in Hl. specialize (Hl w Hin').
          rewrite forallb_forall in *. intros d Hd. specialize (Hl d Hd). lia.
        - pose proof words_zh_printable as Hl. rewrite forallb_forall in Hl. specialize (Hl w Hin').
          rewrite forallb_forall in *. intros d Hd. specialize (Hl d Hd). lia. }
      rewrite forallb_forall in Hf. specialize (Hf c Hin). lia. }
    unfold debug_char. replace ((c =? 34) || (c =? 92)) with false by lia. replace (c =? 9) with false by lia.
    replace (c =? 10) with false by lia. replace (c =? 13) with false by lia. replace (c =? 0) with false by lia.
    replace ((32 <=? c) && (c <? 127) || (19968 <=? c) && (c <=? 40869)) with true by lia. reflexivity. }
  unfold mnemonic_debug, debug_str. rewrite Hp.
  assert (E : debug_chars (spaced ws) = Some (spaced ws)); [|rewrite E; reflexivity].
  clear Hs Hp. induction (spaced ws) as [|c s IH]; [reflexivity|]. cbn [debug_chars].
  rewrite (Hc c (or_introl eq_refl)), IH; [reflexivity|]. intros d Hd. apply Hc. right. exact Hd.
Qed.
Example c74_example : mnemonic_debug ex_mnemonic
  = Ok ([34] ++ lit "crop cash unable insane eight faith inflict route frame loud box vibrant" ++ [34]).
Proof.
  vm_compute. reflexivity.
Qed.

(** ** Texts *)
Lemma dec_str_inj n k : dec_str n = dec_str k -> n = k.
Proof.
  intros E. destruct (dec_str_ok n) as (_ & _ & V & _). destruct (dec_str_ok k) as (_ & _ & V' & _). congruence.
Qed.
Lemma digits_before (a b : str) x y c d : Forall SpecBip32.digit_char a -> Forall SpecBip32.digit_char b ->
  ~ SpecBip32.digit_char c -> ~ SpecBip32.digit_char d -> a ++ c :: x = b ++ d :: y -> a = b /\ x = y.
Proof.
  intros Ha Hb Hc Hd. revert b Hb. induction Ha as [|e a He Ha IH]; intros b Hb H; destruct Hb as [|f b Hf Hb]; cbn in H.
  - injection H as -> ->. auto.
  - injection H as -> _. contradiction.
  - injection H as -> _. contradiction.
  - injection H as -> H. destruct (IH b Hb H) as [-> ->]. auto.
Qed.

(** C75 *)
Lemma c75_error_texts : forall e e' : error_kind, error_kind_display e = error_kind_display e' -> e = e'.
Proof.
  intros e e' H.
  assert (Hdb : forall t t', mnemonic_type_debug t = mnemonic_type_debug t' -> t = t').
  { intros t t' E. destruct t, t'; try reflexivity; discriminate E. }
  assert (Hb : forall n n' t t', dec_str n ++ lit "bits for mnemonic type " ++ mnemonic_type_debug t
               = dec_str n' ++ lit "bits for mnemonic type " ++ mnemonic_type_debug t' -> n = n' /\ t = t').
  { intros n n' t t' E. destruct (dec_str_ok n) as (_ & F & _). destruct (dec_str_ok n') as (_ & F' & _).
    change (lit "bits for mnemonic type ") with (98 :: lit "its for mnemonic type ") in E. cbn [app] in E.
    apply digits_before in E; [|exact F|exact F'|unfold SpecBip32.digit_char; lia|unfold SpecBip32.digit_char; lia].
    destruct E as [E1 E2]. split; [apply dec_str_inj, E1|]. apply app_inv_head in E2. apply Hdb, E2. }
  destruct e, e'; cbn [error_kind_display] in H; try reflexivity; try discriminate H;
  try (apply app_inv_head in H).
  - f_equal. apply dec_str_inj, H.
  - f_equal. apply dec_str_inj, H.
  - destruct (Hb _ _ _ _ H) as [-> ->]. reflexivity.
Qed.
Lemma c75_texts_exact : forall (n : N) (t : mnemonic_type),
  error_kind_display InvalidChecksum = lit "invalid checksum"
  /\ error_kind_display InvalidWord = lit "invalid word in phrase"
  /\ (exists d, SpecBip32.canonical_decimal d n /\ error_kind_display (InvalidKeysize n) = lit "invalid keysize: " ++ d
        /\ error_kind_display (InvalidWordLength n) = lit "invalid number of words in phrase: " ++ d
        /\ error_kind_display (InvalidEntropyLength n t) = lit "invalid entropy length " ++ d ++ lit "bits for mnemonic type " ++
             match t with Words12 => lit "Words12" | Words15 => lit "Words15" | Words18 => lit "Words18"
                        | Words21 => lit "Words21" | Words24 => lit "Words24" end)
  /\ mnemonic_type_display t = match t with
       | Words12 => lit "12 words (128bits)" | Words15 => lit "15 words (160bits)" | Words18 => lit "18 words (192bits)"
       | Words21 => lit "21 words (224bits)" | Words24 => lit "24 words (256bits)" end.
Proof.
  intros n t. split; [reflexivity|]. split; [reflexivity|]. split; [|destruct t; vm_compute; reflexivity].
  exists (dec_str n). split; [apply dec_str_ok|]. split; [reflexivity|]. split; [reflexivity|]. destruct t; reflexivity.
Qed.
Example c75_example : error_kind_display (InvalidEntropyLength 42 Words12)
  = lit "invalid entropy length 42bits for mnemonic type Words12".
Proof.
  vm_compute. reflexivity.
Qed.

(** ** Unicode forms *)
Lemma white_ccc c : is_whitespace c = true -> ccc c = 0.
Proof.
  intros H. apply white_chars_all in H. pose proof white_chars_ccc as Hc. rewrite forallb_forall in Hc.
  apply N.eqb_eq, Hc, H.
Qed.
Lemma decomp_white k d : In (k, d) decomp_table -> decomp_white_ok (k, d) = true.
Proof. intros H. pose proof decomp_table_white as Hc. rewrite forallb_forall in Hc. apply Hc, H. Qed.
Lemma decompose_white c : is_whitespace c = true -> exists c', decompose_char c = [c'] /\ is_whitespace c' = true.
Proof.
  intros H. unfold decompose_char.
  assert (Hh : is_hangul c = false) by (unfold is_hangul; unfold is_whitespace in H; lia). rewrite Hh.
  destruct (assocN c decomp_table) as [d|] eqn:E; [|exists c; auto].
  apply assocN_in, decomp_white in E. unfold decomp_white_ok in E. rewrite H in E. cbn [negb orb] in E.
  apply andb_true_iff in E. destruct E as [E _]. destruct d as [|x [|]]; try discriminate E.
  apply N.eqb_eq in E. subst x. exists 32. auto.
Qed.
(** The only white space in the decomposition of another character is the space. *)
Lemma decompose_no_white c d : is_whitespace c = false -> In d (decompose_char c) -> is_whitespace d = true -> d = 32.
Proof.
  intros Hc Hd Hw. unfold decompose_char in Hd. destruct (is_hangul c) eqn:Eh.
  - exfalso. unfold hangul_decomp in Hd. cbn [app In] in Hd. unfold is_hangul in Eh. unfold is_whitespace in Hw.
    set (i := c - 44032) in *.
    assert (H1 : i / 588 < 19) by (apply N.div_lt_upper_bound; lia).
    assert (H2 : (i mod 588) / 28 < 21).
    { apply N.div_lt_upper_bound; [discriminate|]. pose proof (N.mod_lt i 588). lia. }
    assert (H3 : i mod 28 < 28) by (apply N.mod_lt; discriminate).
    assert (Hr : 0x1100 <= d <= 0x11FF).
    { destruct Hd as [Hd|[Hd|Hd]]; [lia|lia|]. destruct (i mod 28 =? 0); [destruct Hd|]. destruct Hd as [Hd|[]]. lia. }
    lia.
  - destruct (assocN c decomp_table) as [t|] eqn:E.
    + apply assocN_in, decomp_white in E. unfold decomp_white_ok in E. apply andb_true_iff in E. destruct E as [_ E].
      rewrite forallb_forall in E. specialize (E d Hd). rewrite Hw in E. cbn in E. lia.
    + destruct Hd as [<-|[]]. congruence.
Qed.
Lemma ccc_insert_stop x a c b : ccc c = 0 -> ccc_insert x (a ++ c :: b) = ccc_insert x a ++ c :: b.
Proof.
  intros H. induction a as [|d a IH]; cbn [app ccc_insert].
  - rewrite H. reflexivity.
  - destruct (_ && _); [rewrite IH|]; reflexivity.
Qed.
Lemma canonical_order_stop a c b : ccc c = 0 -> canonical_order (a ++ c :: b) = canonical_order a ++ c :: canonical_order b.
Proof.
  intros H. unfold canonical_order. induction a as [|d a IH]; cbn [app fold_right].
  - apply ccc_insert_starter, H.
  - rewrite IH. apply ccc_insert_stop, H.
Qed.
Lemma nfkd_white u c v : is_whitespace c = true ->
  exists c', is_whitespace c' = true /\ nfkd (u ++ c :: v) = nfkd u ++ c' :: nfkd v.
Proof.
  intros H. destruct (decompose_white c H) as (c' & E & Hc'). exists c'. split; [exact Hc'|].
  unfold nfkd. rewrite flat_map_app. cbn [flat_map]. rewrite E. cbn [app].
  apply canonical_order_stop, white_ccc, Hc'.
Qed.
(** Characters that hide a space. *)
Definition hides_space (c : N) : Prop := is_whitespace c = false /\ In 32 (decompose_char c).
Lemma nfkd_no_white s : (forall c, In c s -> ~ hides_space c) -> no_white s = true -> no_white (nfkd s) = true.
Proof.
  intros Hx Hn. unfold no_white in *. rewrite forallb_forall in *. intros d Hd.
  apply (Permutation_in _ (nfkd_perm s)) in Hd. apply in_flat_map in Hd. destruct Hd as (c & Hc & Hd).
  specialize (Hn c Hc). apply negb_true_iff in Hn. apply negb_true_iff.
  destruct (is_whitespace d) eqn:E; [|reflexivity]. exfalso. apply (Hx c Hc). split; [exact Hn|].
  rewrite <- (decompose_no_white c d Hn Hd E). exact Hd.
Qed.
Lemma white_split s : no_white s = true \/ exists u c v, s = u ++ c :: v /\ no_white u = true /\ is_whitespace c = true.
Proof.
  induction s as [|c s IH]; [left; reflexivity|]. destruct (is_whitespace c) eqn:E.
  - right. exists [], c, s. auto.
  - destruct IH as [IH|(u & d & v & -> & Hu & Hd)].
    + left. unfold no_white in *. cbn [forallb]. rewrite E, IH. reflexivity.
    + right. exists (c :: u), d, v. split; [reflexivity|]. split; [|exact Hd]. unfold no_white in *. cbn [forallb]. rewrite E, Hu. reflexivity.
Qed.
Lemma split_nfkd s : (forall c, In c s -> ~ hides_space c) ->
  split_pred is_whitespace (nfkd s) = map nfkd (split_pred is_whitespace s).
Proof.
  assert (H : forall n s, (length s < n)%nat -> (forall c, In c s -> ~ hides_space c) ->
    split_pred is_whitespace (nfkd s) = map nfkd (split_pred is_whitespace s)).
  { induction n as [|n IH]; intros t Ht Hx; [lia|].
    destruct (white_split t) as [Hn|(u & c & v & -> & Hu & Hc)].
    - rewrite (split_pred_none _ t Hn). rewrite (split_pred_none _ (nfkd t)) by (apply nfkd_no_white; assumption). reflexivity.
    - rewrite (split_pred_app _ u c v Hu Hc). destruct (nfkd_white u c v Hc) as (c' & Hc' & ->).
      rewrite (split_pred_app _ (nfkd u) c') by
        ((apply nfkd_no_white; [intros d Hd; apply Hx, in_app_iff; left; exact Hd|exact Hu]) || exact Hc').
      cbn [map]. f_equal. apply IH.
      + rewrite app_length in Ht. cbn [length] in Ht. lia.
      + intros d Hd. apply Hx, in_app_iff. right. right. exact Hd. }
  intros Hx. apply (H (S (length s))); [lia|exact Hx].
Qed.
Lemma split_whitespace_nfkd s : (forall c, In c s -> ~ hides_space c) -> split_whitespace (nfkd s) = norm_words s.
Proof.
  intros Hx. unfold norm_words, split_whitespace. rewrite (split_nfkd s Hx).
  induction (split_pred is_whitespace s) as [|w ws IH]; [reflexivity|]. cbn [map filter]. rewrite IH.
  destruct w as [|c w]; [reflexivity|]. pose proof (nfkd_nonempty (c :: w)) as Hn.
  destruct (nfkd (c :: w)) eqn:E; [exfalso; apply Hn; [discriminate|reflexivity]|]. cbn [map]. rewrite E. reflexivity.
Qed.
(** A foreign character anywhere makes the phrase invalid. *)
Lemma foreign_char s l d : In d (nfkd s) -> is_whitespace d = false -> not_word_char d = true ->
  from_phrase s l = Err InvalidWord.
Proof.
  intros Hd Hw Hn. apply (Permutation_in _ (nfkd_perm s)) in Hd. apply in_flat_map in Hd. destruct Hd as (c & Hc & Hd).
  assert (Hcw : is_whitespace c = false).
  { destruct (is_whitespace c) eqn:E; [|reflexivity]. destruct (decompose_white c E) as (c' & E' & Hw').
    rewrite E' in Hd. destruct Hd as [<-|[]]. congruence. }
  destruct (split_pred_covers is_whitespace s c Hc Hcw) as (w & Hin & Hcin).
  assert (Hin' : In w (split_whitespace s)).
  { unfold split_whitespace. apply filter_In. split; [exact Hin|]. destruct w; [destruct Hcin|reflexivity]. }
  assert (Hbad : spec_outcome l (norm_words s) (Err InvalidWord)).
  { apply spec_bad_word with (nfkd w); [apply in_map, Hin'|]. rewrite bip39_list_words. intros Hl.
    rewrite (words_word_char l (nfkd w) d Hl) in Hn; [discriminate Hn|].
    apply (Permutation_in _ (Permutation_sym (nfkd_perm w))). apply in_flat_map. eauto. }
  pose proof (from_phrase_outcome s l) as H. destruct (from_phrase s l) as [m|e|].
  - destruct H as (_ & _ & Hs). exfalso. assert (E : Err InvalidWord = Ok (m_entropy m)); [|discriminate E].
    eapply spec_outcome_fun; [exact Hbad|apply spec_good, Hs].
  - destruct H as [(_ & ->)|H]; [reflexivity|]. symmetry.
    assert (E : Err (A := bytes) InvalidWord = Err e) by (eapply spec_outcome_fun; eassumption). congruence.
  - destruct H.
Qed.
Lemma hides_space_dec c : {hides_space c} + {~ hides_space c}.
Proof.
  unfold hides_space. destruct (is_whitespace c).
  - right. intros [H _]. discriminate H.
  - destruct (in_dec N.eq_dec 32 (decompose_char c)) as [H|H]; [left; auto|right; tauto].
Qed.
Lemma hides_space_foreign s c : In c s -> hides_space c ->
  exists d, In d (nfkd s) /\ is_whitespace d = false /\ not_word_char d = true.
Proof.
  intros Hc [Hw H32]. destruct (decompose_space c H32 Hw) as (d & Hd & Hn). exists d. split; [|split; [|exact Hn]].
  - apply (Permutation_in _ (Permutation_sym (nfkd_perm s))). apply in_flat_map. eauto.
  - destruct (is_whitespace d) eqn:E; [|reflexivity]. exfalso.
    rewrite (decompose_no_white c d Hw Hd E) in Hn. discriminate Hn.
Qed.
Lemma any_hides s : (exists c, In c s /\ hides_space c) \/ (forall c, In c s -> ~ hides_space c).
Proof.
  induction s as [|c s IH]; [right; intros c []|]. destruct (hides_space_dec c) as [H|H]; [left; exists c; cbn; auto|].
  destruct IH as [(d & Hd & Hh)|IH]; [left; exists d; cbn; auto|]. right. intros d [<-|Hd]; auto.
Qed.

(** C76 *)
Lemma c76_unicode_form_ignored : forall (s s' : str) (lang : language),
  nfkd s = nfkd s' -> from_phrase s lang = from_phrase s' lang.
Proof.
  assert (Hone : forall s s' l, nfkd s = nfkd s' -> (exists c, In c s /\ hides_space c) -> from_phrase s l = from_phrase s' l).
  { intros s s' l E (c & Hc & Hh). destruct (hides_space_foreign s c Hc Hh) as (d & Hd & Hw & Hn).
    rewrite (foreign_char s l d Hd Hw Hn). rewrite E in Hd. rewrite (foreign_char s' l d Hd Hw Hn). reflexivity. }
  intros s s' l E. destruct (any_hides s) as [H|H]; [apply Hone; assumption|].
  destruct (any_hides s') as [H'|H']; [symmetry; apply Hone; auto|].
  unfold from_phrase. fold (norm_words s) (norm_words s').
  rewrite <- (split_whitespace_nfkd s H), <- (split_whitespace_nfkd s' H'), E. reflexivity.
Qed.
Lemma c76_normalising_first : forall (s : str) (lang : language), from_phrase (nfkd s) lang = from_phrase s lang.
Proof.
  intros s lang. apply c76_unicode_form_ignored, nfkd_idem.
Qed.
Example c76_example : nfkd (0xFF43 :: skipn 1 ex_phrase) = nfkd ex_phrase /\ (0xFF43 :: skipn 1 ex_phrase) <> ex_phrase.
Proof.
  split; [vm_compute; reflexivity|]. vm_compute. discriminate.
Qed.

(** ** Abbreviations *)
(** C77 *)
Lemma c77_four_letters_identify : forall w w' : str, In w (bip39_list English) -> In w' (bip39_list English) ->
  firstn 4 w = firstn 4 w' -> w = w'.
Proof.
  intros w w' H H' E. rewrite bip39_list_words in *. eapply nodup_map_inj; [|exact H|exact H'|exact E].
  apply sorted_nodup, chain_lt_sorted, words_en_four.
Qed.
Lemma c77_prefix_completion : forall w p : str, In w (bip39_list English) -> (4 <= length p)%nat -> (exists t, w = p ++ t) ->
  get_words_by_prefix (wordlist English) p = Ok [w].
Proof.
  intros w p Hw Hp (t & Et). destruct (c18_prefix_search_english p) as (ws & before & after & -> & E & Hiff). f_equal.
  assert (Hin : In w ws) by (apply Hiff; split; [exact Hw|eauto]).
  assert (Hnd : NoDup ws).
  { pose proof (words_nodup English) as Hn. rewrite <- (bip39_list_words English), E in Hn.
    clear -Hn. induction before as [|x l IH]; [|inversion Hn; auto]. cbn [app] in Hn.
    induction ws as [|x l IH]; [constructor|]. inversion Hn as [|? ? Hx Hn']; subst. constructor; [|apply IH, Hn'].
    intros Hin. apply Hx, in_app_iff. left. exact Hin. }
  assert (Hall : forall v, In v ws -> v = w).
  { intros v Hv. apply Hiff in Hv. destruct Hv as [Hv (t' & Ev)]. apply c77_four_letters_identify; auto.
    rewrite Ev, Et. rewrite !firstn_app. replace (4 - length p)%nat with 0%nat by lia. reflexivity. }
  clear -Hin Hnd Hall. destruct ws as [|v ws]; [destruct Hin|].
  rewrite (Hall v (or_introl eq_refl)) in *. destruct ws as [|u ws]; [reflexivity|]. exfalso.
  inversion Hnd as [|? ? Hv _]; subst. apply Hv. rewrite <- (Hall u (or_intror (or_introl eq_refl))) at 1. left. reflexivity.
Qed.
Example c77_example : In (lit "abandon") (bip39_list English) /\ (4 <= length (lit "aban"))%nat
  /\ lit "abandon" = lit "aban" ++ lit "don".
Proof.
  split; [|split; [cbn; lia|reflexivity]]. rewrite bip39_list_words. left. reflexivity.
Qed.
