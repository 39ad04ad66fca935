(** Proofs about bit packing at every item size, white space and generated phrases (restated in PropBits.v). *)
From Coq Require Import String ZifyBool ZifyNat ZifyN.
From Verif Require Import Outcome Bytes Str Hash Nfkd WordData ModelBip39 SpecBip39 SpecUnicode SpecSentence StrLemmas BitLemmas WordLemmas Bip39Proofs Bip39Thms UnicodeThms More39Thms ChainThms ModelBits.
Open Scope N_scope.

(** ** C116 *)
Definition written (items : list (N * N)) : list bool := flat_map (fun i => bits_of (N.to_nat (fst i)) (snd i)) items.
Lemma push_holds size w b x : 1 <= size <= 25 -> bw_holds w b ->
  exists w', push size w x = Ok w' /\ bw_holds w' (b ++ bits_of (N.to_nat size) x).
Proof.
  intros Hz (r & -> & Hi & Hr & Ho & Ha). unfold push.
  unfold sub_chk, shl_chk, shr_chk, add_chk. rewrite (proj2 (N.leb_le size 32)) by lia. cbn [bind].
  rewrite (proj2 (N.ltb_lt (32 - size) 32)) by lia. cbn [bind]. rewrite (proj2 (N.ltb_lt (bw_offset w) 32)) by lia. cbn [bind].
  rewrite (proj2 (N.ltb_lt (bw_offset w + size) (2 ^ 64))) by (apply (N.lt_trans _ 64); [lia|reflexivity]). cbn [bind].
  set (s := bits_of (N.to_nat size) x). assert (Ls : len s = size) by (unfold s; rewrite len_bits_of; lia).
  assert (Hv : val_of_bits s = x mod 2 ^ size) by (unfold s; rewrite val_of_bits_bits_of; f_equal; f_equal; lia).
  assert (Hs : N.shiftr (wrap 32 (N.shiftl x (32 - size))) (bw_offset w) = val_of_bits s * 2 ^ (32 - (len r + len s))).
  { rewrite Ls, Hv, Hr. unfold wrap. rewrite N.shiftl_mul_pow2. replace (2 ^ 32) with (2 ^ size * 2 ^ (32 - size)) by (rewrite <- N.pow_add_r; f_equal; lia).
    rewrite N.mul_mod_distr_r by apply pow2_nz. rewrite N.shiftr_div_pow2. rewrite (pow_split (32 - size) (bw_offset w)) by lia.
    replace (32 - (bw_offset w + size)) with (32 - size - bw_offset w) by lia. rewrite N.mul_assoc, N.div_mul by apply pow2_nz. reflexivity. }
  rewrite Hs, <- app_assoc. apply bw_drain_holds; auto.
  - rewrite len_app. lia.
  - lia.
  - apply left_aligned_append; [exact Ha|]. lia.
Qed.
Lemma push_all_holds items : forall w b, Forall (fun i => 1 <= fst i <= 25) items -> bw_holds w b ->
  exists w', push_all w items = Ok w' /\ bw_holds w' (b ++ written items).
Proof.
  induction items as [|[size x] items IH]; intros w b F Hh; cbn [push_all].
  - exists w. split; [reflexivity|]. cbn. rewrite app_nil_r. exact Hh.
  - inversion F as [|? ? Hz F']; subst. cbn [fst] in Hz. destruct (push_holds size w b x Hz Hh) as (w' & -> & Hw). cbn [bind].
    destruct (IH w' _ F' Hw) as (w'' & E & Hw'). exists w''. split; [exact E|]. unfold written. cbn [flat_map fst snd]. rewrite app_assoc. exact Hw'.
Qed.
Lemma bw_into_bytes_pad w b : bw_holds w b ->
  exists l k, bw_into_bytes w = Ok l /\ bytes_ok l /\ bits_of_bytes l = b ++ repeat false k /\ (k < 8)%nat.
Proof.
  intros (r & -> & Hi & Hr & Ho & Ha). unfold bw_into_bytes.
  destruct (N.eqb_spec (bw_offset w) 0) as [E|E].
  - exists (bw_inner w), O. cbn [repeat]. rewrite app_nil_r. destruct r; [|unfold len in Hr; cbn in Hr; lia].
    rewrite app_nil_r. repeat split; auto; lia.
  - unfold shr_chk. change (24 <? 32) with true. cbn [bind].
    set (pad := repeat false (8 - length r)).
    assert (Hrl : N.of_nat (length r) = bw_offset w) by (unfold len in Hr; lia).
    assert (Hp : val_of_bits (r ++ pad) = N.shiftr (bw_remainder w) 24).
    { destruct Ha as [_ ->]. rewrite val_of_bits_app.
      assert (Hz : forall n, val_of_bits (repeat false n) = 0).
      { induction n as [|n IH]; [reflexivity|]. cbn [repeat]. rewrite val_of_bits_cons, IH. reflexivity. }
      unfold pad at 2. rewrite Hz, N.add_0_r. rewrite N.shiftr_div_pow2.
      unfold pad, len. rewrite repeat_length.
      rewrite (pow_split (32 - N.of_nat (length r)) 24) by lia.
      rewrite N.mul_assoc, N.div_mul by apply pow2_nz. f_equal. f_equal. lia. }
    assert (Hlp : length (r ++ pad) = 8%nat).
    { rewrite app_length. unfold pad. rewrite repeat_length. lia. }
    assert (Hlt : val_of_bits (r ++ pad) < 256).
    { pose proof (val_of_bits_lt (r ++ pad)) as H. unfold len in H. rewrite Hlp in H. exact H. }
    rewrite <- Hp. unfold wrap. rewrite N.mod_small by exact Hlt.
    eexists; exists (8 - length r)%nat. fold pad. split; [reflexivity|]. split; [|split].
    + apply bytes_ok_app. split; [exact Hi|]. constructor; [exact Hlt|constructor].
    + rewrite bits_of_bytes_app, <- app_assoc. f_equal. unfold bits_of_bytes. cbn [flat_map].
      rewrite app_nil_r. rewrite <- Hlp at 1. apply bits_of_val_of_bits.
    + destruct r; [cbn in Hrl; lia|cbn [length]; lia].
Qed.

Lemma c116_bits_written : forall items : list (N * N), Forall (fun i => 1 <= fst i <= 25) items ->
  exists w l k, push_all bw_new items = Ok w /\ bw_len w = fold_right N.add 0 (map fst items)
    /\ bw_into_bytes w = Ok l /\ bytes_ok l
    /\ bits_of_bytes l = flat_map (fun i => bits_of (N.to_nat (fst i)) (snd i)) items ++ repeat false k /\ (k < 8)%nat.
Proof.
  intros items F. destruct (push_all_holds items bw_new [] F bw_holds_new) as (w & E & Hw). cbn [app] in Hw.
  destruct (bw_into_bytes_pad w _ Hw) as (l & k & El & Ok & Hb & Hk). exists w, l, k. split; [exact E|]. split; [|auto].
  rewrite (bw_len_holds w _ Hw). clear. induction items as [|[size x] items IH]; [reflexivity|].
  unfold written in *. cbn [flat_map map fold_right fst snd]. rewrite len_app, len_bits_of, IH. lia.
Qed.

Section Reading.
Variables isize osize : N.
Hypothesis Hi : 1 <= isize <= 32.
Hypothesis Ho : 1 <= osize <= 16.
Definition item_bits (l : list N) : list bool := flat_map (bits_of (N.to_nat isize)) l.
Definition items_ok (l : list N) : Prop := Forall (fun x => x < 2 ^ isize) l.
Definition it_holds (it : bit_iter) (b : list bool) : Prop :=
  exists r, b = r ++ item_bits (bi_source it) /\ items_ok (bi_source it) /\ len r = bi_read it /\ bi_read it <= 64 /\ left_aligned 64 r (bi_buffer it).
Lemma fill_holds source : forall r read buffer, items_ok source -> len r = read -> read <= 64 -> left_aligned 64 r buffer ->
  (len (r ++ item_bits source) < osize /\ fill isize osize source read buffer = Ok None)
  \/ (exists it, fill isize osize source read buffer = Ok (Some it) /\ it_holds it (r ++ item_bits source) /\ osize <= bi_read it).
Proof.
  induction source as [|x source IH]; intros r read buffer Hok Hr Hread Ha; cbn [fill].
  - destruct (N.ltb_spec read osize) as [H|H].
    + left. unfold item_bits. cbn [flat_map]. rewrite app_nil_r. split; [lia|reflexivity].
    + right. eexists; split; [reflexivity|]. split; [|exact H]. exists r. cbn [bi_source bi_read bi_buffer]. auto.
  - inversion Hok as [|? ? Hx Hok']; subst x0 l. destruct (N.ltb_spec read osize) as [H|H].
    + unfold add_chk, sub_chk, shl_chk. rewrite (proj2 (N.ltb_lt (read + isize) (2 ^ 64))) by (apply (N.lt_trans _ 64); [lia|reflexivity]). cbn [bind].
      rewrite (proj2 (N.leb_le (read + isize) 64)) by lia. cbn [bind]. rewrite (proj2 (N.ltb_lt (64 - (read + isize)) 64)) by lia. cbn [bind].
      set (s := bits_of (N.to_nat isize) x). assert (Ls : len s = isize) by (unfold s; rewrite len_bits_of; lia).
      assert (Hv : val_of_bits s = x). { unfold s. rewrite val_of_bits_bits_of, N2Nat.id. apply N.mod_small, Hx. }
      assert (Hs : wrap 64 (N.shiftl x (64 - (read + isize))) = val_of_bits s * 2 ^ (64 - (len r + len s))).
      { rewrite Hv, Ls, Hr. unfold wrap. rewrite N.shiftl_mul_pow2. apply N.mod_small.
        rewrite (pow_split 64 (64 - (read + isize))) by lia. apply N.mul_lt_mono_pos_r; [pose proof (pow2_nz (64 - (read + isize))); lia|].
        eapply N.lt_le_trans; [exact Hx|]. apply N.pow_le_mono_r; [discriminate|lia]. }
      rewrite Hs. change (item_bits (x :: source)) with (s ++ item_bits source). rewrite app_assoc.
      apply IH; [exact Hok'|rewrite len_app; lia|lia|]. apply left_aligned_append; [exact Ha|lia].
    + right. eexists; split; [reflexivity|]. split; [|exact H]. exists r. cbn [bi_source bi_read bi_buffer]. auto.
Qed.
Lemma next_holds it b : it_holds it b ->
  (len b < osize /\ next isize osize it = Ok None)
  \/ (exists g b' it', b = g ++ b' /\ len g = osize /\ next isize osize it = Ok (Some (val_of_bits g, it')) /\ it_holds it' b').
Proof.
  intros (r & -> & Hok & Hr & Hread & Ha). unfold next.
  destruct (fill_holds (bi_source it) r (bi_read it) (bi_buffer it) Hok Hr Hread Ha) as [(Hl & ->)|(it' & -> & Hh & Hge)].
  - left. split; [exact Hl|reflexivity].
  - right. cbn [bind]. destruct Hh as (r' & Hb & Hok' & Hr' & Hread' & Ha'). destruct (len_le_split r' osize) as (g & s & -> & Hg); [lia|].
    unfold sub_chk, shr_chk, shl_chk. rewrite (proj2 (N.leb_le osize 64)) by lia. cbn [bind]. rewrite (proj2 (N.ltb_lt (64 - osize) 64)) by lia. cbn [bind].
    rewrite (proj2 (N.ltb_lt osize 64)) by lia. cbn [bind]. rewrite (proj2 (N.leb_le osize (bi_read it'))) by exact Hge. cbn [bind].
    exists g, (s ++ item_bits (bi_source it')).
    assert (Ht : N.shiftr (bi_buffer it') (64 - osize) = val_of_bits g). { rewrite <- Hg. eapply left_aligned_top. exact Ha'. }
    rewrite Ht. unfold wrap at 1. rewrite (N.mod_small (val_of_bits g)).
    2:{ pose proof (val_of_bits_lt g) as H. rewrite Hg in H. eapply N.lt_le_trans; [exact H|]. apply N.pow_le_mono_r; [discriminate|lia]. }
    eexists. split; [rewrite Hb, <- app_assoc; reflexivity|]. split; [exact Hg|]. split; [reflexivity|].
    exists s. cbn [bi_source bi_read bi_buffer]. rewrite len_app in Hr'. repeat split; try assumption; try lia.
    + pose proof (left_aligned_drop 64 g s _ Ha') as D. rewrite Hg in D. apply D.
Qed.
Lemma runs_holds n : forall it b, (length b <= n)%nat -> it_holds it b ->
  exists xs rest, runs isize osize it xs /\ Forall (fun x => x < 2 ^ osize) xs
    /\ b = flat_map (bits_of (N.to_nat osize)) xs ++ rest /\ len rest < osize.
Proof.
  induction n as [|n IH]; intros it b Hn Hh; destruct (next_holds it b Hh) as [(Hl & E)|(g & b' & it' & -> & Hg & E & Hh')].
  - exists [], b. split; [constructor; exact E|]. auto.
  - rewrite app_length in Hn. unfold len in Hg. lia.
  - exists [], b. split; [constructor; exact E|]. auto.
  - destruct (IH it' b') as (xs & rest & R & F & -> & Hr); [rewrite app_length in Hn; unfold len in Hg; lia|exact Hh'|].
    exists (val_of_bits g :: xs), rest. split; [econstructor; [exact E|exact R]|]. split; [|split; [|exact Hr]].
    + constructor; [|exact F]. rewrite <- Hg. apply val_of_bits_lt.
    + cbn [flat_map]. rewrite <- app_assoc. f_equal. replace (N.to_nat osize) with (length g) by (unfold len in Hg; lia).
      symmetry. apply bits_of_val_of_bits.
Qed.
Lemma new_holds l : items_ok l -> it_holds (BitIter l 0 0) (item_bits l).
Proof. intros H. exists []. cbn [bi_source bi_read bi_buffer app]. repeat split; auto; cbn; lia. Qed.
End Reading.
Lemma runs_fun isize osize it xs : runs isize osize it xs -> forall ys, runs isize osize it ys -> xs = ys.
Proof.
  induction 1 as [it E|it x it' xs E R IH]; intros ys R'; inversion R' as [? E'|? y it'' ys' E' R'']; subst; rewrite E in E'; try discriminate E'.
  - reflexivity.
  - injection E' as <- <-. f_equal. apply IH, R''.
Qed.
Lemma c116_bits_read : forall (isize osize : N) (source : list N), 1 <= isize <= 32 -> 1 <= osize <= 16 ->
  Forall (fun x => x < 2 ^ isize) source ->
  exists xs rest, (forall ys, runs isize osize (BitIter source 0 0) ys <-> ys = xs) /\ Forall (fun x => x < 2 ^ osize) xs
    /\ flat_map (bits_of (N.to_nat isize)) source = flat_map (bits_of (N.to_nat osize)) xs ++ rest /\ len rest < osize.
Proof.
  intros isize osize source Hi Ho F. destruct (runs_holds isize osize Hi Ho _ _ _ (le_n _) (new_holds isize osize Hi Ho source F)) as (xs & rest & R & G & E & L).
  exists xs, rest. split; [|auto]. intros ys. split; [intros R'; symmetry; exact (runs_fun _ _ _ _ R _ R')|intros ->; exact R].
Qed.
Lemma flat_bits_inj k xs : (0 < k)%nat -> forall ys r r', Forall (fun x => x < 2 ^ N.of_nat k) xs -> Forall (fun x => x < 2 ^ N.of_nat k) ys ->
  (length r < k)%nat -> (length r' < k)%nat -> flat_map (bits_of k) xs ++ r = flat_map (bits_of k) ys ++ r' -> xs = ys.
Proof.
  intros Hk. induction xs as [|x xs IH]; intros [|y ys] r r' F G L L' E; cbn [flat_map] in E.
  - reflexivity.
  - exfalso. apply (f_equal (@length bool)) in E. rewrite !app_length, bits_of_length in E. cbn [app length] in E. lia.
  - exfalso. apply (f_equal (@length bool)) in E. rewrite !app_length, bits_of_length in E. cbn [app length] in E. lia.
  - rewrite <- !app_assoc in E. inversion F as [|? ? Hx F']; inversion G as [|? ? Hy G']; subst.
    assert (A : bits_of k x = bits_of k y). { apply (f_equal (firstn k)) in E. rewrite !firstn_app, !firstn_all2, !bits_of_length, !Nat.sub_diag, !firstn_O, !app_nil_r in E by (rewrite bits_of_length; lia). rewrite (firstn_all2 (bits_of k y)) in E by (rewrite bits_of_length; lia). exact E. }
    rewrite A in E. apply app_inv_head in E. apply (f_equal val_of_bits) in A. rewrite !val_of_bits_bits_of, !N.mod_small in A by assumption.
    rewrite A. f_equal. exact (IH ys r r' F' G' L L' E).
Qed.
(** What is written in items of 8 to 16 bits is read back. *)
Lemma c116_round_trip : forall (size : N) (xs : list N), 8 <= size <= 16 -> Forall (fun x => x < 2 ^ size) xs ->
  exists w l, push_all bw_new (map (pair size) xs) = Ok w /\ bw_into_bytes w = Ok l /\ runs 8 size (BitIter l 0 0) xs.
Proof.
  intros size xs Hz F. destruct (c116_bits_written (map (pair size) xs)) as (w & l & k & E & _ & El & Hl & Hb & Hk).
  { apply Forall_map. eapply Forall_impl; [|exact F]. cbn [fst]. intros. lia. }
  exists w, l. split; [exact E|]. split; [exact El|].
  destruct (c116_bits_read 8 size l) as (ys & rest & R & G & Eb & Lr); [lia|lia|exact Hl|]. apply R. symmetry.
  change (flat_map (bits_of (N.to_nat 8)) l) with (bits_of_bytes l) in Eb. rewrite Hb in Eb.
  rewrite flat_map_concat_map, map_map in Eb. cbn [fst snd] in Eb. rewrite <- flat_map_concat_map in Eb.
  symmetry. refine (flat_bits_inj (N.to_nat size) xs _ ys _ rest _ _ _ _ Eb); [lia|rewrite N2Nat.id; exact F|rewrite N2Nat.id; exact G|rewrite repeat_length; lia|unfold len in Lr; lia].
Qed.
(** Both limits are sharp: items of 26 bits lose a bit in the writer, items of 17 bits in the reader. *)
Example c116_example : push_all bw_new [(3, 5); (12, 0xABC)] = Ok (BitWriter 7 0x78000000 [0xB5])
  /\ (exists w, push_all bw_new [(7, 0); (26, 1)] = Ok w /\ bw_into_bytes w = Ok [0; 0; 0; 0; 0])
  /\ (exists it, next 8 17 (BitIter [0x80; 0; 0] 0 0) = Ok (Some (0, it))) /\ 2 ^ 16 < 2 ^ 17.
Proof.
  repeat split; eexists; repeat split.
Qed.

(** ** C117 *)
Lemma c117_white_space : forall c : N, is_whitespace c = true <-> In c white_space.
Proof.
  intros c. unfold is_whitespace, white_space. cbn [In]. lia.
Qed.
Lemma separated_iff s ws : separated s ws <-> split_whitespace s = ws.
Proof.
  split.
  - induction 1 as [|c s ws Hc H IH|w s ws Hn Hw Hs H IH]; [reflexivity| |].
    + change (c :: s) with ([c] ++ s). apply c117_white_space in Hc. rewrite split_whitespace_pre by (cbn; rewrite Hc; reflexivity). exact IH.
    + rewrite split_whitespace_word; [rewrite IH; reflexivity|exact Hn| |].
      * unfold no_white. apply forallb_forall. intros c Hc. destruct (is_whitespace c) eqn:E; [|reflexivity]. apply c117_white_space in E. destruct (Hw c Hc E).
      * destruct Hs as [->|(c & r & -> & Hc)]; [left; reflexivity|right]. exists c, r. split; [reflexivity|]. apply c117_white_space, Hc.
  - intros <-. assert (G : forall ws s, laid_out s ws -> separated s ws).
    { clear. assert (P : forall pre s ws, forallb is_whitespace pre = true -> separated s ws -> separated (pre ++ s) ws).
      { induction pre as [|c pre IH]; intros s ws Hp H; [exact H|]. cbn [forallb] in Hp. apply andb_true_iff in Hp.
        apply sep_white; [apply c117_white_space, Hp|apply IH; [apply Hp|exact H]]. }
      induction ws as [|w ws IH]; intros s H; cbn [laid_out] in H.
      - rewrite <- (app_nil_r s). apply P; [exact H|constructor].
      - destruct H as (pre & rest & -> & Hp & Hn & Hw & Hr & Hl). apply P; [exact Hp|]. apply sep_word; [exact Hn| | |apply IH, Hl].
        + intros c Hc W. apply c117_white_space in W. rewrite forallb_forall in Hw. specialize (Hw c Hc). rewrite W in Hw. discriminate Hw.
        + destruct Hr as [->|(c & r & -> & Hc)]; [left; reflexivity|right]. exists c, r. split; [reflexivity|apply c117_white_space, Hc]. }
    apply G, laid_out_split.
Qed.
Lemma c117_words : forall s : str, exists! ws, separated s ws.
Proof.
  intros s. exists (split_whitespace s). split; [apply separated_iff; reflexivity|]. intros ws H. apply separated_iff, H.
Qed.
(** What from_phrase accepts, with all notions from the standards. *)
Lemma c117_from_phrase : forall (s : str) (lang : language) (m : mnemonic),
  from_phrase s lang = Ok m <->
  exists ws ws', separated s ws /\ Forall2 is_nfkd ws ws' /\ bip39_sentence lang ws' (m_entropy m)
    /\ m_phrase m = spaced ws' /\ m_lang m = lang.
Proof.
  intros s lang m. rewrite c04_from_phrase_accepts_sentences. split.
  - intros (S & P & L). exists (split_whitespace s), (map nfkd (split_whitespace s)). split; [apply separated_iff; reflexivity|].
    split; [apply nfkd_words; reflexivity|]. auto.
  - intros (ws & ws' & H & F & S & P & L). apply separated_iff in H. apply nfkd_words in F. subst ws ws'. auto.
Qed.
Example c117_example : separated (lit "zoo" ++ [0x3000; 0x85] ++ lit "abandon" ++ [0xA0]) [lit "zoo"; lit "abandon"]
  /\ ~ In 0x200B white_space /\ ~ In 0xFEFF white_space.
Proof.
  split; [apply separated_iff; reflexivity|]. split; intros H; cbn in H; repeat destruct H as [H|H]; try discriminate H; exact H.
Qed.

(** ** C118 *)
Lemma nth_map_seq (g : nat -> N) i n : (i < n)%nat -> nth i (map g (seq 0 n)) 0 = g i.
Proof. intros H. rewrite nth_indep with (d' := g O) by (rewrite map_length, seq_length; exact H). rewrite map_nth, seq_nth by exact H. reflexivity. Qed.
Lemma map_nth_seq (l : list N) : map (fun i => nth i l 0) (seq 0 (length l)) = l.
Proof.
  apply nth_ext with (d := 0) (d' := 0); [rewrite map_length, seq_length; reflexivity|]. rewrite map_length, seq_length. intros i Hi.
  apply (nth_map_seq (fun i => nth i l 0)), Hi.
Qed.
(** Every mnemonic of the language and length can be generated, each from one choice of random bytes only. *)
Lemma c118_generation_is_uniform : forall (t : mnemonic_type) (lang : language),
  (forall m : mnemonic, constructible m -> m_lang m = lang -> len (split_char 32 (m_phrase m)) = word_count t ->
     exists rng, (forall i, rng i < 256) /\ mnemonic_new t lang rng = Ok m)
  /\ (forall rng rng' : nat -> N, (forall i, rng i < 256) -> (forall i, rng' i < 256) ->
     (mnemonic_new t lang rng = mnemonic_new t lang rng' <-> forall i, N.of_nat i < entropy_bits t / 8 -> rng i = rng' i)).
Proof.
  intros t lang. split.
  - intros m C L W. pose proof C as C'. apply constructible_sentence in C'. destruct C' as (ws & Hp & Hs).
    assert (Hl : length (m_entropy m) = N.to_nat (entropy_bits t / 8)).
    { rewrite Hp, (sentence_split _ _ _ Hs) in W. destruct Hs as (_ & Hle & He). apply legal_entropy_c in Hle. destruct Hle as (c & Hc & Hlen).
      rewrite Hlen. apply encodes_length in He. unfold with_checksum in He. rewrite app_length, bits_of_bytes_length, checksum_of_length, (cs_bits_c _ c Hlen), Hlen in He by (apply legal_entropy_c; eauto).
      rewrite mt_word_count in W. unfold len in W. rewrite mt_entropy_bits. assert (c = mt_c t) by lia. subst c.
      replace (N.of_nat (32 * mt_c t) / 8) with (N.of_nat (4 * mt_c t)) by (apply N.div_unique with 0; lia). lia. }
    exists (fun i => nth i (m_entropy m) 0). destruct Hs as (Ho & _).
    assert (R : forall i, nth i (m_entropy m) 0 < 256).
    { intros i. destruct (Nat.lt_ge_cases i (length (m_entropy m))) as [H|H]; [|rewrite nth_overflow by exact H; reflexivity].
      unfold bytes_ok in Ho. rewrite Forall_forall in Ho. apply Ho, nth_In, H. }
    split; [exact R|]. destruct (c07_new_is_valid t lang (fun i => nth i (m_entropy m) 0) R) as (m' & -> & He & _ & _ & _ & Hf & _). apply (f_equal Ok).
    rewrite <- Hl, map_nth_seq in He. apply c02_phrase_entropy_phrase in Hf. destruct Hf as [F' _]. rewrite He in F'.
    destruct (c27_phrase_kept m C) as (_ & _ & F). rewrite L in F. apply c02_phrase_entropy_phrase in F. destruct F as [F _]. rewrite F in F'.
    symmetry. exact (ok_inj _ _ F').
  - intros rng rng' R R'. destruct (c07_new_is_valid t lang rng R) as (m & E & He & _ & _ & _ & Hf & _).
    destruct (c07_new_is_valid t lang rng' R') as (m' & E' & He' & _ & _ & _ & Hf' & _). rewrite E, E'. split.
    + intros X i Hi. apply ok_inj in X. subst m'. rewrite He in He'. apply (f_equal (fun l => nth i l 0)) in He'.
      rewrite !(nth_map_seq _ i) in He' by lia. exact He'.
    + intros X. apply (f_equal Ok). assert (Y : m_entropy m = m_entropy m').
      { rewrite He, He'. apply map_ext_in. intros i Hi. apply in_seq in Hi. apply X. lia. }
      apply c02_phrase_entropy_phrase in Hf, Hf'. destruct Hf as [F _], Hf' as [F' _]. rewrite Y, F' in F. symmetry. exact (ok_inj _ _ F).
Qed.
Example c118_example : constructible ex_mnemonic /\ m_lang ex_mnemonic = English /\ len (split_char 32 (m_phrase ex_mnemonic)) = word_count Words12.
Proof.
  split; [exact c27_example|]. split; reflexivity.
Qed.

(** ** C119 *)
(** An unknown word and a wrong number of words are always noticed, by from_phrase and by validate. *)
Lemma c119_noticed_partial : forall (s : str) (lang : language) (m : mnemonic),
  let ws := map nfkd (split_whitespace s) in
  ~ all_in_list lang ws \/ ~ legal_count (length ws) -> from_phrase s lang <> Ok m /\ validate s lang <> Ok tt.
Proof.
  intros s lang m ws H. assert (N : forall m, from_phrase s lang <> Ok m).
  { intros m' E. pose proof (c13_error_order_from_phrase s lang) as X. cbv zeta in X. fold ws in X. rewrite E in X. destruct X as (A & B & _). tauto. }
  split; [apply N|]. intros V. apply c11_validate_agrees in V. destruct V as (m' & E & _). exact (N m' E).
Qed.
(** For every phrase there is a wrong last word that goes unnoticed. *)
Lemma c119_wrong_last_word : forall m : mnemonic, constructible m ->
  exists ws w w' m', m_phrase m = spaced (ws ++ [w]) /\ w' <> w /\ from_phrase (spaced (ws ++ [w'])) (m_lang m) = Ok m' /\ m' <> m.
Proof.
  intros m C. pose proof C as C'. apply constructible_sentence in C'. destruct C' as (vs & Hp & Hs).
  destruct (exists_last (sentence_nonempty _ _ _ Hs)) as (ws & w & ->).
  assert (Hall : forall v, In v (ws ++ [w]) -> In v (bip39_list (m_lang m))) by (intros v Hv; rewrite bip39_list_words; eapply sentence_words; eassumption).
  assert (Hc : legal_count (length ws + 1)).
  { pose proof (c13_error_order_from_phrase (m_phrase m) (m_lang m)) as X. cbv zeta in X. rewrite (proj2 (proj2 (c27_phrase_kept m C))) in X.
    destruct X as (_ & X & _). fold (norm_words (m_phrase m)) in X. rewrite Hp, (norm_words_sentence (m_lang m)) in X by (intros v Hv; eapply sentence_words; eassumption).
    rewrite app_length in X. exact X. }
  pose proof (c72_last_words (m_lang m) ws) as L. set (good := filter (fun v => is_ok (from_phrase (spaced (ws ++ [v])) (m_lang m))) (bip39_list (m_lang m))) in L.
  assert (L2 : (2 <= length good)%nat).
  { rewrite L; [|intros v Hv; apply Hall, in_app_iff; left; exact Hv|exact Hc]. unfold legal_count in Hc. cbn [In] in Hc.
    destruct Hc as [E|[E|[E|[E|[E|[]]]]]]; rewrite <- E; cbn; lia. }
  assert (D : NoDup good) by (apply NoDup_filter; rewrite bip39_list_words; apply words_nodup).
  assert (X : exists v, In v good /\ v <> w).
  { destruct good as [|a [|b l]]; [cbn in L2; lia|cbn in L2; lia|]. inversion D as [|? ? Na _]; subst.
    destruct (list_eq_dec N.eq_dec a w) as [E|E]; [|exists a; split; [left; reflexivity|exact E]].
    exists b. split; [right; left; reflexivity|]. intros E'. apply Na. left. congruence. }
  destruct X as (v & Hv & Nv). apply filter_In in Hv. destruct Hv as [Hin Hok].
  destruct (from_phrase (spaced (ws ++ [v])) (m_lang m)) as [m'|e|] eqn:E; [|discriminate Hok..].
  exists ws, w, v, m'. split; [exact Hp|]. split; [exact Nv|]. split; [exact E|]. intros ->.
  apply from_phrase_ok in E. destruct E as (_ & P & _). rewrite (norm_words_sentence (m_lang m)) in P.
  - rewrite Hp in P. apply spaced_inj in P; [|apply forallb_forall; intros u Hu|apply forallb_forall; intros u Hu|intros Z; apply app_eq_nil in Z; destruct Z as [_ Z]; discriminate Z..].
    + apply app_inj_tail in P. destruct P as [_ P]. congruence.
    + eapply words_no_space. rewrite <- bip39_list_words. apply Hall, Hu.
    + eapply words_no_space. rewrite <- bip39_list_words. apply in_app_iff in Hu. destruct Hu as [Hu|[<-|[]]]; [apply Hall, in_app_iff; left; exact Hu|exact Hin].
  - intros u Hu. rewrite <- bip39_list_words. apply in_app_iff in Hu. destruct Hu as [Hu|[<-|[]]]; [apply Hall, in_app_iff; left; exact Hu|exact Hin].
Qed.
(** Two words exchanged, in the phrase of the documentation of the crate. *)
Lemma c119_exchanged_words_refuted : exists ws a vs b us m m', a <> b
  /\ from_phrase (spaced (ws ++ [a] ++ vs ++ [b] ++ us)) English = Ok m
  /\ from_phrase (spaced (ws ++ [b] ++ vs ++ [a] ++ us)) English = Ok m' /\ m <> m'.
Proof.
  exists [lit "crop"; lit "cash"], (lit "unable"), [lit "insane"], (lit "eight"),
    [lit "faith"; lit "inflict"; lit "route"; lit "frame"; lit "loud"; lit "box"; lit "vibrant"].
  assert (X : exists m', from_phrase (lit "crop cash eight insane unable faith inflict route frame loud box vibrant") English = Ok m' /\ m_entropy m' <> ex_entropy).
  { eexists. split; [vm_compute; reflexivity|]. vm_compute. discriminate. }
  destruct X as (m' & E & N). exists ex_mnemonic, m'. split; [vm_compute; discriminate|]. split; [exact ex_from_phrase|]. split; [exact E|].
  intros X. apply N. rewrite <- X. reflexivity.
Qed.
Example c119_example : from_phrase (lit "crop cash unable insane eight faith inflict route frame loud box") English = Err (InvalidWordLength 11)
  /\ from_phrase (lit "crop cash unable insane eight faith inflict route frame loud box vibrent") English = Err InvalidWord
  /\ from_phrase (lit "cash crop unable insane eight faith inflict route frame loud box vibrant") English = Err InvalidChecksum.
Proof.
  split; [|split]; vm_compute; reflexivity.
Qed.
