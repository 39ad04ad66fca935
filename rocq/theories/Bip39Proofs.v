(** The BIP39 functions of the model compute what the specification says. *)
From Coq Require Import String ZifyBool ZifyNat ZifyN.
From Verif Require Import Outcome Bytes Str Hash Nfkd ModelBip39 SpecBip39 WordData NfkdLemmas StrLemmas
  BitLemmas HashLemmas WordLemmas.
Open Scope N_scope.

(** ** Mnemonic types *)
Lemma for_word_count_if n : for_word_count n =
  if n =? 12 then Ok Words12 else if n =? 15 then Ok Words15 else if n =? 18 then Ok Words18
  else if n =? 21 then Ok Words21 else if n =? 24 then Ok Words24 else Err (InvalidWordLength n).
Proof.
  destruct n as [|p]; [reflexivity|].
  do 5 (try (destruct p as [p|p|]; try reflexivity)).
Qed.
Lemma for_key_size_if n : for_key_size n =
  if n =? 128 then Ok Words12 else if n =? 160 then Ok Words15 else if n =? 192 then Ok Words18
  else if n =? 224 then Ok Words21 else if n =? 256 then Ok Words24 else Err (InvalidKeysize n).
Proof.
  destruct n as [|p]; [reflexivity|].
  do 9 (try (destruct p as [p|p|]; try reflexivity)).
Qed.

(** Every type is determined by its number of checksum bits, 4 to 8. *)
Definition mt_c (t : mnemonic_type) : nat :=
  match t with Words12 => 4 | Words15 => 5 | Words18 => 6 | Words21 => 7 | Words24 => 8 end.
Lemma mt_c_range t : (4 <= mt_c t <= 8)%nat.
Proof. destruct t; cbn; lia. Qed.
Lemma mt_entropy_bits t : entropy_bits t = N.of_nat (32 * mt_c t).
Proof. destruct t; reflexivity. Qed.
Lemma mt_checksum_bits t : checksum_bits t = N.of_nat (mt_c t).
Proof. destruct t; reflexivity. Qed.
Lemma mt_total_bits t : total_bits t = N.of_nat (33 * mt_c t).
Proof. destruct t; reflexivity. Qed.
Lemma mt_word_count t : word_count t = N.of_nat (3 * mt_c t).
Proof. destruct t; reflexivity. Qed.
Lemma mt_of_c c : (4 <= c <= 8)%nat -> exists t, mt_c t = c.
Proof.
  intros H. assert (E : c = 4%nat \/ c = 5%nat \/ c = 6%nat \/ c = 7%nat \/ c = 8%nat) by lia.
  destruct E as [->|[->|[->|[->| ->]]]]; [exists Words12|exists Words15|exists Words18|exists Words21|exists Words24]; reflexivity.
Qed.

Lemma for_word_count_ok n t : for_word_count n = Ok t <-> n = N.of_nat (3 * mt_c t).
Proof.
  rewrite for_word_count_if. destruct t; cbn [mt_c Nat.mul Nat.add];
  repeat match goal with |- context [?a =? ?b] => destruct (N.eqb_spec a b) end;
  split; intros H; try discriminate; subst; try reflexivity; lia.
Qed.
Lemma for_key_size_ok n t : for_key_size n = Ok t <-> n = N.of_nat (32 * mt_c t).
Proof.
  rewrite for_key_size_if. destruct t; cbn [mt_c]; 
  repeat match goal with |- context [?a =? ?b] => destruct (N.eqb_spec a b) end;
  split; intros H; try discriminate; subst; try reflexivity; lia.
Qed.
Lemma for_word_count_err n : (forall t, n <> N.of_nat (3 * mt_c t)) -> for_word_count n = Err (InvalidWordLength n).
Proof.
  intros H. rewrite for_word_count_if.
  repeat match goal with |- context [?a =? ?b] => destruct (N.eqb_spec a b) end; try reflexivity; exfalso; subst.
  - apply (H Words12); reflexivity.
  - apply (H Words15); reflexivity.
  - apply (H Words18); reflexivity.
  - apply (H Words21); reflexivity.
  - apply (H Words24); reflexivity.
Qed.
Lemma for_key_size_err n : (forall t, n <> N.of_nat (32 * mt_c t)) -> for_key_size n = Err (InvalidKeysize n).
Proof.
  intros H. rewrite for_key_size_if.
  repeat match goal with |- context [?a =? ?b] => destruct (N.eqb_spec a b) end; try reflexivity; exfalso; subst.
  - apply (H Words12); reflexivity.
  - apply (H Words15); reflexivity.
  - apply (H Words18); reflexivity.
  - apply (H Words21); reflexivity.
  - apply (H Words24); reflexivity.
Qed.

(** ** Legal sizes *)
Lemma legal_entropy_c ent : legal_entropy ent <->
  exists c, (4 <= c <= 8)%nat /\ length ent = (4 * c)%nat.
Proof.
  unfold legal_entropy. cbn [In]. split.
  - intros H. exists (length ent / 4)%nat.
    destruct H as [H|[H|[H|[H|[H|[]]]]]]; rewrite <- H; cbn; lia.
  - intros (c & Hc & ->). lia.
Qed.
Lemma cs_bits_c ent c : length ent = (4 * c)%nat -> cs_bits ent = c.
Proof. intros H. unfold cs_bits. rewrite H. symmetry. apply Nat.div_unique with 0%nat; lia. Qed.
Lemma ms_words_c ent c : length ent = (4 * c)%nat -> ms_words ent = (3 * c)%nat.
Proof. intros H. unfold ms_words. rewrite (cs_bits_c ent c H), H. symmetry. apply Nat.div_unique with 0%nat; lia. Qed.
Lemma legal_count_c n : legal_count n <-> exists c, (4 <= c <= 8)%nat /\ n = (3 * c)%nat.
Proof.
  unfold legal_count. cbn [In]. split.
  - intros H. exists (n / 3)%nat.
    destruct H as [H|[H|[H|[H|[H|[]]]]]]; subst n; cbn; lia.
  - intros (c & Hc & ->). lia.
Qed.

Lemma checksum_of_length ent : legal_entropy ent -> length (checksum_of ent) = cs_bits ent.
Proof.
  rewrite legal_entropy_c. intros (c & Hc & Hl). unfold checksum_of.
  rewrite firstn_length, bits_of_bytes_length, sha256_length, (cs_bits_c ent c Hl). lia.
Qed.

(** Bits of entropy plus [cs]: the entropy is determined. *)
Lemma entropy_bits_inj e1 e2 cs1 cs2 :
  bytes_ok e1 -> bytes_ok e2 -> legal_entropy e1 -> legal_entropy e2 ->
  length cs1 = cs_bits e1 -> length cs2 = cs_bits e2 ->
  bits_of_bytes e1 ++ cs1 = bits_of_bytes e2 ++ cs2 -> e1 = e2 /\ cs1 = cs2.
Proof.
  intros H1 H2 L1 L2 C1 C2 H.
  apply legal_entropy_c in L1. destruct L1 as (c1 & Hc1 & Hl1).
  apply legal_entropy_c in L2. destruct L2 as (c2 & Hc2 & Hl2).
  rewrite (cs_bits_c e1 c1 Hl1) in C1. rewrite (cs_bits_c e2 c2 Hl2) in C2.
  assert (c1 = c2).
  { apply (f_equal (@length bool)) in H. rewrite !app_length, !bits_of_bytes_length in H. lia. }
  subst c2.
  assert (Hb : bits_of_bytes e1 = bits_of_bytes e2 /\ cs1 = cs2).
  { apply app_inj_tail_iff || idtac.
    assert (Hlen : length (bits_of_bytes e1) = length (bits_of_bytes e2)).
    { rewrite !bits_of_bytes_length. lia. }
    split.
    - apply (f_equal (firstn (length (bits_of_bytes e1)))) in H.
      rewrite firstn_app, firstn_all, Nat.sub_diag, firstn_O, app_nil_r in H.
      rewrite Hlen, firstn_app, firstn_all, Nat.sub_diag, firstn_O, app_nil_r in H. exact H.
    - apply (f_equal (skipn (length (bits_of_bytes e1)))) in H.
      rewrite skipn_app, skipn_all, Nat.sub_diag, skipn_O in H.
      rewrite Hlen, skipn_app, skipn_all, Nat.sub_diag, skipn_O in H. exact H. }
  destruct Hb as [Hb Hc]. split; [|exact Hc]. apply bits_of_bytes_inj; assumption.
Qed.

(** ** Encoding relation *)
Lemma Forall2_length {A B} (R : A -> B -> Prop) l1 l2 : Forall2 R l1 l2 -> length l1 = length l2.
Proof. induction 1; cbn; congruence. Qed.

Lemma encodes_fun l ws b1 b2 : encodes l ws b1 -> encodes l ws b2 -> b1 = b2.
Proof.
  intros (i1 & F1 & _ & <-) (i2 & F2 & _ & <-). f_equal. eapply forall2_is_word_inj; eassumption.
Qed.
Lemma encodes_in l ws b w : encodes l ws b -> In w ws -> In w (words l).
Proof. intros (idx & F & _) H. eapply forall2_is_word_in; eassumption. Qed.
Lemma encodes_length l ws b : encodes l ws b -> length b = (11 * length ws)%nat.
Proof.
  intros (idx & F & _ & <-). rewrite flat_map_bits_length. f_equal. eapply Forall2_length; eassumption.
Qed.
Lemma encodes_total l b n : length b = (11 * n)%nat -> exists ws, encodes l ws b.
Proof.
  intros H. destruct (groups_decompose n b H) as (H1 & _ & H3).
  destruct (get_words_total l _ H3) as (ws & Hws). exists ws. exists (map val_of_bits (groups b)). auto.
Qed.
Lemma encodes_words_fun l ws vs b : encodes l ws b -> encodes l vs b -> ws = vs.
Proof.
  intros (i1 & F1 & B1 & H1) (i2 & F2 & B2 & H2).
  assert (i1 = i2).
  { assert (G : map val_of_bits (groups (flat_map (bits_of 11) i1)) = map val_of_bits (groups (flat_map (bits_of 11) i2))) by congruence.
    assert (E : forall idx, Forall (fun i => i < 2048) idx -> map val_of_bits (groups (flat_map (bits_of 11) idx)) = idx).
    { intros idx Hidx. rewrite <- (app_nil_r (flat_map _ _)), groups_concat by (cbn; lia).
      rewrite map_map. rewrite <- (map_id idx) at 2. apply map_ext_in. intros i Hi.
      rewrite val_of_bits_bits_of. apply N.mod_small. rewrite Forall_forall in Hidx. apply Hidx, Hi. }
    rewrite !E in G by assumption. exact G. }
  subst i2. eapply forall2_is_word_fun; eassumption.
Qed.
Lemma encodes_dec l ws : (forall w, In w ws -> In w (words l)) -> exists b, encodes l ws b.
Proof.
  intros H. destruct (all_words_indices l ws H) as (idx & F). exists (flat_map (bits_of 11) idx), idx.
  split; [exact F|]. split; [eapply forall2_is_word_lt, F|reflexivity].
Qed.

Lemma encodes_legal_count l ws ent cs : legal_entropy ent -> length cs = cs_bits ent ->
  encodes l ws (bits_of_bytes ent ++ cs) -> length ws = ms_words ent /\ legal_count (length ws).
Proof.
  intros L C He. apply encodes_length in He. rewrite app_length, bits_of_bytes_length in He.
  apply legal_entropy_c in L. destruct L as (c & Hc & Hl).
  rewrite (cs_bits_c ent c Hl) in C. rewrite (ms_words_c ent c Hl).
  assert (length ws = 3 * c)%nat by lia. split; [assumption|]. apply legal_count_c. eauto.
Qed.

Lemma sentence_parts l ws ent : bip39_sentence l ws ent ->
  bytes_ok ent /\ legal_entropy ent /\ length (checksum_of ent) = cs_bits ent /\ encodes l ws (bits_of_bytes ent ++ checksum_of ent).
Proof. intros (H1 & H2 & H3). repeat split; auto. apply checksum_of_length, H2. Qed.

(** The specification determines the outcome. *)
Lemma spec_outcome_fun l ws r1 r2 : spec_outcome l ws r1 -> spec_outcome l ws r2 -> r1 = r2.
Proof.
  assert (Hbad : forall w b, In w ws -> ~ In w (bip39_list l) -> encodes l ws b -> False).
  { intros w b Hw Hn He. apply Hn. rewrite bip39_list_words. eapply encodes_in; eassumption. }
  assert (Hcnt : forall ent cs, ~ legal_count (length ws) -> legal_entropy ent -> length cs = cs_bits ent ->
                   encodes l ws (bits_of_bytes ent ++ cs) -> False).
  { intros ent cs Hn HL HC He. apply Hn. eapply encodes_legal_count; eassumption. }
  intros H1 H2.
  destruct H1 as [w Hw Hn|Ha Hc|ent cs HO HL HC HE HN|ent HS];
  destruct H2 as [w' Hw' Hn'|Ha' Hc'|ent' cs' HO' HL' HC' HE' HN'|ent' HS'];
  try reflexivity;
  repeat match goal with H : bip39_sentence _ _ _ |- _ => apply sentence_parts in H; destruct H as (? & ? & ? & ?) end;
  try (exfalso; eauto; fail).
  - exfalso. assert (E : bits_of_bytes ent ++ cs = bits_of_bytes ent' ++ checksum_of ent') by (eapply encodes_fun; eassumption).
    destruct (entropy_bits_inj ent ent' cs (checksum_of ent')) as [<- ->]; auto.
  - exfalso. assert (E : bits_of_bytes ent ++ checksum_of ent = bits_of_bytes ent' ++ cs') by (eapply encodes_fun; eassumption).
    destruct (entropy_bits_inj ent ent' (checksum_of ent) cs') as [<- <-]; auto.
  - f_equal. assert (E : bits_of_bytes ent ++ checksum_of ent = bits_of_bytes ent' ++ checksum_of ent') by (eapply encodes_fun; eassumption).
    destruct (entropy_bits_inj ent ent' (checksum_of ent) (checksum_of ent')) as [<- _]; auto.
Qed.

(** ** Checksums *)
Lemma shiftr_firstn_bits x c : x < 256 -> (c <= 8)%nat ->
  N.shiftr x (8 - N.of_nat c) = val_of_bits (firstn c (bits_of 8 x)).
Proof.
  intros Hx Hc.
  assert (E : x = val_of_bits (firstn c (bits_of 8 x) ++ skipn c (bits_of 8 x))).
  { rewrite firstn_skipn, val_of_bits_bits_of. symmetry. apply N.mod_small, Hx. }
  rewrite E at 1. rewrite val_of_bits_app, N.shiftr_div_pow2.
  unfold len. rewrite skipn_length, bits_of_length.
  replace (8 - N.of_nat c) with (N.of_nat (8 - c)) by lia.
  rewrite N.add_comm, N.div_add by apply pow2_nz. rewrite N.div_small; [lia|].
  pose proof (val_of_bits_lt (skipn c (bits_of 8 x))) as H. unfold len in H.
  rewrite skipn_length, bits_of_length in H. exact H.
Qed.
Lemma checksum_spec x c : x < 256 -> (1 <= c <= 8)%nat ->
  checksum x (N.of_nat c) = Ok (val_of_bits (firstn c (bits_of 8 x))).
Proof.
  intros Hx Hc. unfold checksum. replace (N.of_nat c <=? 8) with true by lia.
  unfold sub_chk. replace (N.of_nat c <=? 8) with true by lia. cbn [bind].
  unfold shr_chk. replace (8 - N.of_nat c <? 8) with true by lia.
  rewrite shiftr_firstn_bits by lia. reflexivity.
Qed.

Lemma checksum_of_head ent c h t : length ent = (4 * c)%nat -> (c <= 8)%nat -> sha256 ent = h :: t ->
  checksum_of ent = firstn c (bits_of 8 h).
Proof.
  intros Hl Hc Hs. unfold checksum_of. rewrite (cs_bits_c ent c Hl), Hs.
  change (bits_of_bytes (h :: t)) with (bits_of 8 h ++ bits_of_bytes t).
  rewrite firstn_app, bits_of_length. replace (c - 8)%nat with 0%nat by lia. rewrite firstn_O, app_nil_r. reflexivity.
Qed.

(** ** Phrase to entropy *)
Lemma phrase_to_entropy_spec phrase l : spec_outcome l (split_char 32 phrase) (phrase_to_entropy phrase l).
Proof.
  unfold phrase_to_entropy. set (ws := split_char 32 phrase).
  assert (Hdec : (exists w, In w ws /\ ~ In w (words l)) \/ (forall w, In w ws -> In w (words l))).
  { clearbody ws. induction ws as [|w ws IH]; [right; intros w []|].
    destruct (in_words_dec l w) as [Hw|Hw]; [|left; exists w; cbn; auto].
    destruct IH as [(v & Hv & Hn)|IH]; [left; exists v; cbn; auto|].
    right. intros v [<-|Hv]; auto. }
  destruct Hdec as [(w & Hw & Hn)|Hall].
  { rewrite (push_words_err l ws w [] bw_new Hw Hn bw_holds_new). cbn [bind].
    apply spec_bad_word with w; [exact Hw|]. rewrite bip39_list_words. exact Hn. }
  destruct (all_words_indices l ws Hall) as (idx & F).
  destruct (push_words_ok l idx ws [] bw_new F bw_holds_new) as (bw & -> & Hbw). cbn [bind app] in *.
  rewrite (bw_len_holds _ _ Hbw). unfold len at 1 2. rewrite flat_map_bits_length.
  assert (Hli : length idx = length ws) by (eapply Forall2_length; eassumption).
  rewrite Hli.
  replace (N.of_nat (11 * length ws) / 11) with (N.of_nat (length ws)).
  2:{ apply N.div_unique with 0; lia. }
  destruct (in_dec Nat.eq_dec (length ws) [12; 15; 18; 21; 24]%nat) as [Hc|Hc].
  2:{ rewrite for_word_count_err; cbn [bind].
      - apply spec_bad_count; [|exact Hc]. intros w Hw. rewrite bip39_list_words. apply Hall, Hw.
      - intros t Ht. apply Hc. apply legal_count_c. exists (mt_c t). split; [apply mt_c_range|lia]. }
  apply legal_count_c in Hc. destruct Hc as (c & Hc & Hws).
  destruct (mt_of_c c Hc) as (t & Ht).
  rewrite (proj2 (for_word_count_ok (N.of_nat (length ws)) t)) by (rewrite Ht; lia). cbn [bind].
  rewrite mt_total_bits, mt_entropy_bits, mt_checksum_bits, Ht.
  replace (N.of_nat (11 * length ws) =? N.of_nat (33 * c)) with true by lia. cbn [bind].
  destruct (bw_into_bytes_holds _ _ Hbw) as (lb & pad & -> & Hok & Hbits & Hpad). cbn [bind].
  replace (N.of_nat (32 * c) / 8) with (N.of_nat (4 * c)) by (apply N.div_unique with 0; lia).
  assert (Hlen : length lb = (4 * c + 1)%nat).
  { apply (f_equal (@length bool)) in Hbits.
    rewrite app_length, bits_of_bytes_length, flat_map_bits_length in Hbits. lia. }
  set (ent := firstn (4 * c) lb).
  assert (Hent : length ent = (4 * c)%nat) by (unfold ent; rewrite firstn_length; lia).
  assert (Hsp : exists last, lb = ent ++ [last]).
  { assert (Hs : length (skipn (4 * c) lb) = 1%nat) by (rewrite skipn_length; lia).
    destruct (skipn (4 * c) lb) as [|x [|]] eqn:E; try discriminate.
    exists x. rewrite <- E. symmetry. apply firstn_skipn. }
  destruct Hsp as (last & Hlb).
  assert (Hidx : index (E := error_kind) lb (N.of_nat (4 * c)) = Ok last).
  { unfold index. rewrite Nat2N.id, Hlb, nth_error_app2 by lia. rewrite Hent, Nat.sub_diag. reflexivity. }
  rewrite Hidx. cbn [bind]. rewrite Nat2N.id. fold ent.
  rewrite Hlb in Hok. apply bytes_ok_app in Hok. destruct Hok as [Hoke Hokl].
  inversion Hokl as [|? ? Hlast _]; subst x l0. unfold byte_ok in Hlast.
  rewrite checksum_spec by (assumption || lia). cbn [bind].
  destruct (sha256_cons ent) as (h & tl & Hsha & Hh). unfold sha256_first_byte. rewrite Hsha.
  unfold index at 1. cbn [N.to_nat nth_error or_panic bind].
  rewrite checksum_spec by (assumption || lia). cbn [bind].
  assert (Hcs : checksum_of ent = firstn c (bits_of 8 h)).
  { eapply checksum_of_head; [exact Hent|lia|exact Hsha]. }
  assert (Henc : encodes l ws (bits_of_bytes ent ++ firstn c (bits_of 8 last))).
  { exists idx. split; [exact F|]. split; [eapply forall2_is_word_lt, F|].
    rewrite Hlb, bits_of_bytes_app in Hbits. unfold bits_of_bytes at 2 in Hbits. cbn [flat_map] in Hbits.
    rewrite app_nil_r in Hbits.
    apply (f_equal (firstn (33 * c))) in Hbits.
    rewrite firstn_app, bits_of_bytes_length, firstn_all2 in Hbits by (rewrite bits_of_bytes_length; lia).
    replace (33 * c - 8 * length ent)%nat with c in Hbits by lia.
    rewrite firstn_app, flat_map_bits_length, (firstn_all2 (flat_map (bits_of 11) idx)) in Hbits by (rewrite flat_map_bits_length; lia).
    replace (33 * c - 11 * length idx)%nat with 0%nat in Hbits by lia.
    rewrite firstn_O, app_nil_r in Hbits. congruence. }
  assert (HL : legal_entropy ent) by (apply legal_entropy_c; eauto).
  destruct (N.eqb_spec (val_of_bits (firstn c (bits_of 8 last))) (val_of_bits (firstn c (bits_of 8 h)))) as [E|E].
  - apply spec_good. split; [exact Hoke|]. split; [exact HL|]. unfold with_checksum. rewrite Hcs.
    apply val_of_bits_inj in E; [rewrite <- E; exact Henc|].
    rewrite !firstn_length, !bits_of_length. reflexivity.
  - eapply spec_bad_checksum; [exact Hoke|exact HL| |exact Henc|].
    + rewrite (cs_bits_c ent c Hent), firstn_length, bits_of_length. lia.
    + rewrite Hcs. congruence.
Qed.

Lemma phrase_to_entropy_iff phrase l r :
  phrase_to_entropy phrase l = r <-> spec_outcome l (split_char 32 phrase) r.
Proof.
  split; [intros <-; apply phrase_to_entropy_spec|].
  intros H. eapply spec_outcome_fun; [apply phrase_to_entropy_spec|exact H].
Qed.

Lemma phrase_to_entropy_ok phrase l ent :
  phrase_to_entropy phrase l = Ok ent <-> bip39_sentence l (split_char 32 phrase) ent.
Proof.
  rewrite phrase_to_entropy_iff. split; intros H.
  - inversion H; assumption.
  - apply spec_good, H.
Qed.

(** ** Normalisation in from_phrase *)
Definition norm_words (s : str) : list str := map nfkd (split_whitespace s).

(** The words the code sees after splitting at single spaces again are the normalised words, or contain a
    word that is in no list. *)
Lemma norm_pieces l s : 
  let ps := split_char 32 (spaced (norm_words s)) in
  (split_whitespace s <> [] /\ ps = norm_words s)
  \/ (split_whitespace s = [] /\ ps = [[]])
  \/ (exists v w, In v ps /\ ~ In v (words l) /\ In w (norm_words s) /\ ~ In w (words l)).
Proof.
  intros ps. unfold ps, norm_words. pose proof (split_whitespace_words s) as Hw. revert Hw.
  generalize (split_whitespace s) as ws. intros ws Hw.
  destruct ws as [|u us]; [right; left; auto|]. set (ws := u :: us) in *.
  destruct (existsb (fun w => negb (no_space (nfkd w))) ws) eqn:E.
  - right; right. apply existsb_exists in E. destruct E as (w & Hin & Hns). apply negb_true_iff in Hns.
    assert (H32 : In 32 (nfkd w)).
    { unfold no_space in Hns. destruct (in_dec N.eq_dec 32 (nfkd w)) as [H|H]; [exact H|].
      exfalso. rewrite <- not_true_iff_false in Hns. apply Hns. apply forallb_forall.
      intros c Hc. destruct (N.eqb_spec 32 c) as [<-|]; [contradiction|reflexivity]. }
    rewrite Forall_forall in Hw. destruct (Hw w Hin) as [_ Hnw].
    destruct (nfkd_space w Hnw H32) as (d & Hd & Hnd).
    assert (Hsp : In d (spaced (map nfkd ws))).
    { eapply in_spaced; [apply in_map, Hin|exact Hd]. }
    destruct (split_pred_covers (N.eqb 32) (spaced (map nfkd ws)) d Hsp) as (v & Hv & Hdv).
    { unfold not_word_char in Hnd. lia. }
    exists v, (nfkd w). split; [exact Hv|]. split.
    + intros Hv'. rewrite (words_word_char l v d Hv' Hdv) in Hnd. discriminate.
    + split; [apply in_map, Hin|]. intros Hv'. rewrite (words_word_char l _ d Hv' Hd) in Hnd. discriminate.
  - left. split; [discriminate|]. apply split_char_spaced; [discriminate|].
    apply forallb_forall. intros v Hv. apply in_map_iff in Hv. destruct Hv as (w & <- & Hin).
    destruct (no_space (nfkd w)) eqn:En; [reflexivity|]. exfalso.
    rewrite <- not_true_iff_false in E. apply E. apply existsb_exists. exists w. rewrite En. auto.
Qed.

Lemma empty_not_word l : ~ In [] (words l).
Proof. intros H. exact (words_nonempty l [] H eq_refl). Qed.

(** What from_phrase does, in terms of the normalised words.  A phrase without any word gives InvalidWord. *)
Lemma from_phrase_outcome s l :
  match from_phrase s l with
  | Ok m => m_phrase m = spaced (norm_words s) /\ m_lang m = l /\ bip39_sentence l (norm_words s) (m_entropy m)
  | Err e => (split_whitespace s = [] /\ e = InvalidWord) \/ spec_outcome l (norm_words s) (Err e)
  | Panic => False
  end.
Proof.
  unfold from_phrase. rewrite iter_join_spaced. fold (norm_words s).
  pose proof (phrase_to_entropy_spec (spaced (norm_words s)) l) as H.
  destruct (norm_pieces l s) as [[Hne Hp]|[[Hne Hp]|(v & w & Hv & Hnv & Hw & Hnw)]].
  - rewrite Hp in H. destruct (phrase_to_entropy (spaced (norm_words s)) l) as [ent|e|]; cbn.
    + inversion H; subst. auto.
    + auto.
    + inversion H.
  - assert (E : phrase_to_entropy (spaced (norm_words s)) l = Err InvalidWord).
    { apply phrase_to_entropy_iff. rewrite Hp. apply spec_bad_word with []; [left; reflexivity|].
      rewrite bip39_list_words. apply empty_not_word. }
    rewrite E. cbn. auto.
  - assert (E : phrase_to_entropy (spaced (norm_words s)) l = Err InvalidWord).
    { apply phrase_to_entropy_iff. apply spec_bad_word with v; [exact Hv|]. rewrite bip39_list_words. exact Hnv. }
    rewrite E. cbn. right. apply spec_bad_word with w; [exact Hw|]. rewrite bip39_list_words. exact Hnw.
Qed.

Lemma sentence_nonempty l ws ent : bip39_sentence l ws ent -> ws <> [].
Proof.
  intros H ->. apply sentence_parts in H. destruct H as (_ & HL & HC & HE).
  destruct (encodes_legal_count _ _ _ _ HL HC HE) as [_ Hc]. cbn in Hc. unfold legal_count in Hc. cbn in Hc. lia.
Qed.
Lemma sentence_words l ws ent w : bip39_sentence l ws ent -> In w ws -> In w (words l).
Proof. intros (_ & _ & H). eapply encodes_in, H. Qed.

Lemma from_phrase_ok s l m : from_phrase s l = Ok m <->
  bip39_sentence l (norm_words s) (m_entropy m) /\ m_phrase m = spaced (norm_words s) /\ m_lang m = l.
Proof.
  pose proof (from_phrase_outcome s l) as H. split.
  - intros E. rewrite E in H. tauto.
  - intros (Hs & Hp & Hl). destruct (from_phrase s l) as [m'|e|].
    + destruct H as (Hp' & Hl' & Hs').
      assert (E : Ok (E:=error_kind) (m_entropy m') = Ok (m_entropy m)).
      { eapply spec_outcome_fun; apply spec_good; eassumption. }
      destruct m as [p l0 e], m' as [p' l' e']. cbn in *. injection E as ->. congruence.
    + exfalso. destruct H as [[Hn _]|H].
      * apply (sentence_nonempty _ _ _ Hs). unfold norm_words. rewrite Hn. reflexivity.
      * assert (E : Err e = Ok (m_entropy m)); [|discriminate].
        eapply spec_outcome_fun; [exact H|apply spec_good, Hs].
    + destruct H.
Qed.

Lemma norm_words_sentence l ws : (forall w, In w ws -> In w (words l)) -> norm_words (spaced ws) = ws.
Proof.
  intros H. unfold norm_words. rewrite split_whitespace_spaced.
  - rewrite <- (map_id ws) at 2. apply map_ext_in. intros w Hw. eapply words_nfkd, H, Hw.
  - apply Forall_forall. intros w Hw. split; [eapply words_nonempty|eapply words_no_white]; apply H, Hw.
Qed.

Lemma split_char_sentence l ws : ws <> [] -> (forall w, In w ws -> In w (words l)) -> split_char 32 (spaced ws) = ws.
Proof.
  intros Hn H. apply split_char_spaced; [exact Hn|]. apply forallb_forall. intros w Hw. eapply words_no_space, H, Hw.
Qed.

(** ** From entropy *)
Lemma from_entropy_unchecked_spec ent l : bytes_ok ent -> legal_entropy ent ->
  exists ws, from_entropy_unchecked ent l = Ok (Mnemonic (spaced ws) l ent) /\ bip39_sentence l ws ent.
Proof.
  intros Hok HL. pose proof HL as HL'. apply legal_entropy_c in HL. destruct HL as (c & Hc & Hl).
  unfold from_entropy_unchecked, sha256_first_byte.
  destruct (sha256_cons ent) as (h & tl & Hsha & Hh). rewrite Hsha. unfold index at 1. cbn [N.to_nat nth_error or_panic bind].
  assert (Hok' : bytes_ok (ent ++ [h])).
  { apply bytes_ok_app. split; [exact Hok|]. constructor; [exact Hh|constructor]. }
  rewrite bi_collect_spec by exact Hok'. cbn [bind].
  set (b := bits_of_bytes (ent ++ [h])).
  assert (Hb : length b = (8 * (4 * c + 1))%nat).
  { unfold b. rewrite bits_of_bytes_length, app_length. cbn. lia. }
  rewrite (groups_firstn (3 * c) b) by lia.
  assert (Hfb : firstn (11 * (3 * c)) b = with_checksum ent).
  { unfold b, with_checksum. rewrite bits_of_bytes_app, firstn_app.
    rewrite firstn_all2 by (rewrite bits_of_bytes_length; lia). f_equal.
    rewrite bits_of_bytes_length. rewrite (checksum_of_head ent c h tl Hl) by (lia || exact Hsha).
    unfold bits_of_bytes. cbn [flat_map]. rewrite app_nil_r. f_equal. lia. }
  rewrite Hfb.
  assert (Hlw : length (with_checksum ent) = (11 * (3 * c))%nat).
  { rewrite <- Hfb, firstn_length. lia. }
  destruct (groups_decompose (3 * c) _ Hlw) as (H1 & H2 & H3).
  destruct (get_words_total l _ H3) as (ws & Hws).
  exists ws. split.
  - rewrite (proj2 (traverse_ok_iff (get_word (wordlist l)) _ ws)).
    + cbn [bind]. rewrite iter_join_spaced. reflexivity.
    + clear -Hws. induction Hws; constructor; auto. apply get_word_ok. assumption.
  - split; [exact Hok|]. split; [exact HL'|]. exists (map val_of_bits (groups (with_checksum ent))). auto.
Qed.

Lemma from_entropy_key_size ent l : len ent < 2 ^ 61 ->
  (legal_entropy ent /\ from_entropy ent l = from_entropy_unchecked ent l)
  \/ (~ legal_entropy ent /\ from_entropy ent l = Err (InvalidKeysize (8 * len ent))).
Proof.
  intros Hlt. unfold from_entropy, mul_chk.
  assert (E : (len ent * 8 <? 2 ^ 64) = true).
  { apply N.ltb_lt. change (2 ^ 64) with (2 ^ 61 * 8). apply N.mul_lt_mono_pos_r; [reflexivity|exact Hlt]. }
  rewrite E. cbn [bind].
  destruct (in_dec Nat.eq_dec (length ent) [16; 20; 24; 28; 32]%nat) as [HL|HL].
  - left. split; [exact HL|]. apply legal_entropy_c in HL. destruct HL as (c & Hc & Hl).
    destruct (mt_of_c c Hc) as (t & Ht).
    rewrite (proj2 (for_key_size_ok (len ent * 8) t)) by (rewrite Ht; unfold len; lia). reflexivity.
  - right. split; [exact HL|]. rewrite for_key_size_err; [cbn [bind]; f_equal; f_equal; lia|].
    intros t Ht. apply HL. apply legal_entropy_c. exists (mt_c t). split; [apply mt_c_range|]. unfold len in Ht. lia.
Qed.

(** A legal entropy is short, so the usize product cannot overflow. *)
Lemma legal_entropy_len ent : legal_entropy ent -> len ent < 2 ^ 61.
Proof.
  intros H. apply legal_entropy_c in H. destruct H as (c & Hc & Hl). unfold len. rewrite Hl.
  apply (N.lt_trans _ 64); [lia|reflexivity].
Qed.

Lemma from_entropy_ok ent l m : bytes_ok ent ->
  (from_entropy ent l = Ok m <-> m_entropy m = ent /\ m_lang m = l /\ exists ws, m_phrase m = spaced ws /\ bip39_sentence l ws ent).
Proof.
  intros Hok. split.
  - intros H.
    assert (HL : legal_entropy ent /\ from_entropy_unchecked ent l = Ok m).
    { assert (Hlt : len ent < 2 ^ 61).
      { unfold from_entropy, mul_chk in H. destruct (N.ltb_spec (len ent * 8) (2 ^ 64)) as [Hl|Hl]; [|discriminate].
        apply (N.mul_lt_mono_pos_r 8); [reflexivity|exact Hl]. }
      destruct (from_entropy_key_size ent l Hlt) as [[HL E]|[HL E]]; rewrite E in H; [auto|discriminate]. }
    destruct HL as [HL Hu]. destruct (from_entropy_unchecked_spec ent l Hok HL) as (ws & E & Hs).
    rewrite E in Hu. injection Hu as <-. cbn. eauto.
  - intros (<- & <- & ws & Hp & Hs). assert (HL : legal_entropy (m_entropy m)) by apply Hs.
    destruct (from_entropy_key_size (m_entropy m) (m_lang m) (legal_entropy_len _ HL)) as [[_ E]|[Hn _]]; [|contradiction].
    rewrite E. destruct (from_entropy_unchecked_spec _ (m_lang m) Hok HL) as (vs & E' & Hs').
    rewrite E'. assert (vs = ws); [|subst; destruct m; cbn in *; congruence].
    destruct Hs as (_ & _ & He). destruct Hs' as (_ & _ & He'). eapply encodes_words_fun; eassumption.
Qed.
