(** Proofs about builds of src/bip39 (restated in PropBuilds.v). *)
From Coq Require Import String ZifyBool ZifyNat ZifyN.
From Verif Require Import Outcome Bytes Str Hash HashLemmas Nfkd NfkdLemmas ModelBip39 SpecBip39 BitLemmas WordData WordLemmas StrLemmas.
From Verif Require Import Bip39Proofs Bip39Thms More39Thms SpecBuilds ModelBuffers ModelBuilds.
Open Scope N_scope.

(** ** Arithmetic *)
Lemma usize_cases b : build_ok b -> usize b = 32 \/ usize b = 64.
Proof. intros H. exact H. Qed.
Lemma wrap_small w x : x < 2 ^ w -> wrap w x = x.
Proof. intros H. unfold wrap. apply N.mod_small, H. Qed.
Lemma add_in_ok b w x y : x + y < 2 ^ w -> add_in b w x y = Ok (x + y).
Proof.
  intros H. unfold add_in, add_chk. rewrite (proj2 (N.ltb_lt _ _) H), wrap_small by exact H. destruct (checks b); reflexivity.
Qed.
Lemma mul_in_ok b w x y : x * y < 2 ^ w -> mul_in b w x y = Ok (x * y).
Proof.
  intros H. unfold mul_in, mul_chk. rewrite (proj2 (N.ltb_lt _ _) H), wrap_small by exact H. destruct (checks b); reflexivity.
Qed.
Lemma sub_in_ok b w x y : x < 2 ^ w -> y <= x -> sub_in b w x y = Ok (x - y).
Proof.
  intros Hx H. unfold sub_in, sub_chk. rewrite (proj2 (N.leb_le _ _) H).
  assert (E : wrap w (2 ^ w + x - y) = x - y).
  { unfold wrap. replace (2 ^ w + x - y) with (x - y + 1 * 2 ^ w) by lia.
    rewrite N.mod_add by apply pow2_nz. apply N.mod_small. lia. }
  rewrite E. destruct (checks b); reflexivity.
Qed.
Lemma shl_in_ok b w x k : k < w -> shl_in b w x k = shl_chk w x k.
Proof.
  intros H. unfold shl_in, shl_chk. rewrite (proj2 (N.ltb_lt _ _) H), N.mod_small by exact H. destruct (checks b); reflexivity.
Qed.
Lemma shr_in_ok b w x k : k < w -> shr_in b w x k = shr_chk w x k.
Proof.
  intros H. unfold shr_in, shr_chk. rewrite (proj2 (N.ltb_lt _ _) H), N.mod_small by exact H. destruct (checks b); reflexivity.
Qed.
Lemma usize_big b x : build_ok b -> x < 4294967296 -> x < 2 ^ usize b.
Proof.
  intros [->| ->] H.
  - change (2 ^ 32) with 4294967296. exact H.
  - change (2 ^ 64) with 18446744073709551616. lia.
Qed.

(** ** Bit writer and bit iterator *)
Lemma drain_agree b : build_ok b -> forall fuel w, bw_offset w < 4294967296 -> drain_in b fuel w = bw_drain fuel w.
Proof.
  intros Hb. induction fuel as [|fuel IH]; intros w Hw; cbn [drain_in bw_drain].
  - reflexivity.
  - destruct (N.leb_spec 8 (bw_offset w)) as [H|H]; [|reflexivity].
    rewrite shr_in_ok, shl_in_ok by lia. rewrite sub_in_ok by (try apply usize_big; assumption).
    unfold shr_chk, shl_chk, sub_chk. rewrite (proj2 (N.leb_le _ _) H). change (24 <? 32) with true. change (8 <? 32) with true.
    cbn [bind]. apply IH. cbn [bw_offset]. lia.
Qed.
Lemma push_agree b w x : build_ok b -> bw_offset w < 8 -> push_in b w x = bw_push w x.
Proof.
  intros Hb Hw. unfold push_in, bw_push. rewrite sub_in_ok by (try (apply usize_big; [exact Hb|]); lia).
  change (32 - 11) with 21. cbn [bind]. change (sub_chk 32 11) with (Ok (E := error_kind) 21). cbn [bind].
  rewrite shl_in_ok by lia. unfold shl_chk. change (21 <? 32) with true. cbn [bind].
  rewrite shr_in_ok by lia. unfold shr_chk. replace (bw_offset w <? 32) with true by lia. cbn [bind].
  rewrite add_in_ok by (apply usize_big; [exact Hb|lia]). unfold add_chk.
  assert (E : (bw_offset w + 11 <? 2 ^ 64) = true).
  { apply N.ltb_lt. change (2 ^ 64) with 18446744073709551616. lia. }
  rewrite E. cbn [bind]. apply drain_agree; [exact Hb|]. cbn [bw_offset]. lia.
Qed.
Lemma into_bytes_agree b w : into_bytes_in b w = bw_into_bytes w.
Proof. unfold into_bytes_in, bw_into_bytes. rewrite shr_in_ok by lia. reflexivity. Qed.
Lemma fill_agree b : build_ok b -> forall source read buffer, fill_in b source read buffer = bi_fill source read buffer.
Proof.
  intros Hb. induction source as [|x source IH]; intros read buffer; cbn [fill_in bi_fill]; [reflexivity|].
  destruct (N.ltb_spec read 11) as [H|H]; [|reflexivity].
  rewrite add_in_ok by (apply usize_big; [exact Hb|lia]). unfold add_chk.
  assert (E : (read + 8 <? 2 ^ 64) = true).
  { apply N.ltb_lt. change (2 ^ 64) with 18446744073709551616. lia. }
  rewrite E. cbn [bind]. rewrite sub_in_ok by (try (apply usize_big; [exact Hb|]); lia).
  unfold sub_chk. replace (read + 8 <=? 64) with true by lia. cbn [bind].
  rewrite shl_in_ok by lia. destruct (shl_chk 64 x (64 - (read + 8))) as [y|e|]; cbn [bind]; try reflexivity. apply IH.
Qed.
Lemma bi_fill_range source : forall read buffer it, read < 64 -> bi_fill source read buffer = Ok (Some it) -> 11 <= bi_read it < 64.
Proof.
  induction source as [|x source IH]; intros read buffer it Hr; cbn [bi_fill]; destruct (N.ltb_spec read 11) as [H|H]; intros E.
  - discriminate.
  - injection E as <-. cbn [bi_read]. lia.
  - apply bind_ok in E. destruct E as (r & E1 & E). apply bind_ok in E. destruct E as (k & E2 & E).
    apply bind_ok in E. destruct E as (y & E3 & E). apply IH in E; [exact E|].
    unfold add_chk in E1. destruct (_ <? _) in E1; [|discriminate]. injection E1 as <-. lia.
  - injection E as <-. cbn [bi_read]. lia.
Qed.
Lemma next_agree b it : build_ok b -> bi_read it < 64 -> next_in b it = bi_next it.
Proof.
  intros Hb Hr. unfold next_in, bi_next. rewrite fill_agree by exact Hb.
  destruct (bi_fill (bi_source it) (bi_read it) (bi_buffer it)) as [[it'|]|e|] eqn:E; cbn [bind]; try reflexivity.
  apply bi_fill_range in E; [|exact Hr].
  rewrite sub_in_ok by (try (apply usize_big; [exact Hb|]); lia). change (64 - 11) with 53.
  change (sub_chk 64 11) with (Ok (E := error_kind) 53). cbn [bind].
  rewrite shr_in_ok, shl_in_ok by lia. unfold shr_chk, shl_chk. change (53 <? 64) with true. change (11 <? 64) with true. cbn [bind].
  rewrite sub_in_ok by (try (apply usize_big; [exact Hb|]); lia). unfold sub_chk.
  rewrite (proj2 (N.leb_le 11 (bi_read it'))) by lia. reflexivity.
Qed.
Lemma bi_next_range it x it' : bi_read it < 64 -> bi_next it = Ok (Some (x, it')) -> bi_read it' < 64.
Proof.
  intros Hr. unfold bi_next. destruct (bi_fill (bi_source it) (bi_read it) (bi_buffer it)) as [[i|]|e|] eqn:E; cbn [bind]; try discriminate.
  apply bi_fill_range in E; [|exact Hr]. change (sub_chk 64 11) with (Ok (E := error_kind) 53). cbn [bind].
  unfold shr_chk, shl_chk. change (53 <? 64) with true. change (11 <? 64) with true. cbn [bind]. unfold sub_chk.
  rewrite (proj2 (N.leb_le 11 (bi_read i))) by lia. cbn [bind]. intros H.
  assert (E' : bi_read i - 11 = bi_read it') by exact (f_equal (fun r => match r with Ok (Some (_, j)) => bi_read j | _ => 0 end) H).
  clear -E E'. lia.
Qed.
Lemma collect_agree b : build_ok b -> forall fuel it, bi_read it < 64 -> collect_in b fuel it = bi_collect fuel it.
Proof.
  intros Hb. induction fuel as [|fuel IH]; intros it Hr; cbn [collect_in bi_collect]; [reflexivity|].
  rewrite next_agree by assumption. destruct (bi_next it) as [[[x it']|]|e|] eqn:E; cbn [bind]; try reflexivity.
  rewrite IH by (eapply bi_next_range; eassumption). reflexivity.
Qed.
Lemma checksum_agree b x c : (1 <= c <= 8)%nat -> checksum_in b x (N.of_nat c) = checksum x (N.of_nat c).
Proof.
  intros H. unfold checksum_in, checksum, debug_assert. replace (N.of_nat c <=? 8) with true by lia.
  rewrite andb_false_r. cbn [bind]. rewrite sub_in_ok by (try (change (2 ^ 8) with 256); lia).
  unfold sub_chk. replace (N.of_nat c <=? 8) with true by lia. cbn [bind]. apply shr_in_ok. lia.
Qed.

(** ** Buffers *)
Lemma word_zh_bytes w : In w (words ChineseSimplified) -> len (utf8 w) = 3.
Proof.
  intros H. pose proof words_zh_single as Hs. rewrite forallb_forall in Hs. specialize (Hs w H).
  pose proof words_zh_cjk as Hk. rewrite forallb_forall in Hk. specialize (Hk w H).
  destruct w as [|c [|]]; try discriminate Hs. cbn [forallb] in Hk. cbn [utf8 flat_map]. rewrite app_nil_r.
  unfold utf8_char. replace (c <? 128) with false by lia. replace (c <? 2048) with false by lia. replace (c <? 65536) with true by lia. reflexivity.
Qed.
Lemma word_bytes_least l w : In w (words l) -> 3 <= len (utf8 w).
Proof.
  intros H. destruct l.
  - pose proof words_en_lengths as Hl. rewrite forallb_forall in Hl. specialize (Hl w H). pose proof (utf8_len_bounds w). lia.
  - rewrite (word_zh_bytes w H). lia.
Qed.
(** No more than [m] bytes, or twice what is needed. *)
Definition held (m t : N) (buf : buffer) : Prop := buf_len buf <= buf_cap buf /\ buf_cap buf <= N.max m (2 * t).
Lemma held_reserve m t buf k : 8 <= m -> held m t buf -> buf_len buf + k <= t -> held m t (buf_reserve buf k).
Proof.
  intros Hm [H1 H2] H. unfold buf_reserve. destruct (N.ltb_spec (buf_cap buf - buf_len buf) k) as [L|L]; [|split; assumption].
  split; cbn [buf_len buf_cap]; lia.
Qed.
Lemma held_push m t buf k : 8 <= m -> held m t buf -> buf_len buf + k <= t -> held m t (buf_push buf k).
Proof.
  intros Hm H Hk. pose proof (held_reserve m t buf k Hm H Hk) as [H1 H2]. destruct H as [H3 H4].
  split; unfold buf_push; cbn [buf_len buf_cap]; [|exact H2].
  unfold buf_reserve in *. destruct (N.ltb_spec (buf_cap buf - buf_len buf) k) as [L|L]; cbn [buf_len buf_cap] in *; lia.
Qed.
Lemma held_bytes m t (written : bytes) : 8 <= m -> forall buf, held m t buf -> buf_len buf + len written <= t ->
  held m t (fold_left (fun buf _ => buf_push buf 1) written buf).
Proof.
  intros Hm. induction written as [|x written IH]; intros buf H Hk; [exact H|]. cbn [fold_left].
  change (x :: written) with ([x] ++ written) in Hk. rewrite len_app in Hk. change (len [x]) with 1 in Hk.
  apply IH; [apply held_push; [exact Hm|exact H|lia]|]. rewrite buf_push_len. lia.
Qed.
Lemma held_chars m t s : 8 <= m -> forall buf, held m t buf -> buf_len buf + len (utf8 s) <= t ->
  let r := fold_left (fun buf c => buf_push buf (len (utf8_char c))) s buf in
  held m t r /\ buf_len r = buf_len buf + len (utf8 s).
Proof.
  intros Hm. induction s as [|c s IH]; intros buf H Hk; [cbn; split; [exact H|lia]|]. cbn [fold_left].
  rewrite utf8_cons, len_app in Hk. destruct (IH (buf_push buf (len (utf8_char c)))) as [H1 H2].
  - apply held_push; [exact Hm|exact H|lia].
  - rewrite buf_push_len. lia.
  - split; [exact H1|]. rewrite H2, buf_push_len, utf8_cons, len_app. lia.
Qed.
Lemma quarter w : (len (utf8 w) + 3) / 4 <= len (utf8 (nfkd w)).
Proof.
  pose proof (utf8_len_bounds w) as B. pose proof (utf8_len_bounds (nfkd w)) as B'. pose proof (nfkd_length w) as L.
  assert ((len (utf8 w) + 3) / 4 <= (3 + len w * 4) / 4) as H by (apply N.div_le_mono; lia).
  rewrite N.div_add in H by discriminate. change (3 / 4) with 0 in H. lia.
Qed.
Lemma held_extend m t buf w : 8 <= m -> held m t buf -> buf_len buf + len (utf8 (nfkd w)) <= t ->
  held m t (extend_nfkd buf w) /\ buf_len (extend_nfkd buf w) = buf_len buf + len (utf8 (nfkd w)).
Proof.
  intros Hm H Hk. unfold extend_nfkd. pose proof (quarter w) as Q.
  destruct (held_chars m t (nfkd w) Hm (buf_reserve buf ((len (utf8 w) + 3) / 4))) as [H1 H2].
  - apply held_reserve; [exact Hm|exact H|lia].
  - rewrite buf_reserve_len. exact Hk.
  - split; [exact H1|]. rewrite H2, buf_reserve_len. reflexivity.
Qed.
Lemma held_phrase m t ws : 8 <= m -> forall buf, held m t buf -> buf_len buf + join_bytes (map nfkd ws) <= t ->
  let r := fold_left (fun buf w => extend_nfkd (buf_push buf 1) w) ws buf in
  held m t r /\ buf_len r = buf_len buf + join_bytes (map nfkd ws).
Proof.
  intros Hm. induction ws as [|w ws IH]; intros buf H Hk; [cbn; split; [exact H|lia]|]. cbn [fold_left].
  cbn [map join_bytes fold_right] in *. fold (join_bytes (map nfkd ws)) in *.
  assert (Hp : held m t (buf_push buf 1)) by (apply held_push; [exact Hm|exact H|lia]).
  destruct (held_extend m t (buf_push buf 1) w Hm Hp) as [H1 H2]; [rewrite buf_push_len; lia|].
  destruct (IH _ H1) as [H3 H4]; [rewrite H2, buf_push_len; lia|].
  split; [exact H3|]. rewrite H4, H2, buf_push_len. lia.
Qed.
Lemma phrase_buffer s : exists buf, from_phrase_buffer s = Ok buf
  /\ buf_len buf = len (utf8 (spaced (norm_words s))) /\ held 8 (len (utf8 (spaced (norm_words s)))) buf.
Proof.
  unfold from_phrase_buffer, norm_words. destruct (split_whitespace s) as [|w ws].
  - exists (buf_with_capacity 0). split; [reflexivity|]. split; [reflexivity|]. split; vm_compute; discriminate.
  - change (join_capacity 0 (lit " ")) with (Ok (E := error_kind) 0). cbn [bind]. change (len (utf8 (lit " "))) with 1.
    cbn [map]. rewrite utf8_spaced. set (t := len (utf8 (nfkd w)) + join_bytes (map nfkd ws)).
    assert (H0 : held 8 t (buf_with_capacity 0)) by (split; cbn [buf_len buf_cap buf_with_capacity]; lia).
    destruct (held_extend 8 t (buf_with_capacity 0) w ltac:(lia) H0) as [H1 H2]; [cbn [buf_len buf_with_capacity]; unfold t; lia|].
    cbn [buf_len buf_with_capacity] in H2.
    destruct (held_phrase 8 t ws ltac:(lia) _ H1) as [H3 H4]; [rewrite H2; unfold t; lia|].
    eexists. split; [reflexivity|]. split; [rewrite H4, H2; unfold t; lia|exact H3].
Qed.
Lemma fits_held b m t buf : build_ok b -> held m t buf -> m < 2147483648 -> 2 * t < 2 ^ (usize b - 1) -> fits b buf = Ok tt.
Proof.
  intros Hb [H1 H2] Hm Ht. unfold fits. replace (buf_cap buf <? 2 ^ (usize b - 1)) with true; [reflexivity|]. symmetry. apply N.ltb_lt.
  assert (2147483648 <= 2 ^ (usize b - 1)) by (destruct Hb as [-> | ->]; vm_compute; discriminate).
  generalize dependent (2 ^ (usize b - 1)). intros p Ht Hp. lia.
Qed.
Lemma writer_fits b written : build_ok b -> 2 * len written < 2 ^ (usize b - 1) -> fits b (writer_buffer written) = Ok tt.
Proof.
  intros Hb H. apply (fits_held b 33 (len written)); [exact Hb| |lia|exact H].
  apply held_bytes; [lia| |cbn [buf_len buf_with_capacity]; lia].
  unfold buf_with_capacity, held. change (bw_capacity 264) with 33. cbn [buf_len buf_cap]. lia.
Qed.
Lemma write_words_agree b l : build_ok b -> forall ws bits w k, bw_holds w bits -> len bits = 11 * k ->
  4 * k + join_bytes ws <= 2 ^ (usize b - 1) ->
  write_words_in b (wordmap_of l) ws w = push_words (wordmap_of l) ws w.
Proof.
  intros Hb. induction ws as [|v ws IH]; intros bits w k Hw Hl Hk; cbn [write_words_in push_words]; [reflexivity|].
  destruct (in_words_dec l v) as [Hv|Hv].
  - destruct (in_is_word l v Hv) as (i & Hi). rewrite (proj2 (get_bits_ok l v i) Hi). cbn [bind].
    rewrite push_agree; [|exact Hb|destruct Hw as (r & _ & _ & _ & Ho & _); exact Ho].
    destruct (bw_push_holds w bits i Hw) as (w' & -> & Hb'); [eapply is_word_lt, Hi|]. cbn [bind].
    pose proof (word_bytes_least l v Hv) as H3. cbn [join_bytes fold_right] in Hk. fold (join_bytes ws) in Hk.
    assert (Hl' : len (bits ++ bits_of 11 i) = 11 * (k + 1)) by (rewrite len_app, Hl; unfold len; rewrite bits_of_length; lia).
    assert (F : fits b (writer_buffer (bw_inner w')) = Ok tt).
    { apply writer_fits; [exact Hb|]. pose proof (bw_len_holds w' _ Hb') as E. unfold bw_len in E. rewrite Hl' in E.
      clear -E Hk H3. generalize dependent (2 ^ (usize b - 1)). intros p Hk. lia. }
    rewrite F. cbn [bind]. eapply (IH _ _ (k + 1)); [exact Hb'|exact Hl'|].
    clear -Hk H3. generalize dependent (2 ^ (usize b - 1)). intros p Hk. lia.
  - rewrite get_bits_err by exact Hv. reflexivity.
Qed.
Lemma text_pieces b s : len (utf8 s) < 2 ^ (usize b - 1) -> join_bytes (split_char 32 s) <= 2 ^ (usize b - 1).
Proof.
  intros H. rewrite <- (spaced_split_char s) in H. destruct (split_char 32 s) as [|w ws]; [cbn; lia|].
  rewrite utf8_spaced in H. cbn [join_bytes fold_right]. fold (join_bytes ws). lia.
Qed.
Lemma pieces_bytes l ws : all_in_list l ws -> 4 * len ws <= join_bytes ws.
Proof.
  induction ws as [|w ws IH]; intros H; [cbn; lia|]. cbn [join_bytes fold_right]. fold (join_bytes ws).
  specialize (IH (fun v Hv => H v (or_intror Hv))). pose proof (H w (or_introl eq_refl)) as Hw. rewrite bip39_list_words in Hw.
  pose proof (word_bytes_least l w Hw). change (w :: ws) with ([w] ++ ws). rewrite len_app. change (len [w]) with 1. lia.
Qed.
Lemma all_in_list_words l ws : all_in_list l ws <-> (forall w, In w ws -> In w (words l)).
Proof. unfold all_in_list. rewrite bip39_list_words. tauto. Qed.

(** ** Phrases *)
Lemma len_checked b w bits : checks b = true -> bw_holds w bits ->
  len_in b w = if len bits <? 2 ^ usize b then Ok (len bits) else Panic.
Proof.
  intros Hc Hw. pose proof (bw_len_holds w bits Hw) as E. unfold bw_len in E. unfold len_in, mul_in, add_in. rewrite Hc.
  unfold mul_chk, add_chk. generalize (2 ^ usize b). intros m. rewrite <- E.
  destruct (N.ltb_spec (len (bw_inner w) * 8) m) as [H|H]; cbn [bind].
  - reflexivity.
  - destruct (N.ltb_spec (len (bw_inner w) * 8 + bw_offset w) m) as [H'|H']; [lia|reflexivity].
Qed.
Lemma len_unchecked b w bits : checks b = false -> bw_holds w bits -> len_in b w = Ok (len bits mod 2 ^ usize b).
Proof.
  intros Hc Hw. pose proof (bw_len_holds w bits Hw) as E. unfold bw_len in E. unfold len_in, mul_in, add_in. rewrite Hc.
  cbn [bind]. unfold wrap. rewrite N.add_mod_idemp_l by apply pow2_nz. rewrite E. reflexivity.
Qed.
(** What happens once the number of words is settled; [rest] are the bits after these words. *)
Definition after_count (b : build) (c : nat) (entropy : bytes) : R bytes :=
  let* last := index entropy (N.of_nat (4 * c)) in
  let* actual_checksum := checksum_in b last (N.of_nat c) in
  let entropy := firstn (N.to_nat (N.of_nat (4 * c))) entropy in
  let* checksum_byte := sha256_first_byte entropy in
  let* expected_checksum := checksum_in b checksum_byte (N.of_nat c) in
  if actual_checksum =? expected_checksum then Ok entropy else Err InvalidChecksum.
Lemma after_count_spec b l c ws idx lb rest : (4 <= c <= 8)%nat -> Forall2 (is_word l) idx ws -> length ws = (3 * c)%nat ->
  bytes_ok lb -> bits_of_bytes lb = flat_map (bits_of 11) idx ++ rest -> (4 * c < length lb)%nat ->
  spec_outcome l ws (after_count b c lb).
Proof.
  intros Hc F Hws Hok Hbits Hlen. unfold after_count.
  assert (Hli : length idx = length ws) by (eapply Forall2_length; exact F).
  set (ent := firstn (4 * c) lb).
  assert (Hent : length ent = (4 * c)%nat) by (unfold ent; rewrite firstn_length; lia).
  assert (Hsp : exists last tl, lb = ent ++ last :: tl).
  { assert (Hs : (0 < length (skipn (4 * c) lb))%nat) by (rewrite skipn_length; lia).
    destruct (skipn (4 * c) lb) as [|x tl] eqn:E; [cbn in Hs; lia|].
    exists x, tl. rewrite <- E. symmetry. apply firstn_skipn. }
  destruct Hsp as (last & tl & Hlb).
  assert (Hidx : index (E := error_kind) lb (N.of_nat (4 * c)) = Ok last).
  { unfold index. rewrite Nat2N.id, Hlb, nth_error_app2 by lia. rewrite Hent, Nat.sub_diag. reflexivity. }
  rewrite Hidx. cbn [bind]. rewrite Nat2N.id. fold ent.
  rewrite Hlb in Hok. apply bytes_ok_app in Hok. destruct Hok as [Hoke Hokl].
  apply Forall_inv in Hokl. unfold byte_ok in Hokl.
  rewrite checksum_agree by lia. rewrite checksum_spec by (exact Hokl || lia). cbn [bind].
  destruct (sha256_cons ent) as (h & tl' & Hsha & Hh). unfold sha256_first_byte. rewrite Hsha.
  unfold index at 1. cbn [N.to_nat nth_error or_panic bind].
  rewrite checksum_agree by lia. rewrite checksum_spec by (exact Hh || lia). cbn [bind].
  assert (Hcs : checksum_of ent = firstn c (bits_of 8 h)).
  { eapply checksum_of_head; [exact Hent|lia|exact Hsha]. }
  assert (Henc : encodes l ws (bits_of_bytes ent ++ firstn c (bits_of 8 last))).
  { exists idx. split; [exact F|]. split; [eapply forall2_is_word_lt, F|].
    rewrite Hlb, bits_of_bytes_app in Hbits. change (bits_of_bytes (last :: tl)) with (bits_of 8 last ++ bits_of_bytes tl) in Hbits.
    apply (f_equal (firstn (33 * c))) in Hbits.
    rewrite firstn_app, bits_of_bytes_length, firstn_all2 in Hbits by (rewrite bits_of_bytes_length; lia).
    replace (33 * c - 8 * length ent)%nat with c in Hbits by lia.
    rewrite (firstn_app c (bits_of 8 last)), bits_of_length in Hbits. replace (c - 8)%nat with 0%nat in Hbits by lia.
    rewrite firstn_O, app_nil_r in Hbits.
    rewrite firstn_app, flat_map_bits_length, (firstn_all2 (flat_map (bits_of 11) idx)) in Hbits by (rewrite flat_map_bits_length; lia).
    replace (33 * c - 11 * length idx)%nat with 0%nat in Hbits by lia.
    rewrite firstn_O, app_nil_r in Hbits. symmetry. exact Hbits. }
  assert (HL : legal_entropy ent) by (apply legal_entropy_c; exists c; split; [exact Hc|exact Hent]).
  destruct (N.eqb_spec (val_of_bits (firstn c (bits_of 8 last))) (val_of_bits (firstn c (bits_of 8 h)))) as [E|E].
  - apply spec_good. split; [exact Hoke|]. split; [exact HL|]. unfold with_checksum. rewrite Hcs.
    apply val_of_bits_inj in E; [rewrite <- E; exact Henc|].
    rewrite !firstn_length, !bits_of_length. reflexivity.
  - eapply spec_bad_checksum; [exact Hoke|exact HL| |exact Henc|].
    + rewrite (cs_bits_c ent c Hent), firstn_length, bits_of_length. lia.
    + rewrite Hcs. intros E'. apply E. rewrite E'. reflexivity.
Qed.

Lemma Forall2_firstn {A B} (P : A -> B -> Prop) k l1 l2 : Forall2 P l1 l2 -> Forall2 P (firstn k l1) (firstn k l2).
Proof. intros H. revert k. induction H; intros [|k]; cbn [firstn]; constructor; auto. Qed.
Lemma flat_map_bits_firstn k : forall idx, flat_map (bits_of 11) idx = flat_map (bits_of 11) (firstn k idx) ++ flat_map (bits_of 11) (skipn k idx).
Proof. intros idx. rewrite <- flat_map_app, firstn_skipn. reflexivity. Qed.
Lemma firstn_in {A} k (l : list A) x : In x (firstn k l) -> In x l.
Proof. intros H. rewrite <- (firstn_skipn k l). apply in_or_app. left. exact H. Qed.

Definition all_words (l : language) (ws : list str) : Prop := forall w, In w ws -> In w (words l).
Lemma words_all_dec l ws : (exists w, In w ws /\ ~ In w (words l)) \/ all_words l ws.
Proof.
  induction ws as [|w ws IH]; [right; intros w []|].
  destruct (in_words_dec l w) as [Hw|Hw]; [|left; exists w; cbn; auto].
  destruct IH as [(v & Hv & Hn)|IH]; [left; exists v; cbn; auto|].
  right. intros v [<-|Hv]; auto.
Qed.
Lemma foreign_word b s l w : build_ok b -> len (utf8 s) < 2 ^ (usize b - 1) -> In w (split_char 32 s) -> ~ In w (words l) -> phrase_to_entropy_in b s l = Err InvalidWord.
Proof.
  intros Hb Hs Hw Hn. unfold phrase_to_entropy_in.
  rewrite (write_words_agree b l Hb _ [] bw_new 0 bw_holds_new eq_refl (text_pieces b s Hs)).
  rewrite (push_words_err l _ w [] bw_new Hw Hn bw_holds_new). reflexivity.
Qed.
Lemma words_seen_le width n : (words_seen width n <= n)%nat.
Proof.
  unfold words_seen. pose proof (N.mod_le (11 * N.of_nat n) (2 ^ width) (pow2_nz width)) as H.
  assert ((11 * N.of_nat n) mod 2 ^ width / 11 <= 11 * N.of_nat n / 11) as H' by (apply N.div_le_mono; [discriminate|exact H]).
  rewrite N.mul_comm, N.div_mul in H' by discriminate. rewrite N.mul_comm in H'. lia.
Qed.
(** With [n] the number of bits as the build sees it. *)
Lemma counted b s l (n : N) : build_ok b -> len (utf8 s) < 2 ^ (usize b - 1) -> all_words l (split_char 32 s) ->
  (forall w bits, bw_holds w bits -> len bits = 11 * len (split_char 32 s) -> len_in b w = Ok n) ->
  n <= 11 * len (split_char 32 s) -> (checks b = true -> n mod 11 = 0) ->
  spec_outcome l (firstn (N.to_nat (n / 11)) (split_char 32 s)) (phrase_to_entropy_in b s l).
Proof.
  intros Hb Hs Hall Hn Hle H11. unfold phrase_to_entropy_in. apply text_pieces in Hs.
  set (ws := split_char 32 s) in *. clearbody ws.
  rewrite (write_words_agree b l Hb _ [] bw_new 0 bw_holds_new eq_refl Hs).
  destruct (all_words_indices l ws Hall) as (idx & F).
  destruct (push_words_ok l idx ws [] bw_new F bw_holds_new) as (bw & -> & Hbw). cbn [bind app] in *.
  assert (Hli : length idx = length ws) by (eapply Forall2_length; exact F).
  rewrite (Hn bw _ Hbw) by (unfold len; rewrite flat_map_bits_length; lia). cbn [bind]. clear Hn.
  assert (Hk : n / 11 <= len ws).
  { replace (len ws) with (11 * len ws / 11) by (rewrite N.mul_comm; apply N.div_mul; discriminate). apply N.div_le_mono; [discriminate|exact Hle]. }
  set (k := N.to_nat (n / 11)) in *.
  assert (Hlk : length (firstn k ws) = k) by (rewrite firstn_length; unfold len in Hk; lia).
  destruct (in_dec Nat.eq_dec k [12; 15; 18; 21; 24]%nat) as [Hc|Hc].
  2:{ rewrite for_word_count_err; cbn [bind].
      - replace (n / 11) with (len (firstn k ws)) by (unfold len; lia). apply spec_bad_count.
        + intros w Hw. rewrite bip39_list_words. apply Hall. eapply firstn_in, Hw.
        + rewrite Hlk. exact Hc.
      - intros t Ht. apply Hc. apply legal_count_c. exists (mt_c t). split; [apply mt_c_range|lia]. }
  apply legal_count_c in Hc. destruct Hc as (c & Hc & Hkc).
  destruct (mt_of_c c Hc) as (t & Ht).
  rewrite (proj2 (for_word_count_ok (n / 11) t)) by (rewrite Ht; lia). cbn [bind].
  rewrite mt_total_bits, mt_entropy_bits, mt_checksum_bits, Ht.
  assert (D : debug_assert b (n =? N.of_nat (33 * c)) = Ok tt).
  { unfold debug_assert. destruct (checks b); [|reflexivity]. specialize (H11 eq_refl).
    replace (n =? N.of_nat (33 * c)) with true; [reflexivity|]. symmetry. apply N.eqb_eq.
    rewrite (N.div_mod n 11) by discriminate. rewrite H11. lia. }
  rewrite D. cbn [bind]. rewrite into_bytes_agree.
  destruct (bw_into_bytes_holds _ _ Hbw) as (lb & pad & -> & Hok & Hbits & Hpad). cbn [bind].
  assert (Fw : fits b (writer_buffer lb) = Ok tt).
  { apply writer_fits; [exact Hb|]. pose proof (pieces_bytes l ws (proj2 (all_in_list_words l ws) Hall)) as H4.
    apply (f_equal (@length bool)) in Hbits. rewrite app_length, bits_of_bytes_length, flat_map_bits_length in Hbits.
    clear -Hs H4 Hbits Hpad Hli Hlk Hkc Hc Hk. generalize dependent (2 ^ (usize b - 1)). intros p Hs. unfold len in *.
    rewrite firstn_length in Hlk. lia. }
  rewrite Fw. cbn [bind].
  replace (N.of_nat (32 * c) / 8) with (N.of_nat (4 * c)) by (apply N.div_unique with 0; lia).
  apply (after_count_spec b l c (firstn k ws) (firstn k idx) lb (flat_map (bits_of 11) (skipn k idx) ++ pad)).
  - exact Hc.
  - apply Forall2_firstn, F.
  - lia.
  - exact Hok.
  - rewrite app_assoc, <- flat_map_bits_firstn. exact Hbits.
  - apply (f_equal (@length bool)) in Hbits. rewrite app_length, bits_of_bytes_length, flat_map_bits_length in Hbits.
    unfold len in Hk. lia.
Qed.

Lemma agree_words b s l : build_ok b -> len (utf8 s) < 2 ^ (usize b - 1) -> (all_words l (split_char 32 s) -> 11 * len (split_char 32 s) < 2 ^ usize b) ->
  phrase_to_entropy_in b s l = phrase_to_entropy s l.
Proof.
  intros Hb Hs H. symmetry. apply phrase_to_entropy_iff.
  destruct (words_all_dec l (split_char 32 s)) as [(w & Hw & Hn)|Hall].
  - rewrite (foreign_word b s l w Hb Hs Hw Hn). apply spec_bad_word with w; [exact Hw|]. rewrite bip39_list_words. exact Hn.
  - specialize (H Hall). pose proof (counted b s l (11 * len (split_char 32 s)) Hb Hs Hall) as C.
    rewrite (N.mul_comm 11), N.div_mul, N.mod_mul in C by discriminate.
    replace (firstn (N.to_nat (len (split_char 32 s))) (split_char 32 s)) with (split_char 32 s) in C
      by (symmetry; apply firstn_all2; unfold len; lia).
    rewrite (N.mul_comm 11) in H. apply C; [|lia|reflexivity]. intros w bits Hw Hl. destruct (checks b) eqn:Eb.
    + rewrite (len_checked b w bits Eb Hw), Hl, (proj2 (N.ltb_lt _ _) H). reflexivity.
    + rewrite (len_unchecked b w bits Eb Hw), Hl, N.mod_small by exact H. reflexivity.
Qed.

(** ** Short inputs *)
Lemma short_count b (n m : N) : build_ok b -> 2 * n <= m + 1 -> m < 2 ^ (usize b - 3) -> 11 * n < 2 ^ usize b.
Proof.
  intros [E|E] Hn Hm; rewrite E in *.
  - change (32 - 3) with 29 in Hm. change (2 ^ 29) with 536870912 in Hm. change (2 ^ 32) with 4294967296. lia.
  - change (64 - 3) with 61 in Hm. change (2 ^ 61) with 2305843009213693952 in Hm. change (2 ^ 64) with 18446744073709551616. lia.
Qed.
Lemma pieces_count l ws : all_words l ws -> ws <> [] -> (2 * length ws <= length (spaced ws) + 1)%nat.
Proof.
  induction ws as [|w ws IH]; intros H Hn; [congruence|].
  pose proof (words_nonempty l w (H w (or_introl eq_refl))) as Hw. destruct w as [|c w]; [congruence|].
  destruct ws as [|v ws]; [cbn; lia|]. rewrite spaced_cons, app_length by discriminate. cbn [length].
  assert (IH' : (2 * length (v :: ws) <= length (spaced (v :: ws)) + 1)%nat) by (apply IH; [intros u Hu; apply H; right; exact Hu|discriminate]).
  cbn [length] in IH'. lia.
Qed.
Lemma laid_out_count ws : forall s, laid_out s ws -> (2 * length ws <= length s + 1)%nat.
Proof.
  induction ws as [|w ws IH]; intros s H; [cbn; lia|]. destruct H as (pre & rest & -> & Hp & Hn & Hw & Hr & H).
  rewrite !app_length. destruct w as [|c w]; [congruence|]. cbn [length].
  destruct Hr as [->|(d & r & -> & Hd)].
  - specialize (IH [] H). cbn [length] in *. lia.
  - assert (H' : laid_out r ws).
    { apply laid_out_iff. apply laid_out_iff in H. rewrite <- H. symmetry. apply (split_whitespace_pre [d]). cbn. rewrite Hd. reflexivity. }
    specialize (IH r H'). cbn [length]. lia.
Qed.
Lemma eighth b x : build_ok b -> x < 2 ^ (usize b - 3) -> x < 2 ^ (usize b - 1) /\ 2 * x < 2 ^ (usize b - 1).
Proof.
  intros Hb H. assert (E : 2 ^ (usize b - 1) = 4 * 2 ^ (usize b - 3)) by (destruct Hb as [-> | ->]; reflexivity).
  rewrite E. generalize dependent (2 ^ (usize b - 3)). intros p H _. lia.
Qed.
Lemma agree_validate b s l : build_ok b -> len (utf8 s) < 2 ^ (usize b - 3) -> phrase_to_entropy_in b s l = phrase_to_entropy s l.
Proof.
  intros Hb Hs. apply agree_words; [exact Hb|apply eighth; assumption|]. intros Hall. apply (short_count b _ (len s)); [exact Hb| |].
  - pose proof (pieces_count l _ Hall (split_pred_nonempty _ s)) as H. rewrite spaced_split_char in H. unfold len. lia.
  - pose proof (utf8_len_bounds s) as H. lia.
Qed.
Lemma agree_from_phrase b s l : build_ok b -> len (utf8 s) < 2 ^ (usize b - 3) -> len (utf8 (spaced (norm_words s))) < 2 ^ (usize b - 3) ->
  from_phrase_in b s l = from_phrase s l.
Proof.
  intros Hb Hs Ht. destruct (eighth b _ Hb Ht) as [T1 T2]. unfold from_phrase_in, from_phrase.
  destruct (phrase_buffer s) as (buf & -> & _ & Hh). cbn [bind].
  rewrite (fits_held b 8 _ buf Hb Hh ltac:(reflexivity) T2). cbn [bind].
  rewrite !iter_join_spaced. fold (norm_words s). rewrite agree_words; [reflexivity|exact Hb|exact T1|]. intros Hall. apply (short_count b _ (len s)); [exact Hb| |].
  - destruct (norm_pieces l s) as [[Hne Hp]|[[Hne Hp]|(v & w & Hv & Hnv & _)]].
    + rewrite Hp. unfold norm_words, len. rewrite map_length. pose proof (laid_out_count _ s (laid_out_split s)) as H. lia.
    + exfalso. apply (empty_not_word l), Hall. rewrite Hp. left. reflexivity.
    + exfalso. apply Hnv, Hall, Hv.
  - pose proof (utf8_len_bounds s) as H. lia.
Qed.
Lemma bi_new_collect b source : build_ok b -> bytes_ok source ->
  match next_in b (bi_new source) with
  | Ok None => bi_collect (S (length source)) (bi_new source) = Ok []
  | Ok (Some (x, it)) => bi_collect (S (length source)) (bi_new source) = (let* xs := collect_in b (S (length source)) it in Ok (x :: xs))
                       /\ len (bi_source it) + 2 = len source
  | _ => False
  end.
Proof.
  intros Hb Hok. rewrite next_agree by (exact Hb || (cbn; lia)).
  pose proof (bi_collect_spec source Hok) as C. cbn [bi_collect] in C |- *.
  destruct (bi_next_holds (bi_new source) _ (bi_holds_new source Hok)) as [(Hl & E)|(g & b' & it' & E & Hg & En & Hh)].
  - rewrite E. reflexivity.
  - rewrite En. cbn [bind]. split.
    + rewrite collect_agree; [|exact Hb|destruct Hh as (r & _ & _ & _ & Hr & _); lia].
      assert (L : (length b' + 11 = 8 * length source)%nat).
      { apply (f_equal (@length bool)) in E. rewrite bits_of_bytes_length, app_length in E. lia. }
      rewrite !(bi_collect_holds _ it' b' Hh) by lia. reflexivity.
    + pose proof (bi_next_read (bi_new source) _ it' (N.le_0_l 18) En) as Hr.
      destruct Hh as (r & -> & _ & Hlr & _ & _).
      apply (f_equal (@length bool)) in E. rewrite bits_of_bytes_length, !app_length, bits_of_bytes_length in E. unfold len in *. lia.
Qed.
Lemma held_join m t ws : 8 <= m -> forall buf, held m t buf -> buf_len buf + join_bytes ws <= t ->
  held m t (fold_left (fun buf w => buf_push (buf_push buf 1) (len (utf8 w))) ws buf).
Proof.
  intros Hm. induction ws as [|w ws IH]; intros buf H Hk; [exact H|]. cbn [fold_left].
  cbn [join_bytes fold_right] in Hk. fold (join_bytes ws) in Hk.
  assert (Hp : held m t (buf_push buf 1)) by (apply held_push; [exact Hm|exact H|lia]).
  apply IH; [apply held_push; [exact Hm|exact Hp|rewrite buf_push_len; lia]|]. rewrite !buf_push_len. lia.
Qed.
Lemma held_joined m t c ws : 8 <= m -> c <= m -> join_bytes ws <= t -> held m t (joined c ws).
Proof.
  intros Hm Hc H. unfold joined. change (len (utf8 (lit " "))) with 1. destruct ws as [|w ws].
  - split; cbn [buf_len buf_cap buf_with_capacity]; lia.
  - cbn [join_bytes fold_right] in H. fold (join_bytes ws) in H.
    assert (H0 : held m t (buf_with_capacity c)) by (split; cbn [buf_len buf_cap buf_with_capacity]; lia).
    apply held_join; [exact Hm| |].
    + apply held_push; [exact Hm|exact H0|cbn [buf_len buf_with_capacity]; lia].
    + rewrite buf_push_len. cbn [buf_len buf_with_capacity]. lia.
Qed.
Lemma agree_unchecked b ent l : build_ok b -> bytes_ok ent -> legal_entropy ent ->
  from_entropy_unchecked_in b ent l = from_entropy_unchecked ent l.
Proof.
  intros Hb Hok HL. unfold from_entropy_unchecked_in, from_entropy_unchecked, sha256_first_byte.
  destruct (sha256_cons ent) as (h & tl & Hsha & Hh). rewrite Hsha. unfold index. cbn [N.to_nat nth_error or_panic bind].
  assert (Hok' : bytes_ok (ent ++ [h])) by (apply bytes_ok_app; split; [exact Hok|constructor; [exact Hh|constructor]]).
  pose proof (bi_new_collect b (ent ++ [h]) Hb Hok') as C.
  destruct (next_in b (bi_new (ent ++ [h]))) as [[[x it]|]|e|]; cbn [bind]; try contradiction.
  - destruct C as [C Hlen]. rewrite C. rewrite len_app in Hlen. change (len [h]) with 1 in Hlen.
    assert (Hlt : len ent < 64) by (apply legal_entropy_c in HL; destruct HL as (c & Hc & Hl); unfold len; lia).
    assert (Rv : exists c, reserve_in b it = Ok c /\ c <= 512).
    { unfold reserve_in. rewrite mul_in_ok by (apply usize_big; [exact Hb|lia]). cbn [bind].
      change (len (utf8 (lit " "))) with 1. rewrite add_in_ok by (apply usize_big; [exact Hb|lia]). cbn [bind]. change (10 + 1) with 11.
      assert (D : len (bi_source it) * 8 / 11 * 11 <= len (bi_source it) * 8) by (rewrite N.mul_comm; apply N.mul_div_le; discriminate).
      rewrite mul_in_ok by (apply usize_big; [exact Hb|lia]). eexists. split; [reflexivity|]. lia. }
    destruct Rv as (cap & -> & Hcap). cbn [bind].
    destruct (from_entropy_unchecked_spec ent l Hok HL) as (ws & Efe & HS).
    unfold from_entropy_unchecked, sha256_first_byte in Efe. rewrite Hsha in Efe. unfold index in Efe.
    cbn [N.to_nat nth_error or_panic bind] in Efe. rewrite C in Efe.
    destruct (collect_in b (S (length (ent ++ [h]))) it) as [xs|e|]; cbn [bind] in Efe |- *; try discriminate Efe.
    destruct (traverse (get_word (wordlist l)) (x :: xs)) as [ws'|e|] eqn:Et; cbn [bind] in Efe |- *; try discriminate Efe.
    assert (Hin : forall w, In w ws' -> In w (words l)).
    { apply (proj1 (traverse_ok_iff (get_word (wordlist l)) _ ws')) in Et. clear -Et. intros w Hw.
      induction Et as [|i v idx vs Hv Et IH]; [destruct Hw|]. destruct Hw as [<-|Hw]; [|apply IH, Hw].
      apply get_word_ok in Hv. eapply is_word_in, Hv. }
    assert (Hlen' : len ws' <= 64).
    { pose proof (bi_collect_spec (ent ++ [h]) Hok') as C'. rewrite C in C'. cbn [bind] in C'.
      apply (f_equal (fun r => match r with Ok y => length y | _ => 0%nat end)) in C'.
      rewrite map_length in C'. unfold groups in C'. rewrite map_length, seq_length, bits_of_bytes_length, app_length in C'.
      apply (proj1 (traverse_ok_iff (get_word (wordlist l)) _ ws')) in Et. apply Forall2_length in Et. rewrite C' in Et.
      clear -Et Hlt. unfold len in *. cbn [length] in Et.
      pose proof (Nat.div_le_mono (8 * (length ent + 1)) (8 * 64) 11 ltac:(discriminate)). change (8 * 64 / 11)%nat with 46%nat in *. lia. }
    assert (F : fits b (joined cap ws') = Ok tt).
    { apply (fits_held b 512 (9 * 64)); [exact Hb| |reflexivity|].
      - apply held_joined; [lia|exact Hcap|]. pose proof (join_bytes_bound l ws' Hin). lia.
      - destruct Hb as [-> | ->]; reflexivity. }
    rewrite F. reflexivity.
  - rewrite C. reflexivity.
Qed.
Lemma agree_from_entropy b ent l : build_ok b -> bytes_ok ent -> len ent < 2 ^ (usize b - 3) ->
  from_entropy_in b ent l = from_entropy ent l.
Proof.
  intros Hb Hok Hl. unfold from_entropy_in, from_entropy.
  assert (B : len ent * 8 < 2 ^ usize b /\ len ent * 8 < 2 ^ 64).
  { destruct Hb as [E|E]; rewrite E in *.
    - change (32 - 3) with 29 in Hl. change (2 ^ 29) with 536870912 in Hl. change (2 ^ 32) with 4294967296.
      change (2 ^ 64) with 18446744073709551616. lia.
    - change (64 - 3) with 61 in Hl. change (2 ^ 61) with 2305843009213693952 in Hl. change (2 ^ 64) with 18446744073709551616. lia. }
  destruct B as [B1 B2]. rewrite mul_in_ok by exact B1. unfold mul_chk. rewrite (proj2 (N.ltb_lt _ _) B2). cbn [bind].
  destruct (for_key_size (len ent * 8)) as [t|e|] eqn:E; cbn [bind]; try reflexivity.
  apply agree_unchecked; [exact Hb|exact Hok|]. apply for_key_size_ok in E. apply legal_entropy_c. exists (mt_c t).
  split; [apply mt_c_range|]. unfold len in E. lia.
Qed.
Lemma agree_new b t l rng : build_ok b -> (forall i, rng i < 256) -> mnemonic_new_in b t l rng = mnemonic_new t l rng.
Proof.
  intros Hb Hr. unfold mnemonic_new_in, mnemonic_new. apply agree_unchecked; [exact Hb| |].
  - unfold gen_random_bytes. apply Forall_forall. intros x Hx. apply in_map_iff in Hx. destruct Hx as (i & <- & _). apply Hr.
  - unfold legal_entropy, gen_random_bytes. rewrite map_length, seq_length. destruct t; vm_compute; tauto.
Qed.

(** Debug and release builds on machines of 32 and of 64 bits do the same with inputs below 2^29 or 2^61
    bytes. *)
Lemma c130_builds_agree : forall b : build, build_ok b ->
  (forall (s : str) (l : language), len (utf8 s) < 2 ^ (usize b - 3) ->
     validate_in b s l = validate s l
     /\ (len (utf8 (spaced (map nfkd (split_whitespace s)))) < 2 ^ (usize b - 3) -> from_phrase_in b s l = from_phrase s l))
  /\ (forall (ent : bytes) (l : language), bytes_ok ent -> len ent < 2 ^ (usize b - 3) ->
        from_entropy_in b ent l = from_entropy ent l)
  /\ (forall (t : mnemonic_type) (l : language) (rng : nat -> N), (forall i, rng i < 256) ->
        mnemonic_new_in b t l rng = mnemonic_new t l rng).
Proof.
  intros b Hb. split; [|split].
  - intros s l Hs. split; [|intros Ht; apply agree_from_phrase; assumption]. unfold validate_in, validate. rewrite agree_validate by assumption. reflexivity.
  - intros ent l Hok Hl. apply agree_from_entropy; assumption.
  - intros t l rng Hr. apply agree_new; assumption.
Qed.
Example c130_example : build_ok (Build 32 false)
  /\ is_ok (validate_in (Build 32 false) (lit "abandon abandon abandon abandon abandon abandon abandon abandon abandon abandon abandon about") English) = true.
Proof.
  split; [left; reflexivity|].
  destruct (c130_builds_agree (Build 32 false)) as (H & _); [left; reflexivity|].
  destruct (H (lit "abandon abandon abandon abandon abandon abandon abandon abandon abandon abandon abandon about") English) as [E _]; [vm_compute; reflexivity|].
  rewrite E. vm_compute. reflexivity.
Qed.

(** ** Counting words in a register *)
Lemma validate_in_ok b s l : validate_in b s l = Ok tt <-> exists ent, phrase_to_entropy_in b s l = Ok ent.
Proof.
  unfold validate_in. destruct (phrase_to_entropy_in b s l) as [e|e|]; cbn [bind]; split.
  - intros _. exists e. reflexivity.
  - reflexivity.
  - discriminate.
  - intros (x & H). discriminate.
  - discriminate.
  - intros (x & H). discriminate.
Qed.
(** A build without overflow checks accepts a text if all its words are in the list and the words that the
    counter sees are a sentence. *)
Lemma c131_without_checks : forall (width : N) (s : str) (l : language), build_ok (Build width false) ->
  len (utf8 s) < 2 ^ (width - 1) ->
  (validate_in (Build width false) s l = Ok tt
   <-> all_in_list l (split_char 32 s)
       /\ exists ent, bip39_sentence l (firstn (words_seen width (length (split_char 32 s))) (split_char 32 s)) ent).
Proof.
  intros width s l Hb Hs. rewrite all_in_list_words, validate_in_ok.
  destruct (words_all_dec l (split_char 32 s)) as [(w & Hw & Hn)|Hall].
  - rewrite (foreign_word _ s l w Hb Hs Hw Hn). split.
    + intros (ent & H). discriminate.
    + intros (Hall & _). exfalso. apply Hn, Hall, Hw.
  - assert (C : spec_outcome l (firstn (words_seen width (length (split_char 32 s))) (split_char 32 s)) (phrase_to_entropy_in (Build width false) s l)).
    { apply (counted (Build width false) s l ((11 * len (split_char 32 s)) mod 2 ^ width) Hb Hs Hall).
      - intros w bits Hw Hl. rewrite (len_unchecked (Build width false) w bits eq_refl Hw), Hl. reflexivity.
      - apply N.mod_le, pow2_nz.
      - discriminate. }
    split.
    + intros (ent & E). rewrite E in C. split; [exact Hall|]. exists ent. inversion C. assumption.
    + intros (_ & ent & HS). exists ent. eapply spec_outcome_fun; [exact C|]. apply spec_good, HS.
Qed.
(** A build with overflow checks does what the model of the debug build on 64 bits does, or panics: exactly
    when all words are in the list and the number of their bits is too large. *)
Lemma c131_with_checks : forall (width : N) (s : str) (l : language), build_ok (Build width true) ->
  len (utf8 s) < 2 ^ (width - 1) ->
  (all_in_list l (split_char 32 s) /\ 2 ^ width <= 11 * len (split_char 32 s)
     -> validate_in (Build width true) s l = Panic)
  /\ (~ (all_in_list l (split_char 32 s) /\ 2 ^ width <= 11 * len (split_char 32 s))
     -> validate_in (Build width true) s l = validate s l).
Proof.
  intros width s l Hb Hs. rewrite all_in_list_words. split.
  - intros [Hall Hn]. unfold validate_in, phrase_to_entropy_in.
    rewrite (write_words_agree _ l Hb _ [] bw_new 0 bw_holds_new eq_refl (text_pieces (Build width true) s Hs)).
    destruct (all_words_indices l (split_char 32 s) Hall) as (idx & F).
    destruct (push_words_ok l idx (split_char 32 s) [] bw_new F bw_holds_new) as (bw & -> & Hbw). cbn [bind app] in *.
    rewrite (len_checked (Build width true) bw _ eq_refl Hbw). cbn [usize].
    assert (Hli : length idx = length (split_char 32 s)) by (eapply Forall2_length; exact F).
    assert (L : len (flat_map (bits_of 11) idx) = 11 * len (split_char 32 s)) by (unfold len; rewrite flat_map_bits_length; lia).
    rewrite L. replace (11 * len (split_char 32 s) <? 2 ^ width) with false; [reflexivity|]. symmetry. apply N.ltb_ge, Hn.
  - intros H. unfold validate_in, validate. rewrite agree_words; [reflexivity|exact Hb|exact Hs|]. intros Hall. cbn [usize].
    destruct (N.lt_ge_cases (11 * len (split_char 32 s)) (2 ^ width)) as [L|L]; [exact L|]. exfalso. apply H. split; assumption.
Qed.
(** Any sentence with so many words of the list appended is accepted on 32 bits without overflow checks, and
    panics with them. *)
Lemma lap_seen n : (n <= 24)%nat -> words_seen 32 (n + N.to_nat one_lap) = n.
Proof.
  intros H. unfold words_seen. rewrite Nat2N.inj_add, N2Nat.id. unfold one_lap.
  assert (E : (11 * (N.of_nat n + 390451573)) mod 2 ^ 32 = 11 * N.of_nat n + 7).
  { replace (11 * (N.of_nat n + 390451573)) with (11 * N.of_nat n + 7 + 1 * 2 ^ 32) by (change (2 ^ 32) with 4294967296; lia).
    rewrite N.mod_add by apply pow2_nz. apply N.mod_small. change (2 ^ 32) with 4294967296. lia. }
  rewrite E. rewrite <- (N.div_unique (11 * N.of_nat n + 7) 11 (N.of_nat n) 7) by lia. apply Nat2N.id.
Qed.
Lemma c131_appended_words : forall (l : language) (ws more : list str) (ent : bytes),
  bip39_sentence l ws ent -> all_in_list l more -> len more = one_lap -> len (utf8 (spaced (ws ++ more))) < 2 ^ 31 ->
  validate_in (Build 32 false) (spaced (ws ++ more)) l = Ok tt
  /\ validate_in (Build 32 true) (spaced (ws ++ more)) l = Panic.
Proof.
  intros l ws more ent HS Hm Hl Hs. pose proof (sentence_nonempty l ws ent HS) as Hne.
  assert (Hw : all_words l (ws ++ more)).
  { intros w Hw. apply in_app_or in Hw. destruct Hw as [Hw|Hw]; [eapply sentence_words; eassumption|].
    rewrite <- bip39_list_words. apply Hm, Hw. }
  assert (Hsp : split_char 32 (spaced (ws ++ more)) = ws ++ more).
  { apply (split_char_sentence l); [|exact Hw]. destruct ws; [congruence|discriminate]. }
  assert (Hc : (length ws <= 24)%nat).
  { pose proof (sentence_parts l ws ent HS) as (_ & HL & HC & HE). destruct (encodes_legal_count _ _ _ _ HL HC HE) as [_ H].
    unfold legal_count in H. cbn [In] in H. lia. }
  assert (Hlm : length more = N.to_nat one_lap) by (rewrite <- Hl; unfold len; symmetry; apply Nat2N.id).
  split.
  - apply (c131_without_checks 32); [left; reflexivity|exact Hs|]. rewrite Hsp. split; [apply all_in_list_words, Hw|]. exists ent.
    rewrite app_length, Hlm, lap_seen by exact Hc.
    rewrite firstn_app, firstn_all, Nat.sub_diag, firstn_O, app_nil_r. exact HS.
  - apply (c131_with_checks 32); [left; reflexivity|exact Hs|]. rewrite Hsp. split; [apply all_in_list_words, Hw|].
    rewrite len_app, Hl. unfold one_lap. change (2 ^ 32) with 4294967296. lia.
Qed.
Lemma join_bytes_app a b : join_bytes (a ++ b) = join_bytes a + join_bytes b.
Proof. induction a as [|w a IH]; [reflexivity|]. cbn [app join_bytes fold_right]. fold (join_bytes (a ++ b)) (join_bytes a). lia. Qed.
Lemma join_bytes_repeat w k : join_bytes (repeat w k) = N.of_nat k * (1 + len (utf8 w)).
Proof. induction k as [|k IH]; [reflexivity|]. cbn [repeat join_bytes fold_right]. fold (join_bytes (repeat w k)). lia. Qed.
Lemma act_word : In (lit "act") (words English).
Proof.
  assert (E : existsb (str_eqb (lit "act")) (words English) = true) by (vm_compute; reflexivity).
  apply existsb_exists in E. destruct E as (w & Hw & E). apply str_eqb_spec in E. rewrite E. exact Hw.
Qed.
Lemma many_acts n : exists more, all_in_list English more /\ len more = n /\ join_bytes more = n * 4.
Proof.
  exists (repeat (lit "act") (N.to_nat n)). split; [|split].
  - intros w Hw. apply repeat_spec in Hw. subst w. rewrite bip39_list_words. exact act_word.
  - unfold len. rewrite repeat_length. apply N2Nat.id.
  - rewrite join_bytes_repeat, N2Nat.id. reflexivity.
Qed.
(** A text of less than 2^31 bytes with more than 24 words that is accepted. *)
Lemma c131_length_checked_refuted : exists (b : build) (s : str) (l : language),
  build_ok b /\ len (utf8 s) < 2 ^ (usize b - 1) /\ validate_in b s l = Ok tt
  /\ (24 < length (split_char 32 s))%nat.
Proof.
  assert (Hz : legal_entropy (repeat 0 16)) by (left; reflexivity).
  assert (Ho : bytes_ok (repeat 0 16)).
  { apply Forall_forall. intros x Hx. apply repeat_spec in Hx. subst x. reflexivity. }
  destruct (from_entropy_unchecked_spec (repeat 0 16) English Ho Hz) as (ws & _ & HS).
  destruct (many_acts one_lap) as (more & Hm & Hl & J). pose proof (sentence_nonempty _ _ _ HS) as Hne.
  assert (Hw : all_words English (ws ++ more)).
  { intros w Hw. apply in_app_or in Hw. destruct Hw as [Hw|Hw]; [eapply sentence_words; eassumption|].
    rewrite <- bip39_list_words. apply Hm, Hw. }
  assert (Hs : len (utf8 (spaced (ws ++ more))) < 2 ^ 31).
  { assert (Hc : len ws <= 24).
    { pose proof (sentence_parts _ _ _ HS) as (_ & HL & HC & HE). destruct (encodes_legal_count _ _ _ _ HL HC HE) as [_ H].
      unfold legal_count in H. cbn [In] in H. unfold len. lia. }
    destruct ws as [|w ws]; [congruence|]. cbn [app]. rewrite utf8_spaced, join_bytes_app, J.
    destruct (words_bytes English w (sentence_words _ _ _ _ HS (or_introl eq_refl))) as [_ B].
    pose proof (join_bytes_bound English ws (fun v Hv => sentence_words _ _ _ v HS (or_intror Hv))) as B'.
    change (w :: ws) with ([w] ++ ws) in Hc. rewrite len_app in Hc. change (len [w]) with 1 in Hc.
    change (2 ^ 31) with 2147483648. unfold one_lap. lia. }
  exists (Build 32 false), (spaced (ws ++ more)), English.
  split; [left; reflexivity|]. split; [exact Hs|]. split.
  - apply (c131_appended_words English ws more (repeat 0 16)); assumption.
  - rewrite (split_char_sentence English (ws ++ more)); [|destruct ws; [congruence|discriminate]|exact Hw].
    rewrite app_length. unfold len in Hl. unfold one_lap in Hl. lia.
Qed.
(** Words of a list make a buffer that starts with 8 bytes and is doubled each time it is full. *)
Definition doubled (buf : buffer) : Prop :=
  buf_len buf <= buf_cap buf /\ (buf_cap buf = 0 \/ exists j, buf_cap buf = 8 * 2 ^ j).
Lemma doubled_reserve buf k : doubled buf -> k <= 8 -> doubled (buf_reserve buf k).
Proof.
  intros [H1 H2] Hk. unfold buf_reserve. destruct (N.ltb_spec (buf_cap buf - buf_len buf) k) as [L|L]; [|split; assumption].
  split; cbn [buf_len buf_cap]; [lia|]. right. destruct H2 as [E|(j & E)]; rewrite E in *.
  - exists 0. change (8 * 2 ^ 0) with 8. lia.
  - exists (N.succ j). rewrite N.pow_succ_r'. assert (1 <= 2 ^ j) by (pose proof (pow2_nz j); lia).
    generalize dependent (2 ^ j). intros q. lia.
Qed.
Lemma doubled_push buf k : doubled buf -> k <= 8 -> doubled (buf_push buf k).
Proof.
  intros H Hk. pose proof (doubled_reserve buf k H Hk) as [H1 H2]. destruct H as [H3 _]. unfold buf_push. split; cbn [buf_len buf_cap]; [|exact H2].
  unfold buf_reserve in *. destruct (N.ltb_spec (buf_cap buf - buf_len buf) k) as [L|L]; cbn [buf_len buf_cap] in *; lia.
Qed.
Lemma doubled_chars s : forall buf, doubled buf -> doubled (fold_left (fun buf c => buf_push buf (len (utf8_char c))) s buf).
Proof.
  induction s as [|c s IH]; intros buf H; [exact H|]. cbn [fold_left]. apply IH, doubled_push; [exact H|].
  pose proof (utf8_char_len c). lia.
Qed.
Lemma doubled_extend l buf w : doubled buf -> In (nfkd w) (words l) -> doubled (extend_nfkd buf w).
Proof.
  intros H Hw. unfold extend_nfkd. apply doubled_chars, doubled_reserve; [exact H|].
  pose proof (quarter w) as Q. destruct (words_bytes l (nfkd w) Hw) as [_ B]. lia.
Qed.
Lemma doubled_phrase l ws : all_words l (map nfkd ws) -> forall buf, doubled buf ->
  doubled (fold_left (fun buf w => extend_nfkd (buf_push buf 1) w) ws buf).
Proof.
  induction ws as [|w ws IH]; intros Hall buf H; [exact H|]. cbn [fold_left]. cbn [map] in Hall.
  apply IH; [intros v Hv; apply Hall; right; exact Hv|]. apply (doubled_extend l); [|apply Hall; left; reflexivity].
  apply doubled_push; [exact H|lia].
Qed.
Lemma doubled_buffer l s buf : all_words l (norm_words s) -> from_phrase_buffer s = Ok buf -> doubled buf.
Proof.
  unfold from_phrase_buffer, norm_words. assert (H0 : doubled (buf_with_capacity 0)) by (split; cbn; [lia|left; reflexivity]).
  destruct (split_whitespace s) as [|w ws]; intros Hall E.
  - injection E as <-. exact H0.
  - change (join_capacity 0 (lit " ")) with (Ok (E := error_kind) 0) in E. cbn [bind] in E. change (len (utf8 (lit " "))) with 1 in E.
    apply (f_equal (fun r => match r with Ok y => y | _ => buf end)) in E. subst buf. cbn [map] in Hall.
    apply (doubled_phrase l); [intros v Hv; apply Hall; right; exact Hv|]. apply (doubled_extend l); [exact H0|apply Hall; left; reflexivity].
Qed.
Lemma doubled_limit b buf : build_ok b -> doubled buf -> buf_cap buf < 2 ^ (usize b - 1) -> buf_len buf <= 2 ^ (usize b - 2).
Proof.
  intros Hb [H1 H2] H. eapply N.le_trans; [exact H1|]. destruct H2 as [E|(j & E)]; rewrite E in *; [apply N.le_0_l|].
  change 8 with (2 ^ 3) in *. rewrite <- N.pow_add_r in *. apply N.pow_lt_mono_r_iff in H; [|lia].
  apply N.pow_le_mono_r; [lia|]. destruct Hb as [U|U]; rewrite U in *; lia.
Qed.
(** The buffer of [from_phrase] cannot hold so many words: it accepts the same texts in all builds. *)
Lemma c131_from_phrase : forall (b : build) (s : str) (l : language) (m : mnemonic), build_ok b ->
  (from_phrase_in b s l = Ok m <-> from_phrase s l = Ok m).
Proof.
  intros b s l m Hb. unfold from_phrase_in. destruct (phrase_buffer s) as (buf & E & Hlen & Hh). rewrite E. cbn [bind].
  rewrite iter_join_spaced. fold (norm_words s).
  assert (A : len (utf8 (spaced (norm_words s))) < 2 ^ (usize b - 1) ->
     (all_words l (split_char 32 (spaced (norm_words s))) -> 11 * len (split_char 32 (spaced (norm_words s))) < 2 ^ usize b) ->
     (let* entropy := phrase_to_entropy_in b (spaced (norm_words s)) l in Ok (Mnemonic (spaced (norm_words s)) l entropy)) = from_phrase s l).
  { intros H1 H2. rewrite agree_words by assumption. unfold from_phrase. rewrite iter_join_spaced. reflexivity. }
  split; intros H.
  - unfold fits in H. destruct (N.ltb_spec (buf_cap buf) (2 ^ (usize b - 1))) as [L|L]; cbn [bind] in H; [|discriminate].
    rewrite <- A; [exact H| |].
    + rewrite <- Hlen. destruct Hh as [Hh _]. eapply N.le_lt_trans; [exact Hh|exact L].
    + intros Hall. destruct (norm_pieces l s) as [[Hne Hp]|[[Hne Hp]|(v & w & Hv & Hnv & _)]].
      * rewrite Hp in *. pose proof (doubled_buffer l s buf Hall E) as D. pose proof (doubled_limit b buf Hb D L) as Q. rewrite Hlen in Q.
        pose proof (pieces_bytes l (norm_words s) (proj2 (all_in_list_words l _) Hall)) as P4.
        assert (J : join_bytes (norm_words s) <= len (utf8 (spaced (norm_words s))) + 1).
        { destruct (norm_words s) as [|w ws]; [cbn; lia|]. rewrite utf8_spaced. cbn [join_bytes fold_right]. fold (join_bytes ws). lia. }
        assert (U : 2 ^ usize b = 4 * 2 ^ (usize b - 2)) by (destruct Hb as [-> | ->]; reflexivity).
        assert (U' : 64 <= 2 ^ (usize b - 2)) by (destruct Hb as [-> | ->]; vm_compute; discriminate).
        rewrite U. clear -Q P4 J U'. generalize dependent (2 ^ (usize b - 2)). intros q Q U'. lia.
      * exfalso. apply (empty_not_word l), Hall. rewrite Hp. left. reflexivity.
      * exfalso. apply Hnv, Hall, Hv.
  - pose proof (from_phrase_sentence s l m H) as HS. fold (norm_words s) in HS.
    assert (Hall : all_words l (norm_words s)) by (intros w Hw; eapply sentence_words; eassumption).
    assert (Hc : len (norm_words s) <= 24).
    { pose proof (sentence_parts _ _ _ HS) as (_ & HL & HC & HE). destruct (encodes_legal_count _ _ _ _ HL HC HE) as [_ H'].
      unfold legal_count in H'. cbn [In] in H'. unfold len. lia. }
    assert (Ht : len (utf8 (spaced (norm_words s))) <= 216).
    { pose proof (join_bytes_bound l _ Hall) as B. destruct (norm_words s) as [|w ws]; [cbn; lia|]. rewrite utf8_spaced.
      cbn [join_bytes fold_right] in B. fold (join_bytes ws) in B. lia. }
    assert (P31 : 2147483648 <= 2 ^ (usize b - 1)) by (destruct Hb as [-> | ->]; vm_compute; discriminate).
    assert (F : fits b buf = Ok tt).
    { apply (fits_held b 8 (len (utf8 (spaced (norm_words s))))); [exact Hb|exact Hh|reflexivity|].
      clear -Ht P31. generalize dependent (2 ^ (usize b - 1)). intros q P31. lia. }
    rewrite F. cbn [bind]. rewrite A; [exact H| |].
    + clear -Ht P31. generalize dependent (2 ^ (usize b - 1)). intros q P31. lia.
    + intros _. rewrite (split_char_sentence l); [|eapply sentence_nonempty, HS|exact Hall]. apply usize_big; [exact Hb|lia].
Qed.
Example c131_example : words_seen 32 (12 + N.to_nat one_lap) = 12%nat /\ words_seen 64 (12 + N.to_nat one_lap) = (12 + N.to_nat one_lap)%nat.
Proof.
  split; [apply lap_seen; lia|]. unfold words_seen. rewrite Nat2N.inj_add, N2Nat.id. unfold one_lap.
  rewrite N.mod_small by (change (2 ^ 64) with 18446744073709551616; lia). rewrite N.mul_comm, N.div_mul by discriminate. lia.
Qed.

(** ** The length of the entropy *)
Lemma for_key_size_residue (r : N) : match for_key_size (8 * r) with Ok _ => In r [16; 20; 24; 28; 32] | Err e => e = InvalidKeysize (8 * r) /\ ~ In r [16; 20; 24; 28; 32] | Panic => False end.
Proof.
  destruct (in_dec N.eq_dec r [16; 20; 24; 28; 32]) as [H|H].
  - repeat destruct H as [<-|H]; try (vm_compute; tauto). destruct H.
  - rewrite for_key_size_err; [auto|]. intros t Ht. apply H. destruct t; vm_compute mt_c in Ht; cbn [In]; lia.
Qed.
Lemma wrap_8 b n : build_ok b -> wrap (usize b) (n * 8) = 8 * (n mod 2 ^ (usize b - 3)).
Proof.
  intros Hb. unfold wrap. rewrite (N.mul_comm n 8).
  replace (2 ^ usize b) with (8 * 2 ^ (usize b - 3)) by (destruct Hb as [-> | ->]; reflexivity).
  apply N.mul_mod_distr_l; [apply pow2_nz|discriminate].
Qed.
Lemma five_sizes (r : N) : In r [16; 20; 24; 28; 32] -> 16 <= r <= 32.
Proof. intros H. cbn [In] in H. lia. Qed.
Lemma mod_pred n m : m <> 0 -> 0 < n mod m -> (n - 1) mod m = n mod m - 1.
Proof.
  intros Hm H. symmetry. apply N.mod_unique with (n / m).
  - pose proof (N.mod_lt n m Hm). lia.
  - pose proof (N.div_mod n m Hm) as E. rewrite E at 1. generalize dependent (n mod m). intros r Hr _. generalize (m * (n / m)). intros x. lia.
Qed.
Lemma reserve_small width it n : build_ok (Build width false) -> len (bi_source it) = n - 1 ->
  In (n mod 2 ^ (width - 3)) [16; 20; 24; 28; 32] ->
  reserve_in (Build width false) it = Ok (8 * (n mod 2 ^ (width - 3) - 1) / 11 * 11) /\ 8 * (n mod 2 ^ (width - 3) - 1) / 11 * 11 <= 256.
Proof.
  intros Hb Hit K. apply five_sizes in K. unfold reserve_in. unfold mul_in at 1. cbn [checks]. rewrite wrap_8 by exact Hb. cbn [bind].
  rewrite Hit. cbn [usize]. rewrite mod_pred; [|apply pow2_nz|lia]. generalize dependent (n mod 2 ^ (width - 3)). intros r Hr.
  change (len (utf8 (lit " "))) with 1. rewrite add_in_ok by (apply (usize_big _ 11 Hb); reflexivity). cbn [bind]. change (10 + 1) with 11.
  assert (Hq : 8 * (r - 1) / 11 * 11 <= 256).
  { rewrite N.mul_comm. pose proof (N.mul_div_le (8 * (r - 1)) 11 ltac:(discriminate)). lia. }
  generalize dependent (8 * (r - 1) / 11). intros q Hq. rewrite mul_in_ok by (apply (usize_big _ _ Hb); lia). split; [reflexivity|exact Hq].
Qed.
Lemma long_phrase (width : N) (ent : bytes) (l : language) : build_ok (Build width false) -> bytes_ok ent ->
  In (len ent mod 2 ^ (width - 3)) [16; 20; 24; 28; 32] ->
  let cap := 8 * (len ent mod 2 ^ (width - 3) - 1) / 11 * 11 in
  cap <= 256 /\ exists ws, length ws = ((8 * (length ent + 1)) / 11)%nat /\ all_in_list l ws
    /\ from_entropy_in (Build width false) ent l = (let* _ := fits (Build width false) (joined cap ws) in Ok (Mnemonic (spaced ws) l ent)).
Proof.
  intros Hb Hok K cap. unfold from_entropy_in.
  assert (E : mul_in (Build width false) (usize (Build width false)) (len ent) 8 = Ok (8 * (len ent mod 2 ^ (width - 3)))).
  { unfold mul_in. cbn [checks]. rewrite wrap_8 by exact Hb. reflexivity. }
  rewrite E. cbn [bind]. pose proof (for_key_size_residue (len ent mod 2 ^ (width - 3))) as K'.
  destruct (for_key_size (8 * (len ent mod 2 ^ (width - 3)))) as [t|e|]; cbn [bind]; [|destruct K' as [_ K']; contradiction|destruct K'].
  unfold from_entropy_unchecked_in, sha256_first_byte.
  destruct (sha256_cons ent) as (h & tl & Hsha & Hh). rewrite Hsha. unfold index. cbn [N.to_nat nth_error or_panic bind].
  assert (Hok' : bytes_ok (ent ++ [h])) by (apply bytes_ok_app; split; [exact Hok|constructor; [exact Hh|constructor]]).
  pose proof (bi_new_collect (Build width false) (ent ++ [h]) Hb Hok') as C.
  pose proof (bi_collect_spec (ent ++ [h]) Hok') as C'.
  set (bits := bits_of_bytes (ent ++ [h])) in *.
  assert (Hbits : length bits = (8 * (length ent + 1))%nat) by (unfold bits; rewrite bits_of_bytes_length, app_length; cbn; lia).
  assert (Hlen : 16 <= len ent).
  { pose proof (N.mod_le (len ent) (2 ^ (width - 3)) (pow2_nz _)) as H. apply five_sizes in K. eapply N.le_trans; [apply K|exact H]. }
  destruct (next_in (Build width false) (bi_new (ent ++ [h]))) as [[[x it]|]|e|]; cbn [bind]; try contradiction.
  2:{ rewrite C in C'. exfalso. assert (F : length (map val_of_bits (groups bits)) = (length bits / 11)%nat).
      { rewrite map_length. unfold groups. rewrite map_length, seq_length. reflexivity. }
      apply (f_equal (fun r => match r with Ok x => length x | _ => 0%nat end)) in C'. cbn [length] in C'. rewrite F in C'. unfold len in Hlen.
      pose proof (Nat.div_le_mono 11 (length bits) 11 ltac:(discriminate)). change (11 / 11)%nat with 1%nat in *. lia. }
  destruct C as [C Hit].
  assert (Rv : len (bi_source it) = len ent - 1).
  { rewrite len_app in Hit. change (len [h]) with 1 in Hit. clear -Hit Hlen. lia. }
  destruct (reserve_small width it (len ent) Hb Rv K) as [-> Hcap].
  fold cap in Hcap |- *. clearbody cap. split; [exact Hcap|].
  cbn [bind]. rewrite C' in C.
  destruct (collect_in (Build width false) (S (length (ent ++ [h]))) it) as [xs|e|]; cbn [bind] in C |- *; try discriminate C.
  assert (Ex : x :: xs = map val_of_bits (groups bits)) by exact (eq_sym (f_equal (fun r => match r with Ok y => y | _ => [] end) C)).
  rewrite Ex.
  set (n := (8 * (length ent + 1) / 11)%nat).
  assert (Hn : (11 * n <= length bits < 11 * (n + 1))%nat).
  { rewrite Hbits. unfold n. pose proof (Nat.div_mod (8 * (length ent + 1)) 11 ltac:(discriminate)).
    pose proof (Nat.mod_upper_bound (8 * (length ent + 1)) 11 ltac:(discriminate)). lia. }
  rewrite (groups_firstn n bits) by lia.
  assert (Hf : length (firstn (11 * n) bits) = (11 * n)%nat) by (rewrite firstn_length; lia).
  destruct (groups_decompose n _ Hf) as (_ & H2 & H3).
  destruct (get_words_total l _ H3) as (ws & Hws).
  assert (Hin : all_in_list l ws) by (apply all_in_list_words; intros w Hw; eapply forall2_is_word_in; eassumption).
  exists ws. split; [|split; [exact Hin|]].
  - rewrite <- (Forall2_length _ _ _ Hws), map_length. exact H2.
  - rewrite (proj2 (traverse_ok_iff (get_word (wordlist l)) _ ws)) by (clear -Hws; induction Hws; constructor; auto; apply get_word_ok; assumption).
    cbn [bind]. rewrite iter_join_spaced. reflexivity.
Qed.
(** A build without overflow checks looks only at the remainder of the length modulo 2^29 or 2^61: if that is
    one of the five sizes, it goes on to make a phrase of all the bytes.  Only a phrase of more than a quarter of
    the address space can fail. *)
Lemma c132_without_checks : forall (width : N) (ent : bytes) (l : language), build_ok (Build width false) -> bytes_ok ent ->
  (In (len ent mod 2 ^ (width - 3)) [16; 20; 24; 28; 32] ->
     exists ws, length ws = ((8 * (length ent + 1)) / 11)%nat /\ all_in_list l ws
             /\ (from_entropy_in (Build width false) ent l = Ok (Mnemonic (spaced ws) l ent)
                 \/ (from_entropy_in (Build width false) ent l = Panic /\ 2 ^ (width - 2) <= len (utf8 (spaced ws)) + 1)))
  /\ (~ In (len ent mod 2 ^ (width - 3)) [16; 20; 24; 28; 32] ->
     from_entropy_in (Build width false) ent l = Err (InvalidKeysize (8 * (len ent mod 2 ^ (width - 3))))).
Proof.
  intros width ent l Hb Hok. split; intros K.
  - destruct (long_phrase width ent l Hb Hok K) as (Hcap & ws & Hlen & Hin & E). exists ws. split; [exact Hlen|]. split; [exact Hin|].
    rewrite E. generalize dependent (8 * (len ent mod 2 ^ (width - 3) - 1) / 11 * 11). intros cap Hcap _. unfold fits.
    destruct (N.ltb_spec (buf_cap (joined cap ws)) (2 ^ (usize (Build width false) - 1))) as [L|L]; cbn [bind]; [left; reflexivity|].
    right. split; [reflexivity|]. cbn [usize] in L.
    destruct (held_joined 256 (join_bytes ws) cap ws ltac:(lia) Hcap (N.le_refl _)) as [_ Q].
    assert (J : join_bytes ws <= len (utf8 (spaced ws)) + 1).
    { clear. destruct ws as [|w ws]; [cbn; lia|]. rewrite utf8_spaced. cbn [join_bytes fold_right]. fold (join_bytes ws). lia. }
    assert (U : 2 ^ (width - 1) = 2 * 2 ^ (width - 2)) by (destruct Hb as [E'|E']; cbn [usize] in E'; rewrite E'; reflexivity).
    assert (U' : 1024 <= 2 ^ (width - 1)) by (destruct Hb as [E'|E']; cbn [usize] in E'; rewrite E'; vm_compute; discriminate).
    clear -L Q J U U'. generalize dependent (2 ^ (width - 1)). generalize dependent (2 ^ (width - 2)). intros q q' L U U'. lia.
  - unfold from_entropy_in.
    assert (E : mul_in (Build width false) (usize (Build width false)) (len ent) 8 = Ok (8 * (len ent mod 2 ^ (width - 3)))).
    { unfold mul_in. cbn [checks]. rewrite wrap_8 by exact Hb. reflexivity. }
    rewrite E. cbn [bind]. pose proof (for_key_size_residue (len ent mod 2 ^ (width - 3))) as K'.
    destruct (for_key_size (8 * (len ent mod 2 ^ (width - 3)))) as [t|e|]; cbn [bind]; [contradiction|destruct K' as [-> _]; reflexivity|destruct K'].
Qed.
(** A buffer of 110 bytes that is doubled. *)
Definition tens (buf : buffer) : Prop := exists j, j <= 24 /\ buf_cap buf = 110 * 2 ^ j /\ buf_len buf <= buf_cap buf.
Lemma tens_push buf k : tens buf -> k <= 110 -> buf_len buf + k <= 110 * 2 ^ 24 -> tens (buf_push buf k).
Proof.
  intros (j & Hj & Hc & Hl) Hk Ht. unfold tens, buf_push, buf_reserve.
  destruct (N.ltb_spec (buf_cap buf - buf_len buf) k) as [L|L]; cbn [buf_len buf_cap].
  - assert (Hj' : j < 24).
    { apply N.lt_nge. intros H. assert (E : j = 24) by lia. rewrite E in Hc. rewrite <- Hc in Ht. lia. }
    exists (N.succ j). split; [lia|]. rewrite N.pow_succ_r', Hc in *. clear Ht. assert (1 <= 2 ^ j) by (pose proof (pow2_nz j); lia).
    clear Hj Hj'. generalize dependent (2 ^ j). intros q. lia.
  - exists j. split; [exact Hj|]. split; [exact Hc|]. lia.
Qed.
Lemma tens_join ws : all_words ChineseSimplified ws -> forall buf, tens buf -> buf_len buf + 4 * len ws <= 110 * 2 ^ 24 ->
  tens (fold_left (fun buf w => buf_push (buf_push buf 1) (len (utf8 w))) ws buf).
Proof.
  induction ws as [|w ws IH]; intros Hall buf H Hk; [exact H|]. cbn [fold_left].
  change (w :: ws) with ([w] ++ ws) in Hk. rewrite len_app in Hk. change (len [w]) with 1 in Hk.
  rewrite (word_zh_bytes w (Hall w (or_introl eq_refl))).
  assert (H1 : tens (buf_push buf 1)).
  { apply tens_push; [exact H|lia|]. clear -Hk. generalize dependent (110 * 2 ^ 24). intros q Hk. lia. }
  apply IH; [intros v Hv; apply Hall; right; exact Hv| |].
  - apply tens_push; [exact H1|lia|]. rewrite buf_push_len. clear -Hk. generalize dependent (110 * 2 ^ 24). intros q Hk. lia.
  - rewrite !buf_push_len. clear -Hk. generalize dependent (110 * 2 ^ 24). intros q Hk. lia.
Qed.
Lemma tens_joined ws : all_words ChineseSimplified ws -> 4 * len ws <= 110 * 2 ^ 24 -> tens (joined 110 ws).
Proof.
  intros Hall Hk. assert (H0 : tens (buf_with_capacity 110)).
  { exists 0. split; [lia|]. split; [reflexivity|]. cbn [buf_len buf_cap buf_with_capacity]. lia. }
  unfold joined. change (len (utf8 (lit " "))) with 1. destruct ws as [|w ws]; [exact H0|].
  change (w :: ws) with ([w] ++ ws) in Hk. rewrite len_app in Hk. change (len [w]) with 1 in Hk.
  rewrite (word_zh_bytes w (Hall w (or_introl eq_refl))).
  apply tens_join; [intros v Hv; apply Hall; right; exact Hv| |].
  - apply tens_push; [exact H0|lia|]. cbn [buf_len buf_with_capacity]. clear -Hk. generalize dependent (110 * 2 ^ 24). intros q Hk. lia.
  - rewrite buf_push_len. cbn [buf_len buf_with_capacity]. clear -Hk. generalize dependent (110 * 2 ^ 24). intros q Hk. lia.
Qed.
(** A build with overflow checks panics from 2^29 or 2^61 bytes on. *)
Lemma c132_with_checks : forall (width : N) (ent : bytes) (l : language), build_ok (Build width true) ->
  2 ^ (width - 3) <= len ent -> from_entropy_in (Build width true) ent l = Panic.
Proof.
  intros width ent l Hb H. unfold from_entropy_in, mul_in. cbn [checks usize]. unfold mul_chk.
  replace (len ent * 8 <? 2 ^ width) with false; [reflexivity|]. symmetry. apply N.ltb_ge.
  replace (2 ^ width) with (2 ^ (width - 3) * 8) by (destruct Hb as [E|E]; cbn [usize] in E; rewrite E; reflexivity).
  apply N.mul_le_mono_r, H.
Qed.
(** Every entropy of 2^29 + 16 bytes is made into a Chinese phrase. *)
Lemma c132_long_chinese : forall ent : bytes, bytes_ok ent -> len ent = 2 ^ 29 + 16 ->
  exists ws, length ws = ((8 * (length ent + 1)) / 11)%nat /\ all_in_list ChineseSimplified ws
          /\ from_entropy_in (Build 32 false) ent ChineseSimplified = Ok (Mnemonic (spaced ws) ChineseSimplified ent).
Proof.
  intros ent Hok Hl. assert (R16 : len ent mod 2 ^ (32 - 3) = 16) by (rewrite Hl; reflexivity).
  assert (K : In (len ent mod 2 ^ (32 - 3)) [16; 20; 24; 28; 32]) by (rewrite R16; left; reflexivity).
  destruct (long_phrase 32 ent ChineseSimplified (or_introl eq_refl) Hok K) as (_ & ws & Hlen & Hin & E).
  exists ws. split; [exact Hlen|]. split; [exact Hin|]. rewrite E, R16. change (8 * (16 - 1) / 11 * 11) with 110.
  assert (Hw : len ws = 390451584).
  { unfold len. rewrite Hlen, Nat2N.inj_div. change (2 ^ 29 + 16) with 536870928 in Hl. unfold len in Hl.
    replace (N.of_nat (8 * (length ent + 1))) with 4294967432 by lia. reflexivity. }
  assert (T : tens (joined 110 ws)).
  { apply tens_joined; [exact (proj1 (all_in_list_words _ _) Hin)|]. rewrite Hw. vm_compute. discriminate. }
  destruct T as (j & Hj & Hc & _). unfold fits. rewrite Hc.
  replace (110 * 2 ^ j <? 2 ^ (usize (Build 32 false) - 1)) with true; [reflexivity|]. symmetry. apply N.ltb_lt.
  apply N.le_lt_trans with (110 * 2 ^ 24); [|reflexivity].
  apply N.mul_le_mono_l, N.pow_le_mono_r; [discriminate|exact Hj].
Qed.
(** On 32 bits there are entropies of illegal size, of less than 2^31 bytes, that no build refuses with an
    error: one panics, the other makes a phrase. *)
Lemma c132_refused_refuted : exists (ent : bytes) (l : language),
  bytes_ok ent /\ len ent < 2 ^ 31 /\ ~ legal_entropy ent
  /\ from_entropy_in (Build 32 true) ent l = Panic
  /\ exists m, from_entropy_in (Build 32 false) ent l = Ok m.
Proof.
  assert (G : exists ent : bytes, bytes_ok ent /\ len ent = 536870928).
  { exists (repeat 0 (N.to_nat 536870928)). split.
    - apply Forall_forall. intros x Hx. apply repeat_spec in Hx. subst x. reflexivity.
    - unfold len. rewrite repeat_length. apply N2Nat.id. }
  destruct G as (ent & Hok & Hl). exists ent, ChineseSimplified. split; [exact Hok|]. split; [|split; [|split]].
  - rewrite Hl. reflexivity.
  - unfold legal_entropy. unfold len in Hl. cbn [In]. lia.
  - apply (c132_with_checks 32); [left; reflexivity|]. rewrite Hl. vm_compute. discriminate.
  - destruct (c132_long_chinese ent Hok Hl) as (ws & _ & _ & E). exists (Mnemonic (spaced ws) ChineseSimplified ent). exact E.
Qed.
Example c132_example : 536870928 mod 2 ^ (32 - 3) = 16 /\ from_entropy_in (Build 32 false) [] English = Err (InvalidKeysize 0).
Proof. split; reflexivity. Qed.
