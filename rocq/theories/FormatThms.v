(** Proofs about formatting flags (restated in PropFormat.v). *)
From Coq Require Import String ZifyBool ZifyNat ZifyN.
From Verif Require Import Outcome Bytes Str Hash ModelBip39 SpecBip39 StrLemmas WordLemmas Bip39Proofs Bip39Thms Secp Base58 ModelBip32 SpecBip32 Base58Proofs PathThms KeyTextThms DeriveThms.
From Verif Require Import Nfkd NfkdLemmas More32Thms More39Thms ModelFormat.
Open Scope N_scope.

(** ** Numbers *)
Lemma fmt_dec_plain n : fmt_dec plain_flags n = dec_str n.
Proof. reflexivity. Qed.
Lemma hex_digits_small k n : hex_digits (S k) n = if n <? 16 then [n] else hex_digits k (n / 16) ++ [n mod 16].
Proof. reflexivity. Qed.
(** Minimal digits, filled with zeros to k digits, are the k digits. *)
Fixpoint digits16 (k : nat) (n : N) : list N :=
  match k with O => [] | S k => digits16 k (n / 16) ++ [n mod 16] end.
Lemma digits16_zero k : digits16 k 0 = repeat 0 k.
Proof.
  induction k as [|k IH]; [reflexivity|]. cbn [digits16]. change (0 / 16) with 0. change (0 mod 16) with 0. rewrite IH.
  symmetry. change [0] with (repeat 0 1). rewrite <- repeat_app. f_equal. lia.
Qed.
Lemma hex_fill fuel : forall k n, n < 2 ^ N.of_nat fuel -> n < 16 ^ N.of_nat k -> (0 < k)%nat ->
  (length (hex_digits (S fuel) n) <= k)%nat /\ repeat 0 (k - length (hex_digits (S fuel) n)) ++ hex_digits (S fuel) n = digits16 k n.
Proof.
  induction fuel as [|fuel IH]; intros k n Hf Hk H0.
  - change (2 ^ N.of_nat 0) with 1 in Hf. replace n with 0 by lia. rewrite hex_digits_small. change (0 <? 16) with true. cbn iota.
    cbn [length]. split; [lia|]. rewrite digits16_zero. change [0] with (repeat 0 1). rewrite <- repeat_app. f_equal. lia.
  - rewrite hex_digits_small. destruct (N.ltb_spec n 16) as [L|L].
    + cbn [length]. split; [lia|]. destruct k as [|k]; [lia|]. cbn [digits16]. rewrite N.div_small, N.mod_small by exact L.
      rewrite digits16_zero. do 2 f_equal. lia.
    + destruct k as [|k]; [lia|]. rewrite Nat2N.inj_succ, N.pow_succ_r' in Hk.
      assert (Hk' : n / 16 < 16 ^ N.of_nat k) by (apply N.div_lt_upper_bound; lia).
      assert (Hf' : n / 16 < 2 ^ N.of_nat fuel).
      { rewrite Nat2N.inj_succ, N.pow_succ_r' in Hf. apply N.div_lt_upper_bound; [lia|]. lia. }
      assert (Hk0 : (0 < k)%nat). { destruct k; [|lia]. change (16 ^ N.of_nat 0) with 1 in Hk. lia. }
      destruct (IH k (n / 16) Hf' Hk' Hk0) as [A B]. rewrite app_length. cbn [length]. split; [lia|].
      cbn [digits16]. rewrite <- B, app_assoc. do 3 f_equal. lia.
Qed.
Lemma hex_len n : n < 2 ^ N.of_nat (N.size_nat n).
Proof. apply size_nat_lt. Qed.
Lemma len_map {A B} (g : A -> B) l : len (map g l) = len l.
Proof. unfold len. rewrite map_length. reflexivity. Qed.
Lemma hex_zero_fill upper n k : n < 16 ^ N.of_nat k -> (0 < k)%nat ->
  len (hex_str upper n) <= N.of_nat k /\ repeat 48 (k - length (hex_str upper n)) ++ hex_str upper n = map (hex_digit upper) (digits16 k n).
Proof.
  intros Hk H0. destruct (hex_fill (N.size_nat n) k n (hex_len n) Hk H0) as [A B]. unfold hex_str. split.
  - rewrite len_map. unfold len. lia.
  - rewrite <- B, map_app, map_length. f_equal. generalize (k - length (hex_digits (S (N.size_nat n)) n))%nat. intros j.
    induction j as [|j IH]; [reflexivity|]. cbn [repeat map]. rewrite IH. reflexivity.
Qed.
Lemma zero_padded w upper n k alt : n < 16 ^ N.of_nat k -> (0 < k)%nat -> w = N.of_nat k + (if alt : bool then 2 else 0) ->
  fmt_hexnum upper (Flags 32 None (Some w) None false alt true None) n = (if alt then lit "0x" else []) ++ map (hex_digit upper) (digits16 k n).
Proof.
  intros Hk H0 ->. destruct (hex_zero_fill upper n k Hk H0) as [A B]. unfold fmt_hexnum, pad_integral. cbn [f_plus f_alternate f_width f_zero app].
  rewrite <- B. set (p := if alt then lit "0x" else []). assert (Lp : len p = if alt then 2 else 0) by (destruct alt; reflexivity).
  rewrite Lp. unfold len in *. destruct (N.leb_spec (N.of_nat k + (if alt then 2 else 0)) ((if alt then 2 else 0) + N.of_nat (length (hex_str upper n)))) as [L|L].
  - replace (k - length (hex_str upper n))%nat with 0%nat by lia. reflexivity.
  - do 3 f_equal. destruct alt; lia.
Qed.
Lemma fmt_02 upper b : b < 256 -> fmt_hexnum upper flags_02 b = hex_byte upper b.
Proof.
  intros H. unfold flags_02. rewrite (zero_padded 2 upper b 2 false) by (reflexivity || lia || (change (16 ^ N.of_nat 2) with 256; lia)).
  cbn [app digits16 map]. unfold hex_byte. rewrite (N.mod_small (b / 16) 16) by (apply N.div_lt_upper_bound; lia). reflexivity.
Qed.
Lemma fmt_02_all upper l : bytes_ok l -> flat_map (fmt_hexnum upper flags_02) l = flat_map (hex_byte upper) l.
Proof. intros H. rewrite !flat_map_concat_map. f_equal. apply map_ext_in. intros b Hb. apply fmt_02. unfold bytes_ok in H. rewrite Forall_forall in H. apply H, Hb. Qed.
Lemma digits16_bytes upper k : forall v, map (hex_digit upper) (digits16 (2 * k) v) = flat_map (hex_byte upper) (be_bytes k v).
Proof.
  induction k as [|k IH]; intros v; [reflexivity|]. replace (2 * S k)%nat with (S (S (2 * k))) by lia. cbn [digits16 be_bytes].
  rewrite !map_app, flat_map_app, N.div_div by lia. change (16 * 16) with 256. rewrite IH, <- app_assoc. f_equal.
  cbn [map flat_map app]. unfold hex_byte. rewrite app_nil_r.
  replace (v mod 256 / 16) with ((v / 16) mod 16) by (pose proof (N.div_mod v 256); pose proof (N.div_mod v 16); pose proof (N.div_mod (v / 16) 16);
    change 256 with (16 * 16); rewrite N.mod_mul_r by lia; rewrite (N.add_comm (v mod 16)), (N.mul_comm 16), N.div_add_l by lia; rewrite (N.div_small (v mod 16)) by (apply N.mod_lt; lia); lia).
  replace (v mod 256 mod 16) with (v mod 16) by (change 256 with (16 * 16); rewrite N.mod_mul_r by lia; rewrite (N.mul_comm 16), N.mod_add by lia; rewrite N.mod_mod by lia; reflexivity).
  reflexivity.
Qed.
Lemma fmt_010 v : v < 2 ^ 32 -> fmt_hexnum false flags_alt_010 v = lit "0x" ++ flat_map (hex_byte false) (be_bytes 4 v).
Proof.
  intros H. unfold flags_alt_010. rewrite (zero_padded 10 false v 8 true) by (reflexivity || lia || (change (16 ^ N.of_nat 8) with (2 ^ 32); lia)).
  f_equal. change (be_bytes 4 v) with (be_bytes (1 + 3) v). rewrite <- digits16_bytes. reflexivity.
Qed.

(** ** C112 *)
(** Child numbers, paths and extended keys print the same text under every flag, and the text reads back. *)
Lemma c112_texts_read_back : forall (f : flags),
  (forall c : N, u32 c -> child_from_str (fmt_child_display f c) = Ok c)
  /\ (forall p : path, Forall u32 p -> path_from_str (fmt_path_display f p) = Ok p)
  /\ (forall (x : xprv) (q : prefix), valid_xprv x -> In q prv_prefixes ->
        exists s, fmt_ek_display f (xprv_to_extended_key x q) = Ok s /\ xprv_from_str s = Ok x /\ len s = 111)
  /\ (forall (x : xpub) (q : prefix), valid_xpub x -> In q pub_prefixes ->
        exists s, fmt_ek_display f (xpub_to_extended_key x q) = Ok s /\ xpub_from_str s = Ok x /\ len s = 111).
Proof.
  intros f. assert (W : forall e s, ek_to_string e = Ok s -> write_base58 e = Ok s).
  { intros e s H. unfold ek_to_string in H. destruct (write_base58 e); [exact H|discriminate H..]. }
  split; [|split; [|split]].
  - intros c H. apply (c29_child_text_round_trip c H).
  - exact c32_path_text_round_trip.
  - intros x q V Hq. destruct (c40_private_round_trip x q V Hq) as (s & E & R & L & _). exists s. split; [apply W, E|]. split; [exact R|].
    unfold len. rewrite L. reflexivity.
  - intros x q V Hq. destruct (c41_public_round_trip x q V Hq) as (s & E & R & L & _). exists s. split; [apply W, E|]. split; [exact R|].
    unfold len. rewrite L. reflexivity.
Qed.
(** Of all flags, only [#] matters for the hexadecimal texts; the Debug text of a seed ignores even that. *)
Lemma c112_hex_texts : forall (upper : bool) (f : flags) (m : mnemonic) (seed : bytes), bytes_ok (m_entropy m) -> bytes_ok seed ->
  fmt_mnemonic_hex upper f m = mnemonic_hex upper (f_alternate f) m
  /\ fmt_seed_hex upper f seed = seed_hex upper (f_alternate f) seed
  /\ fmt_seed_debug f seed = seed_debug seed.
Proof.
  intros upper f m seed Hm Hs. unfold fmt_mnemonic_hex, fmt_seed_debug, fmt_seed_hex, fmt_hex_flags, mnemonic_hex, seed_debug, seed_hex, fmt_hex.
  rewrite !fmt_02_all by assumption. auto.
Qed.
Lemma debug_nums b : fmt_dbg plain_flags (bytes_dbg b) = debug_bytes b.
Proof.
  unfold bytes_dbg, debug_bytes. cbn [fmt_dbg]. destruct b as [|c b]; [reflexivity|]. cbn [map]. unfold entries. cbn [f_alternate plain_flags].
  rewrite !map_map. reflexivity.
Qed.
(** Without flags the texts are those of the model without flags. *)
Lemma c112_plain_texts : forall (m : mnemonic) (x : xprv) (q : prefix) (e : error_kind) (t : mnemonic_type), u32 (version q) ->
  fmt_mnemonic_display plain_flags m = mnemonic_display m
  /\ fmt_mnemonic_debug plain_flags m = mnemonic_debug m
  /\ fmt_xprv_debug plain_flags x = xprv_debug x
  /\ fmt_prefix_debug plain_flags q = prefix_debug q
  /\ fmt_error_kind_display plain_flags e = error_kind_display e
  /\ fmt_mnemonic_type_display plain_flags t = mnemonic_type_display t.
Proof.
  intros m x q e t Hq. split; [reflexivity|]. split; [reflexivity|]. split; [|split; [|split]].
  - unfold fmt_xprv_debug, xprv_debug, attrs_dbg, debug_attrs. cbn [fmt_dbg map fst snd f_alternate plain_flags].
    rewrite !debug_nums. unfold entries, child_dbg, debug_child. cbn [fmt_dbg map entries join f_alternate plain_flags].
    unfold entries. cbn [join]. rewrite <- !app_assoc. reflexivity.
  - unfold fmt_prefix_debug, prefix_debug. destruct (prefix_as_str q) as [s|er|]; cbn [bind]; [|reflexivity..].
    rewrite fmt_010 by exact Hq. apply (f_equal Ok). cbn [fmt_dbg map fst snd f_alternate plain_flags]. unfold entries. cbn [join].
    rewrite <- !app_assoc. reflexivity.
  - destruct e; reflexivity.
  - reflexivity.
Qed.
(** Numbers of words, errors and prefixes print the same text under every flag. *)
Lemma c112_flags_ignored : forall (f : flags) (t : mnemonic_type) (k : error_kind) (e : error) (q : prefix),
  fmt_mnemonic_type_display f t = mnemonic_type_display t /\ fmt_error_kind_display f k = error_kind_display k
  /\ fmt_error_display f e = error_display e /\ fmt_prefix_display f q = prefix_as_str q.
Proof.
  intros f t k e q. split; [reflexivity|]. split; [|split; reflexivity]. destruct k as [| |n|n|n t']; reflexivity.
Qed.
(** The derived Debug texts of child numbers, paths and errors. *)
Lemma c112_debug_texts : forall (c : N) (p : path),
  fmt_dbg plain_flags (child_dbg c) = lit "ChildNumber(" ++ dec_str c ++ lit ")"
  /\ fmt_dbg plain_flags (path_dbg p)
     = lit "DerivationPath { path: [" ++ join (lit ", ") (map (fun d => lit "ChildNumber(" ++ dec_str d ++ lit ")") p) ++ lit "] }"
  /\ (forall n t, map (fun k => fmt_dbg plain_flags (error_kind_dbg k))
        [InvalidChecksum; InvalidWord; InvalidKeysize n; InvalidWordLength n; InvalidEntropyLength n t]
      = [lit "InvalidChecksum"; lit "InvalidWord"; lit "InvalidKeysize(" ++ dec_str n ++ lit ")"; lit "InvalidWordLength(" ++ dec_str n ++ lit ")";
         lit "InvalidEntropyLength(" ++ dec_str n ++ lit ", " ++ mnemonic_type_debug t ++ lit ")"])
  /\ map (fun e => fmt_dbg plain_flags (error_dbg e)) [EBase58; EBip39; EChildNumber; ECrypto; EDecode; EDepth; ESeedLength]
     = [lit "Base58"; lit "Bip39"; lit "ChildNumber"; lit "Crypto"; lit "Decode"; lit "Depth"; lit "SeedLength"]
  /\ map (fun l => fmt_dbg plain_flags (language_dbg l)) [English; ChineseSimplified] = [lit "English"; lit "ChineseSimplified"]
  /\ map (fun t => fmt_dbg plain_flags (mnemonic_type_dbg t)) [Words12; Words15; Words18; Words21; Words24]
     = [lit "Words12"; lit "Words15"; lit "Words18"; lit "Words21"; lit "Words24"].
Proof.
  intros c p. split; [reflexivity|]. split; [|split; [|split; [|split]; reflexivity]].
  - unfold path_dbg. cbn [fmt_dbg map fst snd f_alternate plain_flags]. unfold entries at 1. cbn [join].
    assert (E : forall q, fmt_dbg plain_flags (DList (map child_dbg q)) = lit "[" ++ join (lit ", ") (map (fun d => lit "ChildNumber(" ++ dec_str d ++ lit ")") q) ++ lit "]").
    { intros q. destruct q as [|d q]; [reflexivity|]. cbn [map fmt_dbg]. unfold entries. cbn [f_alternate plain_flags]. rewrite map_map. reflexivity. }
    cbn [fmt_dbg] in E. rewrite E. rewrite <- !app_assoc. reflexivity.
  - intros n t. cbn [map error_kind_dbg fmt_dbg]. unfold entries. cbn [f_alternate plain_flags join]. rewrite <- !app_assoc. reflexivity.
Qed.
Example c112_example : fmt_path_display (Flags 42 (Some ACenter) (Some 30) (Some 2) true true true None) [0x8000002C; 7] = lit "m/44'/7"
  /\ fmt_seed_hex false (Flags 42 (Some ARight) (Some 9) (Some 2) false true false None) [0x0A; 0xF0] = lit "0x0af0"
  /\ fmt_dec (Flags 42 (Some ARight) (Some 5) (Some 2) true false false None) 17 = lit "**+17"
  /\ fmt_dbg (Flags 32 None None None false true false (Some true)) (child_dbg 255) = lit "ChildNumber(" ++ [10] ++ lit "    0xFF," ++ [10] ++ lit ")".
Proof.
  repeat split.
Qed.

(** ** C113 *)
(** What [pad] makes: the text, cut after [precision] characters, between fill characters. *)
Definition cut (f : flags) (s : str) : str := match f_precision f with Some k => firstn (N.to_nat k) s | None => s end.
Lemma pad_shape f s : exists a b, pad f s = repeat (f_fill f) a ++ cut f s ++ repeat (f_fill f) b
  /\ len (pad f s) = match f_width f with Some w => N.max w (len (cut f s)) | None => len (cut f s) end.
Proof.
  unfold pad. fold (cut f s). generalize (cut f s). clear s. intros s.
  destruct (f_width f) as [w|]; [|exists O, O; cbn; rewrite app_nil_r; auto].
  destruct (N.leb_spec w (len s)) as [L|L]; [exists O, O; cbn; rewrite app_nil_r; split; [reflexivity|lia]|]. unfold padding, fill_text.
  set (k := w - len s). 
  destruct (match f_align f with Some a => a | None => ALeft end).
  - exists O, (N.to_nat k). split; [reflexivity|]. cbn [app]. rewrite len_app. unfold len at 2. rewrite repeat_length. lia.
  - exists (N.to_nat (k / 2)), (N.to_nat ((k + 1) / 2)). split; [reflexivity|]. rewrite !len_app. unfold len at 1 3. rewrite !repeat_length.
    assert (k / 2 + (k + 1) / 2 = k); [|lia]. clearbody k. clear L. pose proof (N.div_mod k 2). pose proof (N.mod_lt k 2).
    pose proof (N.div_mod (k + 1) 2). pose proof (N.mod_lt (k + 1) 2). lia.
  - exists (N.to_nat k), O. split; [reflexivity|]. rewrite !len_app. unfold len at 1 3. rewrite repeat_length. cbn [length]. lia.
Qed.
Lemma repeat_white c k : is_whitespace c = true -> forallb is_whitespace (repeat c k) = true.
Proof. intros H. induction k as [|k IH]; [reflexivity|]. cbn [repeat forallb]. rewrite H. exact IH. Qed.
Lemma laid_out_post ws : forall s post, forallb is_whitespace post = true -> laid_out s ws -> laid_out (s ++ post) ws.
Proof.
  induction ws as [|w ws IH]; intros s post P H; cbn [laid_out] in *.
  - rewrite forallb_app, H, P. reflexivity.
  - destruct H as (pre & rest & -> & Hp & Hn & Hw & Hr & Hl). exists pre, (rest ++ post). rewrite <- !app_assoc. repeat split; try assumption.
    + destruct Hr as [->|(c & r & -> & Hc)]; [|right; exists c, (r ++ post); auto]. destruct post as [|c post]; [left; reflexivity|].
      right. exists c, post. cbn [forallb] in P. apply andb_true_iff in P. tauto.
    + apply IH; assumption.
Qed.
Lemma split_post s post : forallb is_whitespace post = true -> split_whitespace (s ++ post) = split_whitespace s.
Proof. intros P. apply laid_out_iff, laid_out_post; [exact P|]. apply laid_out_iff. reflexivity. Qed.
Lemma laid_out_len ws : forall s, laid_out s ws -> (length (spaced ws) <= length s)%nat /\ (forall w c, In w ws -> In c w -> In c s).
Proof.
  induction ws as [|w ws IH]; intros s H; [split; [cbn; lia|intros w c []]|]. cbn [laid_out] in H.
  destruct H as (pre & rest & -> & Hp & Hn & Hw & Hr & Hl). destruct (IH rest Hl) as [A B]. split.
  - destruct ws as [|v ws].
    + cbn [spaced]. rewrite !app_length. lia.
    + rewrite spaced_cons by discriminate. cbn [laid_out] in Hl. destruct Hl as (pre' & rest' & E & Hp' & Hn' & Hw' & Hr' & Hl').
      rewrite !app_length. cbn [length]. destruct Hr as [->|(c & r & -> & Hc)].
      * destruct pre'; [|discriminate E]. destruct v; [congruence|discriminate E].
      * assert (A' : (length (spaced (v :: ws)) <= length r)%nat); [|cbn [length]; lia].
        apply IH. apply laid_out_iff. rewrite <- (split_whitespace_pre [c]) by (cbn; rewrite Hc; reflexivity).
        apply laid_out_iff. cbn [app laid_out]. exists pre', rest'. auto 10.
  - intros u c [->|Hu] Hc; rewrite !in_app_iff; [auto|]. right. right. eapply B; eassumption.
Qed.
Lemma from_phrase_split s t l : split_whitespace s = split_whitespace t -> from_phrase s l = from_phrase t l.
Proof. intros E. apply (c10_spacing_ignored l (split_whitespace t)); apply laid_out_iff; [exact E|reflexivity]. Qed.
Lemma sentence_plain l ws ent : bip39_sentence l ws ent -> forallb plain (spaced ws) = true.
Proof. intros H. apply spaced_plain. apply Forall_forall. intros w Hw. eapply words_plain, sentence_words; eassumption. Qed.
(** With white space as fill character, a printed phrase reads back exactly when the precision cuts nothing off. *)
Lemma c113_padded_reads_back_partial : forall (f : flags) (m : mnemonic), constructible m -> is_whitespace (f_fill f) = true ->
  (from_phrase (fmt_mnemonic_display f m) (m_lang m) = Ok m <-> forall k, f_precision f = Some k -> len (m_phrase m) <= k).
Proof.
  intros f m C Hf. pose proof (proj2 (proj2 (c27_phrase_kept m C))) as Self. apply constructible_sentence in C. destruct C as (ws & Hp & Hs). unfold fmt_mnemonic_display.
  destruct (pad_shape f (m_phrase m)) as (a & b & E & _).
  assert (Ec : from_phrase (pad f (m_phrase m)) (m_lang m) = from_phrase (cut f (m_phrase m)) (m_lang m)).
  { apply from_phrase_split. rewrite E, split_whitespace_pre, split_post by (apply repeat_white, Hf). reflexivity. }
  rewrite Ec. clear E Ec a b. unfold cut. destruct (f_precision f) as [k|]; [|split; [discriminate|intros _; exact Self]]. split.
  - intros R k' [= <-]. destruct (N.leb_spec (len (m_phrase m)) k) as [L|L]; [exact L|]. exfalso.
    apply from_phrase_ok in R. destruct R as (_ & R & _). unfold norm_words in R.
    set (t := firstn (N.to_nat k) (m_phrase m)) in *. pose proof (laid_out_split t) as Lt. destruct (laid_out_len _ _ Lt) as [A B].
    assert (Hn : map nfkd (split_whitespace t) = split_whitespace t).
    { rewrite <- map_id. apply map_ext_in. intros w Hw. apply nfkd_plain. apply forallb_forall. intros c Hc.
      pose proof (sentence_plain _ _ _ Hs) as P. rewrite forallb_forall in P. apply P. rewrite <- Hp. rewrite <- (firstn_skipn (N.to_nat k)).
      apply in_app_iff. left. eapply B; eassumption. }
    rewrite Hn in R. rewrite <- R in A. unfold t in A. rewrite firstn_length in A. unfold len in L. lia.
  - intros H. specialize (H k eq_refl). rewrite firstn_all2 by (unfold len in H; lia). exact Self.
Qed.
Lemma c113_width : forall (f : flags) (m : mnemonic) (w : N), f_width f = Some w -> w <= len (fmt_mnemonic_display f m).
Proof.
  intros f m w H. destruct (pad_shape f (m_phrase m)) as (a & b & _ & E). unfold fmt_mnemonic_display. rewrite E, H. lia.
Qed.
(** A precision, or a letter as fill character, can make a printed phrase unreadable. *)
Lemma c113_reads_back_refuted : 
  (~ forall (f : flags) (m : mnemonic), constructible m -> f_fill f = 32 -> from_phrase (fmt_mnemonic_display f m) (m_lang m) = Ok m)
  /\ (~ forall (f : flags) (m : mnemonic), constructible m -> f_precision f = None -> from_phrase (fmt_mnemonic_display f m) (m_lang m) = Ok m).
Proof.
  split; intros H.
  - specialize (H (Flags 32 None None (Some 20) false false false None) ex_mnemonic c27_example eq_refl).
    pose proof (proj1 (c113_padded_reads_back_partial (Flags 32 None None (Some 20) false false false None) ex_mnemonic c27_example eq_refl) H 20 eq_refl) as L.
    vm_compute in L. apply L. reflexivity.
  - specialize (H (Flags 120 None (Some 80) None false false false None) ex_mnemonic c27_example eq_refl).
    apply from_phrase_ok in H. destruct H as (_ & H & _). vm_compute in H. discriminate H.
Qed.
Example c113_example : len ex_phrase = 72
  /\ fmt_mnemonic_display (Flags 32 (Some ARight) (Some 75) None false false false None) ex_mnemonic = lit "   " ++ ex_phrase
  /\ fmt_mnemonic_display (Flags 32 None (Some 7) (Some 6) false false false None) ex_mnemonic = lit "crop c "
  /\ fmt_mnemonic_display (Flags 42 (Some ACenter) (Some 7) (Some 4) false false false None) ex_mnemonic = lit "*crop**".
Proof.
  repeat split.
Qed.

(** ** C114 *)
(** The text of a number without width: characters other than [,], [)], [\]] and newline, and no two numbers the same. *)
Definition quiet (c : N) : Prop := c <> 44 /\ c <> 41 /\ c <> 93 /\ c <> 10.
Lemma quiet_digits s : Forall digit_char s -> Forall quiet s.
Proof. apply Forall_impl. unfold digit_char, quiet. lia. Qed.
Lemma hex_digit_cases upper d : d < 16 -> quiet (hex_digit upper d) /\ unhex_digit upper (hex_digit upper d) = Some d.
Proof.
  intros H. assert (D : In d [0;1;2;3;4;5;6;7;8;9;10;11;12;13;14;15]). { cbn. lia. }
  cbn in D. repeat (destruct D as [<-|D]; [destruct upper; (split; [unfold quiet; repeat split; discriminate|reflexivity])|]). destruct D.
Qed.
Definition val16 (l : list N) : N := fold_left (fun a d => a * 16 + d) l 0.
Lemma hex_digits_ok fuel : forall n, n < 2 ^ N.of_nat fuel ->
  Forall (fun d => d < 16) (hex_digits (S fuel) n) /\ val16 (hex_digits (S fuel) n) = n /\ hex_digits (S fuel) n <> [].
Proof.
  induction fuel as [|fuel IH]; intros n H; rewrite hex_digits_small.
  - change (2 ^ N.of_nat 0) with 1 in H. replace n with 0 by lia. cbn. split; [constructor; [lia|constructor]|split; [reflexivity|discriminate]].
  - destruct (N.ltb_spec n 16) as [L|L].
    + split; [constructor; [exact L|constructor]|]. split; [reflexivity|discriminate].
    + rewrite Nat2N.inj_succ, N.pow_succ_r' in H. destruct (IH (n / 16)) as (A & B & C); [apply N.div_lt_upper_bound; lia|].
      split; [apply Forall_app; split; [exact A|constructor; [apply N.mod_lt; lia|constructor]]|]. split.
      * unfold val16 in *. rewrite fold_left_app, B. cbn [fold_left]. rewrite (N.mul_comm _ 16). symmetry. apply N.div_mod'.
      * destruct (hex_digits (S fuel) (n / 16)); discriminate.
Qed.
Lemma hex_str_quiet upper n : Forall quiet (hex_str upper n) /\ hex_str upper n <> [].
Proof.
  destruct (hex_digits_ok (N.size_nat n) n (hex_len n)) as (A & _ & C). unfold hex_str. split.
  - apply Forall_map. eapply Forall_impl; [|exact A]. intros d Hd. apply hex_digit_cases, Hd.
  - destruct (hex_digits (S (N.size_nat n)) n); [congruence|discriminate].
Qed.
Lemma hex_map_inj upper l : forall l', Forall (fun d => d < 16) l -> Forall (fun d => d < 16) l' -> map (hex_digit upper) l = map (hex_digit upper) l' -> l = l'.
Proof.
  induction l as [|d l IH]; intros [|d' l'] F F' E; try discriminate E; [reflexivity|]. cbn [map] in E. injection E as E E'.
  inversion F; inversion F'; subst. f_equal; [|apply IH; assumption].
  assert (X : Some d = Some d'); [|injection X as ->; reflexivity].
  rewrite <- (proj2 (hex_digit_cases upper d H1)), <- (proj2 (hex_digit_cases upper d' H5)), E. reflexivity.
Qed.
Lemma hex_str_inj upper n k : hex_str upper n = hex_str upper k -> n = k.
Proof.
  intros E. destruct (hex_digits_ok (N.size_nat n) n (hex_len n)) as (A & B & _). destruct (hex_digits_ok (N.size_nat k) k (hex_len k)) as (A' & B' & _).
  unfold hex_str in E. apply hex_map_inj in E; [|exact A|exact A']. congruence.
Qed.
Section NoWidth.
Variable f : flags.
Hypothesis Hw : f_width f = None.
Lemma num_text n : Forall quiet (fmt_num_debug f n) /\ fmt_num_debug f n <> [].
Proof.
  unfold fmt_num_debug, fmt_hexnum, fmt_dec, pad_integral. rewrite Hw. destruct (f_hex f) as [u|].
  - destruct (hex_str_quiet u n) as [A B]. split.
    + rewrite !Forall_app. repeat split; [destruct (f_plus f)|destruct (f_alternate f)|exact A]; repeat constructor; discriminate.
    + intros E. apply app_eq_nil in E. apply B, E.
  - destruct (dec_str_ok n) as (B & A & _). split.
    + rewrite !Forall_app. repeat split; [destruct (f_plus f)|destruct (f_alternate f)|apply quiet_digits, A]; repeat constructor; discriminate.
    + intros E. apply app_eq_nil in E. apply B, E.
Qed.
Lemma num_inj n k : fmt_num_debug f n = fmt_num_debug f k -> n = k.
Proof.
  unfold fmt_num_debug, fmt_hexnum, fmt_dec, pad_integral. rewrite Hw. destruct (f_hex f) as [u|]; intros E; apply app_inv_head in E.
  - exact (hex_str_inj u n k E).
  - apply dec_str_inj, E.
Qed.
Lemma quiet_before c (u v x y : str) : ~ quiet c -> Forall quiet u -> Forall quiet v -> u ++ c :: x = v ++ c :: y -> u = v /\ x = y.
Proof.
  intros Hc. revert v. induction u as [|a u IH]; intros [|b v] Fu Fv E; cbn [app] in E.
  - injection E as ->. auto.
  - injection E as <- _. inversion Fv; contradiction.
  - injection E as -> _. inversion Fu; contradiction.
  - injection E as <- E. inversion Fu; inversion Fv; subst. destruct (IH v) as [-> ->]; auto.
Qed.
Lemma num_before c n k x y : ~ quiet c -> fmt_num_debug f n ++ c :: x = fmt_num_debug f k ++ c :: y -> n = k /\ x = y.
Proof.
  intros Hc E. apply quiet_before in E; [|exact Hc|apply num_text..]. destruct E as [E ->]. split; [apply num_inj, E|reflexivity].
Qed.
(** Indentation *)
Lemma indent_app s : forall b t, indent b (s ++ t) = indent b s ++ indent (match s with [] => b | _ => last s 0 =? 10 end) t.
Proof.
  induction s as [|c s IH]; intros b t; [reflexivity|]. cbn [app indent]. rewrite IH, <- app_assoc. cbn [app]. do 3 f_equal.
  destruct s; reflexivity.
Qed.
Lemma indent_inj s : forall b t, indent b s = indent b t -> s = t.
Proof.
  induction s as [|c s IH]; intros b [|d t] E; cbn [indent] in E; try (destruct b; discriminate E); [reflexivity|].
  apply app_inv_head in E. injection E as <- E. f_equal. exact (IH _ _ E).
Qed.
Lemma indent_quiet s : forall t, Forall quiet s -> indent false (s ++ t) = s ++ indent false t.
Proof.
  induction s as [|c s IH]; intros t F; [reflexivity|]. inversion F as [|? ? Q F']; subst. cbn [app indent].
  rewrite (proj2 (N.eqb_neq c 10)) by apply Q. rewrite IH by exact F'. reflexivity.
Qed.
Lemma indent_num n t : indent true (fmt_num_debug f n ++ t) = lit "    " ++ fmt_num_debug f n ++ indent false t.
Proof.
  destruct (num_text n) as [F Hn]. destruct (fmt_num_debug f n) as [|c s]; [congruence|]. inversion F as [|? ? Q F']; subst.
  cbn [app indent]. rewrite (proj2 (N.eqb_neq c 10)) by apply Q. rewrite indent_quiet by exact F'. reflexivity.
Qed.
Lemma indent_entries es : flat_map (fun e => indent true (e ++ lit "," ++ newline)) es = indent true (flat_map (fun e => e ++ lit "," ++ newline) es).
Proof.
  assert (L : forall e, last (e ++ lit "," ++ newline) 0 = 10).
  { intros e. change (lit "," ++ newline) with ([44] ++ [10]). rewrite app_assoc. apply last_last. }
  induction es as [|e es IH]; [reflexivity|]. cbn [flat_map]. rewrite (indent_app (e ++ lit "," ++ newline)), IH. specialize (L e). f_equal.
  destruct (e ++ lit "," ++ newline) as [|c s] eqn:E; [destruct e; discriminate E|]. rewrite L. reflexivity.
Qed.
(** A list of numbers and a child number, followed by a comma. *)
Lemma entry_num n : indent true (fmt_num_debug f n ++ lit "," ++ newline) = lit "    " ++ fmt_num_debug f n ++ 44 :: 10 :: [].
Proof. rewrite indent_num. reflexivity. Qed.
Lemma list_before a : forall b x y, length a = length b ->
  fmt_dbg f (bytes_dbg a) ++ 44 :: x = fmt_dbg f (bytes_dbg b) ++ 44 :: y -> a = b /\ x = y.
Proof.
  unfold bytes_dbg. intros b x y L E. destruct a as [|n a], b as [|k b]; try discriminate L.
  { cbn in E. injection E as ->. auto. }
  cbn [map fmt_dbg] in E. unfold entries in E. destruct (f_alternate f).
  - rewrite <- !app_assoc in E. do 2 apply app_inv_head in E.
    assert (G : forall a b, length a = length b ->
      flat_map (fun e => indent true (e ++ lit "," ++ newline)) (map (fmt_dbg f) (map DNum a)) ++ lit "]" ++ 44 :: x
      = flat_map (fun e => indent true (e ++ lit "," ++ newline)) (map (fmt_dbg f) (map DNum b)) ++ lit "]" ++ 44 :: y -> a = b /\ x = y).
    { clear -Hw. induction a as [|n a IH]; intros [|k b] L E; try discriminate L; [apply app_inv_head in E; injection E as ->; auto|].
      cbn [map flat_map fmt_dbg] in E. rewrite !entry_num, <- !app_assoc in E. apply app_inv_head in E. cbn [app] in E.
      apply num_before in E; [|unfold quiet; lia]. destruct E as [-> E]. apply (app_inv_head [10]) in E.
      destruct (IH b (eq_add_S _ _ L) E) as [-> ->]. auto. }
    exact (G (n :: a) (k :: b) L E).
  - rewrite <- !app_assoc in E. apply app_inv_head in E.
    assert (G : forall a b n k, length a = length b ->
      join (lit ", ") (map (fmt_dbg f) (map DNum (n :: a))) ++ lit "]" ++ 44 :: x
      = join (lit ", ") (map (fmt_dbg f) (map DNum (k :: b))) ++ lit "]" ++ 44 :: y -> n :: a = k :: b /\ x = y).
    { clear -Hw. induction a as [|n' a IH]; intros [|k' b] n k L E; try discriminate L.
      - cbn [map join fmt_dbg] in E. change (lit "]") with [93] in E. cbn [app] in E. apply num_before in E; [|unfold quiet; lia].
        destruct E as [-> E]. injection E as ->. auto.
      - assert (J : forall u v l, join (lit ", ") (map (fmt_dbg f) (map DNum (u :: v :: l))) = fmt_num_debug f u ++ 44 :: 32 :: join (lit ", ") (map (fmt_dbg f) (map DNum (v :: l)))) by reflexivity.
        rewrite !J, <- !app_assoc in E. cbn [app] in E. apply num_before in E; [|unfold quiet; lia]. destruct E as [-> E].
        apply (app_inv_head [32]) in E. destruct (IH b n' k' (eq_add_S _ _ L) E) as [X ->]. rewrite X. auto. }
    exact (G a b n k (eq_add_S _ _ L) E).
Qed.
Lemma child_before c d x y : fmt_dbg f (child_dbg c) ++ 44 :: x = fmt_dbg f (child_dbg d) ++ 44 :: y -> c = d /\ x = y.
Proof.
  unfold child_dbg. cbn [fmt_dbg map]. unfold entries. intros E. rewrite <- !app_assoc in E. apply app_inv_head in E.
  destruct (f_alternate f); rewrite <- !app_assoc in E.
  - do 2 apply app_inv_head in E. cbn [flat_map] in E. rewrite !app_nil_r, !entry_num, <- !app_assoc in E. apply app_inv_head in E. cbn [app] in E.
    apply num_before in E; [|unfold quiet; lia]. destruct E as [-> E]. injection E as ->. auto.
  - apply app_inv_head in E. cbn [join] in E. change (lit ")") with [41] in E. cbn [app] in E.
    apply num_before in E; [|unfold quiet; lia]. destruct E as [-> E]. injection E as ->. auto.
Qed.
End NoWidth.
(** No flag shows anything of the private key: the text is made from the attributes alone. *)
Lemma c114_no_flag_shows_the_key : forall (f : flags) (x y : xprv), xprv_attrs x = xprv_attrs y -> fmt_xprv_debug f x = fmt_xprv_debug f y.
Proof.
  intros f x y E. unfold fmt_xprv_debug. rewrite E. reflexivity.
Qed.
Lemma attrs_text f a b : f_width f = None -> valid_attrs a -> valid_attrs b -> fmt_dbg f (attrs_dbg a) = fmt_dbg f (attrs_dbg b) -> a = b.
Proof.
  intros Hw (_ & [La _] & _ & [Lc _]) (_ & [La' _] & _ & [Lc' _]) E. destruct a as [d p c cc], b as [d' p' c' cc']. cbn [depth parent_fingerprint child_number chain_code] in *.
  unfold attrs_dbg in E. cbn [depth parent_fingerprint child_number chain_code] in E.
  change (fmt_dbg f (DStruct ?n ?l)) with (n ++ (if f_alternate f then entries true (lit " {") [] (lit "}") (map (fun nf => fst nf ++ lit ": " ++ fmt_dbg f (snd nf)) l) else entries false (lit " { ") (lit " }") [] (map (fun nf => fst nf ++ lit ": " ++ fmt_dbg f (snd nf)) l))) in E.
  cbn [map fst snd] in E. apply app_inv_head in E.
  assert (G : forall sep tl, (exists r, sep = 44 :: r) -> (exists r, tl = 44 :: r) ->
    (lit "depth" ++ lit ": " ++ fmt_num_debug f d) ++ sep ++ (lit "parent_fingerprint" ++ lit ": " ++ fmt_dbg f (bytes_dbg p)) ++ sep
     ++ (lit "child_number" ++ lit ": " ++ fmt_dbg f (child_dbg c)) ++ sep ++ (lit "chain_code" ++ lit ": " ++ fmt_dbg f (bytes_dbg cc)) ++ tl
    = (lit "depth" ++ lit ": " ++ fmt_num_debug f d') ++ sep ++ (lit "parent_fingerprint" ++ lit ": " ++ fmt_dbg f (bytes_dbg p')) ++ sep
     ++ (lit "child_number" ++ lit ": " ++ fmt_dbg f (child_dbg c')) ++ sep ++ (lit "chain_code" ++ lit ": " ++ fmt_dbg f (bytes_dbg cc')) ++ tl ->
    d = d' /\ p = p' /\ c = c' /\ cc = cc').
  { clear E. intros sep tl (r & ->) (r' & ->) E. rewrite <- !app_assoc in E. cbn [app] in E. do 2 apply app_inv_head in E.
    apply (num_before f Hw) in E; [|unfold quiet; lia]. destruct E as [-> E]. do 3 apply app_inv_head in E.
    apply (list_before f Hw) in E; [|congruence]. destruct E as [-> E]. do 3 apply app_inv_head in E.
    apply (child_before f Hw) in E. destruct E as [-> E]. do 3 apply app_inv_head in E.
    apply (list_before f Hw) in E; [|congruence]. destruct E as [-> E]. auto. }
  assert (X : d = d' /\ p = p' /\ c = c' /\ cc = cc'); [|destruct X as (-> & -> & -> & ->); reflexivity].
  unfold entries in E. destruct (f_alternate f).
  - rewrite !indent_entries in E. do 2 apply app_inv_head in E. apply app_inv_tail, indent_inj in E. cbn [flat_map] in E.
    apply (G (44 :: newline) (44 :: newline)); [eexists; reflexivity..|].
    rewrite !app_nil_r in E. change (lit "," ++ newline) with (44 :: newline) in E. rewrite <- !app_assoc in E. rewrite <- !app_assoc. exact E.
  - apply app_inv_head in E. apply app_inv_tail in E. apply (f_equal (fun s => s ++ [44])) in E. cbn [join] in E.
    apply (G (lit ", ") [44]); [eexists; reflexivity..|]. rewrite <- !app_assoc in E. rewrite <- !app_assoc. exact E.
Qed.
(** Without a width (so with [{:?}], [{:#?}], [{:x?}], [{:#X?}] ...) the text shows all attributes. *)
Lemma c114_attributes_shown : forall (f : flags) (x y : xprv), f_width f = None -> valid_xprv x -> valid_xprv y ->
  (fmt_xprv_debug f x = fmt_xprv_debug f y <-> xprv_attrs x = xprv_attrs y).
Proof.
  intros f x y Hw [_ Vx] [_ Vy]. split; [|apply c114_no_flag_shows_the_key]. intros E. apply (attrs_text f); [exact Hw|exact Vx|exact Vy|].
  unfold fmt_xprv_debug in E. remember (fmt_dbg f (attrs_dbg (xprv_attrs x))) as a eqn:Ea. remember (fmt_dbg f (attrs_dbg (xprv_attrs y))) as b eqn:Eb.
  change (fmt_dbg f (DStruct ?n ?l)) with (n ++ (if f_alternate f then entries true (lit " {") [] (lit "}") (map (fun nf => fst nf ++ lit ": " ++ fmt_dbg f (snd nf)) l) else entries false (lit " { ") (lit " }") [] (map (fun nf => fst nf ++ lit ": " ++ fmt_dbg f (snd nf)) l))) in E.
  cbn [map fst snd] in E. rewrite <- Ea, <- Eb in E. clear Ea Eb. apply app_inv_head in E. unfold entries in E. destruct (f_alternate f).
  - rewrite !indent_entries in E. do 2 apply app_inv_head in E. apply app_inv_tail, indent_inj in E. cbn [flat_map] in E.
    apply app_inv_head in E. rewrite !app_nil_r in E. apply app_inv_tail in E. do 2 apply app_inv_head in E. exact E.
  - apply app_inv_head in E. apply app_inv_tail in E. cbn [join] in E. do 4 apply app_inv_head in E. exact E.
Qed.
Example c114_example : fmt_xprv_debug (Flags 32 None None None false true false (Some false)) ex1_xprv = fmt_xprv_debug (Flags 32 None None None false true false (Some false)) ex_xprv
  /\ fmt_dbg (Flags 32 None None None false true false (Some false)) (DStruct (lit "A") [(lit "d", DNum 1); (lit "c", bytes_dbg [10; 200])])
     = lit "A {" ++ [10] ++ lit "    d: 0x1," ++ [10] ++ lit "    c: [" ++ [10] ++ lit "        0xa," ++ [10] ++ lit "        0xc8," ++ [10] ++ lit "    ]," ++ [10] ++ lit "}"
  /\ fmt_dec (Flags 49 None (Some 3) None false false false None) 1 = fmt_dec (Flags 49 None (Some 3) None false false false None) 11.
Proof.
  repeat split.
Qed.

(** ** C115 *)
Lemma ok_inj {E A} (a b : A) : @Ok E A a = Ok b -> a = b.
Proof. intros H. exact (f_equal (fun r => match r with Ok x => x | _ => a end) H). Qed.
(** The Debug text of a seed, and of a mnemonic, determines it; no flag changes that. *)
Lemma c115_debug_shows_everything : forall (f g : flags) (s s' : bytes) (m m' : mnemonic), 
  (bytes_ok s -> bytes_ok s' -> fmt_seed_debug f s = fmt_seed_debug g s' -> s = s')
  /\ (constructible m -> constructible m' -> m_lang m = m_lang m' -> fmt_mnemonic_debug f m = fmt_mnemonic_debug g m' -> m = m').
Proof.
  intros f g s s' m m'. split.
  - intros H H' E. unfold fmt_seed_debug, fmt_seed_hex, fmt_hex_flags in E. apply app_inv_head in E. rewrite !fmt_02_all in E by assumption.
    assert (X : Some s = Some s'); [|injection X as ->; reflexivity]. rewrite <- (unhex_flat true s H), <- (unhex_flat true s' H'), E. reflexivity.
  - intros C C' L E. unfold fmt_mnemonic_debug in E. fold (mnemonic_debug m) (mnemonic_debug m') in E.
    rewrite (c74_debug_is_quoted_phrase m C), (c74_debug_is_quoted_phrase m' C') in E. apply ok_inj in E. apply app_inv_head, app_inv_tail in E.
    destruct (c27_phrase_kept m C) as (_ & _ & R). destruct (c27_phrase_kept m' C') as (_ & _ & R'). rewrite E, L, R' in R. symmetry. exact (ok_inj _ _ R).
Qed.
(** So the Debug texts do not hide the secrets, though that of an extended private key does. *)
Lemma c115_debug_hides_refuted :
  (~ forall (f : flags) (s s' : bytes), bytes_ok s -> bytes_ok s' -> len s = 64 -> len s' = 64 -> fmt_seed_debug f s = fmt_seed_debug f s')
  /\ (~ forall (f : flags) (m m' : mnemonic), constructible m -> constructible m' -> fmt_mnemonic_debug f m = fmt_mnemonic_debug f m').
Proof.
  split; intros H.
  - assert (O : forall b, b < 256 -> bytes_ok (repeat b 64)). { intros b Hb. apply Forall_forall. intros c Hc. apply repeat_spec in Hc. subst c. exact Hb. }
    specialize (H plain_flags (repeat 0 64) (repeat 1 64) (O 0 eq_refl) (O 1 eq_refl) eq_refl eq_refl).
    apply (c115_debug_shows_everything plain_flags plain_flags _ _ ex_mnemonic ex_mnemonic) in H; [discriminate H|apply O; reflexivity..].
  - destruct (sentence_exists English (repeat 0 16)) as (ws & Hs).
    { repeat constructor. } { left. reflexivity. }
    assert (C : constructible (Mnemonic (spaced ws) English (repeat 0 16))). { apply constructible_sentence. exists ws. auto. }
    specialize (H plain_flags ex_mnemonic _ c27_example C). apply (c115_debug_shows_everything _ _ [] []) in H; [|exact c27_example|exact C|reflexivity].
    apply (f_equal m_entropy) in H. discriminate H.
Qed.
Example c115_example : fmt_seed_debug (Flags 42 (Some ACenter) (Some 3) (Some 1) true false true None) [0x0A; 0xF0] = lit "0x0AF0"
  /\ fmt_mnemonic_debug (Flags 42 (Some ACenter) (Some 99) (Some 1) true false true None) ex_mnemonic = Ok ([34] ++ ex_phrase ++ [34]).
Proof.
  split; vm_compute; reflexivity.
Qed.
