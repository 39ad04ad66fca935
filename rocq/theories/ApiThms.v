(** Proofs about the public interface as a whole (restated in PropApi.v). *)
From Coq Require Import String ZifyBool ZifyNat ZifyN.
From Verif Require Import Outcome Bytes Str Hash HashLemmas Ripemd Nfkd ModelBip39 SpecBip39 WordData WordLemmas StrLemmas Bip39Proofs Bip39Thms.
From Verif Require Import Secp SpecSecp SecpField SecpGroup SecpOrder SecpProofs SecpSign Base58 ModelBip32 SpecBip32 Base58Proofs PathThms ExtProofs KeyTextThms.
From Verif Require Import DeriveThms MiscThms More32Thms More39Thms SecpCount PublicThms ChainThms ModelApi SpecApi.
Open Scope N_scope.

(** ** Texts and bytes *)
Definition ascii (s : str) : Prop := Forall (fun c => c < 128) s.
Lemma ascii_ok s : ascii s -> str_ok s.
Proof. apply Forall_impl. intros c H. left. lia. Qed.
Lemma ascii_app a b : ascii a -> ascii b -> ascii (a ++ b).
Proof. intros. apply Forall_app. auto. Qed.
Lemma ascii_dec n : ascii (dec_str n).
Proof. destruct (dec_str_ok n) as (_ & F & _). eapply Forall_impl; [|exact F]. intros c [_ H]. lia. Qed.
Lemma ascii_check s : forallb (fun c => c <? 128) s = true -> ascii s.
Proof. intros H. apply Forall_forall. intros c Hc. rewrite forallb_forall in H. specialize (H c Hc). lia. Qed.
Lemma ascii_join g ws : ascii g -> Forall ascii ws -> ascii (join g ws).
Proof.
  intros Hg. induction ws as [|w ws IH]; intros H; [constructor|]. inversion H as [|? ? H1 H2]; subst. cbn [join]. destruct ws as [|v ws]; [exact H1|].
  apply ascii_app; [exact H1|]. apply ascii_app; [exact Hg|]. apply IH, H2.
Qed.
Lemma ascii_flat {A} (f : A -> str) l : (forall a, In a l -> ascii (f a)) -> ascii (flat_map f l).
Proof. induction l as [|a l IH]; intros H; [constructor|]. cbn. apply ascii_app; [apply H; left; reflexivity|apply IH; intros b Hb; apply H; right; exact Hb]. Qed.
Lemma ascii_hex u l : bytes_ok l -> ascii (flat_map (hex_byte u) l).
Proof.
  intros H. apply ascii_flat. intros b Hb. unfold bytes_ok, byte_ok in H. rewrite Forall_forall in H. specialize (H b Hb). cbn beta in H.
  assert (b / 16 < 16) by (apply N.div_lt_upper_bound; lia). assert (b mod 16 < 16) by (apply N.mod_lt; lia).
  assert (D : forall d, d < 16 -> hex_digit u d < 128).
  { intros d Hd. unfold hex_digit. destruct (N.ltb_spec d 10); [lia|]. destruct u; lia. }
  apply Forall_cons; [apply D; assumption|]. apply Forall_cons; [apply D; assumption|constructor].
Qed.
Ltac ascii_tac :=
  match goal with
  | |- ascii (_ ++ _) => apply ascii_app; ascii_tac
  | |- ascii (dec_str _) => apply ascii_dec
  | |- ascii (lit _) => apply ascii_check; reflexivity
  | |- ascii quote => apply ascii_check; reflexivity
  | |- ascii [_] => apply ascii_check; reflexivity
  | |- ascii [] => constructor
  | |- ascii (debug_bytes _) => idtac
  | |- _ => idtac
  end.
Lemma ascii_fmt_hex u a l : bytes_ok l -> ascii (fmt_hex u a l).
Proof. intros H. unfold fmt_hex. apply ascii_app; [destruct a; ascii_tac|apply ascii_hex, H]. Qed.
Lemma ascii_child c : ascii (child_display c).
Proof. unfold child_display. apply ascii_app; [apply ascii_dec|]. destruct (child_is_hardened c); ascii_tac. Qed.
Lemma ascii_path p : ascii (path_display p).
Proof.
  rewrite path_display_eq. constructor; [reflexivity|]. apply ascii_flat. intros t Ht. apply in_map_iff in Ht. destruct Ht as (c & <- & _).
  constructor; [reflexivity|apply ascii_child].
Qed.
Lemma ascii_debug_bytes b : ascii (debug_bytes b).
Proof.
  unfold debug_bytes. apply ascii_app; [ascii_tac|]. apply ascii_app; [|ascii_tac]. apply ascii_join; [ascii_tac|].
  apply Forall_forall. intros w Hw. apply in_map_iff in Hw. destruct Hw as (c & <- & _). apply ascii_dec.
Qed.
Lemma ascii_xprv_debug x : ascii (xprv_debug x).
Proof.
  unfold xprv_debug, debug_attrs, debug_child. ascii_tac; apply ascii_debug_bytes.
Qed.
Lemma letters_text s : Forall letter s -> ascii s.
Proof. apply Forall_impl. intros c [H|H]; lia. Qed.
Lemma symbols_text s : Forall (fun c => In c base58_symbols) s -> ascii s.
Proof.
  apply Forall_impl. intros c H. assert (F : forallb (fun c => c <? 128) base58_symbols = true) by (vm_compute; reflexivity).
  rewrite forallb_forall in F. specialize (F c H). lia.
Qed.
Lemma ascii_prefix_debug p s : valid_prefix p -> prefix_debug p = Ok s -> ascii s.
Proof.
  intros V H. unfold prefix_debug in H. rewrite (prefix_str p V) in H. cbn [bind] in H. apply ok_inj in H. subst s.
  destruct V as (_ & L & _). apply letters_text in L. ascii_tac; [exact L|apply ascii_hex, be_bytes_ok].
Qed.
Lemma word_ok l w : In w (words l) -> str_ok w.
Proof. intros H. apply Forall_forall. intros c Hc. destruct (words_chars l w c H Hc); left; lia. Qed.
Lemma spaced_ok ws : (forall w, In w ws -> str_ok w) -> str_ok (spaced ws).
Proof.
  induction ws as [|w ws IH]; intros H; [constructor|]. destruct ws as [|v ws]; [apply H; left; reflexivity|].
  rewrite spaced_cons by discriminate. apply Forall_app. split; [apply H; left; reflexivity|]. constructor; [left; reflexivity|].
  apply IH. intros u Hu. apply H. right. exact Hu.
Qed.
Lemma phrase_ok m : constructible m -> str_ok (m_phrase m).
Proof.
  intros H. apply constructible_sentence in H. destruct H as (ws & -> & Hs). apply spaced_ok. intros w Hw. eapply word_ok, sentence_words; eassumption.
Qed.
Lemma entropy_ok m : constructible m -> bytes_ok (m_entropy m) /\ len (m_entropy m) < 2 ^ 61.
Proof.
  intros H. apply constructible_sentence in H. destruct H as (ws & _ & B & L & _). split; [exact B|]. unfold legal_entropy in L. unfold len.
  cbn [In] in L. lia.
Qed.
Lemma phrase_bytes_small m : constructible m -> len (utf8 (m_phrase m)) < 2 ^ 60.
Proof.
  intros H. pose proof (c05_phrase_shape m H) as (ws & -> & F & L).
  assert (Hw : forall w, In w ws -> In w (words (m_lang m))).
  { intros w Hw. rewrite Forall_forall in F. specialize (F w Hw). rewrite <- bip39_list_words. apply F. }
  destruct ws as [|w ws]; [reflexivity|]. rewrite utf8_spaced. pose proof (words_bytes _ w (Hw w (or_introl eq_refl))) as [_ B].
  pose proof (join_bytes_bound (m_lang m) ws (fun v Hv => Hw v (or_intror Hv))) as J.
  assert (length (w :: ws) <= 24)%nat. { cbn [In] in L. repeat (destruct L as [L|L]; [apply (f_equal snd) in L; cbn [snd] in L; lia|]). destruct L. }
  cbn [length] in *. unfold len in *. lia.
Qed.
Lemma phrase_bytes m : constructible m -> len (utf8 (m_phrase m)) < 2 ^ 61.
Proof. intros H. apply phrase_bytes_small in H. change (2 ^ 61) with (2 * 2 ^ 60). lia. Qed.
Lemma phrase_len m : constructible m -> len (m_phrase m) < 2 ^ 60.
Proof. intros H. pose proof (utf8_len_bounds (m_phrase m)). apply phrase_bytes_small in H. lia. Qed.

Lemma gb_bytes s : forall g, gb18030 s = Some g -> bytes_ok g /\ len g <= 2 * len s.
Proof.
  induction s as [|c s IH]; intros g H.
  - cbn in H. assert (g = []) by congruence. subst g. split; [constructor|reflexivity].
  - cbn [gb18030] in H. destruct (gb18030_char c) as [a|] eqn:Ea; [|discriminate H]. destruct (gb18030 s) as [b|]; [|discriminate H].
    assert (g = a ++ b) by congruence. subst g. destruct (IH b eq_refl) as [B L]. apply gb_char_cases in Ea.
    assert (bytes_ok a /\ len a <= 2).
    { destruct Ea as [[H1 ->]|(_ & x & y & -> & H1 & H2 & H3 & _)]; (split; [|vm_compute; discriminate]).
      - apply Forall_cons; [unfold byte_ok; lia|constructor].
      - apply Forall_cons; [exact H2|]. apply Forall_cons; [exact H3|constructor]. }
    destruct H0 as [H0 H1]. split; [apply bytes_ok_app; auto|]. rewrite len_app. change (c :: s) with ([c] ++ s). rewrite len_app. change (len [c]) with 1. lia.
Qed.
Lemma utf8_ok s : str_ok s -> bytes_ok (utf8 s).
Proof.
  intros H. apply Forall_forall. intros b Hb. apply in_flat_map in Hb. destruct Hb as (c & Hc & Hb).
  unfold str_ok in H. rewrite Forall_forall in H. specialize (H c Hc). unfold char_ok in H. unfold byte_ok. revert Hb. unfold utf8_char.
  destruct (N.ltb_spec c 0x80); [|destruct (N.ltb_spec c 0x800); [|destruct (N.ltb_spec c 0x10000)]]; cbn [In]; intros Hb;
  repeat (destruct Hb as [<-|Hb]; [|]); try lia; Z.div_mod_to_equations; lia.
Qed.
Lemma as_bytes_ok m b : constructible m -> mnemonic_as_bytes m = Ok b -> bytes_ok b /\ len b < 2 ^ 61.
Proof.
  intros C H. pose proof (phrase_bytes m C) as P. pose proof (phrase_ok m C) as O. pose proof (utf8_len_bounds (m_phrase m)) as U. unfold mnemonic_as_bytes in H. destruct (language_eqb (m_lang m) ChineseSimplified).
  - destruct (gb18030 (m_phrase m)) as [g|] eqn:E; [|discriminate H]. apply ok_inj in H. subst g. apply gb_bytes in E. destruct E as [B L]. split; [exact B|].
    change (2 ^ 61) with (2 * 2 ^ 60) in *. pose proof (phrase_len m C). lia.
  - apply ok_inj in H. subst b. split; [apply utf8_ok, O|exact P].
Qed.

(** ** One call *)
Definition good (o : outcome) : Prop := match o with Returns vs => Forall well_formed vs | _ => True end.
Lemma good_res {E A} f (m : res E A) : (forall a, m = Ok a -> Forall well_formed (f a)) -> good (of_res f m).
Proof. intros H. destruct m; [apply H; reflexivity|exact I|exact I]. Qed.
Lemma good_one {E A} f (m : res E A) : (forall a, m = Ok a -> well_formed (f a)) -> good (of_res (one f) m).
Proof. intros H. apply good_res. intros a Ha. constructor; [apply H, Ha|constructor]. Qed.
Lemma good_option {A} f (m : option A) : (forall a, m = Some a -> well_formed (f a)) -> good (of_option (one f) m).
Proof. intros H. destruct m; [|exact I]. constructor; [apply H; reflexivity|constructor]. Qed.
Lemma good_single v : well_formed v -> good (Returns [v]).
Proof. intros H. constructor; [exact H|constructor]. Qed.
Lemma good_many {A} f (l : list A) : Forall (fun a => well_formed (f a)) l -> good (Returns (map f l)).
Proof. intros H. cbn [good]. apply Forall_forall. intros v Hv. apply in_map_iff in Hv. destruct Hv as (a & <- & Ha). rewrite Forall_forall in H. apply H, Ha. Qed.
Ltac split_args A :=
  match type of A with
  | Forall _ (_ :: _) => let h := fresh "W" in apply Forall_cons_iff in A; destruct A as [h A]; cbn [well_formed] in h; split_args A
  | Forall _ [] => clear A
  | _ => idtac
  end.
Ltac start_call :=
  match goal with
  | |- good (of_res (one _) _) => apply good_one; let a := fresh "a" in let h := fresh "H" in intros a h; cbn [well_formed]
  | |- good (of_option (one _) _) => apply good_option; let a := fresh "a" in let h := fresh "H" in intros a h; cbn [well_formed]
  | |- good (Returns [_]) => apply good_single; cbn [well_formed]
  | |- _ => idtac
  end; match goal with |- True => exact I | |- _ => idtac end.
Lemma point_iff P : (exists k, (0 < k < secp_n)%Z /\ is_public_point k P) <-> P <> Infinity /\ on_curve P.
Proof.
  split.
  - intros (k & Hk & H). apply is_public_point_iff in H. destruct H as [_ ->]. split; [apply kG_not_inf, Hk|apply kG_on].
  - intros [F O]. destruct (every_point P O) as (k & Hk & ->). exists k. split.
    + destruct (Z.eq_dec k 0) as [->|]; [exfalso; apply F, kG_0|lia].
    + apply is_public_point_iff. split; [lia|reflexivity].
Qed.
Lemma xpub_iff y : well_formed (VXPub y) <-> valid_xpub y.
Proof. unfold valid_xpub. cbn [well_formed]. rewrite point_iff. tauto. Qed.
Lemma by_prefix_in l p ws w : get_words_by_prefix l p = Ok ws -> In w ws -> In w l.
Proof.
  unfold get_words_by_prefix, get_words_by_prefix_with. intros H Hw. apply bind_ok in H. destruct H as (r & _ & H).
  apply bind_ok in H. destruct H as (u & _ & H). apply ok_inj in H. subst ws.
  rewrite <- (firstn_skipn (N.to_nat match r with inl i => i | inr i => i end) l). apply in_or_app. right.
  set (rest := skipn _ l) in *. rewrite <- (firstn_skipn (length (take_while (fun w => starts_with w p) rest)) rest). apply in_or_app. left. exact Hw.
Qed.
Lemma child_from_str_u32 s c : child_from_str s = Ok c -> u32 c.
Proof.
  intros H. apply child_from_str_ok in H. destruct H as (sg & ds & h & _ & _ & _ & D & _ & ->). unfold u32. destruct h; lia.
Qed.
Lemma path_from_str_u32 s p : path_from_str s = Ok p -> Forall u32 p.
Proof. intros H. apply path_from_str_ok in H. exact (path_u32 _ _ H). Qed.
Lemma four_bytes b : has_bytes 4 b -> be_val b < 2 ^ 32.
Proof. intros [L B]. apply be_val_lt in B. unfold len in B. rewrite L in B. exact B. Qed.
Lemma from_version_valid v p : u32 v -> prefix_from_version v = Ok p -> valid_prefix p.
Proof. intros V H. apply from_version_iff in H. destruct H as (E & L & F & _). split; [exact L|]. split; [exact F|]. rewrite E. exact V. Qed.
Lemma parts_valid s v p : str_ok s -> v < 2 ^ 32 -> from_parts_unchecked (utf8 s) v = Ok p -> valid_prefix p.
Proof. intros S V H. apply parts_ok in H. destruct H as (L & F & ->). split; [exact L|]. split; [exact F|exact V]. Qed.
Lemma public_parse_valid b P : has_bytes 33 b -> public_parse b = Some P -> P <> Infinity /\ on_curve P.
Proof.
  intros [L B] H. destruct (public_parse_sound b P B L H) as [O C]. split; [|exact O]. intros ->. destruct C as (x & y & tag & xb & X & _). discriminate X.
Qed.
Lemma ok_or_inv {E A} (o : option A) (e : E) a : ok_or o e = Ok a -> o = Some a.
Proof. destruct o; cbn; intros H; [f_equal; congruence|discriminate H]. Qed.
Lemma or_panic_inv {E A} (o : option A) (a : A) : @or_panic E A o = Ok a -> o = Some a.
Proof. destruct o; cbn; intros H; [f_equal; congruence|discriminate H]. Qed.
Lemma public_tweak_valid P t Q : on_curve P -> public_tweak_add P t = Some Q -> Q <> Infinity /\ on_curve Q.
Proof.
  intros O E. rewrite public_tweak_ok in E by exact O. pose proof (ec_add_on _ _ O (kG_on t)) as O'.
  destruct (ec_add P (kG t)); [discriminate E|]. injection E as <-. split; [intros X; discriminate X|exact O'].
Qed.
Lemma text_ok e s : valid_ext e -> write_base58 e = Ok s \/ ek_to_string e = Ok s -> str_ok s.
Proof.
  intros V H. destruct (c35_text_fits e V) as (t & H1 & H2 & _ & H3 & _). assert (s = t) by (destruct H; congruence). subst t.
  apply ascii_ok, symbols_text, H3.
Qed.
Lemma mk_u8 a : 8 <> 64 -> a < 2 ^ 8 -> a < 256.
Proof. intros _ H. exact H. Qed.

Lemma step_good c : Forall well_formed (args c) -> environment_ok c -> good (run c).
Proof.
  intros A EN. destruct c; cbn [args run environment_ok] in *; split_args A; start_call.
  - intros X; destruct X; reflexivity.
  - intros X; destruct X; reflexivity.
  - intros _. destruct t; reflexivity.
  - intros X; destruct X; reflexivity.
  - apply ascii_ok. unfold mnemonic_type_display. ascii_tac.
  - apply get_word_ok in H. apply is_word_in in H. eapply word_ok, H.
  - apply good_res. intros ws Hws. apply Forall_forall. intros v Hv. apply in_map_iff in Hv. destruct Hv as (w & <- & Hw).
    cbn [well_formed]. pose proof (by_prefix_in _ _ _ _ Hws Hw) as X. rewrite wordlist_words in X. eapply word_ok, X.
  - apply get_bits_ok in H. apply is_word_lt in H. lia.
  - apply W. lia.
  - intros _. exact W.
  - apply constructible_sentence. eapply built_new; eassumption.
  - apply constructible_sentence. eapply built_entropy; [apply W|eassumption].
  - apply constructible_sentence. eapply built_phrase; eassumption.
  - destruct (validate s l); [constructor|exact I|exact I].
  - apply phrase_ok, constructible_sentence, W.
  - apply phrase_ok, constructible_sentence, W.
  - apply entropy_ok, constructible_sentence, W.
  - eapply as_bytes_ok; [apply constructible_sentence, W|eassumption].
  - apply phrase_ok, constructible_sentence, W.
  - apply constructible_sentence in W. rewrite (c74_debug_is_quoted_phrase m W) in H. apply ok_inj in H. subst a.
    apply Forall_cons; [left; reflexivity|]. apply Forall_app. split; [apply phrase_ok, W|]. apply Forall_cons; [left; reflexivity|constructor].
  - apply ascii_ok, ascii_fmt_hex. apply entropy_ok, constructible_sentence, W.
  - apply constructible_sentence in W. destruct (c24_seed_is_64_bytes m s W) as (sd & E & L & B). rewrite E in H. apply ok_inj in H. subst a. split; assumption.
  - destruct W as [L B]. split; [exact B|]. unfold len. rewrite L. reflexivity.
  - apply ascii_ok. unfold seed_debug. apply ascii_fmt_hex, W.
  - apply ascii_ok, ascii_fmt_hex, W.
  - apply W. lia.
  - destruct (N.lt_ge_cases n (2 ^ 31)) as [L|L].
    + rewrite child_new_ok in H by exact L. apply ok_inj in H. subst a. unfold u32. destruct hardened; lia.
    + rewrite child_new_err in H by exact L. discriminate H.
  - apply four_bytes, W.
  - apply has_bytes_be.
  - intros _. rewrite child_index_ok. pose proof (N.mod_lt c (2 ^ 31)). lia.
  - apply ascii_ok, ascii_child.
  - intros _. exact W.
  - eapply child_from_str_u32, H.
  - constructor.
  - apply good_many. exact W.
  - intros X. destruct X. reflexivity.
  - unfold path_parent in H. destruct (len p <? 1); [discriminate H|]. assert (a = firstn (N.to_nat (len p - 1)) p) by congruence. subst a.
    rewrite <- (firstn_skipn (N.to_nat (len p - 1)) p) in W. apply Forall_app in W. apply W.
  - apply Forall_app. split; [exact W|]. constructor; [exact W0|constructor].
  - apply ascii_ok, ascii_path.
  - apply Forall_app. split; [exact W|]. rewrite Forall_map in A. exact A.
  - eapply path_from_str_u32, H.
  - apply good_many. apply Forall_forall. intros p Hp. apply std_valid. cbn [In app prv_prefixes pub_prefixes] in *. tauto.
  - eapply parts_valid; [exact W|apply W0; lia|exact H].
  - eapply from_version_valid; [|exact H]. apply four_bytes, W.
  - destruct (c82_prefix_texts p W) as [E _]. rewrite E in H. apply ok_inj in H. subst a. apply ascii_ok, letters_text, W.
  - intros _. apply W.
  - apply has_bytes_be.
  - eapply ascii_ok, ascii_prefix_debug; eassumption.
  - eapply from_version_valid; [|exact H]. apply W. lia.
  - unfold prefix_try_from_slice in H. destruct (N.eqb_spec (len b) 4) as [L|L]; [|discriminate H]. eapply from_version_valid; [|exact H].
    apply four_bytes. split; [|apply W]. unfold len in L. lia.
  - split; [apply W; lia|]. split; [exact W0|]. split; [exact W1|exact W2].
  - destruct W as (D & F & C & CC). repeat (apply Forall_cons; [cbn [well_formed]; try assumption; try (intros _; exact D)|]). constructor.
  - split; [exact W|]. split; [exact W0|exact W1].
  - destruct W as (P & A & K). repeat (apply Forall_cons; [assumption|]). constructor.
  - eapply text_ok; [exact W|left; exact H].
  - eapply text_ok; [exact W|right; exact H].
  - eapply from_str_valid, H.
  - apply ok_or_inv, secret_parse_iff in H. apply H.
  - apply secret_bytes, W.
  - unfold private_derive_child in H. apply bind_ok in H. destruct H as (t & _ & H). apply ok_or_inv, secret_tweak_range in H. exact H.
  - exists k. split; [exact W|]. apply public_of_secret_ok. lia.
  - apply W.
  - apply ok_or_inv in H. apply point_iff. eapply public_parse_valid; eassumption.
  - split; [apply public_serialize_length|apply public_serialize_ok].
  - unfold public_derive_child in H. apply bind_ok in H. destruct H as (t & _ & H). apply ok_or_inv in H. apply point_iff in W. apply point_iff.
    eapply public_tweak_valid; [apply W|exact H].
  - apply fingerprint_bytes.
  - apply W.
  - rewrite along_new, along_bind in H. apply bind_ok in H. destruct H as (x & Hx & H). apply xprv_new_valid in Hx. eapply path_valid_prv; [exact Hx|exact W0|exact H].
  - eapply xprv_new_valid, H.
  - eapply path_valid_prv; [exact W|exact W0|exact H].
  - eapply xprv_child_valid; [exact W0|exact H].
  - apply W.
  - apply (xpub_iff (xprv_public_key x)), xprv_public_valid, W.
  - apply W.
  - apply secret_bytes, W.
  - apply xprv_ext_valid; assumption.
  - eapply text_ok; [apply xprv_ext_valid; eassumption|right; exact H].
  - apply ascii_ok, ascii_xprv_debug.
  - eapply xprv_from_str_valid, H.
  - apply xprv_try_from_ok in H; [|exact W]. destruct H as (_ & Ha & kb & _ & _ & R). split; [exact R|]. rewrite Ha. apply W.
  - apply W.
  - apply W.
  - apply fingerprint_bytes.
  - apply (xpub_iff a). eapply path_valid_pub; [apply xpub_iff, W|exact W0|exact H].
  - apply (xpub_iff a). eapply xpub_child_valid; [apply xpub_iff, W|exact W0|exact H].
  - split; [apply public_serialize_length|apply public_serialize_ok].
  - apply xpub_ext_valid; [apply xpub_iff, W|exact W0].
  - eapply text_ok; [apply xpub_ext_valid; [apply xpub_iff, W|exact W0]|right; exact H].
  - apply (xpub_iff a). eapply xpub_from_str_valid, H.
  - apply (xpub_iff a). apply xpub_try_from_ok in H; [|exact W]. destruct H as (_ & Ha & C & O). split; [|split; [exact O|rewrite Ha; apply W]].
    intros X. rewrite X in C. destruct C as (u & v & tag & xb & Y & _). discriminate Y.
  - destruct (ecdsa_sign tries k b) as [m|] eqn:E; [|exact I]. apply good_res. intros [sig r] ->. cbn [fst snd].
    destruct (c64_signatures_are_valid _ _ _ _ _ W E) as (r0 & s0 & rb & sb & -> & [B1 _] & [B2 _] & _ & _ & R & _).
    apply Forall_cons; [apply (has_bytes_app 32 32); assumption|]. apply Forall_cons; [intros _; change (2 ^ 8) with 256; lia|constructor].
  - apply ascii_ok, ascii_hex, ripemd160_ok.
Qed.

(** ** C108 *)
Lemma c108_everything_is_well_formed : forall v : value, obtainable v -> well_formed v.
Proof.
  intros v H. induction H as [v H|c vs v _ IH E R Hv].
  - destruct H; cbn [well_formed]; auto.
  - assert (A : Forall well_formed (args c)) by (apply Forall_forall; exact IH).
    pose proof (step_good c A E) as G. rewrite R in G. cbn [good] in G. rewrite Forall_forall in G. apply G, Hv.
Qed.
Lemma obtain_one c v : Forall obtainable (args c) -> environment_ok c -> run c = Returns [v] -> obtainable v.
Proof. intros A E R. eapply obtain_call; [apply Forall_forall, A|exact E|exact R|left; reflexivity]. Qed.
Ltac obtain_args := cbn [args]; repeat (apply Forall_cons); [..|apply Forall_nil].
Lemma obtain_child c : u32 c -> obtainable (VChild c).
Proof. intros H. apply (obtain_one (ChildFrom c)); [|exact I|reflexivity]. obtain_args. apply obtain_literal, lit_num, H. Qed.
Lemma obtain_path p : Forall u32 p -> obtainable (VPath p).
Proof.
  intros H. apply (obtain_one (PathExtend [] p)); [|exact I|reflexivity]. cbn [args]. apply Forall_cons.
  - apply (obtain_one PathDefault); [constructor|exact I|reflexivity].
  - apply Forall_map. eapply Forall_impl; [|exact H]. exact obtain_child.
Qed.
Lemma obtain_prefix p : valid_prefix p -> obtainable (VPrefix p).
Proof.
  intros (L & F & V). assert (S : str_ok (chars p)) by apply ascii_ok, letters_text, F. apply (obtain_one (PrefixFromParts (chars p) (version p))).
  - obtain_args; apply obtain_literal; [apply lit_text, S|apply lit_num, V].
  - exact I.
  - cbn [run]. rewrite (proj2 (proj1 (c48_parts (chars p) (version p) S V)) (conj L F)). destruct p. reflexivity.
Qed.
Lemma obtain_attrs a : valid_attrs a -> obtainable (VAttrs a).
Proof.
  intros (D & F & C & CC). apply (obtain_one (AttrsMake (depth a) (parent_fingerprint a) (child_number a) (chain_code a))).
  - obtain_args; [apply obtain_literal, lit_num, D|apply obtain_literal, lit_array, F|apply obtain_child, C|apply obtain_literal, lit_array, CC].
  - exact I.
  - destruct a. reflexivity.
Qed.
Lemma obtain_ext e : valid_ext e -> obtainable (VExt e).
Proof.
  intros (P & A & K). apply (obtain_one (ExtMake (ek_prefix e) (ek_attrs e) (key_bytes e))).
  - obtain_args; [apply obtain_prefix, P|apply obtain_attrs, A|apply obtain_literal, lit_array, K].
  - exact I.
  - destruct e. reflexivity.
Qed.
Lemma obtain_xprv x : valid_xprv x -> obtainable (VXPrv x).
Proof.
  intros V. assert (P : valid_prefix XPRV) by (apply std_valid; cbn; tauto). pose proof (xprv_ext_valid x XPRV V P) as E.
  apply (obtain_one (XPrvTryFrom (xprv_to_extended_key x XPRV))).
  - obtain_args. apply obtain_ext, E.
  - exact I.
  - cbn [run]. rewrite (proj2 (xprv_try_from_ok _ x E)); [reflexivity|]. split; [reflexivity|]. split; [reflexivity|].
    exists (xprv_to_bytes x). split; [reflexivity|]. split; [apply secret_bytes, V|apply V].
Qed.
Lemma obtain_mnemonic m : well_formed (VMnemonic m) -> obtainable (VMnemonic m).
Proof.
  intros W. pose proof W as (ws & E & S). apply (obtain_one (MnemonicFromEntropy (m_entropy m) (m_lang m))).
  - obtain_args; apply obtain_literal; [|constructor]. apply constructible_sentence, entropy_ok in W. apply lit_bytes; apply W.
  - exact I.
  - cbn [run]. destruct (from_entropy_ok (m_entropy m) (m_lang m) m) as [_ X]; [apply S|]. rewrite X; [reflexivity|].
    split; [reflexivity|]. split; [reflexivity|]. exists ws. auto.
Qed.
(** The description is exact, but for seeds and numbers of machine words. *)
Lemma c108_and_everything_well_formed_is_obtained : forall v : value,
  (forall b, v <> VSeed b) -> (forall n, v = VNum 64 n -> n < 2 ^ 64) -> (obtainable v <-> well_formed v).
Proof.
  intros v NS NW. split; [apply c108_everything_is_well_formed|]. intros W. destruct v; cbn [well_formed] in W.
  - apply obtain_literal, lit_text, W.
  - apply obtain_literal, lit_bytes; apply W.
  - apply obtain_literal, lit_array, W.
  - apply obtain_literal, lit_num. destruct (N.eq_dec width 64) as [->|D]; [apply NW; reflexivity|apply W, D].
  - apply obtain_literal, lit_bool.
  - apply obtain_literal, lit_type.
  - apply obtain_literal, lit_lang.
  - apply (obtain_one (IndexFrom i)); [|exact I|reflexivity]. obtain_args. apply obtain_literal, lit_num, W.
  - apply obtain_mnemonic, W.
  - destruct (NS b). reflexivity.
  - apply obtain_child, W.
  - apply obtain_path, W.
  - apply obtain_prefix, W.
  - apply obtain_attrs, W.
  - apply obtain_ext, W.
  - apply (obtain_one (SecretFromBytes (secret_serialize k))); [|exact I|].
    + obtain_args. apply obtain_literal, lit_array, secret_bytes, W.
    + cbn [run]. unfold private_from_bytes. rewrite secret_parse_serialize by exact W. reflexivity.
  - destruct W as (k & Hk & HP). apply is_public_point_iff in HP. destruct HP as [_ ->]. apply (obtain_one (SecretPublic k)); [|exact I|].
    + obtain_args. apply (obtain_one (SecretFromBytes (secret_serialize k))); [|exact I|].
      * obtain_args. apply obtain_literal, lit_array, secret_bytes, Hk.
      * cbn [run]. unfold private_from_bytes. rewrite secret_parse_serialize by exact Hk. reflexivity.
    + cbn [run]. rewrite private_public by lia. reflexivity.
  - apply obtain_xprv, W.
  - apply xpub_iff in W. destruct (c102_every_public_key_has_one_secret y W) as (x & V & <- & _).
    apply (obtain_one (XPrvPublicKey x)); [|exact I|reflexivity]. obtain_args. apply obtain_xprv, V.
Qed.
Definition seedless (o : outcome) : Prop := match o with Returns vs => forall b, ~ In (VSeed b) vs | _ => True end.
Lemma seedless_res {E A} f (m : res E A) : (forall a b, ~ In (VSeed b) (f a)) -> seedless (of_res f m).
Proof. intros H. destruct m; [intros b; apply H|exact I|exact I]. Qed.
Lemma seedless_one {E A} f (m : res E A) : (forall a b, f a <> VSeed b) -> seedless (of_res (one f) m).
Proof. intros H. apply seedless_res. intros a b [X|[]]. exact (H a b X). Qed.
Lemma seedless_map {E A} f (m : res E (list A)) : (forall a b, f a <> VSeed b) -> seedless (of_res (map f) m).
Proof. intros H. apply seedless_res. intros l b X. apply in_map_iff in X. destruct X as (a & X & _). exact (H a b X). Qed.
Lemma seedless_option {A} f (m : option A) : (forall a b, f a <> VSeed b) -> seedless (of_option (one f) m).
Proof. intros H. destruct m; [|exact I]. intros b [X|[]]. exact (H a b X). Qed.
Lemma seedless_list {A} f (l : list A) : (forall a b, f a <> VSeed b) -> seedless (Returns (map f l)).
Proof. intros H b X. apply in_map_iff in X. destruct X as (a & X & _). exact (H a b X). Qed.
Lemma seedless_run c : (forall m s, c <> SeedNew m s) -> seedless (run c).
Proof.
  intros N. destruct c; cbn [run].
  all: try (match goal with
    | |- seedless (of_res (one _) _) => apply seedless_one; intros ? ? X; discriminate X
    | |- seedless (of_res (map _) _) => apply seedless_map; intros ? ? X; discriminate X
    | |- seedless (of_option (one _) _) => apply seedless_option; intros ? ? X; discriminate X
    | |- seedless (Returns (map _ _)) => apply seedless_list; intros ? ? X; discriminate X
    | |- seedless (Returns _) => intros ? X; cbn [In] in X; repeat (destruct X as [X|X]; [discriminate X|]); exact X
    end).
  - apply seedless_res. intros a b X. exact X.
  - destruct (N m s eq_refl).
  - destruct (ecdsa_sign tries k b) as [m|]; [|exact I]. apply seedless_res. intros a b' [X|[X|X]]; [discriminate X|discriminate X|exact X].
Qed.
(** A seed comes from a mnemonic and a passphrase: there is no other way to one. *)
Lemma c108_seeds : forall b : bytes, obtainable (VSeed b) <->
  exists m passphrase, obtainable (VMnemonic m) /\ obtainable (VText passphrase) /\ seed_new m passphrase = Ok b.
Proof.
  intros b. split.
  - intros H. inversion H as [v L|c vs v A E R Hv]; subst; [inversion L|].
    assert (X : (exists m s, c = SeedNew m s) \/ (forall m s, c <> SeedNew m s)).
    { destruct c; try (right; intros ? ? Y; discriminate Y). left. eauto. }
    destruct X as [(m & s & ->)|X].
    + cbn [run] in R. destruct (seed_new m s) as [d| |] eqn:D; cbn [of_res] in R; [|discriminate R|discriminate R].
      assert (V : vs = one VSeed d) by congruence. subst vs. destruct Hv as [Hv|[]]. assert (d = b) by congruence. subst d.
      exists m, s. split; [apply A; left; reflexivity|]. split; [apply A; right; left; reflexivity|exact D].
    + apply seedless_run in X. rewrite R in X. destruct (X b Hv).
  - intros (m & s & Hm & Hs & D). apply (obtain_one (SeedNew m s)); [|exact I|cbn [run]; rewrite D; reflexivity].
    obtain_args; assumption.
Qed.

Example c108_example : obtainable (VXPrv ex1_xprv) /\ obtainable (VPublic G) /\ obtainable (VMnemonic ex_mnemonic)
  /\ ~ obtainable (VPublic Infinity) /\ ~ obtainable (VSecret 0) /\ ~ obtainable (VSecret secp_n)
  /\ ~ obtainable (VMnemonic (Mnemonic (lit "abandon") English ex_entropy)).
Proof.
  assert (ES : forall v, obtainable v -> well_formed v) by exact c108_everything_is_well_formed.
  split; [apply obtain_xprv, ex1_valid|]. split; [|split; [|split; [|split; [|split]]]].
  - apply c108_and_everything_well_formed_is_obtained; [intros b H; discriminate H|intros m H; discriminate H|]. cbn [well_formed]. apply point_iff.
    split; [intros H; discriminate H|exact G_on].
  - apply obtain_mnemonic. cbn [well_formed]. apply constructible_sentence. eapply built_entropy; [|exact ex_from_entropy]. apply c01_example.
  - intros H. apply ES in H. cbn [well_formed] in H. apply point_iff in H. destruct H as [H _]. apply H. reflexivity.
  - intros H. apply ES in H. cbn [well_formed] in H. lia.
  - intros H. apply ES in H. cbn [well_formed] in H. lia.
  - intros H. apply ES in H. destruct H as (ws & E & S). set (m := Mnemonic (lit "abandon") English ex_entropy) in *.
    assert (X : from_entropy ex_entropy English = Ok m).
    { apply from_entropy_ok; [apply S|]. split; [reflexivity|]. split; [reflexivity|]. exists ws. auto. }
    rewrite ex_from_entropy in X. apply ok_inj in X. apply (f_equal (fun a => length (m_phrase a))) in X. vm_compute in X. discriminate X.
Qed.

(** ** C109 *)
Lemma res_panics {E A} f (m : res E A) : of_res f m = Panics <-> m = Panic.
Proof. destruct m; cbn [of_res]; split; intros H; try discriminate H; reflexivity. Qed.
Lemma res_never {E A} f (m : res E A) : m <> Panic -> of_res f m <> Panics.
Proof. intros H X. apply H. apply res_panics in X. exact X. Qed.
Lemma opt_never {A} f (m : option A) : of_option f m <> Panics.
Proof. destruct m; discriminate. Qed.
Lemma never_panics c : run c <> Panics -> ~ panicking c -> (run c = Panics <-> panicking c).
Proof. tauto. Qed.
Lemma returns_prv x p y : run (XPrvDeriveFromPath x p) = Returns [VXPrv y] <-> xprv_derive_from_path x p = Ok y.
Proof.
  cbn [run]. destruct (xprv_derive_from_path x p) as [z| |]; cbn [of_res]; unfold one; split; intros H; try discriminate H; [injection H as ->|apply ok_inj in H; subst z]; reflexivity.
Qed.
Lemma returns_pub x p y : run (XPubDeriveFromPath x p) = Returns [VXPub y] <-> xpub_derive_from_path x p = Ok y.
Proof.
  cbn [run]. destruct (xpub_derive_from_path x p) as [z| |]; cbn [of_res]; unfold one; split; intros H; try discriminate H; [injection H as ->|apply ok_inj in H; subst z]; reflexivity.
Qed.
Lemma returns_new b y : run (XPrvNew b) = Returns [VXPrv y] <-> xprv_new b = Ok y.
Proof.
  cbn [run]. destruct (xprv_new b) as [z| |]; cbn [of_res]; unfold one; split; intros H; try discriminate H; [injection H as ->|apply ok_inj in H; subst z]; reflexivity.
Qed.
Lemma panicking_prv x c : panicking (XPrvDeriveChild x c) <-> depth (xprv_attrs x) < 255 /\ priv_hash_bad x c.
Proof. split; [intros H; inversion H; auto|intros [H1 H2]; apply panic_prv_child; assumption]. Qed.
Lemma panicking_pub x c : panicking (XPubDeriveChild x c) <-> c < 2 ^ 31 /\ depth (xpub_attrs x) < 255 /\ pub_hash_bad x c.
Proof. split; [intros H; inversion H; auto|intros (H0 & H1 & H2); apply panic_pub_child; assumption]. Qed.
Lemma bad_tweak_iff b : has_bytes 32 b -> (secret_parse b = None <-> bad_tweak b).
Proof.
  intros Hb. unfold bad_tweak. assert (E : be_val b = digits_val 256 b) by reflexivity. rewrite <- E. split.
  - intros H X. rewrite (proj2 (secret_parse_iff b _) (conj eq_refl X)) in H. discriminate H.
  - intros H. destruct (secret_parse b) as [k|] eqn:X; [|reflexivity]. apply secret_parse_iff in X. destruct X as [-> X]. destruct (H X).
Qed.
Lemma possible_good c : possible c -> Forall well_formed (args c).
Proof. intros [A _]. apply Forall_forall. intros a Ha. apply c108_everything_is_well_formed, A, Ha. Qed.
Definition some_ext : extended_key := mkExt XPRV ex_attrs [].
Lemma entry_points s b seed v h : xprv_new seed <> Panic /\ ek_from_str s <> Panic /\ xprv_from_str s <> Panic /\ xpub_from_str s <> Panic
  /\ prefix_from_version v <> Panic /\ prefix_try_from_slice b <> Panic /\ child_from_str s <> Panic /\ path_from_str s <> Panic /\ child_new v h <> Panic.
Proof.
  destruct (c60_other_entry_points s b seed v ex1_xprv ex_xpub some_ext XPRV) as (H1 & H2 & H3 & H4 & _ & _ & H5 & H6 & H7 & H8 & H9).
  repeat (split; [assumption|]). apply H9.
Qed.
Lemma ext_points e : valid_ext e -> write_base58 e <> Panic /\ ek_to_string e <> Panic /\ xprv_try_from e <> Panic /\ xpub_try_from e <> Panic.
Proof.
  intros V. destruct (c60_other_entry_points [] [] [] 0 ex1_xprv ex_xpub e XPRV) as (_ & _ & _ & _ & H & _). destruct (H V) as (H1 & H2 & H3).
  split; [|auto]. destruct (c35_text_fits e V) as (t & E & _). rewrite E. discriminate.
Qed.
Lemma ok_or_never {E A} (o : option A) (e : E) : ok_or o e <> Panic.
Proof. destruct o; discriminate. Qed.
Lemma tweak_panics {A B} (o : option A) (f : A -> option B) : (let* t := or_panic o in ok_or (f t) ECrypto) = Panic <-> o = None.
Proof.
  destruct o as [a|]; cbn [or_panic bind]; split; intros H; try discriminate H; try reflexivity. destruct (ok_or_never _ _ H).
Qed.

Lemma prv_path_panics x p : valid_xprv x -> Forall u32 p -> (xprv_derive_from_path x p = Panic <-> panicking (XPrvDeriveFromPath x p)).
Proof.
  intros V F. rewrite (c60_private_path x p V F). split.
  - intros (p1 & c & p2 & y & -> & H1 & H2 & H3). apply (panic_prv_path x p1 c p2 y); [apply returns_prv, H1|apply panicking_prv; auto].
  - intros H. inversion H as [| | | | | |? p1 c p2 y E X| |]; subst. apply returns_prv in E. apply panicking_prv in X. exists p1, c, p2, y. tauto.
Qed.
Lemma pub_path_panics x p : valid_xpub x -> Forall u32 p -> (xpub_derive_from_path x p = Panic <-> panicking (XPubDeriveFromPath x p)).
Proof.
  intros V F. rewrite (c60_public_path x p V F). split.
  - intros (p1 & c & p2 & y & -> & H1 & H2 & H3 & H4). apply (panic_pub_path x p1 c p2 y); [apply returns_pub, H1|apply panicking_pub; auto].
  - intros H. inversion H as [| | | | | | |? p1 c p2 y E X|]; subst. apply returns_pub in E. apply panicking_pub in X. exists p1, c, p2, y. tauto.
Qed.
Lemma c109_the_calls_that_panic : forall c : call, possible c -> (run c = Panics <-> panicking c).
Proof.
  intros c P. pose proof (possible_good c P) as A. destruct P as [_ EN].
  destruct c14_bip39_no_panic as (N1 & N2 & N3 & N4 & N5 & N6 & N7 & N8 & N9 & N10 & N11).
  destruct c; cbn [args environment_ok] in *; split_args A;
  match goal with
  | |- run (ListGetWord _ _) = _ <-> _ => idtac
  | |- run (PrefixFromParts _ _) = _ <-> _ => idtac
  | |- run (SecretDerive _ _) = _ <-> _ => idtac
  | |- run (PublicDerive _ _) = _ <-> _ => idtac
  | |- run (XPrvDeriveChild _ _) = _ <-> _ => idtac
  | |- run (XPubDeriveChild _ _) = _ <-> _ => idtac
  | |- run (XPrvDeriveFromPath _ _) = _ <-> _ => idtac
  | |- run (XPubDeriveFromPath _ _) = _ <-> _ => idtac
  | |- run (XPrvNewFromPath _ _) = _ <-> _ => idtac
  | |- _ => apply never_panics; [cbn [run]|intros X; inversion X; fail]
  end;
  match goal with
  | |- Returns _ <> Panics => discriminate
  | |- of_option _ _ <> Panics => apply opt_never
  | |- of_res _ _ <> Panics => apply res_never
  | |- _ => idtac
  end.
  - apply N6.
  - apply N7.
  - apply N5.
  - cbn [run]. rewrite res_panics. split.
    + intros H. apply panic_index. destruct (N.lt_ge_cases i 2048) as [L|L]; [destruct (N10 l i L H)|exact L].
    + intros H. inversion H. apply get_word_panic. assumption.
  - apply N11.
  - apply N9.
  - apply N4, EN.
  - apply N3; apply W.
  - apply N1.
  - apply N2.
  - apply constructible_sentence in W. destruct (c24_seed_is_64_bytes m [] W) as (sd & H & _). unfold seed_new in H. cbv zeta in H.
    apply bind_ok in H. destruct H as (pw & H & _). rewrite H. discriminate.
  - apply constructible_sentence in W. rewrite (c74_debug_is_quoted_phrase m W). discriminate.
  - apply N8, constructible_sentence, W.
  - apply (entry_points [] [] [] n hardened).
  - apply (entry_points s [] [] 0 false).
  - apply (entry_points s [] [] 0 false).
  - cbn [run]. rewrite res_panics. destruct (c48_parts s v W (W0 ltac:(lia))) as [C1 C2]. split.
    + intros H. apply panic_parts. intros X. apply C1 in X. rewrite X in H. discriminate H.
    + intros H. inversion H. apply C2. assumption.
  - apply (entry_points [] [] [] (be_val b) false).
  - rewrite (proj1 (c82_prefix_texts p W)). discriminate.
  - destruct (c82_prefix_texts p W) as (_ & vb & hex & _ & _ & E). rewrite E. discriminate.
  - apply (entry_points [] [] [] v false).
  - apply (entry_points [] b [] 0 false).
  - apply ext_points, W.
  - apply ext_points, W.
  - apply (entry_points s [] [] 0 false).
  - apply ok_or_never.
  - cbn [run]. rewrite res_panics. unfold private_derive_child. rewrite tweak_panics, bad_tweak_iff by exact W0.
    split; [apply panic_secret|intros H; inversion H; assumption].
  - apply ok_or_never.
  - cbn [run]. rewrite res_panics. unfold public_derive_child. rewrite tweak_panics, bad_tweak_iff by exact W0.
    split; [apply panic_public|intros H; inversion H; assumption].
  - cbn [run]. rewrite res_panics, along_new, along_bind. split.
    + intros H. destruct (xprv_new b) as [x| |] eqn:E; cbn [bind] in H; [|discriminate H|destruct (proj1 (entry_points [] [] b 0 false) E)].
      apply (panic_seed_path b p x); [apply returns_new, E|]. apply prv_path_panics; [eapply xprv_new_valid, E|exact W0|exact H].
    + intros H. inversion H as [| | | | | | | |? ? x E X]; subst. apply returns_new in E. rewrite E. cbn [bind].
      apply prv_path_panics in X; [exact X|eapply xprv_new_valid, E|exact W0].
  - apply (entry_points [] [] b 0 false).
  - cbn [run]. rewrite res_panics. apply prv_path_panics; assumption.
  - cbn [run]. rewrite res_panics, panicking_prv. apply c60_private_step; assumption.
  - apply ext_points, xprv_ext_valid; assumption.
  - apply (entry_points s [] [] 0 false).
  - apply ext_points, W.
  - cbn [run]. rewrite res_panics. apply pub_path_panics; [apply xpub_iff|]; assumption.
  - cbn [run]. rewrite res_panics, panicking_pub. apply c60_public_step; [apply xpub_iff|]; assumption.
  - apply ext_points, xpub_ext_valid; [apply xpub_iff|]; assumption.
  - apply (entry_points s [] [] 0 false).
  - apply ext_points, W.
  - destruct (ecdsa_sign tries k b) as [m|] eqn:E; [|discriminate]. apply res_never. intros ->. destruct (c65_only_length_errors tries k b) as (_ & _ & X). destruct (X E).
Qed.
Lemma possible_literals c : Forall literal (args c) -> environment_ok c -> possible c.
Proof. intros A E. split; [|exact E]. intros a Ha. rewrite Forall_forall in A. apply obtain_literal, A, Ha. Qed.
Lemma obtain_secret k : (0 < k < secp_n)%Z -> obtainable (VSecret k).
Proof. intros H. apply c108_and_everything_well_formed_is_obtained; [intros b X; discriminate X|intros m X; discriminate X|exact H]. Qed.
(** A panic is in reach of four calls without any search for a hash value. *)
Example c109_example : possible (ListGetWord English 5000) /\ run (ListGetWord English 5000) = Panics
  /\ possible (PrefixFromParts (lit "xpr1") 5) /\ run (PrefixFromParts (lit "xpr1") 5) = Panics
  /\ possible (SecretDerive 1 (repeat 0 32)) /\ run (SecretDerive 1 (repeat 0 32)) = Panics
  /\ possible (PublicDerive G (repeat 0 32)) /\ run (PublicDerive G (repeat 0 32)) = Panics
  /\ run (SecretDerive 1 (repeat 0 31 ++ [1])) = Returns [VSecret 2].
Proof.
  assert (Z : literal (VArray 32 (repeat 0 32))) by (apply lit_array, (has_bytes_be 32 0)).
  assert (P1 : possible (ListGetWord English 5000)).
  { split; [|exact I]. intros a [<-|[<-|[]]]; [apply obtain_literal, lit_lang|].
    apply (obtain_one (IndexFrom 5000)); [|exact I|reflexivity]. obtain_args. apply obtain_literal, lit_num. reflexivity. }
  assert (P2 : possible (PrefixFromParts (lit "xpr1") 5)).
  { apply possible_literals; [|exact I]. obtain_args; [apply lit_text, ascii_ok, ascii_check; reflexivity|apply lit_num; reflexivity]. }
  assert (P3 : possible (SecretDerive 1 (repeat 0 32))).
  { split; [|exact I]. intros a [<-|[<-|[]]]; [apply obtain_secret; split; reflexivity|apply obtain_literal, Z]. }
  assert (P4 : possible (PublicDerive G (repeat 0 32))).
  { split; [|exact I]. intros a [<-|[<-|[]]]; [|apply obtain_literal, Z]. apply c108_example. }
  split; [exact P1|]. split; [apply c109_the_calls_that_panic; [exact P1|apply panic_index; discriminate]|].
  split; [exact P2|]. split; [reflexivity|]. split; [exact P3|]. split; [reflexivity|]. split; [exact P4|]. split; reflexivity.
Qed.
