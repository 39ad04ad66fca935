(** Texts and entropies given in place of a seed: C166, C167. *)
From Coq Require Import String Lia.
From Verif Require Import Outcome Bytes Str Hash ModelBip39 SpecBip39 ModelBip32 SpecBip32.
From Verif Require Import KeyTextThms(ex_xprv) DeriveThms(ex_seed, c49_example).
From Verif Require Import WordLemmas WordData.
From Verif Require Bip39Thms GenericThms More32Thms More39Thms WordData BuildThms ApiThms.
Open Scope N_scope.

Lemma unhex_digit_ascii upper c x : unhex_digit upper c = Some x -> c < 128.
Proof.
  unfold unhex_digit. intros H.
  destruct ((48 <=? c) && (c <=? 57))%bool eqn:E.
  - apply andb_prop in E. destruct E as [_ E]. apply N.leb_le in E. lia.
  - destruct upper.
    + destruct ((65 <=? c) && (c <=? 70))%bool eqn:F; [|discriminate H]. apply andb_prop in F. destruct F as [_ F]. apply N.leb_le in F. lia.
    + destruct ((97 <=? c) && (c <=? 102))%bool eqn:F; [|discriminate H]. apply andb_prop in F. destruct F as [_ F]. apply N.leb_le in F. lia.
Qed.
Lemma unhex_shape upper : forall k text seed, (length text <= k)%nat -> unhex upper text = Some seed ->
  Forall (fun c => c < 128) text /\ length text = (2 * length seed)%nat.
Proof.
  induction k as [|k I]; intros text seed L H.
  - destruct text; [|cbn in L; lia]. injection H as <-. split; [constructor|reflexivity].
  - destruct text as [|a [|b s]]; [injection H as <-; split; [constructor|reflexivity]|discriminate H|].
    cbn [unhex] in H. destruct (unhex_digit upper a) as [x|] eqn:A; [|discriminate H].
    destruct (unhex_digit upper b) as [y|] eqn:B; [|discriminate H]. destruct (unhex upper s) as [l|] eqn:S; [|discriminate H].
    injection H as <-. cbn [length] in L. destruct (I s l ltac:(lia) S) as [F E].
    split; [constructor; [|constructor]; [eapply unhex_digit_ascii; eassumption|eapply unhex_digit_ascii; eassumption|exact F]|].
    cbn [length]. lia.
Qed.
Lemma utf8_ascii s : Forall (fun c => c < 128) s -> utf8 s = s.
Proof.
  induction 1 as [|c s H F I]; [reflexivity|]. unfold utf8 in *. cbn [flat_map]. rewrite I. unfold utf8_char.
  replace (c <? 0x80) with true; [reflexivity|]. symmetry. apply N.ltb_lt. exact H.
Qed.
Lemma hex_bytes upper text seed : unhex upper text = Some seed ->
  utf8 text = text /\ bytes_ok text /\ len text = 2 * len seed.
Proof.
  intros H. destruct (unhex_shape upper _ text seed (le_n _) H) as [F E]. split; [apply utf8_ascii, F|]. split; [|unfold len; lia].
  unfold bytes_ok. eapply Forall_impl; [|exact F]. intros c X. unfold byte_ok. apply (N.lt_trans _ _ _ X). reflexivity.
Qed.
Lemma doubled n : In (2 * n) [16; 32; 64; 128] <-> In n [8; 16; 32; 64].
Proof. cbn [In]. split; intros H; lia. Qed.

(** C166 *)
Lemma c166_refused_refuted :
  ~ (forall (upper : bool) (seed : bytes) (text : str), bytes_ok seed -> length seed = 64%nat -> unhex upper text = Some seed ->
       xprv_new (utf8 text) = Err ESeedLength).
Proof.
  intros H. assert (E : unhex false (repeat 48 128) = Some (repeat 0 64)) by (vm_compute; reflexivity).
  assert (B : bytes_ok (repeat 0 64)). { apply Forall_forall. intros x X. apply repeat_spec in X. subst x. reflexivity. }
  specialize (H false (repeat 0 64) (repeat 48 128) B eq_refl E).
  destruct (hex_bytes _ _ _ E) as (U & O & L). rewrite U in H. apply (GenericThms.c138_refused_lengths _ O) in H.
  apply H. rewrite L. right. right. right. left. reflexivity.
Qed.
(** Which hexadecimal texts are refused for their length: those of a seed of 64 bytes never are. *)
Lemma c166_when_refused : forall (upper : bool) (seed : bytes) (text : str), unhex upper text = Some seed ->
  (xprv_new (utf8 text) = Err ESeedLength <-> ~ In (len seed) [8; 16; 32; 64]).
Proof.
  intros upper seed text E. destruct (hex_bytes _ _ _ E) as (U & O & L). rewrite U.
  rewrite (GenericThms.c138_refused_lengths _ O), L, doubled. reflexivity.
Qed.
(** What the crate itself prints for a seed is taken as a seed without 0x and refused with 0x. *)
Lemma c166_printed_seed : forall (upper : bool) (seed : bytes), bytes_ok seed -> length seed = 64%nat ->
  xprv_new (utf8 (seed_hex upper false seed)) <> Err ESeedLength
  /\ xprv_new (utf8 (seed_hex upper true seed)) = Err ESeedLength.
Proof.
  intros upper seed O L.
  assert (Q : forall alternate, exists digits, seed_hex upper alternate seed = (if alternate then lit "0x" else []) ++ digits
     /\ unhex upper digits = Some seed).
  { intros alternate. destruct (Bip39Thms.c26_hex_formatting upper alternate (Mnemonic [] English []) seed) as (_ & (ds & A & _ & B) & _); [constructor|exact O|].
    exists ds. split; assumption. }
  assert (L' : len seed = 64) by (unfold len; rewrite L; reflexivity). split.
  - destruct (Q false) as (ds & -> & E). cbn [app]. intros X. apply (c166_when_refused _ _ _ E) in X. apply X. rewrite L'. cbn [In]. auto 10.
  - destruct (Q true) as (ds & -> & E). destruct (hex_bytes _ _ _ E) as (U & B & Ld).
    rewrite Bip39Thms.utf8_app, U. change (utf8 (lit "0x")) with [48; 120].
    apply GenericThms.c138_refused_lengths.
    + apply Forall_app. split; [|exact B]. constructor; [reflexivity|constructor; [reflexivity|constructor]].
    + assert (X : len ([48; 120] ++ ds) = 130). { unfold len in *. rewrite app_length. cbn [length]. lia. }
      rewrite X. cbn [In]. lia.
Qed.
(** The wallet of the text is another one, unless HMAC-SHA512 collides. *)
Lemma c166_another_wallet : forall (upper : bool) (seed : bytes) (text : str) (x1 x2 : xprv), bytes_ok seed ->
  unhex upper text = Some seed -> xprv_new seed = Ok x1 -> xprv_new (utf8 text) = Ok x2 ->
  utf8 text <> seed /\ (x1 = x2 <-> hmac_sha512 master_key_text seed = hmac_sha512 master_key_text (utf8 text)).
Proof.
  intros upper seed text x1 x2 O E H1 H2. destruct (hex_bytes _ _ _ E) as (U & B & L). rewrite U in *. split.
  - intros ->. assert (Z : len seed = 0) by lia. assert (R : xprv_new seed = Err ESeedLength).
    { apply (GenericThms.c138_refused_lengths _ O). rewrite Z. cbn [In]. lia. }
    rewrite R in H1. discriminate H1.
  - exact (More32Thms.c84_seeds_collide seed text x1 x2 O B H1 H2).
Qed.
(** The entropy of a mnemonic is taken as a seed for 12 and 24 words only. *)
Lemma c166_entropy : forall (ent : bytes) (lang : language) (m : mnemonic), bytes_ok ent -> len ent < 2 ^ 61 ->
  from_entropy ent lang = Ok m -> (xprv_new ent = Err ESeedLength <-> In (len ent) [20; 24; 28]).
Proof.
  intros ent lang m O S H. rewrite (GenericThms.c138_refused_lengths _ O).
  destruct (Bip39Thms.c03_from_entropy_sizes ent lang O S) as [_ N].
  destruct (in_dec PeanoNat.Nat.eq_dec (length ent) [16; 20; 24; 28; 32]%nat) as [I|I]; [|rewrite (N I) in H; discriminate H].
  clear - I. unfold len. cbn [In] in *. lia.
Qed.
(** The seed of the first BIP32 test vector, and its hexadecimal text. *)
Example c166_example : unhex false (lit "000102030405060708090a0b0c0d0e0f") = Some ex_seed /\ xprv_new ex_seed = Ok ex_xprv
  /\ seed_hex false false ex_seed = lit "000102030405060708090a0b0c0d0e0f"
  /\ (exists x, xprv_new (utf8 (lit "000102030405060708090a0b0c0d0e0f")) = Ok x /\ x <> ex_xprv
        /\ private_key x = 98130954148263214405318643788956452769976173643842014209268040970971077802867%Z).
Proof.
  split; [vm_compute; reflexivity|]. split; [apply c49_example|]. split; [vm_compute; reflexivity|].
  exists (mkXPrv 98130954148263214405318643788956452769976173643842014209268040970971077802867
    (mkAttrs 0 [0; 0; 0; 0] 0 [190; 91; 173; 210; 225; 250; 33; 224; 125; 136; 141; 148; 105; 11; 164; 11; 137; 37; 18; 126; 113;
      108; 185; 151; 218; 241; 135; 159; 233; 111; 206; 8])).
  split; [vm_compute; reflexivity|]. split; [discriminate|reflexivity].
Qed.

(** ** C167 *)
Lemma phrase_bytes_ok m : constructible m -> bytes_ok (utf8 (m_phrase m)).
Proof. intros H. apply ApiThms.utf8_ok, ApiThms.phrase_ok, H. Qed.
Lemma join_bytes_least l ws : (forall w, In w ws -> In w (words l)) -> 4 * len ws <= More39Thms.join_bytes ws.
Proof.
  induction ws as [|w ws I]; intros H; [reflexivity|]. cbn [More39Thms.join_bytes fold_right]. fold (More39Thms.join_bytes ws).
  specialize (I (fun v V => H v (or_intror V))). pose proof (BuildThms.word_bytes_least l w (H w (or_introl eq_refl))) as B.
  unfold len in *. cbn [length]. lia.
Qed.
Lemma phrase_words m : constructible m -> exists ws, m_phrase m = spaced ws /\ (forall w, In w ws -> In w (words (m_lang m)))
  /\ In (length ws) [12; 15; 18; 21; 24]%nat.
Proof.
  intros H. destruct (Bip39Thms.c05_phrase_shape m H) as (ws & E & F & L). exists ws. split; [exact E|]. split.
  - intros w W. rewrite Forall_forall in F. rewrite <- WordData.bip39_list_words. apply (F w W).
  - clear - L. cbn [In] in *. repeat (destruct L as [L|L]; [apply (f_equal snd) in L; cbn [snd] in L; lia|]). destruct L.
Qed.
Lemma phrase_long m : constructible m -> 47 <= len (utf8 (m_phrase m)).
Proof.
  intros H. destruct (phrase_words m H) as (ws & -> & W & L). destruct ws as [|w ws]; [cbn [In length] in L; lia|].
  rewrite More39Thms.utf8_spaced. pose proof (BuildThms.word_bytes_least _ w (W w (or_introl eq_refl))) as B.
  pose proof (join_bytes_least _ ws (fun v V => W v (or_intror V))) as J. clear - B J L. cbn [In length] in L. unfold len in *. lia.
Qed.
Lemma phrase_chinese m : constructible m -> m_lang m = ChineseSimplified ->
  In (len (utf8 (m_phrase m))) [47; 59; 71; 83; 95].
Proof.
  intros H E. destruct (phrase_words m H) as (ws & -> & W & L). rewrite E in W. destruct ws as [|w ws]; [cbn [In length] in L; lia|].
  rewrite More39Thms.utf8_spaced, (BuildThms.word_zh_bytes w (W w (or_introl eq_refl))).
  assert (J : More39Thms.join_bytes ws = 4 * len ws).
  { clear L. assert (W' : forall v, In v ws -> In v (words ChineseSimplified)) by (intros v V; apply W; right; exact V). clear W.
    induction ws as [|v ws I]; [reflexivity|]. cbn [More39Thms.join_bytes fold_right]. fold (More39Thms.join_bytes ws).
    rewrite I by (intros u U; apply W'; right; exact U). rewrite (BuildThms.word_zh_bytes v (W' v (or_introl eq_refl))).
    unfold len. cbn [length]. lia. }
  rewrite J. clear - L. cbn [In length] in *. unfold len. lia.
Qed.
Lemma word_bytes_most l w : In w (words l) -> len (utf8 w) <= 8.
Proof.
  intros H. destruct l.
  - assert (A : forallb (fun w => len (utf8 w) <=? 8) (words English) = true) by (vm_compute; reflexivity).
    rewrite forallb_forall in A. apply N.leb_le, A, H.
  - rewrite (BuildThms.word_zh_bytes w H). lia.
Qed.
Lemma join_bytes_most l ws : (forall w, In w ws -> In w (words l)) -> More39Thms.join_bytes ws <= 9 * len ws.
Proof.
  induction ws as [|w ws I]; intros H; [reflexivity|]. cbn [More39Thms.join_bytes fold_right]. fold (More39Thms.join_bytes ws).
  specialize (I (fun v V => H v (or_intror V))). pose proof (word_bytes_most l w (H w (or_introl eq_refl))) as B.
  unfold len in *. cbn [length]. lia.
Qed.
(** Four bytes of entropy give three words of 3 to 8 bytes, with a space between words. *)
Lemma phrase_bounds m : constructible m -> In (length (m_entropy m)) [16; 20; 24; 28; 32]%nat
  /\ 3 * len (m_entropy m) - 1 <= len (utf8 (m_phrase m)) /\ 4 * len (utf8 (m_phrase m)) + 4 <= 27 * len (m_entropy m).
Proof.
  intros H. destruct (Bip39Thms.c05_phrase_shape m H) as (ws & E & F & L).
  assert (W : forall w, In w ws -> In w (words (m_lang m))).
  { intros w W. rewrite Forall_forall in F. rewrite <- WordData.bip39_list_words. apply (F w W). }
  rewrite E. clear E F.
  assert (K : In (length (m_entropy m)) [16; 20; 24; 28; 32]%nat /\ (4 * length ws = 3 * length (m_entropy m))%nat).
  { clear - L. cbn [In] in *.
    repeat (destruct L as [L|L]; [pose proof (f_equal fst L) as A; apply (f_equal snd) in L; cbn [fst snd] in *; lia|]). destruct L. }
  clear L. destruct K as [K1 K2]. split; [exact K1|]. destruct ws as [|w ws]; [cbn [In length] in *; lia|].
  rewrite More39Thms.utf8_spaced. pose proof (BuildThms.word_bytes_least _ w (W w (or_introl eq_refl))) as B.
  pose proof (word_bytes_most _ w (W w (or_introl eq_refl))) as B'.
  pose proof (join_bytes_least _ ws (fun v V => W v (or_intror V))) as J.
  pose proof (join_bytes_most _ ws (fun v V => W v (or_intror V))) as J'.
  clear - B B' J J' K1 K2. cbn [In length] in *. unfold len in *. lia.
Qed.
Definition ex_64_phrase : str := lit "good case boil silver edge cram muscle milk good case boil since".
Lemma ex_64 : from_entropy (repeat 100 16) English = Ok (Mnemonic ex_64_phrase English (repeat 100 16)).
Proof. vm_compute. reflexivity. Qed.
Lemma ex_64_constructible : constructible (Mnemonic ex_64_phrase English (repeat 100 16)).
Proof.
  apply (built_entropy (repeat 100 16) English); [|exact ex_64]. apply Forall_forall. intros x X. apply repeat_spec in X. subst x. reflexivity.
Qed.
(** C167 *)
Lemma c167_refused_refuted : ~ (forall m : mnemonic, constructible m -> xprv_new (utf8 (m_phrase m)) = Err ESeedLength).
Proof.
  intros H. specialize (H _ ex_64_constructible). apply (GenericThms.c138_refused_lengths _ (phrase_bytes_ok _ ex_64_constructible)) in H.
  apply H. change (len (utf8 (m_phrase (Mnemonic ex_64_phrase English (repeat 100 16))))) with 64. right. right. left. reflexivity.
Qed.
(** Exactly the phrases of 64 and of 128 bytes are taken as seeds. *)
Lemma c167_when_refused : forall m : mnemonic, constructible m ->
  (xprv_new (utf8 (m_phrase m)) = Err ESeedLength <-> len (utf8 (m_phrase m)) <> 64 /\ len (utf8 (m_phrase m)) <> 128).
Proof.
  intros m H. rewrite (GenericThms.c138_refused_lengths _ (phrase_bytes_ok m H)). pose proof (phrase_long m H) as L.
  revert L. generalize (len (utf8 (m_phrase m))). clear. intros k L. cbn [In]. lia.
Qed.
(** By the number of words: for 12 words only the length 64 matters, for 18 and more only the length 128. *)
Lemma c167_by_number_of_words : forall m : mnemonic, constructible m ->
  (length (m_entropy m) = 16%nat -> (xprv_new (utf8 (m_phrase m)) = Err ESeedLength <-> len (utf8 (m_phrase m)) <> 64))
  /\ (In (length (m_entropy m)) [24; 28; 32]%nat ->
        (xprv_new (utf8 (m_phrase m)) = Err ESeedLength <-> len (utf8 (m_phrase m)) <> 128)).
Proof.
  intros m H. rewrite (c167_when_refused m H). destruct (phrase_bounds m H) as (_ & L & U). revert L U.
  change (len (m_entropy m)) with (N.of_nat (length (m_entropy m))).
  generalize (len (utf8 (m_phrase m))) (length (m_entropy m)). clear. intros k n L U. cbn [In] in *. lia.
Qed.
Lemma taken_witness ent p t : forallb (fun x => x <? 256) ent = true -> from_entropy ent English = Ok (Mnemonic p English ent) ->
  len (utf8 p) = t -> t = 64 \/ t = 128 -> exists m, constructible m /\ length (m_entropy m) = length ent /\ len (utf8 (m_phrase m)) = t
    /\ xprv_new (utf8 (m_phrase m)) <> Err ESeedLength.
Proof.
  intros B F L T. assert (C : constructible (Mnemonic p English ent)).
  { apply (built_entropy ent English); [|exact F]. apply Forall_forall. intros x X. rewrite forallb_forall in B. apply N.ltb_lt, B, X. }
  exists (Mnemonic p English ent). split; [exact C|]. split; [reflexivity|]. split; [exact L|]. intros R.
  apply (c167_when_refused _ C) in R. cbn [m_phrase] in R. rewrite L in R. lia.
Qed.
(** Phrases that are taken as seeds exist for every number of words, and for 15 words with both lengths. *)
Lemma c167_taken_for_every_number_of_words : forall (n : nat) (t : N),
  In (n, t) [(16%nat, 64); (20%nat, 64); (20%nat, 128); (24%nat, 128); (28%nat, 128); (32%nat, 128)] ->
  exists m : mnemonic, constructible m /\ length (m_entropy m) = n /\ len (utf8 (m_phrase m)) = t
    /\ xprv_new (utf8 (m_phrase m)) <> Err ESeedLength.
Proof.
  intros n t I. cbn [In] in I.
  destruct I as [I|[I|[I|[I|[I|[I|[]]]]]]]; injection I as <- <-.
  - refine (taken_witness (repeat 100 16) ex_64_phrase 64 _ ex_64 _ _); [vm_compute; reflexivity..|left; reflexivity].
  - refine (taken_witness [178; 143; 192; 219; 241; 201; 149; 50; 180; 214; 247; 133; 173; 238; 94; 173; 182; 229; 152; 111]
      (lit "raw lawn dad toe off off spy ten mad hunt nut fork hour slow sad") 64 _ _ _ _); [vm_compute; reflexivity..|left; reflexivity].
  - refine (taken_witness [75; 197; 234; 161; 87; 25; 252; 229; 104; 138; 3; 71; 135; 21; 61; 87; 31; 144; 89; 234]
      (lit "envelope consider portion purchase panther increase peasant document elegant december exercise purchase weekend coconut practice")
      128 _ _ _ _); [vm_compute; reflexivity..|right; reflexivity].
  - refine (taken_witness (repeat 170 24)
      (lit "primary fetch primary fetch primary fetch primary fetch primary fetch primary fetch primary fetch primary fetch primary festival")
      128 _ _ _ _); [vm_compute; reflexivity..|right; reflexivity].
  - refine (taken_witness (repeat 19 28)
      (lit "basic obtain shadow change couple maze era give basic obtain shadow change couple maze era give basic obtain shadow change curve")
      128 _ _ _ _); [vm_compute; reflexivity..|right; reflexivity].
  - refine (taken_witness [209; 177; 241; 100; 88; 145; 24; 44; 68; 4; 208; 26; 132; 107; 174; 191; 45; 75; 95; 94; 35; 192; 94; 127;
        176; 36; 182; 150; 15; 59; 121; 113]
      (lit "spider moon flip raise bag bike avoid old box cash two layer start quick joy job fury work ankle honey genius oval total chronic")
      128 _ _ _ _); [vm_compute; reflexivity..|right; reflexivity].
Qed.
(** Chinese phrases are always refused. *)
Lemma c167_chinese_partial : forall m : mnemonic, constructible m -> m_lang m = ChineseSimplified ->
  xprv_new (utf8 (m_phrase m)) = Err ESeedLength.
Proof.
  intros m H E. apply (c167_when_refused m H). pose proof (phrase_chinese m H E) as L. revert L.
  generalize (len (utf8 (m_phrase m))). clear. intros k L. cbn [In] in L. lia.
Qed.
Example c167_example : from_entropy (repeat 100 16) English = Ok (Mnemonic ex_64_phrase English (repeat 100 16))
  /\ len (utf8 ex_64_phrase) = 64 /\ xprv_new (utf8 (lit "legal winner thank year wave sausage worth useful legal winner thank yellow")) = Err ESeedLength.
Proof. split; [exact ex_64|]. split; vm_compute; reflexivity. Qed.
