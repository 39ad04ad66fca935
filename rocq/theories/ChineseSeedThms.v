(** Proofs about the value of a Chinese seed (restated in PropChineseSeed.v). *)
From Coq Require Import String Uint63.
From Verif Require Import Outcome Bytes Str Hash Nfkd ModelBip39 SpecBip39 Bip39Proofs Bip39Thms NfkdLemmas ExtProofs FastSha FastShaProofs.
Open Scope N_scope.

Definition zh_phrase : str := spaced (repeat [0x7684] 11 ++ [[0x5728]]).
Definition zh_mnemonic : mnemonic := Mnemonic zh_phrase ChineseSimplified (repeat 0 16).
Definition zh_gb : bytes := flat_map (fun _ => [0xB5; 0xC4; 32]) (seq 0 11) ++ [0xD4; 0xDA].
Lemma zh_from_entropy : from_entropy (repeat 0 16) ChineseSimplified = Ok zh_mnemonic.
Proof. vm_compute. reflexivity. Qed.
Lemma zh_bytes : mnemonic_as_bytes zh_mnemonic = Ok zh_gb.
Proof. vm_compute. reflexivity. Qed.
Definition seed_gb : fst8 := FSt (W 0xa1734413 0xcf79f219) (W 0x9fd32949 0xde0020fd) (W 0xfb550ffb 0x5f5d12cc) (W 0x92fd583c 0x5a38fd74)
  (W 0x4fbb13d3 0xd61528b5) (W 0x70b4d44a 0x162f7535) (W 0xc8248484 0xe20e8cba) (W 0x6331747c 0x2a76f3a5).
Definition seed_utf8 : fst8 := FSt (W 0xc015b86e 0x4b208402) (W 0xbb0bdd0f 0xebb74670) (W 0x8b869bb6 0xe433cb22) (W 0x7fd66d44 0x4f3ccdc3)
  (W 0x60fee9ca 0x9271014c) (W 0x2a684df3 0x80fcc40b) (W 0xd80a37ea 0xa41a8061) (W 0xa52a18d3 0x19cdd899).
Lemma fast_gb : fpbkdf2 zh_gb (utf8 (lit "mnemonic" ++ [])) 2047 = seed_gb.
Proof. vm_cast_no_check (eq_refl (fpbkdf2 zh_gb (utf8 (lit "mnemonic" ++ [])) 2047)). Qed.
Lemma fast_utf8 : fpbkdf2 (utf8 zh_phrase) (utf8 (lit "mnemonic" ++ [])) 2047 = seed_utf8.
Proof. vm_cast_no_check (eq_refl (fpbkdf2 (utf8 zh_phrase) (utf8 (lit "mnemonic" ++ [])) 2047)). Qed.
Lemma small_bytes (l : bytes) : forallb (fun b => b <? 256) l = true -> bytes_ok l.
Proof. rewrite forallb_forall. intros H. apply Forall_forall. intros x Hx. apply N.ltb_lt, H, Hx. Qed.
Lemma seed_value pw password s : forallb (fun b => b <? 256) pw = true -> Nat.leb (length pw) 128 = true ->
  forallb (fun c => c <? 0x80) password = true -> Nat.leb (length password) 90 = true ->
  fpbkdf2 pw (utf8 (lit "mnemonic" ++ password)) 2047 = s -> bip39_pbkdf2 pw (nfkd (lit "mnemonic" ++ password)) = dig s.
Proof.
  intros Hp Lp Ha Hl E. unfold bip39_pbkdf2, pbkdf2_bytes, pbkdf2_rounds.
  assert (A : Forall (fun c => c < 128) (lit "mnemonic" ++ password)).
  { apply Forall_app. split; [repeat (apply Forall_cons; [reflexivity|]); apply Forall_nil|].
    apply Forall_forall. intros x Hx. apply N.ltb_lt. exact (proj1 (forallb_forall _ _) Ha x Hx). }
  assert (P : forallb plain (lit "mnemonic" ++ password) = true).
  { apply forallb_forall. intros x Hx. pose proof (proj1 (Forall_forall _ _) A x Hx) as Hx'. cbn beta in Hx'.
    unfold plain. apply orb_true_iff. left. apply N.ltb_lt. exact (N.lt_trans x 128 160 Hx' eq_refl). }
  rewrite (nfkd_plain _ P).
  assert (U : utf8 (lit "mnemonic" ++ password) = lit "mnemonic" ++ password) by (apply utf8_ascii, A).
  assert (H : bytes_ok (utf8 (lit "mnemonic" ++ password))).
  { rewrite U. apply Forall_forall. intros x Hx. pose proof (proj1 (Forall_forall _ _) A x Hx) as Hx'. cbn beta in Hx'.
    apply (N.lt_trans x 128 256 Hx' eq_refl). }
  assert (L : (length (utf8 (lit "mnemonic" ++ password)) <= 107)%nat).
  { rewrite U, app_length. change (length (lit "mnemonic")) with 8%nat. apply Nat.leb_le in Hl. clear - Hl. lia. }
  change 2048%nat with (S 2047).
  rewrite (fpbkdf2_ok pw (utf8 (lit "mnemonic" ++ password)) 2047 (small_bytes pw Hp) H (proj1 (Nat.leb_le _ _) Lp) L).
  rewrite E. exact eq_refl.
Qed.

(** The claim itself: the seed is not the one that BIP39 prescribes. *)
Lemma c23_seed_value_refuted : exists (m : mnemonic) (seed standard : bytes),
  from_entropy (repeat 0 16) ChineseSimplified = Ok m
  /\ seed_new m [] = Ok seed /\ bip39_seed (m_phrase m) [] = standard /\ seed <> standard
  /\ unhex false (lit "a1734413cf79f2199fd32949de0020fdfb550ffb5f5d12cc92fd583c5a38fd744fbb13d3d61528b570b4d44a162f7535c8248484e20e8cba6331747c2a76f3a5") = Some seed
  /\ unhex false (lit "c015b86e4b208402bb0bdd0febb746708b869bb6e433cb227fd66d444f3ccdc360fee9ca9271014c2a684df380fcc40bd80a37eaa41a8061a52a18d319cdd899") = Some standard.
Proof.
  exists zh_mnemonic, (dig seed_gb), (dig seed_utf8). split; [exact zh_from_entropy|]. split; [|split; [|split; [|split]]].
  - unfold seed_new. rewrite zh_bytes. cbn [bind].
    rewrite (seed_value zh_gb [] seed_gb eq_refl eq_refl eq_refl eq_refl fast_gb). exact eq_refl.
  - unfold bip39_seed. rewrite <- bip39_pbkdf2_eq. change (m_phrase zh_mnemonic) with zh_phrase.
    replace (nfkd zh_phrase) with zh_phrase by (symmetry; apply nfkd_plain; vm_compute; reflexivity).
    exact (seed_value (utf8 zh_phrase) [] seed_utf8 eq_refl eq_refl eq_refl eq_refl fast_utf8).
  - vm_compute. discriminate.
  - vm_compute. reflexivity.
  - vm_compute. reflexivity.
Qed.

(** The first vector published with BIP39. *)
Definition en_phrase : str := spaced (repeat (lit "abandon") 11 ++ [lit "about"]).
Definition en_mnemonic : mnemonic := Mnemonic en_phrase English (repeat 0 16).
Definition seed_en : fst8 := FSt (W 0xc55257c3 0x60c07c72) (W 0x029aebc1 0xb53c05ed) (W 0x0362ada3 0x8ead3e3e) (W 0x9efa3708 0xe5349553)
  (W 0x1f09a698 0x7599d182) (W 0x64c1e1c9 0x2f2cf141) (W 0x630c7a3c 0x4ab7c81b) (W 0x2f001698 0xe7463b04).
Lemma en_from_entropy : from_entropy (repeat 0 16) English = Ok en_mnemonic.
Proof. vm_compute. reflexivity. Qed.
Lemma en_bytes : mnemonic_as_bytes en_mnemonic = Ok (utf8 en_phrase).
Proof. vm_compute. reflexivity. Qed.
Lemma fast_en : fpbkdf2 (utf8 en_phrase) (utf8 (lit "mnemonic" ++ lit "TREZOR")) 2047 = seed_en.
Proof. vm_cast_no_check (eq_refl (fpbkdf2 (utf8 en_phrase) (utf8 (lit "mnemonic" ++ lit "TREZOR")) 2047)). Qed.
Example c23_vector_example : exists (m : mnemonic) (seed : bytes),
  from_entropy (repeat 0 16) English = Ok m /\ seed_new m (lit "TREZOR") = Ok seed
  /\ unhex false (lit "c55257c360c07c72029aebc1b53c05ed0362ada38ead3e3e9efa3708e53495531f09a6987599d18264c1e1c92f2cf141630c7a3c4ab7c81b2f001698e7463b04") = Some seed.
Proof.
  exists en_mnemonic, (dig seed_en). split; [exact en_from_entropy|]. split; [|vm_compute; reflexivity].
  unfold seed_new. rewrite en_bytes. cbn [bind].
  rewrite (seed_value (utf8 en_phrase) (lit "TREZOR") seed_en eq_refl eq_refl eq_refl eq_refl fast_en). exact eq_refl.
Qed.
