(** Proofs that the word lists behind features are the published ones (restated in PropConstLangs.v). *)
From Coq Require Import String Uint63 ZifyBool ZifyNat ZifyN.
From Verif Require Import Outcome Bytes Str Hash HashLemmas ModelBip39 SpecBip39 ModelLangs SpecLangs SpecBip32 SpecHash SpecUnicode.
From Verif Require Import SpecConst SpecConstLangs WordData LangData LangProofs Base58Proofs HashThms UnicodeThms ConstThms FastSha256 FastSha256Proofs.
Open Scope N_scope.

Definition lines (ws : list str) : str := flat_map (fun w => w ++ [10]) ws.
Lemma fast_checksum (ws : list str) (s : gst8) (d : N) :
  forallb (fun c => (c <? 0xD800) || (0xDFFF <? c) && (c <? 0x110000))%bool (lines ws) = true ->
  (len (utf8 (lines ws)) <? 2 ^ 61) = true ->
  gsha256 (utf8 (lines ws)) = s -> be_val (gdigest s) = d -> has_checksum ws d.
Proof.
  intros H1 H2 H3 H4. apply (checksum_of ws d H1 H2). fold (lines ws). rewrite gsha256_ok.
  - rewrite H3, digits_val_be. exact H4.
  - assert (S : Forall is_scalar (lines ws)).
    { apply Forall_forall. intros c Hc. rewrite forallb_forall in H1. specialize (H1 c Hc). unfold is_scalar. lia. }
    apply (proj2 (c95_utf8 (lines ws) _ S) eq_refl).
Qed.
Lemma sum_tw : gsha256 (utf8 (lines words_tw)) = GSt 0x417b26b3 0xd8500a4a 0xe3d59717 0xd7011952 0xdb6fc2fb 0x84b807f3 0xf94ac734 0xe89c1b5f.
Proof. vm_cast_no_check (eq_refl (gsha256 (utf8 (lines words_tw)))). Qed.
Lemma sum_fr : gsha256 (utf8 (lines words_fr)) = GSt 0xebc3959a 0xb7801a1d 0xf6bac4fa 0x7d970652 0xf1df76b6 0x83cd2f40 0x03c941c6 0x3d517e59.
Proof. vm_cast_no_check (eq_refl (gsha256 (utf8 (lines words_fr)))). Qed.
Lemma sum_it : gsha256 (utf8 (lines words_it)) = GSt 0xd392c49f 0xdb700a24 0xcd1fceb2 0x37c1f65d 0xcc128f6b 0x34a8aacb 0x58b59384 0xb5c648c2.
Proof. vm_cast_no_check (eq_refl (gsha256 (utf8 (lines words_it)))). Qed.
Lemma sum_ja : gsha256 (utf8 (lines words_ja)) = GSt 0x2eed0aef 0x492291e0 0x61633d7a 0xd8117f1a 0x2b03eb80 0xa29d0e4e 0x3117ac25 0x28d05ffd.
Proof. vm_cast_no_check (eq_refl (gsha256 (utf8 (lines words_ja)))). Qed.
Lemma sum_ko : gsha256 (utf8 (lines words_ko)) = GSt 0x9e95f86c 0x167de88f 0x450f0aaf 0x89e87f66 0x24a57f97 0x3c67b516 0xe338e8e8 0xb8897f60.
Proof. vm_cast_no_check (eq_refl (gsha256 (utf8 (lines words_ko)))). Qed.
Lemma sum_es : gsha256 (utf8 (lines words_es)) = GSt 0x46846a5a 0x0139d1e3 0xcb77293e 0x521c2865 0xf7bcdb82 0xc44e8d0a 0x06a2cd0e 0xcba48c0b.
Proof. vm_cast_no_check (eq_refl (gsha256 (utf8 (lines words_es)))). Qed.
Lemma lists_scalar l : forallb (fun c => (c <? 0xD800) || (0xDFFF <? c) && (c <? 0x110000))%bool (lines (words_all l)) = true.
Proof. destruct l as [[]| | | | | |]; vm_compute; reflexivity. Qed.
Lemma lists_short l : (len (utf8 (lines (words_all l))) <? 2 ^ 61) = true.
Proof. destruct l as [[]| | | | | |]; vm_compute; reflexivity. Qed.

(** C145 *)
Lemma c145_checksums : forall l : language_all,
  has_checksum (wordlist_all l) (list_checksum_all l) /\ has_checksum (published l) (list_checksum_all l).
Proof.
  intros l. rewrite (wordlist_all_words l), (published_words l).
  enough (H : has_checksum (words_all l) (list_checksum_all l)) by (split; exact H).
  pose proof (lists_scalar l) as H1. pose proof (lists_short l) as H2. destruct l as [l| | | | | |].
  - change (has_checksum (words l) (list_checksum l)). rewrite <- (wordlist_words l). apply c142_checksums.
  - apply (fast_checksum _ _ _ H1 H2 sum_tw). vm_compute. reflexivity.
  - apply (fast_checksum _ _ _ H1 H2 sum_fr). vm_compute. reflexivity.
  - apply (fast_checksum _ _ _ H1 H2 sum_it). vm_compute. reflexivity.
  - apply (fast_checksum _ _ _ H1 H2 sum_ja). vm_compute. reflexivity.
  - apply (fast_checksum _ _ _ H1 H2 sum_ko). vm_compute. reflexivity.
  - apply (fast_checksum _ _ _ H1 H2 sum_es). vm_compute. reflexivity.
Qed.
Lemma no_newline_all l : Forall (fun w => ~ In 10 w) (words_all l).
Proof.
  apply Forall_forall. intros w Hw H.
  assert (B : forallb (fun w => forallb (fun c => negb (c =? 10)) w) (words_all l) = true) by (destruct l as [[]| | | | | |]; vm_compute; reflexivity).
  rewrite forallb_forall in B. specialize (B w Hw). rewrite forallb_forall in B. specialize (B _ H). discriminate B.
Qed.
(** No list with other words has the checksum, unless SHA-256 has a collision. *)
Lemma c145_pins : forall (l : language_all) (ws : list str), has_checksum ws (list_checksum_all l) ->
  Forall (fun w => ~ In 10 w) ws ->
  ws = wordlist_all l \/ exists a b d, a <> b /\ is_sha2 fips_sha256 a d /\ is_sha2 fips_sha256 b d.
Proof.
  intros l ws (a & d & Ua & Da & Ea) N1. destruct (proj1 (c145_checksums l)) as (b & d' & Ub & Db & Eb).
  assert (N2 : Forall (fun w => ~ In 10 w) (wordlist_all l)) by (rewrite (wordlist_all_words l); apply no_newline_all).
  revert Ea Eb Ub N2. generalize (wordlist_all l) as vs, (list_checksum_all l). intros vs c Ea Eb Ub N2.
  assert (d = d') as <-.
  { destruct Da as (? & ? & ? & _ & _ & _ & _ & [L1 B1] & _), Db as (? & ? & ? & _ & _ & _ & _ & [L2 B2] & _).
    apply (digits_val_inj 256); [exact B1|exact B2|rewrite L1, L2; reflexivity|rewrite Ea, Eb; reflexivity]. }
  destruct (list_eq_dec N.eq_dec a b) as [<-|D]; [left|right; exists a, b, d; split; [exact D|split; assumption]].
  apply lines_inj; [exact N1|exact N2|]. eapply c95_decodable; eassumption.
Qed.
Example c145_example : firstn 2 (wordlist_all French) = [lit "abaisser"; lit "abandon"]
  /\ has_checksum [lit "abaisser"; lit "abandon"] 0xcba719a909862196a99f6e9629b3f9588386cdbf50e390f4cc33f3a8311a6108.
Proof.
  split; [vm_compute; reflexivity|]. apply checksum_of; vm_compute; reflexivity.
Qed.
