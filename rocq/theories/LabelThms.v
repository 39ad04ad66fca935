(** Proofs of the properties of the labels of extended key texts (restated in PropLabels.v). *)
From Coq Require Import String ZifyBool ZifyNat ZifyN.
From Verif Require Import Outcome Bytes Str Hash HashLemmas Secp SpecSecp SecpProofs Base58 ModelBip32 SpecBip32 StrLemmas Base58Proofs ExtProofs KeyTextThms SpecLabels.
Open Scope N_scope.

(** C153 *)
Lemma c153_private_key_under_public_label : forall (x : xprv) (p : prefix), valid_xprv x -> In p pub_prefixes ->
  exists (s : str) (e : extended_key) (kb : bytes),
    xprv_to_string x p = Ok s /\ length s = 111%nat /\ firstn 4 s = chars p /\ skipn 1 (firstn 4 s) = lit "pub"
    /\ ek_from_str s = Ok e /\ ek_attrs e = xprv_attrs x /\ key_bytes e = 0 :: kb /\ is_ser256 (private_key x) kb
    /\ xprv_from_str s = Err ECrypto /\ xpub_from_str s = Err ECrypto.
Proof.
  intros x p V Hp. destruct (in_std_pub p Hp) as [Hs Hc]. pose proof (xprv_ext_valid x p V (std_valid p Hs)) as Ve.
  destruct (to_string_exists _ Ve) as (s & E & _). destruct (std_text _ _ Ve Hs E) as [Ls Fs]. pose proof (std_round_trip _ _ Ve Hs E) as R.
  exists s, (xprv_to_extended_key x p), (secret_serialize (private_key x)).
  split; [exact E|]. split; [exact Ls|]. split; [exact Fs|]. split; [rewrite Fs; exact Hc|]. split; [exact R|].
  split; [reflexivity|]. split; [reflexivity|]. split; [apply secret_bytes, V|]. split.
  - unfold xprv_from_str. rewrite R. cbn [bind]. destruct (xprv_try_from_total _ Ve) as [(x' & X)|X]; [exfalso|exact X].
    apply xprv_try_from_ok in X; [|exact Ve]. destruct X as [X _]. cbn [ek_prefix xprv_to_extended_key] in X. rewrite Hc in X. discriminate X.
  - unfold xpub_from_str. rewrite R. cbn [bind]. destruct (xpub_try_from_total (xprv_to_extended_key x p)) as [(y & X)|X]; [exfalso|exact X].
    apply xpub_try_from_ok in X; [|exact Ve]. destruct X as (_ & _ & X & _). exact (compressed_not_zero _ _ X).
Qed.
Lemma c153_label_tells_refuted :
  ~ (forall (x : xprv) (p : prefix) (s : str), valid_xprv x -> In p (prv_prefixes ++ pub_prefixes) ->
       xprv_to_string x p = Ok s -> skipn 1 (firstn 4 s) = lit "prv").
Proof.
  intros H. destruct (c153_private_key_under_public_label ex_xprv XPUB ex_xprv_valid) as (s & e & kb & E & _ & _ & F & _); [cbn; auto|].
  specialize (H ex_xprv XPUB s ex_xprv_valid ltac:(cbn; auto 9) E). rewrite F in H. discriminate H.
Qed.
(** What does hold: a text is read as a private key only if its label ends in prv and as a public key only if
    its label ends in pub. *)
Lemma c153_label_tells_partial : forall (s : str),
  (forall x, xprv_from_str s = Ok x -> skipn 1 (firstn 4 s) = lit "prv") /\ (forall y, xpub_from_str s = Ok y -> skipn 1 (firstn 4 s) = lit "pub").
Proof.
  intros s. split; intros x H; unfold xprv_from_str, xpub_from_str in H; apply bind_ok in H; destruct H as (e & He & H);
    apply ek_from_str_iff in He; destruct He as (V & C & _).
  - apply xprv_try_from_ok in H; [|exact V]. rewrite <- C. apply H.
  - apply xpub_try_from_ok in H; [|exact V]. rewrite <- C. apply H.
Qed.
Example c153_example : valid_xprv ex_xprv /\ In XPUB pub_prefixes /\ xprv_from_str ex_text = Ok ex_xprv /\ xpub_from_str ex_pub_text = Ok ex_xpub.
Proof. split; [exact ex_xprv_valid|]. split; [cbn; auto|]. split; apply c42_example. Qed.

(** C154 *)
Lemma text_value e s : valid_ext e -> base58check (ek_payload e) s ->
  exists es R c, Forall (fun d => d < 58) es /\ s = map b58_char es
    /\ leading_zeros es = leading_zeros (be_bytes 4 (version (ek_prefix e)) ++ R)
    /\ digits_val 58 es = version (ek_prefix e) * 256 ^ 78 + digits_val 256 R
    /\ bytes_ok R /\ length R = 78%nat
    /\ R = ([depth (ek_attrs e)] ++ parent_fingerprint (ek_attrs e) ++ be_bytes 4 (child_number (ek_attrs e)) ++ chain_code (ek_attrs e) ++ key_bytes e) ++ c
    /\ length c = 4%nat.
Proof.
  intros V I. pose proof (ek_payload_layout e V) as Lay. pose proof (layout_bytes _ _ _ _ Lay) as Hb. destruct (check_data _ Hb) as [B L].
  unfold base58check in I. fold (check_bytes (ek_payload e)) in I. pose proof (check_bytes_length (ek_payload e)) as Lc.
  revert I B L Lc. generalize (check_bytes (ek_payload e)). intros cb I B L Lc.
  unfold ek_payload, prefix_to_bytes in I, B, L. rewrite <- app_assoc in I, B, L. apply bytes_ok_app in B. destruct B as [_ B].
  rewrite app_length, be_bytes_length in L. destruct I as (es & F & Es & Z & Vv).
  match type of Z with _ = leading_zeros (_ ++ ?r) => exists es, r, cb; set (R := r) in * end.
  split; [exact F|]. split; [exact Es|]. split; [exact Z|]. split; [|split; [exact B|split; [lia|split; [reflexivity|exact Lc]]]].
  rewrite Vv, digits_val_app, (val_of_be 4) by apply V. f_equal. f_equal. assert (X : len R = 78) by (unfold len; lia). rewrite X. reflexivity.
Qed.
(** The head of a number with m more digits behind its first four. *)
Lemma head_at m ds es : (0 < length ds)%nat -> nth 0 ds 0 <> 0 -> Forall (fun d => d < 58) ds -> Forall (fun d => d < 58) es -> leading_zeros es = 0%nat ->
  length ds = 4%nat ->
  digits_val 58 ds * 58 ^ N.of_nat m <= digits_val 58 es -> digits_val 58 es < (digits_val 58 ds + 1) * 58 ^ N.of_nat m ->
  length es = (4 + m)%nat /\ firstn 4 es = ds.
Proof.
  intros _ Nz Fd F Z Ld H1 H2.
  assert (W1 : 58 ^ 3 <= digits_val 58 ds).
  { destruct ds as [|d ds]; [discriminate Ld|]. cbn [nth] in Nz. rewrite digits_val_cons. assert (X : len ds = 3) by (unfold len; cbn in Ld; lia). rewrite X. nia. }
  assert (W2 : digits_val 58 ds < 58 ^ 4).
  { pose proof (digits_val_lt 58 ds Fd) as X. unfold len in X. rewrite Ld in X. exact X. }
  assert (Le : length es = S (3 + m)).
  { apply (digits_val_length 58); [reflexivity|exact F|exact Z| |].
    - rewrite Nat2N.inj_add, N.pow_add_r. change (N.of_nat 3) with 3. eapply N.le_trans; [|exact H1]. apply N.mul_le_mono_r, W1.
    - eapply N.lt_le_trans; [exact H2|]. change (S (3 + m)) with (4 + m)%nat. rewrite Nat2N.inj_add, N.pow_add_r. change (N.of_nat 4) with 4.
      apply N.mul_le_mono_r. lia. }
  split; [exact Le|]. apply (digits_val_inj 58); [|exact Fd| |].
  - rewrite <- (firstn_skipn 4 es) in F. apply Forall_app in F. apply F.
  - rewrite firstn_length, Le, Ld. reflexivity.
  - apply (digits_val_firstn 58 4 m); [reflexivity|exact F|exact Le|exact H1|exact H2].
Qed.

(** All that is computed about the table. *)
Definition row_ok (r : str * nat * N * N) : bool :=
  let '(l, k, lo, hi) := r in let ds := symbol_values l in let W := digits_val 58 ds in let m := N.of_nat (k - 4) in
  (4 <=? k)%nat && (length ds =? 4)%nat && forallb (fun d => d <? 58) ds && negb (nth 0 ds 0 =? 0) && bytes_eqb (map b58_char ds) l
  && forallb is_letter l && (2 ^ 24 <=? lo) && (lo <? hi) && (hi <? 2 ^ 32)
  && (W * 58 ^ m <=? (lo * 256 ^ 74 + (256 ^ 74 - 1)) * 256 ^ 4) && (hi * 256 ^ 78 + 256 ^ 4 <=? (W + 1) * 58 ^ m).
Lemma rows_ok : forallb row_ok label_versions = true.
Proof. vm_compute. reflexivity. Qed.
Definition row_eqb (a b : str * nat * N * N) : bool :=
  let '(l, k, lo, hi) := a in let '(l', k', lo', hi') := b in bytes_eqb l l' && (k =? k')%nat && (lo =? lo') && (hi =? hi').
Definition label_ok (l : str) : bool :=
  let ds := symbol_values l in let W := digits_val 58 ds in
  (length ds =? 4)%nat && negb (nth 0 ds 0 =? 0)
  && ((W + 1) * 58 ^ 106 <=? 2 ^ 24 * 256 ^ 78) && (2 ^ 32 * 256 ^ 78 <=? W * 58 ^ 109)
  && forallb (fun k => let m := N.of_nat (k - 4) in
       (2 ^ 32 * 256 ^ 78 <=? W * 58 ^ m) || existsb (row_eqb (l, k, W * 58 ^ m / 256 ^ 78, ((W + 1) * 58 ^ m - 1) / 256 ^ 78)) label_versions) [111%nat; 112%nat].
Lemma labels_ok : forallb label_ok labels = true.
Proof. vm_compute. reflexivity. Qed.
Lemma row_eqb_eq a b : row_eqb a b = true -> a = b.
Proof.
  destruct a as (((l & k) & lo) & hi), b as (((l' & k') & lo') & hi'). cbn [row_eqb]. rewrite !andb_true_iff. intros (((H1 & H2) & H3) & H4).
  apply bytes_eqb_spec in H1. apply Nat.eqb_eq in H2. apply N.eqb_eq in H3, H4. subst. reflexivity.
Qed.

Lemma head_text l k lo hi e s : In (l, k, lo, hi) label_versions -> valid_ext e -> base58check (ek_payload e) s ->
  lo <= version (ek_prefix e) <= hi ->
  (version (ek_prefix e) = lo -> digits_val 256 (firstn 74 (skipn 4 (ek_payload e))) = 256 ^ 74 - 1) ->
  (version (ek_prefix e) = hi -> digits_val 256 (firstn 74 (skipn 4 (ek_payload e))) = 0) ->
  firstn 4 s = l /\ length s = k.
Proof.
  intros Hi V I Hv Hlo Hhi. pose proof rows_ok as A. rewrite forallb_forall in A. specialize (A _ Hi). unfold row_ok in A.
  rewrite !andb_true_iff in A. destruct A as ((((((((((A0 & A1) & A2) & A3) & A4) & _) & A5) & A6) & A7) & A8) & A9).
  apply Nat.leb_le in A0. apply Nat.eqb_eq in A1. apply bytes_eqb_spec in A4. apply N.leb_le in A5, A8, A9. apply N.ltb_lt in A6, A7.
  apply negb_true_iff, N.eqb_neq in A3.
  destruct (text_value e s V I) as (es & R & c & F & Es & Z & D & BR & LR & ER & Lc).
  rewrite lz_be4 in Z by lia.
  set (T := [depth (ek_attrs e)] ++ parent_fingerprint (ek_attrs e) ++ be_bytes 4 (child_number (ek_attrs e)) ++ chain_code (ek_attrs e) ++ key_bytes e) in *.
  assert (ET : firstn 74 (skipn 4 (ek_payload e)) = T).
  { unfold ek_payload, prefix_to_bytes, child_to_bytes. rewrite skipn_app, be_bytes_length. rewrite (skipn_all2 (be_bytes 4 _)) by (rewrite be_bytes_length; lia).
    rewrite Nat.sub_diag, skipn_O. cbn [app]. apply firstn_all2. change (length T <= 74)%nat. rewrite ER, app_length in LR. lia. }
  rewrite ET in Hlo, Hhi. assert (LT : length T = 74%nat) by (rewrite ER, app_length in LR; lia).
  assert (DR : digits_val 256 R = digits_val 256 T * 256 ^ 4 + digits_val 256 c).
  { rewrite ER, digits_val_app. do 2 f_equal. assert (X : len c = 4) by (unfold len; lia). rewrite X. reflexivity. }
  pose proof (digits_val_lt 256 R BR) as U. assert (XR : len R = 78) by (unfold len; lia). rewrite XR in U.
  rewrite ER in BR. apply bytes_ok_app in BR. destruct BR as [_ Bc]. pose proof (digits_val_lt 256 c Bc) as Uc.
  assert (Xc : len c = 4) by (unfold len; lia). rewrite Xc in Uc.
  assert (E78 : 256 ^ 78 = 256 ^ 74 * 256 ^ 4) by (rewrite <- N.pow_add_r; reflexivity).
  set (v := version (ek_prefix e)) in *.
  destruct (head_at (k - 4) (symbol_values l) es) as [G1 G2]; try assumption; [lia| | | |].
  - apply Forall_forall. intros d Hd. rewrite forallb_forall in A2. apply N.ltb_lt, A2, Hd.
  - eapply N.le_trans; [exact A8|]. rewrite D, E78. destruct (N.eq_dec v lo) as [El|El].
    + rewrite DR, (Hlo El), El. set (p74 := 256 ^ 74). set (p4 := 256 ^ 4). rewrite N.mul_add_distr_r, N.mul_assoc. lia.
    + assert (lo + 1 <= v) by lia. eapply N.le_trans with (m := (lo + 1) * (256 ^ 74 * 256 ^ 4)).
      * rewrite !N.mul_add_distr_r, N.mul_1_l, N.mul_assoc. apply N.add_le_mono_l, N.mul_le_mono_r. apply N.le_sub_l.
      * eapply N.le_trans; [apply N.mul_le_mono_r; eassumption|apply N.le_add_r].
  - eapply N.lt_le_trans; [|exact A9]. rewrite D. destruct (N.eq_dec v hi) as [El|El].
    + rewrite El, DR, (Hhi El). rewrite N.mul_0_l, N.add_0_l. apply N.add_lt_mono_l, Uc.
    + assert (v + 1 <= hi) by lia. eapply N.lt_le_trans with (m := (v + 1) * 256 ^ 78).
      * rewrite N.mul_add_distr_r, N.mul_1_l. apply N.add_lt_mono_l, U.
      * eapply N.le_trans; [apply N.mul_le_mono_r; eassumption|apply N.le_add_r].
  - rewrite Es, firstn_map, G2, map_length, G1. split; [exact A4|lia].
Qed.
Lemma row_prefix l k lo hi v : In (l, k, lo, hi) label_versions -> v <= hi -> valid_prefix (mkPrefix l v) /\ 2 ^ 24 <= lo /\ lo < hi.
Proof.
  intros Hi Hv. pose proof rows_ok as A. rewrite forallb_forall in A. specialize (A _ Hi). unfold row_ok in A.
  rewrite !andb_true_iff in A. destruct A as ((((((((((_ & A1) & _) & _) & _) & A4) & A5) & A6) & A7) & _) & _).
  apply Nat.eqb_eq in A1. apply N.leb_le in A5. apply N.ltb_lt in A6, A7. unfold symbol_values in A1. rewrite map_length in A1.
  split; [|split; assumption]. split; [exact A1|]. split; [apply letters_iff, A4|]. cbn [version]. unfold u32. lia.
Qed.
Lemma own_text e s : valid_ext e -> base58check (ek_payload e) s -> firstn 4 s = chars (ek_prefix e) -> ek_from_str s = Ok e.
Proof.
  intros V I F. apply ek_from_str_iff. split; [exact V|]. split; [symmetry; exact F|]. exists (ek_payload e). split; [apply ek_payload_layout, V|exact I].
Qed.

(** Every key with a version strictly between the first and the last one is written with the label and read
    back. *)
Lemma c154_inner_versions_round_trip : forall (l : str) (k : nat) (lo hi v : N) (a : attrs) (kb : bytes),
  In (l, k, lo, hi) label_versions -> lo < v < hi -> valid_attrs a -> has_bytes 33 kb ->
  exists s, ek_to_string (mkExt (mkPrefix l v) a kb) = Ok s /\ firstn 4 s = l /\ length s = k /\ ek_from_str s = Ok (mkExt (mkPrefix l v) a kb).
Proof.
  intros l k lo hi v a kb Hi Hv Ha Hk. destruct (row_prefix l k lo hi v Hi) as [Vp _]; [lia|]. set (e := mkExt (mkPrefix l v) a kb).
  assert (V : valid_ext e) by (split; [exact Vp|split; assumption]). destruct (to_string_exists e V) as (s & E & I & _). exists s. split; [exact E|].
  destruct (head_text l k lo hi e s Hi V I) as [F L]; cbn [e ek_prefix version]; [lia|lia..|]. split; [exact F|]. split; [exact L|]. apply own_text; assumption.
Qed.
(** The versions of the texts that start with a label and are read, by the length of the text. *)
Lemma c154_versions_behind_a_label : forall (l : str) (k : nat) (v : N), In l labels ->
  ((exists s e, ek_from_str s = Ok e /\ firstn 4 s = l /\ length s = k /\ version (ek_prefix e) = v)
   <-> exists lo hi, In (l, k, lo, hi) label_versions /\ lo <= v <= hi).
Proof.
  intros l k v Hl. split.
  - intros (s & e & H & Fs & Ls & Ev). apply ek_from_str_iff in H. destruct H as (V & C & payload & Lay & I).
    rewrite (layout_fun _ _ _ _ _ Lay (ek_payload_layout e V)) in I. destruct (text_value e s V I) as (es & R & c & F & Es & Z & D & BR & LR & _ & _).
    pose proof labels_ok as A. rewrite forallb_forall in A. specialize (A _ Hl). unfold label_ok in A.
    rewrite !andb_true_iff in A. destruct A as ((((A1 & A2) & A3) & A4) & A5). apply Nat.eqb_eq in A1. apply negb_true_iff, N.eqb_neq in A2.
    apply N.leb_le in A3, A4. pose proof (digits_val_lt 256 R BR) as U. assert (XR : len R = 78) by (unfold len; lia). rewrite XR in U.
    rewrite Ev in *. assert (Uv : v < 2 ^ 32) by (rewrite <- Ev; apply V).
    assert (Sy : firstn 4 es = symbol_values l).
    { rewrite <- Fs, Es, firstn_map. unfold symbol_values. rewrite map_map. rewrite <- (map_id (firstn 4 es)) at 1. apply map_ext_in.
      intros d Hd. rewrite Forall_forall in F. specialize (F d ltac:(rewrite <- (firstn_skipn 4 es); apply in_or_app; auto)). cbv beta in F.
      rewrite (proj1 (b58_digit_complete d F)). reflexivity. }
    set (ds := symbol_values l) in *. set (W := digits_val 58 ds) in *.
    assert (Z0 : leading_zeros es = 0%nat).
    { destruct es as [|d es]; [rewrite <- Sy in A1; discriminate A1|]. rewrite <- Sy in A2. cbn [firstn nth] in A2. destruct d; [congruence|reflexivity]. }
    assert (Bv : 2 ^ 24 <= v).
    { destruct (N.le_gt_cases (2 ^ 24) v) as [X|X]; [exact X|exfalso]. rewrite Z0 in Z. cbn [be_bytes app] in Z.
      rewrite !N.div_div in Z by discriminate. change (256 * (256 * 256)) with (2 ^ 24) in Z. change (256 * 256 * 256) with (2 ^ 24) in Z.
      rewrite (N.div_small v (2 ^ 24) X) in Z. discriminate Z. }
    assert (Le : length es = k) by (rewrite <- Ls, Es, map_length; reflexivity).
    assert (K4 : (4 <= k)%nat). { rewrite <- Sy, firstn_length in A1. lia. }
    set (m := N.of_nat (k - 4)).
    assert (Lr : len (skipn 4 es) = m) by (unfold len, m; rewrite skipn_length, Le; reflexivity).
    assert (D1 : W * 58 ^ m <= digits_val 58 es /\ digits_val 58 es < (W + 1) * 58 ^ m).
    { rewrite <- (firstn_skipn 4 es) in F |- *. apply Forall_app in F. destruct F as [_ F]. pose proof (digits_val_lt 58 _ F) as X.
      rewrite digits_val_app, Lr, Sy. rewrite Lr in X. fold W. rewrite N.mul_add_distr_r, N.mul_1_l. split; [apply N.le_add_r|apply N.add_lt_mono_l, X]. }
    destruct D1 as [D1 D2].
    assert (D3 : v * 256 ^ 78 <= digits_val 58 es) by (rewrite D; apply N.le_add_r).
    assert (D4 : digits_val 58 es < (v + 1) * 256 ^ 78) by (rewrite D, N.mul_add_distr_r, N.mul_1_l; apply N.add_lt_mono_l, U).
    assert (D5 : digits_val 58 es < 2 ^ 32 * 256 ^ 78).
    { eapply N.lt_le_trans; [exact D4|]. apply N.mul_le_mono_r. lia. }
    assert (D6 : 2 ^ 24 * 256 ^ 78 <= digits_val 58 es).
    { eapply N.le_trans; [|exact D3]. apply N.mul_le_mono_r. exact Bv. }
    assert (Hm : k = 111%nat \/ k = 112%nat).
    { destruct (N.le_gt_cases m 106) as [X|X].
      - exfalso. apply (N.lt_irrefl (digits_val 58 es)). eapply N.lt_le_trans; [exact D2|]. eapply N.le_trans; [|exact D6].
        eapply N.le_trans; [|exact A3]. apply N.mul_le_mono_l, N.pow_le_mono_r; [discriminate|exact X].
      - destruct (N.le_gt_cases 109 m) as [Y|Y]; [|unfold m in *; lia].
        exfalso. apply (N.lt_irrefl (digits_val 58 es)). eapply N.lt_le_trans; [exact D5|]. eapply N.le_trans; [exact A4|]. eapply N.le_trans; [|exact D1].
        apply N.mul_le_mono_l, N.pow_le_mono_r; [discriminate|exact Y]. }
    rewrite forallb_forall in A5. specialize (A5 k). cbv beta in A5. fold m in A5. cbv zeta in A5.
    apply orb_true_iff in A5; [|cbn; intuition auto]. destruct A5 as [A5|A5].
    + exfalso. apply N.leb_le in A5. apply (N.lt_irrefl (digits_val 58 es)). eapply N.lt_le_trans; [exact D5|]. eapply N.le_trans; [exact A5|exact D1].
    + apply existsb_exists in A5. destruct A5 as (r & Hr & Er). apply row_eqb_eq in Er. rewrite <- Er in Hr.
      eexists _, _. split; [exact Hr|].
      assert (Q : digits_val 58 es / 256 ^ 78 = v).
      { symmetry. apply (N.div_unique _ _ _ (digits_val 256 R)); [exact U|]. rewrite D. f_equal. apply N.mul_comm. }
      rewrite <- Q. clear Q. assert (P0 : 256 ^ 78 <> 0) by discriminate. split; apply N.div_le_mono; [exact P0|exact D1|exact P0|]. revert D2.
      generalize ((W + 1) * 58 ^ m). intros. lia.
  - intros (lo & hi & Hi & Hv).
    assert (X : exists a kb, valid_attrs a /\ has_bytes 33 kb
      /\ (v = lo -> digits_val 256 ([depth a] ++ parent_fingerprint a ++ be_bytes 4 (child_number a) ++ chain_code a ++ kb) = 256 ^ 74 - 1)
      /\ (v = hi -> digits_val 256 ([depth a] ++ parent_fingerprint a ++ be_bytes 4 (child_number a) ++ chain_code a ++ kb) = 0)
      /\ length ([depth a] ++ parent_fingerprint a ++ be_bytes 4 (child_number a) ++ chain_code a ++ kb) = 74%nat).
    { destruct (row_prefix l k lo hi v Hi) as (_ & _ & X); [lia|]. destruct (N.eq_dec v lo) as [E|E].
      - exists (mkAttrs 255 (repeat 255 4) (2 ^ 32 - 1) (repeat 255 32)), (repeat 255 33).
        split; [split; [reflexivity|split; [split; [reflexivity|repeat constructor]|split; [reflexivity|split; [reflexivity|repeat constructor]]]]|].
        split; [split; [reflexivity|repeat constructor]|]. split; [reflexivity|]. split; [lia|reflexivity].
      - exists (mkAttrs 0 (repeat 0 4) 0 (repeat 0 32)), (repeat 0 33).
        split; [split; [reflexivity|split; [split; [reflexivity|repeat constructor]|split; [reflexivity|split; [reflexivity|repeat constructor]]]]|].
        split; [split; [reflexivity|repeat constructor]|]. split; [lia|]. split; reflexivity. }
    destruct X as (a & kb & Ha & Hk & X1 & X2 & X3).
    destruct (row_prefix l k lo hi v Hi) as [Vp _]; [lia|]. set (e := mkExt (mkPrefix l v) a kb).
    assert (V : valid_ext e) by (split; [exact Vp|split; assumption]). destruct (to_string_exists e V) as (s & _ & I & _). exists s, e.
    assert (ET : firstn 74 (skipn 4 (ek_payload e)) = [depth a] ++ parent_fingerprint a ++ be_bytes 4 (child_number a) ++ chain_code a ++ kb).
    { unfold ek_payload, prefix_to_bytes, child_to_bytes. rewrite skipn_app, be_bytes_length. rewrite (skipn_all2 (be_bytes 4 _)) by (rewrite be_bytes_length; lia).
      rewrite Nat.sub_diag, skipn_O. cbn [app e ek_attrs key_bytes]. apply firstn_all2. rewrite <- X3. apply Nat.le_refl. }
    destruct (head_text l k lo hi e s Hi V I) as [F L]; [exact Hv|rewrite ET; exact X1|rewrite ET; exact X2|].
    split; [apply own_text; assumption|]. split; [exact F|]. split; [exact L|reflexivity].
Qed.
Lemma c154_only_registered_refuted :
  ~ (forall (s : str) (e : extended_key), ek_from_str s = Ok e -> In (firstn 4 s) labels -> In (firstn 4 s, version (ek_prefix e)) registered).
Proof.
  intros H. destruct (proj2 (c154_versions_behind_a_label (lit "xprv") 111 76066275 ltac:(cbn; auto))) as (s & e & R & F & _ & Ev).
  { exists 76066274, 76066281. split; [cbn; auto 9|lia]. }
  specialize (H s e R). rewrite F, Ev in H. specialize (H ltac:(cbn; auto)). cbn in H.
  repeat (destruct H as [H|H]; [discriminate H|]). exact H.
Qed.
(** So a private key has several texts with the same label, all of which are read as that key. *)
Lemma c154_several_texts_of_a_key : forall (l : str) (k : nat) (lo hi v v' : N) (x : xprv),
  In (l, k, lo, hi) label_versions -> skipn 1 l = lit "prv" -> lo < v < hi -> lo < v' < hi -> v <> v' -> valid_xprv x ->
  exists s s', s <> s' /\ length s = k /\ length s' = k /\ firstn 4 s = l /\ firstn 4 s' = l /\ xprv_from_str s = Ok x /\ xprv_from_str s' = Ok x.
Proof.
  intros l k lo hi v v' x Hi Hc Hv Hv' N V.
  assert (R : forall u, lo < u < hi -> exists s, ek_from_str s = Ok (xprv_to_extended_key x (mkPrefix l u)) /\ length s = k /\ firstn 4 s = l /\ xprv_from_str s = Ok x).
  { intros u Hu. destruct (row_prefix l k lo hi u Hi) as [Vp _]; [lia|]. pose proof (xprv_ext_valid x _ V Vp) as Ve.
    destruct (c154_inner_versions_round_trip l k lo hi u (xprv_attrs x) (0 :: secret_serialize (private_key x)) Hi Hu) as (s & _ & F & L & E); [apply Ve..|].
    change (mkExt (mkPrefix l u) (xprv_attrs x) (0 :: secret_serialize (private_key x))) with (xprv_to_extended_key x (mkPrefix l u)) in E.
    exists s. split; [exact E|]. split; [exact L|]. split; [exact F|]. unfold xprv_from_str. rewrite E. cbn [bind].
    apply xprv_try_from_ok; [exact Ve|]. split; [exact Hc|]. split; [reflexivity|]. exists (secret_serialize (private_key x)). split; [reflexivity|].
    destruct V as [Hk _]. split; [apply secret_bytes, Hk|exact Hk]. }
  destruct (R v Hv) as (s & E & L & F & X), (R v' Hv') as (s' & E' & L' & F' & X'). exists s, s'. split; [|auto 9].
  intros <-. rewrite E in E'. injection E' as E'. exact (N E').
Qed.
Example c154_example : In (lit "xprv", 111%nat, 76066274, 76066281) label_versions /\ In (lit "xprv", 76066276) registered
  /\ 76066274 < 76066277 < 76066281 /\ valid_xprv ex_xprv.
Proof. split; [cbn; auto 9|]. split; [cbn; auto 9|]. split; [split; reflexivity|exact ex_xprv_valid]. Qed.
