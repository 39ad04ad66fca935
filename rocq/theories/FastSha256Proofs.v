(** The functions of FastSha256.v compute SHA-256 as in Hash.v. *)
From Coq Require Import Uint63 ZArith ZifyBool ZifyNat ZifyN.
From Verif Require Import Outcome Bytes Hash HashLemmas BitLemmas HashProofs FastSha FastShaProofs FastSha256.
Open Scope N_scope.

Definition gok (a : int) : Prop := nv a < 2 ^ 32.
Lemma rotr32_bit x n i : 0 < n < 32 -> x < 2 ^ 32 ->
  N.testbit (rotr sha256_params x n) i = if i <? 32 then N.testbit x (if i + n <? 32 then i + n else i + n - 32) else false.
Proof.
  intros Hn Hx. unfold rotr. cbn [p_w p_mask sha256_params]. change 0xffffffff with (N.ones 32).
  rewrite N.lor_spec, N.shiftr_spec', N.land_spec. destruct (N.ltb_spec i 32) as [Hi|Hi].
  - rewrite N.ones_spec_low by exact Hi. rewrite andb_true_r. destruct (N.ltb_spec (i + n) 32) as [H|H].
    + rewrite N.shiftl_spec_low by lia. apply orb_false_r.
    + rewrite (bit_small x 32 (i + n) Hx H). cbn [orb]. rewrite N.shiftl_spec_high' by lia. f_equal. lia.
  - rewrite N.ones_spec_high by exact Hi. rewrite andb_false_r, orb_false_r. apply (bit_small x 32); [exact Hx|lia].
Qed.
Lemma land_lxor_ones a b : N.land (N.lxor a b) (N.ones 32) = N.lxor (N.land a (N.ones 32)) (N.land b (N.ones 32)).
Proof. apply N.bits_inj. intros i. rewrite N.land_spec, !N.lxor_spec, !N.land_spec. destruct (N.testbit (N.ones 32) i), (N.testbit a i), (N.testbit b i); reflexivity. Qed.
Lemma rot32 x n : 0 < n < 32 -> x < 2 ^ 32 ->
  N.land (N.lxor (N.shiftr x n) (N.shiftl x (32 - n))) (N.ones 32) = rotr sha256_params x n.
Proof.
  intros Hn Hx. apply N.bits_inj. intros i. rewrite rotr32_bit by assumption. rewrite N.land_spec, N.lxor_spec, N.shiftr_spec'.
  destruct (N.ltb_spec i 32) as [Hi|Hi].
  - rewrite N.ones_spec_low by exact Hi. rewrite andb_true_r. destruct (N.ltb_spec (i + n) 32) as [H|H].
    + rewrite N.shiftl_spec_low by lia. apply xorb_false_r.
    + rewrite (bit_small x 32 (i + n) Hx H). rewrite xorb_false_l. rewrite N.shiftl_spec_high' by lia. f_equal. lia.
  - rewrite N.ones_spec_high by exact Hi. apply andb_false_r.
Qed.
Lemma shr32 x n : x < 2 ^ 32 -> N.land (N.shiftr x n) (N.ones 32) = N.shiftr x n.
Proof.
  intros Hx. rewrite N.land_ones. apply N.mod_small. rewrite N.shiftr_div_pow2.
  eapply N.le_lt_trans; [|exact Hx]. apply N.div_le_upper_bound; [apply N.pow_nonzero; discriminate|].
  rewrite <- (N.mul_1_l x) at 1. apply N.mul_le_mono_r. pose proof (N.pow_nonzero 2 n ltac:(discriminate)). lia.
Qed.
Ltac gword := unfold gmask; rewrite !nv_land, nv_mask, !nv_lxor, !land_lxor_ones, !nv_lsr, !lsl_ok by (assumption || (apply N.leb_le; reflexivity)).
Lemma gS0_ok a : gok a -> gok (gS0 a) /\ nv (gS0 a) = big_sigma sha256_params (2, 13, 22) (nv a).
Proof.
  intros H. split; [apply mask_ok|]. unfold gS0, big_sigma. unfold gok in H. gword. rewrite <- !land_lxor_ones. rewrite land_lxor_ones, (land_lxor_ones (N.lxor (N.shiftr (nv a) (nv 13)) _)).
  f_equal; [|f_equal].
  - exact (rot32 (nv a) 2 (conj eq_refl eq_refl) H).
  - exact (rot32 (nv a) 13 (conj eq_refl eq_refl) H).
  - exact (rot32 (nv a) 22 (conj eq_refl eq_refl) H).
Qed.
Lemma gS1_ok a : gok a -> gok (gS1 a) /\ nv (gS1 a) = big_sigma sha256_params (6, 11, 25) (nv a).
Proof.
  intros H. split; [apply mask_ok|]. unfold gS1, big_sigma. unfold gok in H. gword. rewrite <- !land_lxor_ones. rewrite land_lxor_ones, (land_lxor_ones (N.lxor (N.shiftr (nv a) (nv 11)) _)).
  f_equal; [|f_equal].
  - exact (rot32 (nv a) 6 (conj eq_refl eq_refl) H).
  - exact (rot32 (nv a) 11 (conj eq_refl eq_refl) H).
  - exact (rot32 (nv a) 25 (conj eq_refl eq_refl) H).
Qed.
Lemma gg0_ok a : gok a -> gok (gg0 a) /\ nv (gg0 a) = small_sigma sha256_params (7, 18, 3) (nv a).
Proof.
  intros H. split; [apply mask_ok|]. unfold gg0, small_sigma. unfold gok in H. gword. rewrite <- !land_lxor_ones. rewrite land_lxor_ones, (land_lxor_ones (N.lxor (N.shiftr (nv a) (nv 18)) _)).
  f_equal; [|f_equal].
  - exact (rot32 (nv a) 7 (conj eq_refl eq_refl) H).
  - exact (rot32 (nv a) 18 (conj eq_refl eq_refl) H).
  - exact (shr32 (nv a) 3 H).
Qed.
Lemma gg1_ok a : gok a -> gok (gg1 a) /\ nv (gg1 a) = small_sigma sha256_params (17, 19, 10) (nv a).
Proof.
  intros H. split; [apply mask_ok|]. unfold gg1, small_sigma. unfold gok in H. gword. rewrite <- !land_lxor_ones. rewrite land_lxor_ones, (land_lxor_ones (N.lxor (N.shiftr (nv a) (nv 19)) _)).
  f_equal; [|f_equal].
  - exact (rot32 (nv a) 17 (conj eq_refl eq_refl) H).
  - exact (rot32 (nv a) 19 (conj eq_refl eq_refl) H).
  - exact (shr32 (nv a) 10 H).
Qed.
Lemma gch_ok a b c : gok a -> gok b -> gok c -> gok (gch a b c) /\ nv (gch a b c) = ch (nv a) (nv b) (nv c).
Proof.
  intros A B C. unfold gch, gok, ch in *. rewrite !nv_lxor, !nv_land, !nv_lxor. split; [apply lxor_small; [exact C|apply land_small; exact A]|].
  apply N.bits_inj. intros i. rewrite !N.lxor_spec, !N.land_spec, N.ldiff_spec, N.lxor_spec.
  destruct (N.testbit (nv a) i), (N.testbit (nv b) i), (N.testbit (nv c) i); reflexivity.
Qed.
Lemma gmaj_ok a b c : gok a -> gok b -> gok c -> gok (gmaj a b c) /\ nv (gmaj a b c) = maj (nv a) (nv b) (nv c).
Proof.
  intros A B C. unfold gmaj, gok, maj in *. rewrite !nv_lxor, !nv_land, !nv_lxor. split; [apply lxor_small; apply land_small; assumption|].
  apply N.bits_inj. intros i. rewrite !N.lxor_spec, !N.land_spec, N.lxor_spec.
  destruct (N.testbit (nv a) i), (N.testbit (nv b) i), (N.testbit (nv c) i); reflexivity.
Qed.
Lemma gforce_eq {A} a (k : int -> A) : gforce a k = k a.
Proof. unfold gforce. destruct (a =? 0)%uint63; reflexivity. Qed.
Lemma add256 a b : add_w sha256_params a b = (a + b) mod 2 ^ 32.
Proof. unfold add_w. cbn [p_mask sha256_params]. change 0xffffffff with (N.ones 32). apply N.land_ones. Qed.
Lemma gmask_val x : nv (gmask x) = nv x mod 2 ^ 32.
Proof. unfold gmask. rewrite nv_land, nv_mask. apply N.land_ones. Qed.
Lemma gmask_ok x : gok (gmask x).
Proof. apply mask_ok. Qed.
Definition gbelow (k : N) (a : int) : Prop := nv a < k * 2 ^ 32.
Lemma gok_below a : gok a -> gbelow 1 a.
Proof. exact (fun H => H). Qed.
Lemma gsum_ok j k a b : j + k <= 16 -> gbelow j a -> gbelow k b -> gbelow (j + k) (a + b)%uint63 /\ nv (a + b)%uint63 = nv a + nv b.
Proof.
  intros H A B. unfold gbelow in *.
  assert (Hm : (j + k) * 2 ^ 32 <= 16 * 2 ^ 32) by (apply N.mul_le_mono_r; exact H).
  assert (Hc : 16 * 2 ^ 32 < 2 ^ 63) by reflexivity. rewrite N.mul_add_distr_r in *.
  rewrite !nv_add by lia. lia.
Qed.

(** ** Rounds *)
Definition gsv (s : gst8) : st8 := match s with GSt a b c d e f g h => St8 (nv a) (nv b) (nv c) (nv d) (nv e) (nv f) (nv g) (nv h) end.
Definition gsok (s : gst8) : Prop := match s with GSt a b c d e f g h => gok a /\ gok b /\ gok c /\ gok d /\ gok e /\ gok f /\ gok g /\ gok h end.
Definition gwords_of (v : gwin) : list int :=
  match v with GWin w0 w1 w2 w3 w4 w5 w6 w7 w8 w9 w10 w11 w12 w13 w14 w15 => [w0; w1; w2; w3; w4; w5; w6; w7; w8; w9; w10; w11; w12; w13; w14; w15] end.
Definition gwinv (v : gwin) : list N := map nv (gwords_of v).
Definition gwinok (v : gwin) : Prop := Forall gok (gwords_of v).
Lemma gnext_ok {A} v (k : gwin -> A) : gwinok v -> exists v', gnext v k = k v' /\ gwinok v' /\ gwinv v' = tl (gwinv v) ++ [next_w sha256_params (gwinv v)].
Proof.
  destruct v as [w0 w1 w2 w3 w4 w5 w6 w7 w8 w9 w10 w11 w12 w13 w14 w15]. intros H. unfold gnext. rewrite gforce_eq. eexists. split; [reflexivity|].
  unfold gwinok, gwinv in *. cbn [gwords_of map tl app] in *.
  assert (O : forall n w, nth_error [w0; w1; w2; w3; w4; w5; w6; w7; w8; w9; w10; w11; w12; w13; w14; w15] n = Some w -> gok w).
  { intros n w E. apply nth_error_In in E. rewrite Forall_forall in H. apply H, E. }
  destruct (gg1_ok w14 (O 14%nat w14 eq_refl)) as [G1 V1]. destruct (gg0_ok w1 (O 1%nat w1 eq_refl)) as [G0 V0].
  destruct (gsum_ok 1 1 _ _ ltac:(lia) (gok_below _ G1) (gok_below _ (O 9%nat w9 eq_refl))) as [S1 T1].
  destruct (gsum_ok 1 1 _ _ ltac:(lia) (gok_below _ G0) (gok_below _ (O 0%nat w0 eq_refl))) as [S0 T0].
  destruct (gsum_ok (1 + 1) (1 + 1) _ _ ltac:(lia) S1 S0) as [S T].
  split.
  - apply Forall_cons_iff in H. destruct H as [_ H]. change (Forall gok ([w1; w2; w3; w4; w5; w6; w7; w8; w9; w10; w11; w12; w13; w14; w15]
      ++ [gmask ((gg1 w14 + w9) + (gg0 w1 + w0))%uint63])). apply Forall_app. split; [exact H|]. constructor; [apply gmask_ok|constructor].
  - do 15 f_equal. rewrite gmask_val, T, T1, T0, V1, V0. unfold next_w. cbn [nth]. rewrite !add256.
    rewrite N.add_mod_idemp_l, N.add_mod_idemp_r by discriminate. reflexivity.
Qed.
Lemma ground_ok {A} s kc w (k : gst8 -> A) : gsok s -> gok kc -> gok w ->
  exists s', ground s kc w k = k s' /\ gsok s' /\ gsv s' = round sha256_params (gsv s) (nv kc) (nv w).
Proof.
  destruct s as [a b c d e f g h]. intros (Oa & Ob & Oc & Od & Oe & Of & Og & Oh) Okc Ow. unfold ground. rewrite !gforce_eq. eexists. split; [reflexivity|].
  destruct (gS1_ok e Oe) as [O1 V1]. destruct (gS0_ok a Oa) as [O0 V0]. destruct (gch_ok e f g Oe Of Og) as [Oc' Vc]. destruct (gmaj_ok a b c Oa Ob Oc) as [Om Vm].
  destruct (gsum_ok 1 1 _ _ ltac:(lia) (gok_below _ Oh) (gok_below _ O1)) as [S1 T1]. destruct (gsum_ok 1 1 _ _ ltac:(lia) (gok_below _ Oc') (gok_below _ Okc)) as [S2 T2].
  destruct (gsum_ok (1 + 1) 1 _ _ ltac:(lia) S2 (gok_below _ Ow)) as [S3 T3]. destruct (gsum_ok (1 + 1) (1 + 1 + 1) _ _ ltac:(lia) S1 S3) as [S4 T4].
  set (t := gmask ((h + gS1 e) + ((gch e f g + kc) + w))%uint63).
  assert (Ot : gok t) by apply gmask_ok.
  destruct (gsum_ok 1 1 _ _ ltac:(lia) (gok_below _ Od) (gok_below _ Ot)) as [S5 T5].
  destruct (gsum_ok 1 1 _ _ ltac:(lia) (gok_below _ O0) (gok_below _ Om)) as [S6 T6]. destruct (gsum_ok 1 (1 + 1) _ _ ltac:(lia) (gok_below _ Ot) S6) as [S7 T7].
  split; [repeat split; assumption || apply gmask_ok|]. unfold gsv, round. cbn [p_s0 p_s1 sha256_params].
  assert (Et : nv t
    = add_w sha256_params (add_w sha256_params (nv h) (big_sigma sha256_params (6, 11, 25) (nv e)))
        (add_w sha256_params (add_w sha256_params (ch (nv e) (nv f) (nv g)) (nv kc)) (nv w))).
  { unfold t. rewrite gmask_val, T4, T1, T3, T2, V1, Vc, !add256.
    rewrite (N.add_mod_idemp_l (ch _ _ _ + _)) by discriminate. rewrite N.add_mod_idemp_l, N.add_mod_idemp_r by discriminate. reflexivity. }
  cbv zeta. rewrite <- Et. f_equal.
  - rewrite gmask_val, T7, T6, V0, Vm. rewrite (add256 (nv t)). rewrite (add256 (big_sigma _ _ _)).
    rewrite N.add_mod_idemp_r by discriminate. reflexivity.
  - rewrite gmask_val, T5, (add256 (nv d)). reflexivity.
Qed.
Lemma grounds_ok ks : forall v s, Forall gok ks -> gwinok v -> gsok s ->
  gsok (grounds ks v s) /\ gsv (grounds ks v s) = rounds sha256_params (map nv ks) (gwinv v) (gsv s).
Proof.
  induction ks as [|kc ks IH]; intros v s Hk Hv Hs; [split; [exact Hs|reflexivity]|]. cbn [grounds map rounds].
  apply Forall_cons_iff in Hk. destruct Hk as [Hkc Hk].
  assert (Hf : gok (gfirst v) /\ nv (gfirst v) = hd 0 (gwinv v)).
  { destruct v. split; [apply Forall_inv in Hv; exact Hv|reflexivity]. }
  destruct (ground_ok s kc (gfirst v) (fun s' => gnext v (fun v' => grounds ks v' s')) Hs Hkc (proj1 Hf)) as (s' & -> & Os & Vs).
  destruct (gnext_ok v (fun v' => grounds ks v' s') Hv) as (v' & -> & Ov & Vv).
  destruct (IH v' s' Hk Ov Os) as [O V]. split; [exact O|]. rewrite V, Vs, Vv, (proj2 Hf). reflexivity.
Qed.
Lemma gks_ok : Forall gok gks /\ map nv gks = k256.
Proof.
  split; [|vm_compute; reflexivity]. unfold gks. repeat (constructor; [apply N.ltb_lt; vm_compute; reflexivity|]). constructor.
Qed.
Lemma gadd_ok {A} s t (k : gst8 -> A) : gsok s -> gsok t -> exists u, gadd s t k = k u /\ gsok u /\ gsv u = st_add sha256_params (gsv s) (gsv t).
Proof.
  destruct s as [a b c d e f g h], t as [a' b' c' d' e' f' g' h']. intros (A1 & A2 & A3 & A4 & A5 & A6 & A7 & A8) (B1 & B2 & B3 & B4 & B5 & B6 & B7 & B8).
  unfold gadd. rewrite !gforce_eq. eexists. split; [reflexivity|]. split; [repeat split; apply gmask_ok|].
  assert (H : forall x y, gok x -> gok y -> nv (gmask (x + y)%uint63) = add_w sha256_params (nv x) (nv y)).
  { intros x y Hx Hy. rewrite gmask_val, add256. rewrite (proj2 (gsum_ok 1 1 x y ltac:(lia) Hx Hy)). reflexivity. }
  unfold gsv, st_add. rewrite !H by assumption. reflexivity.
Qed.

(** ** Bytes *)
Lemma gbyte_val b : b < 256 -> nv (gbyte b) = b.
Proof. intros H. unfold nv, gbyte. rewrite of_Z_spec, Z.mod_small; [apply N2Z.id|]. change wB with (2 ^ 63)%Z. lia. Qed.
Lemma nv_lor a b : nv (a lor b)%uint63 = N.lor (nv a) (nv b).
Proof. apply of_N_inj'. rewrite nv_Z, lor_spec', <- !nv_Z. destruct (nv a), (nv b); reflexivity. Qed.
Lemma gstep x b k : nv x < k -> k <= 2 ^ 24 -> b < 256 -> nv ((x << 8) lor gbyte b)%uint63 = nv x * 256 + b /\ nv ((x << 8) lor gbyte b)%uint63 < 256 * k.
Proof.
  intros Hx Hk Hb. rewrite nv_lor, gbyte_val by exact Hb. rewrite nv_lsl by (change (nv 8) with 8; assert (2 ^ 24 * 2 ^ 8 < 2 ^ 63) by reflexivity; nia).
  change (nv 8) with 8. rewrite N.shiftl_mul_pow2. rewrite lor_add by exact Hb. change (2 ^ 8) with 256. nia.
Qed.
Lemma gwords_ok n : forall l, bytes_ok l -> length l = (4 * n)%nat -> Forall gok (gwords l) /\ map nv (gwords l) = map be_val (chunks n 4 l) /\ length (gwords l) = n.
Proof.
  induction n as [|n IH]; intros l Hl L.
  - destruct l; [|discriminate L]. split; [constructor|]. split; reflexivity.
  - destruct l as [|a [|b [|c [|d l]]]]; [exfalso; cbn in L; lia..|]. cbn [gwords].
    apply Forall_cons_iff in Hl. destruct Hl as [Ha Hl]. apply Forall_cons_iff in Hl. destruct Hl as [Hb Hl].
    apply Forall_cons_iff in Hl. destruct Hl as [Hc Hl]. apply Forall_cons_iff in Hl. destruct Hl as [Hd Hl].
    destruct (IH l Hl) as (I1 & I2 & I3); [cbn [length] in L; lia|].
    assert (Ga : nv (gbyte a) < 256) by (rewrite gbyte_val; assumption).
    destruct (gstep (gbyte a) b 256 Ga ltac:(discriminate) Hb) as [E1 L1].
    destruct (gstep _ c _ L1 ltac:(discriminate) Hc) as [E2 L2]. destruct (gstep _ d _ L2 ltac:(discriminate) Hd) as [E3 L3].
    split; [constructor; [exact L3|exact I1]|]. split; [|cbn [length]; rewrite I3; reflexivity].
    cbn [map chunks firstn skipn]. rewrite I2, E3, E2, E1, gbyte_val by exact Ha. f_equal.
Qed.
Lemma gwin_of_ok l : length l = 16%nat -> gwords_of (gwin_of l) = l.
Proof. intros H. do 16 (destruct l as [|? l]; [discriminate H|]). destruct l; [reflexivity|discriminate H]. Qed.
Lemma gabsorb_ok n : forall m s, bytes_ok m -> length m = (64 * n)%nat -> gsok s -> forall f, (n <= f)%nat ->
  gsok (gabsorb f m s) /\ gsv (gabsorb f m s) = fold_left (compress sha256_params) (chunks f 64 m) (gsv s).
Proof.
  induction n as [|n IH]; intros m s Hm L Hs f Hf.
  - destruct m; [|discriminate L]. destruct f; (split; [exact Hs|reflexivity]).
  - destruct f as [|f]; [lia|]. cbn [gabsorb chunks]. destruct m as [|x m']; [exfalso; cbn in L; lia|].
    set (m := x :: m') in *. clearbody m. cbn [fold_left].
    assert (F : bytes_ok (firstn 64 m)) by (apply bytes_ok_firstn; exact Hm).
    assert (LF : length (firstn 64 m) = (4 * 16)%nat) by (rewrite firstn_length; lia).
    destruct (gwords_ok 16 (firstn 64 m) F LF) as (W1 & W2 & W3).
    pose proof (gwin_of_ok _ W3) as GW.
    assert (WO : gwinok (gwin_of (gwords (firstn 64 m)))) by (unfold gwinok; rewrite GW; exact W1).
    destruct (grounds_ok gks _ s (proj1 gks_ok) WO Hs) as [O1 V1].
    destruct (gadd_ok s (grounds gks (gwin_of (gwords (firstn 64 m))) s) (fun s' => gabsorb f (skipn 64 m) s') Hs O1) as (u & -> & Ou & Vu).
    destruct (IH (skipn 64 m) u) with (f := f) as [O2 V2]; [apply bytes_ok_skipn; exact Hm|rewrite skipn_length; lia|exact Ou|lia|].
    split; [exact O2|]. rewrite V2, Vu, V1. unfold compress. cbn [p_k p_wb sha256_params]. rewrite (proj2 gks_ok).
    unfold gwinv. rewrite GW, W2. reflexivity.
Qed.
Lemma giv_ok : gsok giv /\ gsv giv = st_of_list (p_h sha256_params).
Proof. split; [repeat split; apply N.ltb_lt; vm_compute; reflexivity|vm_compute; reflexivity]. Qed.
Lemma gpad_length t : exists n, (t + length (pad sha256_params t) = 64 * n)%nat.
Proof.
  unfold pad, block_size. cbn [p_wb sha256_params]. change (2 * 4)%nat with 8%nat. change (16 * 4)%nat with 64%nat.
  cbn [length]. rewrite app_length, repeat_length, be_bytes_length. change (2 * 64 - 1 - 8)%nat with 119%nat.
  pose proof (Nat.mod_upper_bound t 64 ltac:(discriminate)) as H. pose proof (Nat.div_mod t 64 ltac:(discriminate)) as D.
  pose proof (Nat.div_mod (119 - t mod 64) 64 ltac:(discriminate)) as D2.
  exists (t / 64 + 2 - (119 - t mod 64) / 64)%nat.
  assert ((119 - t mod 64) / 64 <= 1)%nat. { apply Nat.lt_succ_r. apply Nat.div_lt_upper_bound; lia. } lia.
Qed.
Lemma bytes_pad t : bytes_ok (pad sha256_params t).
Proof.
  unfold pad. cbv zeta. constructor; [reflexivity|]. apply Forall_app. split; [|apply be_bytes_ok].
  apply Forall_forall. intros x Hx. apply repeat_spec in Hx. subst x. reflexivity.
Qed.
Definition gdigest (s : gst8) : bytes := digest_of_st sha256_params (gsv s).
Lemma gsha256_ok m : bytes_ok m -> sha256 m = gdigest (gsha256 m).
Proof.
  intros Hm. unfold sha256, sha2, gdigest, gsha256. cbv zeta. set (q := m ++ pad sha256_params (length m)).
  destruct (gpad_length (length m)) as [n L].
  assert (Hq : bytes_ok q) by (apply Forall_app; split; [exact Hm|apply bytes_pad]).
  assert (Lq : length q = (64 * n)%nat) by (unfold q; rewrite app_length; exact L). clearbody q. clear L Hm.
  destruct (gabsorb_ok n q giv Hq Lq (proj1 giv_ok) (length q)) as [_ V]; [lia|].
  rewrite V, (proj2 giv_ok). reflexivity.
Qed.
