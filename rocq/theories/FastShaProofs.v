(** The functions of FastSha.v compute SHA-512 and PBKDF2 as in Hash.v. *)
From Coq Require Import Uint63 ZArith ZifyBool ZifyNat ZifyN.
From Verif Require Import Outcome Bytes Hash HashLemmas BitLemmas HashProofs FastSha.
Open Scope N_scope.

(** ** Machine integers as numbers *)
Definition nv (i : int) : N := Z.to_N (to_Z i).
Lemma nv_bound i : nv i < 2 ^ 63.
Proof. unfold nv. pose proof (to_Z_bounded i) as H. change wB with (2 ^ 63)%Z in H. lia. Qed.
Lemma nv_Z i : Z.of_N (nv i) = to_Z i.
Proof. unfold nv. pose proof (to_Z_bounded i). lia. Qed.
Lemma of_N_inj' a b : Z.of_N a = Z.of_N b -> a = b.
Proof. lia. Qed.
Lemma nv_lxor a b : nv (a lxor b)%uint63 = N.lxor (nv a) (nv b).
Proof. apply of_N_inj'. rewrite nv_Z, lxor_spec', <- !nv_Z. destruct (nv a), (nv b); reflexivity. Qed.
Lemma nv_land a b : nv (a land b)%uint63 = N.land (nv a) (nv b).
Proof. apply of_N_inj'. rewrite nv_Z, land_spec', <- !nv_Z. destruct (nv a), (nv b); reflexivity. Qed.
Lemma nv_lsr a b : nv (a >> b)%uint63 = N.shiftr (nv a) (nv b).
Proof.
  apply of_N_inj'. rewrite nv_Z, lsr_spec, <- !nv_Z, N.shiftr_div_pow2.
  rewrite N2Z.inj_div, N2Z.inj_pow. reflexivity.
Qed.
Lemma nv_lsl a b : nv a * 2 ^ nv b < 2 ^ 63 -> nv (a << b)%uint63 = N.shiftl (nv a) (nv b).
Proof.
  intros H. apply of_N_inj'. rewrite nv_Z, lsl_spec, <- !nv_Z, N.shiftl_mul_pow2.
  rewrite N2Z.inj_mul, N2Z.inj_pow. change (Z.of_N 2) with 2%Z. apply Z.mod_small.
  change wB with (Z.of_N (2 ^ 63)). change 2%Z with (Z.of_N 2). rewrite <- N2Z.inj_pow, <- N2Z.inj_mul. lia.
Qed.
Lemma nv_add a b : nv a + nv b < 2 ^ 63 -> nv (a + b)%uint63 = nv a + nv b.
Proof.
  intros H. apply of_N_inj'. rewrite nv_Z, add_spec, <- !nv_Z, <- N2Z.inj_add. apply Z.mod_small.
  change wB with (Z.of_N (2 ^ 63)). lia.
Qed.
Lemma nv_mask : nv 0xffffffff = N.ones 32.
Proof. reflexivity. Qed.

(** ** Words *)
(** The number with the halves [h] and [l], of which the first 32 bits count. *)
Definition two (h l : N) : N := N.lor (N.shiftl (N.land h (N.ones 32)) 32) (N.land l (N.ones 32)).
Lemma two_bit h l i : N.testbit (two h l) i = if i <? 32 then N.testbit l i else if i <? 64 then N.testbit h (i - 32) else false.
Proof.
  unfold two. rewrite N.lor_spec, N.land_spec. destruct (N.ltb_spec i 32) as [H|H].
  - rewrite N.shiftl_spec_low by exact H. rewrite N.ones_spec_low by exact H. rewrite andb_true_r. reflexivity.
  - rewrite N.shiftl_spec_high' by exact H. rewrite N.land_spec. rewrite (N.ones_spec_high 32 i) by exact H.
    rewrite andb_false_r, orb_false_r. destruct (N.ltb_spec i 64) as [H'|H'].
    + rewrite N.ones_spec_low by lia. apply andb_true_r.
    + rewrite N.ones_spec_high by lia. apply andb_false_r.
Qed.
Lemma two_lxor h h' l l' : two (N.lxor h h') (N.lxor l l') = N.lxor (two h l) (two h' l').
Proof.
  apply N.bits_inj. intros i. rewrite N.lxor_spec, !two_bit, !N.lxor_spec.
  destruct (i <? 32), (i <? 64); reflexivity.
Qed.
Lemma bit_small x w i : x < 2 ^ w -> w <= i -> N.testbit x i = false.
Proof.
  intros H Hi. destruct (N.eq_dec x 0) as [->|Hx]; [apply N.bits_0|]. apply N.bits_above_log2.
  apply N.log2_lt_pow2; [lia|]. eapply N.lt_le_trans; [exact H|]. apply N.pow_le_mono_r; lia.
Qed.
Lemma two_val h l : h < 2 ^ 32 -> l < 2 ^ 32 -> two h l = h * 2 ^ 32 + l.
Proof.
  intros Hh Hl. unfold two. rewrite !N.land_ones, !N.mod_small by assumption. rewrite N.shiftl_mul_pow2. apply lor_add. exact Hl.
Qed.
Lemma two_mask h l : two (N.land h (N.ones 32)) (N.land l (N.ones 32)) = two h l.
Proof. unfold two. rewrite <- !N.land_assoc, N.land_diag. reflexivity. Qed.
Lemma two_lt h l : two h l < 2 ^ 64.
Proof.
  destruct (N.eq_dec (two h l) 0) as [->|E]; [reflexivity|]. apply N.log2_lt_pow2; [lia|].
  destruct (N.le_gt_cases 64 (N.log2 (two h l))) as [H|H]; [|exact H]. exfalso.
  pose proof (N.bit_log2 (two h l) E) as B. rewrite two_bit in B.
  destruct (N.ltb_spec (N.log2 (two h l)) 32); [lia|]. destruct (N.ltb_spec (N.log2 (two h l)) 64); [lia|discriminate B].
Qed.
Lemma rotr_bit x n i : 0 < n < 64 -> x < 2 ^ 64 ->
  N.testbit (rotr sha512_params x n) i = if i <? 64 then N.testbit x (if i + n <? 64 then i + n else i + n - 64) else false.
Proof.
  intros Hn Hx. unfold rotr. cbn [p_w p_mask sha512_params]. change 0xffffffffffffffff with (N.ones 64).
  rewrite N.lor_spec, N.shiftr_spec', N.land_spec. destruct (N.ltb_spec i 64) as [Hi|Hi].
  - rewrite N.ones_spec_low by exact Hi. rewrite andb_true_r. destruct (N.ltb_spec (i + n) 64) as [H|H].
    + rewrite N.shiftl_spec_low by lia. apply orb_false_r.
    + rewrite (bit_small x 64 (i + n) Hx H). cbn [orb]. rewrite N.shiftl_spec_high' by lia. f_equal. lia.
  - rewrite N.ones_spec_high by exact Hi. rewrite andb_false_r, orb_false_r. apply (bit_small x 64); [exact Hx|lia].
Qed.
Ltac cases_lt := repeat match goal with |- context [?a <? ?b] => destruct (N.ltb_spec a b); try lia end.
Lemma rot_low h l n : 0 < n < 32 -> h < 2 ^ 32 -> l < 2 ^ 32 ->
  N.lxor (two (N.shiftr h n) (N.shiftr l n)) (two (N.shiftl l (32 - n)) (N.shiftl h (32 - n))) = rotr sha512_params (two h l) n.
Proof.
  intros Hn Hh Hl. apply N.bits_inj. intros i. rewrite rotr_bit by (apply two_lt || lia). rewrite N.lxor_spec, !two_bit, !N.shiftr_spec'.
  destruct (N.ltb_spec i 32) as [Hi|Hi].
  - destruct (N.ltb_spec i 64); [|lia]. destruct (N.ltb_spec (i + n) 64); [|lia]. destruct (N.ltb_spec (i + n) 32) as [H1|H1].
    + rewrite N.shiftl_spec_low by lia. apply xorb_false_r.
    + destruct (N.ltb_spec (i + n) 64); [|lia].
      rewrite (bit_small l 32) by (assumption || lia). rewrite N.shiftl_spec_high' by lia. rewrite xorb_false_l. f_equal. lia.
  - destruct (N.ltb_spec i 64) as [Hi2|Hi2]; [|reflexivity]. destruct (N.ltb_spec (i + n) 64) as [H1|H1].
    + destruct (N.ltb_spec (i + n) 32); [lia|]. destruct (N.ltb_spec (i + n) 64); [|lia].
      rewrite N.shiftl_spec_low by lia. rewrite xorb_false_r. f_equal. lia.
    + rewrite (bit_small h 32) by (assumption || lia). rewrite N.shiftl_spec_high' by lia. rewrite xorb_false_l.
      destruct (N.ltb_spec (i + n - 64) 32); [|lia]. f_equal. lia.
Qed.
Lemma two_swap_rot h l : rotr sha512_params (two h l) 32 = two l h.
Proof.
  apply N.bits_inj. intros i. rewrite rotr_bit by (apply two_lt || lia). rewrite !two_bit.
  destruct (N.ltb_spec i 32).
  - destruct (N.ltb_spec i 64); [|lia]. destruct (N.ltb_spec (i + 32) 64); [|lia]. destruct (N.ltb_spec (i + 32) 32); [lia|].
    destruct (N.ltb_spec (i + 32) 64); [|lia]. f_equal. lia.
  - destruct (N.ltb_spec i 64); [|reflexivity]. destruct (N.ltb_spec (i + 32) 64); [lia|]. destruct (N.ltb_spec (i + 32 - 64) 32); [|lia].
    f_equal. lia.
Qed.
Lemma rotr_rotr x a b : 0 < a < 64 -> 0 < b < 64 -> a + b < 64 -> x < 2 ^ 64 -> rotr sha512_params x a < 2 ^ 64 ->
  rotr sha512_params (rotr sha512_params x a) b = rotr sha512_params x (a + b).
Proof.
  intros Ha Hb Hab Hx Hr. apply N.bits_inj. intros i. rewrite !rotr_bit by (assumption || lia).
  destruct (N.ltb_spec i 64); [|reflexivity]. destruct (N.ltb_spec (i + b) 64).
  - destruct (N.ltb_spec (i + b) 64); [|lia]. f_equal. destruct (N.ltb_spec (i + b + a) 64), (N.ltb_spec (i + (a + b)) 64); lia.
  - destruct (N.ltb_spec (i + b - 64) 64); [|lia]. f_equal. destruct (N.ltb_spec (i + b - 64 + a) 64), (N.ltb_spec (i + (a + b)) 64); lia.
Qed.
Lemma rot_high h l n : 0 < n < 32 -> h < 2 ^ 32 -> l < 2 ^ 32 ->
  N.lxor (two (N.shiftr l n) (N.shiftr h n)) (two (N.shiftl h (32 - n)) (N.shiftl l (32 - n))) = rotr sha512_params (two h l) (32 + n).
Proof.
  intros Hn Hh Hl. rewrite <- rotr_rotr; [|lia|lia|lia|apply two_lt|rewrite two_swap_rot; apply two_lt].
  rewrite two_swap_rot. apply rot_low; assumption.
Qed.
Lemma shift_two h l n : 0 < n < 32 -> h < 2 ^ 32 -> l < 2 ^ 32 ->
  N.lxor (two (N.shiftr h n) (N.shiftr l n)) (two 0 (N.shiftl h (32 - n))) = N.shiftr (two h l) n.
Proof.
  intros Hn Hh Hl. apply N.bits_inj. intros i. rewrite N.lxor_spec, N.shiftr_spec', !two_bit, !N.shiftr_spec', N.bits_0.
  destruct (N.ltb_spec i 32) as [Hi|Hi].
  - destruct (N.ltb_spec (i + n) 32).
    + rewrite N.shiftl_spec_low by lia. apply xorb_false_r.
    + destruct (N.ltb_spec (i + n) 64); [|lia]. rewrite (bit_small l 32) by (assumption || lia). rewrite N.shiftl_spec_high' by lia.
      rewrite xorb_false_l. f_equal. lia.
  - destruct (N.ltb_spec (i + n) 32); [lia|]. destruct (N.ltb_spec i 64), (N.ltb_spec (i + n) 64); try lia; rewrite ?xorb_false_r; try reflexivity.
    + f_equal. lia.
    + apply (bit_small h 32); [assumption|lia].
Qed.

Definition wv (a : w64) : N := match a with W h l => two (nv h) (nv l) end.
Definition wok (a : w64) : Prop := match a with W h l => nv h < 2 ^ 32 /\ nv l < 2 ^ 32 end.
Lemma wv_lt a : wv a < 2 ^ 64.
Proof. destruct a. apply two_lt. Qed.
Lemma mask_ok x : nv (x land 0xffffffff)%uint63 < 2 ^ 32.
Proof. rewrite nv_land, nv_mask, N.land_ones. apply N.mod_lt. discriminate. Qed.
Lemma lsl_ok x s : nv x < 2 ^ 32 -> nv s <= 31 -> nv (x << s)%uint63 = N.shiftl (nv x) (nv s).
Proof.
  intros Hx Hs. apply nv_lsl. apply N.lt_le_trans with (2 ^ 32 * 2 ^ nv s).
  - apply N.mul_lt_mono_pos_r; [|exact Hx]. apply N.neq_0_lt_0, N.pow_nonzero. discriminate.
  - rewrite <- N.pow_add_r. apply N.pow_le_mono_r; [discriminate|lia].
Qed.
Ltac word_lemma := rewrite !nv_land, nv_mask, two_mask, !nv_lxor, !two_lxor, !nv_lsr, !lsl_ok by (assumption || (apply N.leb_le; reflexivity)).
Lemma fS0_ok a : wok a -> wok (fS0 a) /\ wv (fS0 a) = big_sigma sha512_params (28, 34, 39) (wv a).
Proof.
  destruct a as [h l]. intros [Hh Hl]. split; [split; apply mask_ok|]. unfold fS0, wv, big_sigma. word_lemma.
  f_equal; [|f_equal].
  - exact (rot_low (nv h) (nv l) 28 (conj eq_refl eq_refl) Hh Hl).
  - exact (rot_high (nv h) (nv l) 2 (conj eq_refl eq_refl) Hh Hl).
  - exact (rot_high (nv h) (nv l) 7 (conj eq_refl eq_refl) Hh Hl).
Qed.
Lemma fS1_ok a : wok a -> wok (fS1 a) /\ wv (fS1 a) = big_sigma sha512_params (14, 18, 41) (wv a).
Proof.
  destruct a as [h l]. intros [Hh Hl]. split; [split; apply mask_ok|]. unfold fS1, wv, big_sigma. word_lemma.
  f_equal; [|f_equal].
  - exact (rot_low (nv h) (nv l) 14 (conj eq_refl eq_refl) Hh Hl).
  - exact (rot_low (nv h) (nv l) 18 (conj eq_refl eq_refl) Hh Hl).
  - exact (rot_high (nv h) (nv l) 9 (conj eq_refl eq_refl) Hh Hl).
Qed.
Lemma fg0_ok a : wok a -> wok (fg0 a) /\ wv (fg0 a) = small_sigma sha512_params (1, 8, 7) (wv a).
Proof.
  destruct a as [h l]. intros [Hh Hl]. split; [split; apply mask_ok|]. unfold fg0, wv, small_sigma. word_lemma.
  f_equal; [|f_equal].
  - exact (rot_low (nv h) (nv l) 1 (conj eq_refl eq_refl) Hh Hl).
  - exact (rot_low (nv h) (nv l) 8 (conj eq_refl eq_refl) Hh Hl).
  - exact (shift_two (nv h) (nv l) 7 (conj eq_refl eq_refl) Hh Hl).
Qed.
Lemma fg1_ok a : wok a -> wok (fg1 a) /\ wv (fg1 a) = small_sigma sha512_params (19, 61, 6) (wv a).
Proof.
  destruct a as [h l]. intros [Hh Hl]. split; [split; apply mask_ok|]. unfold fg1, wv, small_sigma. word_lemma.
  f_equal; [|f_equal].
  - exact (rot_low (nv h) (nv l) 19 (conj eq_refl eq_refl) Hh Hl).
  - exact (rot_high (nv h) (nv l) 29 (conj eq_refl eq_refl) Hh Hl).
  - exact (shift_two (nv h) (nv l) 6 (conj eq_refl eq_refl) Hh Hl).
Qed.
Lemma two_bits_ok h l h' l' : (forall i, i < 32 -> N.testbit h i = N.testbit h' i) -> (forall i, i < 32 -> N.testbit l i = N.testbit l' i) ->
  two h l = two h' l'.
Proof.
  intros Hh Hl. apply N.bits_inj. intros i. rewrite !two_bit. destruct (N.ltb_spec i 32); [apply Hl; assumption|].
  destruct (N.ltb_spec i 64); [apply Hh; lia|reflexivity].
Qed.
Lemma lxor_small a b : a < 2 ^ 32 -> b < 2 ^ 32 -> N.lxor a b < 2 ^ 32.
Proof.
  intros Ha Hb. destruct (N.eq_dec (N.lxor a b) 0) as [->|E]; [reflexivity|]. apply N.log2_lt_pow2; [lia|].
  destruct (N.le_gt_cases 32 (N.log2 (N.lxor a b))) as [H|H]; [|exact H]. exfalso.
  pose proof (N.bit_log2 _ E) as B. rewrite N.lxor_spec, (bit_small a 32), (bit_small b 32) in B by assumption. discriminate B.
Qed.
Lemma land_small a b : a < 2 ^ 32 -> N.land a b < 2 ^ 32.
Proof.
  intros Ha. destruct (N.eq_dec (N.land a b) 0) as [->|E]; [reflexivity|]. apply N.log2_lt_pow2; [lia|].
  destruct (N.le_gt_cases 32 (N.log2 (N.land a b))) as [H|H]; [|exact H]. exfalso.
  pose proof (N.bit_log2 _ E) as B. rewrite N.land_spec, (bit_small a 32) in B by assumption. discriminate B.
Qed.
Lemma fch_ok a b c : wok a -> wok b -> wok c -> wok (fch a b c) /\ wv (fch a b c) = ch (wv a) (wv b) (wv c).
Proof.
  destruct a as [ah al], b as [bh bl], c as [ch' cl]. intros [A1 A2] [B1 B2] [C1 C2]. unfold fch, wv, wok, ch.
  rewrite !nv_lxor, !nv_land, !nv_lxor. split; [split; apply lxor_small; try apply land_small; assumption|].
  apply N.bits_inj. intros i. rewrite N.lxor_spec, N.land_spec, N.ldiff_spec, !two_bit, !N.lxor_spec, !N.land_spec, !N.lxor_spec.
  destruct (i <? 32); [destruct (N.testbit (nv al) i), (N.testbit (nv bl) i), (N.testbit (nv cl) i); reflexivity|].
  destruct (i <? 64); [|reflexivity].
  destruct (N.testbit (nv ah) (i - 32)), (N.testbit (nv bh) (i - 32)), (N.testbit (nv ch') (i - 32)); reflexivity.
Qed.
Lemma fmaj_ok a b c : wok a -> wok b -> wok c -> wok (fmaj a b c) /\ wv (fmaj a b c) = maj (wv a) (wv b) (wv c).
Proof.
  destruct a as [ah al], b as [bh bl], c as [ch' cl]. intros [A1 A2] [B1 B2] [C1 C2]. unfold fmaj, wv, wok, maj.
  rewrite !nv_lxor, !nv_land, !nv_lxor. split; [split; apply lxor_small; apply land_small; assumption|].
  apply N.bits_inj. intros i. rewrite !N.lxor_spec, !N.land_spec, !two_bit, !N.lxor_spec, !N.land_spec, !N.lxor_spec.
  destruct (i <? 32); [destruct (N.testbit (nv al) i), (N.testbit (nv bl) i), (N.testbit (nv cl) i); reflexivity|].
  destruct (i <? 64); [|reflexivity].
  destruct (N.testbit (nv ah) (i - 32)), (N.testbit (nv bh) (i - 32)), (N.testbit (nv ch') (i - 32)); reflexivity.
Qed.
Lemma fxor_ok a b : wok a -> wok b -> wok (fxor a b) /\ wv (fxor a b) = N.lxor (wv a) (wv b).
Proof.
  destruct a as [ah al], b as [bh bl]. intros [A1 A2] [B1 B2]. unfold fxor, wv, wok. rewrite !nv_lxor.
  split; [split; apply lxor_small; assumption|apply two_lxor].
Qed.

(** Sums with carries to come: at most [k] words. *)
Definition uv (a : w64) : N := match a with W h l => nv h * 2 ^ 32 + nv l end.
Definition below (k : N) (a : w64) : Prop := match a with W h l => nv h < k * 2 ^ 32 /\ nv l < k * 2 ^ 32 end.
Lemma wok_below a : wok a -> below 1 a /\ uv a = wv a.
Proof.
  destruct a as [h l]. intros [Hh Hl]. unfold below, uv, wv. rewrite N.mul_1_l. split; [split; assumption|].
  rewrite two_val by assumption. reflexivity.
Qed.
Lemma fsum_ok j k a b : j + k <= 16 -> below j a -> below k b -> below (j + k) (fsum a b) /\ uv (fsum a b) = uv a + uv b.
Proof.
  destruct a as [ah al], b as [bh bl]. intros H [A1 A2] [B1 B2]. unfold fsum, below, uv.
  assert (Hm : (j + k) * 2 ^ 32 <= 16 * 2 ^ 32) by (apply N.mul_le_mono_r; exact H).
  assert (Hc : 16 * 2 ^ 32 < 2 ^ 63) by reflexivity. rewrite N.mul_add_distr_r in *.
  rewrite !nv_add by lia. lia.
Qed.
Lemma carry_ok k a : k <= 16 -> below k a -> wok (carry a) /\ wv (carry a) = uv a mod 2 ^ 64.
Proof.
  destruct a as [h l]. intros H [A1 A2]. unfold carry, wv, uv. split; [split; apply mask_ok|].
  assert (Hm : k * 2 ^ 32 <= 16 * 2 ^ 32) by (apply N.mul_le_mono_r; exact H).
  assert (Hc : 16 * 2 ^ 32 + 16 < 2 ^ 63) by reflexivity.
  rewrite !nv_land, nv_mask, two_mask.
  assert (Hq : nv (l >> 32)%uint63 = nv l / 2 ^ 32) by (rewrite nv_lsr, N.shiftr_div_pow2; reflexivity).
  assert (Hq16 : nv l / 2 ^ 32 < 16) by (apply N.div_lt_upper_bound; [discriminate|]; lia).
  rewrite nv_add by (rewrite Hq; lia). rewrite Hq. rewrite <- two_mask, !N.land_ones.
  set (x := nv h + nv l / 2 ^ 32). rewrite two_val by (apply N.mod_lt; discriminate).
  apply N.mod_unique with (x / 2 ^ 32).
  - pose proof (N.mod_lt x (2 ^ 32) ltac:(discriminate)). pose proof (N.mod_lt (nv l) (2 ^ 32) ltac:(discriminate)).
    change (2 ^ 64) with (2 ^ 32 * 2 ^ 32). nia.
  - pose proof (N.div_mod x (2 ^ 32) ltac:(discriminate)) as D1. pose proof (N.div_mod (nv l) (2 ^ 32) ltac:(discriminate)) as D2.
    change (2 ^ 64) with (2 ^ 32 * 2 ^ 32). assert (E : nv h = x - nv l / 2 ^ 32) by (unfold x; lia).
    assert (x * 2 ^ 32 = nv h * 2 ^ 32 + nv l / 2 ^ 32 * 2 ^ 32) by (unfold x; apply N.mul_add_distr_r).
    set (q := nv l / 2 ^ 32) in *. set (r := nv l mod 2 ^ 32) in *. set (a := x / 2 ^ 32) in *. set (b := x mod 2 ^ 32) in *.
    replace (nv h * 2 ^ 32 + nv l) with (x * 2 ^ 32 + r) by lia. rewrite D1 at 1. nia.
Qed.
Lemma force_eq {A} a (k : w64 -> A) : force a k = k a.
Proof. destruct a as [h l]. unfold force. destruct (h =? l)%uint63; reflexivity. Qed.
Lemma norm_eq {A} a (k : w64 -> A) : norm a k = k (carry a).
Proof. apply force_eq. Qed.
Lemma add512 a b : add_w sha512_params a b = (a + b) mod 2 ^ 64.
Proof. unfold add_w. cbn [p_mask sha512_params]. change 0xffffffffffffffff with (N.ones 64). apply N.land_ones. Qed.

(** ** Rounds *)
Definition sv (s : fst8) : st8 := match s with FSt a b c d e f g h => St8 (wv a) (wv b) (wv c) (wv d) (wv e) (wv f) (wv g) (wv h) end.
Definition sok (s : fst8) : Prop := match s with FSt a b c d e f g h => wok a /\ wok b /\ wok c /\ wok d /\ wok e /\ wok f /\ wok g /\ wok h end.
Definition words_of (v : fwin) : list w64 :=
  match v with FWin w0 w1 w2 w3 w4 w5 w6 w7 w8 w9 w10 w11 w12 w13 w14 w15 => [w0; w1; w2; w3; w4; w5; w6; w7; w8; w9; w10; w11; w12; w13; w14; w15] end.
Definition winv (v : fwin) : list N := map wv (words_of v).
Definition winok (v : fwin) : Prop := Forall wok (words_of v).
Lemma fnext_ok {A} v (k : fwin -> A) : winok v -> exists v', fnext v k = k v' /\ winok v' /\ winv v' = tl (winv v) ++ [next_w sha512_params (winv v)].
Proof.
  destruct v as [w0 w1 w2 w3 w4 w5 w6 w7 w8 w9 w10 w11 w12 w13 w14 w15]. intros H. unfold fnext. rewrite norm_eq. eexists. split; [reflexivity|].
  unfold winok, winv in *. cbn [words_of map tl app] in *.
  assert (O : forall n w, nth_error [w0; w1; w2; w3; w4; w5; w6; w7; w8; w9; w10; w11; w12; w13; w14; w15] n = Some w -> wok w).
  { intros n w E. apply nth_error_In in E. rewrite Forall_forall in H. apply H, E. }
  destruct (fg1_ok w14 (O 14%nat w14 eq_refl)) as [G1 V1]. destruct (fg0_ok w1 (O 1%nat w1 eq_refl)) as [G0 V0].
  destruct (wok_below _ G1) as [B1 U1]. destruct (wok_below _ G0) as [B0 U0].
  destruct (wok_below _ (O 9%nat w9 eq_refl)) as [B9 U9]. destruct (wok_below _ (O 0%nat w0 eq_refl)) as [B00 U00].
  destruct (fsum_ok 1 1 _ _ ltac:(lia) B1 B9) as [S1 T1]. destruct (fsum_ok 1 1 _ _ ltac:(lia) B0 B00) as [S0 T0].
  destruct (fsum_ok (1 + 1) (1 + 1) _ _ ltac:(lia) S1 S0) as [S T]. destruct (carry_ok (1 + 1 + (1 + 1)) _ ltac:(lia) S) as [Oo V].
  split.
  - apply Forall_cons_iff in H. destruct H as [_ H]. change (Forall wok ([w1; w2; w3; w4; w5; w6; w7; w8; w9; w10; w11; w12; w13; w14; w15]
      ++ [carry (fsum (fsum (fg1 w14) w9) (fsum (fg0 w1) w0))])). apply Forall_app. split; [exact H|]. constructor; [exact Oo|constructor].
  - do 15 f_equal. rewrite V, T, T1, T0, U1, U9, U0, U00, V1, V0. unfold next_w. cbn [nth]. rewrite !add512.
    rewrite N.add_mod_idemp_l, N.add_mod_idemp_r by discriminate. reflexivity.
Qed.
Lemma fround_ok {A} s kc w (k : fst8 -> A) : sok s -> wok kc -> wok w ->
  exists s', fround s kc w k = k s' /\ sok s' /\ sv s' = round sha512_params (sv s) (wv kc) (wv w).
Proof.
  destruct s as [a b c d e f g h]. intros (Oa & Ob & Oc & Od & Oe & Of & Og & Oh) Okc Ow. unfold fround. rewrite !norm_eq. eexists. split; [reflexivity|].
  destruct (fS1_ok e Oe) as [O1 V1]. destruct (fS0_ok a Oa) as [O0 V0]. destruct (fch_ok e f g Oe Of Og) as [Oc' Vc]. destruct (fmaj_ok a b c Oa Ob Oc) as [Om Vm].
  destruct (wok_below _ O1) as [B1 U1]. destruct (wok_below _ O0) as [B0 U0]. destruct (wok_below _ Oc') as [Bc Uc]. destruct (wok_below _ Om) as [Bm Um].
  destruct (wok_below _ Oh) as [Bh Uh]. destruct (wok_below _ Okc) as [Bk Uk]. destruct (wok_below _ Ow) as [Bw Uw]. destruct (wok_below _ Od) as [Bd Ud].
  destruct (fsum_ok 1 1 _ _ ltac:(lia) Bh B1) as [S1 T1]. destruct (fsum_ok 1 1 _ _ ltac:(lia) Bc Bk) as [S2 T2].
  destruct (fsum_ok (1 + 1) 1 _ _ ltac:(lia) S2 Bw) as [S3 T3]. destruct (fsum_ok (1 + 1) (1 + 1 + 1) _ _ ltac:(lia) S1 S3) as [S4 T4].
  destruct (carry_ok (1 + 1 + (1 + 1 + 1)) _ ltac:(lia) S4) as [Ot Vt]. destruct (wok_below _ Ot) as [Bt Ut].
  destruct (fsum_ok 1 1 _ _ ltac:(lia) Bd Bt) as [S5 T5]. destruct (carry_ok (1 + 1) _ ltac:(lia) S5) as [O5 V5].
  destruct (fsum_ok 1 1 _ _ ltac:(lia) B0 Bm) as [S6 T6]. destruct (fsum_ok 1 (1 + 1) _ _ ltac:(lia) Bt S6) as [S7 T7].
  destruct (carry_ok (1 + (1 + 1)) _ ltac:(lia) S7) as [O7 V7].
  split; [cbn [sok]; auto 10|]. unfold sv, round. cbn [p_s0 p_s1 sha512_params].
  assert (Et : wv (carry (fsum (fsum h (fS1 e)) (fsum (fsum (fch e f g) kc) w)))
    = add_w sha512_params (add_w sha512_params (wv h) (big_sigma sha512_params (14, 18, 41) (wv e)))
        (add_w sha512_params (add_w sha512_params (ch (wv e) (wv f) (wv g)) (wv kc)) (wv w))).
  { rewrite Vt, T4, T1, T3, T2, Uh, U1, Uc, Uk, Uw, V1, Vc, !add512.
    rewrite (N.add_mod_idemp_l (ch _ _ _ + _)) by discriminate. rewrite N.add_mod_idemp_l, N.add_mod_idemp_r by discriminate. reflexivity. }
  cbv zeta. rewrite <- Et. f_equal.
  - rewrite V7, T7, T6, Ut, U0, Um, V0, Vm. rewrite (add512 (wv (carry _))). rewrite (add512 (big_sigma _ _ _)).
    rewrite N.add_mod_idemp_r by discriminate. reflexivity.
  - rewrite V5, T5, Ud, Ut, (add512 (wv d)). reflexivity.
Qed.
Lemma frounds_ok ks : forall v s, Forall wok ks -> winok v -> sok s ->
  sok (frounds ks v s) /\ sv (frounds ks v s) = rounds sha512_params (map wv ks) (winv v) (sv s).
Proof.
  induction ks as [|kc ks IH]; intros v s Hk Hv Hs; [split; [exact Hs|reflexivity]|]. cbn [frounds map rounds].
  apply Forall_cons_iff in Hk. destruct Hk as [Hkc Hk].
  assert (Hf : wok (ffirst v) /\ wv (ffirst v) = hd 0 (winv v)).
  { destruct v. split; [apply Forall_inv in Hv; exact Hv|reflexivity]. }
  destruct (fround_ok s kc (ffirst v) (fun s' => fnext v (fun v' => frounds ks v' s')) Hs Hkc (proj1 Hf)) as (s' & -> & Os & Vs).
  destruct (fnext_ok v (fun v' => frounds ks v' s') Hv) as (v' & -> & Ov & Vv).
  destruct (IH v' s' Hk Ov Os) as [O V]. split; [exact O|]. rewrite V, Vs, Vv, (proj2 Hf). reflexivity.
Qed.
Lemma fks_ok : Forall wok fks /\ map wv fks = k512.
Proof.
  split; [|vm_compute; reflexivity]. unfold fks. repeat (constructor; [split; apply N.ltb_lt; vm_compute; reflexivity|]). constructor.
Qed.
Definition fcomp (v : fwin) (s : fst8) : fst8 := fcompress v s (fun x => x).
Lemma fmap2_eq {A} f s t (k : fst8 -> A) : fmap2 f s t k = k (fmap2 f s t (fun x => x)).
Proof. destruct s, t. unfold fmap2. rewrite !force_eq. reflexivity. Qed.
Lemma fcompress_eq {A} v s (k : fst8 -> A) : fcompress v s k = k (fcomp v s).
Proof. unfold fcomp, fcompress. apply fmap2_eq. Qed.
Lemma fcomp_ok v s : winok v -> sok s ->
  sok (fcomp v s) /\ sv (fcomp v s) = st_add sha512_params (sv s) (rounds sha512_params k512 (winv v) (sv s)).
Proof.
  intros Hv Hs. destruct (frounds_ok fks v s (proj1 fks_ok) Hv Hs) as [O V]. rewrite (proj2 fks_ok) in V. rewrite <- V.
  unfold fcomp, fcompress. clear V. revert O. generalize (frounds fks v s). intros t Ot.
  assert (P : forall x y, wok x -> wok y -> wok (carry (fsum x y)) /\ wv (carry (fsum x y)) = add_w sha512_params (wv x) (wv y)).
  { intros x y Hx Hy. destruct (wok_below _ Hx) as [Bx Ux]. destruct (wok_below _ Hy) as [By Uy].
    destruct (fsum_ok 1 1 _ _ ltac:(lia) Bx By) as [S1 T1]. destruct (carry_ok (1 + 1) _ ltac:(lia) S1) as [O1 V1].
    split; [exact O1|]. rewrite V1, T1, Ux, Uy, add512. reflexivity. }
  destruct s as [a b c d e f g h], t as [a' b' c' d' e' f' g' h']. destruct Hs as (? & ? & ? & ? & ? & ? & ? & ?). destruct Ot as (? & ? & ? & ? & ? & ? & ? & ?).
  unfold fmap2. rewrite !force_eq. split.
  - cbn [sok]. repeat split; apply P; assumption.
  - unfold sv, st_add. f_equal; apply P; assumption.
Qed.

(** ** Messages *)
Lemma chunks_app {A} f n (k r : list A) : length k = n -> (0 < n)%nat -> chunks (S f) n (k ++ r) = k :: chunks f n r.
Proof.
  intros <- Hn. cbn [chunks]. rewrite firstn_app, firstn_all, Nat.sub_diag, skipn_app, skipn_all, Nat.sub_diag. cbn [firstn skipn app].
  rewrite app_nil_r. destruct k; [cbn in Hn; lia|]. reflexivity.
Qed.
Lemma chunks_nil {A} f n : @chunks A f n [] = [].
Proof. destruct f; reflexivity. Qed.
Lemma sha512_two k m : length k = 128%nat -> length (m ++ pad sha512_params (128 + length m)) = 128%nat ->
  sha512 (k ++ m) = digest_of_st sha512_params
    (compress sha512_params (compress sha512_params (st_of_list h512) k) (m ++ pad sha512_params (128 + length m))).
Proof.
  intros Hk Hm. unfold sha512, sha2, absorb. rewrite (app_length k m), Hk, <- !app_assoc. set (b := m ++ _) in *.
  change (block_size sha512_params) with 128%nat. rewrite (app_length k b), Hk, Hm. change (128 + 128)%nat with (S (S 254)).
  rewrite chunks_app by (exact Hk || lia). rewrite <- (app_nil_r b) at 1. rewrite chunks_app by (exact Hm || lia). rewrite chunks_nil. reflexivity.
Qed.
Lemma compress_fast v s block : winok v -> sok s -> winv v = map be_val (chunks 16 8 block) ->
  compress sha512_params (sv s) block = sv (fcomp v s).
Proof. intros Hv Hs E. rewrite (proj2 (fcomp_ok v s Hv Hs)), E. reflexivity. Qed.
Definition dig (s : fst8) : bytes := digest_of_st sha512_params (sv s).
Lemma be8 x : x < 2 ^ 64 -> be_val (be_bytes 8 x) = x.
Proof. intros H. rewrite be_val_be_bytes. apply N.mod_small. exact H. Qed.
Lemma pad_192 : pad sha512_params 192 = be_bytes 8 0x8000000000000000 ++ be_bytes 8 0 ++ be_bytes 8 0 ++ be_bytes 8 0 ++ be_bytes 8 0
  ++ be_bytes 8 0 ++ be_bytes 8 0 ++ be_bytes 8 1536 ++ [].
Proof. vm_compute. reflexivity. Qed.
Lemma dig_block s : map be_val (chunks 16 8 (dig s ++ pad sha512_params 192)) = winv (fblock s).
Proof.
  rewrite pad_192. destruct s as [a b c d e f g h]. unfold dig, digest_of_st. cbn [sv list_of_st flat_map p_wb sha512_params].
  rewrite <- !app_assoc. cbn [app]. do 16 (rewrite chunks_app; [|apply be_bytes_length|lia]).
  cbn [chunks map]. rewrite !be8 by first [apply wv_lt | reflexivity]. reflexivity.
Qed.
Lemma dig_block_length s : length (dig s ++ pad sha512_params 192) = 128%nat.
Proof. rewrite pad_192. destruct s. reflexivity. Qed.
Lemma dig_length s : length (dig s) = 64%nat.
Proof. destruct s. reflexivity. Qed.
Lemma fblock_ok s : sok s -> winok (fblock s).
Proof.
  destruct s as [a b c d e f g h]. intros (Oa & Ob & Oc & Od & Oe & Of & Og & Oh). unfold winok, fblock. cbn [words_of].
  repeat (constructor; [first [assumption | split; apply N.ltb_lt; vm_compute; reflexivity]|]). constructor.
Qed.
(** One hash of a key block and a digest. *)
Lemma sha512_dig k i s : length k = 128%nat -> sok i -> sok s -> compress sha512_params (st_of_list h512) k = sv i ->
  sha512 (k ++ dig s) = dig (fcomp (fblock s) i) /\ sok (fcomp (fblock s) i).
Proof.
  intros Hk Hi Hs E. split; [|apply fcomp_ok; [apply fblock_ok, Hs|exact Hi]].
  rewrite sha512_two; [|exact Hk|rewrite dig_length; apply dig_block_length]. rewrite E, dig_length. change (128 + 64)%nat with 192%nat.
  rewrite (compress_fast (fblock s) i); [reflexivity|apply fblock_ok, Hs|exact Hi|]. symmetry. apply dig_block.
Qed.
Lemma be_bytes_lxor n : forall x y, be_bytes n (N.lxor x y) = xor_bytes (be_bytes n x) (be_bytes n y).
Proof.
  induction n as [|n IH]; intros x y; [reflexivity|]. cbn [be_bytes]. unfold xor_bytes in *.
  assert (C : forall (a b : bytes) p q, length a = length b -> combine (a ++ [p]) (b ++ [q]) = combine a b ++ [(p, q)]).
  { induction a as [|u a IHa]; intros [|u' b] p q L; try discriminate L; [reflexivity|]. cbn. f_equal. apply IHa. injection L as L. exact L. }
  rewrite C by (rewrite !be_bytes_length; reflexivity). rewrite map_app, <- IH. cbn [map fst snd].
  change 256 with (2 ^ 8). rewrite <- !N.shiftr_div_pow2, N.shiftr_lxor, <- !N.land_ones. f_equal. f_equal.
  apply N.bits_inj. intros i. rewrite !N.land_spec, !N.lxor_spec, !N.land_spec. destruct (N.testbit x i), (N.testbit y i), (N.testbit (N.ones 8) i); reflexivity.
Qed.
Lemma xor_bytes_app a b c d : length a = length c -> xor_bytes (a ++ b) (c ++ d) = xor_bytes a c ++ xor_bytes b d.
Proof.
  unfold xor_bytes. revert c. induction a as [|u a IH]; intros [|u' c] L; try discriminate L; [reflexivity|]. cbn. f_equal. apply IH. injection L as L. exact L.
Qed.
Definition fxors (s t : fst8) : fst8 := fmap2 fxor s t (fun x => x).
Lemma fxors_ok s t : sok s -> sok t -> sok (fxors s t) /\ dig (fxors s t) = xor_bytes (dig s) (dig t).
Proof.
  destruct s as [a b c d e f g h], t as [a' b' c' d' e' f' g' h']. intros Hs Ht. destruct Hs as (? & ? & ? & ? & ? & ? & ? & ?). destruct Ht as (? & ? & ? & ? & ? & ? & ? & ?).
  unfold fxors, fmap2. rewrite !force_eq. split; [cbn [sok]; repeat split; apply fxor_ok; assumption|].
  unfold dig, digest_of_st. cbn [sv list_of_st flat_map p_wb sha512_params].
  rewrite !xor_bytes_app by (rewrite !be_bytes_length; reflexivity). rewrite <- !be_bytes_lxor.
  assert (X : forall x y, wok x -> wok y -> wv (fxor x y) = N.lxor (wv x) (wv y)) by (intros x y Hx Hy; apply fxor_ok; assumption).
  rewrite !X by assumption. reflexivity.
Qed.

Section Pbkdf2.
  Variables (pw : bytes) (i o : fst8).
  Hypothesis Oi : sok i.
  Hypothesis Oo : sok o.
  Hypothesis Ei : compress sha512_params (st_of_list h512) (map (N.lxor 0x36) (hmac_key sha512 128 pw)) = sv i.
  Hypothesis Eo : compress sha512_params (st_of_list h512) (map (N.lxor 0x5c) (hmac_key sha512 128 pw)) = sv o.

  Lemma key_length : length (hmac_key sha512 128 pw) = 128%nat.
  Proof.
    unfold hmac_key. rewrite app_length, repeat_length. destruct (Nat.ltb_spec 128 (length pw)) as [H|H]; [rewrite sha512_length; reflexivity|lia].
  Qed.
  Lemma hmac_dig s : sok s -> exists u, hmac_sha512 pw (dig s) = dig u /\ sok u /\ u = fcomp (fblock (fcomp (fblock s) i)) o.
  Proof.
    intros Hs. pose proof key_length as L. unfold hmac_sha512, hmac.
    destruct (sha512_dig _ i s (eq_trans (map_length _ _) L) Oi Hs Ei) as [E1 O1]. rewrite E1.
    destruct (sha512_dig _ o _ (eq_trans (map_length _ _) L) Oo O1 Eo) as [E2 O2]. rewrite E2.
    eexists. split; [reflexivity|]. split; [exact O2|reflexivity].
  Qed.
  Lemma fiter_ok c : forall u acc, sok u -> sok acc -> pbkdf2_iter (hmac_sha512 pw) c (dig u) (dig acc) = dig (fiter i o c u acc).
  Proof.
    induction c as [|c IH]; intros u acc Hu Ha; [reflexivity|]. cbn [pbkdf2_iter fiter].
    destruct (hmac_dig u Hu) as (u' & -> & Ou & E). rewrite fcompress_eq, fcompress_eq, <- E. rewrite fmap2_eq. fold (fxors acc u').
    destruct (fxors_ok acc u' Ha Ou) as [Ox Ex]. rewrite <- Ex. apply IH; assumption.
  Qed.
  Lemma pbkdf2_fast salt v : length ((salt ++ [0; 0; 0; 1]) ++ pad sha512_params (128 + length (salt ++ [0; 0; 0; 1]))) = 128%nat ->
    winok v -> winv v = map be_val (chunks 16 8 ((salt ++ [0; 0; 0; 1]) ++ pad sha512_params (128 + length (salt ++ [0; 0; 0; 1])))) ->
    forall c, pbkdf2 hmac_sha512 64 pw salt (S c) 64
      = dig (fiter i o c (fcomp (fblock (fcomp v i)) o) (fcomp (fblock (fcomp v i)) o)).
  Proof.
    intros Hl Hv Ev c. pose proof key_length as L. unfold pbkdf2. change (Nat.div (64 + 64 - 1) 64) with 1%nat. cbn [seq flat_map]. rewrite app_nil_r.
    unfold pbkdf2_block. change (be_bytes 4 (N.of_nat 1)) with [0; 0; 0; 1]. replace (S c - 1)%nat with c by lia.
    assert (E1 : hmac_sha512 pw (salt ++ [0; 0; 0; 1]) = dig (fcomp (fblock (fcomp v i)) o)).
    { unfold hmac_sha512, hmac. rewrite (sha512_two _ (salt ++ [0; 0; 0; 1]) (eq_trans (map_length _ _) L) Hl), Ei.
      rewrite (compress_fast v i _ Hv Oi Ev). fold (dig (fcomp v i)).
      apply (sha512_dig _ o _ (eq_trans (map_length _ _) L) Oo (proj1 (fcomp_ok v i Hv Oi)) Eo). }
    assert (O1 : sok (fcomp (fblock (fcomp v i)) o)).
    { apply fcomp_ok; [apply fblock_ok, fcomp_ok; assumption|exact Oo]. }
    cbv zeta. rewrite E1, fiter_ok by exact O1. apply firstn_all2. rewrite dig_length. reflexivity.
  Qed.
End Pbkdf2.

(** ** From bytes *)
Lemma nv_of_N x : x < 2 ^ 63 -> nv (of_Z (Z.of_N x)) = x.
Proof.
  intros H. apply of_N_inj'. rewrite nv_Z, of_Z_spec. apply Z.mod_small. change wB with (Z.of_N (2 ^ 63)). lia.
Qed.
Lemma fword_ok x : x < 2 ^ 64 -> wok (fword x) /\ wv (fword x) = x.
Proof.
  intros H. unfold fword, wok, wv. rewrite N.shiftr_div_pow2, N.land_ones.
  assert (H1 : x / 2 ^ 32 < 2 ^ 32) by (apply N.div_lt_upper_bound; [discriminate|exact H]).
  assert (H2 : x mod 2 ^ 32 < 2 ^ 32) by (apply N.mod_lt; discriminate).
  assert (E : 2 ^ 32 < 2 ^ 63) by reflexivity. rewrite !nv_of_N by (eapply N.lt_trans; eassumption). split; [split; assumption|].
  rewrite two_val by assumption. rewrite N.mul_comm. symmetry. apply N.div_mod. discriminate.
Qed.
Lemma fwin_of_ok block : bytes_ok block -> length block = 128%nat ->
  winok (fwin_of block) /\ winv (fwin_of block) = map be_val (chunks 16 8 block).
Proof.
  intros Hb Hl. pose proof (chunks_length 16 8 block 16 ltac:(lia) Hl ltac:(lia)) as L.
  assert (B : Forall (fun x => x < 2 ^ 64) (map be_val (chunks 16 8 block))).
  { apply Forall_map. pose proof (chunks_has_bytes 16 8 block 16 ltac:(lia) Hb Hl) as H. revert H. apply Forall_impl. intros c [Hc1 Hc2].
    replace (2 ^ 64) with (256 ^ len c) by (unfold len; rewrite Hc1; reflexivity). apply be_val_lt, Hc2. }
  unfold fwin_of. revert B. rewrite <- (map_length be_val) in L. generalize dependent (map be_val (chunks 16 8 block)). clear. intros l L B.
  do 16 (destruct l as [|? l]; [discriminate L|]). destruct l; [|discriminate L].
  rewrite !Forall_cons_iff in B. unfold winok, winv. cbn [words_of nth map].
  split; [repeat (constructor; [apply fword_ok; tauto|]); constructor|]. do 15 (f_equal; [apply fword_ok; tauto|]). f_equal. apply fword_ok. tauto.
Qed.
Lemma fiv_ok : sok fiv /\ sv fiv = st_of_list h512.
Proof. split; [|vm_compute; reflexivity]. repeat split; apply N.ltb_lt; vm_compute; reflexivity. Qed.
Lemma pad_block m : (length m <= 111)%nat -> length (m ++ pad sha512_params (128 + length m)) = 128%nat.
Proof.
  intros H. rewrite app_length. unfold pad. change (block_size sha512_params) with 128%nat. change (2 * p_wb sha512_params)%nat with 16%nat.
  cbn [length]. rewrite app_length, repeat_length, be_bytes_length.
  replace ((128 + length m) mod 128)%nat with (length m).
  - replace (2 * 128 - 1 - 16 - length m)%nat with (111 - length m + 1 * 128)%nat by lia. rewrite Nat.mod_add by lia. rewrite Nat.mod_small by lia. lia.
  - replace (128 + length m)%nat with (length m + 1 * 128)%nat by lia. rewrite Nat.mod_add by lia. symmetry. apply Nat.mod_small. lia.
Qed.
Lemma fpbkdf2_ok pw salt c : bytes_ok pw -> bytes_ok salt -> (length pw <= 128)%nat -> (length salt <= 107)%nat ->
  pbkdf2 hmac_sha512 64 pw salt (S c) 64 = dig (fpbkdf2 pw salt c).
Proof.
  intros Hp Hs Lp Ls. unfold fpbkdf2. rewrite !fcompress_eq. set (k := pw ++ repeat 0 (128 - length pw)).
  assert (Ek : hmac_key sha512 128 pw = k).
  { unfold hmac_key. destruct (Nat.ltb_spec 128 (length pw)); [lia|]. reflexivity. }
  assert (Lk : length k = 128%nat) by (unfold k; rewrite app_length, repeat_length; lia).
  assert (Bk : bytes_ok k).
  { apply bytes_ok_app. split; [exact Hp|]. apply Forall_forall. intros x Hx. apply repeat_spec in Hx. subst x. reflexivity. }
  assert (Bx : forall c, c < 256 -> bytes_ok (map (N.lxor c) k)).
  { intros d Hd. apply Forall_map. revert Bk. apply Forall_impl. intros x Hx. apply lxor_byte; assumption. }
  assert (Bm : bytes_ok ((salt ++ [0; 0; 0; 1]) ++ pad sha512_params (128 + length (salt ++ [0; 0; 0; 1])))).
  { apply bytes_ok_app. split; [apply bytes_ok_app; split; [exact Hs|repeat constructor]|]. unfold pad. constructor; [reflexivity|].
    apply bytes_ok_app. split; [|apply be_bytes_ok]. apply Forall_forall. intros x Hx. apply repeat_spec in Hx. subst x. reflexivity. }
  assert (Lm : length ((salt ++ [0; 0; 0; 1]) ++ pad sha512_params (128 + length (salt ++ [0; 0; 0; 1]))) = 128%nat).
  { apply pad_block. rewrite app_length. cbn [length]. lia. }
  destruct (fwin_of_ok _ (Bx 0x36 eq_refl) (eq_trans (map_length _ _) Lk)) as [Wi Vi].
  destruct (fwin_of_ok _ (Bx 0x5c eq_refl) (eq_trans (map_length _ _) Lk)) as [Wo Vo].
  destruct (fwin_of_ok _ Bm Lm) as [Wm Vm]. destruct fiv_ok as [Of Ef].
  cbv zeta. apply pbkdf2_fast; try assumption.
  - apply fcomp_ok; assumption.
  - apply fcomp_ok; assumption.
  - rewrite Ek, <- Ef. apply compress_fast; assumption.
  - rewrite Ek, <- Ef. apply compress_fast; assumption.
Qed.
