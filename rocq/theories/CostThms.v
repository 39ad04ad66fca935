(** Proofs about the work on texts and paths of any length (restated in PropCost.v). *)
From Coq Require Import String ZifyBool ZifyNat ZifyN.
From Verif Require Import Outcome Bytes Str Hash HashLemmas Base58 Base58Proofs Secp SpecSecp ModelBip32 SpecBip32 ModelMemory MemoryThms ModelCost SpecCost.
From Verif Require Import KeyTextThms DeriveThms.
Open Scope N_scope.

Lemma push_carry_cost_fst cap : forall fuel out c, fst (push_carry_cost fuel cap out c) = push_carry fuel 256 cap out c.
Proof.
  induction fuel as [|f IH]; intros out c; cbn [push_carry_cost push_carry]; destruct (c =? 0); try reflexivity.
  destruct (len out =? cap); [reflexivity|]. unfold and_then, take. rewrite <- IH. destruct (push_carry_cost f cap _ _); reflexivity.
Qed.
Lemma decode_loop_cost_fst cap : forall input out, fst (decode_loop_cost cap input out) = fst (decode_loop_mem cap input out).
Proof.
  induction input as [|c input IH]; intros out; cbn [decode_loop_cost decode_loop_mem]; [reflexivity|].
  destruct (127 <? c); [reflexivity|]. destruct (b58_digit c) as [d|]; [|reflexivity].
  destruct (mul_add 58 256 out d) as [o carry]. pose proof (push_carry_cost_fst cap (N.size_nat carry) o carry) as P.
  rewrite <- push_carry_mem_fst in P. unfold and_then, take.
  destruct (push_carry_cost _ cap o carry) as [[o'|e|] w]; destruct (push_carry_mem _ 256 cap o carry) as [r b]; cbn [fst] in P; subst r; [|reflexivity..].
  rewrite <- IH. destruct (decode_loop_cost cap input o'); reflexivity.
Qed.
Lemma push_zeros_cost_fst cap : forall input out, fst (push_zeros_cost cap input out) = fst (push_zeros_mem cap input out).
Proof.
  induction input as [|c input IH]; intros out; cbn [push_zeros_cost push_zeros_mem]; [reflexivity|].
  destruct (c =? 49); [|reflexivity]. destruct (len out =? cap); [reflexivity|]. unfold and_then, take. rewrite <- IH. destruct (push_zeros_cost cap input _); reflexivity.
Qed.
Lemma decode_check_cost_fst cap s : fst (decode_check_cost cap s) = fst (decode_check_mem cap s).
Proof.
  unfold decode_check_cost, decode_check_mem, decode_into_mem.
  pose proof (decode_loop_cost_fst cap s []) as L. destruct (decode_loop_cost cap s []) as [[out|e|] w]; destruct (decode_loop_mem cap s []) as [r b]; cbn [fst] in L; subst r; [|reflexivity..].
  cbn [and_then]. pose proof (push_zeros_cost_fst cap s out) as Z.
  destruct (push_zeros_cost cap s out) as [[out'|e|] w']; destruct (push_zeros_mem cap s out) as [r b']; cbn [fst] in Z; subst r; [|reflexivity..].
  cbn [and_then take]. cbv zeta. destruct (len (rev out') <? 4); reflexivity.
Qed.

(** ** The number of steps *)
Lemma push_carry_cost_steps : forall fuel out c, len out <= 82 -> let '(r, w) := push_carry_cost fuel 82 out c in
  hash_blocks w = 0 /\ match r with Ok o => len o = len out + loop_steps w /\ len o <= 82 | _ => loop_steps w <= 83 - len out end.
Proof.
  induction fuel as [|f IH]; intros out c H; cbn [push_carry_cost]; destruct (c =? 0); cbn [no_work steps loop_steps hash_blocks]; try (split; [reflexivity|lia]).
  destruct (N.eqb_spec (len out) 82) as [E|E]; [cbn [loop_steps hash_blocks steps]; split; [reflexivity|lia]|].
  unfold and_then, take. specialize (IH (out ++ [c mod 256]) (c / 256)). assert (L : len (out ++ [c mod 256]) = len out + 1) by (rewrite len_app; reflexivity).
  specialize (IH ltac:(lia)). destruct (push_carry_cost f 82 _ _) as [r w]. cbn [plus_work steps loop_steps hash_blocks]. destruct IH as [Hh IH].
  split; [lia|]. destruct r; lia.
Qed.
Lemma lev_bound o : Forall (fun d => d < 256) o -> lev 256 o < 256 ^ len o.
Proof.
  induction 1 as [|d o Hd _ IH]; [reflexivity|]. cbn [lev]. rewrite len_cons_pow. nia.
Qed.
Lemma pow_58_112 : 256 ^ 82 <= 58 ^ 112.
Proof. vm_compute. intros H; discriminate H. Qed.
Lemma few_digits o m : Forall (fun d => d < 256) o -> len o <= 82 -> 58 ^ m <= lev 256 o -> m <= 111.
Proof.
  intros F L H. pose proof (lev_bound o F) as B. destruct (N.le_gt_cases m 111) as [G|G]; [exact G|exfalso].
  assert (P1 : 256 ^ len o <= 256 ^ 82) by (apply N.pow_le_mono_r; lia).
  assert (P2 : 58 ^ 112 <= 58 ^ m) by (apply N.pow_le_mono_r; lia). pose proof pow_58_112. lia.
Qed.
Lemma decode_loop_steps_from : forall input out m, Forall (fun d => d < 256) out -> len out <= 82 -> 58 ^ m <= lev 256 out ->
  let '(r, w) := decode_loop_cost 82 input out in
  hash_blocks w = 0 /\ loop_steps w <= 83 * (112 - m) + 83 - len out /\ (forall o, r = Ok o -> len o <= 82).
Proof.
  induction input as [|c input IH]; intros out m F L V; cbn [decode_loop_cost]; pose proof (few_digits out m F L V) as Hm.
  - cbn. split; [reflexivity|]. split; [lia|]. intros o E. injection E as <-. exact L.
  - assert (X : forall e : b58_error, hash_blocks (steps 1) = 0 /\ loop_steps (steps 1) <= 83 * (112 - m) + 83 - len out /\ (forall o : list N, Err e = Ok o -> len o <= 82)).
    { intros e. cbn. split; [reflexivity|]. split; [lia|]. intros o E; discriminate E. }
    destruct (127 <? c); [apply X|]. destruct (b58_digit c) as [d|]; [|apply X].
    destruct (mul_add 58 256 out d) as [o1 carry] eqn:M. destruct (mul_add_ok 58 256 out ltac:(lia) _ _ _ M) as (L1 & F1 & V1).
    assert (Lo : len o1 = len out) by (unfold len; rewrite L1; reflexivity).
    pose proof (push_carry_ok 256 82 ltac:(lia) (N.size_nat carry) o1 carry (size_nat_lt carry) F1) as P.
    pose proof (push_carry_cost_fst 82 (N.size_nat carry) o1 carry) as Q.
    pose proof (push_carry_cost_steps (N.size_nat carry) o1 carry ltac:(lia)) as S.
    unfold and_then, take. destruct (push_carry_cost (N.size_nat carry) 82 o1 carry) as [[o2|e|] w]; cbn [fst] in Q; rewrite <- Q in P; destruct S as [S0 S].
    + destruct P as (F2 & V2 & _). destruct S as [S1 S2].
      assert (V3 : 58 ^ (m + 1) <= lev 256 o2). { rewrite N.pow_add_r. change (58 ^ 1) with 58. rewrite V2, Lo, V1. nia. }
      specialize (IH o2 (m + 1) F2 S2 V3). destruct (decode_loop_cost 82 input o2) as [r w']. cbn [plus_work steps loop_steps hash_blocks].
      destruct IH as (I0 & I1 & I2). pose proof (few_digits o2 (m + 1) F2 S2 V3). split; [lia|]. split; [lia|exact I2].
    + cbn [plus_work steps loop_steps hash_blocks]. split; [lia|]. split; [lia|]. intros o E; discriminate E.
    + destruct P.
Qed.
Lemma b58_digit_lt c d : b58_digit c = Some d -> d < 58.
Proof. intros H. exact (proj1 (b58_digit_sound c d H)). Qed.
Lemma push_one d : 0 < d -> d < 58 -> push_carry_cost (N.size_nat d) 82 [] d = (Ok [d], steps 1).
Proof.
  intros H H'. destruct d as [|q]; [lia|]. cbn [N.size_nat]. destruct (Pos.size_nat q) as [|f] eqn:E; [destruct q; discriminate E|].
  cbn [push_carry_cost N.eqb len length]. unfold len. cbn [length N.of_nat N.eqb]. unfold and_then, take. cbn [app].
  rewrite N.div_small, N.mod_small by lia. destruct f; reflexivity.
Qed.
Lemma decode_loop_steps : forall input, let '(r, w) := decode_loop_cost 82 input [] in
  hash_blocks w = 0 /\ loop_steps w <= leading_ones input + 9380 /\ (forall o, r = Ok o -> len o <= 82).
Proof.
  induction input as [|c input IH]; cbn [decode_loop_cost leading_ones].
  - cbn. split; [reflexivity|]. split; [lia|]. intros o E. injection E as <-. cbn. lia.
  - assert (X : forall e : b58_error, forall k, hash_blocks (steps 1) = 0 /\ loop_steps (steps 1) <= k + 9380 /\ (forall o : list N, Err e = Ok o -> len o <= 82)).
    { intros e k. cbn. split; [reflexivity|]. split; [lia|]. intros o E; discriminate E. }
    destruct (127 <? c); [apply X|]. destruct (b58_digit c) as [d|] eqn:D; [|apply X]. rewrite (b58_digit_zero c d D).
    cbn [mul_add]. destruct (N.eqb_spec d 0) as [->|Hd].
    + unfold and_then, take. cbn [N.size_nat push_carry_cost N.eqb]. destruct (decode_loop_cost 82 input []) as [r w].
      destruct IH as (I0 & I1 & I2). cbn [plus_work steps no_work loop_steps hash_blocks len length N.of_nat]. split; [lia|]. split; [unfold len; cbn [length N.of_nat]; lia|exact I2].
    + pose proof (b58_digit_lt c d D). rewrite push_one by lia. unfold and_then, take.
      assert (F : Forall (fun x => x < 256) [d]) by (constructor; [lia|constructor]).
      pose proof (decode_loop_steps_from input [d] 0 F) as S. assert (L1 : len [d] = 1) by reflexivity. rewrite L1 in S. specialize (S ltac:(lia)).
      assert (V : 58 ^ 0 <= lev 256 [d]) by (cbn [lev]; change (58 ^ 0) with 1; lia). specialize (S V).
      destruct (decode_loop_cost 82 input [d]) as [r w]. destruct S as (S0 & S1 & S2).
      cbn [plus_work steps loop_steps hash_blocks]. unfold len. cbn [length N.of_nat]. split; [lia|]. split; [lia|exact S2].
Qed.
Lemma push_zeros_steps : forall input out, len out <= 82 -> let '(r, w) := push_zeros_cost 82 input out in
  hash_blocks w = 0 /\ loop_steps w <= 83 - len out /\ (forall o, r = Ok o -> len o <= 82).
Proof.
  induction input as [|c input IH]; intros out L; cbn [push_zeros_cost].
  - cbn [steps no_work loop_steps hash_blocks]. split; [reflexivity|]. split; [lia|]. intros o E. injection E as <-. exact L.
  - destruct (c =? 49).
    + destruct (N.eqb_spec (len out) 82) as [E|E].
      * cbn [steps no_work loop_steps hash_blocks]. split; [reflexivity|]. split; [lia|]. intros o E'; discriminate E'.
      * unfold and_then, take. assert (L' : len (out ++ [0]) = len out + 1) by (rewrite len_app; reflexivity).
        specialize (IH (out ++ [0]) ltac:(lia)). destruct (push_zeros_cost 82 input (out ++ [0])) as [r w]. destruct IH as (I0 & I1 & I2).
        cbn [plus_work steps loop_steps hash_blocks]. split; [lia|]. split; [lia|exact I2].
    + cbn [steps no_work loop_steps hash_blocks]. split; [reflexivity|]. split; [lia|]. intros o E. injection E as <-. exact L.
Qed.
Lemma blocks_small m : len m <= 78 -> sha256_blocks m <= 2.
Proof. intros H. unfold sha256_blocks. apply N.lt_succ_r. apply N.div_lt_upper_bound; lia. Qed.
Lemma blocks_hash m : sha256_blocks (sha256 m) = 1.
Proof. unfold sha256_blocks, len. rewrite sha256_length. reflexivity. Qed.
Lemma decode_check_steps s : let '(r, w) := decode_check_cost 82 s in
  loop_steps w <= leading_ones s + 9549 /\ hash_blocks w <= 3.
Proof.
  unfold decode_check_cost. pose proof (decode_loop_steps s) as A. destruct (decode_loop_cost 82 s []) as [[out|e|] w]; destruct A as (A0 & A1 & A2);
    cbn [and_then]; [|split; lia..].
  specialize (A2 out eq_refl). pose proof (push_zeros_steps s out A2) as B. destruct (push_zeros_cost 82 s out) as [[out'|e|] w']; destruct B as (B0 & B1 & B2);
    cbn [and_then plus_work loop_steps hash_blocks]; [|split; lia..].
  specialize (B2 out' eq_refl). cbv zeta. cbn [and_then take].
  destruct (len (rev out') <? 4) eqn:E4; cbn [plus_work steps no_work loop_steps hash_blocks]; [split; lia|].
  assert (L : len (rev out') = len out') by (unfold len; rewrite rev_length; reflexivity). rewrite L in E4.
  assert (P : sha256_blocks (firstn (length (rev out') - 4) (rev out')) <= 2).
  { apply blocks_small. unfold len in *. rewrite firstn_length, rev_length in *. lia. }
  revert P. generalize (firstn (length (rev out') - 4) (rev out')). intros payload P. rewrite blocks_hash.
  unfold take. cbn [plus_work steps loop_steps hash_blocks]. split; lia.
Qed.

(** C157 *)
(** The counter changes nothing. *)
Lemma c157_same_results : forall s : str, fst (ek_from_str_cost s) = ek_from_str s.
Proof.
  intros s. unfold ek_from_str_cost, ek_from_str. rewrite <- decode_check_mem_fst, <- decode_check_cost_fst.
  destruct (decode_check_cost (N.of_nat BYTE_SIZE + 4) (utf8 s)) as [r w]. cbn [fst]. destruct (from_b58 r); reflexivity.
Qed.
Lemma leading_ones_utf8 s : leading_ones (utf8 s) = leading_ones s.
Proof.
  induction s as [|c s IH]; [reflexivity|]. unfold utf8. cbn [flat_map]. change (flat_map utf8_char s) with (utf8 s). cbn [leading_ones].
  destruct (N.eqb_spec c 49) as [->|H].
  - cbn [utf8_char]. change (utf8_char 49) with [49]. cbn [app leading_ones]. rewrite IH. reflexivity.
  - unfold utf8_char. destruct (N.ltb_spec c 128) as [Hc|Hc]; [cbn [app leading_ones]; rewrite (proj2 (N.eqb_neq c 49) H); reflexivity|].
    assert (X : forall a l, 192 <= a -> leading_ones (a :: l) = 0) by (intros a l Ha; cbn [leading_ones]; rewrite (proj2 (N.eqb_neq a 49)); [reflexivity|lia]).
    destruct (c <? 2048); [|destruct (c <? 65536)]; cbn [app]; apply X; lia.
Qed.
(** However long the text is, the decoder stops after its buffer is full: only ones at its beginning cost a step
    each, all else is bounded. *)
Lemma c157_bounded_work : forall s : str,
  loop_steps (snd (ek_from_str_cost s)) <= leading_ones s + 9627 /\ hash_blocks (snd (ek_from_str_cost s)) <= 3.
Proof.
  intros s. unfold ek_from_str_cost. change (N.of_nat BYTE_SIZE + 4) with 82. pose proof (decode_check_steps (utf8 s)) as D. rewrite leading_ones_utf8 in D.
  destruct (decode_check_cost 82 (utf8 s)) as [r w]. destruct D as [D1 D2].
  destruct (from_b58 r); cbn [snd plus_work steps loop_steps hash_blocks]; split; lia.
Qed.
Lemma leading_ones_le s : leading_ones s <= len s.
Proof. induction s as [|c s IH]; [reflexivity|]. cbn [leading_ones]. unfold len in *. cbn [length]. destruct (c =? 49); lia. Qed.
Lemma c157_linear_work : forall s : str, loop_steps (snd (ek_from_str_cost s)) <= len s + 9627.
Proof. intros s. pose proof (c157_bounded_work s). pose proof (leading_ones_le s). lia. Qed.

Example c157_example : snd (ek_from_str_cost ex_text) = mkWork 4882 3
  /\ ek_from_str_cost (repeat 49 1000) = (Err EBase58, mkWork 1083 0)
  /\ ek_from_str_cost (repeat 122 1000) = (Err EBase58, mkWork 4802 0).
Proof.
  split; [vm_compute; reflexivity|]. split; vm_compute; reflexivity.
Qed.

(** ** Paths *)
Lemma fold_count_err {A} (step : A -> N -> R32 A * calls) p (r : R32 A) w : (forall a, r <> Ok a) ->
  fold_left (fun acc c => match acc with
     | (Ok a, w) => let '(r, w') := step a c in (r, plus_calls w w') | (Err e, w) => (Err e, w) | (Panic, w) => (Panic, w) end) p (r, w)
  = (r, w).
Proof. intros H. induction p as [|c p IH]; [reflexivity|]. cbn [fold_left]. destruct r as [a| |]; [destruct (H a eq_refl)|exact IH..]. Qed.
Lemma fold_err {A} (f : A -> N -> R32 A) p (r : R32 A) : (forall a, r <> Ok a) ->
  fold_left (fun maybe_key c => let* key := maybe_key in f key c) p r = r.
Proof. intros H. induction p as [|c p IH]; [reflexivity|]. cbn [fold_left]. destruct r as [a| |]; [destruct (H a eq_refl)|exact IH..]. Qed.
Lemma fold_count_spec {A} (step : A -> N -> R32 A * calls) (f : A -> N -> R32 A) (dep : A -> N) (k : N) :
  (forall a c, fst (step a c) = f a c) ->
  (forall a c, dep a <= 255 -> let '(r, w) := step a c in
     (hmac_calls w = 0 /\ curve_calls w = 0 \/ dep a < 255 /\ hmac_calls w = 1 /\ curve_calls w <= k) /\ forall b, r = Ok b -> hmac_calls w = 1 /\ dep b = dep a + 1) ->
  forall p r w0, let '(r', w) := fold_left (fun acc c => match acc with
     | (Ok a, w) => let '(r, w') := step a c in (r, plus_calls w w') | (Err e, w) => (Err e, w) | (Panic, w) => (Panic, w) end) p (r, w0) in
  r' = fold_left (fun maybe_key c => let* key := maybe_key in f key c) p r
  /\ (forall a, r = Ok a -> dep a <= 255 -> hmac_calls w <= hmac_calls w0 + (255 - dep a) /\ curve_calls w <= curve_calls w0 + k * (255 - dep a)
       /\ forall b, r' = Ok b -> hmac_calls w = hmac_calls w0 + len p).
Proof.
  intros Hf Hs. induction p as [|c p IH]; intros r w0.
  - cbn [fold_left]. split; [reflexivity|]. intros a _ _. split; [lia|]. split; [apply N.le_add_r|]. intros b _. unfold len. cbn [length]. lia.
  - destruct r as [a|e|].
    + cbn [fold_left bind]. specialize (Hf a c). pose proof (Hs a c) as Hs'. destruct (step a c) as [r1 w1]. cbn [fst] in Hf. subst r1.
      specialize (IH (f a c) (plus_calls w0 w1)). destruct (fold_left _ p (f a c, plus_calls w0 w1)) as [r' w]  eqn:Ef. destruct IH as [I1 I2]. split; [exact I1|].
      intros a' E Hd. injection E as <-. destruct (Hs' Hd) as [H1 H2]. destruct (f a c) as [b|e|] eqn:Efa.
      * destruct (H2 b eq_refl) as [H3 H4]. assert (Hd' : dep a < 255) by lia. destruct (I2 b eq_refl ltac:(lia)) as (J1 & J2 & J3). cbn [plus_calls hmac_calls curve_calls] in *.
        assert (Hk : curve_calls w1 <= k) by lia. split; [lia|]. split; [|intros b' E; specialize (J3 b' E); unfold len in *; cbn [length]; lia].
        replace (255 - dep a) with (1 + (255 - dep b)) by lia. rewrite N.mul_add_distr_l, N.mul_1_r. revert J2. generalize (k * (255 - dep b)). intros z J2. lia.
      * rewrite fold_count_err in Ef by (intros; discriminate). injection Ef as <- <-. cbn [plus_calls hmac_calls curve_calls]. split; [lia|]. split; [|intros b E; discriminate E].
        destruct H1 as [[_ H1]|(H1 & _ & H3)]; [rewrite H1, N.add_0_r; apply N.le_add_r|]. replace (255 - dep a) with (1 + (254 - dep a)) by lia. rewrite N.mul_add_distr_l, N.mul_1_r. generalize (k * (254 - dep a)). intros z. lia.
      * rewrite fold_count_err in Ef by (intros; discriminate). injection Ef as <- <-. cbn [plus_calls hmac_calls curve_calls]. split; [lia|]. split; [|intros b E; discriminate E].
        destruct H1 as [[_ H1]|(H1 & _ & H3)]; [rewrite H1, N.add_0_r; apply N.le_add_r|]. replace (255 - dep a) with (1 + (254 - dep a)) by lia. rewrite N.mul_add_distr_l, N.mul_1_r. generalize (k * (254 - dep a)). intros z. lia.
    + rewrite fold_count_err, fold_err by (intros; discriminate). split; [reflexivity|]. intros a E; discriminate E.
    + rewrite fold_count_err, fold_err by (intros; discriminate). split; [reflexivity|]. intros a E; discriminate E.
Qed.
Lemma add_depth d : checked_add 8 d 1 = if d <? 255 then Some (d + 1) else None.
Proof. unfold checked_add. change (2 ^ 8) with 256. destruct (N.ltb_spec d 255); destruct (N.ltb_spec (d + 1) 256); try reflexivity; lia. Qed.
Lemma xprv_count_fst hmac x c : fst (xprv_derive_child_count hmac x c) = xprv_derive_child_with hmac x c.
Proof.
  unfold xprv_derive_child_count, xprv_derive_child_with. destruct (checked_add 8 _ 1); cbn [ok_or bind fst]; [|reflexivity].
  cbv zeta. destruct (private_derive_child _ _); reflexivity.
Qed.
Lemma xpub_count_fst hmac x c : fst (xpub_derive_child_count hmac x c) = xpub_derive_child_with hmac x c.
Proof.
  unfold xpub_derive_child_count, xpub_derive_child_with. destruct (child_is_hardened c); [reflexivity|].
  destruct (checked_add 8 _ 1); cbn [ok_or bind fst]; [|reflexivity]. cbv zeta. destruct (public_derive_child _ _); reflexivity.
Qed.
Lemma xprv_count_step hmac x c : depth (xprv_attrs x) <= 255 -> let '(r, w) := xprv_derive_child_count hmac x c in
  (hmac_calls w = 0 /\ curve_calls w = 0 \/ depth (xprv_attrs x) < 255 /\ hmac_calls w = 1 /\ curve_calls w <= 2)
  /\ forall y, r = Ok y -> hmac_calls w = 1 /\ depth (xprv_attrs y) = depth (xprv_attrs x) + 1.
Proof.
  intros H. unfold xprv_derive_child_count. rewrite add_depth. destruct (N.ltb_spec (depth (xprv_attrs x)) 255) as [L|L].
  - cbv zeta. destruct (private_derive_child _ _) as [k|e|]; cbn [plus_calls hmac_calls curve_calls];
      (split; [right; split; [exact L|]; split; [lia|destruct (child_is_hardened c); lia]|]); intros y E; [|discriminate E..].
    injection E as <-. cbn [xprv_attrs depth]. split; lia.
  - cbn. split; [left; split; reflexivity|]. intros y E; discriminate E.
Qed.
Lemma xpub_count_step hmac x c : depth (xpub_attrs x) <= 255 -> let '(r, w) := xpub_derive_child_count hmac x c in
  (hmac_calls w = 0 /\ curve_calls w = 0 \/ depth (xpub_attrs x) < 255 /\ hmac_calls w = 1 /\ curve_calls w <= 1)
  /\ forall y, r = Ok y -> hmac_calls w = 1 /\ depth (xpub_attrs y) = depth (xpub_attrs x) + 1.
Proof.
  intros H. unfold xpub_derive_child_count. destruct (child_is_hardened c); [cbn; split; [left; split; reflexivity|]; intros y E; discriminate E|].
  rewrite add_depth. destruct (N.ltb_spec (depth (xpub_attrs x)) 255) as [L|L].
  - cbv zeta. destruct (public_derive_child _ _) as [k|e|]; cbn [hmac_calls curve_calls];
      (split; [right; split; [exact L|]; split; lia|]); intros y E; [|discriminate E..]. injection E as <-. cbn [xpub_attrs depth]. split; lia.
  - cbn. split; [left; split; reflexivity|]. intros y E; discriminate E.
Qed.
(** C158 *)
Lemma c158_same_results :
  (forall x p, fst (xprv_derive_from_path_count hmac_sha512 x p) = xprv_derive_from_path x p)
  /\ (forall x p, fst (xpub_derive_from_path_count hmac_sha512 x p) = xpub_derive_from_path x p)
  /\ (forall seed p, fst (xprv_new_from_path_count hmac_sha512 seed p) = xprv_new_from_path seed p).
Proof.
  split; [|split].
  - intros x p. unfold xprv_derive_from_path_count, xprv_derive_from_path, fold_count.
    pose proof (fold_count_spec (xprv_derive_child_count hmac_sha512) xprv_derive_child _ 2 (xprv_count_fst hmac_sha512) (xprv_count_step hmac_sha512) p (Ok x) no_calls) as S.
    destruct (fold_left _ p (Ok x, no_calls)) as [r w]. apply S.
  - intros x p. unfold xpub_derive_from_path_count, xpub_derive_from_path, fold_count.
    pose proof (fold_count_spec (xpub_derive_child_count hmac_sha512) xpub_derive_child _ 1 (xpub_count_fst hmac_sha512) (xpub_count_step hmac_sha512) p (Ok x) no_calls) as S.
    destruct (fold_left _ p (Ok x, no_calls)) as [r w]. apply S.
  - intros seed p. unfold xprv_new_from_path_count, xprv_new_from_path, fold_count. change (xprv_new_with hmac_sha512 seed) with (xprv_new seed).
    pose proof (fold_count_spec (xprv_derive_child_count hmac_sha512) xprv_derive_child _ 2 (xprv_count_fst hmac_sha512) (xprv_count_step hmac_sha512) p (xprv_new seed) no_calls) as S.
    destruct (fold_left _ p (xprv_new seed, no_calls)) as [r w]. cbn [fst]. apply S.
Qed.
(** However long the path is, at most one hash per level that is left, and two multiplications. *)
Lemma c158_private_paths : forall (hmac : bytes -> bytes -> bytes) (x : xprv) (p : path), depth (xprv_attrs x) <= 255 ->
  let '(r, w) := xprv_derive_from_path_count hmac x p in
  hmac_calls w <= 255 - depth (xprv_attrs x) /\ curve_calls w <= 2 * (255 - depth (xprv_attrs x))
  /\ forall y, r = Ok y -> hmac_calls w = len p.
Proof.
  intros hmac x p H. unfold xprv_derive_from_path_count, fold_count.
  pose proof (fold_count_spec (xprv_derive_child_count hmac) (xprv_derive_child_with hmac) _ 2 (xprv_count_fst hmac) (xprv_count_step hmac) p (Ok x) no_calls) as S.
  destruct (fold_left _ p (Ok x, no_calls)) as [r w]. destruct S as [_ S]. exact (S x eq_refl H).
Qed.
Lemma c158_public_paths : forall (hmac : bytes -> bytes -> bytes) (x : xpub) (p : path), depth (xpub_attrs x) <= 255 ->
  let '(r, w) := xpub_derive_from_path_count hmac x p in
  hmac_calls w <= 255 - depth (xpub_attrs x) /\ curve_calls w <= 255 - depth (xpub_attrs x)
  /\ forall y, r = Ok y -> hmac_calls w = len p.
Proof.
  intros hmac x p H. unfold xpub_derive_from_path_count, fold_count.
  pose proof (fold_count_spec (xpub_derive_child_count hmac) (xpub_derive_child_with hmac) _ 1 (xpub_count_fst hmac) (xpub_count_step hmac) p (Ok x) no_calls) as S.
  destruct (fold_left _ p (Ok x, no_calls)) as [r w]. destruct S as [_ S]. specialize (S x eq_refl H). rewrite N.mul_1_l in S. exact S.
Qed.
Lemma c158_from_seed : forall (hmac : bytes -> bytes -> bytes) (seed : bytes) (p : path),
  let '(r, w) := xprv_new_from_path_count hmac seed p in
  hmac_calls w <= 256 /\ curve_calls w <= 510 /\ forall y, r = Ok y -> hmac_calls w = 1 + len p.
Proof.
  intros hmac seed p. unfold xprv_new_from_path_count, fold_count.
  pose proof (fold_count_spec (xprv_derive_child_count hmac) (xprv_derive_child_with hmac) _ 2 (xprv_count_fst hmac) (xprv_count_step hmac) p (xprv_new_with hmac seed) no_calls) as S.
  unfold xprv_new_with in *. destruct (existsb (N.eqb (len seed)) [16; 32; 64; 128]); cbn [negb] in *.
  - cbv zeta in *. destruct (private_from_bytes _) as [k|e|]; cbn [bind] in *.
    + destruct (fold_left _ p _) as [r w]. destruct S as [_ S]. specialize (S _ eq_refl). cbn [xprv_attrs depth no_calls hmac_calls curve_calls plus_calls] in *.
      destruct (S ltac:(lia)) as (S1 & S2 & S3). split; [lia|]. split; [lia|]. intros y E. rewrite (S3 y E). lia.
    + clear S. rewrite fold_count_err by (intros; discriminate). cbn. split; [lia|]. split; [lia|]. intros y E; discriminate E.
    + clear S. rewrite fold_count_err by (intros; discriminate). cbn. split; [lia|]. split; [lia|]. intros y E; discriminate E.
  - clear S. rewrite fold_count_err by (intros; discriminate). cbn. split; [lia|]. split; [lia|]. intros y E; discriminate E.
Qed.
Definition ex_deep : xprv := mkXPrv 1 (mkAttrs 253 [1; 2; 3; 4] 0 (repeat 7 32)).
Example c158_example : depth (xprv_attrs ex_deep) <= 255
  /\ snd (xprv_derive_from_path_count (fun _ _ => repeat 1 64) ex_deep (repeat 0 300)) = mkCalls 2 4
  /\ fst (xprv_derive_from_path_count (fun _ _ => repeat 1 64) ex_deep (repeat 0 300)) = Err EDepth.
Proof.
  split; [intros H; discriminate H|]. split; lazy; reflexivity.
Qed.
