(** RIPEMD-160 of Ripemd.v meets the relation of SpecHash.v. *)
From Coq Require Import ZifyBool ZifyNat ZifyN.
From Verif Require Import Outcome Bytes Str Hash Ripemd HashLemmas BitLemmas SpecBip32 SpecHash HashProofs.
Open Scope N_scope.

Local Notation word x := (x < 2 ^ 32).

Lemma word_le_val b : word_le b = le_val b.
Proof. reflexivity. Qed.
Lemma add32_mod a b : add32 a b = (a + b) mod 2 ^ 32.
Proof. unfold add32. change 0xffffffff with (N.ones 32). apply land_mask. Qed.
Lemma add32_word a b : word (add32 a b).
Proof. rewrite add32_mod. apply N.mod_lt, pow2_nz. Qed.
Lemma rotl32_spec x n : n <= 32 -> word x -> rotl32 x n = ROTL 32 n x.
Proof.
  intros Hn Hx. unfold rotl32, ROTL, ROTR. change 0xffffffff with (N.ones 32).
  rewrite land_mask, N.shiftl_mul_pow2, N.shiftr_div_pow2. replace (32 - (32 - n)) with n by lia.
  rewrite (pow_split 32 n) by exact Hn. rewrite N.mul_mod_distr_r by apply pow2_nz.
  rewrite lor_add; [apply N.add_comm|].
  apply N.div_lt_upper_bound; [apply pow2_nz|]. rewrite <- N.pow_add_r. replace (32 - n + n) with 32 by lia. exact Hx.
Qed.
Lemma ROTL_word n x : n <= 32 -> word x -> word (ROTL 32 n x).
Proof. intros Hn Hx. apply ROTR_lt; [lia|exact Hx]. Qed.

Lemma rmd_f_spec n x y z : word x -> word y -> word z -> is_rmd_f n x y z (rmd_f n x y z).
Proof.
  intros Hx Hy Hz i.
  assert (Hmask : N.testbit 0xffffffff i = (i <? 32)).
  { change 0xffffffff with (N.ones 32). destruct (N.ltb_spec i 32); [apply N.ones_spec_low; assumption|apply N.ones_spec_high; assumption]. }
  assert (Hhi : 32 <= i -> N.testbit x i = false /\ N.testbit y i = false /\ N.testbit z i = false).
  { intros H. repeat split; apply (testbit_small _ 32); assumption. }
  destruct (N.ltb_spec i 32) as [Hi|Hi].
  - clear Hhi. do 4 (destruct n as [|n]; [cbn [rmd_f rmd_bool]; unfold not32; rewrite ?N.lxor_spec, ?N.lor_spec, ?N.land_spec, ?N.lxor_spec, ?Hmask;
      destruct (N.testbit x i), (N.testbit y i), (N.testbit z i); reflexivity|]).
    cbn [rmd_f rmd_bool]; unfold not32; rewrite ?N.lxor_spec, ?N.lor_spec, ?N.land_spec, ?N.lxor_spec, ?Hmask;
      destruct (N.testbit x i), (N.testbit y i), (N.testbit z i); reflexivity.
  - destruct (Hhi Hi) as (Ex & Ey & Ez).
    do 4 (destruct n as [|n]; [cbn [rmd_f]; unfold not32; rewrite ?N.lxor_spec, ?N.lor_spec, ?N.land_spec, ?N.lxor_spec, ?Hmask, Ex, Ey, Ez; reflexivity|]).
    cbn [rmd_f]; unfold not32; rewrite ?N.lxor_spec, ?N.lor_spec, ?N.land_spec, ?N.lxor_spec, ?Hmask, Ex, Ey, Ez; reflexivity.
Qed.
Lemma rmd_f_fun n x y z r r' : is_rmd_f n x y z r -> is_rmd_f n x y z r' -> r = r'.
Proof. intros H H'. apply N.bits_inj. intros i. rewrite H, H'. reflexivity. Qed.

(** ** Tables *)
Definition line_r (right : bool) : list nat := if right then rmd_r2 else rmd_r1.
Definition line_s (right : bool) : list N := if right then rmd_s2 else rmd_s1.
Definition line_k (right : bool) : list N := if right then rmd_k2 else rmd_k1.

Definition tables_ok (right : bool) : bool :=
  forallb (fun j => let r := rmd_order right (j / 16) (j mod 16) in
    Nat.eqb (nth j (line_r right) 0%nat) r && Nat.ltb r 16 && (nth j (line_s right) 0 =? rmd_shift (j / 16) r)
    && (rmd_shift (j / 16) r <=? 32)) (seq 0 80).
Lemma tables_checked right : tables_ok right = true.
Proof. destruct right; vm_compute; reflexivity. Qed.
Lemma tables_nth right j : (j < 80)%nat ->
  let r := rmd_order right (j / 16) (j mod 16) in
  nth j (line_r right) 0%nat = r /\ (r < 16)%nat /\ nth j (line_s right) 0 = rmd_shift (j / 16) r /\ rmd_shift (j / 16) r <= 32.
Proof.
  intros Hj. pose proof (tables_checked right) as H. unfold tables_ok in H. rewrite forallb_forall in H.
  specialize (H j ltac:(apply in_seq; lia)). cbv zeta in *. rewrite !andb_true_iff in H. destruct H as [[[H1 H2] H3] H4].
  apply Nat.eqb_eq in H1. apply Nat.ltb_lt in H2. apply N.eqb_eq in H3. apply N.leb_le in H4. auto.
Qed.
Lemma consts_ok right n : (n < 5)%nat -> is_rmd_const right n (nth n (line_k right) 0).
Proof.
  intros Hn. do 5 (destruct n as [|n]; [destruct right; cbn; unfold is_int_root; try (split; [|reflexivity]; intros H; vm_compute in H; discriminate); reflexivity|]). lia.
Qed.
Lemma int_root_fun k p c c' : is_int_root k p c -> is_int_root k p c' -> c = c'.
Proof.
  intros [H1 H2] [H1' H2']. assert (c < c' + 1) by (apply (pow_lt_inv _ _ k); lia).
  assert (c' < c + 1) by (apply (pow_lt_inv _ _ k); lia). lia.
Qed.
Lemma const_fun right n c c' : is_rmd_const right n c -> is_rmd_const right n c' -> c = c'.
Proof.
  destruct right; do 4 (destruct n as [|n]; [cbn; first [apply int_root_fun | congruence]|]); cbn; first [apply int_root_fun | congruence].
Qed.

(** ** One line *)
Definition stf5 (t : st5) (j : nat) : N := let '(St5 a b c d e) := t in nth j [a; b; c; d; e] 0.
Definition st5_words (t : st5) : Prop := let '(St5 a b c d e) := t in word a /\ word b /\ word c /\ word d /\ word e.

Section Line.
  Variables (right : bool) (x : list N) (t0 : st5).
  Hypothesis Ht : st5_words t0.
  Fixpoint line_at (n : nat) : st5 :=
    match n with
    | O => t0
    | S n' =>
        rmd_step (rmd_f (if right then 4 - n' / 16 else n' / 16)%nat) (nth (n' / 16) (line_k right) 0)
          (nth (nth n' (line_r right) 0%nat) x 0) (nth n' (line_s right) 0) (line_at n')
    end.
  Lemma line_at_words n : (n <= 80)%nat -> st5_words (line_at n).
  Proof.
    induction n as [|n IH]; intros Hn; [exact Ht|]. specialize (IH ltac:(lia)). cbn [line_at].
    destruct (line_at n) as [a b c d e]. destruct IH as (Ha & Hb & Hc & Hd & He).
    unfold rmd_step, st5_words. repeat split; try assumption; try apply add32_word.
    rewrite rotl32_spec by (lia || assumption). apply ROTL_word; [lia|assumption].
  Qed.
  Lemma skipn_nth {A} (l : list A) n y l' d : skipn n l = y :: l' -> nth n l d = y /\ skipn (S n) l = l'.
  Proof.
    revert l. induction n as [|n IH]; intros l E; [cbn in E; subst l; split; reflexivity|].
    destruct l as [|z l]; [discriminate|]. apply (IH l), E.
  Qed.
  Lemma rmd_line_at rs ss n : rs = skipn n (line_r right) -> ss = skipn n (line_s right) -> length rs = length ss ->
    rmd_line right n rs ss (line_k right) x (line_at n) = line_at (n + length rs).
  Proof.
    revert ss n. induction rs as [|r rs IH]; intros ss n Er Es El; [rewrite Nat.add_0_r; reflexivity|].
    destruct ss as [|s ss]; [discriminate|]. cbn [rmd_line length].
    symmetry in Er, Es. apply skipn_nth with (d := 0%nat) in Er. apply skipn_nth with (d := 0) in Es.
    destruct Er as [Er Er'], Es as [Es Es'].
    replace (n + S (length rs))%nat with (S n + length rs)%nat by lia.
    rewrite <- (IH ss (S n)); [|symmetry; exact Er'|symmetry; exact Es'|cbn in El; lia].
    cbn [line_at]. rewrite Er, Es. reflexivity.
  Qed.
  Lemma line_step (X : nat -> N) j : (forall r, (r < 16)%nat -> X r = nth r x 0) -> (j < 80)%nat ->
    is_rmd_step right X j (stf5 (line_at j)) (stf5 (line_at (S j))).
  Proof.
    intros HX Hj. destruct (tables_nth right j Hj) as (Er & Hr & Es & Hs).
    pose proof (line_at_words j ltac:(lia)) as Hw.
    assert (Hg : (j / 16 < 5)%nat) by (apply Nat.div_lt_upper_bound; lia).
    pose proof (consts_ok right (j / 16) Hg) as Hk.
    cbn [line_at]. rewrite Er, Es. unfold is_rmd_step. cbv zeta.
    set (r := rmd_order right (j / 16) (j mod 16)) in *. set (k := nth (j / 16) (line_k right) 0) in *.
    destruct (line_at j) as [a b c d e]. destruct Hw as (Ha & Hb & Hc & Hd & He).
    cbn [rmd_step stf5 nth].
    eexists _, k, _. split; [apply rmd_f_spec; assumption|]. split; [exact Hk|]. split; [reflexivity|].
    split; [reflexivity|]. split; [|split; [reflexivity|split; [|reflexivity]]].
    - rewrite !add32_mod. rewrite rotl32_spec; [|exact Hs|rewrite <- add32_mod; apply add32_word].
      f_equal. f_equal. f_equal. merge_mods. rewrite HX by exact Hr. f_equal. lia.
    - apply rotl32_spec; [lia|assumption].
  Qed.
  Lemma line_spec (X R : nat -> N) : (forall r, (r < 16)%nat -> X r = nth r x 0) ->
    is_rmd_line right X (stf5 t0) (stf5 (rmd_line right 0 (line_r right) (line_s right) (line_k right) x t0)).
  Proof.
    intros HX. exists (fun n => stf5 (line_at n)). split; [reflexivity|]. split.
    - intros j Hj. apply line_step; assumption.
    - intros j _. pose proof (rmd_line_at (line_r right) (line_s right) 0 eq_refl eq_refl) as E.
      change (line_at 0) with t0 in E. rewrite E by (destruct right; reflexivity). destruct right; reflexivity.
  Qed.
End Line.

(** ** One block *)
Lemma compress_spec5 t block (X : nat -> N) : st5_words t -> has_bytes 64 block ->
  (forall r, (r < 16)%nat -> X r = le_val (firstn 4 (skipn (4 * r) block))) ->
  is_rmd_block X (stf5 t) (stf5 (rmd_compress t block)).
Proof.
  intros Ht [Hl _] HX.
  assert (Hx : forall r, (r < 16)%nat -> X r = nth r (map le_val (chunks 16 4 block)) 0).
  { intros r Hr. rewrite HX by exact Hr. change 0 with (le_val []). rewrite map_nth. rewrite chunks_nth by lia. reflexivity. }
  set (x := map le_val (chunks 16 4 block)) in *.
  pose proof (line_spec false x t Ht X X Hx) as HL. pose proof (line_spec true x t Ht X X Hx) as HR.
  cbn [line_r line_s line_k] in HL, HR.
  exists (stf5 (rmd_line false 0 rmd_r1 rmd_s1 rmd_k1 x t)), (stf5 (rmd_line true 0 rmd_r2 rmd_s2 rmd_k2 x t)).
  split; [exact HL|]. split; [exact HR|]. intros j Hj. unfold rmd_compress. fold x.
  destruct (rmd_line false 0 rmd_r1 rmd_s1 rmd_k1 x t) as [a1 b1 c1 d1 e1].
  destruct (rmd_line true 0 rmd_r2 rmd_s2 rmd_k2 x t) as [a2 b2 c2 d2 e2]. destruct t as [a b c d e].
  do 5 (destruct j as [|j]; [cbn [stf5 nth Nat.add Nat.modulo Nat.divmod snd Nat.sub]; rewrite !add32_mod; merge_mods; f_equal; lia|]). lia.
Qed.
Lemma compress_words5 t block : st5_words (rmd_compress t block).
Proof.
  unfold rmd_compress. destruct t, (rmd_line false _ _ _ _ _ _), (rmd_line true _ _ _ _ _ _).
  unfold st5_words. repeat split; apply add32_word.
Qed.
Lemma fold_words5 bl t : st5_words t -> st5_words (fold_left rmd_compress bl t).
Proof. revert t. induction bl as [|b bl IH]; intros t Ht; [exact Ht|]. cbn [fold_left]. apply IH, compress_words5. Qed.

Lemma rmd_pad_length n : ((n + length (rmd_pad n)) mod 64 = 0)%nat.
Proof.
  unfold rmd_pad. cbn [length]. rewrite app_length, repeat_length, rev_length, be_bytes_length.
  pose proof (Nat.mod_upper_bound n 64 ltac:(lia)). pose proof (Nat.div_mod n 64 ltac:(lia)) as En.
  set (x := (119 - n mod 64)%nat). replace (n + S (x mod 64 + 8))%nat with (n + 9 + x mod 64)%nat by lia.
  rewrite Nat.add_mod_idemp_r by lia. replace (n + 9 + x)%nat with ((n / 64 + 2) * 64)%nat by (unfold x; lia). apply Nat.mod_mul. lia.
Qed.
Lemma flat_map_slice_gen (f : N -> bytes) wb l j : (forall x, length (f x) = wb) -> (j < length l)%nat ->
  firstn wb (skipn (wb * j) (flat_map f l)) = f (nth j l 0).
Proof.
  intros Hf. revert j. induction l as [|x l IH]; intros j Hj; [cbn in Hj; lia|]. destruct j as [|j].
  - rewrite Nat.mul_0_r. cbn [skipn flat_map nth]. rewrite firstn_app, Hf, Nat.sub_diag. rewrite firstn_all2 by (rewrite Hf; lia). apply app_nil_r.
  - cbn [flat_map nth]. rewrite skipn_app, skipn_all2 by (rewrite Hf; nia). rewrite Hf. cbn [app].
    replace (wb * S j - wb)%nat with (wb * j)%nat by nia. apply IH. cbn in Hj. lia.
Qed.
Lemma firstn_S_nth {A} (l : list A) i d : (i < length l)%nat -> firstn (S i) l = firstn i l ++ [nth i l d].
Proof.
  revert i. induction l as [|x l IH]; intros i Hi; [cbn in Hi; lia|]. destruct i as [|i]; [reflexivity|].
  change (x :: firstn (S i) l = x :: (firstn i l ++ [nth i l d])). f_equal. apply IH. cbn in Hi. lia.
Qed.

Lemma rmd_h0_eq j : (j < 5)%nat -> stf5 (St5 0x67452301 0xefcdab89 0x98badcfe 0x10325476 0xc3d2e1f0) j = rmd_h0 j.
Proof. intros Hj. do 5 (destruct j as [|j]; [reflexivity|]). lia. Qed.

Lemma ripemd160_meets m : bytes_ok m -> len m < 2 ^ 61 -> is_ripemd160 m (ripemd160 m).
Proof.
  intros Hm Hlen. set (p := m ++ rmd_pad (length m)).
  assert (Hp : bytes_ok p).
  { apply bytes_ok_app. split; [exact Hm|]. unfold rmd_pad. constructor; [reflexivity|]. apply bytes_ok_app. split; [|apply bytes_ok_rev, be_bytes_ok].
    apply Forall_forall. intros x Hx. apply repeat_spec in Hx. subst x. reflexivity. }
  assert (Emod : (length p mod 64 = 0)%nat) by (unfold p; rewrite app_length; apply rmd_pad_length).
  assert (Edm : length p = (64 * (length p / 64))%nat) by (pose proof (Nat.div_mod (length p) 64 ltac:(lia)); lia).
  set (n := (length p / 64)%nat) in *. set (cs := chunks (length p) 64 p).
  assert (Hnl : (n <= length p)%nat) by lia.
  assert (Hcl : length cs = n) by (apply chunks_length; [lia|exact Edm|exact Hnl]).
  assert (Hcs : Forall (fun b => has_bytes 64 b) cs) by (apply (chunks_has_bytes _ _ _ n); [lia|exact Hp|exact Edm]).
  set (t0 := St5 0x67452301 0xefcdab89 0x98badcfe 0x10325476 0xc3d2e1f0).
  assert (Ht : st5_words t0) by (repeat split).
  exists p, (fun i => stf5 (fold_left rmd_compress (firstn i cs) t0)).
  split; [|split; [|split; [|split]]].
  - exists ((119 - length m mod 64) mod 64)%nat, (rev (be_bytes 8 (8 * N.of_nat (length m)))).
    split; [reflexivity|]. split; [split; [rewrite rev_length; apply be_bytes_length|apply bytes_ok_rev, be_bytes_ok]|].
    split; [|split; [exact Emod|apply Nat.mod_upper_bound; lia]].
    unfold word_le. rewrite rev_involutive. etransitivity; [apply be_val_be_bytes|]. apply N.mod_small. apply len_bound; [exact Hlen|lia].
  - intros j Hj. apply rmd_h0_eq, Hj.
  - intros i Hi. change (i < n)%nat in Hi. assert (Hi' : (i < length cs)%nat) by lia.
    rewrite (firstn_S_nth cs i []) by exact Hi'. rewrite fold_left_app. cbn [fold_left].
    assert (Hb : has_bytes 64 (nth i cs [])) by (rewrite Forall_forall in Hcs; apply Hcs, nth_In, Hi').
    apply compress_spec5; [apply fold_words5, Ht|exact Hb|].
    intros r Hr. rewrite word_le_val. f_equal. unfold cs. rewrite chunks_nth by lia. rewrite slice_of_block; [reflexivity|lia].
  - split; [apply ripemd160_length|apply ripemd160_ok].
  - intros j Hj. cbv beta. change (length p / 64)%nat with n. rewrite <- Hcl, firstn_all.
    assert (E : ripemd160 m = flat_map (fun w => rev (be_bytes 4 w)) (map (stf5 (fold_left rmd_compress cs t0)) (seq 0 5))).
    { unfold ripemd160. fold p. fold cs. fold t0. destruct (fold_left rmd_compress cs t0) as [a b c d e]. reflexivity. }
    pose proof (fold_words5 cs t0 Ht) as Hw. rewrite E. set (s := fold_left rmd_compress cs t0) in *. clearbody s.
    rewrite (flat_map_slice_gen _ 4) by (intros; rewrite rev_length; apply be_bytes_length) || (rewrite map_length, seq_length; exact Hj).
    unfold word_le. rewrite rev_involutive. etransitivity; [apply be_val_be_bytes|].
    destruct s as [a b c d e]. destruct Hw as (Ha & Hb & Hc & Hd & He).
    do 5 (destruct j as [|j]; [apply N.mod_small; assumption|]). lia.
Qed.

(** ** The relation determines the digest *)
Lemma le_val_inj a b : bytes_ok a -> bytes_ok b -> length a = length b -> word_le a = word_le b -> a = b.
Proof.
  intros Ha Hb Hl E. rewrite <- (rev_involutive a), <- (rev_involutive b). f_equal.
  apply be_val_inj; [apply bytes_ok_rev, Ha|apply bytes_ok_rev, Hb|rewrite !rev_length; exact Hl|exact E].
Qed.
Lemma rmd_padded_fun m p p' : is_rmd_padded m p -> is_rmd_padded m p' -> p = p'.
Proof.
  intros (z & lb & E & [Hl Ho] & Hv & Hm & Hz) (z' & lb' & E' & [Hl' Ho'] & Hv' & Hm' & Hz').
  assert (lb = lb') by (apply le_val_inj; [assumption|assumption|congruence|congruence]).
  subst lb'. assert (z = z'); [|congruence].
  assert (El : length p = (length m + 1 + length lb + z)%nat) by (rewrite E, app_length; cbn [length]; rewrite app_length, repeat_length; lia).
  assert (El' : length p' = (length m + 1 + length lb + z')%nat) by (rewrite E', app_length; cbn [length]; rewrite app_length, repeat_length; lia).
  pose proof (Nat.div_mod (length p) 64 ltac:(lia)) as D. pose proof (Nat.div_mod (length p') 64 ltac:(lia)) as D'. lia.
Qed.
Lemma rmd_step_fun right X X' j V1 V2 V1' V2' : (j < 80)%nat -> (forall r, (r < 16)%nat -> X r = X' r) -> (forall i, (i < 5)%nat -> V1 i = V2 i) ->
  is_rmd_step right X j V1 V1' -> is_rmd_step right X' j V2 V2' -> forall i, (i < 5)%nat -> V1' i = V2' i.
Proof.
  intros Hj HX HV (f & k & t & Hf & Hk & Et & E0 & E1 & E2 & E3 & E4) (f' & k' & t' & Hf' & Hk' & Et' & E0' & E1' & E2' & E3' & E4') i Hi.
  destruct (tables_nth right j Hj) as (_ & Hr & _).
  pose proof (HV 0%nat ltac:(lia)) as A0. pose proof (HV 1%nat ltac:(lia)) as A1. pose proof (HV 2%nat ltac:(lia)) as A2.
  pose proof (HV 3%nat ltac:(lia)) as A3. pose proof (HV 4%nat ltac:(lia)) as A4.
  rewrite A1, A2, A3 in Hf. rewrite (rmd_f_fun _ _ _ _ _ _ Hf Hf') in Et. rewrite (const_fun _ _ _ _ Hk Hk') in Et.
  rewrite (HX _ Hr) in Et. rewrite A0, A4 in Et. rewrite <- Et' in Et.
  do 5 (destruct i as [|i]; [congruence|]). lia.
Qed.
Lemma rmd_line_fun right X X' H H' R R' : (forall r, (r < 16)%nat -> X r = X' r) -> (forall i, (i < 5)%nat -> H i = H' i) ->
  is_rmd_line right X H R -> is_rmd_line right X' H' R' -> forall i, (i < 5)%nat -> R i = R' i.
Proof.
  intros HX HH (V & HV0 & HV & HR) (V' & HV0' & HV' & HR') i Hi. rewrite (HR i Hi), (HR' i Hi).
  assert (HVV : forall t, (t <= 80)%nat -> forall i, (i < 5)%nat -> V t i = V' t i).
  { induction t as [|t IH]; intros Ht k Hk; [rewrite HV0, HV0', HH by exact Hk; reflexivity|].
    apply (rmd_step_fun right X X' t _ _ _ _ ltac:(lia) HX (IH ltac:(lia)) (HV t ltac:(lia)) (HV' t ltac:(lia)) k Hk). }
  apply HVV; [lia|exact Hi].
Qed.
Lemma rmd_block_fun X H1 H2 H1' H2' : (forall i, (i < 5)%nat -> H1 i = H2 i) -> is_rmd_block X H1 H1' -> is_rmd_block X H2 H2' ->
  forall i, (i < 5)%nat -> H1' i = H2' i.
Proof.
  intros HH (L & R & HL & HR & HE) (L' & R' & HL' & HR' & HE') i Hi. rewrite (HE i Hi), (HE' i Hi).
  rewrite HH by (apply Nat.mod_upper_bound; lia).
  rewrite (rmd_line_fun _ _ _ _ _ _ _ (fun _ _ => eq_refl) HH HL HL') by (apply Nat.mod_upper_bound; lia).
  rewrite (rmd_line_fun _ _ _ _ _ _ _ (fun _ _ => eq_refl) HH HR HR') by (apply Nat.mod_upper_bound; lia). reflexivity.
Qed.
Lemma ripemd160_fun m d d' : is_ripemd160 m d -> is_ripemd160 m d' -> d = d'.
Proof.
  intros (p & H & Hp & H0 & HB & [Hl Ho] & HD) (p' & H' & Hp' & H0' & HB' & [Hl' Ho'] & HD').
  rewrite <- (rmd_padded_fun _ _ _ Hp Hp') in *. clear Hp'.
  assert (EH : forall i, (i <= length p / 64)%nat -> forall j, (j < 5)%nat -> H i j = H' i j).
  { induction i as [|i IH]; intros Hi; [intros j Hj; rewrite H0, H0' by exact Hj; reflexivity|].
    apply (rmd_block_fun _ _ _ _ _ (IH ltac:(lia)) (HB i ltac:(lia)) (HB' i ltac:(lia))). }
  apply (slices_eq 4 5); [lia|lia|]. intros j Hj.
  apply le_val_inj; [apply bytes_ok_firstn, bytes_ok_skipn, Ho|apply bytes_ok_firstn, bytes_ok_skipn, Ho'| |].
  - rewrite !firstn_length, !skipn_length. lia.
  - etransitivity; [apply HD, Hj|]. etransitivity; [|symmetry; apply HD', Hj]. apply EH; [lia|exact Hj].
Qed.
