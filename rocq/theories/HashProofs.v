(** SHA-2 and RIPEMD-160 of Hash.v and Ripemd.v meet the relations of SpecHash.v. *)
From Coq Require Import ZifyBool ZifyNat ZifyN.
From Verif Require Import Outcome Bytes Str Hash Ripemd HashLemmas BitLemmas SpecBip32 Base58Proofs SpecHash.
Open Scope N_scope.

Lemma digits_be l : digits_val 256 l = be_val l.
Proof. reflexivity. Qed.

(** ** Words *)
Lemma land_mask w x : N.land x (N.ones w) = x mod 2 ^ w.
Proof. apply N.land_ones. Qed.

Lemma rotr_spec P n x : p_mask P = N.ones (p_w P) -> n <= p_w P -> x < 2 ^ p_w P -> rotr P x n = ROTR (p_w P) n x.
Proof.
  intros Hm Hn Hx. unfold rotr, ROTR. rewrite Hm, land_mask, N.shiftl_mul_pow2, N.shiftr_div_pow2.
  rewrite (pow_split (p_w P) (p_w P - n)) by lia. replace (p_w P - (p_w P - n)) with n by lia.
  rewrite N.mul_mod_distr_r by apply pow2_nz.
  rewrite N.lor_comm, lor_add; [lia|].
  apply N.div_lt_upper_bound; [apply pow2_nz|]. rewrite <- N.pow_add_r. replace (n + (p_w P - n)) with (p_w P) by lia. exact Hx.
Qed.
Lemma mul_bound a b A B : a < B -> b < A -> a + b * B < A * B.
Proof.
  intros H1 H2. assert (H3 : (b + 1) * B <= A * B) by (apply N.mul_le_mono_r; lia).
  rewrite N.mul_add_distr_r, N.mul_1_l in H3. lia.
Qed.
Lemma ROTR_lt w n x : n <= w -> x < 2 ^ w -> ROTR w n x < 2 ^ w.
Proof.
  intros Hn Hx. unfold ROTR.
  assert (H1 : x / 2 ^ n < 2 ^ (w - n)).
  { apply N.div_lt_upper_bound; [apply pow2_nz|]. rewrite <- N.pow_add_r. replace (n + (w - n)) with w by lia. exact Hx. }
  assert (H2 : x mod 2 ^ n < 2 ^ n) by (apply N.mod_lt, pow2_nz).
  assert (E : 2 ^ w = 2 ^ n * 2 ^ (w - n)) by (rewrite <- N.pow_add_r; f_equal; lia).
  rewrite E. apply mul_bound; assumption.
Qed.

Lemma xor3_lxor a b c : is_xor3 a b c (N.lxor a (N.lxor b c)).
Proof. intros i. rewrite !N.lxor_spec. reflexivity. Qed.
Lemma ch_spec x y z : is_ch x y z (ch x y z).
Proof.
  intros i. unfold ch. rewrite N.lxor_spec, N.land_spec, N.ldiff_spec.
  destruct (N.testbit x i), (N.testbit y i), (N.testbit z i); reflexivity.
Qed.
Lemma maj_spec x y z : is_maj x y z (maj x y z).
Proof.
  intros i. unfold maj. rewrite !N.lxor_spec, !N.land_spec.
  destruct (N.testbit x i), (N.testbit y i), (N.testbit z i); reflexivity.
Qed.
Lemma bitwise_fun f x y z r r' : bitwise f x y z r -> bitwise f x y z r' -> r = r'.
Proof. intros H H'. apply N.bits_inj. intros i. rewrite H, H'. reflexivity. Qed.

(** ** Lists cut into blocks *)
Lemma skipn_add {A} a b (l : list A) : skipn a (skipn b l) = skipn (b + a) l.
Proof. revert l. induction b as [|b IH]; intros l; [reflexivity|]. destruct l; [apply skipn_nil|]. apply IH. Qed.
Lemma chunks_nth {A} fuel n (l : list A) i : (i < fuel)%nat -> (0 < n)%nat ->
  nth i (chunks fuel n l) [] = firstn n (skipn (n * i) l).
Proof.
  intros Hi Hn. revert l i Hi. induction fuel as [|f IH]; intros l i Hi; [lia|].
  cbn [chunks]. destruct l as [|x l].
  - rewrite skipn_nil, firstn_nil. destruct i; reflexivity.
  - destruct i as [|i]; [rewrite Nat.mul_0_r; reflexivity|].
    cbn [nth]. rewrite IH by lia. f_equal. rewrite skipn_add. f_equal. lia.
Qed.
Lemma chunks_length {A} fuel n (l : list A) k : (0 < n)%nat -> length l = (n * k)%nat -> (k <= fuel)%nat ->
  length (chunks fuel n l) = k.
Proof.
  intros Hn. revert l k. induction fuel as [|f IH]; intros l k Hl Hk.
  - cbn. lia.
  - cbn [chunks]. destruct l as [|x l].
    + cbn in *. destruct k; [reflexivity|nia].
    + destruct k as [|k]; [cbn in Hl; lia|]. cbn [length]. f_equal. apply IH; [|lia].
      rewrite skipn_length, Hl. nia.
Qed.

(** ** Primes *)
Definition primeb (n : N) : bool :=
  (1 <? n) && forallb (fun d => (n <=? d) || negb (n mod d =? 0)) [2;3;4;5;6;7;8;9;10;11;12;13;14;15;16;17;18;19;20].

Lemma primeb_prime n : n < 441 -> primeb n = true <-> is_prime n.
Proof.
  intros Hn. unfold primeb. rewrite andb_true_iff, forallb_forall, N.ltb_lt. split.
  - intros [H1 H]. split; [exact H1|]. intros d [q Hq].
    destruct (N.eq_dec d 1) as [|Hd1]; [auto|]. destruct (N.eq_dec d n) as [|Hdn]; [auto|]. exfalso.
    assert (Hdiv : forall e f, e * f = n -> 2 <= e <= 20 -> e <> n -> False).
    { intros e f Hef He Hne.
      assert (Hin : In e [2;3;4;5;6;7;8;9;10;11;12;13;14;15;16;17;18;19;20]) by (cbn [In]; lia).
      specialize (H e Hin). apply orb_true_iff in H. destruct H as [H|H].
      - assert (f <> 0) by nia. assert (n <= e) by lia. nia.
      - rewrite <- Hef, N.mul_comm, N.mod_mul in H by lia. discriminate. }
    assert (d <> 0) by (intros ->; rewrite N.mul_0_r in Hq; lia).
    assert (q <> 0) by (intros ->; lia). assert (q <> 1) by (intros ->; lia).
    destruct (N.le_gt_cases d 20) as [Hs|Hs]; [apply (Hdiv d q); lia|].
    destruct (N.le_gt_cases q 20) as [Ht|Ht]; [apply (Hdiv q d); [lia|lia|nia]|]. nia.
  - intros [H1 H]. split; [exact H1|]. intros d Hd. apply orb_true_iff.
    destruct (N.le_gt_cases n d) as [Hs|Hs]; [left; lia|right].
    apply negb_true_iff, N.eqb_neq. intros E. apply N.mod_divide in E; [|cbn [In] in Hd; lia].
    apply H in E. cbn [In] in Hd. lia.
Qed.

Definition primes_below (p : N) : list N := filter primeb (map N.of_nat (seq 0 (N.to_nat p))).
Lemma primes_below_nth p : p < 441 -> primeb p = true -> is_nth_prime (length (primes_below p)) p.
Proof.
  intros Hp Hb. split; [apply primeb_prime; assumption|]. exists (primes_below p). split; [|split; [reflexivity|]].
  - apply NoDup_filter. apply FinFun.Injective_map_NoDup; [|apply seq_NoDup]. intros a b. apply Nnat.Nat2N.inj.
  - intros q. unfold primes_below. rewrite filter_In, in_map_iff. split.
    + intros [[x [<- Hx]] Hq]. apply in_seq in Hx. split; [|lia]. apply primeb_prime; [lia|exact Hq].
    + intros [Hq Hlt]. split; [|apply primeb_prime; [lia|exact Hq]].
      exists (N.to_nat q). split; [lia|]. apply in_seq. lia.
Qed.

(** Table of constants: entry i is c, from the i-th of the given primes. *)
Definition roots_ok (k w : N) (ps cs : list N) : bool :=
  forallb (fun e => let '(i, (p, c)) := e in
     let r := if k =? 2 then N.sqrt p else (if p <? 8 then 1 else if p <? 27 then 2 else if p <? 64 then 3 else if p <? 125 then 4 else if p <? 216 then 5 else if p <? 343 then 6 else 7) in
     (p <? 441) && primeb p && Nat.eqb (length (primes_below p)) i && (c <? 2 ^ w)
     && ((r * 2 ^ w + c) ^ k <=? p * 2 ^ (k * w)) && (p * 2 ^ (k * w) <? (r * 2 ^ w + c + 1) ^ k))
    (combine (seq 0 (length ps)) (combine ps cs)).

Lemma roots_ok_nth k w ps cs t : roots_ok k w ps cs = true -> length ps = length cs -> (t < length ps)%nat ->
  exists p, is_nth_prime t p /\ is_root_bits k w p (nth t cs 0).
Proof.
  intros H Hl Ht. unfold roots_ok in H. rewrite forallb_forall in H.
  assert (Hin : In (t, (nth t ps 0, nth t cs 0)) (combine (seq 0 (length ps)) (combine ps cs))).
  { replace (t, (nth t ps 0, nth t cs 0)) with (nth t (combine (seq 0 (length ps)) (combine ps cs)) (0%nat, (0, 0))).
    - apply nth_In. rewrite !combine_length, seq_length. lia.
    - rewrite combine_nth by (rewrite combine_length, seq_length; lia).
      rewrite seq_nth by exact Ht. rewrite combine_nth by exact Hl. reflexivity. }
  specialize (H _ Hin). cbv beta iota zeta in H. rewrite !andb_true_iff in H.
  destruct H as [[[[[H1 H2] H3] H4] H5] H6]. apply Nat.eqb_eq in H3.
  exists (nth t ps 0). split.
  - pose proof (primes_below_nth (nth t ps 0)) as Hp. rewrite H3 in Hp. apply Hp; [lia|exact H2].
  - split; [apply N.ltb_lt; exact H4|]. eexists. split; [apply N.leb_le; exact H5|apply N.ltb_lt; exact H6].
Qed.

Definition primes80 : list N := primes_below 410.
Lemma k256_ok : roots_ok 3 32 (firstn 64 primes80) k256 = true.
Proof. vm_compute. reflexivity. Qed.
Lemma h256_ok : roots_ok 2 32 (firstn 8 primes80) h256 = true.
Proof. vm_compute. reflexivity. Qed.
Lemma k512_ok : roots_ok 3 64 primes80 k512 = true.
Proof. vm_compute. reflexivity. Qed.
Lemma h512_ok : roots_ok 2 64 (firstn 8 primes80) h512 = true.
Proof. vm_compute. reflexivity. Qed.

(** Both constants are determined by their definition. *)
Lemma pow_lt_inv a b k : a ^ k < b ^ k -> a < b.
Proof. intros H. destruct (N.lt_ge_cases a b) as [|Hge]; [assumption|]. pose proof (N.pow_le_mono_l b a k Hge). lia. Qed.
Lemma root_bits_fun k w p c c' : is_root_bits k w p c -> is_root_bits k w p c' -> c = c'.
Proof.
  intros [Hc [r [H1 H2]]] [Hc' [r' [H1' H2']]].
  assert (Ha : r * 2 ^ w + c < r' * 2 ^ w + c' + 1) by (apply (pow_lt_inv _ _ k); lia).
  assert (Hb : r' * 2 ^ w + c' < r * 2 ^ w + c + 1) by (apply (pow_lt_inv _ _ k); lia).
  assert (E : 2 ^ w * r + c = 2 ^ w * r' + c') by lia.
  apply N.div_mod_unique in E; [apply E|exact Hc|exact Hc'].
Qed.
Lemma nth_prime_fun i p q : is_nth_prime i p -> is_nth_prime i q -> p = q.
Proof.
  assert (H : forall i p q, is_nth_prime i p -> is_nth_prime i q -> ~ p < q).
  { clear. intros i p q [Hp [l [Hn [Hl Hin]]]] [Hq [l' [Hn' [Hl' Hin']]]] Hlt.
    assert (Hinc : incl (p :: l) l').
    { intros x [<-|Hx]; [apply Hin'; auto|]. apply Hin in Hx. apply Hin'. split; [apply Hx|lia]. }
    apply NoDup_incl_length in Hinc; [cbn in Hinc; lia|].
    constructor; [|exact Hn]. intros Hx. apply Hin in Hx. lia. }
  intros H1 H2. destruct (N.lt_total p q) as [E|[E|E]]; [|exact E|]; [destruct (H _ _ _ H1 H2 E)|destruct (H _ _ _ H2 H1 E)].
Qed.

(** ** Slices *)
Lemma flat_map_slice wb l j : (j < length l)%nat ->
  firstn wb (skipn (wb * j) (flat_map (be_bytes wb) l)) = be_bytes wb (nth j l 0).
Proof.
  revert j. induction l as [|x l IH]; intros j Hj; [cbn in Hj; lia|]. cbn [flat_map].
  destruct j as [|j].
  - rewrite Nat.mul_0_r. cbn [skipn nth]. rewrite <- (be_bytes_length wb x) at 1. rewrite firstn_app, firstn_all, Nat.sub_diag.
    cbn. apply app_nil_r.
  - cbn [nth]. replace (wb * S j)%nat with (length (be_bytes wb x) + wb * j)%nat by (rewrite be_bytes_length; lia).
    rewrite <- skipn_add. rewrite skipn_app, skipn_all, Nat.sub_diag. cbn [app skipn]. apply IH. cbn in Hj. lia.
Qed.
Lemma slices_eq (n k : nat) (a b : list N) : length a = (n * k)%nat -> length b = (n * k)%nat ->
  (forall j, (j < k)%nat -> firstn n (skipn (n * j) a) = firstn n (skipn (n * j) b)) -> a = b.
Proof.
  revert a b. induction k as [|k IH]; intros a b Ha Hb H.
  - rewrite Nat.mul_0_r in *. destruct a; [|discriminate]. destruct b; [reflexivity|discriminate].
  - rewrite <- (firstn_skipn n a), <- (firstn_skipn n b). f_equal.
    + specialize (H 0%nat ltac:(lia)). rewrite Nat.mul_0_r in H. exact H.
    + apply IH; [rewrite skipn_length; lia|rewrite skipn_length; lia|]. intros j Hj.
      rewrite !skipn_add. replace (n + n * j)%nat with (n * S j)%nat by lia. apply H. lia.
Qed.
Lemma slice_of_block (bs wb i t : nat) (p : bytes) : (wb * t + wb <= bs)%nat ->
  firstn wb (skipn (wb * t) (firstn bs (skipn (bs * i) p))) = firstn wb (skipn (bs * i + wb * t) p).
Proof.
  intros H. rewrite skipn_firstn_comm, firstn_firstn, skipn_add. f_equal. lia.
Qed.

Lemma chunks_has_bytes fuel n l k : (0 < n)%nat -> bytes_ok l -> length l = (n * k)%nat -> Forall (fun b => has_bytes n b) (chunks fuel n l).
Proof.
  intros Hn. revert l k. induction fuel as [|f IH]; intros l k Hl E; cbn [chunks]; [constructor|].
  destruct l as [|x l]; [constructor|]. destruct k as [|k]; [cbn in E; lia|]. constructor.
  - split; [apply firstn_length_le; rewrite E; nia|apply bytes_ok_firstn, Hl].
  - apply (IH _ k); [apply bytes_ok_skipn, Hl|]. rewrite skipn_length, E. nia.
Qed.

(** ** SHA-2 *)
Ltac merge_mods := repeat first [rewrite N.add_mod_idemp_l by apply pow2_nz | rewrite N.add_mod_idemp_r by apply pow2_nz].
Definition same_variant (P : sha2_params) (v : variant) : Prop :=
  p_w P = v_w v /\ p_wb P = v_wb v /\ p_w P = 8 * N.of_nat (p_wb P) /\ p_mask P = N.ones (p_w P)
  /\ p_s0 P = v_S0 v /\ p_s1 P = v_S1 v /\ p_g0 P = v_s0 v /\ p_g1 P = v_s1 v
  /\ length (p_k P) = v_steps v /\ length (p_h P) = 8%nat /\ Forall (fun x => x < 2 ^ v_w v) (p_h P).
Definition rot_ok (w : N) (r : N * N * N) : Prop := let '(a, b, c) := r in a <= w /\ b <= w /\ c <= w.

Section Sha2.
  Variables (P : sha2_params) (v : variant).
  Hypothesis HP : same_variant P v.
  Hypothesis HS0 : rot_ok (v_w v) (v_S0 v).
  Hypothesis HS1 : rot_ok (v_w v) (v_S1 v).
  Hypothesis Hs0 : rot_ok (v_w v) (v_s0 v).
  Hypothesis Hs1 : rot_ok (v_w v) (v_s1 v).
  Hypothesis Hwb : (0 < v_wb v)%nat.

  Local Notation word x := (x < 2 ^ v_w v).
  Lemma add_w_mod a b : add_w P a b = (a + b) mod 2 ^ v_w v.
  Proof. destruct HP as (Hw & _ & _ & Hm & _). unfold add_w. rewrite Hm, land_mask, Hw. reflexivity. Qed.
  Lemma add_w_word a b : word (add_w P a b).
  Proof. rewrite add_w_mod. apply N.mod_lt, pow2_nz. Qed.

  Lemma add_w_5 a b c d e : add_w P (add_w P a b) (add_w P (add_w P c d) e) = (a + b + c + d + e) mod 2 ^ v_w v.
  Proof. rewrite !add_w_mod. rewrite (N.add_mod_idemp_l (c + d)) by apply pow2_nz. merge_mods. f_equal. lia. Qed.
  Lemma big_sigma_spec r x : rot_ok (v_w v) r -> word x -> is_Sigma v r x (big_sigma P r x).
  Proof.
    destruct HP as (Hw & _ & _ & Hm & _). destruct r as [[a b] c]. intros (Ha & Hb & Hc) Hx. cbn.
    rewrite !rotr_spec by first [assumption | rewrite Hw; assumption]. rewrite Hw. apply xor3_lxor.
  Qed.
  Lemma small_sigma_spec r x : rot_ok (v_w v) r -> word x -> is_sigma v r x (small_sigma P r x).
  Proof.
    destruct HP as (Hw & _ & _ & Hm & _). destruct r as [[a b] c]. intros (Ha & Hb & Hc) Hx. cbn.
    rewrite !rotr_spec by first [assumption | rewrite Hw; assumption]. rewrite Hw, N.shiftr_div_pow2. apply xor3_lxor.
  Qed.

  Definition stf (s : st8) (j : nat) : N := nth j (list_of_st s) 0.
  Definition st_words (s : st8) : Prop := Forall (fun x => word x) (list_of_st s).

  Lemma round_words s k x : st_words s -> st_words (round P s k x).
  Proof.
    destruct s as [a b c d e f g h]. intros H. unfold st_words in *. cbn [list_of_st round] in *.
    repeat (match goal with H : Forall _ (_ :: _) |- _ => inversion H; clear H; subst end).
    repeat constructor; try assumption; apply add_w_word.
  Qed.
  Lemma round_spec s k x : st_words s -> is_step v k x (stf s) (stf (round P s k x)).
  Proof.
    destruct HP as (Hw & _ & _ & Hm & E0 & E1 & _).
    destruct s as [a b c d e f g h]. intros H. unfold st_words in H. cbn [list_of_st] in H.
    assert (Ha : word a) by (inversion H; assumption).
    assert (He : word e) by (do 4 (inversion H as [|? ? _ H']; clear H; rename H' into H; subst); inversion H; assumption).
    exists (big_sigma P (p_s1 P) e), (big_sigma P (p_s0 P) a), (ch e f g), (maj a b c). eexists.
    split; [rewrite E1; apply big_sigma_spec; assumption|]. split; [rewrite E0; apply big_sigma_spec; assumption|].
    split; [apply ch_spec|]. split; [apply maj_spec|]. split; [reflexivity|].
    unfold stf. cbn [list_of_st round nth]. rewrite !add_w_5, !add_w_mod. split; [|split].
    - merge_mods. f_equal. lia.
    - merge_mods. reflexivity.
    - intros j Hj. cbn [In] in Hj. repeat (destruct Hj as [<-|Hj]; [reflexivity|]). destruct Hj.
  Qed.

  (** The schedule as a sliding window. *)
  Section Block.
    Variables (block : bytes) (s0 : st8).
    Hypothesis Hblock : has_bytes (16 * v_wb v) block.
    Hypothesis Hs : st_words s0.
    Definition win_at (n : nat) : list N :=
      Nat.iter n (fun win => tl win ++ [next_w P win]) (map be_val (chunks 16 (p_wb P) block)).
    Definition sched (t : nat) : N := nth 0 (win_at t) 0.
    Fixpoint st_at (n : nat) : st8 :=
      match n with
      | O => s0
      | S n' => round P (st_at n') (nth n' (p_k P) 0) (hd 0 (win_at n'))
      end.

    Lemma win_length n : length (win_at n) = 16%nat.
    Proof.
      destruct HP as (_ & Eb & _). destruct Hblock as [Hl _].
      induction n as [|n IH].
      - change (win_at 0) with (map be_val (chunks 16 (p_wb P) block)). rewrite map_length. apply chunks_length; rewrite ?Eb; [exact Hwb|rewrite Hl; lia|lia].
      - change (win_at (S n)) with (tl (win_at n) ++ [next_w P (win_at n)]). rewrite app_length.
        destruct (win_at n) as [|x l] eqn:E; [discriminate|]. cbn [length tl] in *. lia.
    Qed.
    Lemma win_shift n j : (j < 15)%nat -> nth j (win_at (S n)) 0 = nth (S j) (win_at n) 0.
    Proof.
      intros Hj. pose proof (win_length n) as Hl. change (win_at (S n)) with (tl (win_at n) ++ [next_w P (win_at n)]).
      destruct (win_at n) as [|x l]; [discriminate|]. cbn [tl nth] in *. apply app_nth1. cbn in Hl. lia.
    Qed.
    Lemma win_sched n j : (j < 16)%nat -> nth j (win_at n) 0 = sched (n + j).
    Proof.
      revert n. induction j as [|j IH]; intros n Hj; [rewrite Nat.add_0_r; reflexivity|].
      rewrite <- win_shift by lia. rewrite IH by lia. f_equal. lia.
    Qed.
    Lemma sched_next n : sched (n + 16) = next_w P (win_at n).
    Proof.
      replace (n + 16)%nat with (S n + 15)%nat by lia. rewrite <- win_sched by lia.
      pose proof (win_length n) as Hl. change (win_at (S n)) with (tl (win_at n) ++ [next_w P (win_at n)]).
      destruct (win_at n) as [|x l]; [discriminate|]. cbn [tl length] in *.
      rewrite app_nth2 by lia. replace (15 - length l)%nat with 0%nat by lia. reflexivity.
    Qed.
    Lemma sched_first t : (t < 16)%nat -> sched t = be_val (firstn (v_wb v) (skipn (v_wb v * t) block)).
    Proof.
      destruct HP as (_ & Eb & _). intros Ht. change t with (0 + t)%nat at 1. rewrite <- win_sched by exact Ht.
      change (win_at 0) with (map be_val (chunks 16 (p_wb P) block)). change 0 with (be_val []). rewrite map_nth.
      rewrite chunks_nth by (rewrite ?Eb; lia). rewrite Eb. reflexivity.
    Qed.
    Lemma sched_word t : word (sched t).
    Proof.
      destruct (Nat.lt_ge_cases t 16) as [Ht|Ht].
      - rewrite sched_first by exact Ht. destruct Hblock as [_ Hb]. destruct HP as (Ew & Eb & E8 & _).
        eapply N.lt_le_trans; [apply be_val_lt, bytes_ok_firstn, bytes_ok_skipn, Hb|].
        rewrite <- Ew, E8, Eb. replace (2 ^ (8 * N.of_nat (v_wb v))) with (256 ^ N.of_nat (v_wb v)) by (rewrite N.pow_mul_r; reflexivity).
        apply N.pow_le_mono_r; [lia|]. unfold len. pose proof (firstn_le_length (v_wb v) (skipn (v_wb v * t) block)). lia.
      - replace t with ((t - 16) + 16)%nat by lia. rewrite sched_next. apply add_w_word.
    Qed.
    Lemma sched_spec (M : nat -> N) : (forall t, (t < 16)%nat -> M t = be_val (firstn (v_wb v) (skipn (v_wb v * t) block))) ->
      is_schedule v M sched.
    Proof.
      intros HM. split; [intros t Ht; rewrite HM by exact Ht; apply sched_first, Ht|].
      intros t Ht. destruct HP as (_ & _ & _ & _ & _ & _ & E0 & E1 & _).
      exists (small_sigma P (p_g1 P) (sched (t - 2))), (small_sigma P (p_g0 P) (sched (t - 15))).
      split; [rewrite E1; apply small_sigma_spec; [exact Hs1|apply sched_word]|].
      split; [rewrite E0; apply small_sigma_spec; [exact Hs0|apply sched_word]|].
      replace t with ((t - 16) + 16)%nat at 1 by lia. rewrite sched_next. unfold next_w.
      rewrite !win_sched by lia. rewrite !add_w_mod. merge_mods.
      replace (t - 16 + 14)%nat with (t - 2)%nat by lia. replace (t - 16 + 9)%nat with (t - 7)%nat by lia.
      replace (t - 16 + 1)%nat with (t - 15)%nat by lia. replace (t - 16 + 0)%nat with (t - 16)%nat by lia. f_equal. lia.
    Qed.
    Lemma rounds_st_at ks n : ks = skipn n (p_k P) -> rounds P ks (win_at n) (st_at n) = st_at (n + length ks).
    Proof.
      revert n. induction ks as [|k ks IH]; intros n E; [rewrite Nat.add_0_r; reflexivity|].
      cbn [rounds length]. replace (n + S (length ks))%nat with (S n + length ks)%nat by lia.
      assert (Hk : nth n (p_k P) 0 = k).
      { rewrite <- (firstn_skipn n (p_k P)), <- E. rewrite app_nth2; rewrite firstn_length_le.
        - rewrite Nat.sub_diag. reflexivity.
        - destruct (Nat.le_gt_cases n (length (p_k P))); [assumption|]. rewrite skipn_all2 in E by lia. discriminate.
        - lia.
        - destruct (Nat.le_gt_cases n (length (p_k P))); [assumption|]. rewrite skipn_all2 in E by lia. discriminate. }
      rewrite <- IH.
      - cbn [st_at]. rewrite Hk. reflexivity.
      - replace (S n) with (n + 1)%nat by lia. rewrite <- skipn_add, <- E. reflexivity.
    Qed.
    Lemma st_at_words n : st_words (st_at n).
    Proof. induction n as [|n IH]; [exact Hs|]. apply round_words, IH. Qed.

    Lemma compress_spec (M : nat -> N) : (forall t, (t < 16)%nat -> M t = be_val (firstn (v_wb v) (skipn (v_wb v * t) block))) ->
      is_compressed_block v (fun t => nth t (p_k P) 0) M (stf s0) (stf (compress P s0 block)).
    Proof.
      intros HM. exists sched, (fun n => stf (st_at n)). split; [apply sched_spec, HM|]. split; [reflexivity|]. split.
      - intros t _. cbn [st_at]. replace (hd 0 (win_at t)) with (sched t) by (unfold sched; destruct (win_at t); reflexivity).
        apply round_spec, st_at_words.
      - intros j Hj. destruct HP as (_ & _ & _ & _ & _ & _ & _ & _ & Ek & _).
        pose proof (rounds_st_at (p_k P) 0 eq_refl) as Er. change (st_at 0) with s0 in Er.
        change (win_at 0) with (map be_val (chunks 16 (p_wb P) block)) in Er.
        unfold compress. rewrite Er. cbn [Nat.add]. rewrite Ek.
        destruct s0 as [a b c d e f g h], (st_at (v_steps v)) as [a' b' c' d' e' f' g' h'].
        unfold stf. cbn [st_add list_of_st].
        do 8 (destruct j as [|j]; [cbn [nth]; apply add_w_mod|]). lia.
    Qed.
    Lemma compress_words : st_words (compress P s0 block).
    Proof.
      unfold compress. destruct (rounds _ _ _ _). destruct s0. unfold st_words. cbn [st_add list_of_st].
      repeat constructor; apply add_w_word.
    Qed.
  End Block.

  Lemma pad_length n : ((n + length (pad P n)) mod (16 * v_wb v) = 0)%nat.
  Proof.
    destruct HP as (_ & Eb & _). unfold pad, block_size. rewrite Eb. cbn [length]. rewrite app_length, repeat_length, be_bytes_length.
    set (bs := (16 * v_wb v)%nat). set (lw := (2 * v_wb v)%nat).
    assert (Hbs : bs <> 0%nat) by lia. assert (Hlw : (lw + 1 <= bs)%nat) by lia.
    pose proof (Nat.mod_upper_bound n bs Hbs) as Hn. pose proof (Nat.div_mod n bs Hbs) as En.
    set (x := (2 * bs - 1 - lw - n mod bs)%nat).
    replace (n + S (x mod bs + lw))%nat with (n + 1 + lw + x mod bs)%nat by lia.
    rewrite Nat.add_mod_idemp_r by exact Hbs.
    replace (n + 1 + lw + x)%nat with ((n / bs + 2) * bs)%nat by (unfold x; lia). apply Nat.mod_mul, Hbs.
  Qed.
  Lemma fold_words bl s : Forall (fun b => has_bytes (16 * v_wb v) b) bl -> st_words s -> st_words (fold_left (compress P) bl s).
  Proof.
    intros H. revert s. induction H as [|b bl Hb _ IH]; intros s Hs'; [exact Hs'|]. cbn [fold_left]. apply IH.
    apply compress_words; assumption.
  Qed.

  Lemma sha2_spec m : bytes_ok m -> 8 * len m < 256 ^ N.of_nat (2 * v_wb v) ->
    is_K v (fun t => nth t (p_k P) 0) -> is_H0 v (fun j => nth j (p_h P) 0) -> is_sha2 v m (sha2 P m).
  Proof.
    intros Hm Hlen HK HH. pose proof HP as (Ew & Eb & E8 & _ & _ & _ & _ & _ & _ & Eh & Hw0).
    set (p := m ++ pad P (length m)). set (bs := (16 * v_wb v)%nat). assert (Hbs : bs <> 0%nat) by lia.
    assert (Hp : bytes_ok p).
    { apply bytes_ok_app. split; [exact Hm|]. unfold pad. constructor; [reflexivity|]. apply bytes_ok_app. split; [|apply be_bytes_ok].
      apply Forall_forall. intros x Hx. apply repeat_spec in Hx. subst x. reflexivity. }
    assert (Emod : (length p mod bs = 0)%nat) by (unfold p; rewrite app_length; apply pad_length).
    assert (Edm : length p = (bs * (length p / bs))%nat) by (pose proof (Nat.div_mod (length p) bs Hbs); lia).
    set (n := (length p / bs)%nat) in *.
    assert (Ebs : block_size P = bs) by (unfold block_size; rewrite Eb; reflexivity).
    set (cs := chunks (length p) bs p).
    assert (Hnl : (n <= length p)%nat) by nia.
    assert (Hcl : length cs = n) by (apply chunks_length; [lia|exact Edm|exact Hnl]).
    assert (Hcs : Forall (fun b => has_bytes bs b) cs) by (apply (chunks_has_bytes _ _ _ n); [lia|exact Hp|exact Edm]).
    set (s0 := st_of_list (p_h P)).
    assert (Hs : st_words s0).
    { unfold st_words, s0, st_of_list. cbn [list_of_st]. assert (H : forall j, (j < 8)%nat -> word (nth j (p_h P) 0)).
      { intros j Hj. rewrite Forall_forall in Hw0. apply Hw0, nth_In. rewrite Eh. exact Hj. }
      repeat constructor; apply H; lia. }
    exists p, (fun t => nth t (p_k P) 0), (fun i => stf (fold_left (compress P) (firstn i cs) s0)).
    split; [|split; [exact HK|split; [|split; [|split]]]].
    - exists ((2 * bs - 1 - 2 * v_wb v - length m mod bs) mod bs)%nat, (be_bytes (2 * v_wb v) (8 * N.of_nat (length m))).
      split; [unfold p, pad; rewrite Ebs, Eb; reflexivity|]. split; [split; [apply be_bytes_length|apply be_bytes_ok]|].
      split; [|split; [exact Emod|apply Nat.mod_upper_bound, Hbs]].
      rewrite digits_be, be_val_be_bytes. apply N.mod_small. exact Hlen.
    - intros j Hj. cbn [firstn fold_left]. destruct (HH j Hj) as (q & Hq & Hr). exists q. split; [exact Hq|].
      unfold s0, st_of_list, stf. cbn [list_of_st]. do 8 (destruct j as [|j]; [exact Hr|]). lia.
    - intros i Hi. change (i < n)%nat in Hi. assert (Hi' : (i < length cs)%nat) by lia.
      assert (E : firstn (S i) cs = firstn i cs ++ [nth i cs []]).
      { rewrite <- (firstn_skipn i cs) at 1. rewrite firstn_app, firstn_firstn, firstn_length_le by lia.
        replace (Nat.min (S i) i) with i by lia. replace (S i - i)%nat with 1%nat by lia. f_equal.
        destruct (skipn i cs) as [|x l] eqn:Es.
        - pose proof (skipn_length i cs) as Hsl. rewrite Es in Hsl. cbn in Hsl. lia.
        - cbn. f_equal. rewrite <- (firstn_skipn i cs), Es. rewrite app_nth2; rewrite firstn_length_le by lia; [|lia].
          rewrite Nat.sub_diag. reflexivity. }
      rewrite E, fold_left_app. cbn [fold_left].
      assert (Hb : has_bytes bs (nth i cs [])) by (rewrite Forall_forall in Hcs; apply Hcs, nth_In, Hi').
      apply compress_spec; [exact Hb| |].
      + apply fold_words; [|exact Hs]. apply Forall_forall. intros x Hx. rewrite Forall_forall in Hcs. apply Hcs.
        rewrite <- (firstn_skipn i cs). apply in_or_app. left. exact Hx.
      + intros t Ht. unfold block_word. rewrite digits_be. fold bs. f_equal.
        unfold cs. rewrite chunks_nth by lia. rewrite slice_of_block; [reflexivity|]. unfold bs. nia.
    - split; [|apply sha2_ok]. rewrite sha2_length, Eb. lia.
    - intros j Hj. cbv beta. unfold sha2. fold p. unfold absorb. rewrite Ebs. fold cs. fold s0. change (length p / (16 * v_wb v))%nat with n. rewrite <- Hcl, firstn_all.
      set (s := fold_left (compress P) cs s0). assert (Hsw : st_words s) by (apply fold_words; [exact Hcs|exact Hs]).
      unfold digest_of_st. rewrite Eb, flat_map_slice by (destruct s; cbn [list_of_st length]; lia).
      rewrite digits_be, be_val_be_bytes. unfold stf. apply N.mod_small.
      replace (256 ^ N.of_nat (v_wb v)) with (2 ^ v_w v) by (rewrite <- Ew, E8, Eb, N.pow_mul_r; reflexivity).
      unfold st_words in Hsw. rewrite Forall_forall in Hsw. apply Hsw, nth_In. destruct s. cbn [list_of_st length]. lia.
  Qed.
End Sha2.

(** The relation determines the digest. *)
Section Fips.
  Variable v : variant.
  Hypothesis Hwb : (0 < v_wb v)%nat.

  Lemma padded_fun m p p' : is_padded v m p -> is_padded v m p' -> p = p'.
  Proof.
    intros (z & lb & E & [Hl Ho] & Hv & Hm & Hz) (z' & lb' & E' & [Hl' Ho'] & Hv' & Hm' & Hz').
    assert (lb = lb').
    { apply be_val_inj; [assumption|assumption|congruence|]. etransitivity; [exact Hv|symmetry; exact Hv']. }
    subst lb'. assert (z = z'); [|congruence].
    set (bs := (16 * v_wb v)%nat) in *.
    assert (El : length p = (length m + 1 + length lb + z)%nat) by (rewrite E, app_length; cbn [length]; rewrite app_length, repeat_length; lia).
    assert (El' : length p' = (length m + 1 + length lb + z')%nat) by (rewrite E', app_length; cbn [length]; rewrite app_length, repeat_length; lia).
    pose proof (Nat.div_mod (length p) bs ltac:(lia)) as D. pose proof (Nat.div_mod (length p') bs ltac:(lia)) as D'.
    rewrite Hm in D. rewrite Hm' in D'. rewrite El in D at 1. rewrite El' in D' at 1.
    assert (length p / bs = length p' / bs)%nat by nia. lia.
  Qed.

  Lemma Sigma_fun r x y y' : is_Sigma v r x y -> is_Sigma v r x y' -> y = y'.
  Proof. destruct r as [[a b] c]. apply bitwise_fun. Qed.
  Lemma sigma_fun r x y y' : is_sigma v r x y -> is_sigma v r x y' -> y = y'.
  Proof. destruct r as [[a b] c]. apply bitwise_fun. Qed.

  Lemma schedule_fun M M' W W' : (forall t, (t < 16)%nat -> M t = M' t) -> is_schedule v M W -> is_schedule v M' W' ->
    forall t, (t < v_steps v)%nat -> W t = W' t.
  Proof.
    intros HM [H1 H2] [H1' H2'] t. induction t as [t IH] using lt_wf_ind. intros Ht.
    destruct (Nat.lt_ge_cases t 16) as [Hs|Hs]; [rewrite H1, H1', HM by exact Hs; reflexivity|].
    destruct (H2 t ltac:(lia)) as (x & y & Hx & Hy & ->). destruct (H2' t ltac:(lia)) as (x' & y' & Hx' & Hy' & ->).
    rewrite <- (IH (t - 2)%nat) in Hx' by lia. rewrite <- (IH (t - 15)%nat) in Hy' by lia.
    rewrite <- (IH (t - 7)%nat), <- (IH (t - 16)%nat) by lia.
    rewrite (sigma_fun _ _ _ _ Hx Hx'), (sigma_fun _ _ _ _ Hy Hy'). reflexivity.
  Qed.
  Lemma step_fun k x V1 V2 V1' V2' : (forall j, (j < 8)%nat -> V1 j = V2 j) -> is_step v k x V1 V1' -> is_step v k x V2 V2' ->
    forall j, (j < 8)%nat -> V1' j = V2' j.
  Proof.
    intros HV (s1 & s0 & c & m & t1 & Hs1 & Hs0 & Hc & Hm & -> & H0 & H4 & Hj)
      (s1' & s0' & c' & m' & t1' & Hs1' & Hs0' & Hc' & Hm' & -> & H0' & H4' & Hj') j Hlt.
    pose proof (HV 0%nat ltac:(lia)) as E0. pose proof (HV 1%nat ltac:(lia)) as E1. pose proof (HV 2%nat ltac:(lia)) as E2. pose proof (HV 3%nat ltac:(lia)) as E3. pose proof (HV 4%nat ltac:(lia)) as E4. pose proof (HV 5%nat ltac:(lia)) as E5. pose proof (HV 6%nat ltac:(lia)) as E6. pose proof (HV 7%nat ltac:(lia)) as E7.
    rewrite E4 in Hs1. rewrite E0 in Hs0. rewrite E4, E5, E6 in Hc. rewrite E0, E1, E2 in Hm. rewrite E7 in H0. rewrite E3, E7 in H4.
    pose proof (Sigma_fun _ _ _ _ Hs1 Hs1') as ->. pose proof (Sigma_fun _ _ _ _ Hs0 Hs0') as ->.
    pose proof (bitwise_fun _ _ _ _ _ _ Hc Hc') as ->. pose proof (bitwise_fun _ _ _ _ _ _ Hm Hm') as ->.
    assert (Hin : In j (0 :: 4 :: map S [0; 1; 2; 4; 5; 6])%nat) by (cbn [In map]; lia).
    destruct Hin as [<-|[<-|Hin]]; [congruence|congruence|]. apply in_map_iff in Hin. destruct Hin as [i [<- Hi]].
    rewrite (Hj i Hi), (Hj' i Hi). apply HV. cbn [In] in Hi. lia.
  Qed.
  Lemma block_fun K K' M M' H1 H2 H1' H2' : (forall t, (t < v_steps v)%nat -> K t = K' t) ->
    (forall t, (t < 16)%nat -> M t = M' t) -> (forall j, (j < 8)%nat -> H1 j = H2 j) ->
    is_compressed_block v K M H1 H1' -> is_compressed_block v K' M' H2 H2' -> forall j, (j < 8)%nat -> H1' j = H2' j.
  Proof.
    intros HK HM HH (W & V & HW & HV0 & HV & HE) (W' & V' & HW' & HV0' & HV' & HE') j Hj.
    assert (HVV : forall t, (t <= v_steps v)%nat -> forall j, (j < 8)%nat -> V t j = V' t j).
    { intros t. induction t as [|t IH]; intros Ht i Hi; [rewrite HV0, HV0', HH by exact Hi; reflexivity|].
      specialize (HV' t ltac:(lia)). rewrite <- HK, <- (schedule_fun _ _ _ _ HM HW HW') in HV' by lia.
      apply (step_fun _ _ _ _ _ _ (IH ltac:(lia)) (HV t ltac:(lia)) HV' i Hi). }
    rewrite (HE j Hj), (HE' j Hj), HH, HVV by (lia || exact Hj). reflexivity.
  Qed.
  Lemma sha2_fun m d d' : is_sha2 v m d -> is_sha2 v m d' -> d = d'.
  Proof.
    intros (p & K & H & Hp & HK & H0 & HB & [Hl Ho] & HD) (p' & K' & H' & Hp' & HK' & H0' & HB' & [Hl' Ho'] & HD').
    rewrite <- (padded_fun _ _ _ Hp Hp') in *. clear Hp'.
    assert (EK : forall t, (t < v_steps v)%nat -> K t = K' t).
    { intros t Ht. destruct (HK t Ht) as (q & Hq & Hr). destruct (HK' t Ht) as (q' & Hq' & Hr').
      rewrite (nth_prime_fun _ _ _ Hq' Hq) in Hr'. apply (root_bits_fun _ _ _ _ _ Hr Hr'). }
    assert (EH : forall i, (i <= length p / (16 * v_wb v))%nat -> forall j, (j < 8)%nat -> H i j = H' i j).
    { induction i as [|i IH]; intros Hi.
      - intros j Hj. destruct (H0 j Hj) as (q & Hq & Hr). destruct (H0' j Hj) as (q' & Hq' & Hr').
        rewrite (nth_prime_fun _ _ _ Hq' Hq) in Hr'. apply (root_bits_fun _ _ _ _ _ Hr Hr').
      - apply (block_fun _ _ _ _ _ _ _ _ EK (fun t _ => eq_refl) (IH ltac:(lia)) (HB i ltac:(lia)) (HB' i ltac:(lia))). }
    apply (slices_eq (v_wb v) 8); [lia|lia|]. intros j Hj.
    apply be_val_inj; [apply bytes_ok_firstn, bytes_ok_skipn, Ho|apply bytes_ok_firstn, bytes_ok_skipn, Ho'| |].
    - rewrite !firstn_length, !skipn_length. lia.
    - etransitivity; [apply HD, Hj|]. etransitivity; [|symmetry; apply HD', Hj]. apply EH; [lia|exact Hj].
  Qed.
End Fips.

(** The two instances. *)
Lemma len_bound (m : bytes) n : len m < 2 ^ 61 -> (8 <= n)%nat -> 8 * len m < 256 ^ N.of_nat n.
Proof.
  intros H Hn. apply N.lt_le_trans with (256 ^ 8); [change (256 ^ 8) with (8 * 2 ^ 61); lia|].
  apply N.pow_le_mono_r; lia.
Qed.
Lemma sha256_meets m : bytes_ok m -> len m < 2 ^ 61 -> is_sha2 fips_sha256 m (sha256 m).
Proof.
  intros Hm Hl. apply sha2_spec; try exact Hm; try (cbn; lia).
  - unfold same_variant. cbn. repeat split. repeat constructor.
  - apply len_bound; [exact Hl|cbn; lia].
  - intros t Ht. apply (roots_ok_nth 3 32 (firstn 64 primes80)); [apply k256_ok|reflexivity|exact Ht].
  - intros t Ht. apply (roots_ok_nth 2 32 (firstn 8 primes80)); [apply h256_ok|reflexivity|exact Ht].
Qed.
Lemma sha512_meets m : bytes_ok m -> len m < 2 ^ 61 -> is_sha2 fips_sha512 m (sha512 m).
Proof.
  intros Hm Hl. apply sha2_spec; try exact Hm; try (cbn; lia).
  - unfold same_variant. cbn. repeat split. repeat constructor.
  - apply len_bound; [exact Hl|cbn; lia].
  - intros t Ht. apply (roots_ok_nth 3 64 primes80); [apply k512_ok|reflexivity|exact Ht].
  - intros t Ht. apply (roots_ok_nth 2 64 (firstn 8 primes80)); [apply h512_ok|reflexivity|exact Ht].
Qed.
