(** Proofs about the multiplication of scalars in words (restated in PropScalarMul.v). *)
From Coq Require Import ZArith ZifyBool ZifyNat ZifyN.
From Verif Require Import Outcome Bytes Secp SpecSecp SecpProofs SecpSign SpecBip32 SpecChain ModelBip32 Base58Proofs HashLemmas ExtProofs MiscThms ChainThms ModelScalar SpecScalar ModelScalarMul ScalarThms ScalarSteps.
Open Scope N_scope.

(** ** Columns *)
Definition sum (l : list op) : N := fold_right (fun o s => op_val o + s) 0 l.
Fixpoint cols_val (l : list column) : N :=
  match l with [] => 0 | (ops, _) :: l' => sum ops + 4294967296 * cols_val l' end.
Fixpoint ops_fit (l : list op) (A : N) : Prop :=
  match l with [] => True | o :: l' => A + op_val o < op_limit o /\ ops_fit l' (A + op_val o) end.
Lemma steps_ok : forall l c, Forall op_ok l -> acc_ok c -> ops_fit l (acc_val c) ->
  exists c', steps l c = Some c' /\ acc_ok c' /\ acc_val c' = acc_val c + sum l.
Proof.
  induction l as [|o l IH]; intros c F O H; cbn [steps sum fold_right]; [exists c; rewrite N.add_0_r; auto|].
  apply Forall_cons_iff in F. destruct F as [F1 F2]. cbn [ops_fit] in H. destruct H as [H1 H2].
  destruct (step_ok o c O F1 H1) as (c' & -> & O' & V). rewrite <- V in H2. destruct (IH c' F2 O' H2) as (e & E & Oe & Ve).
  exists e. split; [exact E|]. split; [exact Oe|]. rewrite Ve, V. fold (sum l). lia.
Qed.
Lemma extract_ok fast c : acc_ok c -> (fast = true -> acc_val c < 18446744073709551616) ->
  exists w c', extract fast c = Some (w, c') /\ w < 4294967296 /\ acc_ok c' /\ acc_val c = w + 4294967296 * acc_val c'.
Proof.
  destruct c as [x0 x1 x2]. unfold acc_ok, acc_val, extract. cbn [c0 c1 c2]. intros (H0 & H1 & H2) H. destruct fast.
  - specialize (H eq_refl). assert (x2 = 0) by lia. subst x2. unfold assert. change (0 =? 0) with true. cbv iota. do 2 eexists. split; [reflexivity|]. cbn [c0 c1 c2]. lia.
  - do 2 eexists. split; [reflexivity|]. cbn [c0 c1 c2]. lia.
Qed.
Fixpoint cols_fit (l : list column) (A : N) : Prop :=
  match l with
  | [] => True
  | (ops, fast) :: l' => ops_fit ops A /\ (fast = true -> A + sum ops < 18446744073709551616) /\ cols_fit l' ((A + sum ops) / 4294967296)
  end.
Definition col_ok (c : column) : Prop := Forall op_ok (fst c).
Lemma columns_ok : forall l c, Forall col_ok l -> acc_ok c -> cols_fit l (acc_val c) ->
  exists ws c', columns l c = Some (ws, c') /\ acc_ok c' /\ length ws = length l /\ Forall (fun w => w < 2 ^ 32) ws
    /\ words_val ws + 2 ^ (32 * N.of_nat (length l)) * acc_val c' = acc_val c + cols_val l.
Proof.
  induction l as [|[ops fast] l IH]; intros c F O H; cbn [columns cols_val].
  - exists [], c. split; [reflexivity|]. split; [exact O|]. split; [reflexivity|]. split; [constructor|]. cbn [words_val length]. change (2 ^ (32 * N.of_nat 0)) with 1. lia.
  - apply Forall_cons_iff in F. destruct F as [F1 F2]. cbn [cols_fit] in H. destruct H as (H1 & H2 & H3).
    destruct (steps_ok ops c F1 O H1) as (c' & -> & O' & V). rewrite <- V in H2, H3.
    destruct (extract_ok fast c' O' H2) as (w & e & -> & Hw & Oe & Ve).
    assert (D : acc_val c' / 4294967296 = acc_val e).
    { rewrite Ve, N.mul_comm, N.div_add, N.div_small by (discriminate || exact Hw). reflexivity. }
    rewrite D in H3. destruct (IH e F2 Oe H3) as (ws & g & -> & Og & L & Fw & Vw). exists (w :: ws), g. split; [reflexivity|].
    split; [exact Og|]. split; [cbn [length]; rewrite L; reflexivity|]. split; [constructor; assumption|]. cbn [words_val length].
    replace (32 * N.of_nat (S (length l))) with (32 + 32 * N.of_nat (length l)) by lia. rewrite N.pow_add_r. change (2 ^ 32) with 4294967296.
    revert Vw. generalize (2 ^ (32 * N.of_nat (length l))). intros P Vw. rewrite <- N.mul_assoc.
    revert Vw. generalize (P * acc_val g). intros Q Vw. lia.
Qed.
Lemma columns_app : forall l l' c, columns (l ++ l') c =
  match columns l c with None => None | Some (ws, c') => match columns l' c' with None => None | Some (vs, e) => Some (ws ++ vs, e) end end.
Proof.
  induction l as [|[ops fast] l IH]; intros l' c; cbn [app columns].
  - destruct (columns l' c) as [[vs e]|]; reflexivity.
  - destruct (steps ops c) as [c'|]; [|reflexivity]. destruct (extract fast c') as [[w c'']|]; [|reflexivity]. rewrite IH.
    destruct (columns l c'') as [[ws e]|]; [|reflexivity]. destruct (columns l' e) as [[vs g]|]; reflexivity.
Qed.

(** The limits hold whatever the words are: the same sums with the largest words. *)
Definition op_max (o : op) : N :=
  match o with Mul _ _ | MulFast _ _ => 18446744065119617025 | Mul2 _ _ => 36893488130239234050 | Add _ | AddFast _ => 4294967295 end.
Lemma op_max_ok o : op_ok o -> op_val o <= op_max o.
Proof. destruct o; cbn [op_ok op_val op_max]; nia. Qed.
Fixpoint ops_bound (l : list op) (U : N) : option N :=
  match l with
  | [] => Some U
  | o :: l' => if U + op_max o <? op_limit o then ops_bound l' (U + op_max o) else None
  end.
Fixpoint cols_bound (l : list column) (U : N) : option N :=
  match l with
  | [] => Some U
  | (ops, fast) :: l' =>
      match ops_bound ops U with
      | None => None
      | Some V => if (negb fast || (V <? 18446744073709551616))%bool then cols_bound l' (V / 4294967296) else None
      end
  end.
Lemma ops_bound_ok : forall l A U V, Forall op_ok l -> A <= U -> ops_bound l U = Some V -> ops_fit l A /\ A + sum l <= V.
Proof.
  induction l as [|o l IH]; intros A U V F H E; cbn [ops_bound ops_fit sum fold_right] in *.
  - injection E as <-. split; [exact I|]. lia.
  - apply Forall_cons_iff in F. destruct F as [F1 F2]. pose proof (op_max_ok o F1) as M. destruct (N.ltb_spec (U + op_max o) (op_limit o)) as [Lt|]; [|discriminate E].
    destruct (IH (A + op_val o) (U + op_max o) V F2 ltac:(lia) E) as [X Y]. split; [split; [lia|exact X]|]. fold (sum l). lia.
Qed.
Lemma cols_bound_ok : forall l A U V, Forall col_ok l -> A <= U -> cols_bound l U = Some V -> cols_fit l A.
Proof.
  induction l as [|[ops fast] l IH]; intros A U V F H E; cbn [cols_bound cols_fit] in *; [exact I|].
  apply Forall_cons_iff in F. destruct F as [F1 F2]. destruct (ops_bound ops U) as [W|] eqn:EW; [|discriminate E].
  destruct (ops_bound_ok ops A U W F1 H EW) as [X Y]. split; [exact X|]. destruct (N.ltb_spec W 18446744073709551616) as [Lt|Ge].
  - split; [lia|]. rewrite Bool.orb_true_r in E. eapply IH; [exact F2| |exact E]. apply N.div_le_mono; [discriminate|exact Y].
  - destruct fast; [discriminate E|]. split; [discriminate|]. eapply IH; [exact F2| |exact E]. apply N.div_le_mono; [discriminate|exact Y].
Qed.
Lemma cols_bound_app : forall l l' A U V, Forall col_ok l -> A <= U -> cols_bound l U = Some V -> (forall A', A' <= V -> cols_fit l' A') -> cols_fit (l ++ l') A.
Proof.
  induction l as [|[ops fast] l IH]; intros l' A U V F H E G; cbn [cols_bound cols_fit app] in *; [injection E as <-; apply G, H|].
  apply Forall_cons_iff in F. destruct F as [F1 F2]. destruct (ops_bound ops U) as [W|] eqn:EW; [|discriminate E].
  destruct (ops_bound_ok ops A U W F1 H EW) as [X Y]. split; [exact X|]. destruct (N.ltb_spec W 18446744073709551616) as [Lt|Ge].
  - split; [lia|]. rewrite Bool.orb_true_r in E. eapply IH; [exact F2| |exact E|exact G]. apply N.div_le_mono; [discriminate|exact Y].
  - destruct fast; [discriminate E|]. split; [discriminate|]. eapply IH; [exact F2| |exact E|exact G]. apply N.div_le_mono; [discriminate|exact Y].
Qed.
Lemma words_val_app : forall a b, words_val (a ++ b) = words_val a + 2 ^ (32 * N.of_nat (length a)) * words_val b.
Proof.
  induction a as [|w a IH]; intros b; cbn [app words_val length]; [change (2 ^ (32 * N.of_nat 0)) with 1; lia|].
  rewrite IH. replace (32 * N.of_nat (S (length a))) with (32 + 32 * N.of_nat (length a)) by lia. rewrite N.pow_add_r. lia.
Qed.
Lemma words_val_mul k : forall l, words_val (map (N.mul k) l) = k * words_val l.
Proof. induction l as [|w l IH]; cbn [map words_val]; [lia|]. rewrite IH. lia. Qed.
Lemma acc_small c : acc_ok c -> acc_val c < 4294967296 -> c1 c = 0 /\ c0 c = acc_val c.
Proof. unfold acc_ok, acc_val. lia. Qed.

(** ** Products of 512 bits *)
Lemma product_ok cols x y V : Forall col_ok cols -> length cols = 14%nat -> cols_bound cols 0 = Some V -> x < 4294967296 -> y < 4294967296 ->
  cols_val cols + 2 ^ 448 * (x * y) < 2 ^ 512 ->
  exists l, product_512 cols x y = Some l /\ length l = 16%nat /\ Forall (fun w => w < 2 ^ 32) l /\ words_val l = cols_val cols + 2 ^ 448 * (x * y).
Proof.
  intros F L B Hx Hy T. unfold product_512. rewrite columns_app.
  assert (O : acc_ok (Acc 0 0 0)) by (unfold acc_ok; cbn [c0 c1 c2]; lia).
  destruct (columns_ok cols (Acc 0 0 0) F O (cols_bound_ok cols _ 0 V F ltac:(reflexivity) B)) as (ws & c & -> & Oc & Lw & Fw & Vw).
  change (acc_val (Acc 0 0 0)) with 0 in Vw. rewrite L in *. change (2 ^ (32 * N.of_nat 14)) with (2 ^ 448) in Vw.
  assert (A : acc_val c + x * y < 18446744073709551616).
  { revert T Vw. change (2 ^ 512) with (2 ^ 448 * 18446744073709551616). generalize (2 ^ 448), (x * y). intros P q T Vw. nia. }
  assert (F1 : Forall col_ok [([MulFast x y], true)]). { repeat constructor; assumption. }
  destruct (columns_ok [([MulFast x y], true)] c F1 Oc) as (vs & e & -> & Oe & Lv & Fv & Vv).
  { cbn [cols_fit ops_fit sum fold_right op_val op_limit]. rewrite N.add_0_r. tauto. }
  cbn [length cols_val sum fold_right op_val] in Vv, Lv. change (2 ^ (32 * N.of_nat 1)) with 4294967296 in Vv.
  destruct (acc_small e Oe ltac:(lia)) as [E1 E0]. unfold assert. rewrite E1. change (0 =? 0) with true. cbv iota. eexists. split; [reflexivity|].
  split; [rewrite !app_length, Lw, Lv; reflexivity|]. split.
  - apply Forall_app. split; [apply Forall_app; split; assumption|]. constructor; [rewrite E0; change (2 ^ 32) with 4294967296; lia|constructor].
  - rewrite !words_val_app, app_length, Lw, Lv. cbn [words_val]. rewrite E0. change (2 ^ (32 * N.of_nat (14 + 1))) with (2 ^ 448 * 4294967296).
    change (2 ^ (32 * N.of_nat 14)) with (2 ^ 448). revert Vv Vw. generalize (2 ^ 448), (x * y), (acc_val c), (acc_val e), (words_val ws), (words_val vs). intros. nia.
Qed.
Ltac split_words H := destruct H as [?L ?F]; match goal with L : length ?s = 8%nat |- _ => destruct (eight s L) as (?w & ?w & ?w & ?w & ?w & ?w & ?w & ?w & ->); clear L end;
  repeat match goal with H : Forall _ (_ :: _) |- _ => apply Forall_cons_iff in H; destruct H end.
Lemma pow_448 : 2 ^ 448 = let B := 4294967296 in B * B * B * B * B * B * B * B * B * B * B * B * B * B.
Proof. reflexivity. Qed.
Lemma mul_512_ok a b : is_scalar a -> is_scalar b -> exists l, mul_512 a b = Some l /\ length l = 16%nat /\ Forall (fun w => w < 2 ^ 32) l /\ words_val l = words_val a * words_val b.
Proof.
  intros Ha Hb. pose proof (scalar_bound a Ha) as Ba. pose proof (scalar_bound b Hb) as Bb.
  assert (E : cols_val (mul_columns a b) + 2 ^ 448 * (word a 7 * word b 7) = words_val a * words_val b).
  { split_words Ha. split_words Hb. unfold mul_columns, word. cbn [nth cols_val sum fold_right op_val words_val].
    change (2 ^ 32) with 4294967296. rewrite pow_448. cbv zeta. generalize 4294967296. intros B. ring. }
  assert (G : forall i, word a i < 4294967296 /\ word b i < 4294967296).
  { intros i. destruct Ha as [_ Fa], Hb as [_ Fb]. unfold word.
    split; [destruct (nth_in_or_default i a 0) as [I| ->]|destruct (nth_in_or_default i b 0) as [I| ->]]; try reflexivity;
      [exact (proj1 (Forall_forall _ _) Fa _ I)|exact (proj1 (Forall_forall _ _) Fb _ I)]. }
  rewrite <- E. unfold mul_512. eapply product_ok.
  - unfold mul_columns. repeat constructor; cbn [op_ok]; apply G.
  - reflexivity.
  - vm_compute. reflexivity.
  - apply G.
  - apply G.
  - rewrite E. change (2 ^ 512) with (2 ^ 256 * 2 ^ 256). apply N.mul_lt_mono; assumption.
Qed.
Lemma sqr_512_ok a : is_scalar a -> exists l, sqr_512 a = Some l /\ length l = 16%nat /\ Forall (fun w => w < 2 ^ 32) l /\ words_val l = words_val a * words_val a.
Proof.
  intros Ha. pose proof (scalar_bound a Ha) as Ba.
  assert (E : cols_val (sqr_columns a) + 2 ^ 448 * (word a 7 * word a 7) = words_val a * words_val a).
  { split_words Ha. unfold sqr_columns, word. cbn [nth cols_val sum fold_right op_val words_val].
    change (2 ^ 32) with 4294967296. rewrite pow_448. cbv zeta. generalize 4294967296. intros B. ring. }
  assert (G : forall i, word a i < 4294967296).
  { intros i. destruct Ha as [_ Fa]. unfold word. destruct (nth_in_or_default i a 0) as [I| ->]; [exact (proj1 (Forall_forall _ _) Fa _ I)|reflexivity]. }
  rewrite <- E. unfold sqr_512. eapply product_ok.
  - unfold sqr_columns. repeat constructor; cbn [op_ok]; apply G.
  - reflexivity.
  - vm_compute. reflexivity.
  - apply G.
  - apply G.
  - rewrite E. change (2 ^ 512) with (2 ^ 256 * 2 ^ 256). apply N.mul_lt_mono; assumption.
Qed.

(** ** Reduction *)
Definition NC : N := 432420386565659656852420866394968145599.
Lemma NC_words : words_val N_C_WORDS = NC.
Proof. reflexivity. Qed.
Lemma NC_n : NC + nN = 2 ^ 256.
Proof. reflexivity. Qed.
Lemma word_lt l i : Forall (fun w => w < 2 ^ 32) l -> word l i < 4294967296.
Proof. intros F. unfold word. destruct (nth_in_or_default i l 0) as [I| ->]; [exact (proj1 (Forall_forall _ _) F _ I)|reflexivity]. Qed.
Lemma C_lt i : C i < 4294967296.
Proof. unfold C. apply word_lt. repeat constructor. Qed.
Lemma init_ok w : w < 4294967296 -> acc_ok (Acc w 0 0) /\ acc_val (Acc w 0 0) = w.
Proof. unfold acc_ok, acc_val. cbn [c0 c1 c2]. lia. Qed.
Definition low (l : list N) : N := words_val (firstn 8 l).
Definition high (l : list N) : N := words_val (skipn 8 l).
Lemma low_high l : (8 <= length l)%nat -> words_val l = low l + 2 ^ 256 * high l.
Proof. intros H. rewrite <- (firstn_skipn 8 l) at 1. rewrite words_val_app, firstn_length_le by exact H. reflexivity. Qed.
Lemma low_lt l : (8 <= length l)%nat -> Forall (fun w => w < 2 ^ 32) l -> low l < 2 ^ 256.
Proof.
  intros H F. unfold low. rewrite <- (firstn_skipn 8 l) in F. apply Forall_app in F. pose proof (words_val_bound _ (proj1 F)) as B.
  rewrite firstn_length_le in B by exact H. exact B.
Qed.
Lemma many l k : length l = k -> l = map (word l) (seq 0 k).
Proof.
  intros <-. unfold word. apply nth_ext with (d := 0) (d' := 0); [rewrite map_length, seq_length; reflexivity|].
  intros i Hi. rewrite (nth_indep (map _ _) 0 (nth O l 0)) by (rewrite map_length, seq_length; exact Hi).
  rewrite (map_nth (fun i => nth i l 0)), seq_nth by exact Hi. reflexivity.
Qed.
Lemma sum_385 l : length l = 16%nat -> word l 0 + cols_val (columns_385 l) = low l + high l * NC.
Proof.
  intros L. rewrite (many l 16 L). generalize (word l). intros w. cbn [map seq]. unfold columns_385, low, high, word, C. unfold word, N_C_WORDS.
  cbn [nth firstn skipn cols_val sum fold_right op_val words_val Nat.add]. change (2 ^ 32) with 4294967296. unfold NC. ring.
Qed.
Lemma reduce_385_ok l : length l = 16%nat -> Forall (fun w => w < 2 ^ 32) l ->
  exists m, reduce_385 l = Some m /\ length m = 13%nat /\ Forall (fun w => w < 2 ^ 32) m /\ word m 12 <= 1 /\ words_val m = low l + high l * NC.
Proof.
  intros L F. unfold reduce_385. destruct (init_ok (word l 0) (word_lt l 0 F)) as [O V0].
  assert (FC : Forall col_ok (columns_385 l)).
  { unfold columns_385. repeat constructor; cbn [op_ok]; (apply word_lt, F || apply C_lt). }
  destruct (columns_ok (columns_385 l) (Acc (word l 0) 0 0) FC O) as (m & c & -> & Oc & Lm & Fm & Vm).
  { rewrite V0. eapply (cols_bound_ok _ _ 4294967295); [exact FC|pose proof (word_lt l 0 F); lia|vm_compute; reflexivity]. }
  change (length (columns_385 l)) with 12%nat in *. change (2 ^ (32 * N.of_nat 12)) with (2 ^ 384) in Vm. rewrite V0, (sum_385 l L) in Vm.
  assert (Bl : low l < 2 ^ 256) by (apply low_lt; [rewrite L; repeat constructor|exact F]).
  assert (Bh : high l < 2 ^ 256).
  { unfold high. rewrite <- (firstn_skipn 8 l) in F. apply Forall_app in F. pose proof (words_val_bound _ (proj2 F)) as B. rewrite skipn_length, L in B. exact B. }
  assert (A : acc_val c <= 1).
  { revert Vm Bl Bh. generalize (low l), (high l), (acc_val c), (words_val m). unfold NC. change (2 ^ 256) with 115792089237316195423570985008687907853269984665640564039457584007913129639936.
    change (2 ^ 384) with 39402006196394479212279040100143613805079739270465446667948293404245721771497210611414266254884915640806627990306816. intros. lia. }
  destruct (acc_small c Oc ltac:(lia)) as [E1 E0]. unfold assert. rewrite E0. destruct (N.leb_spec (acc_val c) 1) as [_|X]; [|lia].
  eexists. split; [reflexivity|]. split; [rewrite app_length, Lm; reflexivity|]. split.
  - apply Forall_app. split; [exact Fm|]. constructor; [change (2 ^ 32) with 4294967296; lia|constructor].
  - split; [unfold word; rewrite app_nth2 by (rewrite Lm; repeat constructor); rewrite Lm; exact A|].
    rewrite words_val_app, Lm. cbn [words_val]. rewrite N.mul_0_r, N.add_0_r. exact Vm.
Qed.
Lemma sum_258 m : length m = 13%nat -> word m 0 + cols_val (columns_258 m) + 2 ^ 256 * word m 12 = low m + high m * NC.
Proof.
  intros L. rewrite (many m 13 L). generalize (word m). intros w. cbn [map seq]. unfold columns_258, low, high, word, C. unfold word, N_C_WORDS.
  cbn [nth firstn skipn cols_val sum fold_right op_val words_val Nat.add]. change (2 ^ 32) with 4294967296. unfold NC.
  change (2 ^ 256) with 115792089237316195423570985008687907853269984665640564039457584007913129639936. ring.
Qed.
Lemma reduce_258_ok m : length m = 13%nat -> Forall (fun w => w < 2 ^ 32) m -> word m 12 <= 1 -> high m <= NC ->
  exists p p8, reduce_258 m = Some (p, p8) /\ length p = 8%nat /\ Forall (fun w => w < 2 ^ 32) p /\ p8 <= 2 /\ words_val p + 2 ^ 256 * p8 = low m + high m * NC.
Proof.
  intros L F M H. unfold reduce_258. destruct (init_ok (word m 0) (word_lt m 0 F)) as [O V0].
  assert (FC : Forall col_ok (columns_258 m)).
  { unfold columns_258. repeat constructor; cbn [op_ok]; (apply word_lt, F || apply C_lt). }
  destruct (columns_ok (columns_258 m) (Acc (word m 0) 0 0) FC O) as (p & c & -> & Oc & Lp & Fp & Vp).
  { rewrite V0. change (columns_258 m) with (firstn 7 (columns_258 m) ++ [([AddFast (word m 7); MulFast (word m 12) (C 3); AddFast (word m 11)], true)]).
    eapply (cols_bound_app _ _ _ 4294967295); [|pose proof (word_lt m 0 F); lia|vm_compute; reflexivity|].
    - rewrite <- (firstn_skipn 7 (columns_258 m)) in FC. apply Forall_app in FC. apply FC.
    - intros A' HA. cbn [cols_fit ops_fit sum fold_right op_val op_limit]. change (C 3) with 1162945305.
      pose proof (word_lt m 7 F). pose proof (word_lt m 11 F). lia. }
  change (length (columns_258 m)) with 8%nat in *. change (2 ^ (32 * N.of_nat 8)) with (2 ^ 256) in Vp. rewrite V0 in Vp. pose proof (sum_258 m L) as S.
  assert (Bl : low m < 2 ^ 256) by (apply low_lt; [rewrite L; repeat constructor|exact F]).
  assert (T : words_val p + 2 ^ 256 * (acc_val c + word m 12) = low m + high m * NC) by (rewrite <- S, <- Vp; ring).
  assert (A : acc_val c + word m 12 <= 2).
  { revert T Bl H. generalize (low m), (high m), (acc_val c + word m 12), (words_val p). unfold NC. change (2 ^ 256) with 115792089237316195423570985008687907853269984665640564039457584007913129639936. intros. lia. }
  destruct (acc_small c Oc ltac:(lia)) as [E1 E0]. unfold assert. rewrite E0. destruct (N.leb_spec (acc_val c + word m 12) 2) as [_|X]; [|lia].
  do 2 eexists. split; [reflexivity|]. split; [exact Lp|]. split; [exact Fp|]. split; [exact A|exact T].
Qed.
Lemma reduce_512_ok l : length l = 16%nat -> Forall (fun w => w < 2 ^ 32) l ->
  exists s, reduce_512 l = Some s /\ is_scalar s /\ words_val s = words_val l mod nN.
Proof.
  intros L F. unfold reduce_512. destruct (reduce_385_ok l L F) as (m & -> & Lm & Fm & M12 & Vm).
  pose proof (low_high l ltac:(rewrite L; repeat constructor)) as Sl. pose proof (low_high m ltac:(rewrite Lm; repeat constructor)) as Sm.
  assert (Bl : low l < 2 ^ 256) by (apply low_lt; [rewrite L; repeat constructor|exact F]).
  assert (Bh : high l < 2 ^ 256).
  { unfold high. pose proof F as F'. rewrite <- (firstn_skipn 8 l) in F'. apply Forall_app in F'. pose proof (words_val_bound _ (proj2 F')) as B. rewrite skipn_length, L in B. exact B. }
  assert (H : high m <= NC).
  { rewrite Sm in Vm. revert Vm Bl Bh. generalize (low l), (high l), (low m), (high m). unfold NC. change (2 ^ 256) with 115792089237316195423570985008687907853269984665640564039457584007913129639936. intros. lia. }
  destruct (reduce_258_ok m Lm Fm M12 H) as (p & p8 & -> & Lp & Fp & P8 & Vp).
  pose proof (add_words_ok p (map (N.mul p8) N_C_WORDS) 0 ltac:(rewrite Lp; reflexivity)) as A. destruct (add_words p (map (N.mul p8) N_C_WORDS) 0) as [r c].
  destruct A as (Lr & Fr & Vr). rewrite Lp in *. change (2 ^ (32 * N.of_nat 8)) with (2 ^ 256) in Vr. rewrite words_val_mul, NC_words, N.add_0_r in Vr.
  assert (Ir : is_scalar r) by (split; assumption). rewrite (check_overflow_iff r Ir). pose proof (scalar_bound r Ir) as Br. pose proof (scalar_bound p (conj Lp Fp)) as Bp.
  pose proof (reduce_ok r) as R. pose proof NC_n as N1. 
  assert (Hc : c <= 1).
  { revert Vr Bp P8. unfold NC. change (2 ^ 256) with 115792089237316195423570985008687907853269984665640564039457584007913129639936. intros. lia. }
  assert (N2 : 4 * NC < nN) by reflexivity. rewrite Sl. rewrite Sm in Vm. revert R N1 N2 Vr Vp Vm Bl Bh Br Bp. generalize NC, nN, (2 ^ 256). intros K n P R N1 N2 Vr Vp Vm Bl Bh Br Bp.
  assert (T : forall v q, v < n -> words_val r + P * c = v + q * n -> v = (low l + P * high l) mod n).
  { intros v q Hv E. apply (N.mod_unique _ _ (high l + high m + p8 + q)); [exact Hv|]. nia. }
  assert (Q : c + bit (n <=? words_val r) <=? 1 = true).
  { apply N.leb_le. destruct (N.leb_spec n (words_val r)); cbn [bit]; [|lia]. assert (c <> 1) by (intros ->; pose proof (N.mul_le_mono_r _ _ K P8); lia). lia. }
  unfold assert. rewrite Q. eexists. split; [reflexivity|]. 
  destruct (N.eqb_spec c 1) as [->|Hc1].
  - cbn [orb]. destruct (R true Ir) as [R1 R2]. split; [exact R1|]. rewrite R2. assert (B : words_val r + (P - n) < n) by (pose proof (N.mul_le_mono_r _ _ K P8); lia). rewrite N.mod_small by lia.
    apply (T _ 1); [exact B|lia].
  - assert (c = 0) by lia. subst c. cbn [orb]. destruct (N.leb_spec n (words_val r)) as [G|G].
    + destruct (R true Ir) as [R1 R2]. split; [exact R1|]. rewrite R2. replace (words_val r + (P - n)) with (words_val r - n + 1 * P) by lia. rewrite N.mod_add by lia. rewrite N.mod_small by lia.
      apply (T _ 1); [lia|lia].
    + destruct (R false Ir) as [R1 R2]. split; [exact R1|]. rewrite R2, N.add_0_r, N.mod_small by lia. apply (T _ 0); lia.
Qed.
Lemma scalar_mul_ok a b : is_scalar a -> is_scalar b -> exists s, scalar_mul a b = Some s /\ is_scalar s /\ words_val s = (words_val a * words_val b) mod nN.
Proof.
  intros Ha Hb. unfold scalar_mul. destruct (mul_512_ok a b Ha Hb) as (l & -> & L & F & V). rewrite <- V. apply reduce_512_ok; assumption.
Qed.
Lemma scalar_sqr_ok a : is_scalar a -> exists s, scalar_sqr a = Some s /\ is_scalar s /\ words_val s = (words_val a * words_val a) mod nN.
Proof.
  intros Ha. unfold scalar_sqr. destruct (sqr_512_ok a Ha) as (l & -> & L & F & V). rewrite <- V. apply reduce_512_ok; assumption.
Qed.

(** ** Inversion *)
Definition pow_is (x : Z) (s : scalar) (e : Z) : Prop := is_scalar s /\ (0 <= e)%Z /\ key_number s = (x ^ e mod secp_n)%Z.
Lemma pow_sqr x s e : pow_is x s e -> exists t, scalar_sqr s = Some t /\ pow_is x t (2 * e).
Proof.
  intros (I & P & E). destruct (scalar_sqr_ok s I) as (t & -> & It & Vt). exists t. split; [reflexivity|]. split; [exact It|]. split; [apply Z.mul_nonneg_nonneg; [discriminate|exact P]|].
  unfold key_number in *. rewrite Vt, N2Z.inj_mod, N2Z.inj_mul, E. change (Z.of_N nN) with secp_n. rewrite <- Z.mul_mod by discriminate.
  f_equal. rewrite <- Z.pow_add_r by exact P. f_equal. clear. lia.
Qed.
Lemma pow_mul x s t e f : pow_is x s e -> pow_is x t f -> exists v, scalar_mul s t = Some v /\ pow_is x v (e + f).
Proof.
  intros (Is & Ps & Es) (It & Pt & Et). destruct (scalar_mul_ok s t Is It) as (v & -> & Iv & Vv). exists v. split; [reflexivity|]. split; [exact Iv|]. split; [apply Z.add_nonneg_nonneg; assumption|].
  unfold key_number in *. rewrite Vv, N2Z.inj_mod, N2Z.inj_mul, Es, Et. change (Z.of_N nN) with secp_n. rewrite <- Z.mul_mod by discriminate.
  f_equal. symmetry. apply Z.pow_add_r; assumption.
Qed.
Lemma pow_sqr_times x : forall k s e, pow_is x s e -> exists t, sqr_times k s = Some t /\ pow_is x t (e * 2 ^ Z.of_nat k).
Proof.
  induction k as [|k IH]; intros s e H; cbn [sqr_times]; [exists s; split; [reflexivity|]; change (2 ^ Z.of_nat 0)%Z with 1%Z; rewrite Z.mul_1_r; exact H|].
  destruct (pow_sqr x s e H) as (t & -> & Ht). destruct (IH t _ Ht) as (v & -> & Hv). exists v. split; [reflexivity|].
  rewrite Nat2Z.inj_succ, Z.pow_succ_r by lia. replace (e * (2 * 2 ^ Z.of_nat k))%Z with (2 * e * 2 ^ Z.of_nat k)%Z by ring. exact Hv.
Qed.
Lemma pow_sqr_mul x k s t e f : pow_is x s e -> pow_is x t f -> exists v, sqr_mul k s t = Some v /\ pow_is x v (e * 2 ^ Z.of_nat k + f).
Proof.
  intros Hs Ht. unfold sqr_mul. destruct (pow_sqr_times x k s e Hs) as (z & -> & Hz). exact (pow_mul x z t _ f Hz Ht).
Qed.
Definition chain (l : list (nat * Z)) (e : Z) : Z := fold_left (fun e kf => e * 2 ^ Z.of_nat (fst kf) + snd kf)%Z l e.
Lemma pow_loop x : forall l es t e, Forall2 (fun ky kf => fst ky = fst kf /\ pow_is x (snd ky) (snd kf)) l es -> pow_is x t e ->
  exists v, inv_loop l t = Some v /\ pow_is x v (chain es e).
Proof.
  intros l es t e F. revert t e. induction F as [|[k y] [k' f] l es [E H] _ IH]; intros t e Ht; cbn [inv_loop]; [exists t; split; [reflexivity|exact Ht]|].
  cbn [fst snd] in E, H. subst k'. destruct (pow_sqr_mul x k t y e f Ht H) as (v & -> & Hv). exact (IH v _ Hv).
Qed.
Definition inv_exps : list (nat * Z) :=
  [(2%nat, 1); (4%nat, 7); (2%nat, 1); (2%nat, 1); (2%nat, 1); (4%nat, 7); (3%nat, 3); (4%nat, 7); (5%nat, 7); (4%nat, 3);
   (2%nat, 1); (2%nat, 1); (5%nat, 15); (2%nat, 1); (3%nat, 1); (4%nat, 1); (2%nat, 1); (10%nat, 7); (4%nat, 7); (9%nat, 255);
   (2%nat, 1); (3%nat, 1); (3%nat, 1); (5%nat, 15); (2%nat, 1); (5%nat, 3); (4%nat, 3); (2%nat, 1); (8%nat, 3); (3%nat, 3);
   (3%nat, 1); (6%nat, 1); (8%nat, 63)]%Z.
Lemma try_ok {A B} (x : option A) (f : A -> option B) (P : A -> Prop) (Q : B -> Prop) :
  (exists a, x = Some a /\ P a) -> (forall a, P a -> exists b, f a = Some b /\ Q b) -> exists b, obind x f = Some b /\ Q b.
Proof. intros (a & -> & H) F. exact (F a H). Qed.
Lemma pow_line x k s t e f g : pow_is x s e -> pow_is x t f -> (e * 2 ^ Z.of_nat k + f =? g)%Z = true -> exists v, sqr_mul k s t = Some v /\ pow_is x v g.
Proof. intros Hs Ht E. apply Z.eqb_eq in E. subst g. exact (pow_sqr_mul x k s t e f Hs Ht). Qed.
Lemma chain_inv : chain inv_exps 170141183460469231731687303715884105727 = (secp_n - 2)%Z.
Proof. vm_compute. reflexivity. Qed.
Lemma pow_inv x s : pow_is x s 1 -> exists v, scalar_inv s = Some v /\ pow_is x v (secp_n - 2).
Proof.
  intros H. unfold scalar_inv.
  apply (try_ok _ _ _ _ (pow_line x 1 s s 1 1 3 H H eq_refl)). intros x2 H2.
  apply (try_ok _ _ _ _ (pow_line x 1 x2 s 3 1 7 H2 H eq_refl)). intros x3 H3.
  apply (try_ok _ _ _ _ (pow_line x 1 x3 s 7 1 15 H3 H eq_refl)). intros x4 H4.
  apply (try_ok _ _ _ _ (pow_line x 2 x4 x2 15 3 63 H4 H2 eq_refl)). intros x6 H6.
  apply (try_ok _ _ _ _ (pow_line x 1 x6 s 63 1 127 H6 H eq_refl)). intros x7 H7.
  apply (try_ok _ _ _ _ (pow_line x 1 x7 s 127 1 255 H7 H eq_refl)). intros x8 H8.
  apply (try_ok _ _ _ _ (pow_line x 7 x8 x7 255 127 32767 H8 H7 eq_refl)). intros x15 H15.
  apply (try_ok _ _ _ _ (pow_line x 15 x15 x15 32767 32767 1073741823 H15 H15 eq_refl)). intros x30 H30.
  apply (try_ok _ _ _ _ (pow_line x 30 x30 x30 1073741823 1073741823 1152921504606846975 H30 H30 eq_refl)). intros x60 H60.
  apply (try_ok _ _ _ _ (pow_line x 60 x60 x60 1152921504606846975 1152921504606846975 1329227995784915872903807060280344575 H60 H60 eq_refl)). intros x120 H120.
  apply (try_ok _ _ _ _ (pow_line x 7 x120 x7 1329227995784915872903807060280344575 127 170141183460469231731687303715884105727 H120 H7 eq_refl)). intros x127 H127.
  assert (F : Forall2 (fun ky kf => fst ky = fst kf /\ pow_is x (snd ky) (snd kf)) (inv_lines s x2 x3 x4 x6 x8) inv_exps).
  { unfold inv_lines, inv_exps. repeat (apply Forall2_cons; [split; [reflexivity|cbn [snd]; assumption]|]). apply Forall2_nil. }
  destruct (pow_loop x _ _ x127 170141183460469231731687303715884105727 F H127) as (v & -> & Hv). exists v. split; [reflexivity|]. rewrite chain_inv in Hv. exact Hv.
Qed.

(** ** Upper half and negation *)
Lemma cmp_first w v : let no := w <? v in ((v <? w) && negb no)%bool = (v <? w).
Proof. cbv zeta. lia. Qed.
Lemma cmp_ones S T w no yes : w < 4294967296 -> no = (S <? T) -> yes = (T <? S) ->
  (no || (w <? 4294967295) && negb yes)%bool = (w + 4294967296 * S <? 4294967295 + 4294967296 * T) /\ yes = (4294967295 + 4294967296 * T <? w + 4294967296 * S).
Proof. intros Hw -> ->. lia. Qed.
Lemma cmp_above S T w v no yes : w < 4294967296 -> v < 4294967296 -> no = (S <? T) -> yes = (T <? S) ->
  (yes || (v <? w) && negb no)%bool = (v + 4294967296 * T <? w + 4294967296 * S).
Proof. intros Hw Hv -> ->. lia. Qed.
Definition half : N := 57896044618658097711785492504343953926418782139537452191302581570759080747168.
Lemma half_words : words_val N_H_WORDS = half.
Proof. reflexivity. Qed.
Lemma is_high_iff s : is_scalar s -> is_high s = (half <? words_val s).
Proof.
  intros [L F]. destruct (eight s L) as (w0 & w1 & w2 & w3 & w4 & w5 & w6 & w7 & ->). clear L.
  repeat match goal with H : Forall _ (_ :: _) |- _ => apply Forall_cons_iff in H; destruct H end.
  rewrite <- half_words. unfold is_high. unfold word, N_H_WORDS. cbn [nth words_val]. change (2 ^ 32) with 4294967296 in *. rewrite !N.mul_0_r, !N.add_0_r.
  pose proof (cmp_first w7 0x7FFFFFFF) as E2. cbv zeta in E2. pose proof (eq_refl (w7 <? 0x7FFFFFFF)) as E1.
  destruct (cmp_ones _ _ w6 _ _ ltac:(eassumption) E1 E2) as [E3 E4]. clear E1 E2.
  destruct (cmp_ones _ _ w5 _ _ ltac:(eassumption) E3 E4) as [E5 E6]. clear E3 E4.
  destruct (cmp_ones _ _ w4 _ _ ltac:(eassumption) E5 E6) as [E7 E8]. clear E5 E6.
  destruct (cmp_step _ _ w3 0x5D576E73 _ _ ltac:(eassumption) ltac:(reflexivity) E7 E8) as [E1 E2]. clear E7 E8.
  destruct (cmp_step _ _ w2 0x57A4501D _ _ ltac:(eassumption) ltac:(reflexivity) E1 E2) as [E3 E4]. clear E1 E2.
  destruct (cmp_step _ _ w1 0xDFE92F46 _ _ ltac:(eassumption) ltac:(reflexivity) E3 E4) as [E5 E6]. clear E3 E4.
  exact (cmp_above _ _ w0 0x681B20A0 _ _ ltac:(eassumption) ltac:(reflexivity) E5 E6).
Qed.
Lemma not_word w : w < 2 ^ 32 -> N.lxor w 0xFFFFFFFF = 4294967295 - w.
Proof.
  intros H. change 0xFFFFFFFF with (N.ones 32). change (N.lxor w (N.ones 32)) with (N.lnot w 32). rewrite N.lnot_sub_low; [reflexivity|].
  destruct (N.eq_dec w 0) as [->|Z]; [reflexivity|]. apply N.log2_lt_pow2; [lia|exact H].
Qed.
Lemma not_words : forall l, Forall (fun w => w < 2 ^ 32) l -> words_val (map (fun w => N.lxor w 0xFFFFFFFF) l) + words_val l + 1 = 2 ^ (32 * N.of_nat (length l)).
Proof.
  induction 1 as [|w l Hw _ IH]; [reflexivity|]. cbn [map words_val length]. rewrite (not_word w Hw).
  replace (32 * N.of_nat (S (length l))) with (32 + 32 * N.of_nat (length l)) by lia. rewrite N.pow_add_r, <- IH. change (2 ^ 32) with 4294967296 in *. lia.
Qed.
Lemma land_word w : w < 2 ^ 32 -> N.land 0xFFFFFFFF w = w.
Proof. intros H. rewrite N.land_comm, land_ones. apply N.mod_small, H. Qed.
Lemma neg_core r c P n v s : r + P * c = v + n + 1 -> v + s + 1 = P -> r < P -> n < P -> s < n -> s <> 0 -> r = n - s.
Proof.
  intros V W Br Hn Hs E. assert (c = 1); [|subst c; lia]. destruct (N.lt_trichotomy c 1) as [C|[C|C]]; [|exact C|].
  - assert (c = 0) by lia. subst c. lia.
  - assert (P * 2 <= P * c) by (apply N.mul_le_mono_l; lia). lia.
Qed.
Lemma scalar_neg_ok s : is_scalar s -> words_val s < nN -> is_scalar (scalar_neg s) /\ words_val (scalar_neg s) = (nN - words_val s) mod nN.
Proof.
  intros [L F] H. unfold scalar_neg. rewrite is_zero_iff.
  pose proof (add_words_ok (map (fun w => N.lxor w 0xFFFFFFFF) s) N_WORDS 1 ltac:(rewrite map_length, L; reflexivity)) as A.
  destruct (add_words _ N_WORDS 1) as [r c]. cbn [fst]. destruct A as (Lr & Fr & V). rewrite map_length, L in *.
  change (2 ^ (32 * N.of_nat 8)) with (2 ^ 256) in V. rewrite nN_words in V. pose proof (not_words s F) as NW. rewrite L in NW. change (2 ^ (32 * N.of_nat 8)) with (2 ^ 256) in NW.
  pose proof (scalar_bound r (conj Lr Fr)) as Br. destruct (N.eqb_spec (words_val s) 0) as [E|E].
  - assert (X : map (N.land 0) r = repeat 0 8).
    { destruct (eight r Lr) as (? & ? & ? & ? & ? & ? & ? & ? & ->). cbn [map repeat]. rewrite !N.land_0_l. reflexivity. }
    rewrite X, E, N.sub_0_r, N.mod_same by (vm_compute; discriminate). split; [split; [reflexivity|repeat constructor]|reflexivity].
  - assert (X : map (N.land 0xFFFFFFFF) r = r).
    { rewrite <- (map_id r) at 2. apply map_ext_in. intros w Hw. apply land_word. exact (proj1 (Forall_forall _ _) Fr w Hw). }
    rewrite X. split; [split; assumption|]. rewrite N.mod_small by lia. pose proof nN_bound as (N1 & N2 & N3).
    exact (neg_core _ _ _ _ _ _ V NW Br N1 H E).
Qed.
Global Opaque scalar_mul scalar_sqr scalar_inv scalar_add.

Lemma below_n v : v < nN <-> (Z.of_N v < secp_n)%Z.
Proof. assert (En : Z.of_N nN = secp_n) by reflexivity. rewrite <- En. lia. Qed.
Lemma mod_below v : v mod nN < nN.
Proof. apply N.mod_lt. discriminate. Qed.

(** C161 *)
(** Any two scalars: no assertion fails, and the result is the product modulo n, between 0 and n - 1. *)
Lemma c161_mul : forall a b : scalar, is_scalar a -> is_scalar b ->
  exists s, scalar_mul a b = Some s /\ is_scalar s /\ key_number s = ((key_number a * key_number b) mod secp_n)%Z.
Proof.
  intros a b Ha Hb. destruct (scalar_mul_ok a b Ha Hb) as (s & E & Is & V). exists s. split; [exact E|]. split; [exact Is|].
  unfold key_number. rewrite V, N2Z.inj_mod, N2Z.inj_mul. reflexivity.
Qed.
(** Squaring has its own code; it is the product with itself. *)
Lemma c161_sqr : forall a : scalar, is_scalar a -> scalar_sqr a = scalar_mul a a.
Proof.
  intros a Ha. destruct (scalar_mul_ok a a Ha Ha) as (s & -> & [L F] & V). destruct (scalar_sqr_ok a Ha) as (t & -> & [Lt Ft] & Vt).
  f_equal. apply words_val_inj; [rewrite L; exact Lt|exact Ft|exact F|rewrite V; exact Vt].
Qed.
(** The product of 512 bits before the reduction is exact. *)
Lemma c161_product : forall a b : scalar, is_scalar a -> is_scalar b ->
  exists l, mul_512 a b = Some l /\ sqr_512 a = mul_512 a a /\ length l = 16%nat /\ Forall (fun w => w < 2 ^ 32) l /\ words_val l = words_val a * words_val b.
Proof.
  intros a b Ha Hb. destruct (mul_512_ok a b Ha Hb) as (l & E & L & F & V). exists l. split; [exact E|]. split; [|auto].
  destruct (mul_512_ok a a Ha Ha) as (l1 & -> & L1 & F1 & V1). destruct (sqr_512_ok a Ha) as (l2 & -> & L2 & F2 & V2).
  f_equal. apply words_val_inj; congruence.
Qed.
Definition ex_ones : scalar := repeat 0xFFFFFFFF 8.
(** The largest words, whose product makes the most carries. *)
Example c161_example : is_scalar ex_ones
  /\ mul_512 ex_ones ex_ones = Some ([1; 0; 0; 0; 0; 0; 0; 0; 0xFFFFFFFE] ++ repeat 0xFFFFFFFF 7)
  /\ scalar_mul ex_minus_one ex_minus_one = Some [1; 0; 0; 0; 0; 0; 0; 0].
Proof.
  split; [split; [reflexivity|repeat constructor]|]. split; [vm_compute; reflexivity|]. with_strategy transparent [scalar_mul] vm_compute. reflexivity.
Qed.

(** C162 *)
Lemma pow_is_one s : is_scalar s -> words_val s < nN -> pow_is (key_number s) s 1.
Proof.
  intros I H. apply below_n in H. split; [exact I|]. split; [discriminate|]. rewrite Z.pow_1_r. symmetry. apply Z.mod_small. split; [apply N2Z.is_nonneg|exact H].
Qed.
Transparent ninv.
Lemma ninv_pow a : ninv a = (a ^ (secp_n - 2) mod secp_n)%Z.
Proof. unfold ninv. rewrite npow_ok, Z2Pos.id by exact n_2_pos. reflexivity. Qed.
Global Opaque ninv.
Lemma scalar_inv_ok s : is_scalar s -> words_val s < nN -> exists t, scalar_inv s = Some t /\ is_scalar t /\ key_number t = ninv (key_number s).
Proof.
  intros I H. destruct (pow_inv _ s (pow_is_one s I H)) as (t & -> & It & _ & V). exists t. split; [reflexivity|]. split; [exact It|].
  rewrite V. symmetry. apply ninv_pow.
Qed.
(** No assertion fails, and the result times the key is 1 modulo n. *)
Lemma c162_inverse : forall s : scalar, is_key s ->
  exists t, scalar_inv s = Some t /\ is_key t /\ ((key_number s * key_number t) mod secp_n = 1)%Z.
Proof.
  intros s (I & K1 & K2). destruct (scalar_inv_ok s I (proj2 (below_n _) K2)) as (t & E & It & V). exists t. split; [exact E|].
  assert (K : (0 < key_number s < secp_n)%Z) by (unfold key_number; lia).
  assert (D : ((key_number s * key_number t) mod secp_n = 1)%Z).
  { pose proof (ninv_ok _ (small_not_divide _ K)) as D. rewrite <- V in D. destruct D as [q D]. change SecpField.n with secp_n in D.
    replace (key_number s * key_number t)%Z with (1 + q * secp_n)%Z by lia. rewrite Z.mod_add by discriminate. reflexivity. }
  split; [|exact D]. split; [exact It|]. split.
  - destruct (N.eq_dec (words_val t) 0) as [Z|Z]; [|lia]. unfold key_number in D at 2. rewrite Z, Z.mul_0_r in D. discriminate D.
  - change (Z.of_N (words_val t)) with (key_number t). rewrite V, ninv_pow. apply Z.mod_pos_bound. reflexivity.
Qed.
(** The inverse of zero is zero. *)
Lemma c162_inverse_of_zero : scalar_inv (repeat 0 8) = Some (repeat 0 8).
Proof.
  destruct (scalar_inv_ok (repeat 0 8)) as (t & -> & [L F] & V); [split; [reflexivity|repeat constructor]|reflexivity|]. f_equal.
  apply words_val_inj; [rewrite L; reflexivity|exact F|repeat constructor|]. apply N2Z.inj. change (key_number t = 0%Z). rewrite V, ninv_pow.
  change (key_number (repeat 0 8)) with 0%Z. rewrite Z.pow_0_l by reflexivity. reflexivity.
Qed.
(** The upper half, and the negation. *)
Lemma c162_negation : forall s : scalar, is_scalar s -> (key_number s < secp_n)%Z ->
  is_high s = (secp_n <? 2 * key_number s)%Z
  /\ is_scalar (scalar_neg s) /\ key_number (scalar_neg s) = (- key_number s mod secp_n)%Z.
Proof.
  intros s I H. assert (Hn : words_val s < nN) by (apply below_n, H). split.
  - rewrite (is_high_iff s I). unfold key_number in *. assert (E : secp_n = (2 * Z.of_N half + 1)%Z) by reflexivity. rewrite E. lia.
  - destruct (scalar_neg_ok s I Hn) as [J V]. split; [exact J|]. unfold key_number. rewrite V, N2Z.inj_mod, N2Z.inj_sub by lia. change (Z.of_N nN) with secp_n.
    replace (secp_n - Z.of_N (words_val s))%Z with (- Z.of_N (words_val s) + 1 * secp_n)%Z by ring. apply Z.mod_add. discriminate.
Qed.
Example c162_example : scalar_inv ex_minus_one = Some ex_minus_one /\ is_high ex_minus_one = true /\ scalar_neg ex_minus_one = [1; 0; 0; 0; 0; 0; 0; 0]
  /\ scalar_neg (repeat 0 8) = repeat 0 8.
Proof.
  assert (K : is_key ex_minus_one) by apply c160_example.
  split; [|split; [reflexivity|split; reflexivity]]. destruct (c162_inverse _ K) as (t & -> & ([L F] & T1 & T2) & V). f_equal. destruct K as ((Lm & Fm) & _).
  apply words_val_inj; [rewrite L; symmetry; exact Lm|exact F|exact Fm|]. assert (M : key_number ex_minus_one = (secp_n - 1)%Z) by apply c160_example.
  apply N2Z.inj. change (key_number t = key_number ex_minus_one). rewrite M in *. change (Z.of_N (words_val t)) with (key_number t) in T2.
  assert (T3 : (0 < key_number t)%Z) by (unfold key_number; lia). revert V T2 T3. generalize (key_number t). intros v V T2 T3.
  replace ((secp_n - 1) * v)%Z with (secp_n - v + (v - 1) * secp_n)%Z in V by ring. rewrite Z.mod_add, Z.mod_small in V; [lia|lia|discriminate].
Qed.

(** C163 *)
Lemma set_b32_ok b : has_bytes 32 b -> is_scalar (fst (set_b32 b)) /\ words_val (fst (set_b32 b)) = be_val b mod nN /\ snd (set_b32 b) = (nN <=? be_val b).
Proof.
  intros Hb. unfold set_b32. destruct (words_of_bytes b Hb) as [I V]. cbv zeta. revert I V.
  generalize (map (word_of_bytes b) [0; 1; 2; 3; 4; 5; 6; 7]%nat). intros s I V. cbn [fst snd]. rewrite (check_overflow_iff s I), V.
  pose proof (scalar_bound s I) as B. rewrite V in B. pose proof nN_bound as (N1 & N2 & N3). destruct (N.leb_spec nN (be_val b)) as [H|H].
  - destruct (reduce_ok s true I) as [R1 R2]. split; [exact R1|]. split; [|reflexivity]. rewrite R2, V. revert N1 N2 N3 H B. generalize (2 ^ 256), nN, (be_val b). intros P n v N1 N2 N3 H B.
    replace (v + (P - n)) with (v - n + 1 * P) by lia. rewrite N.mod_add by lia. rewrite N.mod_small by lia.
    replace v with (v - n + 1 * n) at 2 by lia. rewrite N.mod_add by lia. symmetry. apply N.mod_small. lia.
  - destruct (reduce_ok s false I) as [R1 R2]. split; [exact R1|]. split; [|reflexivity]. rewrite R2, V, N.add_0_r, !N.mod_small by assumption. reflexivity.
Qed.
Lemma neg_small v n : v < n -> v <> 0 -> (n - v) mod n = n - v /\ 0 < n - v /\ n - v < n /\ v <= n.
Proof. intros H Z. rewrite N.mod_small by lia. lia. Qed.
Lemma some_triple_eq {A B C} (a : A) (b b' : B) (c : C) : b = b' -> Some (a, b, c) = Some (a, b', c).
Proof. intros ->. reflexivity. Qed.
Lemma sign_raw_words sk m k x y rx : is_key sk -> is_scalar m -> (key_number m < secp_n)%Z -> is_key k -> is_ser256 x rx -> ecmult_gen (key_number k) = Point x y ->
  match words_sign_raw rx (Z.odd y) sk m k with
  | Ok (r, s, recid) => is_scalar r /\ is_key s /\ sign_raw (key_number sk) (key_number m) (key_number k) = Some (key_number r, key_number s, recid)
  | Err _ => sign_raw (key_number sk) (key_number m) (key_number k) = None
  | Panic => False
  end.
Proof.
  intros Ks Im Hm (Ik & Kk1 & Kk2) [Hx Ex] Ek. unfold words_sign_raw. destruct (set_b32_ok rx Hx) as (Ir & Vr & Or). destruct (set_b32 rx) as [r o]. cbn [fst snd] in Ir, Vr, Or.
  destruct Ks as (Isk & _). apply below_n in Hm. apply below_n in Kk2.
  destruct (scalar_mul_ok r sk Ir Isk) as (n1 & E1 & I1 & V1).
  destruct (scalar_add_ok n1 m I1 Im ltac:(rewrite V1; apply mod_below) Hm) as (n2 & E2 & I2 & V2).
  destruct (scalar_inv_ok k Ik Kk2) as (i & E3 & I3 & V3).
  destruct (scalar_mul_ok i n2 I3 I2) as (s & E4 & I4 & V4).
  assert (X : (try n := scalar_mul r sk in try n := scalar_add n m in try i := scalar_inv k in scalar_mul i n) = Some s).
  { rewrite E1. cbn [obind]. rewrite E2. cbn [obind]. rewrite E3. cbn [obind]. exact E4. }
  rewrite X. clear X E1 E2 E3 E4.
  assert (Er : key_number r = (x mod secp_n)%Z). { unfold key_number. rewrite Vr, N2Z.inj_mod. rewrite digits_val_be in Ex. rewrite Ex. reflexivity. }
  assert (Es : key_number s = ((ninv (key_number k) * ((key_number r * key_number sk) mod secp_n + key_number m)) mod secp_n)%Z).
  { unfold key_number at 1. rewrite V4, N2Z.inj_mod, N2Z.inj_mul, V2, N2Z.inj_mod, N2Z.inj_add, V1, N2Z.inj_mod, N2Z.inj_mul. change (Z.of_N nN) with secp_n.
    change (Z.of_N (words_val i)) with (key_number i). rewrite V3. apply Z.mul_mod_idemp_r. discriminate. }
  rewrite is_zero_iff, (is_high_iff s I4). unfold sign_raw. rewrite Ek. cbv zeta beta iota. rewrite <- Er, <- Es.
  assert (Ls : words_val s < nN) by (rewrite V4; apply mod_below).
  assert (Z0 : (key_number s =? 0)%Z = (words_val s =? 0)) by (unfold key_number; clear; lia). rewrite Z0.
  assert (Hh : (secp_n / 2 <? key_number s)%Z = (half <? words_val s)). { change (secp_n / 2)%Z with (Z.of_N half). unfold key_number. clear. lia. } rewrite Hh.
  assert (Hov : (secp_n <=? x)%Z = o). { rewrite Or, <- Ex, digits_val_be. change secp_n with (Z.of_N nN). clear. lia. } rewrite Hov.
  destruct (N.eqb_spec (words_val s) 0) as [Z|Z]; [reflexivity|]. destruct (half <? words_val s).
  - destruct (scalar_neg_ok s I4 Ls) as [J V]. split; [exact Ir|]. destruct (neg_small _ _ Ls Z) as (M1 & M2 & M3 & M4). rewrite M1 in V. split.
    + split; [exact J|]. rewrite <- below_n, V. split; assumption.
    + apply some_triple_eq. unfold key_number. rewrite V, N2Z.inj_sub by exact M4. reflexivity.
  - split; [exact Ir|]. split; [|reflexivity]. split; [exact I4|]. rewrite <- below_n. split; [apply N.neq_0_lt_0, Z|exact Ls].
Qed.
Lemma sign_loop_words sk m : is_key sk -> is_scalar m -> (key_number m < secp_n)%Z -> forall fuel kv,
  match words_sign_loop fuel sk m kv with
  | None => sign_loop fuel (key_number sk) (key_number m) kv = None
  | Some (Ok (r, s, c)) => is_scalar r /\ is_scalar s /\ sign_loop fuel (key_number sk) (key_number m) kv = Some (key_number r, key_number s, c)
  | Some _ => False
  end.
Proof.
  intros Ks Im Hm. induction fuel as [|f IH]; intros kv; cbn [words_sign_loop sign_loop]; [reflexivity|].
  destruct (drbg_generate kv) as [gen kv'] eqn:Eg.
  assert (Hg : has_bytes 32 gen).
  { unfold drbg_generate in Eg. apply (f_equal fst) in Eg. cbn [fst] in Eg. rewrite <- Eg. split; [apply hmac_sha256_length|apply hmac_sha256_ok]. }
  clear Eg. destruct (set_b32_ok gen Hg) as (Ik & Vk & Ok). destruct (set_b32 gen) as [k o]. cbn [fst snd] in Ik, Vk, Ok. rewrite is_zero_iff.
  assert (Ez : (Z.of_N (be_val gen) <? secp_n)%Z = negb o). { rewrite Ok. change secp_n with (Z.of_N nN). clear. lia. } rewrite Ez.
  destruct (N.leb_spec nN (be_val gen)) as [H|H]; subst o; cbn [negb andb]; [apply IH|]. rewrite N.mod_small in Vk by exact H.
  assert (E0 : (Z.of_N (be_val gen) =? 0)%Z = (words_val k =? 0)) by (rewrite Vk; clear; lia). rewrite E0. clear E0 Ez.
  destruct (N.eqb_spec (words_val k) 0) as [Z|Z]; cbn [negb]; [apply IH|].
  assert (Kk : is_key k). { split; [exact Ik|]. rewrite <- below_n, Vk. split; [apply N.neq_0_lt_0; rewrite <- Vk; exact Z|exact H]. }
  assert (Ek : Z.of_N (be_val gen) = key_number k) by (unfold key_number; rewrite Vk; reflexivity). rewrite Ek.
  unfold nonce_point. rewrite (proj2 (b32_ok k Ik)). change (Z.of_N (words_val k)) with (key_number k).
  assert (Hk : (0 < key_number k < secp_n)%Z). { destruct Kk as (_ & K1 & K2). split; [unfold key_number; clear - K1; lia|exact K2]. }
  destruct (kG_finite _ Hk) as (x & y & Ep). pose proof (kG_on (key_number k)) as O. rewrite Ep in O. rewrite ecmult_gen_ok, Ep.
  assert (Sx : is_ser256 x (be_bytes 32 (Z.to_N x))).
  { destruct O as [[O1 O2] _]. split; [apply has_bytes_be|]. rewrite val_of_be; [apply Z2N.id, O1|]. change (256 ^ N.of_nat 32) with (Z.to_N (2 ^ 256)).
    apply Z2N.inj_lt; [exact O1|discriminate|]. apply (Z.lt_trans _ secp_p); [exact O2|reflexivity]. }
  rewrite <- ecmult_gen_ok in Ep. pose proof (sign_raw_words sk m k x y _ Ks Im Hm Kk Sx Ep) as W.
  destruct (words_sign_raw _ (Z.odd y) sk m k) as [[[r s] c]|e|]; [|rewrite W; apply IH|destruct W].
  destruct W as (W1 & (W2 & _) & ->). auto.
Qed.
Lemma b32_number s : is_scalar s -> b32 s = be_bytes 32 (Z.to_N (key_number s)).
Proof.
  intros I. destruct (b32_ok s I) as [[L B] V]. unfold key_number. rewrite N2Z.id, <- V, <- L. symmetry. apply be_bytes_be_val, B.
Qed.
(** One nonce: the signature in words is the one that SEC 1 defines, and no assertion of the arithmetic fails. *)
Lemma c163_one_nonce : forall (sk m k : scalar) (z x y : Z) (xb : bytes), is_key sk -> is_key k -> is_scalar m -> key_number m = (z mod secp_n)%Z ->
  is_public_point (key_number k) (Point x y) -> is_ser256 x xb ->
  match words_sign_raw xb (Z.odd y) sk m k with
  | Ok (r, s, recid) => signature_with (key_number k) (key_number sk) z (key_number r) (key_number s) recid
  | Err _ => bad_nonce (key_number k) (key_number sk) z
  | Panic => False
  end.
Proof.
  intros sk m k z x y xb Ks Kk Im Em P Hx. apply is_public_point_iff in P. destruct P as [_ P]. symmetry in P. rewrite <- ecmult_gen_ok in P.
  assert (Hm : (key_number m < secp_n)%Z) by (rewrite Em; apply Z.mod_pos_bound; reflexivity).
  pose proof (sign_raw_words sk m k x y xb Ks Im Hm Kk Hx P) as W. rewrite Em in W.
  assert (Hk : (0 < key_number k < secp_n)%Z). { destruct Kk as (_ & K1 & K2). split; [unfold key_number; clear - K1; lia|exact K2]. }
  destruct (raw_signature (key_number sk) z (key_number k) Hk) as [R1 R2].
  destruct (words_sign_raw xb (Z.odd y) sk m k) as [[[r s] c]|e|]; [apply R1, W|apply R2, W|exact W].
Qed.
(** The digest: 32 bytes, reduced modulo n. *)
Lemma c163_digest : forall b : bytes, has_bytes 32 b -> is_scalar (fst (set_b32 b)) /\ key_number (fst (set_b32 b)) = (Z.of_N (be_val b) mod secp_n)%Z.
Proof.
  intros b Hb. destruct (set_b32_ok b Hb) as (I & V & _). split; [exact I|]. unfold key_number. rewrite V, N2Z.inj_mod. reflexivity.
Qed.
(** So ecdsa_sign in words is ecdsa_sign on integers. *)
Lemma c163_same_signatures : forall (fuel : nat) (sk : scalar) (msg : bytes), is_key sk -> bytes_ok msg ->
  words_ecdsa_sign fuel sk msg = ecdsa_sign fuel (key_number sk) msg.
Proof.
  intros fuel sk msg Ks Hb. unfold words_ecdsa_sign, ecdsa_sign, message_parse_slice. destruct (len msg =? 32) eqn:E; [|reflexivity].
  assert (L : has_bytes 32 msg) by (split; [apply N.eqb_eq in E; unfold len in E; clear - E; lia|exact Hb]). destruct (c163_digest msg L) as [Im Em].
  assert (Hm : (key_number (fst (set_b32 msg)) < secp_n)%Z) by (rewrite Em; apply Z.mod_pos_bound; reflexivity). cbv zeta. rewrite <- Em. unfold sign.
  rewrite <- (b32_number sk) by apply Ks. rewrite <- (b32_number _ Im). generalize (drbg_new (b32 sk) (b32 (fst (set_b32 msg)))). intros kv.
  pose proof (sign_loop_words sk _ Ks Im Hm fuel kv) as W. destruct (words_sign_loop fuel sk _ kv) as [[[[r s] c]|e|]|]; [|destruct W|destruct W|rewrite W; reflexivity].
  destruct W as (Ir & Is & ->). unfold signature_serialize. rewrite <- (b32_number r Ir), <- (b32_number s Is). reflexivity.
Qed.
Definition ex_word (v : N) : scalar := v :: repeat 0 7.
(** The secret 1, the nonce 1 and the digest 5: s is the abscissa of the generator plus 5. *)
Example c163_example : is_key (ex_word 1) /\ is_public_point (key_number (ex_word 1)) (Point gx gy) /\ is_ser256 gx (be_bytes 32 (Z.to_N gx))
  /\ exists r s, words_sign_raw (be_bytes 32 (Z.to_N gx)) (Z.odd gy) (ex_word 1) (ex_word 5) (ex_word 1) = Ok (r, s, 0)
       /\ key_number r = gx /\ key_number s = (gx + 5)%Z.
Proof.
  assert (K : is_key (ex_word 1)). { split; [split; [reflexivity|repeat constructor]|split; reflexivity]. } split; [exact K|].
  assert (P : is_public_point 1 (Point gx gy)). { apply is_public_point_iff. split; [discriminate|]. rewrite kG_1. reflexivity. } split; [exact P|].
  assert (S : is_ser256 gx (be_bytes 32 (Z.to_N gx))) by (split; [apply has_bytes_be|vm_compute; reflexivity]). split; [exact S|].
  apply is_public_point_iff in P. destruct P as [_ P]. rewrite <- ecmult_gen_ok in P. symmetry in P.
  pose proof (sign_raw_words (ex_word 1) (ex_word 5) (ex_word 1) gx gy _ K ltac:(split; [reflexivity|repeat constructor]) ltac:(reflexivity) K S P) as W.
  change (key_number (ex_word 1)) with 1%Z in W. change (key_number (ex_word 5)) with 5%Z in W. rewrite (proj1 c64_example) in W.
  destruct (words_sign_raw _ _ _ _ _) as [[[r s] c]|e|]; [|discriminate W|destruct W]. destruct W as (_ & _ & W).
  apply some_triple in W. destruct W as (W1 & W2 & W3). exists r, s. rewrite <- W3. auto.
Qed.
