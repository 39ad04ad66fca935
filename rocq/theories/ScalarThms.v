(** Proofs that the words of private keys hold integers modulo n (restated in PropScalar.v). *)
From Coq Require Import ZArith ZifyBool ZifyNat ZifyN.
From Verif Require Import Outcome Bytes Secp SpecSecp SecpProofs ModelBip32 SpecBip32 ModelScalar SpecScalar.
Open Scope N_scope.

Definition nN : N := Z.to_N secp_n.
Lemma nN_words : words_val N_WORDS = nN.
Proof. vm_compute. reflexivity. Qed.
Lemma nN_c_words : words_val N_C_WORDS + nN = 2 ^ 256.
Proof. vm_compute. reflexivity. Qed.
Lemma cmp_top w4 w5 w6 w7 : w4 < 4294967296 -> w5 < 4294967296 -> w6 < 4294967296 -> w7 < 4294967296 ->
  let S := w4 + 4294967296 * (w5 + 4294967296 * (w6 + 4294967296 * (w7 + 4294967296 * 0))) in
  let T := 4294967294 + 4294967296 * (4294967295 + 4294967296 * (4294967295 + 4294967296 * (4294967295 + 4294967296 * 0))) in
  let no := ((w7 <? 4294967295) || (w6 <? 4294967295) || (w5 <? 4294967295) || (w4 <? 4294967294))%bool in
  no = (S <? T) /\ ((4294967294 <? w4) && negb no)%bool = (T <? S).
Proof.
  intros. subst S T no.
  destruct (N.ltb_spec w7 4294967295); [split; cbn [orb]; lia|]. assert (w7 = 4294967295) by lia. subst w7. cbn [orb].
  destruct (N.ltb_spec w6 4294967295); [split; cbn [orb]; lia|]. assert (w6 = 4294967295) by lia. subst w6. cbn [orb].
  destruct (N.ltb_spec w5 4294967295); [split; cbn [orb]; lia|]. assert (w5 = 4294967295) by lia. subst w5. cbn [orb].
  split; lia.
Qed.
Lemma cmp_step S T w v no yes : w < 4294967296 -> v < 4294967296 -> no = (S <? T) -> yes = (T <? S) ->
  let no' := (no || (w <? v) && negb yes)%bool in
  no' = (w + 4294967296 * S <? v + 4294967296 * T) /\ (yes || (v <? w) && negb no')%bool = (v + 4294967296 * T <? w + 4294967296 * S).
Proof. intros Hw Hv -> -> no'. subst no'. lia. Qed.
Lemma cmp_last S T w v no yes : w < 4294967296 -> v < 4294967296 -> no = (S <? T) -> yes = (T <? S) ->
  (yes || (v <=? w) && negb no)%bool = (v + 4294967296 * T <=? w + 4294967296 * S).
Proof. intros Hw Hv -> ->. lia. Qed.
Lemma eight s : length s = 8%nat -> exists w0 w1 w2 w3 w4 w5 w6 w7 : N, s = [w0; w1; w2; w3; w4; w5; w6; w7].
Proof.
  intros L. do 8 (destruct s as [|? s]; [discriminate L|]). destruct s; [|discriminate L]. repeat eexists.
Qed.
Lemma check_overflow_iff s : is_scalar s -> check_overflow s = (nN <=? words_val s).
Proof.
  intros [L F]. destruct (eight s L) as (w0 & w1 & w2 & w3 & w4 & w5 & w6 & w7 & ->). clear L.
  repeat match goal with H : Forall _ (_ :: _) |- _ => apply Forall_cons_iff in H; destruct H end.
  rewrite <- nN_words. unfold check_overflow. unfold word, N_WORDS. cbn [nth words_val]. change (2 ^ 32) with 4294967296 in *.
  destruct (cmp_top w4 w5 w6 w7) as [E1 E2]; try assumption.
  destruct (cmp_step _ _ w3 0xBAAEDCE6 _ _ ltac:(eassumption) ltac:(reflexivity) E1 E2) as [E3 E4]. clear E1 E2.
  destruct (cmp_step _ _ w2 0xAF48A03B _ _ ltac:(eassumption) ltac:(reflexivity) E3 E4) as [E5 E6]. clear E3 E4.
  destruct (cmp_step _ _ w1 0xBFD25E8C _ _ ltac:(eassumption) ltac:(reflexivity) E5 E6) as [E7 E8]. clear E5 E6.
  exact (cmp_last _ _ w0 0xD0364141 _ _ ltac:(eassumption) ltac:(reflexivity) E7 E8).
Qed.

Lemma land_ones t : N.land t 0xFFFFFFFF = t mod 2 ^ 32.
Proof. change 0xFFFFFFFF with (N.ones 32). apply N.land_ones. Qed.
Lemma add_words_ok : forall a b t, length a = length b -> let '(r, c) := add_words a b t in
  length r = length a /\ Forall (fun w => w < 2 ^ 32) r
  /\ words_val r + 2 ^ (32 * N.of_nat (length a)) * c = words_val a + words_val b + t.
Proof.
  induction a as [|x a IH]; intros b t L; destruct b as [|y b]; try discriminate L; cbn [add_words].
  - split; [reflexivity|]. split; [constructor|]. cbn [words_val length]. change (2 ^ (32 * N.of_nat 0)) with 1. lia.
  - cbn [length] in L. injection L as L. specialize (IH b (N.shiftr (t + (x + y)) 32) L).
    destruct (add_words a b (N.shiftr (t + (x + y)) 32)) as [r c]. destruct IH as (Lr & Fr & V). cbn [length words_val].
    split; [rewrite Lr; reflexivity|]. rewrite land_ones. split; [constructor; [apply N.mod_lt; discriminate|exact Fr]|].
    rewrite N.shiftr_div_pow2 in V. pose proof (N.div_mod (t + (x + y)) (2 ^ 32) ltac:(discriminate)) as D.
    replace (32 * N.of_nat (S (length a))) with (32 + 32 * N.of_nat (length a)) by lia. rewrite N.pow_add_r.
    revert V D. generalize (2 ^ (32 * N.of_nat (length a))), ((t + (x + y)) / 2 ^ 32), ((t + (x + y)) mod 2 ^ 32). intros P q m V D. nia.
Qed.
Lemma words_val_bound s : Forall (fun w => w < 2 ^ 32) s -> words_val s < 2 ^ (32 * N.of_nat (length s)).
Proof.
  induction 1 as [|w s Hw _ IH]; [reflexivity|]. cbn [words_val length].
  replace (32 * N.of_nat (S (length s))) with (32 + 32 * N.of_nat (length s)) by lia. rewrite N.pow_add_r.
  revert IH. generalize (2 ^ (32 * N.of_nat (length s))). intros P IH. nia.
Qed.
Lemma scalar_bound s : is_scalar s -> words_val s < 2 ^ 256.
Proof. intros [L F]. pose proof (words_val_bound s F) as B. rewrite L in B. exact B. Qed.
Lemma reduce_ok s o : is_scalar s -> is_scalar (scalar_reduce s o) /\ words_val (scalar_reduce s o) =
  (words_val s + (if o then 2 ^ 256 - nN else 0)) mod 2 ^ 256.
Proof.
  intros [L F]. unfold scalar_reduce. pose proof (add_words_ok s (map (N.mul (if o then 1 else 0)) N_C_WORDS) 0 ltac:(rewrite L; reflexivity)) as A.
  destruct (add_words _ _ 0) as [r c]. cbn [fst]. destruct A as (Lr & Fr & V). rewrite L in *. split; [split; assumption|].
  pose proof (scalar_bound r (conj Lr Fr)) as B. change (2 ^ (32 * N.of_nat 8)) with (2 ^ 256) in V.
  assert (E : words_val (map (N.mul (if o then 1 else 0)) N_C_WORDS) = if o then 2 ^ 256 - nN else 0).
  { destruct o; vm_compute; reflexivity. }
  rewrite E, N.add_0_r in V. rewrite <- V. rewrite N.mul_comm, N.mod_add by discriminate. symmetry. apply N.mod_small, B.
Qed.
Lemma nN_bound : nN < 2 ^ 256 /\ 2 ^ 256 < 2 * nN /\ 0 < nN.
Proof. vm_compute. repeat split. Qed.
(** Scalar::add_in_place adds modulo n, and its assertion holds. *)
Lemma scalar_add_ok a b : is_scalar a -> is_scalar b -> words_val a < nN -> words_val b < nN ->
  exists s, scalar_add a b = Some s /\ is_scalar s /\ words_val s = (words_val a + words_val b) mod nN.
Proof.
  intros [La Fa] [Lb Fb] Ha Hb. unfold scalar_add. pose proof (add_words_ok a b 0 ltac:(congruence)) as A.
  destruct (add_words a b 0) as [s c]. destruct A as (Ls & Fs & V). rewrite La in *. change (2 ^ (32 * N.of_nat 8)) with (2 ^ 256) in V. rewrite N.add_0_r in V.
  assert (Is : is_scalar s) by (split; assumption). rewrite (check_overflow_iff s Is). pose proof (scalar_bound s Is) as B. pose proof nN_bound as (N1 & N2 & N3).
  revert V B N1 N2 N3 Ha Hb. generalize nN_c_words. pose proof (reduce_ok s) as R. revert R. generalize nN, (2 ^ 256). intros n P R C V B N1 N2 N3 Ha Hb.
  assert (Hc : c = 0 \/ c = 1) by (destruct (N.le_gt_cases c 1); [lia|nia]). destruct Hc as [-> | ->].
  - rewrite N.mul_0_r, N.add_0_r in V. destruct (N.leb_spec n (words_val s)) as [H|H].
    + change (0 + 1 <? 2) with true. change (0 + 1 =? 1) with true. cbv iota. eexists. split; [reflexivity|]. destruct (R true Is) as [R1 R2]. split; [exact R1|].
      rewrite R2, <- V. replace (words_val s + (P - n)) with (words_val s - n + 1 * P) by lia. rewrite N.mod_add by lia.
      rewrite N.mod_small by lia. symmetry. replace (words_val s) with (words_val s - n + 1 * n) at 1 by lia. rewrite N.mod_add by lia. apply N.mod_small. lia.
    + change (0 + 0 <? 2) with true. change (0 + 0 =? 1) with false. cbv iota. eexists. split; [reflexivity|]. destruct (R false Is) as [R1 R2]. split; [exact R1|].
      rewrite R2, <- V, N.add_0_r. rewrite !N.mod_small by lia. reflexivity.
  - rewrite N.mul_1_r in V. assert (H : words_val s < n) by lia. destruct (N.leb_spec n (words_val s)) as [X|_]; [lia|].
    change (1 + 0 <? 2) with true. change (1 + 0 =? 1) with true. cbv iota. eexists. split; [reflexivity|]. destruct (R true Is) as [R1 R2]. split; [exact R1|].
    rewrite R2, <- V. rewrite N.mod_small by lia. replace (words_val s + P) with (words_val s + (P - n) + 1 * n) by lia. rewrite N.mod_add by lia. symmetry. apply N.mod_small. lia.
Qed.
Lemma fold_lor : forall s x, fold_left N.lor s x = 0 <-> x = 0 /\ Forall (fun w => w = 0) s.
Proof.
  induction s as [|w s IH]; intros x; cbn [fold_left]; [split; [intros ->; split; [reflexivity|constructor]|tauto]|].
  rewrite IH, N.lor_eq_0_iff, Forall_cons_iff. tauto.
Qed.
Lemma words_zero s : words_val s = 0 <-> Forall (fun w => w = 0) s.
Proof.
  induction s as [|w s IH]; cbn [words_val]; [split; [constructor|reflexivity]|]. rewrite Forall_cons_iff, <- IH. lia.
Qed.
Lemma is_zero_iff s : scalar_is_zero s = (words_val s =? 0).
Proof.
  unfold scalar_is_zero. apply Bool.eq_iff_eq_true. rewrite !N.eqb_eq, fold_lor, words_zero. tauto.
Qed.

(** Words from bytes and back *)
Lemma lor_shift x y k : x < 2 ^ k -> N.lor x (N.shiftl y k) = x + 2 ^ k * y.
Proof.
  intros H. rewrite N.shiftl_mul_pow2, (N.mul_comm (2 ^ k)).
  assert (A : N.land x (y * 2 ^ k) = 0).
  { apply N.bits_inj. intros i. rewrite N.land_spec, N.bits_0. destruct (N.lt_ge_cases i k) as [G|G].
    - rewrite (N.mul_pow2_bits_low _ _ _ G). apply Bool.andb_false_r.
    - destruct (N.eq_dec x 0) as [->|Hx]; [rewrite N.bits_0; reflexivity|]. rewrite (N.bits_above_log2 x i); [reflexivity|].
      apply (N.lt_le_trans _ k); [apply N.log2_lt_pow2; lia|exact G]. }
  rewrite (N.add_nocarry_lxor _ _ A), (N.lxor_lor _ _ A). reflexivity.
Qed.
Lemma word_bytes x0 x1 x2 x3 : x0 < 256 -> x1 < 256 -> x2 < 256 -> x3 < 256 ->
  N.lor (N.lor (N.lor x0 (N.shiftl x1 8)) (N.shiftl x2 16)) (N.shiftl x3 24) = x0 + 256 * x1 + 65536 * x2 + 16777216 * x3.
Proof.
  intros H0 H1 H2 H3. rewrite (lor_shift x0 x1 8) by exact H0. change (2 ^ 8) with 256.
  rewrite (lor_shift _ x2 16) by (change (2 ^ 16) with 65536; lia). change (2 ^ 16) with 65536.
  rewrite (lor_shift _ x3 24) by (change (2 ^ 24) with 16777216; lia). reflexivity.
Qed.
Lemma list_step {A} (l : list A) k : length l = S k -> exists x r, l = x :: r /\ length r = k.
Proof. destruct l as [|x r]; intros H; [discriminate H|]. injection H as H. eauto. Qed.
Lemma words_of_bytes b : has_bytes 32 b -> is_scalar (map (word_of_bytes b) [0; 1; 2; 3; 4; 5; 6; 7]%nat)
  /\ words_val (map (word_of_bytes b) [0; 1; 2; 3; 4; 5; 6; 7]%nat) = be_val b.
Proof.
  intros [L B].
  do 32 (apply list_step in L; destruct L as (?x & ?r & -> & L); apply Forall_cons_iff in B; destruct B as [?Hb B]).
  match type of L with length ?r = O => destruct r; [|discriminate L] end. clear L B. unfold byte_ok in *.
  unfold word_of_bytes. cbn [map nth Nat.sub Nat.mul Nat.add]. rewrite !word_bytes by assumption. split.
  - split; [reflexivity|]. change (2 ^ 32) with 4294967296. repeat apply Forall_cons; try lia. constructor.
  - unfold be_val. cbn [fold_left words_val]. change (2 ^ 32) with 4294967296. lia.
Qed.
Lemma bytes_of_word w : w < 4294967296 ->
  be_val [N.land (N.shiftr w 24) 255; N.land (N.shiftr w 16) 255; N.land (N.shiftr w 8) 255; N.land w 255] = w.
Proof.
  intros H. change 255 with (N.ones 8). rewrite !N.land_ones, !N.shiftr_div_pow2.
  change (2 ^ 24) with 16777216. change (2 ^ 16) with 65536. change (2 ^ 8) with 256. unfold be_val. cbn [fold_left].
  pose proof (N.div_mod w 256 ltac:(lia)) as D1. pose proof (N.div_mod (w / 256) 256 ltac:(lia)) as D2.
  pose proof (N.div_mod (w / 65536) 256 ltac:(lia)) as D3.
  rewrite N.div_div in D2 by lia. change (256 * 256) with 65536 in D2.
  rewrite N.div_div in D3 by lia. change (65536 * 256) with 16777216 in D3.
  assert (D4 : (w / 16777216) mod 256 = w / 16777216) by (apply N.mod_small, N.div_lt_upper_bound; lia). rewrite D4.
  revert D1 D2 D3. generalize (w / 256), (w / 65536), (w / 16777216), (w mod 256), ((w / 256) mod 256), ((w / 65536) mod 256). lia.
Qed.
Lemma bytes_of_word_ok w : has_bytes 4 [N.land (N.shiftr w 24) 255; N.land (N.shiftr w 16) 255; N.land (N.shiftr w 8) 255; N.land w 255].
Proof.
  split; [reflexivity|]. assert (X : forall v, byte_ok (N.land v 255)).
  { intros v. change 255 with (N.ones 8). rewrite N.land_ones. apply N.mod_lt. discriminate. }
  repeat (apply Forall_cons; [apply X|]). constructor.
Qed.
Lemma b32_ok s : is_scalar s -> has_bytes 32 (b32 s) /\ be_val (b32 s) = words_val s.
Proof.
  intros [L F]. unfold b32.
  set (f := fun w => [N.land (N.shiftr w 24) 255; N.land (N.shiftr w 16) 255; N.land (N.shiftr w 8) 255; N.land w 255]).
  assert (G : forall l, Forall (fun w => w < 2 ^ 32) l -> has_bytes (4 * length l) (flat_map f (rev l)) /\ be_val (flat_map f (rev l)) = words_val l).
  { induction 1 as [|w l Hw _ IH]; [split; [split; [reflexivity|constructor]|reflexivity]|]. cbn [rev]. rewrite flat_map_app. cbn [flat_map]. rewrite app_nil_r.
    destruct IH as [[I1 I2] I3]. destruct (bytes_of_word_ok w) as [O1 O2]. split.
    - split; [rewrite app_length, I1; cbn [length f]; lia|]. apply bytes_ok_app. split; [exact I2|exact O2].
    - rewrite be_val_app. unfold f at 2 3. rewrite (bytes_of_word w Hw), I3. unfold len. cbn [length words_val]. change (256 ^ N.of_nat 4) with (2 ^ 32). lia. }
  destruct (G s F) as [G1 G2]. rewrite L in G1. split; assumption.
Qed.
Lemma words_val_inj : forall s t, length s = length t -> Forall (fun w => w < 2 ^ 32) s -> Forall (fun w => w < 2 ^ 32) t -> words_val s = words_val t -> s = t.
Proof.
  induction s as [|x s IH]; intros [|y t] L F G E; try discriminate L; [reflexivity|]. injection L as L.
  apply Forall_cons_iff in F, G. destruct F as [F1 F2], G as [G1 G2]. cbn [words_val] in E. change (2 ^ 32) with 4294967296 in *.
  assert (x = y) by lia. subst y. f_equal. apply IH; try assumption. lia.
Qed.

(** C160 *)
(** Reading 32 bytes: accepted exactly if the number is between 1 and n - 1, and the words hold it. *)
Lemma c160_parse : forall b : bytes, has_bytes 32 b ->
  match key_parse b with
  | Some s => is_key s /\ words_val s = be_val b
  | None => be_val b = 0 \/ (secp_n <= Z.of_N (be_val b))%Z
  end.
Proof.
  intros b Hb. unfold key_parse, set_b32. destruct (words_of_bytes b Hb) as [I V]. cbv zeta. revert I V.
  generalize (map (word_of_bytes b) [0; 1; 2; 3; 4; 5; 6; 7]%nat). intros s I V. rewrite (check_overflow_iff s I), V.
  assert (En : Z.of_N nN = secp_n) by reflexivity. pose proof (scalar_bound s I) as B. rewrite V in B.
  destruct (N.leb_spec nN (be_val b)) as [H|H]; [right; lia|]. destruct (reduce_ok s false I) as [R1 R2]. rewrite is_zero_iff, R2, V, N.add_0_r, (N.mod_small _ _ B).
  destruct (N.eqb_spec (be_val b) 0) as [E|E]; [left; exact E|]. split; [|rewrite R2, V, N.add_0_r; apply N.mod_small, B].
  split; [exact R1|]. rewrite R2, V, N.add_0_r, (N.mod_small _ _ B). lia.
Qed.
(** Writing: 32 bytes with the same number, and reading them gives the same words. *)
Lemma c160_serialize : forall s : scalar, is_key s ->
  has_bytes 32 (key_serialize s) /\ be_val (key_serialize s) = words_val s /\ key_parse (key_serialize s) = Some s.
Proof.
  intros s (I & K1 & K2). unfold key_serialize. destruct (b32_ok s I) as [B1 B2]. split; [exact B1|]. split; [exact B2|].
  pose proof (c160_parse (b32 s) B1) as P. rewrite B2 in P. destruct (key_parse (b32 s)) as [t|].
  - destruct P as [(J & _) E]. f_equal. destruct I as [I1 I2], J as [J1 J2]. apply words_val_inj; congruence.
  - exfalso. destruct P as [P|P]; lia.
Qed.
(** Adding: modulo n, an error exactly if the sum is 0 modulo n; the assertion in the code never fails. *)
Lemma c160_add : forall s t : scalar, is_key s -> is_key t ->
  match key_tweak_add s t with
  | Ok v => is_key v /\ key_number v = ((key_number s + key_number t) mod secp_n)%Z
  | Err _ => ((key_number s + key_number t) mod secp_n = 0)%Z
  | Panic => False
  end.
Proof.
  intros s t (Is & S1 & S2) (It & T1 & T2). assert (En : Z.of_N nN = secp_n) by reflexivity. unfold key_tweak_add, key_number.
  destruct (scalar_add_ok s t Is It ltac:(lia) ltac:(lia)) as (v & -> & Iv & V). rewrite is_zero_iff.
  assert (M : Z.of_N (words_val v) = ((Z.of_N (words_val s) + Z.of_N (words_val t)) mod secp_n)%Z).
  { rewrite V, N2Z.inj_mod, N2Z.inj_add, En. reflexivity. }
  pose proof (Z.mod_pos_bound (Z.of_N (words_val s) + Z.of_N (words_val t)) secp_n ltac:(reflexivity)) as R.
  destruct (N.eqb_spec (words_val v) 0) as [E|E]; [rewrite <- M, E; reflexivity|]. split; [|exact M]. split; [exact Iv|]. lia.
Qed.
(** So the model on integers is the code on words. *)
Lemma c160_same_keys :
  (forall b, has_bytes 32 b -> secret_parse b = option_map key_number (key_parse b))
  /\ (forall s, is_key s -> secret_serialize (key_number s) = key_serialize s)
  /\ (forall s b, is_key s -> has_bytes 32 b -> private_derive_child (key_number s) b =
       match key_parse b with
       | None => Panic
       | Some t => match key_tweak_add s t with Ok v => Ok (key_number v) | Err _ => Err ECrypto | Panic => Panic end
       end).
Proof.
  assert (A : forall b, has_bytes 32 b -> secret_parse b = option_map key_number (key_parse b)).
  { intros b Hb. pose proof (c160_parse b Hb) as P. destruct (key_parse b) as [s|]; cbn [option_map].
    - destruct P as [(_ & K1 & K2) E]. apply secret_parse_iff. unfold key_number. rewrite E in *. split; [reflexivity|]. split; [lia|exact K2].
    - destruct (secret_parse b) as [k|] eqn:E; [|reflexivity]. apply secret_parse_iff in E. destruct E as [-> E]. exfalso. change SecpField.n with secp_n in E.
      destruct P as [P|P]; [rewrite P in E|]; lia. }
  split; [exact A|]. split.
  - intros s K. destruct (c160_serialize s K) as ([L B] & E & _). unfold secret_serialize, key_number. rewrite N2Z.id, <- E, <- L. apply be_bytes_be_val, B.
  - intros s b K Hb. unfold private_derive_child. rewrite (A b Hb). pose proof (c160_parse b Hb) as P. destruct (key_parse b) as [t|]; cbn [option_map or_panic bind]; [|reflexivity].
    destruct P as [Kt _]. pose proof (c160_add s t K Kt) as D. destruct (key_tweak_add s t) as [v|e|]; [| |destruct D].
    + destruct D as [(_ & K1 & _) E]. unfold ok_or. rewrite (proj2 (secret_tweak_add_iff _ _ (key_number v))); [reflexivity|]. split; [exact E|]. unfold key_number. lia.
    + unfold secret_tweak_add. change (Z.of_N (words_val s)) with (key_number s). cbv zeta. rewrite D. reflexivity.
Qed.
Definition ex_minus_one : scalar := [0xD0364140; 0xBFD25E8C; 0xAF48A03B; 0xBAAEDCE6; 0xFFFFFFFE; 0xFFFFFFFF; 0xFFFFFFFF; 0xFFFFFFFF].
Definition ex_three : scalar := [3; 0; 0; 0; 0; 0; 0; 0].
Example c160_example : is_key ex_minus_one /\ is_key ex_three /\ key_number ex_minus_one = (secp_n - 1)%Z
  /\ key_tweak_add ex_minus_one ex_three = Ok [2; 0; 0; 0; 0; 0; 0; 0] /\ key_tweak_add ex_minus_one [1; 0; 0; 0; 0; 0; 0; 0] = Err tt
  /\ key_parse (repeat 255 32) = None.
Proof.
  assert (X : forall s, length s = 8%nat -> forallb (fun w => w <? 2 ^ 32) s = true -> 0 < words_val s -> (Z.of_N (words_val s) <? secp_n)%Z = true -> is_key s).
  { intros s L F P Q. split; [split; [exact L|]|split; [exact P|apply Z.ltb_lt, Q]]. apply Forall_forall. intros w Hw. apply N.ltb_lt. exact (proj1 (forallb_forall _ _) F w Hw). }
  split; [apply X; reflexivity|]. split; [apply X; reflexivity|]. split; [reflexivity|]. split; [reflexivity|]. split; reflexivity.
Qed.
