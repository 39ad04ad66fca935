(** Proofs of the properties of child numbers and derivation paths (restated in PropPath.v). *)
From Coq Require Import String ZifyBool ZifyNat ZifyN.
From Verif Require Import Outcome Bytes Str ModelBip32 SpecBip32 StrLemmas BitLemmas Base58Proofs.
Open Scope N_scope.

(** ** Bit operations on u32 *)
Lemma lor_flag i : i < 2 ^ 31 -> N.lor i hardened_flag = i + 2 ^ 31.
Proof.
  intros H. unfold hardened_flag. rewrite <- N.lxor_lor, N.add_nocarry_lxor; [reflexivity| |];
    apply N.bits_inj; intros k; rewrite N.land_spec, N.bits_0, N.pow2_bits_eqb;
    (destruct (N.eqb_spec 31 k) as [<-|E]; [|apply andb_false_r]);
    rewrite N.bits_above_log2; try reflexivity; (destruct (N.eq_dec i 0) as [->|Z]; [reflexivity|]; apply N.log2_lt_pow2; lia).
Qed.
Lemma land_flag c : N.land c hardened_flag = if N.testbit c 31 then 2 ^ 31 else 0.
Proof.
  unfold hardened_flag. apply N.bits_inj. intros k. rewrite N.land_spec, N.pow2_bits_eqb.
  destruct (N.eqb_spec 31 k) as [<-|E].
  - destruct (N.testbit c 31); [|rewrite N.bits_0; reflexivity]. rewrite N.pow2_bits_true. reflexivity.
  - rewrite andb_false_r. destruct (N.testbit c 31); [rewrite N.pow2_bits_false by congruence|rewrite N.bits_0]; reflexivity.
Qed.
Lemma testbit_31 c : c < 2 ^ 32 -> N.testbit c 31 = (2 ^ 31 <=? c).
Proof.
  intros H. rewrite N.testbit_eqb. destruct (N.leb_spec (2 ^ 31) c) as [L|L].
  - replace (c / 2 ^ 31) with 1; [reflexivity|]. apply N.div_unique with (c - 2 ^ 31); lia.
  - rewrite N.div_small by exact L. reflexivity.
Qed.
Lemma is_hardened_ok c : u32 c -> child_is_hardened c = (2 ^ 31 <=? c).
Proof.
  intros H. unfold child_is_hardened. rewrite land_flag, testbit_31 by exact H. destruct (2 ^ 31 <=? c); reflexivity.
Qed.
Lemma child_index_ok c : child_index c = c mod 2 ^ 31.
Proof.
  unfold child_index. change (N.lxor hardened_flag (2 ^ 32 - 1)) with (N.ones 31). apply N.land_ones.
Qed.
Lemma child_new_ok i h : i < 2 ^ 31 -> child_new i h = Ok (i + (if h : bool then 2 ^ 31 else 0)).
Proof.
  intros H. unfold child_new. destruct (N.leb_spec hardened_flag i) as [L|L]; [unfold hardened_flag in L; lia|].
  destruct h; [rewrite lor_flag by exact H|rewrite N.add_0_r]; reflexivity.
Qed.
Lemma child_new_err i h : 2 ^ 31 <= i -> child_new i h = Err EChildNumber.
Proof. intros H. unfold child_new. destruct (N.leb_spec hardened_flag i) as [L|L]; [reflexivity|unfold hardened_flag in L; lia]. Qed.
Lemma split_child c : u32 c -> c mod 2 ^ 31 + (if 2 ^ 31 <=? c then 2 ^ 31 else 0) = c.
Proof.
  intros H. unfold u32 in H. destruct (N.leb_spec (2 ^ 31) c) as [L|L].
  - replace (c mod 2 ^ 31) with (c - 2 ^ 31); [lia|]. apply N.mod_unique with 1; lia.
  - rewrite N.mod_small; lia.
Qed.

(** C28 *)
Lemma c28_child_number_fields : forall (i : N) (h : bool) (c : N), u32 i -> u32 c ->
  (i < 2 ^ 31 -> exists d, child_new i h = Ok d /\ u32 d /\ child_index d = i /\ child_is_hardened d = h)
  /\ (2 ^ 31 <= i -> child_new i h = Err EChildNumber)
  /\ child_new (child_index c) (child_is_hardened c) = Ok c
  /\ child_index c = c mod 2 ^ 31 /\ (child_is_hardened c = true <-> 2 ^ 31 <= c).
Proof.
  intros i h c Hi Hc. split; [|split; [|split; [|split]]].
  - intros H. exists (i + (if h then 2 ^ 31 else 0)). rewrite child_new_ok by exact H. split; [reflexivity|].
    assert (U : u32 (i + (if h then 2 ^ 31 else 0))) by (unfold u32; destruct h; lia). split; [exact U|].
    rewrite child_index_ok, is_hardened_ok by exact U. destruct h.
    + split; [|lia]. symmetry. apply N.mod_unique with 1; lia.
    + rewrite N.add_0_r. split; [apply N.mod_small, H|lia].
  - apply child_new_err.
  - rewrite child_index_ok, is_hardened_ok by exact Hc. rewrite child_new_ok by (apply N.mod_lt; discriminate).
    f_equal. apply split_child, Hc.
  - apply child_index_ok.
  - rewrite is_hardened_ok by exact Hc. lia.
Qed.
Example c28_example : child_new 44 true = Ok 2147483692 /\ child_index 2147483692 = 44 /\ child_is_hardened 2147483692 = true
  /\ child_new 2147483648 false = Err EChildNumber.
Proof. repeat split; reflexivity. Qed.

(** ** Decimal text *)
Lemma decimal_app s t : decimal (s ++ t) = decimal s * 10 ^ len t + decimal t.
Proof. unfold decimal. rewrite map_app, digits_val_app. unfold len. rewrite map_length. reflexivity. Qed.
Lemma decimal_cons c s : decimal (c :: s) = (c - 48) * 10 ^ len s + decimal s.
Proof. unfold decimal. cbn [map]. rewrite digits_val_cons. unfold len. rewrite map_length. reflexivity. Qed.
Lemma dec_digits_ok f : forall n, n < 2 ^ N.of_nat f ->
  let ds := dec_digits (S f) n in
  ds <> [] /\ Forall (fun d => d < 10) ds /\ digits_val 10 ds = n /\ (hd 0 ds = 0 -> n = 0 /\ ds = [0]).
Proof.
  induction f as [|f IH]; intros n H ds; subst ds.
  - assert (n = 0) by (cbn in H; lia). subst n. cbn. repeat split; try discriminate. repeat constructor.
  - cbn [dec_digits]. destruct (N.ltb_spec n 10) as [L|L].
    + split; [discriminate|]. split; [repeat constructor; exact L|]. split; [reflexivity|]. cbn [hd]. intros ->. auto.
    + assert (D : n / 10 < 2 ^ N.of_nat f).
      { apply N.div_lt_upper_bound; [lia|]. rewrite Nat2N.inj_succ, N.pow_succ_r' in H. lia. }
      specialize (IH (n / 10) D). cbv zeta in IH. destruct IH as (Hn & Hf & Hv & Hh).
      remember (dec_digits (S f) (n / 10)) as ds eqn:E. change (if n / 10 <? 10 then [n / 10] else dec_digits f (n / 10 / 10) ++ [(n / 10) mod 10]) with (dec_digits (S f) (n / 10)).
      rewrite <- E. split; [destruct ds; discriminate|]. split.
      { apply Forall_app. split; [exact Hf|]. repeat constructor. apply N.mod_lt. discriminate. }
      split. { rewrite digits_val_app, Hv. change (10 ^ len [n mod 10]) with 10. unfold digits_val. cbn [fold_left].
        pose proof (N.div_mod n 10). lia. }
      destruct ds as [|d ds]; [congruence|]. cbn [app hd]. cbn [hd] in Hh. intros Z. destruct (Hh Z) as [X _].
      assert (1 <= n / 10) by (apply N.div_le_lower_bound; lia). lia.
Qed.
Lemma dec_str_ok n : canonical_decimal (dec_str n) n.
Proof.
  pose proof (dec_digits_ok (N.size_nat n) n (size_nat_lt n)) as H. cbv zeta in H. unfold canonical_decimal, dec_str.
  remember (dec_digits (S (N.size_nat n)) n) as ds eqn:E. clear E. destruct H as (Hn & Hf & Hv & Hh). split; [|split; [|split]].
  - destruct ds; [congruence|discriminate].
  - apply Forall_map. eapply Forall_impl; [|exact Hf]. cbv beta. unfold digit_char. lia.
  - unfold decimal. rewrite map_map. rewrite (map_ext _ (fun d => d)) by (intros; lia). rewrite map_id. exact Hv.
  - destruct ds as [|d ds]; [congruence|]. cbn [map hd]. intros H. destruct Hh as [_ X]; [cbn [hd]; lia|].
    injection X as -> ->. reflexivity.
Qed.

Lemma parse_digits_iff s : forall acc v, acc < 2 ^ 32 ->
  (parse_digits acc s = Some v <-> Forall digit_char s /\ v = acc * 10 ^ len s + decimal s /\ v < 2 ^ 32).
Proof.
  induction s as [|c s IH]; intros acc v Ha; cbn [parse_digits].
  - rewrite len_nil_pow. change (decimal []) with 0. split.
    + intros H. injection H as <-. repeat split; [constructor|lia|lia].
    + intros (_ & -> & _). f_equal. lia.
  - rewrite len_cons_pow, decimal_cons.
    assert (P : 1 <= 10 ^ len s). { apply N.lt_pred_le, N.neq_0_lt_0, N.pow_nonzero. discriminate. }
    destruct ((48 <=? c) && (c <=? 57))%bool eqn:Ec.
    + assert (D : digit_char c) by (unfold digit_char; lia).
      assert (W : acc * (10 * 10 ^ len s) + ((c - 48) * 10 ^ len s + decimal s) = (acc * 10 + (c - 48)) * 10 ^ len s + decimal s) by lia.
      destruct (N.ltb_spec (acc * 10) (2 ^ 32)) as [L1|L1]; [destruct (N.ltb_spec (acc * 10 + (c - 48)) (2 ^ 32)) as [L2|L2]|].
      * rewrite IH by exact L2. rewrite W. split; [intros (F & X); split; [constructor; assumption|exact X]|].
        intros (F & X). inversion F; subst. auto.
      * split; [intros X; discriminate X|]. intros (_ & X & Y). exfalso. rewrite W in X.
        assert ((acc * 10 + (c - 48)) * 1 <= (acc * 10 + (c - 48)) * 10 ^ len s) by (apply N.mul_le_mono_l; exact P). lia.
      * split; [intros X; discriminate X|]. intros (_ & X & Y). exfalso.
        assert (A : acc * 10 * 1 <= acc * 10 * 10 ^ len s) by (apply N.mul_le_mono_l; exact P).
        rewrite W in X. clear - A X Y L1. generalize dependent (c - 48). generalize dependent (10 ^ len s). intros q A d X.
        rewrite N.mul_add_distr_r in X. lia.
    + split; [intros X; discriminate X|]. intros (F & _). exfalso. inversion F as [|? ? D]; subst. unfold digit_char in D. lia.
Qed.
Lemma parse_u32_iff s v : parse_u32 s = Some v <->
  exists sign ds, (sign = [] \/ sign = [plus_sign]) /\ ds <> [] /\ Forall digit_char ds /\ decimal ds = v /\ v < 2 ^ 32 /\ s = sign ++ ds.
Proof.
  assert (Z : 0 < 2 ^ 32) by reflexivity.
  assert (B : forall t, Forall digit_char t /\ v = 0 * 10 ^ len t + decimal t /\ v < 2 ^ 32 <-> Forall digit_char t /\ decimal t = v /\ v < 2 ^ 32).
  { intros t. split; intros (A & E & L); repeat split; auto; lia. }
  destruct s as [|c s]; cbn [parse_u32].
  - split; [intros H; discriminate H|]. intros (sign & ds & S & N & _ & _ & _ & E). symmetry in E. apply app_eq_nil in E. tauto.
  - destruct (N.eqb_spec c 43) as [->|E].
    + destruct s as [|c s].
      * split; [intros H; discriminate H|]. intros (sign & ds & [->| ->] & N & F & _ & _ & E).
        { cbn [app] in E. subst ds. inversion F as [|? ? D]; subst. unfold digit_char in D. lia. }
        injection E as <-. congruence.
      * rewrite parse_digits_iff by exact Z. rewrite B. split.
        { intros (F & V & L). exists [plus_sign], (c :: s). repeat split; auto. discriminate. }
        intros (sign & ds & [->| ->] & N & F & V & L & E).
        { cbn [app] in E. subst ds. inversion F as [|? ? D]; subst. unfold digit_char in D. lia. }
        injection E as <-. auto.
    + rewrite parse_digits_iff by exact Z. rewrite B. split.
      { intros (F & V & L). exists [], (c :: s). repeat split; auto. discriminate. }
      intros (sign & ds & [->| ->] & N & F & V & L & E'); cbn [app] in E'; [subst ds; auto|].
      injection E' as X _. unfold plus_sign in X. congruence.
Qed.
Lemma strip_suffix_spec c s : match strip_suffix c s with Some t => s = t ++ [c] | None => forall t, s <> t ++ [c] end.
Proof.
  unfold strip_suffix. destruct (rev s) as [|x r] eqn:E.
  - intros t ->. rewrite rev_app_distr in E. discriminate E.
  - assert (Es : s = rev r ++ [x]). { rewrite <- (rev_involutive s), E. reflexivity. }
    destruct (N.eqb_spec x c) as [->|N]; [exact Es|]. intros t ->. rewrite rev_app_distr in E. injection E as X _. congruence.
Qed.

Lemma child_from_str_ok s c : child_from_str s = Ok c <-> child_text s c.
Proof.
  unfold child_from_str. pose proof (strip_suffix_spec 39 s) as S.
  assert (Q : forall (body : str) (h : bool),
    (let* index := ok_or (parse_u32 body) EChildNumber in child_new index h) = Ok c <->
    exists sign ds, (sign = [] \/ sign = [plus_sign]) /\ ds <> [] /\ Forall digit_char ds /\ decimal ds < 2 ^ 31
      /\ body = sign ++ ds /\ c = decimal ds + (if h then 2 ^ 31 else 0)).
  { intros body h. rewrite bind_ok. split.
    - intros (i & H1 & H2). destruct (parse_u32 body) as [i'|] eqn:E; [|discriminate H1]. cbn in H1. injection H1 as ->.
      apply parse_u32_iff in E. destruct E as (sign & ds & A1 & A2 & A3 & A4 & A5 & A6).
      destruct (N.lt_ge_cases i (2 ^ 31)) as [L|L]; [|rewrite child_new_err in H2 by exact L; discriminate H2].
      rewrite child_new_ok in H2 by exact L. injection H2 as <-. subst i. exists sign, ds. auto 10.
    - intros (sign & ds & A1 & A2 & A3 & A4 & A5 & A6). exists (decimal ds).
      assert (E : parse_u32 body = Some (decimal ds)). { apply parse_u32_iff. exists sign, ds. repeat split; auto. lia. }
      rewrite E. split; [reflexivity|]. rewrite child_new_ok by exact A4. congruence. }
  unfold child_text. destruct (strip_suffix 39 s) as [body|]; rewrite Q.
  - split.
    + intros (sign & ds & A1 & A2 & A3 & A4 & A5 & A6). exists sign, ds, true. repeat split; auto.
      rewrite S, A5, <- app_assoc. reflexivity.
    + intros (sign & ds & h & A1 & A2 & A3 & A4 & A5 & A6). destruct h.
      * exists sign, ds. repeat split; auto. rewrite A5, app_assoc in S. apply app_inj_tail in S. symmetry. apply S.
      * exfalso. rewrite app_nil_r in A5. destruct (exists_last A2) as (ds' & d & ->).
        rewrite A5, app_assoc in S. apply app_inj_tail in S. destruct S as [_ ->].
        apply Forall_app in A3. destruct A3 as [_ A3]. inversion A3 as [|? ? D]; subst. unfold digit_char in D. lia.
  - split.
    + intros (sign & ds & A1 & A2 & A3 & A4 & A5 & A6). exists sign, ds, false. repeat split; auto.
      rewrite app_nil_r. exact A5.
    + intros (sign & ds & h & A1 & A2 & A3 & A4 & A5 & A6). destruct h.
      * exfalso. apply (S (sign ++ ds)). rewrite A5, <- app_assoc. reflexivity.
      * exists sign, ds. rewrite app_nil_r in A5. auto 10.
Qed.
Lemma child_from_str_total s : (exists c, child_from_str s = Ok c) \/ child_from_str s = Err EChildNumber.
Proof.
  unfold child_from_str. destruct (match strip_suffix 39 s with Some c => (c, true) | None => (s, false) end) as [t h].
  destruct (parse_u32 t) as [i|]; cbn [ok_or bind]; [|auto].
  destruct (N.lt_ge_cases i (2 ^ 31)) as [L|L]; [rewrite child_new_ok by exact L; eauto|rewrite child_new_err by exact L; auto].
Qed.
Lemma child_text_fun s c d : child_text s c -> child_text s d -> c = d.
Proof. intros A B. apply child_from_str_ok in A, B. congruence. Qed.

Lemma child_display_text c : u32 c -> child_text (child_display c) c.
Proof.
  intros H. unfold child_display. rewrite child_index_ok, is_hardened_ok by exact H.
  destruct (dec_str_ok (c mod 2 ^ 31)) as (N & F & V & _).
  exists [], (dec_str (c mod 2 ^ 31)), (2 ^ 31 <=? c). rewrite V. repeat split; auto.
  - apply N.mod_lt. discriminate.
  - symmetry. apply split_child, H.
Qed.

(** C29 *)
Lemma c29_child_text_round_trip : forall c, u32 c ->
  child_from_str (child_display c) = Ok c
  /\ exists ds, canonical_decimal ds (c mod 2 ^ 31) /\ child_display c = ds ++ (if 2 ^ 31 <=? c then [apostrophe] else []).
Proof.
  intros c H. split; [apply child_from_str_ok, child_display_text, H|].
  exists (dec_str (c mod 2 ^ 31)). split; [apply dec_str_ok|].
  unfold child_display. rewrite child_index_ok, is_hardened_ok by exact H. reflexivity.
Qed.
Example c29_example : child_display 2147483692 = lit "44'" /\ child_from_str (lit "44'") = Ok 2147483692
  /\ child_display 0 = lit "0" /\ child_display 4294967295 = lit "2147483647'".
Proof. repeat split; vm_compute; reflexivity. Qed.

(** C30 *)
Lemma c30_child_grammar : forall (s : str) (c : N),
  (child_from_str s = Ok c <-> child_text s c)
  /\ ((forall d, ~ child_text s d) -> child_from_str s = Err EChildNumber).
Proof.
  intros s c. split; [apply child_from_str_ok|]. intros H.
  destruct (child_from_str_total s) as [(d & E)|E]; [|exact E]. apply child_from_str_ok in E. destruct (H d E).
Qed.
Example c30_example : child_from_str (lit "+007'") = Ok 2147483655 /\ child_from_str (lit "2147483648") = Err EChildNumber
  /\ child_from_str (lit "-1") = Err EChildNumber /\ child_from_str (lit "1''") = Err EChildNumber
  /\ child_from_str (lit "'") = Err EChildNumber /\ child_from_str (lit "+") = Err EChildNumber.
Proof. repeat split; vm_compute; reflexivity. Qed.

(** C31 *)
Lemma c31_child_bytes : forall (c : N) (b : bytes), u32 c -> has_bytes 4 b ->
  child_from_bytes (child_to_bytes c) = c /\ has_bytes 4 (child_to_bytes c)
  /\ child_to_bytes (child_from_bytes b) = b /\ u32 (child_from_bytes b)
  /\ forall b3 b2 b1 b0, b = [b3; b2; b1; b0] -> child_from_bytes b = b3 * 2 ^ 24 + b2 * 2 ^ 16 + b1 * 2 ^ 8 + b0.
Proof.
  intros c b Hc [Hl Hb]. unfold child_from_bytes, child_to_bytes. split.
  { rewrite be_val_be_bytes. apply N.mod_small, Hc. }
  split. { split; [apply be_bytes_length|apply be_bytes_ok]. }
  split. { rewrite <- Hl. apply be_bytes_be_val, Hb. }
  split. { pose proof (be_val_lt b Hb) as B. unfold len in B. rewrite Hl in B. exact B. }
  intros b3 b2 b1 b0 ->. unfold be_val. cbn [fold_left]. lia.
Qed.
Example c31_example : child_to_bytes 0x8000002c = [0x80; 0; 0; 0x2c] /\ child_from_bytes [0x80; 0; 0; 0x2c] = 0x8000002c.
Proof. split; reflexivity. Qed.

(** ** Paths *)
Lemma Forall2_imp {A B} (P Q : A -> B -> Prop) l m : (forall a b, P a b -> Q a b) -> Forall2 P l m -> Forall2 Q l m.
Proof. intros H. induction 1; constructor; auto. Qed.
Lemma path_display_eq p : path_display p = 109 :: flat_map (fun t => slash :: t) (map child_display p).
Proof.
  unfold path_display. change (lit "m") with [109]. change (lit "/") with [47].
  enough (H : forall acc, fold_left (fun acc c => acc ++ [47] ++ child_display c) p acc
    = acc ++ flat_map (fun t => slash :: t) (map child_display p)) by exact (H [109]).
  induction p as [|c p IH]; intros acc; cbn [fold_left map flat_map]; [rewrite app_nil_r; reflexivity|].
  rewrite IH, <- !app_assoc. reflexivity.
Qed.
Definition no_slash (w : str) : bool := forallb (fun c => negb (slash =? c)) w.
Lemma split_slash_pieces w comps : no_slash w = true -> Forall (fun t => no_slash t = true) comps ->
  split_char 47 (w ++ flat_map (fun t => slash :: t) comps) = w :: comps.
Proof.
  intros Hw H. revert w Hw. induction H as [|t comps Ht H IH]; intros w Hw; cbn [flat_map].
  - rewrite app_nil_r. apply split_pred_none. exact Hw.
  - cbn [app]. unfold split_char in *. rewrite split_pred_app; [|exact Hw|reflexivity]. f_equal. apply IH, Ht.
Qed.
Lemma split_slash_join s : exists w comps, split_char 47 s = w :: comps /\ s = w ++ flat_map (fun t => slash :: t) comps.
Proof.
  unfold split_char. induction s as [|c s IH]; [exists [], []; auto|]. cbn [split_pred].
  destruct IH as (w & comps & E & S). destruct (N.eqb_spec 47 c) as [<-|N].
  - exists [], (w :: comps). rewrite E. split; [reflexivity|]. cbn [app flat_map]. unfold slash at 1. rewrite <- S. reflexivity.
  - exists (c :: w), comps. rewrite E. split; [reflexivity|]. cbn [app]. rewrite <- S. reflexivity.
Qed.
Lemma digit_no_slash ds : Forall digit_char ds -> no_slash ds = true.
Proof.
  intros H. apply forallb_forall. intros c Hc. rewrite Forall_forall in H. specialize (H c Hc). unfold digit_char, slash in *. lia.
Qed.
Lemma child_text_no_slash s c : child_text s c -> no_slash s = true.
Proof.
  intros (sign & ds & h & A1 & _ & A3 & _ & -> & _). unfold no_slash. rewrite !forallb_app. apply andb_true_iff. split.
  - destruct A1 as [->| ->]; reflexivity.
  - apply andb_true_iff. split; [apply digit_no_slash, A3|]. destruct h; reflexivity.
Qed.
Lemma path_from_str_ok s p : path_from_str s = Ok p <-> path_text s p.
Proof.
  unfold path_from_str, path_text. split.
  - destruct (split_slash_join s) as (w & comps & E & S). rewrite E. destruct (str_eqb w (lit "m")) eqn:Ew; [|discriminate].
    apply str_eqb_spec in Ew. change (lit "m") with [109] in Ew. subst w. rewrite traverse_ok_iff. intros H. exists comps. split; [exact S|].
    eapply Forall2_imp; [|exact H]. intros t c. apply child_from_str_ok.
  - intros (comps & -> & H). change (109 :: flat_map (fun t => slash :: t) comps) with ([109] ++ flat_map (fun t => slash :: t) comps).
    rewrite split_slash_pieces; [|reflexivity|].
    + change (str_eqb [109] (lit "m")) with true. cbv iota. apply traverse_ok_iff.
      eapply Forall2_imp; [|exact H]. intros t c. apply child_from_str_ok.
    + clear - H. induction H; constructor; [eapply child_text_no_slash; eassumption|assumption].
Qed.
Lemma traverse_child_total l : (exists r, traverse child_from_str l = Ok r) \/ traverse child_from_str l = Err EChildNumber.
Proof.
  induction l as [|t l IH]; [left; exists []; reflexivity|]. cbn [traverse].
  destruct (child_from_str_total t) as [(c & E)|E]; rewrite E; cbn [bind]; [|auto].
  destruct IH as [(r & E')|E']; rewrite E'; cbn [bind]; eauto.
Qed.

(** C32 *)
Lemma c32_path_text_round_trip : forall p, Forall u32 p -> path_from_str (path_display p) = Ok p.
Proof.
  intros p H. apply path_from_str_ok. rewrite path_display_eq. exists (map child_display p). split; [reflexivity|].
  induction H as [|c p Hc H IH]; constructor; [apply child_display_text, Hc|exact IH].
Qed.
Example c32_example : path_display [0x8000002c; 0x8000003c; 0; 7] = lit "m/44'/60'/0/7"
  /\ path_from_str (lit "m/44'/60'/0/7") = Ok [0x8000002c; 0x8000003c; 0; 7] /\ path_display [] = lit "m".
Proof. repeat split; vm_compute; reflexivity. Qed.

(** C33 *)
Lemma c33_path_grammar : forall (s : str) (p : list N),
  (path_from_str s = Ok p <-> path_text s p)
  /\ ((forall q, ~ path_text s q) ->
      (s = [109] \/ (exists t, s = 109 :: slash :: t) -> path_from_str s = Err EChildNumber)
      /\ (~ (s = [109] \/ exists t, s = 109 :: slash :: t) -> path_from_str s = Err EDecode)).
Proof.
  intros s p. split; [apply path_from_str_ok|]. intros N. split.
  - intros H. assert (E : exists comps, s = [109] ++ flat_map (fun t => slash :: t) comps).
    { destruct H as [->|(t & ->)]; [exists []; reflexivity|].
      destruct (split_slash_join t) as (w & comps & _ & S). exists (w :: comps). cbn [flat_map app]. rewrite <- S. reflexivity. }
    destruct E as (comps & ->). unfold path_from_str.
    destruct (split_slash_join ([109] ++ flat_map (fun t => slash :: t) comps)) as (w & cs & E & S).
    assert (W : w = [109]).
    { pose proof (split_pred_pieces (N.eqb 47) ([109] ++ flat_map (fun t => slash :: t) comps)) as P. fold (split_char 47 ([109] ++ flat_map (fun t => slash :: t) comps)) in P.
      rewrite E in P. inversion P as [|? ? Hw _]; subst. destruct w as [|c w].
      - destruct cs; discriminate S.
      - cbn [app] in S. injection S as <- S. destruct w as [|c w]; [reflexivity|exfalso].
        cbn [forallb] in Hw. destruct comps as [|t comps]; [discriminate S|]. cbn [flat_map app] in S. injection S as <- _.
        rewrite andb_false_r in Hw. discriminate Hw. }
    rewrite E, W. change (str_eqb [109] (lit "m")) with true. cbv iota.
    destruct (traverse_child_total cs) as [(r & X)|X]; [exfalso|exact X].
    apply (N r). apply path_from_str_ok. unfold path_from_str. rewrite E, W. exact X.
  - intros H. unfold path_from_str. destruct (split_slash_join s) as (w & comps & E & S). rewrite E.
    destruct (str_eqb w (lit "m")) eqn:Ew; [exfalso|reflexivity]. apply str_eqb_spec in Ew. subst w. apply H.
    change (lit "m") with [109] in S. destruct comps as [|t comps]; [left; exact S|right]. cbn [flat_map app] in S. eauto.
Qed.
Example c33_example : path_from_str (lit "n/0") = Err EDecode /\ path_from_str (lit "m/") = Err EChildNumber
  /\ path_from_str (lit "m/0//1") = Err EChildNumber /\ path_from_str [] = Err EDecode /\ path_from_str (lit "m0") = Err EDecode
  /\ path_from_str (lit "m/1/2'") = Ok [1; 0x80000002].
Proof. repeat split; vm_compute; reflexivity. Qed.

(** C34 *)
Lemma c34_path_operations : forall (p : path) (c : N) (cs : list N),
  path_parent (path_push p c) = Some p
  /\ path_len (path_push p c) = path_len p + 1
  /\ (path_parent p = None <-> path_is_empty p = true) /\ (path_is_empty p = true <-> path_len p = 0)
  /\ (path_is_empty p = false -> exists q d, path_parent p = Some q /\ p = path_push q d)
  /\ path_extend p cs = fold_left path_push cs p
  /\ path_len (path_extend p cs) = path_len p + len cs.
Proof.
  intros p c cs. split.
  { unfold path_parent, path_push. rewrite len_app. change (len [c]) with 1.
    destruct (N.ltb_spec (len p + 1) 1) as [L|L]; [lia|]. f_equal. replace (N.to_nat (len p + 1 - 1)) with (length p) by (unfold len; lia).
    rewrite firstn_app, Nat.sub_diag, firstn_all. apply app_nil_r. }
  split. { unfold path_len, path_push. apply len_app. }
  split. { unfold path_parent, path_is_empty. destruct p as [|d p]; [split; reflexivity|].
    destruct (N.ltb_spec (len (d :: p)) 1) as [L|L]; [unfold len in L; cbn in L; lia|]. split; intros H; discriminate H. }
  split. { unfold path_is_empty, path_len. destruct p; split; intros H; try reflexivity; discriminate H. }
  split. { intros H. destruct p as [|d p]; [discriminate H|]. destruct (@exists_last N (d :: p) ltac:(discriminate)) as (q & e & E).
    rewrite E. exists q, e. split; [|reflexivity]. unfold path_parent. rewrite len_app. change (len [e]) with 1.
    destruct (N.ltb_spec (len q + 1) 1) as [L|L]; [lia|]. f_equal. replace (N.to_nat (len q + 1 - 1)) with (length q) by (unfold len; lia).
    rewrite firstn_app, Nat.sub_diag, firstn_all. apply app_nil_r. }
  split. { unfold path_extend. revert p. induction cs as [|d cs IH]; intros p; cbn [fold_left]; [apply app_nil_r|].
    rewrite <- IH. unfold path_push. rewrite <- app_assoc. reflexivity. }
  unfold path_len, path_extend. apply len_app.
Qed.
Example c34_example : path_parent (path_push [44; 60] 7) = Some [44; 60] /\ path_parent [] = None
  /\ path_extend [1] [2; 3] = [1; 2; 3] /\ path_len [1; 2; 3] = 3.
Proof. repeat split; reflexivity. Qed.
