(** The digit conversion of bs58 computes positional notation; Base58 text is unique. *)
From Coq Require Import ZifyBool ZifyNat ZifyN.
From Verif Require Import Outcome Bytes Str Hash HashLemmas Base58 ModelBip32 SpecBip32.
Open Scope N_scope.

(** ** Positional notation *)

(** Least significant digit first. *)
Fixpoint lev (b : N) (l : list N) : N :=
  match l with
  | [] => 0
  | d :: l' => d + b * lev b l'
  end.
Lemma len_nil_pow {A} b : b ^ len (@nil A) = 1.
Proof. apply N.pow_0_r. Qed.
Lemma len_cons_pow {A} b (x : A) l : b ^ len (x :: l) = b * b ^ len l.
Proof. unfold len. cbn [length]. rewrite Nat2N.inj_succ. apply N.pow_succ_r'. Qed.
Lemma lev_app b l m : lev b (l ++ m) = lev b l + b ^ len l * lev b m.
Proof.
  induction l as [|d l IH]; cbn [app lev]; [rewrite len_nil_pow; lia|].
  rewrite IH, len_cons_pow. lia.
Qed.
Lemma digits_val_acc b ds acc : fold_left (fun acc d => acc * b + d) ds acc = acc * b ^ len ds + digits_val b ds.
Proof.
  unfold digits_val. revert acc. induction ds as [|d ds IH]; intros acc; cbn [fold_left]; [rewrite len_nil_pow; lia|].
  rewrite IH, (IH (0 * b + d)), len_cons_pow. lia.
Qed.
Lemma digits_val_app b l m : digits_val b (l ++ m) = digits_val b l * b ^ len m + digits_val b m.
Proof. unfold digits_val at 1. rewrite fold_left_app. apply digits_val_acc. Qed.
Lemma digits_val_cons b d l : digits_val b (d :: l) = d * b ^ len l + digits_val b l.
Proof. change (d :: l) with ([d] ++ l). rewrite digits_val_app. unfold digits_val at 1. cbn [fold_left]. lia. Qed.
Lemma digits_val_be l : digits_val 256 l = be_val l.
Proof. reflexivity. Qed.
Lemma lev_rev b l : lev b (rev l) = digits_val b l.
Proof.
  induction l as [|d l IH]; [reflexivity|]. cbn [rev]. rewrite lev_app, IH, digits_val_cons. cbn [lev].
  unfold len. rewrite rev_length. lia.
Qed.
Lemma digits_val_lt b l : Forall (fun d => d < b) l -> digits_val b l < b ^ len l.
Proof.
  induction 1 as [|d l Hd Hl IH]; [rewrite len_nil_pow; reflexivity|].
  rewrite digits_val_cons, len_cons_pow. nia.
Qed.
Lemma lev_lt b l : Forall (fun d => d < b) l -> lev b l < b ^ len l.
Proof.
  intros H. pose proof (digits_val_lt b (rev l) (Forall_rev H)) as L.
  rewrite <- lev_rev, rev_involutive in L. unfold len in *. rewrite rev_length in L. exact L.
Qed.
Lemma len_app {A} (l m : list A) : len (l ++ m) = len l + len m.
Proof. unfold len. rewrite app_length. lia. Qed.

(** Digit strings of the same length with the same value are equal. *)
Lemma digits_val_inj b l m : Forall (fun d => d < b) l -> Forall (fun d => d < b) m -> length l = length m ->
  digits_val b l = digits_val b m -> l = m.
Proof.
  revert m. induction l as [|d l IH]; intros [|e m] Hl Hm L E; try discriminate L; [reflexivity|].
  inversion Hl as [|? ? Hd Hl']; subst. inversion Hm as [|? ? He Hm']; subst.
  injection L as L. rewrite !digits_val_cons in E. unfold len in E. rewrite L in E.
  pose proof (digits_val_lt b l Hl') as B1. pose proof (digits_val_lt b m Hm') as B2.
  unfold len in B1, B2. rewrite L in B1.
  set (P := b ^ N.of_nat (length m)) in *.
  assert (d = e).
  { assert (H1 : (d * P + digits_val b l) / P = d).
    { rewrite N.add_comm, N.div_add by lia. rewrite N.div_small by exact B1. lia. }
    assert (H2 : (e * P + digits_val b m) / P = e).
    { rewrite N.add_comm, N.div_add by lia. rewrite N.div_small by exact B2. lia. }
    congruence. }
  subst e. f_equal. apply IH; auto. lia.
Qed.

(** Normal digit strings: no zero on top. *)
Definition normal (b : N) (l : list N) : Prop := forall k, length l = S k -> b ^ N.of_nat k <= lev b l.
Lemma normal_nil b : normal b [].
Proof. intros k H. discriminate H. Qed.
Lemma normal_len b l c : normal b l -> 1 < b -> lev b l < b ^ c -> len l <= c.
Proof.
  intros Hn Hb Hv. destruct (length l) as [|k] eqn:E; unfold len; rewrite E; [lia|].
  specialize (Hn k E). assert (b ^ N.of_nat k < b ^ c) by lia. apply N.pow_lt_mono_r_iff in H; lia.
Qed.

(** ** The conversion loops *)
Lemma mul_add_ok bi bo out : 0 < bo -> forall c o c', mul_add bi bo out c = (o, c') ->
  length o = length out /\ Forall (fun d => d < bo) o /\ lev bo o + bo ^ len out * c' = lev bo out * bi + c.
Proof.
  intros Hbo. induction out as [|d out IH]; intros c o c' H; cbn [mul_add] in H.
  - injection H as <- <-. repeat split; [constructor|]. cbn [lev]. rewrite len_nil_pow. lia.
  - cbv zeta in H. destruct (mul_add bi bo out ((c + d * bi) / bo)) as [o1 c1] eqn:E. injection H as <- <-.
    destruct (IH _ _ _ E) as (L & F & V). split; [cbn; congruence|]. split.
    { constructor; [apply N.mod_lt; lia|exact F]. }
    cbn [lev]. rewrite len_cons_pow.
    pose proof (N.div_mod (c + d * bi) bo ltac:(lia)). nia.
Qed.

Lemma push_carry_ok bo cap : 1 < bo -> forall fuel out c, c < 2 ^ N.of_nat fuel -> Forall (fun d => d < bo) out ->
  match push_carry fuel bo cap out c with
  | Ok o => Forall (fun d => d < bo) o /\ lev bo o = lev bo out + bo ^ len out * c
      /\ (c = 0 -> o = out) /\ (0 < c -> normal bo o) /\ (len out <= cap -> len o <= cap)
  | Err e => e = BufferTooSmall /\ bo ^ cap <= lev bo out + bo ^ len out * c
  | Panic => False
  end.
Proof.
  intros Hbo. induction fuel as [|f IH]; intros out c Hc Ho; cbn [push_carry].
  - assert (c = 0) by (cbn in Hc; lia). subst c. cbn. repeat split; auto; lia.
  - destruct (N.eqb_spec c 0) as [->|Hc0].
    + repeat split; auto; lia.
    + destruct (N.eqb_spec (len out) cap) as [E|E].
      * split; [reflexivity|]. rewrite E. nia.
      * assert (Hd : c / bo < 2 ^ N.of_nat f).
        { apply N.div_lt_upper_bound; [lia|]. rewrite Nat2N.inj_succ, N.pow_succ_r' in Hc.
          apply N.lt_le_trans with (2 * 2 ^ N.of_nat f); [exact Hc|]. apply N.mul_le_mono_r. lia. }
        assert (Ho' : Forall (fun d => d < bo) (out ++ [c mod bo])).
        { apply Forall_app. split; [exact Ho|]. constructor; [apply N.mod_lt; lia|constructor]. }
        specialize (IH (out ++ [c mod bo]) (c / bo) Hd Ho').
        assert (V : lev bo (out ++ [c mod bo]) + bo ^ len (out ++ [c mod bo]) * (c / bo) = lev bo out + bo ^ len out * c).
        { rewrite lev_app, len_app. cbn [lev]. unfold len at 3. cbn [length].
          change (N.of_nat 1) with 1. rewrite N.pow_add_r, N.pow_1_r.
          pose proof (N.div_mod c bo ltac:(lia)). nia. }
        destruct (push_carry f bo cap (out ++ [c mod bo]) (c / bo)) as [o|e|].
        { destruct IH as (F & Vo & Z0 & Nz & L). rewrite V in Vo. split; [exact F|]. split; [exact Vo|]. split; [lia|]. split.
          - intros _. destruct (N.eq_dec (c / bo) 0) as [Z|Z]; [|apply Nz, N.neq_0_lt_0, Z].
            rewrite (Z0 Z). intros k Hk. rewrite app_length in Hk. cbn in Hk. assert (k = length out) by lia. subst k.
            rewrite lev_app. cbn [lev]. fold (len out).
            pose proof (N.div_mod c bo ltac:(lia)) as DM. rewrite Z, N.mul_0_r, N.add_0_l in DM. rewrite <- DM. nia.
          - intros Hl. apply L. rewrite len_app. unfold len at 2. cbn. lia. }
        { destruct IH as (He & B). split; [exact He|]. lia. }
        exact IH.
Qed.

Lemma size_nat_lt c : c < 2 ^ N.of_nat (N.size_nat c).
Proof.
  replace (N.of_nat (N.size_nat c)) with (N.size c); [apply N.size_gt|].
  destruct c as [|c]; [reflexivity|]. cbn. induction c; cbn; lia.
Qed.

Lemma convert_ok bi bo cap : 0 < bi -> 1 < bo -> forall input out, Forall (fun d => d < bo) out -> normal bo out ->
  match convert bi bo cap input out with
  | Ok o => Forall (fun d => d < bo) o /\ normal bo o /\ lev bo o = lev bo out * bi ^ len input + digits_val bi input
      /\ (len out <= cap -> len o <= cap)
  | Err e => e = BufferTooSmall /\ bo ^ cap <= lev bo out * bi ^ len input + digits_val bi input
  | Panic => False
  end.
Proof.
  intros Hbi Hbo. induction input as [|d input IH]; intros out Ho Hn; cbn [convert].
  - rewrite len_nil_pow. unfold digits_val. cbn [fold_left]. repeat split; auto; lia.
  - destruct (mul_add bi bo out d) as [o1 c] eqn:E.
    destruct (mul_add_ok bi bo out ltac:(lia) _ _ _ E) as (L1 & F1 & V1).
    pose proof (push_carry_ok bo cap Hbo (N.size_nat c) o1 c (size_nat_lt c) F1) as P.
    assert (Ll : len o1 = len out) by (unfold len; congruence). rewrite Ll in P.
    assert (Pw : bi ^ len (d :: input) = bi * bi ^ len input).
    { unfold len. cbn [length]. rewrite Nat2N.inj_succ. apply N.pow_succ_r'. }
    rewrite digits_val_cons, Pw.
    destruct (push_carry (N.size_nat c) bo cap o1 c) as [o2|e|]; cbn [bind].
    + destruct P as (F2 & V2 & Z2 & N2 & L2).
      assert (Hn2 : normal bo o2).
      { destruct (N.eq_dec c 0) as [Zc|Zc]; [|apply N2; lia]. rewrite (Z2 Zc). intros k Hk.
        assert (lev bo o1 = lev bo out * bi + d) by nia.
        assert (bo ^ N.of_nat k <= lev bo out) by (apply Hn; congruence). nia. }
      specialize (IH o2 F2 Hn2).
      assert (V : lev bo o2 = lev bo out * bi + d) by lia.
      assert (W : lev bo o2 * bi ^ len input + digits_val bi input
        = lev bo out * (bi * bi ^ len input) + (d * bi ^ len input + digits_val bi input)) by (rewrite V; lia).
      destruct (convert bi bo cap input o2) as [o|e|]; [|rewrite W in IH; exact IH|exact IH].
      destruct IH as (F & Nn & Vo & Lo). rewrite W in Vo. split; [exact F|]. split; [exact Nn|]. split; [exact Vo|]. auto.
    + destruct P as (He & B). split; [exact He|].
      assert (X : bo ^ cap <= lev bo out * bi + d) by lia.
      apply N.le_trans with ((lev bo out * bi + d) * bi ^ len input); [|lia].
      assert (0 < bi ^ len input) by (apply N.neq_0_lt_0, N.pow_nonzero; lia). nia.
    + exact P.
Qed.

Lemma push_zeros_ok cap input : forall out,
  match push_zeros cap input out with
  | Ok o => o = out ++ repeat 0 (leading_zeros input) /\ (len out <= cap -> len o <= cap)
  | Err e => e = BufferTooSmall /\ (len out <= cap -> cap < len out + N.of_nat (leading_zeros input))
  | Panic => False
  end.
Proof.
  induction input as [|[|d] input IH]; intros out; cbn [push_zeros leading_zeros repeat].
  - rewrite app_nil_r. auto.
  - destruct (N.eqb_spec (len out) cap) as [E|E].
    + split; [reflexivity|]. lia.
    + specialize (IH (out ++ [0])). rewrite len_app in IH. change (len [0]) with 1 in IH.
      destruct (push_zeros cap input (out ++ [0])) as [o|e|].
      * destruct IH as (-> & L). split; [rewrite <- app_assoc; reflexivity|]. intros H. apply L. lia.
      * destruct IH as (He & L). split; [exact He|]. lia.
      * exact IH.
  - rewrite app_nil_r. auto.
Qed.

(** Both loops, most significant digit first. *)
Definition conv (bi bo cap : N) (input : list N) : res b58_error (list N) :=
  let* out := convert bi bo cap input [] in
  let* out' := push_zeros cap input out in
  Ok (rev out').

Lemma rev_repeat {A} (x : A) k : rev (repeat x k) = repeat x k.
Proof.
  induction k as [|k IH]; [reflexivity|]. cbn [repeat rev]. rewrite IH.
  clear IH. induction k as [|k IH]; [reflexivity|]. cbn [repeat app]. f_equal. exact IH.
Qed.
Lemma digits_val_zeros b k l : digits_val b (repeat 0 k ++ l) = digits_val b l.
Proof. induction k as [|k IH]; [reflexivity|]. cbn [repeat app]. rewrite digits_val_cons, IH. lia. Qed.
Lemma leading_zeros_split l : exists m, l = repeat 0 (leading_zeros l) ++ m /\ leading_zeros m = 0%nat.
Proof.
  induction l as [|[|d] l IH]; [exists []; auto| |exists (Npos d :: l); auto].
  destruct IH as (m & E & Z). exists m. cbn [leading_zeros repeat app]. split; [congruence|exact Z].
Qed.
Lemma leading_zeros_repeat k m : leading_zeros m = 0%nat -> leading_zeros (repeat 0 k ++ m) = k.
Proof. intros H. induction k as [|k IH]; [exact H|]. cbn. congruence. Qed.
Lemma no_leading_normal b m : leading_zeros m = 0%nat -> normal b (rev m).
Proof.
  intros Z k Hk. rewrite rev_length in Hk. rewrite lev_rev. destruct m as [|[|d] m]; [discriminate Hk|discriminate Z|].
  rewrite digits_val_cons. injection Hk as <-. unfold len. nia.
Qed.
Lemma normal_no_leading b o : 1 < b -> Forall (fun d => d < b) o -> normal b o -> leading_zeros (rev o) = 0%nat.
Proof.
  intros Hb F H. destruct (rev o) as [|d m] eqn:E; [reflexivity|].
  destruct d as [|d]; [exfalso|reflexivity].
  assert (L : length o = S (length m)). { rewrite <- (rev_length o), E. reflexivity. }
  specialize (H _ L). rewrite <- (rev_involutive o), lev_rev, E, digits_val_cons in H.
  assert (Fm : Forall (fun d => d < b) m).
  { apply Forall_rev in F. rewrite E in F. inversion F; assumption. }
  pose proof (digits_val_lt b m Fm) as B. unfold len in B. lia.
Qed.

(** Normal digit strings with the same value are equal. *)
Lemma normal_unique b l m : 1 < b -> Forall (fun d => d < b) l -> Forall (fun d => d < b) m ->
  leading_zeros l = 0%nat -> leading_zeros m = 0%nat -> digits_val b l = digits_val b m -> l = m.
Proof.
  intros Hb Fl Fm Zl Zm E. apply (digits_val_inj b); auto.
  assert (A : forall l m, Forall (fun d => d < b) m -> leading_zeros l = 0%nat -> digits_val b l = digits_val b m -> len l <= len m).
  { clear - Hb. intros l m Fm Zl E.
    assert (len (rev l) <= len m); [|unfold len in *; rewrite rev_length in H; exact H].
    apply (normal_len b); [apply no_leading_normal, Zl|exact Hb|]. rewrite lev_rev, E. apply digits_val_lt, Fm. }
  pose proof (A l m Fm Zl E). pose proof (A m l Fl Zm (eq_sym E)). unfold len in *. lia.
Qed.
Lemma digits_unique b l m : 1 < b -> Forall (fun d => d < b) l -> Forall (fun d => d < b) m ->
  leading_zeros l = leading_zeros m -> digits_val b l = digits_val b m -> l = m.
Proof.
  intros Hb Fl Fm Z E. destruct (leading_zeros_split l) as (l' & El & Zl). destruct (leading_zeros_split m) as (m' & Em & Zm).
  rewrite El in Fl, E |- *. rewrite Em in Fm, E |- *. rewrite !digits_val_zeros in E.
  apply Forall_app in Fl, Fm. rewrite Z. f_equal. apply (normal_unique b); try tauto; assumption.
Qed.

Lemma conv_sound bi bo cap input ds : 0 < bi -> 1 < bo -> conv bi bo cap input = Ok ds ->
  Forall (fun d => d < bo) ds /\ leading_zeros ds = leading_zeros input /\ digits_val bo ds = digits_val bi input /\ len ds <= cap.
Proof.
  intros Hbi Hbo H. unfold conv in H.
  pose proof (convert_ok bi bo cap Hbi Hbo input [] (Forall_nil _) (normal_nil bo)) as C.
  destruct (convert bi bo cap input []) as [o|e|]; [|discriminate H..]. cbn [bind] in H.
  destruct C as (F & Nn & V & L). pose proof (push_zeros_ok cap input o) as P.
  destruct (push_zeros cap input o) as [o'|e|]; [|discriminate H..]. cbn [bind] in H. injection H as <-.
  destruct P as (-> & L'). rewrite rev_app_distr, rev_repeat. split.
  { apply Forall_app. split; [|apply Forall_rev, F]. apply Forall_forall. intros x Hx. apply repeat_spec in Hx. lia. }
  split. { apply leading_zeros_repeat. apply (normal_no_leading bo); assumption. }
  split. { rewrite digits_val_zeros. rewrite <- lev_rev, rev_involutive, V. cbn [lev]. lia. }
  assert (X : len (o ++ repeat 0 (leading_zeros input)) <= cap). { apply L', L. unfold len. cbn. lia. }
  unfold len in *. rewrite app_length, rev_length. rewrite app_length in X. lia.
Qed.
Lemma conv_fits bi bo cap input : 0 < bi -> 1 < bo -> N.of_nat (leading_zeros input) <= cap ->
  digits_val bi input < bo ^ (cap - N.of_nat (leading_zeros input)) -> exists ds, conv bi bo cap input = Ok ds.
Proof.
  intros Hbi Hbo Hz Hv. unfold conv.
  pose proof (convert_ok bi bo cap Hbi Hbo input [] (Forall_nil _) (normal_nil bo)) as C.
  destruct (convert bi bo cap input []) as [o|e|]; cbn [bind].
  - destruct C as (F & Nn & V & L). cbn [lev] in V.
    assert (Lo : len o <= cap - N.of_nat (leading_zeros input)).
    { apply (normal_len bo); [exact Nn|exact Hbo|]. rewrite V. lia. }
    pose proof (push_zeros_ok cap input o) as P.
    destruct (push_zeros cap input o) as [o'|e|]; cbn [bind]; [eauto|exfalso; lia|destruct P].
  - exfalso. destruct C as (_ & B). cbn [lev] in B.
    assert (bo ^ (cap - N.of_nat (leading_zeros input)) <= bo ^ cap) by (apply N.pow_le_mono_r; lia). lia.
  - destruct C.
Qed.
Lemma conv_complete bi bo cap input ds : 0 < bi -> 1 < bo -> Forall (fun d => d < bo) ds ->
  leading_zeros ds = leading_zeros input -> digits_val bo ds = digits_val bi input -> len ds <= cap ->
  conv bi bo cap input = Ok ds.
Proof.
  intros Hbi Hbo F Z V L. destruct (conv_fits bi bo cap input Hbi Hbo) as (ds' & E).
  - rewrite <- Z. destruct (leading_zeros_split ds) as (m & Em & _). rewrite Em in L.
    rewrite len_app in L. unfold len at 1 in L. rewrite repeat_length in L. lia.
  - rewrite <- Z, <- V. destruct (leading_zeros_split ds) as (m & Em & _). rewrite Em in L, F.
    rewrite len_app in L. unfold len at 1 in L. rewrite repeat_length in L.
    apply Forall_app in F. destruct F as [_ F]. pose proof (digits_val_lt bo m F) as B.
    rewrite Em at 1. rewrite digits_val_zeros.
    apply N.lt_le_trans with (bo ^ len m); [exact B|]. apply N.pow_le_mono_r; lia.
  - rewrite E. f_equal. destruct (conv_sound _ _ _ _ _ Hbi Hbo E) as (F' & Z' & V' & _).
    apply (digits_unique bo); auto; congruence.
Qed.
Lemma conv_no_panic bi bo cap input : 0 < bi -> 1 < bo -> conv bi bo cap input <> Panic.
Proof.
  intros Hbi Hbo H. unfold conv in H.
  pose proof (convert_ok bi bo cap Hbi Hbo input [] (Forall_nil _) (normal_nil bo)) as C.
  destruct (convert bi bo cap input []) as [o|e|]; [|discriminate H|exact C]. cbn [bind] in H.
  pose proof (push_zeros_ok cap input o) as P. destruct (push_zeros cap input o); [discriminate H..|exact P].
Qed.

(** ** The alphabet *)
Lemma b58_char_symbols d : b58_char d = nth (N.to_nat d) base58_symbols 0.
Proof. reflexivity. Qed.
Lemma position_spec i c l d : position i c l = Some d -> i <= d /\ nth_error l (N.to_nat (d - i)) = Some c.
Proof.
  revert i. induction l as [|x l IH]; intros i H; cbn [position] in H; [discriminate H|].
  destruct (N.eqb_spec x c) as [->|E].
  - injection H as <-. rewrite N.sub_diag. split; [lia|reflexivity].
  - apply IH in H. destruct H as [L H]. split; [lia|].
    replace (N.to_nat (d - i)) with (S (N.to_nat (d - (i + 1)))) by lia. exact H.
Qed.
Lemma b58_digit_sound c d : b58_digit c = Some d -> d < 58 /\ b58_char d = c.
Proof.
  intros H. apply position_spec in H. rewrite N.sub_0_r in H. destruct H as [_ H]. split.
  - assert (N.to_nat d < length b58_alphabet)%nat by (apply nth_error_Some; congruence). change (length b58_alphabet) with 58%nat in H0. lia.
  - unfold b58_char. apply nth_error_nth. exact H.
Qed.
Definition digits_below (n : nat) : list N := map N.of_nat (seq 0 n).
Lemma digits_below_in n d : d < N.of_nat n -> In d (digits_below n).
Proof. intros H. unfold digits_below. rewrite <- (N2Nat.id d). apply in_map, in_seq. lia. Qed.
Lemma forall_below n (f : N -> bool) : forallb f (digits_below n) = true -> forall d, d < N.of_nat n -> f d = true.
Proof. intros H d Hd. rewrite forallb_forall in H. apply H, digits_below_in, Hd. Qed.
Lemma b58_digit_complete d : d < 58 -> b58_digit (b58_char d) = Some d /\ b58_char d < 128.
Proof.
  intros H. assert (A : (match b58_digit (b58_char d) with Some e => e =? d | None => false end && (b58_char d <? 128))%bool = true).
  { revert d H. apply (forall_below 58). vm_compute. reflexivity. }
  apply andb_true_iff in A. destruct A as [A B]. split; [|lia].
  destruct (b58_digit (b58_char d)); [|discriminate A]. f_equal. lia.
Qed.
Lemma b58_char_inj d e : d < 58 -> e < 58 -> b58_char d = b58_char e -> d = e.
Proof. intros Hd He H. pose proof (proj1 (b58_digit_complete d Hd)). pose proof (proj1 (b58_digit_complete e He)). congruence. Qed.
Lemma b58_map_inj l m : Forall (fun d => d < 58) l -> Forall (fun d => d < 58) m -> map b58_char l = map b58_char m -> l = m.
Proof.
  intros Hl. revert m. induction Hl as [|d l Hd Hl IH]; intros [|e m] Hm H; try discriminate H; [reflexivity|].
  inversion Hm; subst. cbn [map] in H. pose proof (f_equal (hd 0) H) as X1. pose proof (f_equal (@tl N) H) as X2. cbn [hd tl] in X1, X2.
  f_equal; [apply b58_char_inj; assumption|]. apply IH; assumption.
Qed.
Lemma b58_digits_iff s ds : b58_digits s = Ok ds <-> Forall (fun d => d < 58) ds /\ s = map b58_char ds.
Proof.
  revert ds. induction s as [|c s IH]; intros ds; cbn [b58_digits].
  - split; [intros H; injection H as <-; auto|]. intros [_ H]. symmetry in H. apply map_eq_nil in H. subst. reflexivity.
  - destruct (N.ltb_spec 127 c) as [Hc|Hc].
    { split; [intros H; discriminate H|]. intros [F H]. destruct ds as [|d ds]; [discriminate H|].
      inversion F; subst. pose proof (f_equal (hd 0) H) as E. cbn [map hd] in E.
      pose proof (proj2 (b58_digit_complete d ltac:(assumption))). lia. }
    destruct (b58_digit c) as [d|] eqn:E.
    + apply b58_digit_sound in E. destruct E as [Hd E]. rewrite bind_ok. split.
      * intros (l & H1 & H2). injection H2 as <-. apply IH in H1. destruct H1 as [F ->]. split; [constructor; assumption|].
        cbn [map]. rewrite E. reflexivity.
      * intros [F H]. destruct ds as [|d' ds]; [discriminate H|]. inversion F; subst.
        pose proof (f_equal (hd 0) H) as H1. pose proof (f_equal (@tl N) H) as H2'. cbn [map hd tl] in H1, H2'.
        exists ds. split; [apply IH; auto|]. f_equal. f_equal. apply b58_char_inj; assumption.
    + split; [intros H; discriminate H|]. intros [F H]. destruct ds as [|d ds]; [discriminate H|]. inversion F; subst.
      pose proof (f_equal (hd 0) H) as H1. cbn [map hd] in H1.
      destruct (b58_digit_complete d ltac:(assumption)) as [X _]. congruence.
Qed.
Lemma b58_digits_no_panic s : b58_digits s <> Panic.
Proof.
  induction s as [|c s IH]; cbn [b58_digits]; [discriminate|]. destruct (127 <? c); [discriminate|].
  destruct (b58_digit c); [|discriminate]. intros H. apply bind_panic in H. destruct H as [H|(? & _ & H)]; [auto|discriminate H].
Qed.

(** ** encode and decode *)
Lemma encode_conv cap data : encode_into cap data = (let* ds := conv 256 58 cap data in Ok (map b58_char ds)).
Proof.
  unfold encode_into, conv. rewrite bind_assoc.
  destruct (convert 256 58 cap data []) as [o|e|]; cbn [bind]; [|reflexivity..].
  destruct (push_zeros cap data o); cbn [bind]; [|reflexivity..]. rewrite map_rev. reflexivity.
Qed.
Lemma decode_conv cap s : decode_into cap s = (let* ds := b58_digits s in conv 58 256 cap ds).
Proof. reflexivity. Qed.

Lemma is_base58_unique data data' s : bytes_ok data -> bytes_ok data' -> is_base58 data s -> is_base58 data' s -> data = data'.
Proof.
  intros B B' (ds & F & E & Z & V) (ds' & F' & E' & Z' & V').
  assert (ds = ds') by (apply b58_map_inj; [assumption..|]; rewrite E in E'; exact E').
  subst ds'. apply (digits_unique 256); [lia|exact B|exact B'|congruence..].
Qed.
Lemma is_base58_fun data s s' : is_base58 data s -> is_base58 data s' -> s = s'.
Proof.
  intros (ds & F & -> & Z & V) (ds' & F' & -> & Z' & V').
  replace ds' with ds; [reflexivity|]. apply (digits_unique 58); [lia|assumption..|congruence|congruence].
Qed.
Lemma encode_sound cap data s : encode_into cap data = Ok s -> is_base58 data s /\ len s <= cap.
Proof.
  rewrite encode_conv. intros H. apply bind_ok in H. destruct H as (ds & C & H). injection H as <-.
  apply conv_sound in C; [|lia..]. destruct C as (F & Z & V & L). split; [exists ds; auto|].
  unfold len in *. rewrite map_length. exact L.
Qed.
Lemma decode_iff cap s data : decode_into cap s = Ok data <-> bytes_ok data /\ is_base58 data s /\ len data <= cap.
Proof.
  rewrite decode_conv, bind_ok. split.
  - intros (ds & D & C). apply b58_digits_iff in D. destruct D as [F ->]. apply conv_sound in C; [|lia..].
    destruct C as (B & Z & V & L). split; [exact B|]. split; [|exact L]. exists ds. auto.
  - intros (B & (ds & F & -> & Z & V) & L). exists ds. split; [apply b58_digits_iff; auto|].
    apply conv_complete; [lia|lia|exact B|auto..|exact L].
Qed.
Lemma decode_no_panic cap s : decode_into cap s <> Panic.
Proof.
  rewrite decode_conv. intros H. apply bind_panic in H. destruct H as [H|(ds & _ & H)].
  - exact (b58_digits_no_panic _ H).
  - revert H. apply conv_no_panic; lia.
Qed.
Lemma check_bytes_length m : length (check_bytes m) = 4%nat.
Proof. unfold check_bytes. rewrite firstn_length, sha256_length. reflexivity. Qed.
Lemma check_bytes_ok m : bytes_ok (check_bytes m).
Proof. apply bytes_ok_firstn, sha256_ok. Qed.
Lemma decode_check_iff cap s payload : decode_check_into cap s = Ok payload
  <-> bytes_ok payload /\ base58check payload s /\ len payload + 4 <= cap.
Proof.
  unfold decode_check_into. rewrite bind_ok. split.
  - intros (out & D & H). apply decode_iff in D. destruct D as (B & I & L).
    destruct (N.ltb_spec (len out) 4) as [|G]; [discriminate H|]. cbv zeta in H.
    destruct (bytes_eqb _ _) eqn:E; [|discriminate H]. injection H as <-. apply bytes_eqb_spec in E.
    split; [apply bytes_ok_firstn, B|]. unfold base58check. fold (check_bytes (firstn (length out - 4) out)).
    rewrite E, firstn_skipn. split; [exact I|]. unfold len in *. rewrite firstn_length. lia.
  - intros (B & I & L). exists (payload ++ check_bytes payload). split.
    + apply decode_iff. split; [apply bytes_ok_app; split; [exact B|apply check_bytes_ok]|]. split; [exact I|].
      rewrite len_app. unfold len at 2. rewrite check_bytes_length. exact L.
    + rewrite len_app. unfold len at 2. rewrite check_bytes_length.
      destruct (N.ltb_spec (len payload + N.of_nat 4) 4) as [X|X]; [lia|]. cbv zeta.
      rewrite app_length, check_bytes_length. replace (length payload + 4 - 4)%nat with (length payload) by lia.
      rewrite firstn_app, Nat.sub_diag, firstn_all, skipn_app, Nat.sub_diag, skipn_all. cbn [firstn skipn app].
      rewrite app_nil_r, bytes_eqb_refl. reflexivity.
Qed.
Lemma decode_check_no_panic cap s : decode_check_into cap s <> Panic.
Proof.
  unfold decode_check_into. intros H. apply bind_panic in H. destruct H as [H|(out & _ & H)]; [exact (decode_no_panic _ _ H)|].
  destruct (len out <? 4); [discriminate H|]. cbv zeta in H. destruct (bytes_eqb _ _); discriminate H.
Qed.

(** Base58 of 82 bytes has at most 112 characters. *)
Lemma pow_82_112 : 256 ^ 82 <= 58 ^ 112.
Proof. vm_compute. discriminate. Qed.
Lemma pow_fit m : m <= 82 -> 256 ^ m <= 58 ^ (m + 30).
Proof.
  intros H. remember (82 - m) as j eqn:E. revert m H E. induction j as [|j IH] using N.peano_ind; intros m H E.
  - assert (m = 82) by lia. subst m. exact pow_82_112.
  - specialize (IH (m + 1) ltac:(lia) ltac:(lia)). replace (m + 1 + 30) with (N.succ (m + 30)) in IH by lia.
    replace (m + 1) with (N.succ m) in IH by lia. rewrite !N.pow_succ_r' in IH.
    generalize dependent (58 ^ (m + 30)). generalize (256 ^ m). intros a b Hab. lia.
Qed.
Lemma encode_fits data : bytes_ok data -> length data = 82%nat -> exists s, encode_into 112 data = Ok s.
Proof.
  intros B L. rewrite encode_conv. destruct (leading_zeros_split data) as (m & E & Z).
  assert (Lm : N.of_nat (leading_zeros data) + len m = 82).
  { apply (f_equal (@length N)) in E. rewrite app_length, repeat_length in E. unfold len. lia. }
  destruct (conv_fits 256 58 112 data) as (ds & C); [lia|lia|lia| |rewrite C; cbn; eauto].
  rewrite E at 1. rewrite digits_val_zeros.
  rewrite E in B. apply bytes_ok_app in B. destruct B as [_ B]. pose proof (digits_val_lt 256 m B) as V.
  apply N.lt_le_trans with (256 ^ len m); [exact V|].
  replace (112 - N.of_nat (leading_zeros data)) with (len m + 30) by lia. apply pow_fit. lia.
Qed.
Lemma encode_iff data s : bytes_ok data -> length data = 82%nat -> (encode_into 112 data = Ok s <-> is_base58 data s).
Proof.
  intros B L. split; [intros H; apply (encode_sound 112), H|]. intros H.
  destruct (encode_fits data B L) as (s' & E). rewrite E. f_equal. apply encode_sound in E. apply (is_base58_fun data); tauto.
Qed.
