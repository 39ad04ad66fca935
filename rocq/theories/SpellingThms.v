(** Spellings of derivation paths: C164, C165. *)
From Coq Require Import String Lia.
From Verif Require Import Outcome Bytes Str StrLemmas ModelBip32 SpecBip32 SpecSpelling Base58Proofs PathThms.
Open Scope N_scope.

Lemma decimal_zeros k ds : decimal (repeat 48 k ++ ds) = decimal ds.
Proof.
  unfold decimal. rewrite map_app. replace (map (fun c => c - 48) (repeat 48 k)) with (repeat 0 k); [apply digits_val_zeros|].
  induction k as [|k I]; [reflexivity|]. cbn [repeat map]. rewrite <- I. reflexivity.
Qed.
Lemma digits_lt ds : Forall digit_char ds -> Forall (fun d => d < 10) (map (fun c => c - 48) ds).
Proof. induction 1 as [|c ds D F I]; constructor; [unfold digit_char in D; lia|exact I]. Qed.
Lemma drop_zeros ds : ds <> [] -> Forall digit_char ds ->
  exists k t, ds = repeat 48 k ++ t /\ canonical_decimal t (decimal ds).
Proof.
  induction ds as [|c ds I]; [congruence|]. intros _ F. inversion F as [|? ? D F']; subst.
  destruct (N.eq_dec c 48) as [->|E].
  - destruct ds as [|d ds].
    + exists 0%nat, [48]. split; [reflexivity|]. repeat split; auto. discriminate.
    + destruct (I ltac:(discriminate) F') as (k & t & E & C). exists (S k), t. split; [cbn [repeat app]; rewrite <- E; reflexivity|].
      change (48 :: d :: ds) with (repeat 48 1 ++ (d :: ds)). rewrite decimal_zeros. exact C.
  - exists 0%nat, (c :: ds). split; [reflexivity|]. repeat split; auto; [discriminate|]. cbn [hd]. intros X. destruct (E X).
Qed.
Lemma canonical_bounds a v : canonical_decimal a v -> a <> [48] -> 10 ^ (len a - 1) <= v /\ v < 10 ^ len a.
Proof.
  intros (N & F & V & H) Z. destruct a as [|c a]; [congruence|]. cbn [hd] in H. inversion F as [|? ? D F']; subst.
  assert (L : len (c :: a) = len a + 1) by (unfold len; cbn [length]; lia).
  split.
  - rewrite decimal_cons, L, N.add_sub.
    assert (C : 1 <= c - 48). { unfold digit_char in D. destruct (N.eq_dec c 48) as [E|E]; [destruct (Z (H E))|lia]. }
    apply (N.mul_le_mono_r _ _ (10 ^ len a)) in C. rewrite N.mul_1_l in C. lia.
  - pose proof (digits_val_lt 10 _ (digits_lt _ F)) as B. unfold len in *. rewrite map_length in B. exact B.
Qed.
Lemma pow10_lt a b : 10 ^ a < 10 ^ b -> a < b.
Proof. intros H. apply (N.pow_lt_mono_r_iff 10); [reflexivity|exact H]. Qed.
Lemma canonical_zero a : canonical_decimal a 0 -> a = [48].
Proof.
  intros C. destruct (list_eq_dec N.eq_dec a [48]) as [E|E]; [exact E|]. destruct (canonical_bounds a 0 C E) as [B _].
  exfalso. assert (P : 10 ^ (len a - 1) <> 0) by (apply N.pow_nonzero; discriminate). lia.
Qed.
Lemma canonical_unique a b v : canonical_decimal a v -> canonical_decimal b v -> a = b.
Proof.
  intros A B. destruct (N.eq_dec v 0) as [->|Z]; [rewrite (canonical_zero a A), (canonical_zero b B); reflexivity|].
  assert (NZ : forall x, canonical_decimal x v -> x <> [48]). { intros x (_ & _ & V & _) ->. apply Z. rewrite <- V. reflexivity. }
  destruct (canonical_bounds a v A (NZ a A)) as [A1 A2]. destruct (canonical_bounds b v B (NZ b B)) as [B1 B2].
  assert (L1 : len a - 1 < len b) by (apply pow10_lt; eapply N.le_lt_trans; eassumption).
  assert (L2 : len b - 1 < len a) by (apply pow10_lt; eapply N.le_lt_trans; eassumption).
  destruct A as (_ & FA & VA & _), B as (_ & FB & VB & _).
  assert (M : map (fun c => c - 48) a = map (fun c => c - 48) b).
  { apply (digits_val_inj 10); [apply digits_lt, FA|apply digits_lt, FB|rewrite !map_length; unfold len in *; lia|].
    unfold decimal in VA, VB. congruence. }
  clear - FA FB M. revert b FB M. induction FA as [|c a D F I]; intros [|d b] FB M; cbn [map] in M; try discriminate M; [reflexivity|].
  inversion FB as [|? ? D' F']; subst. injection M as M1 M2. rewrite (I b F' M2). f_equal. unfold digit_char in *. lia.
Qed.

Lemma usual_display c : u32 c -> usual_child c (child_display c).
Proof. intros H. apply c29_child_text_round_trip, H. Qed.
Lemma usual_child_unique c s t : usual_child c s -> usual_child c t -> s = t.
Proof. intros (a & A & ->) (b & B & ->). rewrite (canonical_unique a b _ A B). reflexivity. Qed.

Lemma child_text_spelling s c : u32 c -> (child_text s c <-> exists t, usual_child c t /\ spelling s t).
Proof.
  intros U. unfold u32 in U. split.
  - intros (sign & ds & h & S & N & F & L & -> & ->). destruct (drop_zeros ds N F) as (k & t & E & C).
    exists (t ++ (if h then [apostrophe] else [])). split.
    + exists t. split.
      * replace ((decimal ds + (if h then 2 ^ 31 else 0)) mod 2 ^ 31) with (decimal ds); [exact C|].
        destruct h; [rewrite <- (N.mul_1_l (2 ^ 31)) at 1; rewrite N.mod_add by discriminate|rewrite N.add_0_r]; symmetry; apply N.mod_small, L.
      * f_equal. destruct h; [|rewrite N.add_0_r].
        { replace (2 ^ 31 <=? decimal ds + 2 ^ 31) with true; [reflexivity|]. symmetry. apply N.leb_le. lia. }
        { replace (2 ^ 31 <=? decimal ds) with false; [reflexivity|]. symmetry. apply N.leb_gt. exact L. }
    + exists sign, k. split; [exact S|]. rewrite E, <- !app_assoc. reflexivity.
  - intros (t & (ds & (N & F & V & _) & ->) & sign & k & S & ->).
    exists sign, (repeat 48 k ++ ds), (2 ^ 31 <=? c). rewrite decimal_zeros, V. repeat split; auto.
    + intros X. apply app_eq_nil in X. destruct X as [_ X]. destruct (N X).
    + apply Forall_app. split; [|exact F]. clear. induction k; constructor; [split; discriminate|assumption].
    + apply N.mod_lt. discriminate.
    + rewrite <- !app_assoc. reflexivity.
    + symmetry. apply split_child, U.
Qed.
Lemma child_text_u32 s c : child_text s c -> u32 c.
Proof. intros (sign & ds & h & _ & _ & _ & L & _ & ->). unfold u32. destruct h; lia. Qed.

Lemma spelling_len s t : spelling s t -> len t <= len s /\ (len s = len t -> s = t).
Proof.
  intros (sign & k & S & ->). unfold len. rewrite !app_length, repeat_length. split; [lia|]. intros E.
  assert (K : k = 0%nat) by lia. subst k. destruct S as [->| ->]; [reflexivity|]. cbn [length] in E. lia.
Qed.
Lemma len_path_of comps : len (path_of comps) = 1 + fold_right (fun t a => 1 + len t + a) 0 comps.
Proof.
  unfold path_of. induction comps as [|t l I]; [reflexivity|]. cbn [flat_map fold_right].
  unfold len in *. cbn [length app] in *. rewrite app_length. lia.
Qed.
Lemma Forall2_flip {A B} (R : A -> B -> Prop) l m : Forall2 R l m <-> Forall2 (fun b a => R a b) m l.
Proof. split; induction 1; constructor; assumption. Qed.
Lemma usual_path_display p : Forall u32 p -> usual_path p (path_display p).
Proof.
  intros U. exists (map child_display p). split; [apply path_display_eq|]. induction U; constructor; [apply usual_display; assumption|assumption].
Qed.
Lemma path_text_u32 s p : path_text s p -> Forall u32 p.
Proof. intros (comps & _ & H). clear s. induction H; constructor; [eapply child_text_u32; eassumption|assumption]. Qed.

(** C164 *)
Lemma c164_one_text_refuted :
  ~ (forall s t p, path_from_str s = Ok p -> path_from_str t = Ok p -> s = t).
Proof.
  intros H. specialize (H (lit "m/5") (lit "m/+05") [5] eq_refl eq_refl). discriminate H.
Qed.
(** All texts of a path. *)
Lemma c164_all_texts : forall (s : str) (p : list N), Forall u32 p ->
  (path_from_str s = Ok p <->
   exists comps ts, s = path_of comps /\ Forall2 usual_child p ts /\ Forall2 spelling comps ts).
Proof.
  intros s p U. rewrite path_from_str_ok. unfold path_text. split.
  - intros (comps & -> & H). exists comps.
    assert (Q : exists ts, Forall2 usual_child p ts /\ Forall2 spelling comps ts).
    { induction H as [|t c comps p T H I]; [exists []; split; constructor|]. inversion U as [|? ? U1 U2]; subst.
      apply (child_text_spelling t c U1) in T. destruct T as (u & A & B). destruct (I U2) as (ts & C & D).
      exists (u :: ts). split; constructor; assumption. }
    destruct Q as (ts & A & B). exists ts. repeat split; assumption.
  - intros (comps & ts & -> & A & B). exists comps. split; [reflexivity|].
    revert p U A. induction B as [|t u comps ts S B I]; intros p U A; inversion A as [|c ? q ? A1 A2]; subst; constructor; inversion U; subst.
    + apply child_text_spelling; [assumption|]. exists u. split; assumption.
    + apply I; assumption.
Qed.
(** The printed text is the usual one, it is the shortest and the only one of its length. *)
Lemma c164_printed_is_shortest : forall (s : str) (p : list N), path_from_str s = Ok p ->
  usual_path p (path_display p) /\ path_from_str (path_display p) = Ok p
  /\ len (path_display p) <= len s /\ (len s = len (path_display p) -> s = path_display p).
Proof.
  intros s p H. assert (U : Forall u32 p) by (apply path_from_str_ok in H; exact (path_text_u32 s p H)).
  split; [apply usual_path_display, U|]. split; [apply c32_path_text_round_trip, U|].
  apply (c164_all_texts s p U) in H. destruct H as (comps & ts & -> & A & B).
  replace (path_display p) with (path_of ts).
  2:{ rewrite path_display_eq. unfold path_of. f_equal. f_equal. clear comps B. induction A as [|c t p ts X A I]; [reflexivity|].
      inversion U; subst. cbn [map]. f_equal; [|apply I; assumption]. apply (usual_child_unique c); [exact X|apply usual_display; assumption]. }
  clear - B. rewrite !len_path_of.
  assert (Q : fold_right (fun t a => 1 + len t + a) 0 ts <= fold_right (fun t a => 1 + len t + a) 0 comps
    /\ (fold_right (fun t a => 1 + len t + a) 0 comps = fold_right (fun t a => 1 + len t + a) 0 ts -> comps = ts)).
  { induction B as [|t u comps ts S B [I1 I2]]; [split; [reflexivity|auto]|]. cbn [fold_right].
    destruct (spelling_len t u S) as [L1 L2]. split; [lia|]. intros E. rewrite L2, I2 by lia. reflexivity. }
  destruct Q as [Q1 Q2]. split; [lia|]. intros E. rewrite Q2 by lia. reflexivity.
Qed.
(** Only the root has a single text; every other path has texts of unbounded length. *)
Lemma c164_root_has_one : forall s, path_from_str s = Ok [] <-> s = lit "m".
Proof.
  intros s. rewrite path_from_str_ok. split.
  - intros (comps & -> & H). inversion H. reflexivity.
  - intros ->. exists []. split; [reflexivity|constructor].
Qed.
Lemma c164_others_have_many : forall (p : list N) (k : N), Forall u32 p -> p <> [] ->
  exists s, path_from_str s = Ok p /\ k < len s.
Proof.
  intros [|c p] k U N; [congruence|]. inversion U as [|? ? U1 U2]; subst.
  exists (path_of ((repeat 48 (N.to_nat k) ++ child_display c) :: map child_display p)). split.
  - apply c164_all_texts; [exact U|]. exists ((repeat 48 (N.to_nat k) ++ child_display c) :: map child_display p), (child_display c :: map child_display p).
    split; [reflexivity|]. split; constructor.
    + apply usual_display, U1.
    + clear - U2. induction U2; constructor; [apply usual_display; assumption|assumption].
    + exists [], (N.to_nat k). split; [left; reflexivity|reflexivity].
    + clear. induction p; constructor; [|assumption]. exists [], 0%nat. split; [left; reflexivity|reflexivity].
  - rewrite len_path_of. cbn [fold_right]. unfold len. rewrite app_length, repeat_length. lia.
Qed.
Example c164_example : path_from_str (lit "m/+044'/0060'/0") = Ok [0x8000002c; 0x8000003c; 0]
  /\ path_display [0x8000002c; 0x8000003c; 0] = lit "m/44'/60'/0"
  /\ path_from_str (lit "m/44'/60'/0") = Ok [0x8000002c; 0x8000003c; 0].
Proof. repeat split; vm_compute; reflexivity. Qed.

Lemma child_text_mark s c : child_text s c -> (2 ^ 31 <= c <-> exists t, s = t ++ [apostrophe]).
Proof.
  intros (sign & ds & h & S & N & F & L & -> & ->). destruct h.
  - split; [|intros _; lia]. intros _. exists (sign ++ ds). rewrite app_assoc. reflexivity.
  - rewrite N.add_0_r, app_nil_r. split; [lia|]. intros (t & E). exfalso.
    destruct (exists_last N) as (l & x & ->). rewrite app_assoc in E. apply app_inj_tail in E. destruct E as [_ ->].
    apply Forall_app in F. destruct F as [_ F]. inversion F as [|? ? D]; subst. unfold digit_char, apostrophe in D. lia.
Qed.
Lemma child_text_chars s c : child_text s c -> Forall path_char s.
Proof.
  intros (sign & ds & h & S & _ & F & _ & -> & _). apply Forall_app. split; [|apply Forall_app; split].
  - destruct S as [->| ->]; constructor; [|constructor]. unfold path_char. auto.
  - eapply Forall_impl; [|exact F]. intros x D. unfold path_char. auto.
  - destruct h; constructor; [|constructor]. unfold path_char. auto 10.
Qed.
(** C165 *)
Lemma c165_marks_kept : forall (s : str) (p : list N), path_from_str s = Ok p ->
  exists comps, s = path_of comps /\ Forall (fun t => ~ In slash t) comps
    /\ Forall2 (fun t c => 2 ^ 31 <= c <-> exists u, t = u ++ [apostrophe]) comps p.
Proof.
  intros s p H. apply path_from_str_ok in H. destruct H as (comps & -> & H). exists comps. split; [reflexivity|]. split.
  - induction H as [|t c comps p T H I]; constructor; [|exact I]. apply child_text_no_slash in T. unfold no_slash in T.
    intros X. rewrite forallb_forall in T. specialize (T _ X). discriminate T.
  - eapply Forall2_imp; [|exact H]. intros t c. apply child_text_mark.
Qed.
(** Other marks for hardened steps (h, H), signs, spaces and any other character make the path invalid. *)
Lemma c165_other_characters_refused : forall (s : str) (c : N), In c s -> ~ path_char c ->
  path_from_str s = Err EDecode \/ path_from_str s = Err EChildNumber.
Proof.
  intros s c I NC.
  assert (X : forall q, ~ path_text s q).
  { intros q (comps & -> & H). destruct I as [I|I]; [apply NC; left; symmetry; exact I|].
    apply in_flat_map in I. destruct I as (t & T & [I|I]); [apply NC; right; left; symmetry; exact I|].
    apply NC. assert (Ft : exists d, child_text t d).
    { clear - H T. induction H as [|u d comps q U H I]; [destruct T|]. destruct T as [->|T]; [exists d; exact U|exact (I T)]. }
    destruct Ft as (d & D). apply child_text_chars in D. rewrite Forall_forall in D. exact (D c I). }
  destruct (c33_path_grammar s []) as [_ G]. destruct (G X) as [G1 G2].
  destruct s as [|a [|b s]].
  - destruct I.
  - destruct (N.eq_dec a 109) as [->|E]; [right; apply G1; left; reflexivity|].
    left. apply G2. intros [Y|(t & Y)]; [injection Y as Y; destruct (E Y)|discriminate Y].
  - destruct (N.eq_dec a 109) as [->|E]; [destruct (N.eq_dec b slash) as [->|E]|].
    + right. apply G1. right. exists s. reflexivity.
    + left. apply G2. intros [Y|(t & Y)]; [discriminate Y|injection Y as Y _; destruct (E Y)].
    + left. apply G2. intros [Y|(t & Y)]; [discriminate Y|injection Y as Y _; destruct (E Y)].
Qed.
Example c165_example : path_from_str (lit "m/44h/0") = Err EChildNumber /\ path_from_str (lit "m/44H/0") = Err EChildNumber
  /\ path_from_str (lit "m/44'/0") = Ok [0x8000002c; 0] /\ path_from_str (lit "m/44 '") = Err EChildNumber
  /\ path_from_str (lit "M/44'") = Err EDecode.
Proof. repeat split; vm_compute; reflexivity. Qed.
