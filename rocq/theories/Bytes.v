(** Bytes, fixed-width unsigned integers, big-endian encoding, bit strings. *)
From Verif Require Import Outcome.
From Coq Require Import ZifyBool ZifyNat ZifyN.
Open Scope N_scope.

(** A byte string [&[u8]]: a list of numbers; the type invariant of [u8] is [bytes_ok]. *)
Notation bytes := (list N).
Definition byte_ok (b : N) : Prop := b < 256.
Definition bytes_ok (l : bytes) : Prop := Forall byte_ok l.

Definition len {A} (l : list A) : N := N.of_nat (length l).

(** Fixed-width operations.  [wrap w x] is the value kept by a [w]-bit register. *)
Definition wrap (w x : N) : N := x mod 2 ^ w.

(** Rust [x << k] at width [w]: panics (overflow checks on) when [k >= w], drops high bits. *)
Definition shl_chk {E} (w x k : N) : res E N :=
  if k <? w then Ok (wrap w (N.shiftl x k)) else Panic.
(** Rust [x >> k] at width [w]: panics when [k >= w]. *)
Definition shr_chk {E} (w x k : N) : res E N :=
  if k <? w then Ok (N.shiftr x k) else Panic.
(** Rust [a - b] on an unsigned type. *)
Definition sub_chk {E} (a b : N) : res E N :=
  if b <=? a then Ok (a - b) else Panic.
(** Rust [a + b], [a * b] at width [w]. *)
Definition add_chk {E} (w a b : N) : res E N :=
  if a + b <? 2 ^ w then Ok (a + b) else Panic.
Definition mul_chk {E} (w a b : N) : res E N :=
  if a * b <? 2 ^ w then Ok (a * b) else Panic.
(** Rust [u8::checked_add] (None on overflow). *)
Definition checked_add (w a b : N) : option N :=
  if a + b <? 2 ^ w then Some (a + b) else None.

(** Rust slice indexing [l[i]]. *)
Definition index {E A} (l : list A) (i : N) : res E A := or_panic (nth_error l (N.to_nat i)).

(** Sub-slices [l[a..b]] with constant bounds (always in range where used). *)
Definition slice {A} (a b : nat) (l : list A) : list A := firstn (b - a) (skipn a l).

(** Big-endian value of a byte string, and the [w]-byte big-endian encoding of a number
    ([u32::to_be_bytes], [u32::from_be_bytes] for [w] = 4). *)
Definition be_val (l : bytes) : N := fold_left (fun acc b => acc * 256 + b) l 0.
Fixpoint be_bytes (w : nat) (n : N) : bytes :=
  match w with
  | O => []
  | S w' => be_bytes w' (n / 256) ++ [n mod 256]
  end.

(** Bit strings, most significant bit first. *)
Fixpoint bits_of (w : nat) (n : N) : list bool :=
  match w with
  | O => []
  | S w' => N.testbit n (N.of_nat w') :: bits_of w' n
  end.
Definition val_of_bits (l : list bool) : N := fold_left (fun acc (b : bool) => acc * 2 + N.b2n b) l 0.
Definition bits_of_bytes (l : bytes) : list bool := flat_map (bits_of 8) l.

(** Byte-string equality. *)
Fixpoint bytes_eqb (a b : list N) : bool :=
  match a, b with
  | [], [] => true
  | x :: a', y :: b' => (x =? y) && bytes_eqb a' b'
  | _, _ => false
  end.

Lemma bytes_eqb_spec a b : bytes_eqb a b = true <-> a = b.
Proof.
  revert b; induction a as [|x a IH]; intros [|y b]; cbn; split; intros H; try discriminate; auto.
  - apply andb_true_iff in H. destruct H as [H1 H2]. apply N.eqb_eq in H1. apply IH in H2. congruence.
  - injection H as -> ->. rewrite N.eqb_refl. apply IH. reflexivity.
Qed.

Lemma bytes_eqb_refl a : bytes_eqb a a = true.
Proof. apply bytes_eqb_spec. reflexivity. Qed.

Lemma bytes_eqb_sym a b : bytes_eqb a b = bytes_eqb b a.
Proof.
  destruct (bytes_eqb a b) eqn:H; symmetry.
  - apply bytes_eqb_spec in H. subst. apply bytes_eqb_refl.
  - destruct (bytes_eqb b a) eqn:H'; auto. apply bytes_eqb_spec in H'. subst.
    rewrite bytes_eqb_refl in H. discriminate.
Qed.

Lemma bytes_ok_nil : bytes_ok [].
Proof. constructor. Qed.

Lemma bytes_ok_app a b : bytes_ok (a ++ b) <-> bytes_ok a /\ bytes_ok b.
Proof. unfold bytes_ok. apply Forall_app. Qed.

Lemma bytes_ok_firstn n l : bytes_ok l -> bytes_ok (firstn n l).
Proof.
  intros H. rewrite <- (firstn_skipn n l) in H. apply bytes_ok_app in H. apply H.
Qed.
Lemma bytes_ok_skipn n l : bytes_ok l -> bytes_ok (skipn n l).
Proof.
  intros H. rewrite <- (firstn_skipn n l) in H. apply bytes_ok_app in H. apply H.
Qed.

Lemma be_bytes_length w n : length (be_bytes w n) = w.
Proof. revert n; induction w as [|w IH]; intros n; cbn; [reflexivity|]. rewrite app_length, IH. cbn. lia. Qed.

Lemma be_bytes_ok w n : bytes_ok (be_bytes w n).
Proof.
  revert n; induction w as [|w IH]; intros n; cbn [be_bytes]; [constructor|].
  apply bytes_ok_app; split; [apply IH|]. constructor; [|constructor]. unfold byte_ok.
  apply N.mod_lt. discriminate.
Qed.

Lemma be_val_app a b : be_val (a ++ b) = be_val a * 256 ^ len b + be_val b.
Proof.
  unfold be_val. rewrite fold_left_app.
  generalize (fold_left (fun acc x => acc * 256 + x) a 0); intros acc.
  enough (H : forall l acc, fold_left (fun acc x => acc * 256 + x) l acc
              = acc * 256 ^ len l + fold_left (fun acc x => acc * 256 + x) l 0) by apply H.
  clear. induction l as [|x l IH]; intros acc; unfold len; cbn [fold_left length].
  - cbn. lia.
  - rewrite IH. rewrite (IH (0 * 256 + x)). unfold len. rewrite Nat2N.inj_succ, N.pow_succ_r'. lia.
Qed.

Lemma be_val_cons x l : be_val (x :: l) = x * 256 ^ len l + be_val l.
Proof. change (x :: l) with ([x] ++ l). rewrite be_val_app. unfold be_val at 1. cbn. lia. Qed.

Lemma be_val_lt l : bytes_ok l -> be_val l < 256 ^ len l.
Proof.
  induction l as [|x l IH]; intros H.
  - unfold be_val, len. cbn. lia.
  - rewrite be_val_cons. inversion H as [|? ? Hx Hl]; subst. specialize (IH Hl). unfold byte_ok in Hx.
    unfold len in *. cbn [length]. rewrite Nat2N.inj_succ, N.pow_succ_r'. nia.
Qed.

Lemma be_val_be_bytes w n : be_val (be_bytes w n) = n mod 256 ^ N.of_nat w.
Proof.
  revert n; induction w as [|w IH]; intros n; cbn [be_bytes].
  - cbn. rewrite N.mod_1_r. reflexivity.
  - rewrite be_val_app, IH. unfold len, be_val at 1. cbn [length fold_left]. change (N.of_nat 1) with 1.
    rewrite Nat2N.inj_succ, N.pow_succ_r', N.pow_1_r.
    rewrite (N.mul_comm 256 (256 ^ _)), N.mul_comm.
    rewrite (N.mul_comm (256 ^ N.of_nat w) 256).
    rewrite N.mod_mul_r; [lia|discriminate|]. apply N.pow_nonzero. discriminate.
Qed.

Lemma be_bytes_be_val l : bytes_ok l -> be_bytes (length l) (be_val l) = l.
Proof.
  induction l as [|x l IH] using rev_ind; intros H; [reflexivity|].
  apply bytes_ok_app in H. destruct H as [Hl Hx]. inversion Hx as [|? ? Hx' _]; subst.
  unfold byte_ok in Hx'.
  rewrite app_length, Nat.add_comm. cbn [length Nat.add be_bytes].
  rewrite be_val_app. unfold len. cbn [length]. change (N.of_nat 1) with 1. rewrite N.pow_1_r.
  unfold be_val at 2 4. cbn [fold_left].
  rewrite N.mul_0_l, N.add_0_l.
  rewrite N.add_comm, N.div_add, N.div_small, N.add_0_l by (lia || discriminate).
  rewrite N.mod_add, N.mod_small by (lia || discriminate).
  rewrite IH by assumption. reflexivity.
Qed.

Lemma be_val_inj a b : bytes_ok a -> bytes_ok b -> length a = length b -> be_val a = be_val b -> a = b.
Proof.
  intros Ha Hb Hl Hv. rewrite <- (be_bytes_be_val a Ha), <- (be_bytes_be_val b Hb), Hl, Hv. reflexivity.
Qed.

(** ** Bit strings *)
Lemma bits_of_length w n : length (bits_of w n) = w.
Proof. induction w as [|w IH]; cbn; congruence. Qed.

Lemma val_of_bits_app a b : val_of_bits (a ++ b) = val_of_bits a * 2 ^ len b + val_of_bits b.
Proof.
  unfold val_of_bits. rewrite fold_left_app.
  generalize (fold_left (fun acc (x : bool) => acc * 2 + N.b2n x) a 0); intros acc.
  enough (H : forall l acc, fold_left (fun acc (x : bool) => acc * 2 + N.b2n x) l acc
              = acc * 2 ^ len l + fold_left (fun acc (x : bool) => acc * 2 + N.b2n x) l 0) by apply H.
  clear. induction l as [|x l IH]; intros acc; unfold len; cbn [fold_left length].
  - cbn. lia.
  - rewrite IH. rewrite (IH (0 * 2 + _)). unfold len. rewrite Nat2N.inj_succ, N.pow_succ_r'. lia.
Qed.

Lemma val_of_bits_cons x l : val_of_bits (x :: l) = N.b2n x * 2 ^ len l + val_of_bits l.
Proof. change (x :: l) with ([x] ++ l). rewrite val_of_bits_app. unfold val_of_bits at 1. cbn. lia. Qed.

Lemma val_of_bits_lt l : val_of_bits l < 2 ^ len l.
Proof.
  induction l as [|x l IH].
  - unfold val_of_bits, len. cbn. lia.
  - rewrite val_of_bits_cons. unfold len in *. cbn [length]. rewrite Nat2N.inj_succ, N.pow_succ_r'.
    destruct x; cbn [N.b2n]; lia.
Qed.

Lemma val_of_bits_bits_of w n : val_of_bits (bits_of w n) = n mod 2 ^ N.of_nat w.
Proof.
  induction w as [|w IH]; cbn [bits_of].
  - cbn. rewrite N.mod_1_r. reflexivity.
  - rewrite val_of_bits_cons, IH. unfold len. rewrite bits_of_length.
    rewrite Nat2N.inj_succ, N.pow_succ_r'.
    rewrite (N.mul_comm 2).
    rewrite N.mod_mul_r; [|apply N.pow_nonzero; discriminate|discriminate].
    rewrite N.testbit_spec' by lia. lia.
Qed.

Lemma testbit_val_of_bits_low x l i : i < len l ->
  N.testbit (N.b2n x * 2 ^ len l + val_of_bits l) i = N.testbit (val_of_bits l) i.
Proof.
  intros Hi. rewrite <- (N.mod_pow2_bits_low _ (len l)) by exact Hi.
  rewrite N.add_comm, N.mod_add by (apply N.pow_nonzero; discriminate).
  rewrite N.mod_small by apply val_of_bits_lt. reflexivity.
Qed.

Lemma bits_of_ext w n m : (forall i, i < N.of_nat w -> N.testbit n i = N.testbit m i) -> bits_of w n = bits_of w m.
Proof.
  induction w as [|w IH]; intros H; cbn [bits_of]; [reflexivity|].
  rewrite H by lia. rewrite IH; [reflexivity|]. intros i Hi. apply H. lia.
Qed.

Lemma bits_of_val_of_bits l : bits_of (length l) (val_of_bits l) = l.
Proof.
  induction l as [|x l IH]; [reflexivity|]. cbn [length bits_of].
  rewrite val_of_bits_cons. f_equal.
  - fold (len l). rewrite N.testbit_eqb.
    rewrite N.add_comm, N.div_add, N.div_small by (apply val_of_bits_lt || (apply N.pow_nonzero; discriminate)).
    destruct x; reflexivity.
  - transitivity (bits_of (length l) (val_of_bits l)); [|exact IH].
    apply bits_of_ext. intros i Hi. apply testbit_val_of_bits_low. exact Hi.
Qed.

Lemma val_of_bits_inj a b : length a = length b -> val_of_bits a = val_of_bits b -> a = b.
Proof.
  intros Hl Hv. rewrite <- (bits_of_val_of_bits a), <- (bits_of_val_of_bits b), Hl, Hv. reflexivity.
Qed.

Lemma bits_of_bytes_length l : length (bits_of_bytes l) = (8 * length l)%nat.
Proof.
  induction l as [|x l IH]; [reflexivity|]. unfold bits_of_bytes in *. cbn [flat_map length].
  rewrite app_length, IH, bits_of_length. lia.
Qed.

Lemma bits_of_bytes_app a b : bits_of_bytes (a ++ b) = bits_of_bytes a ++ bits_of_bytes b.
Proof. unfold bits_of_bytes. apply flat_map_app. Qed.

Lemma val_of_bits_of_bytes l : bytes_ok l -> val_of_bits (bits_of_bytes l) = be_val l.
Proof.
  induction l as [|x l IH]; intros H; [reflexivity|].
  inversion H as [|? ? Hx Hl]; subst. unfold byte_ok in Hx.
  rewrite be_val_cons. change (bits_of_bytes (x :: l)) with (bits_of 8 x ++ bits_of_bytes l).
  rewrite val_of_bits_app, val_of_bits_bits_of, (IH Hl). change (2 ^ N.of_nat 8) with 256.
  rewrite N.mod_small by lia. unfold len. rewrite bits_of_bytes_length.
  f_equal. f_equal. rewrite Nat2N.inj_mul. change (N.of_nat 8) with 8.
  rewrite N.pow_mul_r. reflexivity.
Qed.

Lemma bits_of_bytes_inj a b : bytes_ok a -> bytes_ok b -> bits_of_bytes a = bits_of_bytes b -> a = b.
Proof.
  intros Ha Hb H. apply be_val_inj; auto.
  - apply (f_equal (@length bool)) in H. rewrite !bits_of_bytes_length in H. lia.
  - rewrite <- !val_of_bits_of_bytes by assumption. congruence.
Qed.
