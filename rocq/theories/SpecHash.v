(** The hash functions as their standards define them: SHA-256 and SHA-512 (FIPS 180-4), HMAC (RFC 2104) and
    RIPEMD-160 (Dobbertin, Bosselaers, Preneel), as relations between message and digest.  Nothing is taken
    from the executable definitions of Hash.v and Ripemd.v; the constants are given by the numbers they are
    derived from. *)
From Verif Require Import Outcome Bytes SpecBip32.
Open Scope N_scope.

(** ** Operations on words of [w] bits *)
Definition ROTR (w n x : N) : N := x / 2 ^ n + (x mod 2 ^ n) * 2 ^ (w - n).
Definition ROTL (w n x : N) : N := ROTR w (w - n) x.
Definition SHR (n x : N) : N := x / 2 ^ n.
(** [r] is obtained bit by bit from [x], [y], [z]. *)
Definition bitwise (f : bool -> bool -> bool -> bool) (x y z r : N) : Prop :=
  forall i, N.testbit r i = f (N.testbit x i) (N.testbit y i) (N.testbit z i).
Definition is_xor3 : N -> N -> N -> N -> Prop := bitwise (fun a b c => xorb a (xorb b c)).
Definition is_ch : N -> N -> N -> N -> Prop := bitwise (fun a b c => if a then b else c).
Definition is_maj : N -> N -> N -> N -> Prop := bitwise (fun a b c => (a && b) || (a && c) || (b && c)).

(** ** Constants *)
Definition is_prime (p : N) : Prop := 1 < p /\ forall d, (d | p) -> d = 1 \/ d = p.
(** [p] is prime number [i], counting from 0. *)
Definition is_nth_prime (i : nat) (p : N) : Prop :=
  is_prime p /\ exists below, NoDup below /\ length below = i /\ (forall q, In q below <-> is_prime q /\ q < p).
(** [c] is made of the first [w] bits of the fractional part of the [k]-th root of [p]. *)
Definition is_root_bits (k w p c : N) : Prop :=
  c < 2 ^ w /\ exists r, (r * 2 ^ w + c) ^ k <= p * 2 ^ (k * w) < (r * 2 ^ w + c + 1) ^ k.

(** ** SHA-2 *)
Record variant := Variant {
  v_w : N;                                            (* word size in bits *)
  v_wb : nat;                                         (* and in bytes *)
  v_steps : nat;
  v_S0 : N * N * N; v_S1 : N * N * N;                 (* capital sigma: three rotations *)
  v_s0 : N * N * N; v_s1 : N * N * N }.               (* small sigma: two rotations and a shift *)
Definition fips_sha256 := Variant 32 4 64 (2, 13, 22) (6, 11, 25) (7, 18, 3) (17, 19, 10).
Definition fips_sha512 := Variant 64 8 80 (28, 34, 39) (14, 18, 41) (1, 8, 7) (19, 61, 6).

Section Fips.
  Variable v : variant.
  Let w := v_w v.
  Let bs := (16 * v_wb v)%nat.
  Definition is_Sigma (r : N * N * N) (x y : N) : Prop :=
    let '(a, b, c) := r in is_xor3 (ROTR w a x) (ROTR w b x) (ROTR w c x) y.
  Definition is_sigma (r : N * N * N) (x y : N) : Prop :=
    let '(a, b, c) := r in is_xor3 (ROTR w a x) (ROTR w b x) (SHR c x) y.

  (** Section 5.1: a one bit, the fewest zero bits that fill the last block, the bit length in two words. *)
  Definition is_padded (m p : bytes) : Prop :=
    exists zeros lb, p = m ++ 128 :: repeat 0 zeros ++ lb /\ has_bytes (2 * v_wb v) lb
      /\ digits_val 256 lb = 8 * len m /\ (length p mod bs = 0)%nat /\ (zeros < bs)%nat.
  (** Section 5.2: word [t] of block [i]. *)
  Definition block_word (p : bytes) (i t : nat) : N :=
    digits_val 256 (firstn (v_wb v) (skipn (bs * i + v_wb v * t) p)).

  (** Section 4.2 and 5.3: constants and initial value. *)
  Definition is_K (K : nat -> N) : Prop :=
    forall t, (t < v_steps v)%nat -> exists p, is_nth_prime t p /\ is_root_bits 3 w p (K t).
  Definition is_H0 (H : nat -> N) : Prop :=
    forall j, (j < 8)%nat -> exists p, is_nth_prime j p /\ is_root_bits 2 w p (H j).

  (** Section 6: message schedule, working variables a .. h numbered 0 .. 7, and the new hash value. *)
  Definition is_schedule (M W : nat -> N) : Prop :=
    (forall t, (t < 16)%nat -> W t = M t)
    /\ (forall t, (16 <= t < v_steps v)%nat -> exists x y, is_sigma (v_s1 v) (W (t - 2)%nat) x /\ is_sigma (v_s0 v) (W (t - 15)%nat) y
         /\ W t = (x + W (t - 7)%nat + y + W (t - 16)%nat) mod 2 ^ w).
  Definition is_step (k wt : N) (V V' : nat -> N) : Prop :=
    exists s1 s0 c m t1, is_Sigma (v_S1 v) (V 4%nat) s1 /\ is_Sigma (v_S0 v) (V 0%nat) s0
      /\ is_ch (V 4%nat) (V 5%nat) (V 6%nat) c /\ is_maj (V 0%nat) (V 1%nat) (V 2%nat) m
      /\ t1 = V 7%nat + s1 + c + k + wt
      /\ V' 0%nat = (t1 + s0 + m) mod 2 ^ w /\ V' 4%nat = (V 3%nat + t1) mod 2 ^ w
      /\ (forall j, In j [0; 1; 2; 4; 5; 6]%nat -> V' (S j) = V j).
  Definition is_compressed_block (K M H H' : nat -> N) : Prop :=
    exists W V, is_schedule M W /\ (forall j, (j < 8)%nat -> V 0%nat j = H j)
      /\ (forall t, (t < v_steps v)%nat -> is_step (K t) (W t) (V t) (V (S t)))
      /\ (forall j, (j < 8)%nat -> H' j = (H j + V (v_steps v) j) mod 2 ^ w).

  Definition is_sha2 (m d : bytes) : Prop :=
    exists p K H, is_padded m p /\ is_K K /\ is_H0 (H 0%nat)
      /\ (forall i, (i < length p / bs)%nat -> is_compressed_block K (block_word p i) (H i) (H (S i)))
      /\ has_bytes (8 * v_wb v) d
      /\ (forall j, (j < 8)%nat -> digits_val 256 (firstn (v_wb v) (skipn (v_wb v * j) d)) = H (length p / bs)%nat j).
End Fips.

(** ** HMAC: [B] is the block size of the hash function in bytes *)
Definition is_xor_pad (c : N) (a b : bytes) : Prop := Forall2 (fun x y => y = N.lxor c x) a b.
Definition is_hmac (is_hash : bytes -> bytes -> Prop) (B : nat) (key msg mac : bytes) : Prop :=
  exists k0 k z ik ok inner, (if Nat.leb (length key) B then k0 = key else is_hash key k0)
    /\ k = k0 ++ repeat 0 z /\ length k = B
    /\ is_xor_pad 54 k ik /\ is_xor_pad 92 k ok
    /\ is_hash (ik ++ msg) inner /\ is_hash (ok ++ inner) mac.

(** ** RIPEMD-160 *)
(** The message order of the five rounds: rho applied again and again; the right line starts with pi. *)
Definition rho (i : nat) : nat := nth i [7; 4; 13; 1; 10; 6; 15; 3; 12; 0; 9; 5; 2; 14; 11; 8]%nat 0%nat.
Definition pi (i : nat) : nat := ((9 * i + 5) mod 16)%nat.
Definition rmd_order (right : bool) (round j : nat) : nat := Nat.iter round rho (if right then pi j else j).
(** The shift of each message word in each round (both lines). *)
Definition rmd_shift (round word : nat) : N :=
  nth word (nth round [
    [11; 14; 15; 12; 5; 8; 7; 9; 11; 13; 14; 15; 6; 7; 9; 8];
    [12; 13; 11; 15; 6; 9; 9; 7; 12; 15; 11; 13; 7; 8; 7; 7];
    [13; 15; 14; 11; 7; 7; 6; 8; 13; 14; 13; 12; 5; 5; 6; 9];
    [14; 11; 12; 14; 8; 6; 5; 5; 15; 12; 15; 14; 9; 9; 8; 6];
    [15; 12; 13; 13; 9; 5; 8; 6; 14; 11; 12; 11; 8; 6; 5; 5]] []) 0.
(** The boolean functions f1 .. f5, on words of 32 bits. *)
Definition rmd_bool (n : nat) (x y z : bool) : bool :=
  match n with
  | 0%nat => xorb x (xorb y z)
  | 1%nat => if x then y else z
  | 2%nat => xorb (x || negb y) z
  | 3%nat => if z then x else y
  | _ => xorb x (y || negb z)
  end.
Definition is_rmd_f (n : nat) (x y z r : N) : Prop :=
  forall i, N.testbit r i = if i <? 32 then rmd_bool n (N.testbit x i) (N.testbit y i) (N.testbit z i) else false.
(** The added constants: 2^30 times the square roots of 2, 3, 5, 7 (left) and their cube roots (right). *)
Definition is_int_root (k p c : N) : Prop := c ^ k <= p * 2 ^ (30 * k) < (c + 1) ^ k.
Definition is_rmd_const (right : bool) (round : nat) (c : N) : Prop :=
  if right then
    match round with
    | 0%nat => is_int_root 3 2 c | 1%nat => is_int_root 3 3 c | 2%nat => is_int_root 3 5 c | 3%nat => is_int_root 3 7 c
    | _ => c = 0
    end
  else
    match round with
    | 0%nat => c = 0 | 1%nat => is_int_root 2 2 c | 2%nat => is_int_root 2 3 c | 3%nat => is_int_root 2 5 c
    | _ => is_int_root 2 7 c
    end.
(** Words are little endian. *)
Definition word_le (b : bytes) : N := digits_val 256 (rev b).
Definition is_rmd_padded (m p : bytes) : Prop :=
  exists zeros lb, p = m ++ 128 :: repeat 0 zeros ++ lb /\ has_bytes 8 lb /\ word_le lb = 8 * len m
    /\ (length p mod 64 = 0)%nat /\ (zeros < 64)%nat.
(** One step: A .. E are numbered 0 .. 4. *)
Definition is_rmd_step (right : bool) (X : nat -> N) (j : nat) (V V' : nat -> N) : Prop :=
  exists f k t, let round := (j / 16)%nat in
    let r := rmd_order right round (j mod 16)%nat in
    is_rmd_f (if right then 4 - round else round)%nat (V 1%nat) (V 2%nat) (V 3%nat) f /\ is_rmd_const right round k
    /\ t = (ROTL 32 (rmd_shift round r) ((V 0%nat + f + X r + k) mod 2 ^ 32) + V 4%nat) mod 2 ^ 32
    /\ V' 0%nat = V 4%nat /\ V' 1%nat = t /\ V' 2%nat = V 1%nat /\ V' 3%nat = ROTL 32 10 (V 2%nat) /\ V' 4%nat = V 3%nat.
Definition is_rmd_line (right : bool) (X H R : nat -> N) : Prop :=
  exists V, (forall j, (j < 5)%nat -> V 0%nat j = H j) /\ (forall j, (j < 80)%nat -> is_rmd_step right X j (V j) (V (S j)))
    /\ (forall j, (j < 5)%nat -> R j = V 80%nat j).
Definition is_rmd_block (X H H' : nat -> N) : Prop :=
  exists L R, is_rmd_line false X H L /\ is_rmd_line true X H R
    /\ (forall j, (j < 5)%nat -> H' j = (H ((j + 1) mod 5)%nat + L ((j + 2) mod 5)%nat + R ((j + 3) mod 5)%nat) mod 2 ^ 32).
(** The initial value: the nibbles 0, 1, .., 15 counted up and down, and 0xF0E1D2C3 as bytes. *)
Definition rmd_h0 (j : nat) : N :=
  word_le (nth j [[0x01; 0x23; 0x45; 0x67]; [0x89; 0xAB; 0xCD; 0xEF]; [0xFE; 0xDC; 0xBA; 0x98]; [0x76; 0x54; 0x32; 0x10];
                  [0xF0; 0xE1; 0xD2; 0xC3]] []).
Definition is_ripemd160 (m d : bytes) : Prop :=
  exists p H, is_rmd_padded m p /\ (forall j, (j < 5)%nat -> H 0%nat j = rmd_h0 j)
    /\ (forall i, (i < length p / 64)%nat -> is_rmd_block (fun t => word_le (firstn 4 (skipn (64 * i + 4 * t) p))) (H i) (H (S i)))
    /\ has_bytes 20 d /\ (forall j, (j < 5)%nat -> word_le (firstn 4 (skipn (4 * j) d)) = H (length p / 64)%nat j).

(** ** PBKDF2 (RFC 8018, 5.2), one output block: byte j of the output is the exclusive or of byte j of U_1 .. U_c. *)
Definition is_pbkdf2 (is_prf : bytes -> bytes -> Prop) (salt : bytes) (c hlen : nat) (out : bytes) : Prop :=
  exists U : nat -> bytes, is_prf (salt ++ [0; 0; 0; 1]) (U 1%nat)
    /\ (forall i, (1 <= i < c)%nat -> is_prf (U i) (U (S i)))
    /\ length out = hlen
    /\ (forall j, (j < hlen)%nat -> nth j out 0 = fold_right N.lxor 0 (map (fun i => nth j (U i) 0) (seq 1 c))).
