(** SHA-256, SHA-512 (FIPS 180-4), HMAC (RFC 2104), PBKDF2 (RFC 2898).
    These are the crates sha2 0.10, hmac 0.12 and pbkdf2 0.11 (not part of /repo), modelled by their
    published standards as executable functions. Used at src/bip39/crypto.rs:18-43, src/bip32/mod.rs:40,
    src/bip32/public_key.rs:31-34. *)
From Verif Require Import Outcome Bytes.
Open Scope N_scope.

Definition k256 : list N := [
  0x428a2f98; 0x71374491; 0xb5c0fbcf; 0xe9b5dba5; 0x3956c25b; 0x59f111f1; 0x923f82a4; 0xab1c5ed5;
  0xd807aa98; 0x12835b01; 0x243185be; 0x550c7dc3; 0x72be5d74; 0x80deb1fe; 0x9bdc06a7; 0xc19bf174;
  0xe49b69c1; 0xefbe4786; 0x0fc19dc6; 0x240ca1cc; 0x2de92c6f; 0x4a7484aa; 0x5cb0a9dc; 0x76f988da;
  0x983e5152; 0xa831c66d; 0xb00327c8; 0xbf597fc7; 0xc6e00bf3; 0xd5a79147; 0x06ca6351; 0x14292967;
  0x27b70a85; 0x2e1b2138; 0x4d2c6dfc; 0x53380d13; 0x650a7354; 0x766a0abb; 0x81c2c92e; 0x92722c85;
  0xa2bfe8a1; 0xa81a664b; 0xc24b8b70; 0xc76c51a3; 0xd192e819; 0xd6990624; 0xf40e3585; 0x106aa070;
  0x19a4c116; 0x1e376c08; 0x2748774c; 0x34b0bcb5; 0x391c0cb3; 0x4ed8aa4a; 0x5b9cca4f; 0x682e6ff3;
  0x748f82ee; 0x78a5636f; 0x84c87814; 0x8cc70208; 0x90befffa; 0xa4506ceb; 0xbef9a3f7; 0xc67178f2].
Definition h256 : list N := [
  0x6a09e667; 0xbb67ae85; 0x3c6ef372; 0xa54ff53a; 0x510e527f; 0x9b05688c; 0x1f83d9ab; 0x5be0cd19].
Definition k512 : list N := [
  0x428a2f98d728ae22; 0x7137449123ef65cd; 0xb5c0fbcfec4d3b2f; 0xe9b5dba58189dbbc;
  0x3956c25bf348b538; 0x59f111f1b605d019; 0x923f82a4af194f9b; 0xab1c5ed5da6d8118;
  0xd807aa98a3030242; 0x12835b0145706fbe; 0x243185be4ee4b28c; 0x550c7dc3d5ffb4e2;
  0x72be5d74f27b896f; 0x80deb1fe3b1696b1; 0x9bdc06a725c71235; 0xc19bf174cf692694;
  0xe49b69c19ef14ad2; 0xefbe4786384f25e3; 0x0fc19dc68b8cd5b5; 0x240ca1cc77ac9c65;
  0x2de92c6f592b0275; 0x4a7484aa6ea6e483; 0x5cb0a9dcbd41fbd4; 0x76f988da831153b5;
  0x983e5152ee66dfab; 0xa831c66d2db43210; 0xb00327c898fb213f; 0xbf597fc7beef0ee4;
  0xc6e00bf33da88fc2; 0xd5a79147930aa725; 0x06ca6351e003826f; 0x142929670a0e6e70;
  0x27b70a8546d22ffc; 0x2e1b21385c26c926; 0x4d2c6dfc5ac42aed; 0x53380d139d95b3df;
  0x650a73548baf63de; 0x766a0abb3c77b2a8; 0x81c2c92e47edaee6; 0x92722c851482353b;
  0xa2bfe8a14cf10364; 0xa81a664bbc423001; 0xc24b8b70d0f89791; 0xc76c51a30654be30;
  0xd192e819d6ef5218; 0xd69906245565a910; 0xf40e35855771202a; 0x106aa07032bbd1b8;
  0x19a4c116b8d2d0c8; 0x1e376c085141ab53; 0x2748774cdf8eeb99; 0x34b0bcb5e19b48a8;
  0x391c0cb3c5c95a63; 0x4ed8aa4ae3418acb; 0x5b9cca4f7763e373; 0x682e6ff3d6b2b8a3;
  0x748f82ee5defb2fc; 0x78a5636f43172f60; 0x84c87814a1f0ab72; 0x8cc702081a6439ec;
  0x90befffa23631e28; 0xa4506cebde82bde9; 0xbef9a3f7b2c67915; 0xc67178f2e372532b;
  0xca273eceea26619c; 0xd186b8c721c0c207; 0xeada7dd6cde0eb1e; 0xf57d4f7fee6ed178;
  0x06f067aa72176fba; 0x0a637dc5a2c898a6; 0x113f9804bef90dae; 0x1b710b35131c471b;
  0x28db77f523047d84; 0x32caab7b40c72493; 0x3c9ebe0a15c9bebc; 0x431d67c49c100d4c;
  0x4cc5d4becb3e42b6; 0x597f299cfc657e2a; 0x5fcb6fab3ad6faec; 0x6c44198c4a475817].
Definition h512 : list N := [
  0x6a09e667f3bcc908; 0xbb67ae8584caa73b; 0x3c6ef372fe94f82b; 0xa54ff53a5f1d36f1;
  0x510e527fade682d1; 0x9b05688c2b3e6c1f; 0x1f83d9abfb41bd6b; 0x5be0cd19137e2179].

(** Word size in bits, rotation amounts, constants. *)
Record sha2_params := {
  p_w : N;                         (* word size in bits *)
  p_wb : nat;                      (* word size in bytes *)
  p_mask : N;                      (* 2^w - 1: [N.land x mask] is reduction modulo 2^w *)
  p_s0 : N * N * N; p_s1 : N * N * N;   (* big sigma rotations *)
  p_g0 : N * N * N; p_g1 : N * N * N;   (* small sigma: two rotations and a shift *)
  p_k : list N;
  p_h : list N }.

Definition sha256_params := {| p_w := 32; p_wb := 4; p_mask := 0xffffffff; p_s0 := (2, 13, 22); p_s1 := (6, 11, 25);
  p_g0 := (7, 18, 3); p_g1 := (17, 19, 10); p_k := k256; p_h := h256 |}.
Definition sha512_params := {| p_w := 64; p_wb := 8; p_mask := 0xffffffffffffffff; p_s0 := (28, 34, 39); p_s1 := (14, 18, 41);
  p_g0 := (1, 8, 7); p_g1 := (19, 61, 6); p_k := k512; p_h := h512 |}.

Section Sha2.
  Variable P : sha2_params.
  Definition add_w (a b : N) : N := N.land (a + b) (p_mask P).
  Definition rotr (x n : N) : N :=
    N.lor (N.shiftr x n) (N.land (N.shiftl x (p_w P - n)) (p_mask P)).
  Definition big_sigma (r : N * N * N) (x : N) : N :=
    let '(a, b, c) := r in N.lxor (rotr x a) (N.lxor (rotr x b) (rotr x c)).
  Definition small_sigma (r : N * N * N) (x : N) : N :=
    let '(a, b, c) := r in N.lxor (rotr x a) (N.lxor (rotr x b) (N.shiftr x c)).
  Definition ch (x y z : N) : N := N.lxor (N.land x y) (N.ldiff z x).
  Definition maj (x y z : N) : N := N.lxor (N.land x y) (N.lxor (N.land x z) (N.land y z)).

  (** Message schedule: [win] holds the next 16 schedule words, oldest first. *)
  Definition next_w (win : list N) : N :=
    add_w (add_w (small_sigma (p_g1 P) (nth 14 win 0)) (nth 9 win 0))
          (add_w (small_sigma (p_g0 P) (nth 1 win 0)) (nth 0 win 0)).

  Inductive st8 := St8 (a b c d e f g h : N).
  Definition list_of_st (s : st8) : list N := let '(St8 a b c d e f g h) := s in [a; b; c; d; e; f; g; h].
  Definition st_of_list (l : list N) : st8 :=
    St8 (nth 0 l 0) (nth 1 l 0) (nth 2 l 0) (nth 3 l 0) (nth 4 l 0) (nth 5 l 0) (nth 6 l 0) (nth 7 l 0).

  Definition round (s : st8) (k w : N) : st8 :=
    let '(St8 a b c d e f g h) := s in
    let t1 := add_w (add_w h (big_sigma (p_s1 P) e)) (add_w (add_w (ch e f g) k) w) in
    let t2 := add_w (big_sigma (p_s0 P) a) (maj a b c) in
    St8 (add_w t1 t2) a b c (add_w d t1) e f g.

  Fixpoint rounds (ks : list N) (win : list N) (s : st8) : st8 :=
    match ks with
    | [] => s
    | k :: ks' => rounds ks' (tl win ++ [next_w win]) (round s k (hd 0 win))
    end.

  Definition st_add (s t : st8) : st8 :=
    let '(St8 a b c d e f g h) := s in
    let '(St8 a' b' c' d' e' f' g' h') := t in
    St8 (add_w a a') (add_w b b') (add_w c c') (add_w d d') (add_w e e') (add_w f f') (add_w g g') (add_w h h').

  Fixpoint chunks {A} (fuel n : nat) (l : list A) : list (list A) :=
    match fuel with
    | O => []
    | S f => match l with [] => [] | _ => firstn n l :: chunks f n (skipn n l) end
    end.

  Definition block_size : nat := 16 * p_wb P.
  Definition compress (s : st8) (block : bytes) : st8 :=
    st_add s (rounds (p_k P) (map be_val (chunks 16 (p_wb P) block)) s).

  (** Padding: 0x80, zeros, the bit length of the message in 2 words. *)
  Definition pad (total : nat) : bytes :=
    let bs := block_size in
    let lw := (2 * p_wb P)%nat in
    let z := ((2 * bs - 1 - lw - total mod bs) mod bs)%nat in
    0x80 :: repeat 0 z ++ be_bytes lw (8 * N.of_nat total).

  Definition absorb (s : st8) (m : bytes) : st8 :=
    fold_left compress (chunks (length m) block_size m) s.
  Definition digest_of_st (s : st8) : bytes := flat_map (be_bytes (p_wb P)) (list_of_st s).
  Definition sha2 (m : bytes) : bytes :=
    digest_of_st (absorb (st_of_list (p_h P)) (m ++ pad (length m))).
End Sha2.

Definition sha256 (m : bytes) : bytes := sha2 sha256_params m.
Definition sha512 (m : bytes) : bytes := sha2 sha512_params m.

(** HMAC over a hash with block size [bs] bytes. *)
Definition hmac_key (H : bytes -> bytes) (bs : nat) (key : bytes) : bytes :=
  let k0 := if Nat.ltb bs (length key) then H key else key in
  k0 ++ repeat 0 (bs - length k0).
Definition hmac (H : bytes -> bytes) (bs : nat) (key msg : bytes) : bytes :=
  let k := hmac_key H bs key in
  H (map (N.lxor 0x5c) k ++ H (map (N.lxor 0x36) k ++ msg)).
Definition hmac_sha256 (key msg : bytes) : bytes := hmac sha256 64 key msg.
Definition hmac_sha512 (key msg : bytes) : bytes := hmac sha512 128 key msg.

(** PBKDF2 with a PRF of output length [hlen] (RFC 2898, section 5.2). *)
Definition xor_bytes (a b : bytes) : bytes := map (fun p => N.lxor (fst p) (snd p)) (combine a b).
Fixpoint pbkdf2_iter (prf : bytes -> bytes) (c : nat) (u acc : bytes) : bytes :=
  match c with
  | O => acc
  | S c' => let u' := prf u in pbkdf2_iter prf c' u' (xor_bytes acc u')
  end.
(** F (P, S, c, i), [c >= 1] *)
Definition pbkdf2_block (prf : bytes -> bytes) (salt : bytes) (c : nat) (i : N) : bytes :=
  let u1 := prf (salt ++ be_bytes 4 i) in pbkdf2_iter prf (c - 1) u1 u1.
Definition pbkdf2 (prf : bytes -> bytes -> bytes) (hlen : nat) (pw salt : bytes) (c dklen : nat) : bytes :=
  let l := Nat.div (dklen + hlen - 1) hlen in
  firstn dklen (flat_map (fun i => pbkdf2_block (prf pw) salt c (N.of_nat i)) (seq 1 l)).
