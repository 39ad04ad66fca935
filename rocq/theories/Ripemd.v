(** RIPEMD-160 (crate ripemd 0.1, not part of /repo), modelled by its published specification.
    Used at src/crypto.rs:4-14 and src/bip32/public_key.rs:31-34. *)
From Verif Require Import Outcome Bytes Hash.
Open Scope N_scope.

Definition add32 (a b : N) : N := N.land (a + b) 0xffffffff.
Definition rotl32 (x n : N) : N := N.lor (N.land (N.shiftl x n) 0xffffffff) (N.shiftr x (32 - n)).
Definition not32 (x : N) : N := N.lxor x 0xffffffff.

Definition rmd_f (j : nat) (x y z : N) : N :=
  match j with
  | 0%nat => N.lxor x (N.lxor y z)
  | 1%nat => N.lor (N.land x y) (N.land (not32 x) z)
  | 2%nat => N.lxor (N.lor x (not32 y)) z
  | 3%nat => N.lor (N.land x z) (N.land y (not32 z))
  | _ => N.lxor x (N.lor y (not32 z))
  end.

Definition rmd_r1 : list nat := [
  0;1;2;3;4;5;6;7;8;9;10;11;12;13;14;15; 7;4;13;1;10;6;15;3;12;0;9;5;2;14;11;8;
  3;10;14;4;9;15;8;1;2;7;0;6;13;11;5;12; 1;9;11;10;0;8;12;4;13;3;7;15;14;5;6;2;
  4;0;5;9;7;12;2;10;14;1;3;8;11;6;15;13]%nat.
Definition rmd_r2 : list nat := [
  5;14;7;0;9;2;11;4;13;6;15;8;1;10;3;12; 6;11;3;7;0;13;5;10;14;15;8;12;4;9;1;2;
  15;5;1;3;7;14;6;9;11;8;12;2;10;0;4;13; 8;6;4;1;3;11;15;0;5;12;2;13;9;7;10;14;
  12;15;10;4;1;5;8;7;6;2;13;14;0;3;9;11]%nat.
Definition rmd_s1 : list N := [
  11;14;15;12;5;8;7;9;11;13;14;15;6;7;9;8; 7;6;8;13;11;9;7;15;7;12;15;9;11;7;13;12;
  11;13;6;7;14;9;13;15;14;8;13;6;5;12;7;5; 11;12;14;15;14;15;9;8;9;14;5;6;8;6;5;12;
  9;15;5;11;6;8;13;12;5;12;13;14;11;8;5;6].
Definition rmd_s2 : list N := [
  8;9;9;11;13;15;15;5;7;7;8;11;14;14;12;6; 9;13;15;7;12;8;9;11;7;7;12;7;6;15;13;11;
  9;7;15;11;8;6;6;14;12;13;5;14;13;13;7;5; 15;5;8;11;14;14;6;14;6;9;12;9;12;5;15;8;
  8;5;12;9;12;5;14;6;8;13;6;5;15;13;11;11].
Definition rmd_k1 : list N := [0; 0x5a827999; 0x6ed9eba1; 0x8f1bbcdc; 0xa953fd4e].
Definition rmd_k2 : list N := [0x50a28be6; 0x5c4dd124; 0x6d703ef3; 0x7a6d76e9; 0].

Inductive st5 := St5 (a b c d e : N).

Definition rmd_step (f : N -> N -> N -> N) (k : N) (x s : N) (t : st5) : st5 :=
  let '(St5 a b c d e) := t in
  St5 e (add32 (rotl32 (add32 (add32 a (f b c d)) (add32 x k)) s) e) b (rotl32 c 10) d.

(** One of the two parallel lines: 80 steps. [right] selects the reversed function order. *)
Fixpoint rmd_line (right : bool) (j : nat) (rs : list nat) (ss : list N) (ks : list N) (x : list N) (t : st5) : st5 :=
  match rs, ss with
  | r :: rs', s :: ss' =>
      let g := Nat.div j 16 in
      rmd_line right (S j) rs' ss' ks x
        (rmd_step (rmd_f (if right then 4 - g else g)%nat) (nth g ks 0) (nth r x 0) s t)
  | _, _ => t
  end.

Definition le_val (l : bytes) : N := be_val (rev l).
Definition rmd_compress (t : st5) (block : bytes) : st5 :=
  let x := map le_val (chunks 16 4 block) in
  let '(St5 a b c d e) := t in
  let '(St5 a1 b1 c1 d1 e1) := rmd_line false 0 rmd_r1 rmd_s1 rmd_k1 x t in
  let '(St5 a2 b2 c2 d2 e2) := rmd_line true 0 rmd_r2 rmd_s2 rmd_k2 x t in
  St5 (add32 b (add32 c1 d2)) (add32 c (add32 d1 e2)) (add32 d (add32 e1 a2))
      (add32 e (add32 a1 b2)) (add32 a (add32 b1 c2)).

Definition rmd_pad (total : nat) : bytes :=
  0x80 :: repeat 0 ((119 - total mod 64) mod 64)%nat ++ rev (be_bytes 8 (8 * N.of_nat total)).
Definition ripemd160 (m : bytes) : bytes :=
  let m' := m ++ rmd_pad (length m) in
  let '(St5 a b c d e) := fold_left rmd_compress (chunks (length m') 64 m')
      (St5 0x67452301 0xefcdab89 0x98badcfe 0x10325476 0xc3d2e1f0) in
  flat_map (fun w => rev (be_bytes 4 w)) [a; b; c; d; e].
