(** SHA-512 and PBKDF2 on the machine integers of the kernel, to compute seeds in proofs (FastShaProofs.v shows that
    they are those of Hash.v).  A word of 64 bits is kept as two halves of 32 bits.  The continuations and [force] make
    lazy evaluation compute every word at once. *)
From Coq Require Import Uint63 ZArith.
From Verif Require Import Outcome Bytes Hash.
Open Scope uint63_scope.

Inductive w64 := W (h l : int).
Definition fks : list w64 := [
  W 0x428a2f98 0xd728ae22; W 0x71374491 0x23ef65cd; W 0xb5c0fbcf 0xec4d3b2f; W 0xe9b5dba5 0x8189dbbc;
  W 0x3956c25b 0xf348b538; W 0x59f111f1 0xb605d019; W 0x923f82a4 0xaf194f9b; W 0xab1c5ed5 0xda6d8118;
  W 0xd807aa98 0xa3030242; W 0x12835b01 0x45706fbe; W 0x243185be 0x4ee4b28c; W 0x550c7dc3 0xd5ffb4e2;
  W 0x72be5d74 0xf27b896f; W 0x80deb1fe 0x3b1696b1; W 0x9bdc06a7 0x25c71235; W 0xc19bf174 0xcf692694;
  W 0xe49b69c1 0x9ef14ad2; W 0xefbe4786 0x384f25e3; W 0x0fc19dc6 0x8b8cd5b5; W 0x240ca1cc 0x77ac9c65;
  W 0x2de92c6f 0x592b0275; W 0x4a7484aa 0x6ea6e483; W 0x5cb0a9dc 0xbd41fbd4; W 0x76f988da 0x831153b5;
  W 0x983e5152 0xee66dfab; W 0xa831c66d 0x2db43210; W 0xb00327c8 0x98fb213f; W 0xbf597fc7 0xbeef0ee4;
  W 0xc6e00bf3 0x3da88fc2; W 0xd5a79147 0x930aa725; W 0x06ca6351 0xe003826f; W 0x14292967 0x0a0e6e70;
  W 0x27b70a85 0x46d22ffc; W 0x2e1b2138 0x5c26c926; W 0x4d2c6dfc 0x5ac42aed; W 0x53380d13 0x9d95b3df;
  W 0x650a7354 0x8baf63de; W 0x766a0abb 0x3c77b2a8; W 0x81c2c92e 0x47edaee6; W 0x92722c85 0x1482353b;
  W 0xa2bfe8a1 0x4cf10364; W 0xa81a664b 0xbc423001; W 0xc24b8b70 0xd0f89791; W 0xc76c51a3 0x0654be30;
  W 0xd192e819 0xd6ef5218; W 0xd6990624 0x5565a910; W 0xf40e3585 0x5771202a; W 0x106aa070 0x32bbd1b8;
  W 0x19a4c116 0xb8d2d0c8; W 0x1e376c08 0x5141ab53; W 0x2748774c 0xdf8eeb99; W 0x34b0bcb5 0xe19b48a8;
  W 0x391c0cb3 0xc5c95a63; W 0x4ed8aa4a 0xe3418acb; W 0x5b9cca4f 0x7763e373; W 0x682e6ff3 0xd6b2b8a3;
  W 0x748f82ee 0x5defb2fc; W 0x78a5636f 0x43172f60; W 0x84c87814 0xa1f0ab72; W 0x8cc70208 0x1a6439ec;
  W 0x90befffa 0x23631e28; W 0xa4506ceb 0xde82bde9; W 0xbef9a3f7 0xb2c67915; W 0xc67178f2 0xe372532b;
  W 0xca273ece 0xea26619c; W 0xd186b8c7 0x21c0c207; W 0xeada7dd6 0xcde0eb1e; W 0xf57d4f7f 0xee6ed178;
  W 0x06f067aa 0x72176fba; W 0x0a637dc5 0xa2c898a6; W 0x113f9804 0xbef90dae; W 0x1b710b35 0x131c471b;
  W 0x28db77f5 0x23047d84; W 0x32caab7b 0x40c72493; W 0x3c9ebe0a 0x15c9bebc; W 0x431d67c4 0x9c100d4c;
  W 0x4cc5d4be 0xcb3e42b6; W 0x597f299c 0xfc657e2a; W 0x5fcb6fab 0x3ad6faec; W 0x6c44198c 0x4a475817].
Definition fS0 (a : w64) : w64 :=
  match a with W h l =>
    W ((((h >> 28) lxor (l << 4)) lxor (((l >> 2) lxor (h << 30)) lxor ((l >> 7) lxor (h << 25)))) land 0xffffffff)
      ((((l >> 28) lxor (h << 4)) lxor (((h >> 2) lxor (l << 30)) lxor ((h >> 7) lxor (l << 25)))) land 0xffffffff) end.
Definition fS1 (a : w64) : w64 :=
  match a with W h l =>
    W ((((h >> 14) lxor (l << 18)) lxor (((h >> 18) lxor (l << 14)) lxor ((l >> 9) lxor (h << 23)))) land 0xffffffff)
      ((((l >> 14) lxor (h << 18)) lxor (((l >> 18) lxor (h << 14)) lxor ((h >> 9) lxor (l << 23)))) land 0xffffffff) end.
Definition fg0 (a : w64) : w64 :=
  match a with W h l =>
    W ((((h >> 1) lxor (l << 31)) lxor (((h >> 8) lxor (l << 24)) lxor ((h >> 7) lxor 0))) land 0xffffffff)
      ((((l >> 1) lxor (h << 31)) lxor (((l >> 8) lxor (h << 24)) lxor ((l >> 7) lxor (h << 25)))) land 0xffffffff) end.
Definition fg1 (a : w64) : w64 :=
  match a with W h l =>
    W ((((h >> 19) lxor (l << 13)) lxor (((l >> 29) lxor (h << 3)) lxor ((h >> 6) lxor 0))) land 0xffffffff)
      ((((l >> 19) lxor (h << 13)) lxor (((h >> 29) lxor (l << 3)) lxor ((l >> 6) lxor (h << 26)))) land 0xffffffff) end.
Definition fch (a b c : w64) : w64 :=
  match a, b, c with W ah al, W bh bl, W ch cl => W (ch lxor (ah land (bh lxor ch))) (cl lxor (al land (bl lxor cl))) end.
Definition fmaj (a b c : w64) : w64 :=
  match a, b, c with W ah al, W bh bl, W ch cl =>
    W ((ah land bh) lxor (ch land (ah lxor bh))) ((al land bl) lxor (cl land (al lxor bl))) end.
Definition fxor (a b : w64) : w64 := match a, b with W ah al, W bh bl => W (ah lxor bh) (al lxor bl) end.
(** Sums are left with their carries until [norm]. *)
Definition fsum (a b : w64) : w64 := match a, b with W ah al, W bh bl => W (ah + bh) (al + bl) end.
Definition force {A} (a : w64) (k : w64 -> A) : A := match a with W h l => if h =? l then k (W h l) else k (W h l) end.
Definition carry (a : w64) : w64 := match a with W h l => W ((h + (l >> 32)) land 0xffffffff) (l land 0xffffffff) end.
Definition norm {A} (a : w64) (k : w64 -> A) : A := force (carry a) k.

Inductive fst8 := FSt (a b c d e f g h : w64).
Inductive fwin := FWin (w0 w1 w2 w3 w4 w5 w6 w7 w8 w9 w10 w11 w12 w13 w14 w15 : w64).
Definition fnext {A} (s : fwin) (k : fwin -> A) : A :=
  match s with FWin w0 w1 w2 w3 w4 w5 w6 w7 w8 w9 w10 w11 w12 w13 w14 w15 =>
    norm (fsum (fsum (fg1 w14) w9) (fsum (fg0 w1) w0))
      (fun w16 => k (FWin w1 w2 w3 w4 w5 w6 w7 w8 w9 w10 w11 w12 w13 w14 w15 w16)) end.
Definition ffirst (s : fwin) : w64 := match s with FWin w0 _ _ _ _ _ _ _ _ _ _ _ _ _ _ _ => w0 end.
Definition fround {A} (s : fst8) (kc w : w64) (k : fst8 -> A) : A :=
  match s with FSt a b c d e f g h =>
    norm (fsum (fsum h (fS1 e)) (fsum (fsum (fch e f g) kc) w)) (fun t1 =>
    norm (fsum d t1) (fun e' => norm (fsum t1 (fsum (fS0 a) (fmaj a b c))) (fun a' => k (FSt a' a b c e' e f g)))) end.
Fixpoint frounds (ks : list w64) (v : fwin) (s : fst8) : fst8 :=
  match ks with
  | [] => s
  | kc :: ks' => fround s kc (ffirst v) (fun s' => fnext v (fun v' => frounds ks' v' s'))
  end.
Definition fmap2 {A} (f : w64 -> w64 -> w64) (s t : fst8) (k : fst8 -> A) : A :=
  match s, t with FSt a b c d e f' g h, FSt a' b' c' d' e' f'' g' h' =>
    force (f a a') (fun a => force (f b b') (fun b => force (f c c') (fun c => force (f d d') (fun d =>
    force (f e e') (fun e => force (f f' f'') (fun f' => force (f g g') (fun g => force (f h h') (fun h =>
    k (FSt a b c d e f' g h))))))))) end.
Definition fcompress {A} (v : fwin) (s : fst8) (k : fst8 -> A) : A :=
  fmap2 (fun a b => carry (fsum a b)) s (frounds fks v s) k.
Definition fiv : fst8 := FSt (W 0x6a09e667 0xf3bcc908)
  (W 0xbb67ae85 0x84caa73b)
  (W 0x3c6ef372 0xfe94f82b)
  (W 0xa54ff53a 0x5f1d36f1)
  (W 0x510e527f 0xade682d1)
  (W 0x9b05688c 0x2b3e6c1f)
  (W 0x1f83d9ab 0xfb41bd6b)
  (W 0x5be0cd19 0x137e2179).
(** A digest as the last block of a message of 128 + 64 bytes. *)
Definition fblock (s : fst8) : fwin :=
  match s with FSt a b c d e f g h =>
    FWin a b c d e f g h (W 0x80000000 0) (W 0 0) (W 0 0) (W 0 0) (W 0 0) (W 0 0) (W 0 0) (W 0 0x600) end.
(** The iterations of PBKDF2: [i] and [o] are the states after the inner and the outer key. *)
Fixpoint fiter (i o : fst8) (c : nat) (u acc : fst8) : fst8 :=
  match c with
  | O => acc
  | S c' => fcompress (fblock u) i (fun x => fcompress (fblock x) o (fun u' => fmap2 fxor acc u' (fun acc' => fiter i o c' u' acc')))
  end.
(** Blocks of bytes as words. *)
Definition fword (x : N) : w64 := W (of_Z (Z.of_N (N.shiftr x 32))) (of_Z (Z.of_N (N.land x (N.ones 32)))).
Definition fwin_of (block : list N) : fwin :=
  let w i := fword (nth i (map be_val (chunks 16 8 block)) 0%N) in
  FWin (w 0%nat) (w 1%nat) (w 2%nat) (w 3%nat) (w 4%nat) (w 5%nat) (w 6%nat) (w 7%nat)
    (w 8%nat) (w 9%nat) (w 10%nat) (w 11%nat) (w 12%nat) (w 13%nat) (w 14%nat) (w 15%nat).
(** PBKDF2 with keys of at most 128 bytes and short salts; [c] counts the iterations after the first. *)
Definition fpbkdf2 (pw salt : list N) (c : nat) : fst8 :=
  let k := pw ++ repeat 0%N (128 - length pw) in
  let m := salt ++ [0; 0; 0; 1]%N in
  fcompress (fwin_of (map (N.lxor 0x36) k)) fiv (fun i =>
  fcompress (fwin_of (map (N.lxor 0x5c) k)) fiv (fun o =>
  fcompress (fwin_of (m ++ pad sha512_params (128 + length m))) i (fun x =>
  fcompress (fblock x) o (fun u => fiter i o c u u)))).
