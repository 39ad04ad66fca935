(** Multiplication, inversion and negation of the scalars of libsecp256k1 0.7.1 in words of 32 bits, as signing
    (src/lib.rs:14-19, ecdsa_sign) uses them.  The source is not in /repo and was not at hand: the definitions were written from memory
    of it and not compared with it (DESIGN.md, section 3).  They follow its file scalar.rs
    (a translation of scalar_8x32_impl.h): the macros of [define_ops], the columns in the order in which the code adds
    them up, the additions that wrap, and every debug assertion ([None] is an assertion that fails).  [Secp.v] has
    the same functions on integers; C161 - C163 prove that they agree. *)
From Coq Require Import ZArith.
From Verif Require Import Outcome Bytes Secp ModelBip32 ModelScalar.
Open Scope N_scope.

(** ** The accumulator of 96 bits: c0, c1, c2 *)
Definition wrap (x : N) : N := x mod 2 ^ 32.
Definition bit (b : bool) : N := if b then 1 else 0.
Record acc := Acc { c0 : N; c1 : N; c2 : N }.
Definition assert {A} (b : bool) (x : A) : option A := if b then Some x else None.

(** One line of the code: muladd!, muladd_fast!, muladd2!, sumadd!, sumadd_fast! *)
Inductive op := Mul (a b : N) | MulFast (a b : N) | Mul2 (a b : N) | Add (a : N) | AddFast (a : N).
Definition step (o : op) (c : acc) : option acc :=
  match o with
  | Mul a b =>
      let t := a * b in
      let tl := wrap t in
      let x0 := wrap (c0 c + tl) in
      let th := wrap (N.shiftr t 32 + bit (x0 <? tl)) in
      let x1 := wrap (c1 c + th) in
      let x2 := wrap (c2 c + bit (x1 <? th)) in
      assert ((th <=? x1) || negb (x2 =? 0)) (Acc x0 x1 x2)
  | MulFast a b =>
      let t := a * b in
      let tl := wrap t in
      let x0 := wrap (c0 c + tl) in
      let th := wrap (N.shiftr t 32 + bit (x0 <? tl)) in
      let x1 := wrap (c1 c + th) in
      assert (th <=? x1) (Acc x0 x1 (c2 c))
  | Mul2 a b =>
      let t := a * b in
      let th := N.shiftr t 32 in
      let tl := wrap t in
      let th2 := wrap (th + th) in
      let x2 := wrap (c2 c + bit (th2 <? th)) in
      let a1 := ((th <=? th2) || negb (x2 =? 0))%bool in
      let tl2 := wrap (tl + tl) in
      let th2 := wrap (th2 + bit (tl2 <? tl)) in
      let x0 := wrap (c0 c + tl2) in
      let th2 := wrap (th2 + bit (x0 <? tl2)) in
      let x2 := wrap (x2 + bit ((x0 <? tl2) && (th2 =? 0))) in
      let a2 := ((tl2 <=? x0) || negb (th2 =? 0) || negb (x2 =? 0))%bool in
      let x1 := wrap (c1 c + th2) in
      let x2 := wrap (x2 + bit (x1 <? th2)) in
      let a3 := ((th2 <=? x1) || negb (x2 =? 0))%bool in
      assert (a1 && a2 && a3) (Acc x0 x1 x2)
  | Add a =>
      let x0 := wrap (c0 c + a) in
      let over := bit (x0 <? a) in
      let x1 := wrap (c1 c + over) in
      Some (Acc x0 x1 (wrap (c2 c + bit (x1 <? over))))
  | AddFast a =>
      let x0 := wrap (c0 c + a) in
      let x1 := wrap (c1 c + bit (x0 <? a)) in
      assert ((negb (x1 =? 0) || (a <=? x0)) && (c2 c =? 0)) (Acc x0 x1 (c2 c))
  end.
Fixpoint steps (l : list op) (c : acc) : option acc :=
  match l with
  | [] => Some c
  | o :: l' => match step o c with Some c' => steps l' c' | None => None end
  end.
(** extract!() and extract_fast!(): the lowest word, and the others move down *)
Definition extract (fast : bool) (c : acc) : option (N * acc) :=
  if fast then assert (c2 c =? 0) (c0 c, Acc (c1 c) 0 (c2 c)) else Some (c0 c, Acc (c1 c) (c2 c) 0).
(** A column: the lines that add to it and whether its word is taken with extract_fast!() *)
Definition column : Type := list op * bool.
Fixpoint columns (l : list column) (c : acc) : option (list N * acc) :=
  match l with
  | [] => Some ([], c)
  | (ops, fast) :: l' =>
      match steps ops c with
      | None => None
      | Some c' =>
          match extract fast c' with
          | None => None
          | Some (w, c'') => match columns l' c'' with None => None | Some (ws, e) => Some (w :: ws, e) end
          end
      end
  end.

(** ** Scalar::mul_512 *)
Definition mul_columns (a b : scalar) : list column :=
  let d i j := Mul (word a i) (word b j) in
  [([MulFast (word a 0) (word b 0)], true);
   ([d 0 1; d 1 0], false);
   ([d 0 2; d 1 1; d 2 0], false);
   ([d 0 3; d 1 2; d 2 1; d 3 0], false);
   ([d 0 4; d 1 3; d 2 2; d 3 1; d 4 0], false);
   ([d 0 5; d 1 4; d 2 3; d 3 2; d 4 1; d 5 0], false);
   ([d 0 6; d 1 5; d 2 4; d 3 3; d 4 2; d 5 1; d 6 0], false);
   ([d 0 7; d 1 6; d 2 5; d 3 4; d 4 3; d 5 2; d 6 1; d 7 0], false);
   ([d 1 7; d 2 6; d 3 5; d 4 4; d 5 3; d 6 2; d 7 1], false);
   ([d 2 7; d 3 6; d 4 5; d 5 4; d 6 3; d 7 2], false);
   ([d 3 7; d 4 6; d 5 5; d 6 4; d 7 3], false);
   ([d 4 7; d 5 6; d 6 5; d 7 4], false);
   ([d 5 7; d 6 6; d 7 5], false);
   ([d 6 7; d 7 6], false)]%nat.
(** Scalar::sqr_512 *)
Definition sqr_columns (a : scalar) : list column :=
  let d i j := Mul2 (word a i) (word a j) in
  let e i := Mul (word a i) (word a i) in
  [([MulFast (word a 0) (word a 0)], true);
   ([d 0 1], false);
   ([d 0 2; e 1], false);
   ([d 0 3; d 1 2], false);
   ([d 0 4; d 1 3; e 2], false);
   ([d 0 5; d 1 4; d 2 3], false);
   ([d 0 6; d 1 5; d 2 4; e 3], false);
   ([d 0 7; d 1 6; d 2 5; d 3 4], false);
   ([d 1 7; d 2 6; d 3 5; e 4], false);
   ([d 2 7; d 3 6; d 4 5], false);
   ([d 3 7; d 4 6; e 5], false);
   ([d 4 7; d 5 6], false);
   ([d 5 7; e 6], false);
   ([d 6 7], false)]%nat.
(** The end of both: muladd_fast of the highest words, extract_fast, the assertion that c1 is zero, and l[15] = c0 *)
Definition product_512 (cols : list column) (x y : N) : option (list N) :=
  match columns (cols ++ [([MulFast x y], true)]) (Acc 0 0 0) with
  | None => None
  | Some (l, c) => assert (c1 c =? 0) (l ++ [c0 c])
  end.
Definition mul_512 (a b : scalar) : option (list N) := product_512 (mul_columns a b) (word a 7) (word b 7).
Definition sqr_512 (a : scalar) : option (list N) := product_512 (sqr_columns a) (word a 7) (word a 7).

(** ** Scalar::reduce_512 *)
Definition C (i : nat) : N := word N_C_WORDS i.
(** 512 bits into 385: m[0..12] = l[0..7] + n[0..7] * N_C, where n is l[8..15] *)
Definition columns_385 (l : list N) : list column :=
  let n i := word l (8 + i) in
  let d i j := Mul (n i) (C j) in
  let s i := Add (word l i) in
  [([MulFast (n 0) (C 0)], true);
   ([AddFast (word l 1); d 1 0; d 0 1], false);
   ([s 2; d 2 0; d 1 1; d 0 2], false);
   ([s 3; d 3 0; d 2 1; d 1 2; d 0 3], false);
   ([s 4; d 4 0; d 3 1; d 2 2; d 1 3; Add (n 0)], false);
   ([s 5; d 5 0; d 4 1; d 3 2; d 2 3; Add (n 1)], false);
   ([s 6; d 6 0; d 5 1; d 4 2; d 3 3; Add (n 2)], false);
   ([s 7; d 7 0; d 6 1; d 5 2; d 4 3; Add (n 3)], false);
   ([d 7 1; d 6 2; d 5 3; Add (n 4)], false);
   ([d 7 2; d 6 3; Add (n 5)], false);
   ([d 7 3; Add (n 6)], false);
   ([AddFast (n 7)], true)]%nat.
Definition reduce_385 (l : list N) : option (list N) :=
  match columns (columns_385 l) (Acc (word l 0) 0 0) with
  | None => None
  | Some (m, c) => assert (c0 c <=? 1) (m ++ [c0 c])
  end.
(** 385 bits into 258: p[0..8] = m[0..7] + m[8..12] * N_C *)
Definition columns_258 (m : list N) : list column :=
  let d i j := Mul (word m i) (C j) in
  let s i := Add (word m i) in
  [([MulFast (word m 8) (C 0)], true);
   ([AddFast (word m 1); d 9 0; d 8 1], false);
   ([s 2; d 10 0; d 9 1; d 8 2], false);
   ([s 3; d 11 0; d 10 1; d 9 2; d 8 3], false);
   ([s 4; d 12 0; d 11 1; d 10 2; d 9 3; s 8], false);
   ([s 5; d 12 1; d 11 2; d 10 3; s 9], false);
   ([s 6; d 12 2; d 11 3; s 10], false);
   ([AddFast (word m 7); MulFast (word m 12) (C 3); AddFast (word m 11)], true)]%nat.
Definition reduce_258 (m : list N) : option (list N * N) :=
  match columns (columns_258 m) (Acc (word m 0) 0 0) with
  | None => None
  | Some (p, c) => let p8 := c0 c + word m 12 in assert (p8 <=? 2) (p, p8)
  end.
(** 258 bits into 256: p[0..7] + p8 * N_C, and the last reduction *)
Definition reduce_512 (l : list N) : option scalar :=
  match reduce_385 l with
  | None => None
  | Some m =>
      match reduce_258 m with
      | None => None
      | Some (p, p8) =>
          let '(r, c) := add_words p (map (N.mul p8) N_C_WORDS) 0 in
          let overflow := check_overflow r in
          assert (c + bit overflow <=? 1) (scalar_reduce r ((c =? 1) || overflow))
      end
  end.
(** Scalar::mul_in_place and Scalar::sqr_in_place *)
Definition scalar_mul (a b : scalar) : option scalar :=
  match mul_512 a b with None => None | Some l => reduce_512 l end.
Definition scalar_sqr (a : scalar) : option scalar :=
  match sqr_512 a with None => None | Some l => reduce_512 l end.

(** ** Scalar::inv_in_place: x^(n - 2), by 255 squarings and 44 multiplications *)
Fixpoint sqr_times (k : nat) (x : scalar) : option scalar :=
  match k with
  | O => Some x
  | S k' => match scalar_sqr x with None => None | Some y => sqr_times k' y end
  end.
(** k squarings of x, then the product with y *)
Definition sqr_mul (k : nat) (x y : scalar) : option scalar :=
  match sqr_times k x with None => None | Some z => scalar_mul z y end.
Definition obind {A B} (x : option A) (f : A -> option B) : option B :=
  match x with Some a => f a | None => None end.
Notation "'try' x := a 'in' b" := (obind a (fun x => b)) (at level 200, x name, a at level 100, b at level 200).
(** The lines from "Then accumulate the final result": how many squarings, and by which power of x to multiply *)
Definition inv_lines (x x2 x3 x4 x6 x8 : scalar) : list (nat * scalar) :=
  [(2, x); (4, x3); (2, x); (2, x); (2, x); (4, x3); (3, x2); (4, x3); (5, x3); (4, x2);
   (2, x); (2, x); (5, x4); (2, x); (3, x); (4, x); (2, x); (10, x3); (4, x3); (9, x8);
   (2, x); (3, x); (3, x); (5, x4); (2, x); (5, x2); (4, x2); (2, x); (8, x2); (3, x2);
   (3, x); (6, x); (8, x6)]%nat.
Fixpoint inv_loop (l : list (nat * scalar)) (t : scalar) : option scalar :=
  match l with
  | [] => Some t
  | (k, y) :: l' => try t' := sqr_mul k t y in inv_loop l' t'
  end.
Definition scalar_inv (x : scalar) : option scalar :=
  try x2 := sqr_mul 1 x x in
  try x3 := sqr_mul 1 x2 x in
  try x4 := sqr_mul 1 x3 x in
  try x6 := sqr_mul 2 x4 x2 in
  try x7 := sqr_mul 1 x6 x in
  try x8 := sqr_mul 1 x7 x in
  try x15 := sqr_mul 7 x8 x7 in
  try x30 := sqr_mul 15 x15 x15 in
  try x60 := sqr_mul 30 x30 x30 in
  try x120 := sqr_mul 60 x60 x60 in
  try x127 := sqr_mul 7 x120 x7 in
  inv_loop (inv_lines x x2 x3 x4 x6 x8) x127.

(** ** Scalar::is_high and the negation *)
(** SECP256K1_N_H_0 .. SECP256K1_N_H_7: the words of (n - 1) / 2 *)
Definition N_H_WORDS : scalar :=
  [0x681B20A0; 0xDFE92F46; 0x57A4501D; 0x5D576E73; 0xFFFFFFFF; 0xFFFFFFFF; 0xFFFFFFFF; 0x7FFFFFFF].
(** The words 6, 5 and 4 need no test for >, as those of (n - 1) / 2 are all ones. *)
Definition is_high (s : scalar) : bool :=
  let lt i := word s i <? word N_H_WORDS i in
  let gt i := word N_H_WORDS i <? word s i in
  let no := lt 7%nat in
  let yes := (gt 7%nat && negb no)%bool in
  let no := (no || lt 6%nat && negb yes)%bool in
  let no := (no || lt 5%nat && negb yes)%bool in
  let no := (no || lt 4%nat && negb yes)%bool in
  let no := (no || lt 3%nat && negb yes)%bool in
  let yes := (yes || gt 3%nat && negb no)%bool in
  let no := (no || lt 2%nat && negb yes)%bool in
  let yes := (yes || gt 2%nat && negb no)%bool in
  let no := (no || lt 1%nat && negb yes)%bool in
  let yes := (yes || gt 1%nat && negb no)%bool in
  (yes || gt 0%nat && negb no)%bool.
(** !a + n + 1, word by word, or zero if a is zero *)
Definition scalar_neg (s : scalar) : scalar :=
  let nonzero := if scalar_is_zero s then 0 else 0xFFFFFFFF in
  map (N.land nonzero) (fst (add_words (map (fun w => N.lxor w 0xFFFFFFFF) s) N_WORDS 1)).

(** ** Signing *)
(** ECMultGenContext::sign_raw in the release build, from the 32 bytes of the abscissa of the nonce point and the
    parity of its ordinate.  [Panic] is an assertion that fails within the arithmetic of scalars; the two assertions
    about r are those of [ModelSignBuilds.v].  [Err] is s = 0. *)
Definition words_sign_raw (rx : bytes) (ry_odd : bool) (sk m k : scalar) : res unit (scalar * scalar * N) :=
  let '(r, overflow) := set_b32 rx in
  let recid := N.lor (if overflow then 2 else 0) (if ry_odd then 1 else 0) in
  match (try n := scalar_mul r sk in try n := scalar_add n m in try i := scalar_inv k in scalar_mul i n) with
  | None => Panic
  | Some s =>
      if scalar_is_zero s then Err tt
      else if is_high s then Ok (r, scalar_neg s, N.lxor recid 1) else Ok (r, s, recid)
  end.
(** [sign]: the retry loop.  The nonce point is computed on integers, as everything about points in this model;
    [None] means that [fuel] candidates were not enough. *)
Definition nonce_point (k : scalar) : bytes * bool :=
  match ecmult_gen (Z.of_N (be_val (b32 k))) with
  | Infinity => (be_bytes 32 0, false)
  | Point x y => (be_bytes 32 (Z.to_N x), Z.odd y)
  end.
Fixpoint words_sign_loop (fuel : nat) (sk m : scalar) (kv : bytes * bytes) : option (res unit (scalar * scalar * N)) :=
  match fuel with
  | O => None
  | S f =>
      let '(gen, kv') := drbg_generate kv in
      let '(k, overflow) := set_b32 gen in
      if (negb overflow && negb (scalar_is_zero k))%bool then
        let '(rx, ry_odd) := nonce_point k in
        match words_sign_raw rx ry_odd sk m k with
        | Ok sig => Some (Ok sig)
        | Err _ => words_sign_loop f sk m kv'
        | Panic => Some Panic
        end
      else words_sign_loop f sk m kv'
  end.
(** src/lib.rs:14-19, ecdsa_sign, with Message::parse_slice and Signature::serialize in words *)
Definition words_ecdsa_sign (fuel : nat) (sk : scalar) (msg : bytes) : option (res sign_error (bytes * N)) :=
  if len msg =? 32 then
    let m := fst (set_b32 msg) in
    match words_sign_loop fuel sk m (drbg_new (b32 sk) (b32 m)) with
    | Some (Ok (r, s, recid)) => Some (Ok (b32 r ++ b32 s, recid))
    | Some Panic => Some Panic
    | Some (Err _) => None
    | None => None
    end
  else Some (Err InvalidInputLength).
