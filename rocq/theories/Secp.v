(** The operations of the crate libsecp256k1 0.7.1 that src/bip32 and src/lib.rs call.

    The crate is a dependency and its source is not in /repo; the definitions follow its documented behaviour
    and are computable.  Simplifications: field elements and scalars are integers instead of limb arrays, the
    Jacobian formulas and precomputed tables are replaced by the complete projective formulas of Renes,
    Costello and Batina, constant-time selection is not modelled. *)
From Verif Require Import Outcome Bytes Hash Fermat.
Open Scope Z_scope.

(** Field prime, group order, generator. *)
Definition secp_p : Z := 2 ^ 256 - 2 ^ 32 - 977.
Definition secp_n : Z := 0xFFFFFFFFFFFFFFFFFFFFFFFFFFFFFFFEBAAEDCE6AF48A03BBFD25E8CD0364141.
Definition gx : Z := 0x79BE667EF9DCBBAC55A06295CE870B07029BFCDB2DCE28D959F2815B16F81798.
Definition gy : Z := 0x483ADA7726A3C4655DA4FBFC0E1108A8FD17B448A68554199C47D08FFB10D4B8.

(** An affine point or the point at infinity. *)
Inductive point := Infinity | Point (x y : Z).
Definition G : point := Point gx gy.

(** ** Field arithmetic
    Reduction modulo p by folding at bit 256 (2^256 = 2^32 + 977 mod p), as field/mod.rs does.  The last
    case is never reached from products of reduced elements. *)
Definition pmod (x : Z) : Z :=
  let t := fold_red 256 4294968273 (fold_red 256 4294968273 x) in
  if t <? 0 then t mod secp_p else if t <? secp_p then t else if t - secp_p <? secp_p then t - secp_p else t mod secp_p.
Definition fadd (a b : Z) : Z := pmod (a + b).
Definition fsub (a b : Z) : Z := pmod (a + secp_p - b).
Definition fmul (a b : Z) : Z := pmod (a * b).
Fixpoint fpow (a : Z) (e : positive) : Z :=
  match e with
  | xH => a
  | xO e' => let r := fpow a e' in fmul r r
  | xI e' => let r := fpow a e' in fmul (fmul r r) a
  end.
(** Inverse by Fermat: a^(p-2) (Field::inv). *)
Definition finv (a : Z) : Z := fpow a (Z.to_pos (secp_p - 2)).
(** Candidate square root a^((p+1)/4) (Field::sqrt, p = 3 mod 4). *)
Definition fsqrt (a : Z) : Z := fpow a (Z.to_pos ((secp_p + 1) / 4)).

(** ** Points in projective coordinates *)
Definition proj : Type := Z * Z * Z.
Definition proj_inf : proj := (0, 1, 0).
Definition proj_of (P : point) : proj := match P with Infinity => proj_inf | Point x y => (x, y, 1) end.
(** Complete addition for y^2 = x^3 + 7 (Renes, Costello, Batina 2016, section 3.2 with a = 0, 3b = 21). *)
Definition proj_add (P Q : proj) : proj :=
  let '(X1, Y1, Z1) := P in
  let '(X2, Y2, Z2) := Q in
  let xx := fmul X1 X2 in
  let yy := fmul Y1 Y2 in
  let bzz := fmul 21 (fmul Z1 Z2) in
  let xy := fadd (fmul X1 Y2) (fmul X2 Y1) in
  let yz := fadd (fmul Y1 Z2) (fmul Y2 Z1) in
  let bxz := fmul 21 (fadd (fmul X1 Z2) (fmul X2 Z1)) in
  let s := fadd yy bzz in
  let d := fsub yy bzz in
  let xx3 := fmul 3 xx in
  (fsub (fmul xy d) (fmul yz bxz), fadd (fmul s d) (fmul xx3 bxz), fadd (fmul yz s) (fmul xx3 xy)).
(** Affine::set_gej *)
Definition to_affine (P : proj) : point :=
  let '(X, Y, Zc) := P in
  if Zc =? 0 then Infinity else let i := finv Zc in Point (fmul X i) (fmul Y i).
Fixpoint proj_mul (k : positive) (P : proj) : proj :=
  match k with
  | xH => P
  | xO k' => let R := proj_mul k' P in proj_add R R
  | xI k' => let R := proj_mul k' P in proj_add (proj_add R R) P
  end.
(** ECMultGenContext::ecmult_gen followed by set_gej: the point k G. *)
Definition ecmult_gen (k : Z) : point :=
  match k with Zpos k' => to_affine (proj_mul k' (proj_of G)) | _ => Infinity end.

(** ** Secret keys *)
(** SecretKey::parse: 32 big-endian bytes, rejected when the value is 0 or at least n. *)
Definition secret_parse (b : bytes) : option Z :=
  let k := Z.of_N (be_val b) in if (0 <? k) && (k <? secp_n) then Some k else None.
(** SecretKey::serialize *)
Definition secret_serialize (k : Z) : bytes := be_bytes 32 (Z.to_N k).
(** SecretKey::tweak_add_assign: error when the sum is zero. *)
Definition secret_tweak_add (k t : Z) : option Z :=
  let v := (k + t) mod secp_n in if v =? 0 then None else Some v.

(** ** Public keys *)
(** PublicKey::from_secret_key *)
Definition public_of_secret (k : Z) : point := ecmult_gen k.
(** PublicKey::tweak_add_assign: P + t G, error when it is the point at infinity (libsecp256k1 computes
    1 P + t G in one double multiplication). *)
Definition public_tweak_add (P : point) (t : Z) : option point :=
  match to_affine (proj_add (proj_of P) (match t with Zpos t' => proj_mul t' (proj_of G) | _ => proj_inf end)) with
  | Infinity => None
  | Q => Some Q
  end.
(** PublicKey::serialize_compressed.  The point at infinity (excluded by a debug assertion, and unreachable
    here) would give zero coordinates. *)
Definition public_serialize (P : point) : bytes :=
  match P with
  | Infinity => 2%N :: be_bytes 32 0
  | Point x y => (if Z.odd y then 3%N else 2%N) :: be_bytes 32 (Z.to_N x)
  end.
(** PublicKey::parse_compressed: tag 02 or 03, x below p, then set_xo_var and is_valid_var. *)
Definition public_parse (b : bytes) : option point :=
  match b with
  | [] => None
  | tag :: xb =>
      if (tag =? 2)%N || (tag =? 3)%N then
        let x := Z.of_N (be_val xb) in
        if x <? secp_p then
          let rhs := fadd (fmul (fmul x x) x) 7 in
          let y0 := fsqrt rhs in
          let y := if Bool.eqb (Z.odd y0) (tag =? 3)%N then y0 else fsub 0 y0 in
          if fmul y y =? rhs then Some (Point x y) else None
        else None
      else None
  end.

(** ** Signing *)
Fixpoint npow (a : Z) (e : positive) : Z :=
  match e with
  | xH => a mod secp_n
  | xO e' => let r := npow a e' in (r * r) mod secp_n
  | xI e' => let r := npow a e' in ((r * r) mod secp_n * a) mod secp_n
  end.
(** Scalar::inv: a^(n-2) *)
Definition ninv (a : Z) : Z := npow a (Z.to_pos (secp_n - 2)).

(** ECMultGenContext::sign_raw: [None] stands for Err (s = 0).  In debug builds a debug assertion fails when
    the abscissa of the nonce point is at least n (including r = 0); the model follows the release build. *)
Definition sign_raw (sk m k : Z) : option (Z * Z * N) :=
  let R := ecmult_gen k in
  let '(rx, ry) := match R with Infinity => (0, 0) | Point x y => (x, y) end in
  let r := rx mod secp_n in
  let recid := N.lor (if secp_n <=? rx then 2%N else 0%N) (if Z.odd ry then 1%N else 0%N) in
  let s := (ninv k * ((r * sk) mod secp_n + m)) mod secp_n in
  if s =? 0 then None
  else if secp_n / 2 <? s then Some (r, secp_n - s, N.lxor recid 1) else Some (r, s, recid).

(** The hmac-drbg 0.3 generator with SHA-256: state (K, V). *)
Definition drbg_update (kv : bytes * bytes) (seed : option bytes) : bytes * bytes :=
  let '(k, v) := kv in
  let k1 := hmac_sha256 k (v ++ [0%N] ++ match seed with Some s => s | None => [] end) in
  let v1 := hmac_sha256 k1 v in
  match seed with
  | None => (k1, v1)
  | Some s => let k2 := hmac_sha256 k1 (v1 ++ [1%N] ++ s) in (k2, hmac_sha256 k2 v1)
  end.
Definition drbg_new (entropy nonce : bytes) : bytes * bytes :=
  drbg_update (repeat 0%N 32, repeat 1%N 32) (Some (entropy ++ nonce)).
Definition drbg_generate (kv : bytes * bytes) : bytes * (bytes * bytes) :=
  let v := hmac_sha256 (fst kv) (snd kv) in (v, drbg_update (fst kv, v) None).

(** The retry loop of sign; [None] means that [fuel] candidates were not enough. *)
Fixpoint sign_loop (fuel : nat) (sk m : Z) (kv : bytes * bytes) : option (Z * Z * N) :=
  match fuel with
  | O => None
  | S f =>
      let '(gen, kv') := drbg_generate kv in
      let k := Z.of_N (be_val gen) in
      if (k <? secp_n) && negb (k =? 0) then
        match sign_raw sk m k with
        | Some sig => Some sig
        | None => sign_loop f sk m kv'
        end
      else sign_loop f sk m kv'
  end.
Definition sign (fuel : nat) (m sk : Z) : option (Z * Z * N) :=
  sign_loop fuel sk m (drbg_new (be_bytes 32 (Z.to_N sk)) (be_bytes 32 (Z.to_N m))).
(** Message::parse_slice: 32 bytes, reduced modulo n; [None] stands for InvalidInputLength. *)
Definition message_parse_slice (b : bytes) : option Z :=
  if (len b =? 32)%N then Some (Z.of_N (be_val b) mod secp_n) else None.
(** Signature::serialize *)
Definition signature_serialize (r s : Z) : bytes := be_bytes 32 (Z.to_N r) ++ be_bytes 32 (Z.to_N s).
