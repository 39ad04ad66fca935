(** secp256k1 as SEC 1 / SEC 2 define it: the curve y^2 = x^3 + 7 over the integers modulo p with the
    chord-and-tangent law in affine coordinates.  Shared with the model: the constants p, n, G and the type
    [point]. *)
From Coq Require Import ZArith Znumtheory List.
From Verif Require Import Outcome Bytes Secp.
Open Scope Z_scope.

(** Congruence modulo p. *)
Definition modp_eq (a b : Z) : Prop := (secp_p | a - b).

(** A point: infinity, or reduced coordinates satisfying the curve equation. *)
Definition on_curve (P : point) : Prop :=
  match P with
  | Infinity => True
  | Point x y => 0 <= x < secp_p /\ 0 <= y < secp_p /\ modp_eq (y * y) (x * x * x + 7)
  end.

(** The chord-and-tangent law as a relation: [ec_sum P Q R] says that R = P + Q.
    [l] is the slope of the chord (or tangent); the third point is reflected. *)
Inductive ec_sum : point -> point -> point -> Prop :=
| sum_inf_l Q : ec_sum Infinity Q Q
| sum_inf_r P : ec_sum P Infinity P
| sum_opp x y1 y2 : modp_eq (y1 + y2) 0 -> ec_sum (Point x y1) (Point x y2) Infinity
| sum_tangent x y l x3 y3 : ~ modp_eq (y + y) 0 -> modp_eq (l * (2 * y)) (3 * x * x) ->
    0 <= x3 < secp_p -> modp_eq x3 (l * l - x - x) ->
    0 <= y3 < secp_p -> modp_eq y3 (l * (x - x3) - y) ->
    ec_sum (Point x y) (Point x y) (Point x3 y3)
| sum_chord x1 y1 x2 y2 l x3 y3 : x1 <> x2 -> modp_eq (l * (x2 - x1)) (y2 - y1) ->
    0 <= x3 < secp_p -> modp_eq x3 (l * l - x1 - x2) ->
    0 <= y3 < secp_p -> modp_eq y3 (l * (x1 - x3) - y1) ->
    ec_sum (Point x1 y1) (Point x2 y2) (Point x3 y3).

(** [ec_multiple k P R]: R is the sum of k copies of P. *)
Inductive ec_multiple (P : point) : nat -> point -> Prop :=
| mult_0 : ec_multiple P 0 Infinity
| mult_S k R S : ec_multiple P k R -> ec_sum P R S -> ec_multiple P (Datatypes.S k) S.

(** The public point of a secret scalar. *)
Definition is_public_point (k : Z) (P : point) : Prop := 0 <= k /\ ec_multiple G (Z.to_nat k) P.

(** SEC 1 section 2.3.3, compressed: 02 for even y, 03 for odd y, then x in 32 bytes, big endian. *)
Definition is_compressed (b : bytes) (P : point) : Prop :=
  exists x y tag xb, P = Point x y /\ b = tag :: xb /\ length xb = 32%nat /\ bytes_ok xb /\ Z.of_N (be_val xb) = x
    /\ tag = (if Z.even y then 2%N else 3%N).

(** ECDSA (SEC 1 section 4.1): verification of (r, s) for the digest z under the public key Q, and public key
    recovery (section 4.1.6).  [k] ranges over inverses of s. *)
Definition ecdsa_valid (Q : point) (z r s : Z) : Prop :=
  0 < r < secp_n /\ 0 < s < secp_n /\
  exists w A B x y, (secp_n | w * s - 1)
    /\ ec_multiple G (Z.to_nat ((w * z) mod secp_n)) A /\ ec_multiple Q (Z.to_nat ((w * r) mod secp_n)) B
    /\ ec_sum A B (Point x y) /\ x mod secp_n = r.
(** [recid] selects the nonce point: bit 1 says that its abscissa is r + n, bit 0 is the parity of its
    ordinate; the recovered key is r^-1 (s R - z G). *)
Definition ecdsa_recovers (recid : N) (z r s : Z) (Q : point) : Prop :=
  exists x y w A B, on_curve (Point x y) /\ x = r + (if N.testbit recid 1 then secp_n else 0)
    /\ Z.odd y = N.testbit recid 0 /\ (secp_n | w * r - 1)
    /\ ec_multiple (Point x y) (Z.to_nat ((w * s) mod secp_n)) A
    /\ ec_multiple G (Z.to_nat ((w * - z) mod secp_n)) B
    /\ ec_sum A B Q.
