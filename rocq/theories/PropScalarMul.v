(** Signing in machine words C161 - C163.

    Statements only: every theorem is closed by the lemma of the same name (in lower case) in
    ScalarMulThms.v.  Generated by tools/gen_prop.py. *)
From Coq Require Import ZArith.
From Verif Require Import Outcome Bytes Secp SpecSecp SpecBip32 SpecChain ModelBip32 ModelScalar SpecScalar ModelScalarMul.
From Verif Require ScalarMulThms.
Import ScalarThms(ex_minus_one).
Import ScalarMulThms(ex_ones, ex_word).
Open Scope N_scope.

(** ** C161. Multiplication of scalars in machine words is exact.  For any two scalars of eight 32-bit words
    none of the debug assertions that guard the 96-bit accumulator of libsecp256k1 fails, the 512-bit product
    is exact, and after the three reductions (512 to 385, 385 to 258, 258 to 256 bits) the result is the
    product modulo n, below n. Squaring, which has its own code, gives the same. *)
(** Any two scalars: no assertion fails, and the result is the product modulo n, between 0 and n - 1. *)
Theorem C161_mul : forall a b : scalar, is_scalar a -> is_scalar b ->
  exists s, scalar_mul a b = Some s /\ is_scalar s /\ key_number s = ((key_number a * key_number b) mod secp_n)%Z.
Proof. exact ScalarMulThms.c161_mul. Qed.
Print Assumptions C161_mul.
(** Squaring has its own code; it is the product with itself. *)
Theorem C161_sqr : forall a : scalar, is_scalar a -> scalar_sqr a = scalar_mul a a.
Proof. exact ScalarMulThms.c161_sqr. Qed.
Print Assumptions C161_sqr.
(** The product of 512 bits before the reduction is exact. *)
Theorem C161_product : forall a b : scalar, is_scalar a -> is_scalar b ->
  exists l, mul_512 a b = Some l /\ sqr_512 a = mul_512 a a /\ length l = 16%nat /\ Forall (fun w => w < 2 ^ 32) l /\ words_val l = words_val a * words_val b.
Proof. exact ScalarMulThms.c161_product. Qed.
Print Assumptions C161_product.
(** The largest words, whose product makes the most carries. *)
Example C161_example : is_scalar ex_ones
  /\ mul_512 ex_ones ex_ones = Some ([1; 0; 0; 0; 0; 0; 0; 0; 0xFFFFFFFE] ++ repeat 0xFFFFFFFF 7)
  /\ scalar_mul ex_minus_one ex_minus_one = Some [1; 0; 0; 0; 0; 0; 0; 0].
Proof. exact ScalarMulThms.c161_example. Qed.

(** ** C162. Inversion and negation of scalars in machine words.  The addition chain of Scalar::inv (255
    squarings, 44 multiplications) computes the inverse modulo n of every private key, and 0 for 0; is_high is
    true exactly for the numbers above n / 2; negation gives the number that adds up to 0 modulo n, and 0 for
    0. *)
(** No assertion fails, and the result times the key is 1 modulo n. *)
Theorem C162_inverse : forall s : scalar, is_key s ->
  exists t, scalar_inv s = Some t /\ is_key t /\ ((key_number s * key_number t) mod secp_n = 1)%Z.
Proof. exact ScalarMulThms.c162_inverse. Qed.
Print Assumptions C162_inverse.
(** The inverse of zero is zero. *)
Theorem C162_inverse_of_zero : scalar_inv (repeat 0 8) = Some (repeat 0 8).
Proof. exact ScalarMulThms.c162_inverse_of_zero. Qed.
Print Assumptions C162_inverse_of_zero.
(** The upper half, and the negation. *)
Theorem C162_negation : forall s : scalar, is_scalar s -> (key_number s < secp_n)%Z ->
  is_high s = (secp_n <? 2 * key_number s)%Z
  /\ is_scalar (scalar_neg s) /\ key_number (scalar_neg s) = (- key_number s mod secp_n)%Z.
Proof. exact ScalarMulThms.c162_negation. Qed.
Print Assumptions C162_negation.
Example C162_example : scalar_inv ex_minus_one = Some ex_minus_one /\ is_high ex_minus_one = true /\ scalar_neg ex_minus_one = [1; 0; 0; 0; 0; 0; 0; 0]
  /\ scalar_neg (repeat 0 8) = repeat 0 8.
Proof. exact ScalarMulThms.c162_example. Qed.

(** ** C163. Signing in machine words is signing on integers.  ecdsa_sign computed with scalars of eight
    32-bit words (digest, nonce, r, s, recovery id, retry loop and serialization) gives for every key and
    every message exactly the signature of ecdsa_sign on integers, and for each nonce exactly the signature
    that SEC 1 defines; no debug assertion of the scalar arithmetic fails. *)
(** One nonce: the signature in words is the one that SEC 1 defines, and no assertion of the arithmetic fails. *)
Theorem C163_one_nonce : forall (sk m k : scalar) (z x y : Z) (xb : bytes), is_key sk -> is_key k -> is_scalar m -> key_number m = (z mod secp_n)%Z ->
  is_public_point (key_number k) (Point x y) -> is_ser256 x xb ->
  match words_sign_raw xb (Z.odd y) sk m k with
  | Ok (r, s, recid) => signature_with (key_number k) (key_number sk) z (key_number r) (key_number s) recid
  | Err _ => bad_nonce (key_number k) (key_number sk) z
  | Panic => False
  end.
Proof. exact ScalarMulThms.c163_one_nonce. Qed.
Print Assumptions C163_one_nonce.
(** The digest: 32 bytes, reduced modulo n. *)
Theorem C163_digest : forall b : bytes, has_bytes 32 b -> is_scalar (fst (set_b32 b)) /\ key_number (fst (set_b32 b)) = (Z.of_N (be_val b) mod secp_n)%Z.
Proof. exact ScalarMulThms.c163_digest. Qed.
Print Assumptions C163_digest.
(** So ecdsa_sign in words is ecdsa_sign on integers. *)
Theorem C163_same_signatures : forall (fuel : nat) (sk : scalar) (msg : bytes), is_key sk -> bytes_ok msg ->
  words_ecdsa_sign fuel sk msg = ecdsa_sign fuel (key_number sk) msg.
Proof. exact ScalarMulThms.c163_same_signatures. Qed.
Print Assumptions C163_same_signatures.
(** The secret 1, the nonce 1 and the digest 5: s is the abscissa of the generator plus 5. *)
Example C163_example : is_key (ex_word 1) /\ is_public_point (key_number (ex_word 1)) (Point gx gy) /\ is_ser256 gx (be_bytes 32 (Z.to_N gx))
  /\ exists r s, words_sign_raw (be_bytes 32 (Z.to_N gx)) (Z.odd gy) (ex_word 1) (ex_word 5) (ex_word 1) = Ok (r, s, 0)
       /\ key_number r = gx /\ key_number s = (gx + 5)%Z.
Proof. exact ScalarMulThms.c163_example. Qed.
