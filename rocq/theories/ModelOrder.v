(** The derived orders of src/bip32 (derive(PartialOrd, Ord)): fields are compared in the order of their
    declaration, byte arrays element by element. *)
From Verif Require Import Outcome Bytes Str Secp ModelBip32.
Open Scope N_scope.

(** [Ord for [u8; n]]: lexicographic, a proper prefix is less *)
Fixpoint bytes_cmp (a b : bytes) : comparison :=
  match a, b with
  | [], [] => Eq
  | [], _ :: _ => Lt
  | _ :: _, [] => Gt
  | x :: a', y :: b' => match x ?= y with Eq => bytes_cmp a' b' | o => o end
  end.
(** [Ordering::then] *)
Definition then_cmp (o1 o2 : comparison) : comparison := match o1 with Eq => o2 | _ => o1 end.
(** src/bip32/child_number.rs:10-11, derived Ord of the u32 *)
Definition child_cmp (c d : N) : comparison := c ?= d.
(** src/bip32/prefix.rs:23-31, derived Ord: chars, version *)
Definition prefix_cmp (p q : prefix) : comparison := then_cmp (bytes_cmp (chars p) (chars q)) (version p ?= version q).
(** src/bip32/extended_key/attrs.rs:7-20, derived Ord: depth, parent_fingerprint, child_number, chain_code *)
Definition attrs_cmp (a b : attrs) : comparison :=
  then_cmp (depth a ?= depth b)
    (then_cmp (bytes_cmp (parent_fingerprint a) (parent_fingerprint b))
       (then_cmp (child_cmp (child_number a) (child_number b)) (bytes_cmp (chain_code a) (chain_code b)))).
(** src/bip32/extended_key/attrs.rs:7-20, derived PartialEq: all fields *)
Definition attrs_eqb (a b : attrs) : bool :=
  (depth a =? depth b) && bytes_eqb (parent_fingerprint a) (parent_fingerprint b)
  && (child_number a =? child_number b) && bytes_eqb (chain_code a) (chain_code b).
(** libsecp256k1 0.7.1, derived PartialEq of PublicKey: the affine coordinates and the flag for infinity *)
Definition point_eqb (P Q : point) : bool :=
  match P, Q with
  | Infinity, Infinity => true
  | Point x y, Point x' y' => (x =? x')%Z && (y =? y')%Z
  | _, _ => false
  end.
(** src/bip32/extended_key/extended_public_key.rs:23-30, derived PartialEq: public_key, attrs *)
Definition xpub_eqb (y z : xpub) : bool := point_eqb (public_key y) (public_key z) && attrs_eqb (xpub_attrs y) (xpub_attrs z).
