(** The public interface as a whole C108 - C109.

    Statements only: every theorem is closed by the lemma of the same name (in lower case) in
    ApiThms.v.  Generated by tools/gen_prop.py. *)
From Coq Require Import String.
From Verif Require Import Outcome Bytes Str ModelBip39 Secp ModelBip32 ModelApi SpecApi.
From Verif Require Bip39Thms DeriveThms ApiThms.
Import Bip39Thms(ex_entropy, ex_mnemonic).
Import DeriveThms(ex1_xprv).
Open Scope N_scope.

(** ** C108. No sequence of calls leads to an ill-formed value.  Whatever a safe program does with the public
    functions and public struct fields, starting from its own texts, bytes and numbers: every mnemonic it
    holds is a BIP39 sentence with its entropy and language, every private key is in 1..n-1, every public key
    is a point with a secret, every prefix has four letters, every field is in its range, every seed has 64
    bytes and comes from a mnemonic and a passphrase. Conversely all such values can be obtained. *)
Theorem C108_everything_is_well_formed : forall v : value, obtainable v -> well_formed v.
Proof. exact ApiThms.c108_everything_is_well_formed. Qed.
Print Assumptions C108_everything_is_well_formed.
(** The description is exact, but for seeds and numbers of machine words. *)
Theorem C108_and_everything_well_formed_is_obtained : forall v : value,
  (forall b, v <> VSeed b) -> (forall n, v = VNum 64 n -> n < 2 ^ 64) -> (obtainable v <-> well_formed v).
Proof. exact ApiThms.c108_and_everything_well_formed_is_obtained. Qed.
Print Assumptions C108_and_everything_well_formed_is_obtained.
(** A seed comes from a mnemonic and a passphrase: there is no other way to one. *)
Theorem C108_seeds : forall b : bytes, obtainable (VSeed b) <->
  exists m passphrase, obtainable (VMnemonic m) /\ obtainable (VText passphrase) /\ seed_new m passphrase = Ok b.
Proof. exact ApiThms.c108_seeds. Qed.
Print Assumptions C108_seeds.
Example C108_example : obtainable (VXPrv ex1_xprv) /\ obtainable (VPublic G) /\ obtainable (VMnemonic ex_mnemonic)
  /\ ~ obtainable (VPublic Infinity) /\ ~ obtainable (VSecret 0) /\ ~ obtainable (VSecret secp_n)
  /\ ~ obtainable (VMnemonic (Mnemonic (lit "abandon") English ex_entropy)).
Proof. exact ApiThms.c108_example. Qed.

(** ** C109. The complete list of calls that panic.  A call that a program can make panics if and only if it
    is one of these: a word index of 2048 or more; Prefix::from_parts_unchecked with anything but four
    letters; derive_child of a plain secret or public key with a tweak outside 1..n-1; a derivation that meets
    a hash half outside 1..n-1 (in a single step, or at some step of a path, below depth 255). Every other
    public function never panics. *)
Theorem C109_the_calls_that_panic : forall c : call, possible c -> (run c = Panics <-> panicking c).
Proof. exact ApiThms.c109_the_calls_that_panic. Qed.
Print Assumptions C109_the_calls_that_panic.
(** A panic is in reach of four calls without any search for a hash value. *)
Example C109_example : possible (ListGetWord English 5000) /\ run (ListGetWord English 5000) = Panics
  /\ possible (PrefixFromParts (lit "xpr1") 5) /\ run (PrefixFromParts (lit "xpr1") 5) = Panics
  /\ possible (SecretDerive 1 (repeat 0 32)) /\ run (SecretDerive 1 (repeat 0 32)) = Panics
  /\ possible (PublicDerive G (repeat 0 32)) /\ run (PublicDerive G (repeat 0 32)) = Panics
  /\ run (SecretDerive 1 (repeat 0 31 ++ [1])) = Returns [VSecret 2].
Proof. exact ApiThms.c109_example. Qed.
