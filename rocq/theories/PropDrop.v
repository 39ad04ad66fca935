(** Programs with secrets in memory C147 - C149.

    Statements only: every theorem is closed by the lemma of the same name (in lower case) in
    DropThms.v.  Generated by tools/gen_prop.py. *)
From Coq Require Import String.
From Verif Require Import Outcome Bytes Str Secp ModelBip39 ModelBip32 ModelDrop SpecDrop.
From Verif Require DropThms.
Import Bip39Thms(ex_entropy, ex_phrase).
Import KeyTextThms(ex_xprv).
Import DropThms(ex_ops, ex_key_ops, ex_key).
Open Scope N_scope.

(** ** C147. Wiping never destroys a secret that is still in use.  Whatever program creates, parses, clones,
    derives, prints, converts and drops mnemonics, seeds and keys: no call reads, overwrites or frees memory
    that has been freed; every variable holds exactly the value it would have if nothing were ever overwritten
    (a clone is untouched when the original is wiped, and the phrase taken out by into_phrase survives the
    drop of its mnemonic); no two variables share memory; and the memory in use is exactly that of the
    variables, so nothing is lost and nothing freed twice. *)
Theorem C147_wiping_is_safe : forall ops : list op, exists st, run ops = Some st
  /\ Forall2 (slot (st_mem st)) (st_vars st) (values ops)
  /\ NoDup (owned (st_vars st))
  /\ forall a, in_use (st_mem st) a <-> In a (owned (st_vars st)).
Proof. exact DropThms.c147_wiping_is_safe. Qed.
Print Assumptions C147_wiping_is_safe.
Example C147_example : run ex_ops = Some (State
    [Cell ex_phrase true; Cell (repeat 0 16) false; Cell (repeat 0 (length ex_phrase)) false; Cell (repeat 0 16) false; Cell [] false]
    [None; None; Some (OText (Buf 0 (length ex_phrase))); None])
  /\ values ex_ops = [None; None; Some (PText ex_phrase); None].
Proof. exact DropThms.c147_example. Qed.

(** ** C148. Mnemonics, seeds, key texts and extended keys are wiped when they go away.  As soon as a variable
    with a mnemonic, a seed, a text made by XPrv::to_string or an extended key is dropped, or used up by a
    call, the phrase, the entropy (with the checksum bits behind it), the seed bytes, the text and the key
    bytes are overwritten with zeros over the whole length of their blocks and stay so in every continuation
    of the program. The only exception is the phrase that into_phrase hands out. *)
(** The blocks of a value are overwritten as soon as its variable is gone, and stay so; only the phrase taken out
    with [into_phrase] is kept. *)
Theorem C148_secrets_are_wiped : forall (ops more : list op) (st st' : state) (x : nat) (v : value) (a : nat) (d : list N),
  run ops = Some st -> run (ops ++ more) = Some st' ->
  var (st_vars st) x = Some v -> In a (protected v) -> nth_error (st_mem st) a = Some (Cell d true) ->
  (var (st_vars st') x = Some v /\ nth_error (st_mem st') a = Some (Cell d true))
  \/ (var (st_vars st') x = None /\ nth_error (st_mem st') a = Some (Cell (repeat 0 (length d)) false))
  \/ (var (st_vars st') x = None /\ In (OpIntoPhrase x) more /\ phrase_block v a
      /\ exists live, nth_error (st_mem st') a = Some (Cell d live)).
Proof. exact DropThms.c148_secrets_are_wiped. Qed.
Print Assumptions C148_secrets_are_wiped.
Theorem C148_on_drop : forall (ops : list op) (st : state) (x : nat) (v : value),
  run ops = Some st -> var (st_vars st) x = Some v ->
  exists st', run (ops ++ [OpDrop x]) = Some st' /\ var (st_vars st') x = None
    /\ forall a, In a (protected v) -> exists d, nth_error (st_mem st) a = Some (Cell d true)
        /\ nth_error (st_mem st') a = Some (Cell (repeat 0 (length d)) false).
Proof. exact DropThms.c148_on_drop. Qed.
Print Assumptions C148_on_drop.
Example C148_example :
  run [OpFromEntropy ex_entropy English] =
    Some (State [Cell ex_phrase true; Cell ex_entropy true] [Some (OMnemonic (Buf 0 (length ex_phrase)) English (Buf 1 16))])
  /\ run ([OpFromEntropy ex_entropy English] ++ [OpDrop 0]) =
    Some (State [Cell (repeat 0 (length ex_phrase)) false; Cell (repeat 0 16) false] [None; None]).
Proof. exact DropThms.c148_example. Qed.

(** ** C149. Extended private keys are wiped when dropped.  When an extended private key is dropped, its
    secret scalar is overwritten. This is false: neither ExtendedPrivateKey nor SecretKey nor ExtendedKeyAttrs
    overwrites anything, so the scalar and the chain code (also the chain code of an ExtendedKey), and every
    plain String, stay in memory in every continuation of the program. *)
(** The keys of an XPrv, the chain codes and plain texts are never overwritten. *)
Theorem C149_keys_stay : forall (ops more : list op) (st st' : state) (x : nat) (v : value) (a : nat) (d : list N),
  run ops = Some st -> run (ops ++ more) = Some st' ->
  var (st_vars st) x = Some v -> In a (blocks v) -> ~ In a (protected v) -> nth_error (st_mem st) a = Some (Cell d true) ->
  exists live, nth_error (st_mem st') a = Some (Cell d live).
Proof. exact DropThms.c149_keys_stay. Qed.
Print Assumptions C149_keys_stay.
Theorem C149_keys_wiped_refuted : ~ forall (ops : list op) (st st' : state) (x : nat) (k : buf) (dp : N) (f : bytes) (i : N) (c : buf),
  run ops = Some st -> var (st_vars st) x = Some (OXPrv k dp f i c) -> run (ops ++ [OpDrop x]) = Some st' ->
  exists d, nth_error (st_mem st) (b_at k) = Some (Cell d true) /\ nth_error (st_mem st') (b_at k) = Some (Cell (repeat 0 (length d)) false).
Proof. exact DropThms.c149_keys_wiped_refuted. Qed.
Print Assumptions C149_keys_wiped_refuted.
Example C149_example : values ex_key_ops = [None; Some (PXPrv ex_xprv)]
  /\ exists st k dp f i c, run ex_key_ops = Some st /\ var (st_vars st) 1 = Some (OXPrv k dp f i c) /\ read (st_mem st) k = Some ex_key.
Proof. exact DropThms.c149_example. Qed.
