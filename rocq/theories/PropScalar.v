(** Private keys in machine words C160.

    Statements only: every theorem is closed by the lemma of the same name (in lower case) in
    ScalarThms.v.  Generated by tools/gen_prop.py. *)
From Coq Require Import ZArith.
From Verif Require Import Outcome Bytes Secp SpecBip32 ModelBip32 ModelScalar SpecScalar.
From Verif Require ScalarThms.
Import ScalarThms(ex_minus_one, ex_three).
Open Scope N_scope.

(** ** C160. Private keys in machine words are integers modulo n.  libsecp256k1 holds a private key in eight
    words of 32 bits. Reading 32 bytes accepts exactly the numbers from 1 to n - 1 and the words hold that
    number; writing gives 32 bytes with the same number; adding a tweak adds modulo n, with all carries
    between words and the reduction, and fails exactly if the sum is 0 modulo n; its debug assertion never
    fails. So deriving a child with the words gives the same key as on integers. *)
(** Reading 32 bytes: accepted exactly if the number is between 1 and n - 1, and the words hold it. *)
Theorem C160_parse : forall b : bytes, has_bytes 32 b ->
  match key_parse b with
  | Some s => is_key s /\ words_val s = be_val b
  | None => be_val b = 0 \/ (secp_n <= Z.of_N (be_val b))%Z
  end.
Proof. exact ScalarThms.c160_parse. Qed.
Print Assumptions C160_parse.
(** Writing: 32 bytes with the same number, and reading them gives the same words. *)
Theorem C160_serialize : forall s : scalar, is_key s ->
  has_bytes 32 (key_serialize s) /\ be_val (key_serialize s) = words_val s /\ key_parse (key_serialize s) = Some s.
Proof. exact ScalarThms.c160_serialize. Qed.
Print Assumptions C160_serialize.
(** Adding: modulo n, an error exactly if the sum is 0 modulo n; the assertion in the code never fails. *)
Theorem C160_add : forall s t : scalar, is_key s -> is_key t ->
  match key_tweak_add s t with
  | Ok v => is_key v /\ key_number v = ((key_number s + key_number t) mod secp_n)%Z
  | Err _ => ((key_number s + key_number t) mod secp_n = 0)%Z
  | Panic => False
  end.
Proof. exact ScalarThms.c160_add. Qed.
Print Assumptions C160_add.
(** So the model on integers is the code on words. *)
Theorem C160_same_keys :
  (forall b, has_bytes 32 b -> secret_parse b = option_map key_number (key_parse b))
  /\ (forall s, is_key s -> secret_serialize (key_number s) = key_serialize s)
  /\ (forall s b, is_key s -> has_bytes 32 b -> private_derive_child (key_number s) b =
       match key_parse b with
       | None => Panic
       | Some t => match key_tweak_add s t with Ok v => Ok (key_number v) | Err _ => Err ECrypto | Panic => Panic end
       end).
Proof. exact ScalarThms.c160_same_keys. Qed.
Print Assumptions C160_same_keys.
Example C160_example : is_key ex_minus_one /\ is_key ex_three /\ key_number ex_minus_one = (secp_n - 1)%Z
  /\ key_tweak_add ex_minus_one ex_three = Ok [2; 0; 0; 0; 0; 0; 0; 0] /\ key_tweak_add ex_minus_one [1; 0; 0; 0; 0; 0; 0; 0] = Err tt
  /\ key_parse (repeat 255 32) = None.
Proof. exact ScalarThms.c160_example. Qed.
