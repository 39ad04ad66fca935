(** Public keys and their secrets C102 - C104.

    Statements only: every theorem is closed by the lemma of the same name (in lower case) in
    PublicThms.v.  Generated by tools/gen_prop.py. *)
From Coq Require Import String.
From Verif Require Import Outcome Bytes Str Secp SpecSecp ModelBip32 SpecBip32 SpecWallet ModelOrder.
From Verif Require KeyTextThms DeriveThms PublicThms.
Import KeyTextThms(ex_attrs, ex_xpub, ex_pub_text).
Import DeriveThms(ex1_xprv).
Open Scope N_scope.

(** ** C102. Every public key has exactly one private key.  To every extended public key, in particular to
    every one that is read from text, there belongs exactly one extended private key with the same attributes;
    deriving along a path without hardened steps gives corresponding keys and corresponding errors, even
    though nobody may know that private key. (Every point of the curve is a multiple of the generator.) *)
Theorem C102_every_public_key_has_one_secret : forall y : xpub, valid_xpub y ->
  exists x : xprv, valid_xprv x /\ xprv_public_key x = y
    /\ (forall x', valid_xprv x' -> xprv_public_key x' = y -> x' = x)
    /\ (forall p : list N, Forall (fun c => c < 2 ^ 31) p ->
          xpub_derive_from_path y p = res_map xprv_public_key (xprv_derive_from_path x p)).
Proof. exact PublicThms.c102_every_public_key_has_one_secret. Qed.
Print Assumptions C102_every_public_key_has_one_secret.
(** In particular for everything XPub::from_str accepts. *)
Theorem C102_accepted_texts : forall (s : str) (y : xpub), xpub_from_str s = Ok y ->
  exists x : xprv, valid_xprv x /\ xprv_public_key x = y /\ (forall x', valid_xprv x' -> xprv_public_key x' = y -> x' = x).
Proof. exact PublicThms.c102_accepted_texts. Qed.
Print Assumptions C102_accepted_texts.
Example C102_example : xpub_from_str ex_pub_text = Ok ex_xpub /\ valid_xpub ex_xpub /\ xprv_public_key ex1_xprv = mkXPub G ex_attrs.
Proof. exact PublicThms.c102_example. Qed.

(** ** C103. Equality of extended public keys is equality of keys.  == of XPub holds exactly if the texts are
    the same, so the sign of the point and every attribute counts. Comparing public keys is a correct way to
    compare private keys, whose own == ignores the secret. *)
Theorem C103_equal_public_keys : forall (y z : xpub) (p : prefix), valid_xpub y -> valid_xpub z -> valid_prefix p ->
  (xpub_eqb y z = true <-> xpub_to_string y p = xpub_to_string z p).
Proof. exact PublicThms.c103_equal_public_keys. Qed.
Print Assumptions C103_equal_public_keys.
(** Comparing the public keys is the way to compare private keys (whose own == ignores the secret: C62). *)
Theorem C103_compare_private_keys : forall x x' : xprv, valid_xprv x -> valid_xprv x' ->
  (xpub_eqb (xprv_public_key x) (xprv_public_key x') = true <-> x = x').
Proof. exact PublicThms.c103_compare_private_keys. Qed.
Print Assumptions C103_compare_private_keys.
(** The two points with the abscissa of the generator; two private keys that differ in the secret only. *)
Example C103_example : xpub_eqb (mkXPub G ex_attrs) (mkXPub (Point gx (secp_p - gy)) ex_attrs) = false
  /\ valid_xpub (mkXPub (Point gx (secp_p - gy)) ex_attrs)
  /\ xprv_eq (mkXPrv 1 ex_attrs) (mkXPrv 2 ex_attrs) = true
  /\ xpub_eqb (xprv_public_key (mkXPrv 1 ex_attrs)) (xprv_public_key (mkXPrv 2 ex_attrs)) = false.
Proof. exact PublicThms.c103_example. Qed.

(** ** C104. The signing step reaches every valid signature.  A low-s pair (r, s) is a valid signature of a
    digest under a public key exactly if r is not 0 and the signing step returns it for the secret of that key
    and some nonce. *)
Theorem C104_all_valid_signatures : forall (Q : point) (z r s : Z), Q <> Infinity -> on_curve Q -> (0 <= z < secp_n)%Z -> (0 < s <= secp_n / 2)%Z ->
  (ecdsa_valid Q z r s <->
   r <> 0%Z /\ exists k t recid, (0 < k < secp_n)%Z /\ is_public_point k Q /\ (0 < t < secp_n)%Z /\ sign_raw k z t = Some (r, s, recid)).
Proof. exact PublicThms.c104_all_valid_signatures. Qed.
Print Assumptions C104_all_valid_signatures.
Example C104_example : ecdsa_valid G 5 gx (gx + 5) /\ sign_raw 1 5 1 = Some (gx, (gx + 5)%Z, 0) /\ (0 < gx + 5 <= secp_n / 2)%Z.
Proof. exact PublicThms.c104_example. Qed.
