(** Published constants C141 and C142.

    Statements only: every theorem is closed by the lemma of the same name (in lower case) in
    ConstThms.v.  Generated by tools/gen_prop.py. *)
From Coq Require Import String ZArith Znumtheory.
From Verif Require Import Outcome Bytes Str Secp ModelBip39 SpecBip39 ModelBip32 SpecBip32 SpecSecp SpecHash SpecUnicode SpecConst.
From Verif Require ConstThms.
Open Scope Z_scope.

(** ** C141. The curve is secp256k1 of SEC 2.  The constants of the curve that the model and the
    specifications share are the ones of SEC 2, section 2.4.1: the field prime is
    2^256-2^32-2^9-2^8-2^7-2^6-2^4-1, the order and the base point in compressed form are the published
    numbers, both numbers are prime, and the public key of the secret key 1 is written as the base point. The
    points form a commutative group, every point is k G for exactly one k below n, and k G is infinity exactly
    for the multiples of n. *)
Theorem C141_parameters : secp_p = sec2_p /\ secp_n = sec2_n /\ prime sec2_p /\ prime sec2_n
  /\ on_curve G /\ private_public_key 1 = G
  /\ (exists b, public_to_bytes (private_public_key 1) = b /\ is_compressed b G /\ digits_val 256 b = sec2_G).
Proof. exact ConstThms.c141_parameters. Qed.
Print Assumptions C141_parameters.
(** The points form a commutative group of prime order n generated by G: the cofactor is 1. *)
Theorem C141_group :
  (forall P Q, on_curve P -> on_curve Q -> exists R, on_curve R /\ ec_sum P Q R /\ ec_sum Q P R /\ forall R', ec_sum P Q R' -> R' = R)
  /\ (forall P Q R PQ QR S, on_curve P -> on_curve Q -> on_curve R ->
        ec_sum P Q PQ -> ec_sum Q R QR -> (ec_sum PQ R S <-> ec_sum P QR S))
  /\ (forall P, on_curve P -> exists Q, on_curve Q /\ ec_sum P Q Infinity)
  /\ (forall P, on_curve P <-> exists k, 0 <= k < sec2_n /\ is_public_point k P)
  /\ (forall k, 0 <= k -> (is_public_point k Infinity <-> (sec2_n | k)))
  /\ (forall j k P, 0 <= j < sec2_n -> 0 <= k < sec2_n -> is_public_point j P -> is_public_point k P -> j = k).
Proof. exact ConstThms.c141_group. Qed.
Print Assumptions C141_group.
Example C141_example :
  is_public_point 2 (Point 0xc6047f9441ed7d6d3045406e95c07cd85c778e4b8cef3ca7abac09b95c709ee5
                           0x1ae168fea63dc339a3c58419466ceaeef7f632653266d0e1236431a950cfe52a)
  /\ ~ on_curve (Point 5 0) /\ ~ is_public_point 2 Infinity.
Proof. exact ConstThms.c141_example. Qed.

(** ** C142. The word lists are the published ones.  For English and ChineseSimplified the SHA-256 checksum of
    the word list that the code builds from the compiled text file (every word followed by a line feed, in
    UTF-8) is the published one of BIP39's english.txt and chinese_simplified.txt, so that a list with another
    word in any place would need a collision of SHA-256. The GB18030 bytes of the Chinese list, from which
    seeds are made, have the checksum that iconv's conversion of the file has. *)
Theorem C142_checksums : forall l : language,
  has_checksum (wordlist l) (list_checksum l) /\ has_checksum (bip39_list l) (list_checksum l).
Proof. exact ConstThms.c142_checksums. Qed.
Print Assumptions C142_checksums.
(** No list with other words has the checksum, unless SHA-256 has a collision. *)
Theorem C142_pins : forall (l : language) (ws : list str), has_checksum ws (list_checksum l) ->
  Forall (fun w => ~ In 10%N w) ws ->
  ws = wordlist l \/ exists a b d, a <> b /\ is_sha2 fips_sha256 a d /\ is_sha2 fips_sha256 b d.
Proof. exact ConstThms.c142_pins. Qed.
Print Assumptions C142_pins.
(** The bytes of Chinese phrases: the list in GB18030 has the checksum that a conversion by another program
    gives. *)
Theorem C142_gb18030 : exists text digest, gb18030 (flat_map (fun w => w ++ [10%N]) (wordlist ChineseSimplified)) = Some text
  /\ is_sha2 fips_sha256 text digest /\ digits_val 256 digest = gb18030_checksum.
Proof. exact ConstThms.c142_gb18030. Qed.
Print Assumptions C142_gb18030.
Example C142_example : has_checksum [lit "abc"] 0xedeaaff3f1774ad2888673770c6d64097e391bc362d7d6fb34982ddf0efd18cb.
Proof. exact ConstThms.c142_example. Qed.
