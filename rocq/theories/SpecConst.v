(** The constants of the standards: the parameters of secp256k1 in SEC 2 (version 2, section 2.4.1), and the
    SHA-256 checksums by which the word lists of BIP39 are commonly identified. *)
From Coq Require Import String ZArith.
From Verif Require Import Outcome Bytes Str ModelBip39 Secp SpecSecp SpecBip32 SpecHash SpecUnicode.
Open Scope Z_scope.

Definition sec2_p : Z := 2 ^ 256 - 2 ^ 32 - 2 ^ 9 - 2 ^ 8 - 2 ^ 7 - 2 ^ 6 - 2 ^ 4 - 1.
Definition sec2_n : Z := 115792089237316195423570985008687907852837564279074904382605163141518161494337.
(** The base point in compressed form, as one number of 33 bytes. *)
Definition sec2_G : N := 0x0279BE667EF9DCBBAC55A06295CE870B07029BFCDB2DCE28D959F2815B16F81798.

(** The text with one word per line has the checksum [d]. *)
Definition has_checksum (ws : list str) (d : N) : Prop :=
  exists text digest, is_utf8 (flat_map (fun w => w ++ [10%N]) ws) text /\ is_sha2 fips_sha256 text digest
    /\ digits_val 256 digest = d.

(** The SHA-256 checksum of chinese_simplified.txt converted to GB18030 (iconv of the GNU C library). *)
Definition gb18030_checksum : N := 0x5eb1af46669a50615738152b62550119d02be98cd3205112046a7c17ddae4e7c.

(** The SHA-256 checksums of english.txt and chinese_simplified.txt in the repository of BIP39. *)
Definition list_checksum (l : language) : N :=
  match l with
  | English => 0x2f5eed53a4727b4bf8880d8f3f199efc90e58503646d9ff8eff3a2ed3b24dbda
  | ChineseSimplified => 0x5c5942792bd8340cb8b27cd592f1015edf56a8c5b26276ee18a482428e7c5726
  end.
