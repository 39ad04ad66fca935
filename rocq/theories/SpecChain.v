(** BIP32 keys, BIP39 wallets and deterministic signatures put together from the standards of SpecHash.v,
    SpecUnicode.v and SpecSecp.v only: no hash function, normalisation or arithmetic of the model occurs here.
    Shared with the model: the record types of keys. *)
From Coq Require Import String.
From Verif Require Import Outcome Bytes Str ModelBip39 SpecBip39 Secp SpecSecp ModelBip32 SpecBip32 SpecWallet SpecHash SpecUnicode.
Open Scope N_scope.

Definition HMAC_SHA512 : bytes -> bytes -> bytes -> Prop := is_hmac (is_sha2 fips_sha512) 128.
Definition HMAC_SHA256 : bytes -> bytes -> bytes -> Prop := is_hmac (is_sha2 fips_sha256) 64.

(** ** BIP32 *)

(** The first four bytes of the key identifier. *)
Definition key_id (P : point) (f : bytes) : Prop :=
  exists b h d, is_compressed b P /\ is_sha2 fips_sha256 b h /\ is_ripemd160 h d /\ f = firstn 4 d.
(** Master key generation. *)
Definition bip32_master (seed : bytes) (x : xprv) : Prop :=
  exists I, HMAC_SHA512 master_key_text seed I /\ usable I
    /\ private_key x = left_half I /\ xprv_attrs x = mkAttrs 0 [0; 0; 0; 0] 0 (right_half I).
(** CKDpriv *)
Definition bip32_child (x : xprv) (i : N) (y : xprv) : Prop :=
  exists P f data I, is_public_point (private_key x) P /\ key_id P f /\ priv_data (private_key x) i data
    /\ HMAC_SHA512 (chain_code (xprv_attrs x)) data I /\ usable I
    /\ (0 < private_key y < secp_n)%Z /\ (secp_n | private_key y - (left_half I + private_key x))%Z
    /\ depth (xprv_attrs x) < 255 /\ xprv_attrs y = mkAttrs (depth (xprv_attrs x) + 1) f i (right_half I).
(** CKDpub *)
Definition bip32_public_child (x : xpub) (i : N) (y : xpub) : Prop :=
  exists f data I T, i < 2 ^ 31 /\ key_id (public_key x) f /\ pub_data (public_key x) i data
    /\ HMAC_SHA512 (chain_code (xpub_attrs x)) data I /\ usable I
    /\ is_public_point (left_half I) T /\ ec_sum T (public_key x) (public_key y) /\ public_key y <> Infinity
    /\ depth (xpub_attrs x) < 255 /\ xpub_attrs y = mkAttrs (depth (xpub_attrs x) + 1) f i (right_half I).
(** The key tree. *)
Inductive descends {K} (child : K -> N -> K -> Prop) (x : K) : list N -> K -> Prop :=
| descends_self : descends child x [] x
| descends_child p y i z : descends child x p y -> child y i z -> descends child x (p ++ [i]) z.
(** Serialisation in Base58Check. *)
Definition bip32_text (v : N) (a : attrs) (key : bytes) (s : str) : Prop :=
  exists payload d d', layout v a key payload /\ is_sha2 fips_sha256 payload d /\ is_sha2 fips_sha256 d d'
    /\ is_base58 (payload ++ firstn 4 d') s.
Definition private_text (v : N) (x : xprv) (s : str) : Prop :=
  exists kb, is_ser256 (private_key x) kb /\ bip32_text v (xprv_attrs x) (0 :: kb) s.
Definition public_text (v : N) (x : xpub) (s : str) : Prop :=
  exists b, is_compressed b (public_key x) /\ bip32_text v (xpub_attrs x) b s.

(** ** BIP39 *)

(** The words of a sentence with the entropy [ent]. *)
Definition bip39_words (ws : list str) (ent : bytes) : Prop :=
  bytes_ok ent /\ legal_entropy ent
  /\ exists d, is_sha2 fips_sha256 ent d /\ encodes English ws (bits_of_bytes ent ++ firstn (cs_bits ent) (bits_of_bytes d)).
(** From mnemonic to seed. *)
Definition bip39_seed_of (ws : list str) (password : str) (seed : bytes) : Prop :=
  exists t tb pw pwb, is_nfkd (spaced ws) t /\ is_utf8 t tb /\ is_nfkd password pw /\ is_utf8 pw pwb
    /\ is_pbkdf2 (HMAC_SHA512 tb) (lit "mnemonic" ++ pwb) 2048 64 seed.
(** The key at path [ps] of the wallet with the phrase [s] and the passphrase [password]. *)
Definition wallet_key (s password ps : str) (x : xprv) : Prop :=
  exists ws ws' ent seed m p, laid_out s ws /\ Forall2 is_nfkd ws ws' /\ bip39_words ws' ent
    /\ bip39_seed_of ws' password seed /\ bip32_master seed m /\ path_text ps p /\ descends bip32_child m p x.

(** ** RFC 6979 and ECDSA *)

(** Steps b - g of section 3.2; [x] is int2octets of the secret, [h] is bits2octets of the digest. *)
Definition nonce_start (x h : bytes) (K V : bytes) : Prop :=
  exists K1 V1, HMAC_SHA256 (repeat 0 32) (repeat 1 32 ++ [0] ++ x ++ h) K1 /\ HMAC_SHA256 K1 (repeat 1 32) V1
    /\ HMAC_SHA256 K1 (V1 ++ [1] ++ x ++ h) K /\ HMAC_SHA256 K V1 V.
(** Step h: candidate number [i] and the key it was made with. *)
Inductive nonce_candidate (x h : bytes) : nat -> bytes -> bytes -> Prop :=
| first_candidate K V T : nonce_start x h K V -> HMAC_SHA256 K V T -> nonce_candidate x h 0 K T
| next_candidate i K T K' V T' : nonce_candidate x h i K T ->
    HMAC_SHA256 K (T ++ [0]) K' -> HMAC_SHA256 K' T V -> HMAC_SHA256 K' V T' -> nonce_candidate x h (S i) K' T'.
(** The signature of the digest [z] with the nonce [k], s in the lower half, and its recovery id: 2 if the
    abscissa of the nonce point is at least n, plus 1 if its ordinate is odd (even, if s was negated). *)
Definition signature_with (k d z r s : Z) (recid : N) : Prop :=
  exists x y s0, is_public_point k (Point x y) /\ r = (x mod secp_n)%Z
    /\ (0 < s0 < secp_n)%Z /\ (secp_n | k * s0 - (z + r * d))%Z
    /\ s = (if (2 * s0 <? secp_n)%Z then s0 else secp_n - s0)%Z
    /\ recid = (if (secp_n <=? x)%Z then 2 else 0) + (if xorb (Z.odd y) (2 * s0 <? secp_n)%Z then 0 else 1).
(** No signature with s <> 0 comes of it.  (SEC 1 also wants r <> 0: see C64 and C99.) *)
Definition bad_nonce (k d z : Z) : Prop :=
  ~ (0 < k < secp_n)%Z \/ exists x y, is_public_point k (Point x y) /\ (secp_n | z + (x mod secp_n) * d)%Z.
Definition deterministic_signature (d : Z) (msg sig : bytes) (recid : N) : Prop :=
  exists x h i K T r s rb sb, is_ser256 d x /\ is_ser256 (digest_val msg mod secp_n) h
    /\ nonce_candidate x h i K T
    /\ (forall j K' T', (j < i)%nat -> nonce_candidate x h j K' T' -> bad_nonce (Z.of_N (digits_val 256 T')) d (digest_val msg))
    /\ (0 < Z.of_N (digits_val 256 T) < secp_n)%Z
    /\ signature_with (Z.of_N (digits_val 256 T)) d (digest_val msg) r s recid
    /\ sig = rb ++ sb /\ is_ser256 r rb /\ is_ser256 s sb.
