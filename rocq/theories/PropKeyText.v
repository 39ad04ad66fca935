(** Extended keys as text C35 - C48.

    Statements only: every theorem is closed by the lemma of the same name (in lower case) in
    KeyTextThms.v.  Generated by tools/gen_prop.py. *)
From Coq Require Import String.
From Verif Require Import Outcome Bytes Str Secp SpecSecp ModelBip32 SpecBip32.
From Verif Require KeyTextThms.
Import KeyTextThms(ex_text, ex_pub_text, ex_attrs, ex_secret, ex_point, ex_xprv, ex_xpub, ex_ext).
Open Scope N_scope.

(** ** C35. Serialised extended keys always fit.  ExtendedKey::write_base58 / Display succeeds for every
    extended key: the text has at most 112 characters, all from the Base58 alphabet. *)
Theorem C35_text_fits : forall e : extended_key, valid_ext e ->
  exists s, write_base58 e = Ok s /\ ek_to_string e = Ok s /\ len s <= 112 /\ Forall (fun c => In c base58_symbols) s
    /\ exists payload, layout (version (ek_prefix e)) (ek_attrs e) (key_bytes e) payload /\ base58check payload s.
Proof. exact KeyTextThms.c35_text_fits. Qed.
Print Assumptions C35_text_fits.
Example C35_example : valid_ext ex_ext /\ write_base58 ex_ext = Ok ex_text.
Proof. exact KeyTextThms.c35_example. Qed.

(** ** C36. Extended key text determines the key.  Parsing the Display form of an extended key returns the
    same version, depth, fingerprint, child number, chain code and key bytes, and its prefix characters are
    the first four characters of the text, provided these are ASCII letters. *)
Theorem C36_text_determines_key : forall (e : extended_key) (s : str), valid_ext e -> ek_to_string e = Ok s ->
  (Forall letter (firstn 4 s) -> ek_from_str s = Ok (mkExt (mkPrefix (firstn 4 s) (version (ek_prefix e))) (ek_attrs e) (key_bytes e)))
  /\ (~ Forall letter (firstn 4 s) -> ek_from_str s = Err EDecode).
Proof. exact KeyTextThms.c36_text_determines_key. Qed.
Print Assumptions C36_text_determines_key.
Example C36_example : valid_ext ex_ext /\ ek_to_string ex_ext = Ok ex_text /\ Forall letter (firstn 4 ex_text).
Proof. exact KeyTextThms.c36_example. Qed.

(** ** C37. Extended key parsing is strict.  If a string parses as an extended key, displaying the result
    gives back exactly the same string; hence no two different strings parse to the same key. *)
Theorem C37_parsing_is_strict : forall (s : str) (e : extended_key), ek_from_str s = Ok e ->
  ek_to_string e = Ok s /\ (forall s', ek_from_str s' = Ok e -> s' = s).
Proof. exact KeyTextThms.c37_parsing_is_strict. Qed.
Print Assumptions C37_parsing_is_strict.
Example C37_example : ek_from_str ex_text = Ok ex_ext.
Proof. exact KeyTextThms.c37_example. Qed.

(** ** C38. Extended key parsing checks the checksum.  A string parses as an extended key iff it is the Base58
    form of 78 payload bytes followed by the first four bytes of their double SHA-256 and its first four
    characters are ASCII letters; otherwise the result is Error::Base58 or Error::Decode and never a panic. *)
Theorem C38_parsing_checks_checksum : forall s : str,
  (forall e, ek_from_str s = Ok e <->
     valid_ext e /\ chars (ek_prefix e) = firstn 4 s
     /\ exists payload, layout (version (ek_prefix e)) (ek_attrs e) (key_bytes e) payload /\ base58check payload s)
  /\ ((exists e, ek_from_str s = Ok e) <-> exists payload, has_bytes 78 payload /\ base58check payload s /\ Forall letter (firstn 4 s))
  /\ ((forall payload, bytes_ok payload -> len payload <= 78 -> ~ base58check payload s) -> ek_from_str s = Err EBase58)
  /\ (forall payload, bytes_ok payload -> base58check payload s ->
        (len payload < 78 \/ (len payload = 78 /\ ~ Forall letter (firstn 4 s))) -> ek_from_str s = Err EDecode)
  /\ ek_from_str s <> Panic.
Proof. exact KeyTextThms.c38_parsing_checks_checksum. Qed.
Print Assumptions C38_parsing_checks_checksum.
(** A single changed character is noticed. *)
Example C38_example : ek_from_str ex_text = Ok ex_ext /\ ek_from_str (firstn 110 ex_text ++ lit "j") = Err EBase58
  /\ ek_from_str (lit "xprv") = Err EBase58.
Proof. exact KeyTextThms.c38_example. Qed.

(** ** C39. Standard prefixes are stable.  For each of the eight standard prefixes (tprv..zpub) the text of
    every extended key carrying it is exactly 111 characters long and starts with the prefix's own four
    characters, whatever the other 74 bytes are. *)
Theorem C39_standard_prefixes_stable : forall (p : prefix) (a : attrs) (key : bytes) (s : str),
  In p (prv_prefixes ++ pub_prefixes) -> valid_attrs a -> has_bytes 33 key -> ek_to_string (mkExt p a key) = Ok s ->
  length s = 111%nat /\ firstn 4 s = chars p.
Proof. exact KeyTextThms.c39_standard_prefixes_stable. Qed.
Print Assumptions C39_standard_prefixes_stable.
Example C39_example : In XPRV (prv_prefixes ++ pub_prefixes) /\ chars XPRV = lit "xprv" /\ ek_to_string (mkExt XPRV ex_attrs (0 :: be_bytes 32 (Z.to_N ex_secret))) = Ok ex_text.
Proof. exact KeyTextThms.c39_example. Qed.

(** ** C40. Extended private keys round-trip.  For prefixes TPRV, XPRV, YPRV, ZPRV: parsing
    xprv.to_string(prefix) gives an extended private key with the same private key bytes and attributes, for
    every key reachable from a seed. *)
Theorem C40_private_round_trip : forall (x : xprv) (p : prefix), valid_xprv x -> In p prv_prefixes ->
  exists s, xprv_to_string x p = Ok s /\ xprv_from_str s = Ok x /\ length s = 111%nat /\ firstn 4 s = chars p.
Proof. exact KeyTextThms.c40_private_round_trip. Qed.
Print Assumptions C40_private_round_trip.
Example C40_example : valid_xprv ex_xprv /\ xprv_to_string ex_xprv XPRV = Ok ex_text.
Proof. exact KeyTextThms.c40_example. Qed.

(** ** C41. Extended public keys round-trip.  For prefixes TPUB, XPUB, YPUB, ZPUB: parsing
    xpub.to_string(prefix) gives back the same extended public key, for every key on the curve. *)
Theorem C41_public_round_trip : forall (x : xpub) (p : prefix), valid_xpub x -> In p pub_prefixes ->
  exists s, xpub_to_string x p = Ok s /\ xpub_from_str s = Ok x /\ length s = 111%nat /\ firstn 4 s = chars p.
Proof. exact KeyTextThms.c41_public_round_trip. Qed.
Print Assumptions C41_public_round_trip.
Example C41_example : valid_xpub ex_xpub /\ xpub_to_string ex_xpub XPUB = Ok ex_pub_text.
Proof. exact KeyTextThms.c41_example. Qed.

(** ** C42. Private and public encodings are never confused.  No string parses both as an extended private key
    and as an extended public key; in particular a string serialised with a pub prefix never parses as a
    private key and vice versa, failing with Error::Crypto. *)
Theorem C42_never_both : forall (s : str) (x : xprv) (y : xpub), xprv_from_str s = Ok x -> xpub_from_str s = Ok y -> False.
Proof. exact KeyTextThms.c42_never_both. Qed.
Print Assumptions C42_never_both.
(** Whatever the prefix, a public key's text is never a private key and vice versa. *)
Theorem C42_public_text_is_not_private : forall (y : xpub) (p : prefix) (s : str), valid_xpub y -> valid_prefix p ->
  xpub_to_string y p = Ok s -> xprv_from_str s = Err ECrypto \/ xprv_from_str s = Err EDecode.
Proof. exact KeyTextThms.c42_public_text_is_not_private. Qed.
Print Assumptions C42_public_text_is_not_private.
Theorem C42_private_text_is_not_public : forall (x : xprv) (p : prefix) (s : str), valid_xprv x -> valid_prefix p ->
  xprv_to_string x p = Ok s -> xpub_from_str s = Err ECrypto \/ xpub_from_str s = Err EDecode.
Proof. exact KeyTextThms.c42_private_text_is_not_public. Qed.
Print Assumptions C42_private_text_is_not_public.
(** With the standard prefixes the error is Crypto. *)
Theorem C42_standard_prefixes : forall (s : str) (p : prefix),
  (forall y, valid_xpub y -> In p pub_prefixes -> xpub_to_string y p = Ok s -> xprv_from_str s = Err ECrypto)
  /\ (forall x, valid_xprv x -> In p prv_prefixes -> xprv_to_string x p = Ok s -> xpub_from_str s = Err ECrypto).
Proof. exact KeyTextThms.c42_standard_prefixes. Qed.
Print Assumptions C42_standard_prefixes.
Example C42_example : xprv_from_str ex_text = Ok ex_xprv /\ xpub_from_str ex_text = Err ECrypto
  /\ xpub_from_str ex_pub_text = Ok ex_xpub /\ xprv_from_str ex_pub_text = Err ECrypto.
Proof. exact KeyTextThms.c42_example. Qed.

(** ** C43. Only valid private keys are accepted.  An extended private key string is accepted only if its key
    material is a zero byte followed by a big-endian integer k with 1 <= k < n; all others give Error::Crypto.
    *)
Theorem C43_valid_private_keys : forall (s : str) (x : xprv), xprv_from_str s = Ok x <->
  exists payload v kb, layout v (xprv_attrs x) (0 :: kb) payload /\ base58check payload s
    /\ Forall letter (firstn 4 s) /\ skipn 1 (firstn 4 s) = lit "prv"
    /\ is_ser256 (private_key x) kb /\ (0 < private_key x < secp_n)%Z.
Proof. exact KeyTextThms.c43_valid_private_keys. Qed.
Print Assumptions C43_valid_private_keys.
Theorem C43_other_material_rejected : forall (e : extended_key), valid_ext e ->
  (forall kb, key_bytes e = 0 :: kb -> ~ (0 < Z.of_N (digits_val 256 kb) < secp_n)%Z) -> xprv_try_from e = Err ECrypto.
Proof. exact KeyTextThms.c43_other_material_rejected. Qed.
Print Assumptions C43_other_material_rejected.
Example C43_example : xprv_from_str ex_text = Ok ex_xprv
  /\ xprv_try_from (mkExt XPRV ex_attrs (0 :: be_bytes 32 (Z.to_N secp_n))) = Err ECrypto
  /\ xprv_try_from (mkExt XPRV ex_attrs (repeat 0 33)) = Err ECrypto
  /\ xprv_try_from (mkExt XPRV ex_attrs (1 :: be_bytes 32 (Z.to_N ex_secret))) = Err ECrypto.
Proof. exact KeyTextThms.c43_example. Qed.

(** ** C44. Only curve points are accepted.  An extended public key string is accepted only if its key
    material is a compressed encoding (02/03) of a point on secp256k1; all others give Error::Crypto. *)
Theorem C44_curve_points : forall (s : str) (y : xpub), xpub_from_str s = Ok y <->
  exists payload v key, layout v (xpub_attrs y) key payload /\ base58check payload s
    /\ Forall letter (firstn 4 s) /\ skipn 1 (firstn 4 s) = lit "pub"
    /\ is_compressed key (public_key y) /\ on_curve (public_key y).
Proof. exact KeyTextThms.c44_curve_points. Qed.
Print Assumptions C44_curve_points.
Theorem C44_other_material_rejected : forall (e : extended_key), valid_ext e ->
  (forall P, on_curve P -> ~ is_compressed (key_bytes e) P) -> xpub_try_from e = Err ECrypto.
Proof. exact KeyTextThms.c44_other_material_rejected. Qed.
Print Assumptions C44_other_material_rejected.
Example C44_example : xpub_from_str ex_pub_text = Ok ex_xpub
  /\ xpub_try_from (mkExt XPUB ex_attrs (4 :: be_bytes 32 1)) = Err ECrypto
  /\ xpub_try_from (mkExt XPUB ex_attrs (2 :: repeat 255 32)) = Err ECrypto.
Proof. exact KeyTextThms.c44_example. Qed.

(** ** C45. Root keys with inconsistent metadata are rejected.  As BIP32 requires, a serialised key with depth
    0 but a non-zero parent fingerprint or child number is rejected. *)
(** C45: the opposite holds: such keys are accepted. *)
Theorem C45_root_metadata_refuted :
  ~ (forall (s : str) (x : xprv), xprv_from_str s = Ok x -> depth (xprv_attrs x) = 0 ->
       parent_fingerprint (xprv_attrs x) = [0; 0; 0; 0] /\ child_number (xprv_attrs x) = 0)
  /\ ~ (forall (s : str) (y : xpub), xpub_from_str s = Ok y -> depth (xpub_attrs y) = 0 ->
       parent_fingerprint (xpub_attrs y) = [0; 0; 0; 0] /\ child_number (xpub_attrs y) = 0).
Proof. exact KeyTextThms.c45_root_metadata_refuted. Qed.
Print Assumptions C45_root_metadata_refuted.
(** In fact every combination is accepted. *)
Theorem C45_root_metadata_ignored : forall (k : Z) (a : attrs), (0 < k < secp_n)%Z -> valid_attrs a -> depth a = 0 ->
  exists s, xprv_to_string (mkXPrv k a) XPRV = Ok s /\ xprv_from_str s = Ok (mkXPrv k a).
Proof. exact KeyTextThms.c45_root_metadata_ignored. Qed.
Print Assumptions C45_root_metadata_ignored.
Example C45_example : valid_attrs (mkAttrs 0 [1; 2; 3; 4] 5 (repeat 6 32)).
Proof. exact KeyTextThms.c45_example. Qed.

(** ** C46. Prefixes obtained from a version number are faithful.  Prefix::try_from(v) never panics, either
    fails with Error::Decode or gives a prefix with version v and four ASCII letters; to_bytes/from_bytes and
    version/try_from are inverse; each standard constant equals try_from of its version, and the constants are
    the eight versions registered in BIP32 and SLIP-132. *)
Theorem C46_prefix_from_version : forall v : N, u32 v ->
  (forall p, prefix_from_version v = Ok p <->
     version p = v /\ length (chars p) = 4%nat /\ Forall letter (chars p)
     /\ exists payload s, layout v (mkAttrs 0 (repeat 0 4) 0 (repeat 0 32)) (repeat 0 33) payload /\ base58check payload s /\ chars p = firstn 4 s)
  /\ ((exists p, prefix_from_version v = Ok p) \/ prefix_from_version v = Err EDecode).
Proof. exact KeyTextThms.c46_prefix_from_version. Qed.
Print Assumptions C46_prefix_from_version.
Theorem C46_prefix_bytes : forall (b : bytes) (p : prefix), bytes_ok b ->
  (prefix_try_from_slice b = Ok p -> length b = 4%nat /\ prefix_to_bytes p = b /\ prefix_from_version (version p) = Ok p
     /\ prefix_try_from_slice (prefix_to_bytes p) = Ok p)
  /\ (length b <> 4%nat -> prefix_try_from_slice b = Err EDecode)
  /\ prefix_try_from_slice b <> Panic.
Proof. exact KeyTextThms.c46_prefix_bytes. Qed.
Print Assumptions C46_prefix_bytes.
Theorem C46_constants : forall p : prefix, In p (prv_prefixes ++ pub_prefixes) ->
  prefix_from_version (version p) = Ok p /\ prefix_try_from_slice (prefix_to_bytes p) = Ok p.
Proof. exact KeyTextThms.c46_constants. Qed.
Print Assumptions C46_constants.
Theorem C46_registered_versions : map (fun p => (chars p, version p)) [TPRV; TPUB; XPRV; XPUB; YPRV; YPUB; ZPRV; ZPUB] = registered
  /\ (forall (cs : str) (v : N), In (cs, v) registered <-> In (mkPrefix cs v) (prv_prefixes ++ pub_prefixes)).
Proof. exact KeyTextThms.c46_registered_versions. Qed.
Print Assumptions C46_registered_versions.
Example C46_example : prefix_from_version 0x0488ade4 = Ok XPRV /\ prefix_from_version 0 = Err EDecode.
Proof. exact KeyTextThms.c46_example. Qed.

(** ** C47. Prefixes obtained from a version number survive serialisation.  For every prefix obtained with
    Prefix::try_from(v), parsing the text of a key serialised with it returns the same prefix. *)
Theorem C47_prefix_survives_refuted :
  ~ (forall (v : N) (p : prefix) (e e' : extended_key) (s : str), u32 v -> prefix_from_version v = Ok p ->
       valid_ext e -> ek_prefix e = p -> ek_to_string e = Ok s -> ek_from_str s = Ok e' -> ek_prefix e' = p).
Proof. exact KeyTextThms.c47_prefix_survives_refuted. Qed.
Print Assumptions C47_prefix_survives_refuted.
(** A legal version whose private keys of depth 3 and more can be written but not read back. *)
Theorem C47_unreadable_keys : exists p : prefix, prefix_from_version (version p) = Ok p /\ prefix_is_private p = true
  /\ forall x, valid_xprv x -> 3 <= depth (xprv_attrs x) ->
     exists s, xprv_to_string x p = Ok s /\ xprv_from_str s = Err ECrypto.
Proof. exact KeyTextThms.c47_unreadable_keys. Qed.
Print Assumptions C47_unreadable_keys.
(** What does hold: the version, the attributes and the key always survive, and the prefix does iff the text
    starts with its characters. *)
Theorem C47_prefix_survives_partial : forall (p : prefix) (e e' : extended_key) (s : str),
  valid_ext e -> ek_prefix e = p -> ek_to_string e = Ok s -> ek_from_str s = Ok e' ->
  version (ek_prefix e') = version p /\ ek_attrs e' = ek_attrs e /\ key_bytes e' = key_bytes e
  /\ (ek_prefix e' = p <-> firstn 4 s = chars p).
Proof. exact KeyTextThms.c47_prefix_survives_partial. Qed.
Print Assumptions C47_prefix_survives_partial.
Example C47_example : prefix_from_version 0x024285bb = Ok (mkPrefix (lit "Uprv") 0x024285bb).
Proof. exact KeyTextThms.c47_example. Qed.

(** ** C48. A prefix is never both public and private.  is_public and is_private are mutually exclusive, and
    as_str never panics and returns the four characters given. *)
Theorem C48_never_both : forall p : prefix, built_prefix p ->
  prefix_as_str p = Ok (chars p) /\ length (chars p) = 4%nat /\ Forall letter (chars p)
  /\ (prefix_is_public p = true <-> exists c, chars p = c :: lit "pub")
  /\ (prefix_is_private p = true <-> exists c, chars p = c :: lit "prv")
  /\ ~ (prefix_is_public p = true /\ prefix_is_private p = true).
Proof. exact KeyTextThms.c48_never_both. Qed.
Print Assumptions C48_never_both.
Theorem C48_parts : forall (s : str) (v : N), str_ok s -> u32 v ->
  (from_parts_unchecked (utf8 s) v = Ok (mkPrefix s v) <-> length s = 4%nat /\ Forall letter s)
  /\ (~ (length s = 4%nat /\ Forall letter s) -> from_parts_unchecked (utf8 s) v = Panic).
Proof. exact KeyTextThms.c48_parts. Qed.
Print Assumptions C48_parts.
Example C48_example : built_prefix XPUB /\ prefix_is_public XPUB = true /\ prefix_is_private XPUB = false /\ prefix_is_private XPRV = true
  /\ built_prefix (mkPrefix (lit "abcd") 7).
Proof. exact KeyTextThms.c48_example. Qed.
