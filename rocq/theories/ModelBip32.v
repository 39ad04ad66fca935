(** src/bip32, src/lib.rs and src/crypto.rs, function by function. *)
From Coq Require Import String.
From Verif Require Import Outcome Bytes Str Hash Ripemd Secp Base58.
Open Scope N_scope.

(** src/bip32/error.rs:13-34, enum Error (Bip39 is never constructed) *)
Inductive error := EBase58 | EBip39 | EChildNumber | ECrypto | EDecode | EDepth | ESeedLength.
(** src/bip32/error.rs:8 *)
Notation R32 := (res error).
(** src/bip32/error.rs:53-63, From<bs58::decode::Error>, From<bs58::encode::Error> *)
Definition from_b58 {A} (m : res b58_error A) : R32 A := map_err (fun _ => EBase58) m.

(** src/bip32/error.rs:36-48, Display *)
Definition error_display (e : error) : str :=
  match e with
  | EBase58 => lit "base58 error"
  | EBip39 => lit "bip39 error"
  | EChildNumber => lit "invalid child number"
  | ECrypto => lit "cryptographic error"
  | EDecode => lit "decoding error"
  | EDepth => lit "maximum derivation depth exceeded"
  | ESeedLength => lit "seed length invalid"
  end.

(** ** src/bip32/child_number.rs: a ChildNumber is its u32 *)

(** src/bip32/child_number.rs:18 *)
Definition hardened_flag : N := 2 ^ 31.
(** src/bip32/child_number.rs:23-31, new *)
Definition child_new (index : N) (hardened : bool) : R32 N :=
  if hardened_flag <=? index then Err EChildNumber
  else if hardened then Ok (N.lor index hardened_flag)
  else Ok index.
(** src/bip32/child_number.rs:34-36, from_bytes *)
Definition child_from_bytes (b : bytes) : N := be_val b.
(** src/bip32/child_number.rs:39-41, to_bytes *)
Definition child_to_bytes (c : N) : bytes := be_bytes 4 c.
(** src/bip32/child_number.rs:45-47, index; [!HARDENED_FLAG] on u32 *)
Definition child_index (c : N) : N := N.land c (N.lxor hardened_flag (2 ^ 32 - 1)).
(** src/bip32/child_number.rs:50-52, is_hardened *)
Definition child_is_hardened (c : N) : bool := negb (N.land c hardened_flag =? 0).
(** src/bip32/child_number.rs:55-65, Display *)
Definition child_display (c : N) : str :=
  dec_str (child_index c) ++ (if child_is_hardened c then lit "'" else []).
(** src/bip32/child_number.rs:79-91, FromStr *)
Definition child_from_str (s : str) : R32 N :=
  let '(child, hardened) := match strip_suffix 39 s with Some c => (c, true) | None => (s, false) end in
  let* index := ok_or (parse_u32 child) EChildNumber in
  child_new index hardened.

(** ** src/bip32/derivation_path.rs: a DerivationPath is its vector *)
Notation path := (list N).
(** src/bip32/derivation_path.rs:27-29, is_empty *)
Definition path_is_empty (p : path) : bool := match p with [] => true | _ => false end.
(** src/bip32/derivation_path.rs:32-34, len *)
Definition path_len (p : path) : N := len p.
(** src/bip32/derivation_path.rs:39-45, parent: checked_sub(1), then truncate *)
Definition path_parent (p : path) : option path :=
  if len p <? 1 then None else Some (firstn (N.to_nat (len p - 1)) p).
(** src/bip32/derivation_path.rs:48-50, push *)
Definition path_push (p : path) (c : N) : path := p ++ [c].
(** src/bip32/derivation_path.rs:71-78, Extend *)
Definition path_extend (p : path) (l : list N) : path := p ++ l.
(** src/bip32/derivation_path.rs:59-69, Display *)
Definition path_display (p : path) : str :=
  fold_left (fun acc c => acc ++ lit "/" ++ child_display c) p (lit "m").
(** src/bip32/derivation_path.rs:80-94, FromStr *)
Definition path_from_str (s : str) : R32 path :=
  match split_char 47 s with
  | first :: rest => if str_eqb first (lit "m") then traverse child_from_str rest else Err EDecode
  | [] => Err EDecode
  end.

(** ** src/bip32/prefix.rs *)

(** src/bip32/prefix.rs:25-31, struct Prefix *)
Record prefix := mkPrefix { chars : bytes; version : N }.
(** src/bip32/prefix.rs:129-145, validate_str, on the bytes of the string *)
Definition is_letter (b : N) : bool := ((97 <=? b) && (b <=? 122)) || ((65 <=? b) && (b <=? 90)).
Definition validate_str (s : bytes) : R32 unit :=
  if len s =? 4 then if forallb is_letter s then Ok tt else Err EDecode else Err EDecode.
(** src/bip32/prefix.rs:71-77, from_parts_unchecked: panics on an invalid string *)
Definition from_parts_unchecked (s : bytes) (v : N) : R32 prefix :=
  match validate_str s with Ok _ => Ok (mkPrefix s v) | _ => Panic end.
(** src/bip32/prefix.rs:38-59, the constants *)
Definition TPRV := mkPrefix (lit "tprv") 0x04358394.
Definition TPUB := mkPrefix (lit "tpub") 0x043587cf.
Definition XPRV := mkPrefix (lit "xprv") 0x0488ade4.
Definition XPUB := mkPrefix (lit "xpub") 0x0488b21e.
Definition YPRV := mkPrefix (lit "yprv") 0x049d7878.
Definition YPUB := mkPrefix (lit "ypub") 0x049d7cb2.
Definition ZPRV := mkPrefix (lit "zprv") 0x04b2430c.
Definition ZPUB := mkPrefix (lit "zpub") 0x04b24746.
(** src/bip32/extended_key/mod.rs:31 and 36 *)
Definition BYTE_SIZE : nat := 78.
Definition MAX_BASE58_SIZE : N := 112.
(** [str::from_utf8] on text made of ASCII bytes; anything else is treated as invalid UTF-8 (an
    approximation that can only add errors and panics; it is never met). *)
Definition from_utf8 (b : bytes) : option str := if forallb (fun c => c <? 128) b then Some b else None.
(** src/bip32/prefix.rs:90-100, from_version (TryFrom<Version>, 181-187, calls it); [&buffer[..4]] reads zero bytes behind a shorter text *)
Definition prefix_from_version (v : N) : R32 prefix :=
  let bytes := be_bytes 4 v ++ repeat 0 (BYTE_SIZE - 4) in
  let* text := from_b58 (encode_check_into MAX_BASE58_SIZE bytes) in
  let* s := ok_or (from_utf8 (firstn 4 (text ++ repeat 0 4))) EBase58 in
  let* _ := validate_str s in
  from_parts_unchecked s v.
(** src/bip32/prefix.rs:82-84, from_bytes *)
Definition prefix_from_bytes (b : bytes) : R32 prefix := prefix_from_version (be_val b).
(** src/bip32/prefix.rs:189-195, TryFrom<&[u8]> *)
Definition prefix_try_from_slice (b : bytes) : R32 prefix :=
  if len b =? 4 then prefix_from_bytes b else Err EDecode.
(** src/bip32/prefix.rs:103-105, as_str; Display (163-167) writes it *)
Definition prefix_as_str (p : prefix) : R32 str := or_panic (from_utf8 (chars p)).
(** src/bip32/prefix.rs:108-115, is_public, is_private *)
Definition prefix_is_public (p : prefix) : bool := bytes_eqb (skipn 1 (chars p)) (lit "pub").
Definition prefix_is_private (p : prefix) : bool := bytes_eqb (skipn 1 (chars p)) (lit "prv").
(** src/bip32/prefix.rs:123-125, to_bytes *)
Definition prefix_to_bytes (p : prefix) : bytes := be_bytes 4 (version p).

(** src/bip32/prefix.rs:154-161, Debug, with DebugVersion (199-205): [{:#010x}] is 0x and eight digits.
    The characters are letters, which [Debug for str] prints unchanged. *)
Definition prefix_debug (p : prefix) : R32 str :=
  let* s := prefix_as_str p in
  Ok (lit "Prefix { chars: " ++ [34] ++ s ++ [34] ++ lit ", version: 0x"
      ++ flat_map (hex_byte false) (be_bytes 4 (version p)) ++ lit " }").

(** ** src/bip32/extended_key *)

(** src/bip32/extended_key/attrs.rs:8-20 *)
Record attrs := mkAttrs { depth : N; parent_fingerprint : bytes; child_number : N; chain_code : bytes }.
(** src/bip32/extended_key/mod.rs:16-27 *)
Record extended_key := mkExt { ek_prefix : prefix; ek_attrs : attrs; key_bytes : bytes }.

(** src/bip32/extended_key/mod.rs:44-50, the 78 bytes *)
Definition ek_payload (e : extended_key) : bytes :=
  prefix_to_bytes (ek_prefix e) ++ [depth (ek_attrs e)] ++ parent_fingerprint (ek_attrs e)
  ++ child_to_bytes (child_number (ek_attrs e)) ++ chain_code (ek_attrs e) ++ key_bytes e.
(** src/bip32/extended_key/mod.rs:43-56, write_base58 *)
Definition write_base58 (e : extended_key) : R32 str :=
  let* text := from_b58 (encode_check_into MAX_BASE58_SIZE (ek_payload e)) in
  ok_or (from_utf8 text) EBase58.
(** src/bip32/extended_key/mod.rs:59-66, Display; [to_string] panics when Display reports an error *)
Definition ek_to_string (e : extended_key) : R32 str :=
  match write_base58 e with Ok s => Ok s | _ => Panic end.

(** [str::get(..k)]: the prefix of k bytes if it ends at a character boundary *)
Fixpoint str_get_to (k : N) (s : str) : option str :=
  if k =? 0 then Some []
  else match s with
       | [] => None
       | c :: s' => let w := len (utf8_char c) in
                    if w <=? k then option_map (cons c) (str_get_to (k - w) s') else None
       end.
(** src/bip32/extended_key/mod.rs:68-105, FromStr *)
Definition ek_from_str (base58 : str) : R32 extended_key :=
  let* payload := from_b58 (decode_check_into (N.of_nat BYTE_SIZE + 4) (utf8 base58)) in
  if negb (len payload =? N.of_nat BYTE_SIZE) then Err EDecode
  else
    let* pre := (let* cs := ok_or (str_get_to 4 base58) EDecode in
                 let* _ := validate_str (utf8 cs) in
                 from_parts_unchecked (utf8 cs) (be_val (slice 0 4 payload))) in
    let* d := index payload 4 in
    Ok (mkExt pre
          (mkAttrs d (slice 5 9 payload) (child_from_bytes (slice 9 13 payload)) (slice 13 45 payload))
          (slice 45 78 payload)).

(** ** src/bip32/private_key.rs and src/bip32/public_key.rs (for libsecp256k1) *)

(** src/bip32/private_key.rs:35-40, from_bytes *)
Definition private_from_bytes (b : bytes) : R32 Z := ok_or (secret_parse b) ECrypto.
(** src/bip32/private_key.rs:42-44, to_bytes *)
Definition private_to_bytes (k : Z) : bytes := secret_serialize k.
(** src/bip32/private_key.rs:46-52, derive_child: [unwrap] on the parse of the tweak *)
Definition private_derive_child (k : Z) (other : bytes) : R32 Z :=
  let* t := or_panic (secret_parse other) in
  ok_or (secret_tweak_add k t) ECrypto.
(** src/bip32/private_key.rs:54-56, public_key *)
Definition private_public_key (k : Z) : point := public_of_secret k.
(** src/bip32/public_key.rs:38-43, from_bytes *)
Definition public_from_bytes (b : bytes) : R32 point := ok_or (public_parse b) ECrypto.
(** src/bip32/public_key.rs:45-47, to_bytes *)
Definition public_to_bytes (P : point) : bytes := public_serialize P.
(** src/bip32/public_key.rs:49-55, derive_child: [unwrap] on the parse of the tweak *)
Definition public_derive_child (P : point) (other : bytes) : R32 point :=
  let* t := or_panic (secret_parse other) in
  ok_or (public_tweak_add P t) ECrypto.
(** src/bip32/public_key.rs:31-34, fingerprint *)
Definition public_fingerprint (P : point) : bytes := firstn 4 (ripemd160 (sha256 (public_to_bytes P))).

(** ** src/bip32/extended_key/extended_private_key.rs and extended_public_key.rs
    The key derivation takes HMAC-SHA512 as a parameter, to be able to speak about hash outputs nobody can
    exhibit; [hmac_sha512] is plugged in below. *)

(** src/bip32/extended_key/extended_private_key.rs:36-42 *)
Record xprv := mkXPrv { private_key : Z; xprv_attrs : attrs }.
(** src/bip32/extended_key/extended_public_key.rs:24-30 *)
Record xpub := mkXPub { public_key : point; xpub_attrs : attrs }.

(** src/bip32/extended_key/extended_private_key.rs:24-26 *)
Definition bip39_domain_separator : bytes := [0x42; 0x69; 0x74; 0x63; 0x6f; 0x69; 0x6e; 0x20; 0x73; 0x65; 0x65; 0x64].
(** src/bip32/extended_key/extended_private_key.rs:63-85, new *)
Definition xprv_new_with (hmac : bytes -> bytes -> bytes) (seed : bytes) : R32 xprv :=
  if negb (existsb (N.eqb (len seed)) [16; 32; 64; 128]) then Err ESeedLength
  else
    let result := hmac bip39_domain_separator seed in
    let* k := private_from_bytes (firstn 32 result) in
    Ok (mkXPrv k (mkAttrs 0 (repeat 0 4) 0 (skipn 32 result))).
(** src/bip32/extended_key/extended_private_key.rs:97-134, derive_child *)
Definition xprv_derive_child_with (hmac : bytes -> bytes -> bytes) (x : xprv) (c : N) : R32 xprv :=
  let* d := ok_or (checked_add 8 (depth (xprv_attrs x)) 1) EDepth in
  let data := (if child_is_hardened c then [0] ++ private_to_bytes (private_key x)
               else public_to_bytes (private_public_key (private_key x))) ++ child_to_bytes c in
  let result := hmac (chain_code (xprv_attrs x)) data in
  let* k := private_derive_child (private_key x) (firstn 32 result) in
  Ok (mkXPrv k (mkAttrs d (public_fingerprint (private_public_key (private_key x))) c (skipn 32 result))).
(** src/bip32/extended_key/extended_public_key.rs:62-88, derive_child *)
Definition xpub_derive_child_with (hmac : bytes -> bytes -> bytes) (x : xpub) (c : N) : R32 xpub :=
  if child_is_hardened c then Err EChildNumber
  else
    let* d := ok_or (checked_add 8 (depth (xpub_attrs x)) 1) EDepth in
    let result := hmac (chain_code (xpub_attrs x)) (public_to_bytes (public_key x) ++ child_to_bytes c) in
    let* k := public_derive_child (public_key x) (firstn 32 result) in
    Ok (mkXPub k (mkAttrs d (public_fingerprint (public_key x)) c (skipn 32 result))).

Definition xprv_new : bytes -> R32 xprv := xprv_new_with hmac_sha512.
Definition xprv_derive_child : xprv -> N -> R32 xprv := xprv_derive_child_with hmac_sha512.
Definition xpub_derive_child : xpub -> N -> R32 xpub := xpub_derive_child_with hmac_sha512.

(** src/bip32/extended_key/extended_private_key.rs:53-60, new_from_path *)
Definition xprv_new_from_path (seed : bytes) (p : path) : R32 xprv :=
  fold_left (fun maybe_key c => let* key := maybe_key in xprv_derive_child key c) p (xprv_new seed).
(** src/bip32/extended_key/extended_private_key.rs:87-94, derive_from_path *)
Definition xprv_derive_from_path (x : xprv) (p : path) : R32 xprv :=
  fold_left (fun maybe_key c => let* key := maybe_key in xprv_derive_child key c) p (Ok x).
(** src/bip32/extended_key/extended_public_key.rs:52-59, derive_from_path *)
Definition xpub_derive_from_path (x : xpub) (p : path) : R32 xpub :=
  fold_left (fun maybe_key c => let* key := maybe_key in xpub_derive_child key c) p (Ok x).

(** src/bip32/extended_key/extended_private_key.rs:142-144 with extended_public_key.rs:112-122 *)
Definition xprv_public_key (x : xprv) : xpub := mkXPub (private_public_key (private_key x)) (xprv_attrs x).
(** src/bip32/extended_key/extended_private_key.rs:153-155 *)
Definition xprv_to_bytes (x : xprv) : bytes := private_to_bytes (private_key x).
(** src/bip32/extended_key/extended_public_key.rs:48-50, fingerprint; 91-93, to_bytes *)
Definition xpub_fingerprint (x : xpub) : bytes := public_fingerprint (public_key x).
Definition xpub_to_bytes (x : xpub) : bytes := public_to_bytes (public_key x).
(** src/bip32/extended_key/extended_private_key.rs:158-168, to_extended_key *)
Definition xprv_to_extended_key (x : xprv) (p : prefix) : extended_key := mkExt p (xprv_attrs x) (0 :: xprv_to_bytes x).
(** src/bip32/extended_key/extended_public_key.rs:96-102, to_extended_key *)
Definition xpub_to_extended_key (x : xpub) (p : prefix) : extended_key := mkExt p (xpub_attrs x) (xpub_to_bytes x).
(** src/bip32/extended_key/extended_private_key.rs:173-175, extended_public_key.rs:107-109, to_string *)
Definition xprv_to_string (x : xprv) (p : prefix) : R32 str := ek_to_string (xprv_to_extended_key x p).
Definition xpub_to_string (x : xpub) (p : prefix) : R32 str := ek_to_string (xpub_to_extended_key x p).
(** src/bip32/extended_key/extended_private_key.rs:245-254, TryFrom<ExtendedKey> *)
Definition xprv_try_from (e : extended_key) : R32 xprv :=
  if prefix_is_private (ek_prefix e) then
    let* b := index (key_bytes e) 0 in
    if b =? 0 then
      let* k := private_from_bytes (skipn 1 (key_bytes e)) in Ok (mkXPrv k (ek_attrs e))
    else Err ECrypto
  else Err ECrypto.
(** src/bip32/extended_key/extended_public_key.rs:141-150, TryFrom<ExtendedKey> *)
Definition xpub_try_from (e : extended_key) : R32 xpub :=
  if prefix_is_public (ek_prefix e) then
    let* k := public_from_bytes (key_bytes e) in Ok (mkXPub k (ek_attrs e))
  else Err ECrypto.
(** src/bip32/extended_key/extended_private_key.rs:234-236, extended_public_key.rs:130-132, FromStr *)
Definition xprv_from_str (s : str) : R32 xprv := let* e := ek_from_str s in xprv_try_from e.
Definition xpub_from_str (s : str) : R32 xpub := let* e := ek_from_str s in xpub_try_from e.

(** src/bip32/extended_key/extended_private_key.rs:182-200, ct_eq, and 218-226, PartialEq
    ([key_b] is taken from [self], as in the source) *)
Definition xprv_eq (self other : xprv) : bool :=
  let key_a := xprv_to_bytes self in
  let key_b := xprv_to_bytes self in
  bytes_eqb key_a key_b
  && (depth (xprv_attrs self) =? depth (xprv_attrs other))
  && bytes_eqb (parent_fingerprint (xprv_attrs self)) (parent_fingerprint (xprv_attrs other))
  && (child_number (xprv_attrs self) =? child_number (xprv_attrs other))
  && bytes_eqb (chain_code (xprv_attrs self)) (chain_code (xprv_attrs other)).

(** [{:?}] of a byte array, and the derived Debug of ChildNumber (child_number.rs:10) and
    ExtendedKeyAttrs (attrs.rs:7) *)
Definition debug_bytes (b : bytes) : str := lit "[" ++ join (lit ", ") (map dec_str b) ++ lit "]".
Definition debug_child (c : N) : str := lit "ChildNumber(" ++ dec_str c ++ lit ")".
Definition debug_attrs (a : attrs) : str :=
  lit "ExtendedKeyAttrs { depth: " ++ dec_str (depth a)
  ++ lit ", parent_fingerprint: " ++ debug_bytes (parent_fingerprint a)
  ++ lit ", child_number: " ++ debug_child (child_number a)
  ++ lit ", chain_code: " ++ debug_bytes (chain_code a) ++ lit " }".
Definition quote : str := [34].
(** src/bip32/extended_key/extended_private_key.rs:202-213, Debug *)
Definition xprv_debug (x : xprv) : str :=
  lit "ExtendedPrivateKey { private_key: " ++ quote ++ lit "..." ++ quote
  ++ lit ", attrs: " ++ debug_attrs (xprv_attrs x) ++ lit " }".

(** src/bip32/private_key.rs:61-72, From<&XPrv> for SecretKey *)
Definition secret_of_xprv (x : xprv) : Z := private_key x.
(** src/bip32/public_key.rs:58-68, From<&XPub> for PublicKey *)
Definition public_of_xpub (x : xpub) : point := public_key x.

(** ** src/lib.rs:14-19, ecdsa_sign
    The signature of libsecp256k1 retries until a nonce works; [fuel] bounds the number of tries and [None]
    means that more are needed.  The only error is InvalidInputLength (src/error.rs:2-6). *)
Inductive sign_error := InvalidInputLength.
Definition ecdsa_sign (fuel : nat) (secret : Z) (msg : bytes) : option (res sign_error (bytes * N)) :=
  match message_parse_slice msg with
  | None => Some (Err InvalidInputLength)
  | Some m => match sign fuel m secret with
              | None => None
              | Some (r, s, recid) => Some (Ok (signature_serialize r s, recid))
              end
  end.

(** ** src/crypto.rs:4-14, ripemd *)
Definition ripemd (msg : bytes) : str := flat_map (hex_byte false) (ripemd160 msg).
