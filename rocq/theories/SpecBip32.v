(** What BIP32, Base58Check and the text formats say, without reference to the functions of the model.
    Shared with the model: the record types, SHA-256, HMAC-SHA512, RIPEMD-160 (checked against published
    vectors) and the curve of SpecSecp.v. *)
From Coq Require Import String.
From Verif Require Import Outcome Bytes Str Hash Ripemd Secp SpecSecp ModelBip32.
Open Scope N_scope.

(** ** Positional notation and Base58Check *)

(** Value of a digit string, most significant digit first. *)
Definition digits_val (base : N) (ds : list N) : N := fold_left (fun acc d => acc * base + d) ds 0.
Fixpoint leading_zeros (l : list N) : nat :=
  match l with
  | 0 :: l' => S (leading_zeros l')
  | _ => 0%nat
  end.
Definition base58_symbols : list N := lit "123456789ABCDEFGHJKLMNPQRSTUVWXYZabcdefghijkmnopqrstuvwxyz".
(** The Base58 text of a byte string: the same number in base 58, with a '1' per leading zero byte. *)
Definition is_base58 (data : bytes) (s : str) : Prop :=
  exists ds, Forall (fun d => d < 58) ds /\ s = map (fun d => nth (N.to_nat d) base58_symbols 0) ds
    /\ leading_zeros ds = leading_zeros data /\ digits_val 58 ds = digits_val 256 data.
(** Base58Check: four bytes of double SHA-256 are appended first. *)
Definition base58check (payload : bytes) (s : str) : Prop :=
  is_base58 (payload ++ firstn 4 (sha256 (sha256 payload))) s.

(** ** Text of child numbers and paths *)

Definition digit_char (c : N) : Prop := 48 <= c /\ c <= 57.
Definition decimal (s : str) : N := digits_val 10 (map (fun c => c - 48) s).
(** An unsigned decimal number as written by people: digits, at least one, no superfluous leading zero. *)
Definition canonical_decimal (s : str) (v : N) : Prop :=
  s <> [] /\ Forall digit_char s /\ decimal s = v /\ (hd 0 s = 48 -> s = [48]).
Definition apostrophe : N := 39.
Definition slash : N := 47.
Definition plus_sign : N := 43.
(** [child_text s c]: s is an accepted spelling of the child number c. *)
Definition child_text (s : str) (c : N) : Prop :=
  exists sign ds (hardened : bool), (sign = [] \/ sign = [plus_sign]) /\ ds <> [] /\ Forall digit_char ds /\ decimal ds < 2 ^ 31
    /\ s = sign ++ ds ++ (if hardened then [apostrophe] else [])
    /\ c = decimal ds + (if hardened then 2 ^ 31 else 0).
(** [path_text s p]: s is m, then each component after a slash. *)
Definition path_text (s : str) (p : list N) : Prop :=
  exists comps, s = 109 :: flat_map (fun t => slash :: t) comps /\ Forall2 child_text comps p.

(** ** Fields and their ranges (the Rust types) *)
Definition u32 (x : N) : Prop := x < 2 ^ 32.
Definition has_bytes (n : nat) (b : bytes) : Prop := length b = n /\ bytes_ok b.
Definition letter (c : N) : Prop := (97 <= c /\ c <= 122) \/ (65 <= c /\ c <= 90).
Definition valid_prefix (p : prefix) : Prop := length (chars p) = 4%nat /\ Forall letter (chars p) /\ u32 (version p).
Definition valid_attrs (a : attrs) : Prop :=
  depth a < 256 /\ has_bytes 4 (parent_fingerprint a) /\ u32 (child_number a) /\ has_bytes 32 (chain_code a).
Definition valid_ext (e : extended_key) : Prop :=
  valid_prefix (ek_prefix e) /\ valid_attrs (ek_attrs e) /\ has_bytes 33 (key_bytes e).
Definition valid_xprv (x : xprv) : Prop := (0 < private_key x < secp_n)%Z /\ valid_attrs (xprv_attrs x).
Definition valid_xpub (x : xpub) : Prop :=
  public_key x <> Infinity /\ on_curve (public_key x) /\ valid_attrs (xpub_attrs x).

(** BIP32, serialization format: 4 bytes version, 1 byte depth, 4 bytes fingerprint, 4 bytes child number,
    32 bytes chain code, 33 bytes key. *)
Definition layout (v : N) (a : attrs) (key payload : bytes) : Prop :=
  exists vb cb, payload = vb ++ [depth a] ++ parent_fingerprint a ++ cb ++ chain_code a ++ key
    /\ has_bytes 4 vb /\ digits_val 256 vb = v /\ has_bytes 4 cb /\ digits_val 256 cb = child_number a
    /\ valid_attrs a /\ has_bytes 33 key.

(** The eight prefixes of the library. *)
Definition prv_prefixes : list prefix := [TPRV; XPRV; YPRV; ZPRV].
Definition pub_prefixes : list prefix := [TPUB; XPUB; YPUB; ZPUB].

(** The versions registered for them (BIP32, SLIP-132), in decimal. *)
Definition registered : list (str * N) :=
  [(lit "tprv", 70615956); (lit "tpub", 70617039); (lit "xprv", 76066276); (lit "xpub", 76067358);
   (lit "yprv", 77428856); (lit "ypub", 77429938); (lit "zprv", 78791436); (lit "zpub", 78792518)].

(** ** BIP32 key derivation *)

(** ser256 / parse256 / ser32 *)
Definition is_ser256 (k : Z) (b : bytes) : Prop := has_bytes 32 b /\ Z.of_N (digits_val 256 b) = k.
Definition is_ser32 (i : N) (b : bytes) : Prop := has_bytes 4 b /\ digits_val 256 b = i.
Definition left_half (I : bytes) : Z := Z.of_N (digits_val 256 (firstn 32 I)).
Definition right_half (I : bytes) : bytes := skipn 32 I.
Definition master_key_text : bytes := lit "Bitcoin seed".
(** The key identifier's first 32 bits. *)
Definition is_fingerprint (P : point) (f : bytes) : Prop :=
  exists b, is_compressed b P /\ f = firstn 4 (ripemd160 (sha256 b)).
(** The data hashed by CKDpriv and CKDpub. *)
Definition priv_data (k : Z) (i : N) (data : bytes) : Prop :=
  exists ib, is_ser32 i ib /\
    ((2 ^ 31 <= i /\ exists kb, is_ser256 k kb /\ data = [0] ++ kb ++ ib)
     \/ (i < 2 ^ 31 /\ exists P b, is_public_point k P /\ is_compressed b P /\ data = b ++ ib)).
Definition pub_data (K : point) (i : N) (data : bytes) : Prop :=
  exists ib b, is_ser32 i ib /\ is_compressed b K /\ data = b ++ ib.
(** The hash output is usable: parse256(I_L) is in 1..n-1. *)
Definition usable (I : bytes) : Prop := (0 < left_half I < secp_n)%Z.

(** The hash output met when deriving child c is unusable. *)
Definition priv_hash_bad (x : xprv) (c : N) : Prop :=
  exists data, priv_data (private_key x) c data /\ ~ usable (hmac_sha512 (chain_code (xprv_attrs x)) data).
Definition pub_hash_bad (y : xpub) (c : N) : Prop :=
  exists data, pub_data (public_key y) c data /\ ~ usable (hmac_sha512 (chain_code (xpub_attrs y)) data).

(** Outcome of a derivation, mapped to another kind of key. *)
Definition res_map {E A B} (f : A -> B) (m : res E A) : res E B :=
  match m with Ok a => Ok (f a) | Err e => Err e | Panic => Panic end.

(** Everything the API can build. *)
Inductive built_prefix : prefix -> Prop :=
| built_const p : In p (prv_prefixes ++ pub_prefixes) -> built_prefix p
| built_parts s v p : str_ok s -> u32 v -> from_parts_unchecked (utf8 s) v = Ok p -> built_prefix p
| built_version v p : u32 v -> prefix_from_version v = Ok p -> built_prefix p
| built_slice b p : bytes_ok b -> prefix_try_from_slice b = Ok p -> built_prefix p
| built_parsed s e : str_ok s -> ek_from_str s = Ok e -> built_prefix (ek_prefix e).
Inductive built_xprv : xprv -> Prop :=
| built_seed seed x : bytes_ok seed -> xprv_new seed = Ok x -> built_xprv x
| built_xprv_text s x : str_ok s -> xprv_from_str s = Ok x -> built_xprv x
| built_xprv_child x c y : built_xprv x -> u32 c -> xprv_derive_child x c = Ok y -> built_xprv y.
Inductive built_xpub : xpub -> Prop :=
| built_of_xprv x : built_xprv x -> built_xpub (xprv_public_key x)
| built_xpub_text s x : str_ok s -> xpub_from_str s = Ok x -> built_xpub x
| built_xpub_child x c y : built_xpub x -> u32 c -> xpub_derive_child x c = Ok y -> built_xpub y.
