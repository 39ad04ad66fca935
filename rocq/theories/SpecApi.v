(** What a program that uses the crate can hold, and when its calls may panic. *)
From Coq Require Import String.
From Verif Require Import Outcome Bytes Str Nfkd ModelBip39 SpecBip39 Secp SpecSecp ModelBip32 SpecBip32 ModelApi.
Open Scope N_scope.

(** What a program can write down by itself: texts, bytes, numbers, the variants of the two public enums.
    Bytes fit into the address space, as every Rust slice does. *)
Inductive literal : value -> Prop :=
| lit_text s : str_ok s -> literal (VText s)
| lit_bytes b : bytes_ok b -> len b < 2 ^ 61 -> literal (VBytes b)
| lit_array n b : has_bytes n b -> literal (VArray n b)
| lit_num w n : n < 2 ^ w -> literal (VNum w n)
| lit_bool b : literal (VBool b)
| lit_type t : literal (VType t)
| lit_lang l : literal (VLang l).

(** The random generator gives bytes. *)
Definition environment_ok (c : call) : Prop :=
  match c with MnemonicNew _ _ rng => forall i, rng i < 256 | _ => True end.

(** Everything a program can obtain: literals, and what calls return for obtainable arguments. *)
Inductive obtainable : value -> Prop :=
| obtain_literal v : literal v -> obtainable v
| obtain_call c vs v : (forall a, In a (args c) -> obtainable a) -> environment_ok c ->
    run c = Returns vs -> In v vs -> obtainable v.
(** A call that a program can make. *)
Definition possible (c : call) : Prop := (forall a, In a (args c) -> obtainable a) /\ environment_ok c.

(** What every value satisfies, whatever the program does. *)
Definition well_formed (v : value) : Prop :=
  match v with
  | VText s => str_ok s
  | VBytes b => bytes_ok b /\ len b < 2 ^ 61
  | VArray n b => has_bytes n b
  | VNum w n => w <> 64 -> n < 2 ^ w      (* usize: the lengths of paths are not bounded in the model *)
  | VBool _ | VType _ | VLang _ => True
  | VIndex i => i < 2 ^ 16
  | VMnemonic m => exists ws, m_phrase m = spaced ws /\ bip39_sentence (m_lang m) ws (m_entropy m)
  | VSeed b => has_bytes 64 b
  | VChild c => u32 c
  | VPath p => Forall u32 p
  | VPrefix p => valid_prefix p
  | VAttrs a => valid_attrs a
  | VExt e => valid_ext e
  | VSecret k => (0 < k < secp_n)%Z
  | VPublic P => exists k, (0 < k < secp_n)%Z /\ is_public_point k P
  | VXPrv x => (0 < private_key x < secp_n)%Z /\ valid_attrs (xprv_attrs x)
  | VXPub y => (exists k, (0 < k < secp_n)%Z /\ is_public_point k (public_key y)) /\ valid_attrs (xpub_attrs y)
  end.

(** The calls that panic. *)
Definition bad_tweak (b : bytes) : Prop := ~ (0 < Z.of_N (digits_val 256 b) < secp_n)%Z.
Inductive panicking : call -> Prop :=
| panic_index l i : 2048 <= i -> panicking (ListGetWord l i)
| panic_parts s v : ~ (length s = 4%nat /\ Forall letter s) -> panicking (PrefixFromParts s v)
| panic_secret k b : bad_tweak b -> panicking (SecretDerive k b)
| panic_public P b : bad_tweak b -> panicking (PublicDerive P b)
| panic_prv_child x c : depth (xprv_attrs x) < 255 -> priv_hash_bad x c -> panicking (XPrvDeriveChild x c)
| panic_pub_child y c : c < 2 ^ 31 -> depth (xpub_attrs y) < 255 -> pub_hash_bad y c -> panicking (XPubDeriveChild y c)
| panic_prv_path x p1 c p2 y : run (XPrvDeriveFromPath x p1) = Returns [VXPrv y] ->
    panicking (XPrvDeriveChild y c) -> panicking (XPrvDeriveFromPath x (p1 ++ c :: p2))
| panic_pub_path y p1 c p2 z : run (XPubDeriveFromPath y p1) = Returns [VXPub z] ->
    panicking (XPubDeriveChild z c) -> panicking (XPubDeriveFromPath y (p1 ++ c :: p2))
| panic_seed_path b p x : run (XPrvNew b) = Returns [VXPrv x] ->
    panicking (XPrvDeriveFromPath x p) -> panicking (XPrvNewFromPath b p).
