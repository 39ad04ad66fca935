(** What programs with secrets mean without memory, who owns which block, and which blocks must be overwritten. *)
From Verif Require Import Outcome Bytes Str Secp ModelBip39 ModelBip32 ModelDrop.
Open Scope N_scope.

(** ** The meaning of a program: values that are copied, never overwritten *)
Inductive pure :=
| PMnemonic (m : mnemonic)
| PSeed (b : bytes)
| PText (s : str)
| PZeroizing (s : str)
| PXPrv (x : xprv)
| PExt (e : extended_key).
Definition of_ok {E A} (f : A -> pure) (r : res E A) : option pure := match r with Ok a => Some (f a) | _ => None end.
(** The result of a call, given the values of the variables. *)
Definition meaning (get : nat -> option pure) (o : op) : option pure :=
  match o with
  | OpFromPhrase s l => of_ok PMnemonic (from_phrase s l)
  | OpFromEntropy ent l => of_ok PMnemonic (from_entropy ent l)
  | OpNew t l rng => of_ok PMnemonic (mnemonic_new t l rng)
  | OpClone x => get x
  | OpIntoPhrase x => match get x with Some (PMnemonic m) => Some (PText (m_phrase m)) | _ => None end
  | OpDisplay x =>
      match get x with
      | Some (PMnemonic m) => Some (PText (m_phrase m))
      | Some (PExt e) => of_ok PText (write_base58 e)
      | _ => None
      end
  | OpSeedNew x password => match get x with Some (PMnemonic m) => of_ok PSeed (seed_new m password) | _ => None end
  | OpXPrvNew x => match get x with Some (PSeed b) => of_ok PXPrv (xprv_new b) | _ => None end
  | OpDerive x c => match get x with Some (PXPrv k) => of_ok PXPrv (xprv_derive_child k c) | _ => None end
  | OpToExtendedKey x q => match get x with Some (PXPrv k) => Some (PExt (xprv_to_extended_key k q)) | _ => None end
  | OpTryInto x => match get x with Some (PExt e) => of_ok PXPrv (xprv_try_from e) | _ => None end
  | OpToString x q => match get x with Some (PXPrv k) => of_ok PZeroizing (write_base58 (xprv_to_extended_key k q)) | _ => None end
  | OpParse s => of_ok PExt (ek_from_str s)
  | OpDrop x => None
  end.
(** The variable that a call takes by value. *)
Definition takes (get : nat -> option pure) (o : op) : option nat :=
  match o with
  | OpIntoPhrase x => match get x with Some (PMnemonic _) => Some x | _ => None end
  | OpXPrvNew x => match get x with Some (PSeed _) => Some x | _ => None end
  | OpTryInto x => match get x with Some (PExt _) => Some x | _ => None end
  | OpDrop x => Some x
  | _ => None
  end.
(** The variables without number [x]. *)
Definition without (vs : list (option pure)) (x : nat) : list (option pure) :=
  if (x <? length vs)%nat then firstn x vs ++ None :: skipn (S x) vs else vs.
Definition after (vs : list (option pure)) (o : op) : list (option pure) :=
  let get x := nth x vs None in
  match takes get o with Some x => without vs x | None => vs end ++ [meaning get o].
Definition values (ops : list op) : list (option pure) := fold_left after ops [].

(** ** Memory *)
Definition holds (m : memory) (v : value) (p : pure) : Prop :=
  match v, p with
  | OMnemonic s l e, PMnemonic mn => read m s = Some (m_phrase mn) /\ l = m_lang mn /\ read m e = Some (m_entropy mn)
  | OSeed b, PSeed d => read m b = Some d
  | OText b, PText s => read m b = Some s
  | OZeroizing b, PZeroizing s => read m b = Some s
  | OXPrv k d f i c, PXPrv x =>
      read m k = Some (be_bytes 32 (Z.to_N (private_key x))) /\ read m c = Some (chain_code (xprv_attrs x))
      /\ d = depth (xprv_attrs x) /\ f = parent_fingerprint (xprv_attrs x) /\ i = child_number (xprv_attrs x)
  | OExt q d f i c k, PExt e =>
      q = ek_prefix e /\ read m c = Some (chain_code (ek_attrs e)) /\ read m k = Some (key_bytes e)
      /\ d = depth (ek_attrs e) /\ f = parent_fingerprint (ek_attrs e) /\ i = child_number (ek_attrs e)
  | _, _ => False
  end.
Definition slot (m : memory) (o : option value) (p : option pure) : Prop :=
  match o, p with Some v, Some q => holds m v q | None, None => True | _, _ => False end.
(** The blocks of a value, and those of all variables. *)
Definition blocks (v : value) : list nat :=
  match v with
  | OMnemonic s _ e => [b_at s; b_at e]
  | OSeed b | OText b | OZeroizing b => [b_at b]
  | OXPrv k _ _ _ c => [b_at k; b_at c]
  | OExt _ _ _ _ c k => [b_at c; b_at k]
  end.
Definition owned (vs : list (option value)) : list nat :=
  flat_map (fun o => match o with Some v => blocks v | None => [] end) vs.
Definition in_use (m : memory) (a : nat) : Prop := exists d, nth_error m a = Some (Cell d true).
(** The blocks that the documentation promises to overwrite (src/bip39/mnemonic.rs:29, src/bip39/seed.rs:17,
    extended_private_key.rs:170), and the key of an ExtendedKey. *)
Definition protected (v : value) : list nat :=
  match v with
  | OMnemonic s _ e => [b_at s; b_at e]
  | OSeed b | OZeroizing b => [b_at b]
  | OExt _ _ _ _ _ k => [b_at k]
  | OText _ | OXPrv _ _ _ _ _ => []
  end.
Definition phrase_block (v : value) (a : nat) : Prop := match v with OMnemonic s _ _ => a = b_at s | _ => False end.
