(** Programs that create, clone, use up and drop the secrets of the crate, with the memory they live in.

    A program is a list of calls; the result of call number i is variable number i.  The compiler rejects
    programs that use a variable of the wrong type or one that has been moved or dropped; here such a call
    does nothing.  Calls that return an error, and calls that panic and are caught, have no result.

    Simplified: a block is never given out again after it has been freed (so that one can look at what it
    holds); a text is kept as the list of its characters instead of their UTF-8 bytes; arrays inside a
    structure ([key_bytes], [chain_code], the scalar of a SecretKey) are blocks of their own, and moving a
    structure does not leave a copy behind; a SecretKey is kept as its 32 bytes.  Blocks that a growing
    [String] leaves behind are the subject of C71, and not counted here. *)
From Coq Require Import String.
From Verif Require Import Outcome Bytes Str Hash Nfkd Secp ModelBip39 ModelBip32 ModelFreed ModelMemory.
Open Scope N_scope.

(** ** Memory *)
Record cell := Cell { c_data : list N; c_live : bool }.
(** A block with the number of elements in use (its length is the capacity). *)
Record buf := Buf { b_at : nat; b_len : nat }.
Notation memory := (list cell).

Fixpoint put (m : memory) (a : nat) (c : cell) : memory :=
  match m, a with
  | [], _ => []
  | _ :: m', O => c :: m'
  | x :: m', S a' => x :: put m' a' c
  end.
Notation "'let?' x ':=' m 'in' k" := (match m with Some x => k | None => None end)
  (at level 61, x pattern, m at next level, k at next level, right associativity).

(** [None] is a use of memory that has been freed. *)
Definition read (m : memory) (b : buf) : option (list N) :=
  match nth_error m (b_at b) with Some (Cell d true) => Some (firstn (b_len b) d) | _ => None end.
Definition dealloc (m : memory) (b : buf) : option memory :=
  match nth_error m (b_at b) with Some (Cell d true) => Some (put m (b_at b) (Cell d false)) | _ => None end.
(** The crate zeroize 1.5.6, [Zeroize for Vec] and [for String]: the whole capacity is overwritten. *)
Definition zeroize (m : memory) (b : buf) : option memory :=
  match nth_error m (b_at b) with
  | Some (Cell d true) => Some (put m (b_at b) (Cell (repeat 0 (length d)) true))
  | _ => None
  end.
(** Blocks that a call makes and gives back without overwriting them. *)
Definition leave (m : memory) (blocks : list (list N)) : memory := m ++ map (fun d => Cell d false) blocks.
(** New blocks, all of them in use. *)
Definition alloc (m : memory) (blocks : list (list N)) : memory := m ++ map (fun d => Cell d true) blocks.
Definition fresh (m : memory) (k : nat) (data : list N) : buf := Buf (length m + k) (length data).

(** ** Values *)
(** Mnemonic (src/bip39/mnemonic.rs:39-44), Seed (src/bip39/seed.rs:23-26), String, Zeroizing<String>, XPrv
    (src/bip32/extended_key/extended_private_key.rs:35-42 with attrs.rs:8-20), ExtendedKey (mod.rs:15-27) *)
Inductive value :=
| OMnemonic (phrase : buf) (lang : language) (entropy : buf)
| OSeed (b : buf)
| OText (b : buf)
| OZeroizing (b : buf)
| OXPrv (key : buf) (depth : N) (fingerprint : bytes) (child : N) (chain : buf)
| OExt (q : prefix) (depth : N) (fingerprint : bytes) (child : N) (chain key : buf).
Record state := State { st_mem : memory; st_vars : list (option value) }.

Inductive op :=
| OpFromPhrase (s : str) (l : language)
| OpFromEntropy (entropy : bytes) (l : language)
| OpNew (t : mnemonic_type) (l : language) (rng : nat -> N)
| OpClone (x : nat)
| OpIntoPhrase (x : nat)
| OpDisplay (x : nat)
| OpSeedNew (x : nat) (password : str)
| OpXPrvNew (x : nat)
| OpDerive (x : nat) (c : N)
| OpToExtendedKey (x : nat) (q : prefix)
| OpTryInto (x : nat)
| OpToString (x : nat) (q : prefix)
| OpParse (s : str)
| OpDrop (x : nat).

(** What [Drop] does: the fields of Mnemonic are [Zeroizing] (src/bip39/mnemonic.rs:41 and 43), which
    overwrites and then frees; Seed has a [drop] of its own (src/bip39/seed.rs:86-90), and so has ExtendedKey
    (src/bip32/extended_key/mod.rs:107-111), which overwrites [key_bytes]; the structures ExtendedPrivateKey and
    ExtendedKeyAttrs have none, and SecretKey of libsecp256k1 (which is [Copy]) has none. *)
Definition drop_zeroizing (m : memory) (b : buf) : option memory := let? m' := zeroize m b in dealloc m' b.
Definition drop_value (m : memory) (v : value) : option memory :=
  match v with
  | OMnemonic phrase _ entropy => let? m' := drop_zeroizing m phrase in drop_zeroizing m' entropy
  | OSeed b => let? m' := zeroize m b in dealloc m' b
  | OText b => dealloc m b
  | OZeroizing b => drop_zeroizing m b
  | OXPrv key _ _ _ chain => let? m' := dealloc m key in dealloc m' chain
  | OExt _ _ _ _ chain key => let? m' := zeroize m key in let? m'' := dealloc m' chain in dealloc m'' key
  end.

(** Building values *)
Definition new_text (m : memory) (s : str) : memory * buf := (alloc m [s], fresh m 0 s).
Definition new_mnemonic (m : memory) (mn : mnemonic) : memory * value :=
  (alloc m [m_phrase mn; m_entropy mn],
   OMnemonic (fresh m 0 (m_phrase mn)) (m_lang mn) (fresh m 1 (m_entropy mn))).
Definition new_xprv (m : memory) (x : xprv) : memory * value :=
  let k := private_to_bytes (private_key x) in
  let a := xprv_attrs x in
  (alloc m [k; chain_code a], OXPrv (fresh m 0 k) (depth a) (parent_fingerprint a) (child_number a) (fresh m 1 (chain_code a))).
Definition new_ext (m : memory) (e : extended_key) : memory * value :=
  let a := ek_attrs e in
  (alloc m [chain_code a; key_bytes e],
   OExt (ek_prefix e) (depth a) (parent_fingerprint a) (child_number a) (fresh m 0 (chain_code a)) (fresh m 1 (key_bytes e))).
(** Reading values *)
Definition read_mnemonic (m : memory) (phrase : buf) (l : language) (entropy : buf) : option mnemonic :=
  let? s := read m phrase in let? e := read m entropy in Some (Mnemonic s l e).
Definition read_xprv (m : memory) (key : buf) (d : N) (f : bytes) (c : N) (chain : buf) : option xprv :=
  let? k := read m key in let? cc := read m chain in Some (mkXPrv (Z.of_N (be_val k)) (mkAttrs d f c cc)).
Definition read_ext (m : memory) (q : prefix) (d : N) (f : bytes) (c : N) (chain key : buf) : option extended_key :=
  let? cc := read m chain in let? k := read m key in Some (mkExt q (mkAttrs d f c cc) k).

(** The variables afterwards: [x] is moved out, the result is added. *)
Definition var (vs : list (option value)) (x : nat) : option value := nth x vs None.
Fixpoint moved {A} (vs : list (option A)) (x : nat) : list (option A) :=
  match vs, x with
  | [], _ => []
  | _ :: vs', O => None :: vs'
  | v :: vs', S x' => v :: moved vs' x'
  end.
Definition ret (m : memory) (vs : list (option value)) (r : option value) : option state := Some (State m (vs ++ [r])).

(** [#[derive(Clone)]] (src/bip39/mnemonic.rs:39, src/bip39/seed.rs:23, extended_private_key.rs:35, mod.rs:15) and
    [Clone] of String and Zeroizing: the elements in use are copied to new blocks *)
Definition clone_value (m : memory) (v : value) : option (memory * value) :=
  match v with
  | OMnemonic p l e => let? mn := read_mnemonic m p l e in Some (new_mnemonic m mn)
  | OSeed b => let? d := read m b in let '(m', b') := new_text m d in Some (m', OSeed b')
  | OText b => let? d := read m b in let '(m', b') := new_text m d in Some (m', OText b')
  | OZeroizing b => let? d := read m b in let '(m', b') := new_text m d in Some (m', OZeroizing b')
  | OXPrv key d f c chain =>
      let? k := read m key in
      let? cc := read m chain in
      Some (alloc m [k; cc], OXPrv (fresh m 0 k) d f c (fresh m 1 cc))
  | OExt q d f c chain key => let? e := read_ext m q d f c chain key in Some (new_ext m e)
  end.

(** src/bip39/mnemonic.rs:143-161, Mnemonic::from_phrase.  The entropy keeps the block of the bit writer, in
    which the checksum is still there behind the elements in use ([truncate], line 209). *)
Definition from_phrase_op (m : memory) (vs : list (option value)) (s : str) (l : language) : option state :=
  let phrase := iter_join (lit " ") (map nfkd (split_whitespace s)) in
  let '(r, v) := phrase_to_entropy_mem phrase l in
  match r with
  | Ok entropy =>
      let m := leave m (v_freed v) in
      ret (alloc m [phrase; v_data v]) vs
          (Some (OMnemonic (fresh m 0 phrase) l (Buf (length m + 1) (length entropy))))
  | _ =>
      let m := leave m (vec_dropped v) in
      let '(m, b) := new_text m phrase in
      let? m := drop_zeroizing m b in ret m vs None
  end.
(** src/bip32/extended_key/mod.rs:59-66, [Display], through [ToString] of the standard library *)
Definition display_ext (m : memory) (e : extended_key) : memory * option str :=
  let '(r, buf) := ek_display_mem e in (leave m [buf], match r with Ok s => Some s | _ => None end).

Definition step (st : state) (o : op) : option state :=
  let '(State m vs) := st in
  match o with
  | OpFromPhrase s l => from_phrase_op m vs s l
  | OpFromEntropy ent l =>
      (* src/bip39/mnemonic.rs:87-92 *)
      match from_entropy ent l with
      | Ok mn => let '(m', v) := new_mnemonic m mn in ret m' vs (Some v)
      | _ => ret m vs None
      end
  | OpNew t l rng =>
      (* src/bip39/mnemonic.rs:66-70 *)
      match mnemonic_new t l rng with
      | Ok mn => let '(m', v) := new_mnemonic m mn in ret m' vs (Some v)
      | _ => ret m vs None
      end
  | OpClone x =>
      match var vs x with
      | Some v => let? (m', v') := clone_value m v in ret m' vs (Some v')
      | None => ret m vs None
      end
  | OpIntoPhrase x =>
      (* src/bip39/mnemonic.rs:229-233 and 322-326: the phrase is exchanged for a new, empty one, then [self]
         is dropped *)
      match var vs x with
      | Some (OMnemonic phrase l entropy) =>
          let '(m', empty) := new_text m [] in
          let? m'' := drop_value m' (OMnemonic empty l entropy) in ret m'' (moved vs x) (Some (OText phrase))
      | _ => ret m vs None
      end
  | OpDisplay x =>
      (* src/bip39/mnemonic.rs:282-286, src/bip32/extended_key/mod.rs:59-66 *)
      match var vs x with
      | Some (OMnemonic p l e) =>
          let? mn := read_mnemonic m p l e in
          let '(m', b) := new_text m (mnemonic_display mn) in ret m' vs (Some (OText b))
      | Some (OExt q d f c chain key) =>
          let? e := read_ext m q d f c chain key in
          let '(m', o) := display_ext m e in
          match o with
          | Some s => let '(m'', b) := new_text m' s in ret m'' vs (Some (OText b))
          | None => ret m' vs None
          end
      | _ => ret m vs None
      end
  | OpSeedNew x password =>
      (* src/bip39/seed.rs:32-38 *)
      match var vs x with
      | Some (OMnemonic p l e) =>
          let? mn := read_mnemonic m p l e in
          let '(r, rest) := seed_new_mem mn password in
          let m := leave m rest in
          match r with
          | Ok bytes => let '(m', b) := new_text m bytes in ret m' vs (Some (OSeed b))
          | _ => ret m vs None
          end
      | _ => ret m vs None
      end
  | OpXPrvNew x =>
      (* src/bip32/extended_key/extended_private_key.rs:63-85: the seed is taken by value, so it is dropped on
         return *)
      match var vs x with
      | Some (OSeed b) =>
          let? seed := read m b in
          let? m := drop_value m (OSeed b) in
          match xprv_new seed with
          | Ok k => let '(m', v) := new_xprv m k in ret m' (moved vs x) (Some v)
          | _ => ret m (moved vs x) None
          end
      | _ => ret m vs None
      end
  | OpDerive x c =>
      (* extended_private_key.rs:97-134 *)
      match var vs x with
      | Some (OXPrv key d f i chain) =>
          let? k := read_xprv m key d f i chain in
          match xprv_derive_child k c with
          | Ok k' => let '(m', v) := new_xprv m k' in ret m' vs (Some v)
          | _ => ret m vs None
          end
      | _ => ret m vs None
      end
  | OpToExtendedKey x q =>
      (* extended_private_key.rs:158-168 *)
      match var vs x with
      | Some (OXPrv key d f i chain) =>
          let? k := read_xprv m key d f i chain in
          let '(m', v) := new_ext m (xprv_to_extended_key k q) in ret m' vs (Some v)
      | _ => ret m vs None
      end
  | OpTryInto x =>
      (* extended_private_key.rs:245-254: taken by value, dropped on return *)
      match var vs x with
      | Some (OExt q d f i chain key) =>
          let? e := read_ext m q d f i chain key in
          let? m := drop_value m (OExt q d f i chain key) in
          match xprv_try_from e with
          | Ok k => let '(m', v) := new_xprv m k in ret m' (moved vs x) (Some v)
          | _ => ret m (moved vs x) None
          end
      | _ => ret m vs None
      end
  | OpToString x q =>
      (* extended_private_key.rs:173-175: the ExtendedKey is dropped at the end of the statement *)
      match var vs x with
      | Some (OXPrv key d f i chain) =>
          let? k := read_xprv m key d f i chain in
          let '(m1, e) := new_ext m (xprv_to_extended_key k q) in
          let '(m2, o) := display_ext m1 (xprv_to_extended_key k q) in
          let? m3 := drop_value m2 e in
          match o with
          | Some s => let '(m4, b) := new_text m3 s in ret m4 vs (Some (OZeroizing b))
          | None => ret m3 vs None
          end
      | _ => ret m vs None
      end
  | OpParse s =>
      (* src/bip32/extended_key/mod.rs:68-105 *)
      let '(r, rest) := ek_from_str_mem s in
      let m := leave m [rest] in
      match r with
      | Ok e => let '(m', v) := new_ext m e in ret m' vs (Some v)
      | _ => ret m vs None
      end
  | OpDrop x =>
      match var vs x with
      | Some v => let? m' := drop_value m v in ret m' (moved vs x) None
      | None => ret m vs None
      end
  end.
Fixpoint run_from (st : state) (ops : list op) : option state :=
  match ops with
  | [] => Some st
  | o :: ops' => let? st' := step st o in run_from st' ops'
  end.
Definition run (ops : list op) : option state := run_from (State [] []) ops.
