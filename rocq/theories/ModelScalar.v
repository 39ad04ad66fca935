(** Private keys as libsecp256k1 0.7.1 holds them: eight words of 32 bits, least significant first (struct Scalar).
    The source is not in /repo and was not at hand: the definitions were written from memory
    of it and not compared with it (DESIGN.md, section 3).  They follow its file scalar.rs, word by word, for the functions that
    src/bip32/private_key.rs:32-58 reaches: parse, serialize and tweak_add_assign.  [Secp.v] has the same
    functions on integers; C160 proves that they agree. *)
From Verif Require Import Outcome Bytes Secp.
Open Scope N_scope.

Definition scalar := list N.

(** SECP256K1_N_0 .. SECP256K1_N_7 *)
Definition N_WORDS : scalar :=
  [0xD0364141; 0xBFD25E8C; 0xAF48A03B; 0xBAAEDCE6; 0xFFFFFFFE; 0xFFFFFFFF; 0xFFFFFFFF; 0xFFFFFFFF].
(** SECP256K1_N_C_0 .. SECP256K1_N_C_4: the words of 2^256 - n; those above are zero *)
Definition N_C_WORDS : scalar :=
  [0x2FC9BEBF; 0x402DA173; 0x50B75FC4; 0x45512319; 1; 0; 0; 0].
Definition word (s : scalar) (i : nat) : N := nth i s 0.

(** Scalar::check_overflow: is the number at least n?  The three highest words need no test for >, as those of n
    are all ones. *)
Definition check_overflow (s : scalar) : bool :=
  let lt i := word s i <? word N_WORDS i in
  let gt i := word N_WORDS i <? word s i in
  let no := (lt 7%nat || lt 6%nat || lt 5%nat || lt 4%nat)%bool in
  let yes := (gt 4%nat && negb no)%bool in
  let no := (no || lt 3%nat && negb yes)%bool in
  let yes := (yes || gt 3%nat && negb no)%bool in
  let no := (no || lt 2%nat && negb yes)%bool in
  let yes := (yes || gt 2%nat && negb no)%bool in
  let no := (no || lt 1%nat && negb yes)%bool in
  let yes := (yes || gt 1%nat && negb no)%bool in
  (yes || (word N_WORDS 0 <=? word s 0) && negb no)%bool.

(** One after the other from the lowest word: t += a_i + b_i; word i := t & 0xFFFFFFFF; t >>= 32.  The words and
    the carry left over.  [t] is a u64 and stays below 2^34. *)
Fixpoint add_words (a b : scalar) (t : N) : scalar * N :=
  match a, b with
  | x :: a', y :: b' =>
      let t := t + (x + y) in
      let '(r, c) := add_words a' b' (N.shiftr t 32) in
      (N.land t 0xFFFFFFFF :: r, c)
  | _, _ => ([], t)
  end.
(** Scalar::reduce: add o times 2^256 - n and drop what goes beyond 256 bits *)
Definition scalar_reduce (s : scalar) (o : bool) : scalar :=
  fst (add_words s (map (N.mul (if o then 1 else 0)) N_C_WORDS) 0).
(** Scalar::set_b32: the words from 32 bytes, most significant first; whether it was too large *)
Definition word_of_bytes (b : bytes) (i : nat) : N :=
  let at_ k := nth (31 - (4 * i + k)) b 0 in
  N.lor (N.lor (N.lor (at_ 0%nat) (N.shiftl (at_ 1%nat) 8)) (N.shiftl (at_ 2%nat) 16)) (N.shiftl (at_ 3%nat) 24).
Definition set_b32 (b : bytes) : scalar * bool :=
  let s := map (word_of_bytes b) [0; 1; 2; 3; 4; 5; 6; 7]%nat in
  let overflow := check_overflow s in
  (scalar_reduce s overflow, overflow).
(** Scalar::fill_b32: byte k from the word 7 - k / 4 *)
Definition b32 (s : scalar) : bytes :=
  flat_map (fun w => [N.land (N.shiftr w 24) 255; N.land (N.shiftr w 16) 255; N.land (N.shiftr w 8) 255; N.land w 255]) (rev s).
(** Scalar::is_zero: the or of all words *)
Definition scalar_is_zero (s : scalar) : bool := fold_left N.lor s 0 =? 0.
(** Scalar::add_in_place, with the debug assertion that the overflow is 0 or 1 *)
Definition scalar_add (a b : scalar) : option scalar :=
  let '(s, t) := add_words a b 0 in
  let overflow := t + (if check_overflow s then 1 else 0) in
  if overflow <? 2 then Some (scalar_reduce s (overflow =? 1)) else None.

(** SecretKey::parse, then TryFrom<Scalar> *)
Definition key_parse (b : bytes) : option scalar :=
  let '(s, overflow) := set_b32 b in
  if overflow then None else if scalar_is_zero s then None else Some s.
(** SecretKey::serialize *)
Definition key_serialize (s : scalar) : bytes := b32 s.
(** SecretKey::tweak_add_assign: [Panic] is the failing assertion, [Err] the sum zero *)
Definition key_tweak_add (s t : scalar) : res unit scalar :=
  match scalar_add s t with
  | None => Panic
  | Some v => if scalar_is_zero v then Err tt else Ok v
  end.
